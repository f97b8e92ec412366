(* Props_Op.v -- C70: messages between gt's processes *)
From Verif Require Import GoBase GoBaseLemmas BufioModel FrameModel StdioModel Props_Stdio OpModel.
Local Open Scope N_scope.

(* ---- reading back what was written ---- *)
Lemma op_read_pieces cs m rest : pieces_ok cs -> blen m <= 8192 -> concat cs = op_write m ++ rest ->
  exists cs', op_read (pieces cs) = (JMessage m, pieces cs') /\ pieces_ok cs' /\ concat cs' = rest.
Proof.
  intros Hok Hm He. unfold op_write, op_head in He. rewrite <- app_assoc in He. unfold op_read.
  destruct (read_full_pieces 4 cs (be32 (u32 (blen m))) (m ++ rest)) as (cs1 & E1 & Hok1 & Hr1 & _); [done|done|done|]. rewrite E1.
  assert (p32 (be32 (u32 (blen m))) = blen m) as Hp. { unfold be32, p32. rewrite rd32_be32 by apply u32_lt. apply u32_id. lia. }
  rewrite Hp. unfold MAX_JSON_LENGTH. destruct (N.ltb_spec (8 * 1024) (blen m)); [lia|].
  destruct (read_full_pieces (blen m) cs1 m rest) as (cs2 & E2 & Hok2 & Hr2 & _); [done..|]. rewrite E2. eauto.
Qed.
Lemma hexv_hexd d : d < 16 -> hexv (hexd d) = Some d.
Proof. intros H. unfold hexv, hexd. destruct (N.ltb_spec d 10); repeat (case_match; try lia); f_equal; lia. Qed.
Lemma hex8_bytes n : blen (hex8 n) = 8. Proof. done. Qed.
Lemma hexd_not_plus d : hexd d <> 43. Proof. unfold hexd. case_match; lia. Qed.
Lemma from_hex8 n : n < 2 ^ 32 -> from_hex (hex8 n) = Some n.
Proof.
  intros Hn. unfold hex8. cbn [fmap list_fmap]. unfold from_hex.
  rewrite (proj2 (N.eqb_neq _ 43)) by apply hexd_not_plus. cbn [digits mbind option_bind].
  assert (forall k, n / 16 ^ k mod 16 < 16) as Hd by (intros k; apply N.mod_lt; lia).
  rewrite !hexv_hexd by apply Hd. cbn [mbind option_bind].
  change (16 ^ 7) with 268435456. change (16 ^ 6) with 16777216. change (16 ^ 5) with 1048576. change (16 ^ 4) with 65536. change (16 ^ 3) with 4096.
  change (16 ^ 2) with 256. change (16 ^ 1) with 16. change (16 ^ 0) with 1. change (2 ^ 32) with 4294967296 in Hn.
  assert (n / 268435456 mod 16 = n / 268435456) as E7 by (apply N.mod_small, N.div_lt_upper_bound; lia).
  assert (forall a b, 16 * (n / (b * 16)) + n / b mod 16 = n / b \/ a = b \/ b = 0) as Hs.
  { intros a b. destruct (decide (b = 0)) as [->|Hb]; [auto|]. left. rewrite <- N.div_div by lia. symmetry. apply N.div_mod'. }
  assert (forall b, b <> 0 -> n / (b * 16) * 16 + n / b mod 16 = n / b) as Hst. { intros b Hb. rewrite <- N.div_div by lia. rewrite (N.mul_comm _ 16). symmetry. apply N.div_mod'. }
  assert (forall b, b <> 0 -> n / b <= 4294967295) as Hle. { intros b Hb. apply N.div_le_upper_bound; [done|]. nia. }
  rewrite N.mul_0_l, N.add_0_l, E7.
  repeat match goal with
  | |- context [4294967295 <? n / ?b] => destruct (N.ltb_spec 4294967295 (n / b)) as [Hx|_]; [specialize (Hle b ltac:(lia)); lia|]
  | |- context [n / ?c * 16 + n / ?b mod 16] => let H := fresh in pose proof (Hst b ltac:(lia)) as H; change (b * 16) with c in H; rewrite H; clear H
  end. by rewrite N.div_1_r.
Qed.
Lemma hex_read_pieces cs m rest : pieces_ok cs -> blen m <= 8192 -> concat cs = hex_write m ++ rest ->
  exists cs', hex_read (pieces cs) = (JMessage m, pieces cs') /\ pieces_ok cs' /\ concat cs' = rest.
Proof.
  intros Hok Hm He. unfold hex_write, hex_head in He. rewrite <- app_assoc in He. unfold hex_read.
  destruct (read_full_pieces 8 cs (hex8 (u32 (blen m))) (m ++ rest)) as (cs1 & E1 & Hok1 & Hr1 & _); [done|done|done|]. rewrite E1.
  rewrite from_hex8 by apply u32_lt. rewrite u32_id by lia. unfold MAX_JSON_LENGTH. destruct (N.ltb_spec (8 * 1024) (blen m)); [lia|].
  destruct (read_full_pieces (blen m) cs1 m rest) as (cs2 & E2 & Hok2 & Hr2 & _); [done..|]. rewrite E2. eauto.
Qed.
Lemma reads_all read write : (forall cs m rest, pieces_ok cs -> blen m <= 8192 -> concat cs = write m ++ rest ->
    exists cs', read (pieces cs) = (JMessage m, pieces cs') /\ pieces_ok cs' /\ concat cs' = rest) ->
  forall ms cs rest, Forall (fun m => blen m <= 8192) ms -> pieces_ok cs -> concat cs = concat (map write ms) ++ rest ->
    exists cs', reads read (length ms) (pieces cs) = (map JMessage ms, pieces cs') /\ pieces_ok cs' /\ concat cs' = rest.
Proof.
  intros Hone. induction ms as [|m ms IH]; intros cs rest Hm Hok He; [by exists cs|].
  apply Forall_cons in Hm as [Hm1 Hm]. cbn in He. rewrite <- app_assoc in He. destruct (Hone cs m _ Hok Hm1 He) as (cs1 & E1 & Hok1 & Hr1).
  destruct (IH cs1 rest Hm Hok1 Hr1) as (cs2 & E2 & Hr2). exists cs2. cbn [length reads map]. rewrite E1, E2. done.
Qed.

(* Any number of messages of at most 8 KiB, in pieces of any sizes, are read back one by one (with what follows left in the pipe) *)
Theorem C70_round_trip ms cs rest : Forall (fun m => blen m <= 8192) ms -> pieces_ok cs -> concat cs = concat (map op_write ms) ++ rest ->
  exists cs', reads op_read (length ms) (pieces cs) = (map JMessage ms, pieces cs') /\ concat cs' = rest.
Proof. intros Hm Hok He. destruct (reads_all op_read op_write op_read_pieces ms cs rest Hm Hok He) as (cs' & ? & _ & ?). eauto. Qed.
Theorem C70_manager_round_trip ms cs rest : Forall (fun m => blen m <= 8192) ms -> pieces_ok cs -> concat cs = concat (map hex_write ms) ++ rest ->
  exists cs', reads hex_read (length ms) (pieces cs) = (map JMessage ms, pieces cs') /\ concat cs' = rest.
Proof. intros Hm Hok He. destruct (reads_all hex_read hex_write hex_read_pieces ms cs rest Hm Hok He) as (cs' & ? & _ & ?). eauto. Qed.
(* The Go processes write what the Rust side reads: client/peerproc.go 137-146 and util/stdio.go 45-57 *)
Theorem C70_from_go ms cs rest : Forall (fun m => blen m <= 8192) ms -> pieces_ok cs -> concat cs = concat (map StdioModel.write_json ms) ++ rest ->
  exists cs', reads op_read (length ms) (pieces cs) = (map JMessage ms, pieces cs') /\ concat cs' = rest.
Proof. apply C70_round_trip. Qed.
(* A longer message is refused by the reader, whatever the pieces; its writer does not refuse it *)
Theorem C70_too_large_refuted m cs rest : 8192 < blen m < 2 ^ 32 -> pieces_ok cs ->
  (concat cs = op_write m ++ rest -> fst (op_read (pieces cs)) = JTooLarge) /\ (concat cs = hex_write m ++ rest -> fst (hex_read (pieces cs)) = JTooLarge).
Proof.
  intros Hm Hok. change (2 ^ 32) with 4294967296 in Hm. split; intros He.
  - unfold op_write, op_head in He. rewrite <- app_assoc in He. unfold op_read.
    destruct (read_full_pieces 4 cs (be32 (u32 (blen m))) (m ++ rest)) as (cs1 & E1 & _ & _ & _); [done|done|done|]. rewrite E1.
    assert (p32 (be32 (u32 (blen m))) = blen m) as ->. { unfold be32, p32. rewrite rd32_be32 by apply u32_lt. apply u32_id. lia. }
    unfold MAX_JSON_LENGTH. destruct (N.ltb_spec (8 * 1024) (blen m)); [done|lia].
  - unfold hex_write, hex_head in He. rewrite <- app_assoc in He. unfold hex_read.
    destruct (read_full_pieces 8 cs (hex8 (u32 (blen m))) (m ++ rest)) as (cs1 & E1 & _ & _ & _); [done|done|done|]. rewrite E1.
    rewrite from_hex8 by apply u32_lt. rewrite u32_id by lia. unfold MAX_JSON_LENGTH. destruct (N.ltb_spec (8 * 1024) (blen m)); [done|lia].
Qed.
(* a length field that is not eight hexadecimal digits (the first may be a +) is refused *)
Theorem C70_bad_length_refused h cs rest : length h = 8%nat -> pieces_ok cs -> concat cs = h ++ rest ->
  (exists b, b ∈ h /\ ~ (48 <= b <= 57 \/ 65 <= b <= 70 \/ 97 <= b <= 102) /\ b <> 43) -> fst (hex_read (pieces cs)) = JError EOther.
Proof.
  intros Hl Hok He (b & Hb & Hn & Hp). unfold hex_read.
  destruct (read_full_pieces 8 cs h rest) as (cs1 & E1 & _ & _ & _); [done|done|unfold blen; by rewrite Hl|]. rewrite E1.
  assert (forall s acc, b ∈ s -> digits acc s = None) as Hd.
  { induction s as [|x s IH]; intros acc Hin; [by apply elem_of_nil in Hin|]. cbn [digits]. apply elem_of_cons in Hin as [<-|Hin].
    - assert (hexv b = None) as ->; [|done]. unfold hexv. repeat (case_match; try lia); done.
    - destruct (hexv x) as [d|]; [|done]. cbn [mbind option_bind]. case_match; [done|]. by apply IH. }
  assert (from_hex h = None) as ->; [|done].
  assert (digits 0 h = None) as Hh by by apply Hd. destruct h as [|x h]; [done|]. unfold from_hex.
  destruct (decide (x = 43)) as [->|Hx].
  - rewrite N.eqb_refl. apply elem_of_cons in Hb as [->|Hb]; [done|]. destruct h; [done|]. by apply Hd.
  - by rewrite (proj2 (N.eqb_neq _ _) Hx).
Qed.

(* ---- several writers ---- *)
Lemma wrun_snoc lock head tr e : wrun lock head (tr ++ [e]) = wrun lock head tr ≫= fun s => wstep lock head s e.
Proof. unfold wrun. by rewrite fold_left_app. Qed.
Lemma wrun_inv head tr s : wrun true head tr = Some s ->
  (wPend s = ∅ /\ wStream s = concat (map (fun m => head m ++ m) (wMsgs s))) \/
  (exists t m ms, wPend s = {[t := m]} /\ wMsgs s = ms ++ [m] /\ wStream s = concat (map (fun m => head m ++ m) ms) ++ head m).
Proof.
  revert s. induction tr as [|e tr IH] using rev_ind; intros s; [intros [= <-]; by left|]. rewrite wrun_snoc. intros (s1 & H1 & He)%bind_Some.
  destruct e as [t m|t]; cbn [wstep] in He.
  - destruct (IH _ H1) as [[Hp Hs]|(t' & m' & ms & Hp & _)].
    + rewrite Hp in He. rewrite bool_decide_eq_false_2 in He by (rewrite lookup_empty; by intros []). rewrite bool_decide_eq_true_2 in He by done. cbn in He. injection He as <-.
      right. exists t, m, (wMsgs s1). cbn. by rewrite Hs.
    + assert (wPend s1 <> ∅) as Hne by (rewrite Hp; apply map_non_empty_singleton). rewrite (bool_decide_eq_false_2 (wPend s1 = ∅)) in He by done. cbn in He. by rewrite orb_true_r in He.
  - apply bind_Some in He as (m & Hl & [= <-]). destruct (IH _ H1) as [[Hp Hs]|(t' & m' & ms & Hp & Hm & Hs)]; [by rewrite Hp in Hl|].
    rewrite Hp in Hl. apply lookup_singleton_Some in Hl as [-> ->]. left. cbn. rewrite Hp, Hm, Hs. split; [apply delete_singleton|]. rewrite map_app, concat_app. cbn. by rewrite app_nil_r, <- app_assoc.
Qed.
(* The writers of the peer process take a lock: however they are scheduled, what they write is one whole message after the other *)
Theorem C70_locked_writers tr s cs : wrun true op_head tr = Some s -> wPend s = ∅ -> Forall (fun m => blen m <= 8192) (wMsgs s) -> pieces_ok cs -> concat cs = wStream s ->
  fst (reads op_read (length (wMsgs s)) (pieces cs)) = map JMessage (wMsgs s).
Proof.
  intros Hr Hp Hm Hok He. destruct (wrun_inv op_head tr s Hr) as [[_ Hs]|(t & m & ms & Hp' & _)]; [|rewrite Hp' in Hp; by apply map_non_empty_singleton in Hp].
  destruct (C70_round_trip (wMsgs s) cs [] Hm Hok) as (cs' & E & _); [by rewrite He, Hs, app_nil_r|]. by rewrite E.
Qed.
(* ... and none of them is lost or made up *)
Definition sent (tr : list wev) : list bytes := omap (fun e => match e with WHead _ m => Some m | _ => None end) tr.
Theorem C70_all_sent lock head tr s : wrun lock head tr = Some s -> wMsgs s = sent tr.
Proof.
  revert s. induction tr as [|e tr IH] using rev_ind; intros s; [by intros [= <-]|]. rewrite wrun_snoc. intros (s1 & H1 & He)%bind_Some. unfold sent in *. rewrite omap_app, <- (IH _ H1).
  destruct e; cbn [wstep] in He; [destruct (_ || _); [done|]; injection He as <-; done|]. apply bind_Some in He as (m & _ & [= <-]). cbn. by rewrite app_nil_r.
Qed.
(* The manager's writers take none: two of them at once, and the reload reads neither message *)
Theorem C70_manager_interleaved_refuted : exists tr s, wrun false hex_head tr = Some s /\ wPend s = ∅ /\ length (wMsgs s) = 2%nat /\ Forall (fun m => blen m <= 8192) (wMsgs s) /\
  fst (reads hex_read 2 (pieces [wStream s])) = [JMessage (take 3 (hex_head [2; 2; 2])); JError EOther].
Proof.
  exists [WHead 0 [1; 1; 1]; WHead 1 [2; 2; 2]; WBody 0; WBody 1]. exists (mkWst ∅ (hex_head [1; 1; 1] ++ hex_head [2; 2; 2] ++ [1; 1; 1; 2; 2; 2]) [[1; 1; 1]; [2; 2; 2]]).
  split; [apply (bool_decide_unpack _); vm_compute; exact I|]. cbn [wPend wMsgs wStream]. split; [reflexivity|]. split; [reflexivity|].
  split; [apply (bool_decide_unpack _); vm_compute; exact I|vm_compute; reflexivity].
Qed.
(* without overlap the manager's messages are whole, too *)
Theorem C70_manager_one_at_a_time_partial tr s cs : wrun true hex_head tr = Some s -> wPend s = ∅ -> Forall (fun m => blen m <= 8192) (wMsgs s) -> pieces_ok cs -> concat cs = wStream s ->
  wrun false hex_head tr = Some s /\ fst (reads hex_read (length (wMsgs s)) (pieces cs)) = map JMessage (wMsgs s).
Proof.
  intros Hr Hp Hm Hok He. split.
  - clear -Hr. revert s Hr. induction tr as [|e tr IH] using rev_ind; intros s; [done|]. rewrite !wrun_snoc. intros (s1 & H1 & He)%bind_Some. rewrite (IH _ H1). cbn.
    destruct e; [|done]. cbn [wstep] in *. destruct (bool_decide (is_Some _)); [done|]. cbn in *. by destruct (negb _).
  - destruct (wrun_inv hex_head tr s Hr) as [[_ Hs]|(t & m & ms & Hp' & _)]; [|rewrite Hp' in Hp; by apply map_non_empty_singleton in Hp].
    destruct (C70_manager_round_trip (wMsgs s) cs [] Hm Hok) as (cs' & E & _); [by rewrite He, Hs, app_nil_r|]. by rewrite E.
Qed.

(* ---- the timer of the peer process ---- *)
Lemma lrun_app a b : lrun (a ++ b) = fold_left lstep b (lrun a). Proof. unfold lrun. apply fold_left_app. Qed.
Lemma lbytes_go m got (j k : bytes) : j ++ k = m -> blen m <= 8192 -> k <> [] -> fold_left lstep (map LByte k) (mkLst (op_head m ++ j) got false) = mkLst [] (got ++ [m]) false.
Proof.
  intros Hjk Hm. revert j Hjk. induction k as [|b k IH]; intros j Hjk Hk; [done|]. cbn [map fold_left]. unfold lstep at 2. cbn [lEnd lAcc lGot].
  assert ((op_head m ++ j) ++ [b] = op_head m ++ (j ++ [b])) as -> by by rewrite app_assoc.
  unfold op_head, be32. cbn [app]. change [u8 (N.shiftr (u32 (blen m)) 24); u8 (N.shiftr (u32 (blen m)) 16); u8 (N.shiftr (u32 (blen m)) 8); u8 (u32 (blen m))] with (be32 (u32 (blen m))).
  rewrite rd32_be32 by apply u32_lt. rewrite u32_id by lia. unfold MAX_JSON_LENGTH. destruct (N.ltb_spec (8 * 1024) (blen m)); [lia|].
  destruct k as [|b' k].
  - assert (j ++ [b] = m) as -> by done. rewrite N.eqb_refl. done.
  - assert (blen m =? blen (j ++ [b]) = false) as ->. { apply N.eqb_neq. rewrite <- Hjk. unfold blen. rewrite !app_length. cbn. lia. }
    specialize (IH (j ++ [b])). unfold op_head, be32 in IH. rewrite !u32_id in IH by lia. cbn [app] in IH. apply IH; [by rewrite <- app_assoc|done].
Qed.
Lemma lhead a b c d got : fold_left lstep (map LByte [a; b; c; d]) (mkLst [] got false) =
  if MAX_JSON_LENGTH <? rd32 a b c d then mkLst [] got true else if rd32 a b c d =? 0 then mkLst [] (got ++ [[]]) false else mkLst [a; b; c; d] got false.
Proof. reflexivity. Qed.
Lemma lmsg m got : blen m <= 8192 -> fold_left lstep (map LByte (op_write m)) (mkLst [] got false) = mkLst [] (got ++ [m]) false.
Proof.
  intros Hm. unfold op_write. rewrite map_app, fold_left_app.
  assert (0 < blen m -> fold_left lstep (map LByte (op_head m)) (mkLst [] got false) = mkLst (op_head m) got false) as H1.
  { intros H0. unfold op_head. pose proof (rd32_be32 (u32 (blen m)) (u32_lt _)) as Hrd. rewrite (u32_id (blen m)) in Hrd at 5 by lia. unfold be32. rewrite lhead, Hrd.
    unfold MAX_JSON_LENGTH. destruct (N.ltb_spec (8 * 1024) (blen m)); [lia|]. destruct (N.eqb_spec (blen m) 0); [lia|done]. }
  destruct m as [|x m].
  - done.
  - rewrite H1 by (unfold blen; cbn; lia). rewrite <- (app_nil_r (op_head (x :: m))). apply (lbytes_go (x :: m) got [] (x :: m)); done.
Qed.
(* If the timer fires only between messages, each message is read *)
Fixpoint between (ms : list bytes) (timers : list nat) : list lev :=
  match ms, timers with
  | m :: ms, k :: timers => replicate k LTimer ++ map LByte (op_write m) ++ between ms timers
  | _, _ => []
  end.
Theorem C70_timer_between_partial ms timers : length timers = length ms -> Forall (fun m => blen m <= 8192) ms -> lGot (lrun (between ms timers)) = ms /\ lEnd (lrun (between ms timers)) = false.
Proof.
  intros Hl Hm. assert (forall got, fold_left lstep (between ms timers) (mkLst [] got false) = mkLst [] (got ++ ms) false) as H.
  { revert timers Hl. induction ms as [|m ms IH]; intros [|k timers] Hl got; try done; [by cbn; rewrite app_nil_r|]. apply Forall_cons in Hm as [Hm1 Hm]. cbn [between].
    rewrite !fold_left_app. assert (fold_left lstep (replicate k LTimer) (mkLst [] got false) = mkLst [] got false) as ->. { clear. induction k as [|k IH]; [done|]. exact IH. }
    rewrite lmsg by done. rewrite IH by (done || (cbn in Hl; lia)). by rewrite <- app_assoc. }
  unfold lrun. rewrite H. done.
Qed.
(* The timer fires inside a message: the bytes that were read are lost and the rest is taken for a length; here the loop, and with
   it the peer process, ends *)
Theorem C70_timer_inside_refuted : exists tr, omap (fun e => match e with LByte b => Some b | LTimer => None end) tr = concat (map op_write [[97]; [98; 99]]) /\
  lGot (lrun tr) = [] /\ lEnd (lrun tr) = true.
Proof. exists ((map LByte [0; 0; 0; 1]) ++ [LTimer] ++ map LByte [97; 0; 0; 0; 2; 98; 99]). done. Qed.
(* ... or a part of the message is taken for a message *)
Theorem C70_timer_misread_refuted : exists tr, omap (fun e => match e with LByte b => Some b | LTimer => None end) tr = concat (map op_write [[0; 0; 0; 1; 7]]) /\
  lGot (lrun tr) = [[7]] /\ lEnd (lrun tr) = false.
Proof. exists ((map LByte [0; 0; 0; 5]) ++ [LTimer] ++ map LByte [0; 0; 0; 1; 7]). done. Qed.
(* a case of each: three messages in four pieces, in single bytes, and with the timer firing between them *)
Theorem C70_witness : let ms := [[123; 125]; []; [123; 34; 97; 34; 58; 49; 125]] in
  fst (reads op_read 3 (pieces [[0; 0]; [0; 2; 123; 125; 0]; [0; 0; 0; 0; 0; 0; 7; 123; 34; 97; 34]; [58; 49; 125]])) = map JMessage ms /\
  fst (reads hex_read 3 (pieces (map (fun b => [b]) (concat (map hex_write ms))))) = map JMessage ms /\ lGot (lrun (between ms [2; 0; 1]%nat)) = ms.
Proof. by vm_compute. Qed.
