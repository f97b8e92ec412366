(* Props_Stdio.v -- C45, C46 *)
From Verif Require Import GoBase GoBaseLemmas BufioModel FrameModel StdioModel.
Local Open Scope N_scope.

(* ---- C45 ---- *)
(* a stream without errors, in non-empty pieces *)
Definition pieces (cs : list bytes) : list rdev := map EvData cs.
Definition pieces_ok (cs : list bytes) : Prop := Forall (fun c => c <> []) cs.
(* a piece ends after the first k bytes *)
Definition cut (cs : list bytes) (k : N) : Prop := exists a b, cs = a ++ b /\ blen (concat a) = k.
(* no piece ends inside one of the four-byte lengths of the messages [ms], which start at offset [o] *)
Fixpoint lengths_whole (cs : list bytes) (o : N) (ms : list bytes) : Prop :=
  match ms with
  | [] => True
  | m :: ms => ~ cut cs (o + 1) /\ ~ cut cs (o + 2) /\ ~ cut cs (o + 3) /\ lengths_whole cs (o + 4 + blen m) ms
  end.

Lemma read_full_pieces n cs j rest : pieces_ok cs -> concat cs = j ++ rest -> blen j = n ->
  exists cs', read_full n (pieces cs) = (j, None, pieces cs') /\ pieces_ok cs' /\ concat cs' = rest /\ forall k, 0 < k -> cut cs' k -> cut cs (n + k).
Proof.
  revert n j. induction cs as [|c cs IH]; intros n j Hok He Hn; cbn [pieces map read_full].
  - cbn in He. symmetry in He. apply app_eq_nil in He as [-> ->]. cbn in Hn. subst n. cbn. exists []. split_and!; try done. 
  - apply Forall_cons in Hok as [Hc Hok]. cbn in He. destruct (N.eqb_spec n 0) as [->|Hn0].
    + apply blen_0 in Hn as ->. exists (c :: cs). split_and!; [done|by constructor|done|]. intros k _. by rewrite N.add_0_l.
    + destruct (N.leb_spec (blen c) n) as [Hle|Hgt].
      * assert (exists j', j = c ++ j' /\ concat cs = j' ++ rest) as (j' & -> & Hj').
        { exists (ndrop (blen c) j). assert (ntake (blen c) (c ++ concat cs) = ntake (blen c) (j ++ rest)) as E by by rewrite He.
          assert (ndrop (blen c) (c ++ concat cs) = ndrop (blen c) (j ++ rest)) as E2 by by rewrite He.
          rewrite ntake_app in E by done. rewrite ndrop_app in E2 by done. rewrite ntake_app_le in E by lia. rewrite ndrop_app_le in E2 by lia.
          split; [|done]. rewrite E at 1. by rewrite ntake_ndrop. }
        rewrite blen_app in Hn. destruct (IH (n - blen c) j') as (cs' & E & Hok' & Hr & Hk); [done|done|lia|]. unfold pieces in E. rewrite E. exists cs'. split_and!; try done.
        intros k Hk0 Hc'. destruct (Hk k Hk0 Hc') as (a & b & -> & Ha). exists (c :: a), b. split; [done|]. cbn. rewrite blen_app. lia.
      * assert (ntake n c = j /\ ndrop n c ++ concat cs = rest) as [Ej Er].
        { assert (ntake n (c ++ concat cs) = ntake n (j ++ rest)) as E by by rewrite He. assert (ndrop n (c ++ concat cs) = ndrop n (j ++ rest)) as E2 by by rewrite He.
          rewrite ntake_app_le in E by lia. rewrite ndrop_app_le in E2 by lia. rewrite ntake_app in E by done. rewrite ndrop_app in E2 by done. done. }
        exists (ndrop n c :: cs). rewrite Ej. split_and!; [done| |done|].
        -- constructor; [|done]. intros E. apply (f_equal blen) in E. rewrite blen_ndrop in E. cbn in E. unfold blen in *. cbn in *. lia.
        -- intros k Hk0 (a & b & E & Hk). destruct a as [|x a]; [cbn in Hk; unfold blen in Hk; cbn in Hk; lia|]. cbn in E. injection E as <- ->.
           exists (c :: a), b. split; [done|]. cbn in *. rewrite blen_app in *. rewrite blen_ndrop in Hk. lia.
Qed.
Lemma read_json_pieces cs m rest : pieces_ok cs -> blen m <= 8 * 1024 -> concat cs = write_json m ++ rest -> ~ cut cs 1 -> ~ cut cs 2 -> ~ cut cs 3 ->
  exists cs', read_json (pieces cs) = (JMessage m, pieces cs') /\ pieces_ok cs' /\ concat cs' = rest /\ forall k, 0 < k -> cut cs' k -> cut cs (4 + blen m + k).
Proof.
  intros Hok Hm He H1 H2 H3. unfold write_json in He. rewrite <- app_assoc in He. unfold read_json.
  destruct cs as [|c cs]; [done|]. apply Forall_cons in Hok as [Hc Hok].
  assert (4 <= blen c) as H4.
  { destruct (N.le_gt_cases 4 (blen c)); [done|exfalso]. assert (cut (c :: cs) (blen c)) as Hcut. { exists [c], cs. split; [done|]. cbn. by rewrite app_nil_r. }
    assert (blen c <> 0) by (intros ?%blen_0; done). assert (blen c = 1 \/ blen c = 2 \/ blen c = 3) as [E|[E|E]] by lia; rewrite E in Hcut; done. }
  destruct (read_full_pieces 4 (c :: cs) (be32 (u32 (blen m))) (m ++ rest)) as (cs1 & E1 & Hok1 & Hr1 & Hk1); [by constructor|done|done|].
  assert (src_read 4 (pieces (c :: cs)) = (be32 (u32 (blen m)), None, pieces cs1)) as ->.
  { cbn [pieces map src_read read_full] in *. change (4 =? 0) with false in E1. cbn match in E1. destruct (N.leb_spec (blen c) 4) as [Hle|Hgt].
    - replace (4 - blen c) with 0 in E1 by lia. assert (read_full 0 (map EvData cs) = ([], None, map EvData cs)) as E0 by (destruct cs; done). rewrite E0 in E1.
      rewrite app_nil_r in E1. done.
    - done. }
  unfold be32 at 1 2. cbn [length app replicate Nat.sub]. fold (be32 (u32 (blen m))). 
  assert (p32 (be32 (u32 (blen m))) = blen m) as Hp. { unfold be32, p32. rewrite rd32_be32 by apply u32_lt. apply u32_id. lia. }
  rewrite app_nil_r. unfold be32 in Hp |- *. rewrite Hp. destruct (N.ltb_spec (8 * 1024) (blen m)); [lia|].
  destruct (read_full_pieces (blen m) cs1 m rest) as (cs2 & E2 & Hok2 & Hr2 & Hk2); [done|done|done|]. rewrite E2. exists cs2. split_and!; try done.
  intros k Hk Hcut. rewrite <- N.add_assoc. apply Hk1; [lia|]. by apply Hk2.
Qed.
(* Any number of messages of at most 8 KiB, in pieces of any sizes that do not divide a length field, are read back *)
Theorem C45_round_trip_partial ms cs rest : Forall (fun m => blen m <= 8 * 1024) ms -> pieces_ok cs -> concat cs = concat (map write_json ms) ++ rest -> lengths_whole cs 0 ms ->
  exists cs', read_jsons (length ms) (pieces cs) = (map JMessage ms, pieces cs') /\ concat cs' = rest.
Proof.
  intros Hm Hok He Hl.
  assert (forall o cs0, (forall k, 0 < k -> cut cs0 k -> cut cs (o + k)) -> pieces_ok cs0 -> concat cs0 = concat (map write_json ms) ++ rest -> lengths_whole cs o ms ->
    exists cs', read_jsons (length ms) (pieces cs0) = (map JMessage ms, pieces cs') /\ concat cs' = rest) as H.
  { clear He Hl Hok. induction ms as [|m ms IH]; intros o cs0 Hsub Hok He Hl.
    - exists cs0. done.
    - apply Forall_cons in Hm as [Hm1 Hm]. cbn in He. rewrite <- app_assoc in He. destruct Hl as (L1 & L2 & L3 & Hl).
      destruct (read_json_pieces cs0 m (concat (map write_json ms) ++ rest)) as (cs1 & E1 & Hok1 & Hr1 & Hk1); try done.
      1-3: intros Hc; apply Hsub in Hc; [|lia]; tauto.
      destruct (IH Hm (o + 4 + blen m) cs1) as (cs' & E2 & Hr2); try done.
      { intros k Hk Hc. replace (o + 4 + blen m + k) with (o + (4 + blen m + k)) by lia. apply Hsub; [lia|]. by apply Hk1. }
      exists cs'. cbn [length read_jsons map]. rewrite E1, E2. done. }
  apply (H 0 cs); try done.
Qed.
(* a message over 8 KiB (of a length a uint32 can hold) is refused by the reader, without reading it *)
Theorem C45_large_refused m cs rest : 8 * 1024 < blen m < 4294967296 -> pieces_ok cs -> concat cs = write_json m ++ rest -> ~ cut cs 1 -> ~ cut cs 2 -> ~ cut cs 3 ->
  fst (read_json (pieces cs)) = JTooLarge.
Proof.
  intros Hm Hok He H1 H2 H3. unfold write_json in He. rewrite <- app_assoc in He. unfold read_json.
  destruct cs as [|c cs]; [done|]. apply Forall_cons in Hok as [Hc Hok].
  assert (4 <= blen c) as H4.
  { destruct (N.le_gt_cases 4 (blen c)); [done|exfalso]. assert (cut (c :: cs) (blen c)) as Hcut. { exists [c], cs. split; [done|]. cbn. by rewrite app_nil_r. }
    assert (blen c <> 0) by (intros ?%blen_0; done). assert (blen c = 1 \/ blen c = 2 \/ blen c = 3) as [E|[E|E]] by lia; rewrite E in Hcut; done. }
  assert (exists s', src_read 4 (pieces (c :: cs)) = (be32 (u32 (blen m)), None, s')) as [s' ->].
  { cbn in He. assert (ntake 4 c = be32 (u32 (blen m))) as E.
    { assert (ntake 4 (c ++ concat cs) = ntake 4 (be32 (u32 (blen m)) ++ m ++ rest)) as E by (by rewrite He). rewrite ntake_app_le in E by lia. rewrite E. by apply ntake_app. }
    cbn [pieces map src_read]. destruct (N.leb_spec (blen c) 4) as [Hle|Hgt]; [|rewrite E; eauto]. rewrite ntake_all in E by lia. subst c. eauto. }
  unfold be32 at 1 2. cbn [length app replicate Nat.sub]. fold (be32 (u32 (blen m))).
  assert (p32 (be32 (u32 (blen m))) = blen m) as Hp. { unfold be32, p32. rewrite rd32_be32 by apply u32_lt. apply u32_id. lia. }
  rewrite app_nil_r. unfold be32 in Hp |- *. rewrite Hp. destruct (N.ltb_spec (8 * 1024) (blen m)); [done|lia].
Qed.
(* false in general: a length that arrives in two pieces is misread: here the message {"op":"shutdown"} becomes an empty one *)
Definition shutdown_json : bytes := [123; 34; 111; 112; 34; 58; 34; 115; 104; 117; 116; 100; 111; 119; 110; 34; 125].
Theorem C45_split_length_refuted : exists cs, pieces_ok cs /\ concat cs = write_json shutdown_json /\ fst (read_json (pieces cs)) = JMessage [].
Proof. exists [[0]; [0; 0; 17] ++ shutdown_json]. split_and!; [by repeat constructor|by vm_compute|by vm_compute]. Qed.
Lemma C45_case : exists cs, pieces_ok cs /\ concat cs = concat (map write_json [shutdown_json; [123; 125]]) /\ lengths_whole cs 0 [shutdown_json; [123; 125]] /\ (length cs > 3)%nat.
Proof.
  exists [[0; 0; 0; 17]; [123; 34; 111]; [112; 34; 58; 34; 115; 104; 117; 116; 100; 111; 119; 110; 34; 125; 0; 0; 0; 2; 123]; [125]].
  split_and!; [by repeat constructor|by vm_compute| |cbn; lia].
  assert (forall k, cut [[0; 0; 0; 17]; [123; 34; 111]; [112; 34; 58; 34; 115; 104; 117; 116; 100; 111; 119; 110; 34; 125; 0; 0; 0; 2; 123]; [125]] k -> k = 0 \/ k = 4 \/ k = 7 \/ k = 26 \/ k = 27) as H.
  { intros k (a & b & E & <-). do 4 (destruct a as [|? a]; [vm_compute; auto 6|injection E as <- E]). destruct a; [vm_compute; auto 6|done]. }
  cbn [lengths_whole]. split_and!; try done; intros Hc; apply H in Hc; vm_compute in Hc; destruct_or!; done.
Qed.

(* ---- C46 ---- *)
Lemma api_loop fuel id b n : (length b < fuel)%nat -> exists ps, api_write_loop fuel id b n = (map (fun p => enc_frame (FData id p)) ps, n + blen b + 10 * blen ps) /\
  concat ps = b /\ Forall (fun p => blen p <= 4086) ps /\ (b <> [] -> Forall (fun p => p <> []) ps) /\ ps <> [].
Proof.
  revert b n. induction fuel as [|fuel IH]; intros b n Hf; [lia|]. cbn [api_write_loop]. change (4096 - 10) with 4086.
  assert (blen (ntake 4086 b) <= 4086) as Hp by (rewrite blen_ntake; lia).
  rewrite (u32_id (blen (ntake 4086 b))) by lia. set (p := ntake 4086 b) in *.
  assert (blen (be32 id ++ be16 OpData ++ be32 (blen p) ++ p) = 10 + blen p) as Hl by (rewrite !blen_app, !blen_be32, blen_be16; lia). rewrite Hl.
  destruct (N.eqb_spec (blen (ndrop 4086 b)) 0) as [E|E].
  - apply blen_0 in E. assert (p = b) as Hpb. { subst p. rewrite <- (ntake_ndrop 4086 b) at 2. rewrite E. by rewrite app_nil_r. }
    exists [p]. rewrite Hpb in *. split_and!; [|cbn; by rewrite app_nil_r|by repeat constructor|by repeat constructor|done]. f_equal. rewrite blen_one. lia.
  - assert (blen b > 4086) as Hb by (rewrite blen_ndrop in E; lia).
    destruct (IH (ndrop 4086 b) (n + (10 + blen p))) as (ps & -> & Hc & Hl2 & Hne & Hn0).
    { unfold ndrop. rewrite drop_length. unfold blen in Hb. lia. }
    exists (p :: ps). split_and!.
    + f_equal. rewrite blen_cons, blen_ndrop. subst p. rewrite blen_ntake. lia.
    + change (concat (p :: ps)) with (p ++ concat ps). rewrite Hc. apply ntake_ndrop.
    + by constructor.
    + intros _. constructor; [|apply Hne; intros E2; rewrite E2 in E; done]. intros E2. apply (f_equal blen) in E2. subst p. rewrite blen_ntake in E2. unfold blen in E2 at 2. cbn in E2. lia.
    + done.
Qed.
(* each call of the tunnel's Write carries exactly one frame; the payloads are the bytes written *)
Theorem C46_write_frames id b : exists ps, fst (api_write id b) = map (fun p => enc_frame (FData id p)) ps /\ concat ps = b /\ Forall (fun p => blen p <= 4086) ps /\
  (b <> [] -> Forall (fun p => p <> []) ps).
Proof.
  destruct (api_loop (S (length b)) id b 0) as (ps & E & Hc & Hl & Hne & _); [lia|]. exists ps. unfold api_write. rewrite E. done.
Qed.
Definition written (ops : list api_op) : bytes := concat (map (fun o => match o with AWrite b => b | AClose => [] end) ops).
Theorem C46_connection id ws closes : Forall (fun o => o <> AClose) ws -> Forall (fun o => o = AClose) closes -> closes <> [] ->
  exists ps, api_run id false (ws ++ closes) = map enc_frame (map (FData id) ps ++ [FClose id]) /\ concat ps = written ws /\ Forall (fun p => blen p <= 4086) ps.
Proof.
  intros Hw Hc Hn. induction ws as [|[b|] ws IH]; cbn [app].
  - destruct closes as [|[b|] closes]; [done|by apply Forall_cons in Hc as [? _]|]. exists []. split_and!; [|done|constructor]. cbn. f_equal.
    apply Forall_cons in Hc as [_ Hc]. clear Hn. induction closes as [|[b|] closes IH]; [done|by apply Forall_cons in Hc as [? _]|]. cbn. apply IH. by apply Forall_cons in Hc as [_ ?].
  - apply Forall_cons in Hw as [_ Hw]. destruct (IH Hw) as (ps & E & Hp & Hl). destruct (C46_write_frames id b) as (qs & E2 & Hq & Hl2 & _).
    exists (qs ++ ps). cbn [api_run]. rewrite E, E2. split_and!.
    + rewrite !map_app, !map_map, app_assoc. done.
    + rewrite concat_app, Hq, Hp. done.
    + by apply Forall_app.
  - by apply Forall_cons in Hw as [? _].
Qed.
(* false: Write does not return the number of bytes of its argument (io.Writer): it counts the headers too *)
Theorem C46_count_refuted id b : blen b < snd (api_write id b).
Proof.
  destruct (api_loop (S (length b)) id b 0) as (ps & E & _ & _ & _ & Hn); [lia|]. unfold api_write. rewrite E. cbn [snd]. destruct ps; [done|]. rewrite blen_cons. lia.
Qed.
(* false: a Write after Close still puts a data frame on the tunnel, behind the close frame *)
Theorem C46_after_close_refuted id b : exists f fs, api_run id false [AClose; AWrite b] = enc_frame (FClose id) :: enc_frame (FData id f) :: fs.
Proof.
  destruct (api_loop (S (length b)) id b 0) as (ps & E & _ & _ & _ & Hn); [lia|]. cbn [api_run]. unfold api_write. rewrite E. cbn [fst]. destruct ps as [|p ps]; [done|].
  exists p. eexists. cbn. done.
Qed.
Lemma C46_case : map blen (api_run 7 false [AWrite (replicate 5000 65); AWrite []; AClose; AClose]) = [4096; 924; 10; 6].
Proof. by vm_compute. Qed.
