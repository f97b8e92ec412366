(* Props_Chunked.v -- C38 *)
From Verif Require Import GoBase GoBaseLemmas ChunkedModel.
Local Open Scope N_scope.

(* ---- hexadecimal ---- *)
Lemma hexval_digit d : d < 16 -> hexval (hexdigit d) = Some d.
Proof. intros H. unfold hexval, hexdigit. destruct (N.ltb_spec d 10). - replace ((48 <=? 48 + d) && (48 + d <=? 57)) with true by lia. f_equal. lia. - replace ((48 <=? 87 + d) && (87 + d <=? 57)) with false by lia. replace ((97 <=? 87 + d) && (87 + d <=? 102)) with true by lia. f_equal. lia. Qed.
Lemma hexval_lt b d : hexval b = Some d -> d < 16.
Proof. unfold hexval. repeat case_match; intros [= <-]; lia. Qed.
(* the number a string of hexadecimal digits stands for (no bound) *)
Fixpoint hex_number (n : N) (v : bytes) : option N :=
  match v with [] => Some n | b :: v => match hexval b with Some d => hex_number (n * 16 + d) v | None => None end end.
Lemma pow16_S i : 16 ^ (i + 1) = 16 ^ i * 16. Proof. rewrite N.add_1_r, N.pow_succ_r'. lia. Qed.
Lemma hex_shift n d : n * 16 < 2 ^ 64 -> d < 16 -> N.lor (N.shiftl n 4 mod 2 ^ 64) d = n * 16 + d.
Proof.
  intros Hn Hd. rewrite N.shiftl_mul_pow2. change (2 ^ 4) with 16. rewrite N.mod_small by done. rewrite N.lor_comm.
  replace (n * 16) with (N.shiftl n 4) by (rewrite N.shiftl_mul_pow2; done). rewrite lor_low_shift by done. rewrite N.shiftl_mul_pow2. lia.
Qed.
Lemma pow16_le i j : i <= j -> 16 ^ i <= 16 ^ j. Proof. intros. by apply N.pow_le_mono_r. Qed.
Lemma parse_hex_number i n v : n < 16 ^ i -> i + blen v <= 16 -> parse_hex i n v = match hex_number n v with Some m => inl m | None => inr CInvalidByte end.
Proof.
  revert i n. induction v as [|b v IH]; intros i n Hn Hl; cbn [parse_hex hex_number]; [done|]. rewrite blen_cons in Hl.
  destruct (hexval b) as [d|] eqn:E; [|done]. apply hexval_lt in E. destruct (N.eqb_spec i 16); [lia|].
  rewrite hex_shift; [|pose proof (pow16_le i 15 ltac:(lia)) as Hp; change (2 ^ 64) with (16 ^ 15 * 16); lia|done].
  apply IH; [|lia]. rewrite pow16_S. lia.
Qed.
(* sizes that do not fit 64 bits (17 digits or more) are refused; what is accepted is the number written there *)
Theorem C38_size_exact v n : parse_hex 0 0 v = inl n -> hex_number 0 v = Some n /\ n < 2 ^ 64.
Proof.
  intros H. destruct (N.le_gt_cases (blen v) 16) as [Hl|Hl].
  - rewrite parse_hex_number in H by (done || lia). destruct (hex_number 0 v) as [m|] eqn:E; [|done]. injection H as <-. split; [done|].
    assert (forall v n m, hex_number n v = Some m -> m < (n + 1) * 16 ^ blen v) as Hb.
    { clear. induction v as [|b v IH]; intros n m; cbn [hex_number]. - intros [= <-]. rewrite blen_nil. cbn. lia.
      - destruct (hexval b) as [d|] eqn:E; [|done]. apply hexval_lt in E. intros H%IH. rewrite blen_cons, (N.add_comm 1), pow16_S. nia. }
    apply Hb in E. pose proof (pow16_le (blen v) 16 ltac:(lia)). change (2 ^ 64) with (16 ^ 16). lia.
  - exfalso. assert (forall v i n m, parse_hex i n v = inl m -> i <= 16 -> i + blen v <= 16) as Hb; [|apply Hb in H; lia].
    clear. induction v as [|b v IH]; intros i n m; cbn [parse_hex]; intros H Hi. + rewrite blen_nil. lia.
    + destruct (hexval b); [|done]. destruct (N.eqb_spec i 16); [done|]. apply IH in H; [|lia]. rewrite blen_cons. lia.
Qed.
Theorem C38_oversize_refused v : 16 < blen v -> exists e, parse_hex 0 0 v = inr e.
Proof.
  intros Hl. destruct (parse_hex 0 0 v) as [m|e] eqn:H; [|eauto]. exfalso.
  assert (forall v i n m, parse_hex i n v = inl m -> i <= 16 -> i + blen v <= 16) as Hb; [|apply Hb in H; lia].
  clear. induction v as [|b v IH]; intros i n m; cbn [parse_hex]; intros H Hi. + rewrite blen_nil. lia.
  + destruct (hexval b); [|done]. destruct (N.eqb_spec i 16); [done|]. apply IH in H; [|lia]. rewrite blen_cons. lia.
Qed.
Lemma hex_number_app n v w : hex_number n (v ++ w) = match hex_number n v with Some m => hex_number m w | None => None end.
Proof. revert n. induction v as [|b v IH]; intros n; cbn; [done|]. destruct (hexval b); [apply IH|done]. Qed.
Lemma hex_aux_number f n : n < 16 ^ N.of_nat f -> hex_number 0 (hex_aux f n) = Some n /\ blen (hex_aux f n) <= N.of_nat f /\ Forall (fun b => b <> 10 /\ b <> 13 /\ b <> 59 /\ isASCIISpace b = false) (hex_aux f n) /\ (n <> 0 -> hex_aux f n <> []).
Proof.
  revert n. induction f as [|f IH]; intros n Hn.
  - change (16 ^ N.of_nat 0) with 1 in Hn. assert (n = 0) as -> by lia. cbn. split_and!; done.
  - cbn [hex_aux]. destruct (N.eqb_spec n 0) as [->|Hn0]; [split_and!; try done; rewrite blen_nil; lia|].
    rewrite Nat2N.inj_succ, N.pow_succ_r' in Hn. destruct (IH (n / 16)) as (H1 & H2 & H3 & _); [apply N.div_lt_upper_bound; lia|].
    assert (n mod 16 < 16) as Hm by (apply N.mod_lt; done). split_and!.
    + rewrite hex_number_app, H1. cbn [hex_number]. rewrite hexval_digit by done. f_equal. pose proof (N.div_mod n 16). lia.
    + rewrite blen_app, blen_one. lia.
    + apply Forall_app. split; [done|]. constructor; [|done]. unfold isASCIISpace, hexdigit. destruct (N.ltb_spec (n mod 16) 10); split_and!; lia.
    + intros _ E. by destruct (hex_aux f (n / 16)).
Qed.

(* ---- what a stream of chunks means, byte by byte and without any buffer ---- *)
Inductive decodes : crst -> bytes -> cerr -> Prop :=
| d_err s n e c : decodes (mkCr s n (Some e) c) [] e
| d_end_ok s n d e : decodes (mkCr s n None false) d e -> decodes (mkCr (13 :: 10 :: s) n None true) d e
| d_end_bad a b s n : (a, b) <> (13, 10) -> decodes (mkCr (a :: b :: s) n None true) [] CMalformed
| d_end_eof s n : blen s < 2 -> decodes (mkCr s n None true) [] CUnexpectedEOF
| d_head s d e : decodes (begin_chunk s) d e -> decodes (mkCr s 0 None false) d e
| d_data x s n d e : 0 < n -> decodes (mkCr s (n - 1) None (n - 1 =? 0)) d e -> decodes (mkCr (x :: s) n None false) (x :: d) e
| d_data_eof n : 0 < n -> decodes (mkCr [] n None false) [] CUnexpectedEOF.
Lemma decodes_det st d e d' e' : decodes st d e -> decodes st d' e' -> d = d' /\ e = e'.
Proof.
  intros H. revert d' e'. induction H; intros d' e' H'; inversion H'; subst; try done; eauto; try lia.
  all: try (unfold blen in *; cbn in *; lia). all: try (edestruct IHdecodes; [eassumption|]; by subst).
Qed.
Lemma decodes_data k s n d e : 0 < k -> k <= n -> k <= blen s -> decodes (mkCr (ndrop k s) (n - k) None (n - k =? 0)) d e -> decodes (mkCr s n None false) (ntake k s ++ d) e.
Proof.
  intros Hk. revert s n. induction k as [|k IH] using N.peano_ind; intros s n Hkn Hks H; [lia|]. destruct s as [|x s]; [rewrite blen_nil in Hks; lia|]. rewrite blen_cons in Hks.
  destruct (decide (k = 0)) as [->|Hk0].
  - cbn. apply d_data; [lia|]. change (ndrop (N.succ 0) (x :: s)) with s in H. done.
  - rewrite <- N.add_1_l in *. rewrite ntake_succ_cons. cbn [app]. apply d_data; [lia|].
    destruct (N.eqb_spec (n - 1) 0); [lia|]. apply IH; [lia|lia|lia|].
    assert (ndrop (1 + k) (x :: s) = ndrop k s) as E. { rewrite <- ndrop_ndrop. done. } rewrite E in H. replace (n - 1 - k) with (n - (1 + k)) by lia. done.
Qed.
(* one Read gives the beginning of it *)
Lemma cread_decodes cap g st d st' : cread cap g st d st' -> forall d2 e, decodes st' d2 e -> decodes st (d ++ d2) e.
Proof.
  induction 1; intros d2 e2 HD; cbn [app]; try done.
  - constructor; eauto.
  - inversion HD; subst. by constructor.
  - inversion HD; subst. by constructor.
  - constructor; eauto.
  - rewrite <- app_assoc. apply decodes_data; auto.
  - inversion HD; subst. by constructor.
Qed.
Theorem C38_split_independent s l st' d e : decodes (cr0 s) d e -> creads (cr0 s) l st' ->
  (exists d2, concat (map snd l) ++ d2 = d) /\ (forall e', crErr st' = Some e' -> concat (map snd l) = d /\ e' = e).
Proof.
  intros Hd Hr.
  assert (forall st l st', creads st l st' -> forall d2 e, decodes st' d2 e -> decodes st (concat (map snd l) ++ d2) e) as H.
  { induction 1 as [|st cap d0 st1 l0 st2 Hc _ IH]; intros d2 e2 H2; [done|]. cbn. rewrite <- app_assoc. eapply cread_decodes; eauto. }
  split.
  - assert (forall st l st', creads st l st' -> forall d e, decodes st d e -> exists d2, concat (map snd l) ++ d2 = d /\ decodes st' d2 e) as H2; [|destruct (H2 _ _ _ Hr _ _ Hd) as (d2 & E & _); eauto].
    clear. induction 1 as [|st cap d0 st1 l0 st2 Hc _ IH]; intros d e Hd; [by exists d|].
    assert (exists d2, d0 ++ d2 = d /\ decodes st1 d2 e) as (d2 & <- & H1).
    { clear -Hc Hd. revert d e Hd. induction Hc; intros d' e' Hd; cbn [app]; try (by eexists).
      - inversion Hd; subst; try done; eauto. unfold blen in *; cbn in *; lia.
      - inversion Hd; subst; try done. + eexists. split; [done|constructor]. + unfold blen in *; cbn in *; lia.
      - inversion Hd; subst. + unfold blen in *; cbn in *; lia. + unfold blen in *; cbn in *; lia. + eexists. split; [done|constructor].
      - inversion Hd; subst; eauto; lia.
      - assert (exists d2, decodes (mkCr (ndrop k s) (n - k) None (n - k =? 0)) d2 e' /\ ntake k s ++ d2 = d') as (d2 & HD2 & <-).
        { clear -Hd H H0 H1 H2. revert s n d' Hd H1 H2 H. clear H0. induction k as [|k IH] using N.peano_ind; intros s n d' Hd Hkn Hks Hk; [lia|]. destruct s as [|x s]; [rewrite blen_nil in Hks; lia|]. rewrite blen_cons in Hks.
          inversion Hd; subst; [lia|]. destruct (decide (k = 0)) as [->|Hk0].
          - exists d. done.
          - destruct (N.eqb_spec (n - 1) 0); [lia|]. destruct (IH s (n - 1) d) as (d2 & Hd2 & <-); [done|lia|lia|lia|]. exists d2. rewrite <- N.add_1_l. rewrite ntake_succ_cons. split; [|done].
            assert (ndrop (1 + k) (x :: s) = ndrop k s) as ->. { rewrite <- ndrop_ndrop. done. } replace (n - (1 + k)) with (n - 1 - k) by lia. done. }
        destruct (IHHc _ _ HD2) as (d3 & <- & ?). exists d3. by rewrite <- app_assoc.
      - inversion Hd; subst; [lia|]. eexists. split; [done|constructor]. }
    destruct (IH _ _ H1) as (d3 & <- & ?). exists d3. cbn. by rewrite <- app_assoc.
  - intros e' He. destruct st' as [s2 n2 er c2]. cbn in He. subst er. specialize (H _ _ _ Hr [] e' (d_err _ _ _ _)). rewrite app_nil_r in H. eapply decodes_det; eauto.
Qed.
(* a Read with room returns at least one byte or an error *)
Theorem C38_progress cap st d st' : cread cap false st d st' -> 0 < cap -> d <> [] \/ crErr st' <> None.
Proof.
  intros H Hc. remember false as g eqn:Eg. revert Eg Hc. induction H; intros Eg Hc; cbn; auto; try done; try (right; done).
  - left. intros E. apply app_eq_nil in E as [E _]. apply (f_equal blen) in E. rewrite blen_ntake, blen_nil in E. lia.
Qed.

(* ---- the round trip ---- *)
Lemma drop_space_skip r b : isASCIISpace b = false -> drop_space (b :: r) = b :: r. Proof. intros H. cbn. by rewrite H. Qed.
Lemma cut_line_app l r : Forall (fun b => b <> 10) l -> cut_line (l ++ 10 :: r) = Some (l ++ [10], r).
Proof. induction 1 as [|b l Hb _ IH]; cbn; [done|]. destruct (N.eqb_spec b 10); [done|]. by rewrite IH. Qed.
Lemma chunk_size_hex h r n : Forall (fun b => b <> 10 /\ b <> 13 /\ b <> 59 /\ isASCIISpace b = false) h -> h <> [] -> blen h <= 16 -> hex_number 0 h = Some n -> chunk_size (h ++ 13 :: 10 :: r) = inl (n, r).
Proof.
  intros Hh Hne Hl Hn. unfold chunk_size. replace (h ++ 13 :: 10 :: r) with ((h ++ [13]) ++ 10 :: r) by (by rewrite <- app_assoc).
  rewrite cut_line_app; [|apply Forall_app; split; [eapply Forall_impl; [exact Hh|by intros x (? & _)]|by repeat constructor]].
  rewrite !blen_app, !blen_one. destruct (N.leb_spec 4096 (blen h + 1 + 1)); [lia|].
  assert (trim ((h ++ [13]) ++ [10]) = h) as ->.
  { unfold trim. rewrite !rev_app_distr. cbn [rev app drop_space isASCIISpace]. change (drop_space (10 :: 13 :: rev h)) with (drop_space (rev h)).
    destruct h as [|x h _] using rev_ind; [done|]. apply Forall_app in Hh as [_ Hx]. apply Forall_cons in Hx as [(_ & _ & _ & Hx) _].
    rewrite rev_app_distr. cbn [rev app]. rewrite drop_space_skip by done. change (rev (x :: rev h) = h ++ [x]). cbn [rev]. by rewrite rev_involutive. }
  assert (cut_semi h = h) as ->. { clear -Hh. induction Hh as [|b h (_ & _ & Hb & _) _ IH]; cbn; [done|]. destruct (N.eqb_spec b 59); [done|]. by rewrite IH. }
  rewrite parse_hex_number by (done || lia). by rewrite Hn.
Qed.
Lemma to_hex_ok n : n < 2 ^ 64 -> hex_number 0 (to_hex n) = Some n /\ blen (to_hex n) <= 16 /\ Forall (fun b => b <> 10 /\ b <> 13 /\ b <> 59 /\ isASCIISpace b = false) (to_hex n) /\ to_hex n <> [].
Proof.
  intros Hn. unfold to_hex. destruct (N.eqb_spec n 0) as [->|H0].
  - split_and!; try done; by repeat constructor.
  - destruct (hex_aux_number 16 n) as (H1 & H2 & H3 & H4); [exact Hn|]. split_and!; auto.
Qed.
Theorem C38_round_trip ps trailer : Forall (fun p => blen p < 2 ^ 64) ps -> decodes (cr0 (concat (map chunk_write ps) ++ chunk_close ++ trailer)) (concat ps) CEOF.
Proof.
  unfold cr0. induction 1 as [|p ps Hp _ IH]; cbn [map concat].
  - cbn [app]. apply d_head. unfold begin_chunk.
    assert (chunk_size (chunk_close ++ trailer) = inl (0, trailer)) as ->. { apply (chunk_size_hex [48] trailer 0); [by repeat constructor|done|done|done]. }
    constructor.
  - unfold chunk_write at 1. destruct (N.eqb_spec (blen p) 0) as [E|E]; [apply blen_0 in E as ->; exact IH|].
    destruct (to_hex_ok (blen p) Hp) as (H1 & H2 & H3 & H4). apply d_head. unfold begin_chunk. rewrite <- !app_assoc. cbn [app].
    rewrite (chunk_size_hex (to_hex (blen p)) _ (blen p)) by done. destruct (N.eqb_spec (blen p) 0); [done|].
    set (q := 13 :: 10 :: _). rewrite <- (ntake_app (blen p) p q eq_refl) at 3.
    apply decodes_data; [lia|lia|rewrite blen_app; lia|]. rewrite ndrop_app by done. rewrite N.sub_diag. cbn [N.eqb]. apply d_end_ok. exact IH.
Qed.
(* written in any pieces, read with any buffers through any buffering: what came out is a beginning of what went in, and
   when an error is returned it is EOF and everything came out *)
Theorem C38_all ps trailer l st' : Forall (fun p => blen p < 2 ^ 64) ps -> creads (cr0 (concat (map chunk_write ps) ++ chunk_close ++ trailer)) l st' ->
  (exists d2, concat (map snd l) ++ d2 = concat ps) /\ (forall e, crErr st' = Some e -> concat (map snd l) = concat ps /\ e = CEOF).
Proof. intros Hp Hr. eapply C38_split_independent; [by apply C38_round_trip|done]. Qed.
(* a finding: an empty size line is taken for the last chunk *)
Theorem C38_empty_size_is_end s : decodes (cr0 (13 :: 10 :: s)) [] CEOF.
Proof. apply d_head. unfold begin_chunk. assert (chunk_size (13 :: 10 :: s) = inl (0, s)) as -> by done. constructor. Qed.
(* a case, with two Reads *)
Lemma C38_case : concat (map chunk_write [[65; 66; 67]; []; [68]]) ++ chunk_close = [51; 13; 10; 65; 66; 67; 13; 10; 49; 13; 10; 68; 13; 10; 48; 13; 10] /\
  exists st, creads (cr0 (concat (map chunk_write [[65; 66; 67]; []; [68]]) ++ chunk_close ++ [])) [(2, [65; 66]); (5, [67; 68])] st /\ crErr st = Some CEOF.
Proof.
  split; [done|]. eexists. split.
  - eapply crs_cons.
    + apply cr_head. cbn. apply (cr_data 2 false [65; 66; 67; 13; 10; 49; 13; 10; 68; 13; 10; 48; 13; 10] 3 2 []); [done|done|done|done|]. apply cr_full. done.
    + eapply crs_cons; [|apply crs_nil]. apply (cr_data 5 false [67; 13; 10; 49; 13; 10; 68; 13; 10; 48; 13; 10] 1 1 [68]); [done|done|done|done|]. cbn. apply cr_end_ok. apply cr_head. cbn.
      apply (cr_data 4 true [68; 13; 10; 48; 13; 10] 1 1 []); [done|done|done|done|]. cbn. apply cr_end_ok. apply cr_head. cbn. apply cr_err.
  - done.
Qed.
