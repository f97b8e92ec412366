(* BufioProofs.v -- the buffered reader refines the plain stream. *)
From Verif Require Import GoBase GoBaseLemmas BufioModel.
Local Open Scope N_scope.

Ltac fin := try done; try (rewrite ?ndrop_0, ?blen_nil, ?blen_ndrop, ?blen_ntake; lia).

Lemma s_take_app d n s :
  s_take (length d + n) (map B d ++ s) = let '(d', e, r) := s_take n s in (d ++ d', e, r).
Proof.
  induction d as [|x d IH]; simpl.
  - destruct (s_take n s) as [[? ?] ?]; done.
  - rewrite IH. destruct (s_take n s) as [[? ?] ?]; done.
Qed.
Lemma s_take_le d n s : (n <= length d)%nat ->
  s_take n (map B d ++ s) = (take n d, None, map B (drop n d) ++ s).
Proof.
  revert n; induction d as [|x d IH]; intros [|n] Hn; simpl in *; try done; [lia|].
  rewrite IH by lia. done.
Qed.
Lemma s_take_ge d n s : (length d <= n)%nat ->
  s_take n (map B d ++ s) = let '(d', e, r) := s_take (n - length d) s in (d ++ d', e, r).
Proof. intros. replace n with (length d + (n - length d))%nat at 1 by lia. apply s_take_app. Qed.
Lemma s_take_none n s d r : s_take n s = (d, None, r) -> s = map B d ++ r /\ length d = n.
Proof.
  revert s d r; induction n as [|n IH]; intros s d r; simpl.
  - intros [= <- <-]; done.
  - destruct s as [|[b|e] s']; try done.
    destruct (s_take n s') as [[d' e'] r'] eqn:Heq. intros [= <- -> ->].
    apply IH in Heq as [-> <-]. done.
Qed.
Lemma s_take_length n s d e r : s_take n s = (d, e, r) -> (length d <= n)%nat.
Proof.
  revert s d r; induction n as [|n IH]; intros s d r; simpl.
  - intros [= <- <- <-]; simpl; lia.
  - destruct s as [|[b|e'] s']; try (intros [= <- <- <-]; simpl; lia).
    destruct (s_take n s') as [[d' e'] r'] eqn:Heq. intros [= <- -> ->].
    apply IH in Heq. simpl; lia.
Qed.

Lemma src_stream_cons e s : src_stream (e :: s) = ev_items e ++ src_stream s.
Proof. done. Qed.

Lemma src_read_spec space s : 0 < space -> src_ok s ->
  exists d e s', src_read space s = (d, e, s') /\ src_ok s' /\
  match e with
  | None => d <> [] /\ blen d <= space /\ src_stream s = map B d ++ src_stream s'
  | Some e => d = [] /\ forall n, s_take (S n) (src_stream s) = ([], Some e, src_stream s')
  end.
Proof.
  intros Hs Hok. destruct s as [|[d|e] s]; simpl.
  - exists [], (Some EEOF), []. repeat split; done.
  - apply Forall_cons_1 in Hok as [Hd Hok].
    destruct (blen d <=? space) eqn:Hle.
    + exists d, None, s. repeat split; try done. lia.
    + exists (ntake space d), None, (EvData (ndrop space d) :: s). split; [done|]. split.
      { constructor; [|done]. intros Hn. apply (f_equal blen) in Hn.
        rewrite blen_ndrop, blen_nil in Hn. lia. }
      split. { intros Hn. apply (f_equal blen) in Hn. rewrite blen_ntake, blen_nil in Hn. lia. }
      split. { rewrite blen_ntake; lia. }
      rewrite src_stream_cons; simpl. rewrite app_assoc, <- map_app, ntake_ndrop. done.
  - apply Forall_cons_1 in Hok as [_ Hok].
    exists [], (Some e), s. repeat split; done.
Qed.

Section WithCap.
Context (cap : N) (Hcap : 0 < cap).

Definition r_ok (b : reader) : Prop := rerr b = None /\ src_ok (rsrc b) /\ blen (rbuf b) <= cap.

Lemma fill_spec b : src_ok (rsrc b) -> blen (rbuf b) < cap -> rerr b = None ->
  exists b', fill cap b = Some b' /\ src_ok (rsrc b') /\ blen (rbuf b') <= cap /\
  match rerr b' with
  | None => blen (rbuf b) < blen (rbuf b') /\ r_stream b' = r_stream b
  | Some e => rbuf b' = rbuf b /\
      forall n, s_take (S n) (src_stream (rsrc b)) = ([], Some e, src_stream (rsrc b'))
  end.
Proof.
  intros Hok Hlt Hnone. unfold fill. destruct (cap <=? blen (rbuf b)) eqn:Hc; [lia|].
  destruct (src_read_spec (cap - blen (rbuf b)) (rsrc b)) as (d & e & s' & -> & Hs' & He); [lia|done|].
  eexists; split; [done|]. simpl. split; [done|].
  destruct e as [e|].
  - destruct He as [-> He]. rewrite app_nil_r. split; [lia|]. done.
  - destruct He as (Hd & Hle & Heq). rewrite blen_app, Hnone. split; [lia|].
    split. { destruct d; [done|]. rewrite blen_cons; lia. }
    unfold r_stream; simpl. rewrite map_app, Heq, app_assoc. done.
Qed.

Lemma peek_fill_spec fuel n b : r_ok b -> n <= cap -> (N.to_nat (n - blen (rbuf b)) < fuel)%nat ->
  exists b', peek_fill cap fuel n b = Some b' /\ src_ok (rsrc b') /\ blen (rbuf b') <= cap /\
  match rerr b' with
  | None => n <= blen (rbuf b') /\ r_stream b' = r_stream b
  | Some e => blen (rbuf b') < n /\
      s_take (N.to_nat n) (r_stream b) = (rbuf b', Some e, src_stream (rsrc b'))
  end.
Proof.
  revert b; induction fuel as [|fuel IH]; intros b (Hn & Hok & Hb) Hnc Hf; [lia|].
  cbn [peek_fill]. rewrite Hn.
  destruct (blen (rbuf b) <? n) eqn:Hlt; simpl.
  2:{ exists b. rewrite Hn. repeat split; try done. lia. }
  destruct (blen (rbuf b) <? cap) eqn:Hlc; simpl; [|lia].
  destruct (fill_spec b) as (b1 & -> & Hok1 & Hb1 & H1); [done|lia|done|].
  destruct (rerr b1) as [e|] eqn:He1.
  - destruct H1 as [Hbuf Ht]. destruct fuel as [|fuel']; cbn [peek_fill].
    + lia.
    + rewrite He1, !andb_false_r. exists b1. rewrite He1. rewrite Hbuf. repeat split; try done; try lia.
      unfold r_stream. rewrite s_take_ge by (unfold blen in *; lia).
      replace (N.to_nat n - length (rbuf b))%nat with (S (N.to_nat n - length (rbuf b) - 1)) by (unfold blen in *; lia).
      rewrite Ht. rewrite app_nil_r. done.
  - destruct H1 as [Hgrow Hs]. rewrite <- Hs. apply IH; [done|done|lia].
Qed.

Lemma peek_spec n b : r_ok b -> n <= cap ->
  exists d e b', peek cap n b = Some (d, e, b') /\ r_ok b' /\ s_peek n (r_stream b) = (d, e, r_stream b').
Proof.
  intros Hb Hn. unfold peek.
  destruct (peek_fill_spec (S (length (rsrc b)) + N.to_nat n) n b) as (b' & -> & Hok & Hlen & Hc);
    [done|done|lia|].
  destruct (cap <? n) eqn:Hcn; [lia|].
  destruct (rerr b') as [e|] eqn:He.
  - destruct Hc as [Hlt Ht]. destruct (blen (rbuf b') <? n) eqn:Hltb; [|lia].
    unfold readErr. rewrite He. eexists _, _, _; split; [done|]. split; [done|].
    unfold s_peek. rewrite Ht. done.
  - destruct Hc as [Hge Hs]. destruct (blen (rbuf b') <? n) eqn:Hltb; [lia|].
    eexists _, _, _; split; [done|]. split; [done|].
    unfold s_peek. rewrite <- Hs. unfold r_stream at 1.
    rewrite s_take_le by (unfold blen in *; lia).
    rewrite app_assoc, <- map_app, take_drop. done.
Qed.

Lemma readbyte_spec b : r_ok b ->
  exists r b', readbyte cap b = Some (r, b') /\ r_ok b' /\ s_byte (r_stream b) = (r, r_stream b').
Proof.
  intros (Hn & Hok & Hb). unfold readbyte. cbn [readbyte_loop].
  destruct (rbuf b) as [|c rest] eqn:Hbuf.
  2:{ eexists _, _; split; [done|]. split.
      - split; [done|]. split; [done|]. simpl. rewrite blen_cons in Hb. lia.
      - unfold r_stream. rewrite Hbuf. done. }
  rewrite Hn.
  destruct (fill_spec b) as (b1 & -> & Hok1 & Hb1 & H1); [done| |done|].
  { rewrite Hbuf, blen_nil. lia. }
  destruct (rerr b1) as [e|] eqn:He1.
  - destruct H1 as [Hbuf1 Ht]. rewrite Hbuf1, Hbuf, ?He1.
    eexists _, _; split; [done|]. split.
    { repeat split; simpl; fin. }
    unfold r_stream at 1. rewrite Hbuf. simpl. specialize (Ht O). simpl in Ht.
    destruct (src_stream (rsrc b)) as [|[x|x] s]; simpl in *; try done.
    + injection Ht as <- Ht. unfold r_stream; simpl. rewrite <- Ht. done.
    + injection Ht as <- Ht. unfold r_stream; simpl. rewrite <- Ht. done.
  - destruct H1 as [Hgrow Hs]. rewrite <- Hs. rewrite ?Hbuf, blen_nil in Hgrow.
    destruct (rbuf b1) as [|c rest] eqn:Hbuf1; [unfold blen in Hgrow; rewrite ?Hbuf1 in Hgrow; simpl in Hgrow; lia|].
    eexists _, _; split; [done|]. split.
    + split; [done|]. split; [done|]. simpl. rewrite blen_cons in Hb1. lia.
    + unfold r_stream. rewrite Hbuf1. done.
Qed.

Lemma discard_loop_spec fuel n remain b : r_ok b -> 0 < remain <= n -> (N.to_nat remain < fuel)%nat ->
  exists c e b', discard_loop cap fuel n remain b = Some (c, e, b') /\ r_ok b' /\
  exists d, s_take (N.to_nat remain) (r_stream b) = (d, e, r_stream b') /\ c = n - remain + blen d.
Proof.
  revert remain b; induction fuel as [|fuel IH]; intros remain b Hrok Hr Hf; [lia|].
  pose proof Hrok as (Hn & Hok & Hb). cbn [discard_loop].
  destruct (blen (rbuf b) =? 0) eqn:Hz.
  - assert (Hbuf : rbuf b = []) by (apply blen_0; lia).
    destruct (fill_spec b) as (b1 & -> & Hok1 & Hb1 & H1); [done|lia|done|].
    destruct (rerr b1) as [e|] eqn:He1.
    + destruct H1 as [Hbuf1 Ht]. rewrite Hbuf1, Hbuf, blen_nil. simpl.
      rewrite N.min_0_l, N.sub_0_r. destruct (remain =? 0) eqn:Hr0; [lia|].
      simpl. rewrite ?He1. eexists _, _, _; split; [done|]. split.
      { repeat split; simpl; fin. }
      exists []. split; [|rewrite blen_nil; lia].
      unfold r_stream. rewrite Hbuf. simpl.
      replace (N.to_nat remain) with (S (N.to_nat remain - 1)) by lia. rewrite Ht. done.
    + destruct H1 as [Hgrow Hs].
      set (skip := N.min (blen (rbuf b1)) remain).
      destruct (remain - skip =? 0) eqn:Hr0; simpl.
      * eexists _, _, _; split; [done|]. split.
        { repeat split; simpl; fin. }
        assert (skip = remain) by lia. exists (ntake remain (rbuf b1)). split.
        -- rewrite <- Hs. unfold r_stream; simpl. rewrite s_take_le by (unfold blen in *; lia).
           rewrite H. done.
        -- rewrite blen_ntake. lia.
      * simpl. assert (Hsk : skip = blen (rbuf b1)) by lia. rewrite ?He1.
        set (b2 := mkReader _ _ _).
        assert (r_ok b2) as Hb2.
        { repeat split; simpl; fin. }
        destruct (IH (remain - skip) b2) as (c & e & b' & -> & Hb' & d & Ht & ->); [done|lia|lia|].
        eexists _, _, _; split; [done|]. split; [done|].
        exists (rbuf b1 ++ d). split; [|rewrite blen_app; lia].
        rewrite <- Hs. unfold r_stream at 1. rewrite s_take_ge by (unfold blen in *; lia).
        replace (N.to_nat remain - length (rbuf b1))%nat with (N.to_nat (remain - skip)) by (unfold blen in *; lia).
        unfold b2, r_stream in Ht; simpl in Ht. rewrite Hsk, ndrop_all in Ht by lia. simpl in Ht.
        rewrite Hsk. rewrite Ht. done.
  - set (skip := N.min (blen (rbuf b)) remain).
    destruct (remain - skip =? 0) eqn:Hr0; simpl.
    + eexists _, _, _; split; [done|]. split.
      { repeat split; simpl; fin. }
      assert (skip = remain) by lia. exists (ntake remain (rbuf b)). split.
      * unfold r_stream; simpl. rewrite s_take_le by (unfold blen in *; lia).
        rewrite H. done.
      * rewrite blen_ntake. lia.
    + simpl. assert (Hsk : skip = blen (rbuf b)) by lia. rewrite Hn.
      set (b2 := mkReader _ _ _).
      assert (r_ok b2) as Hb2.
      { repeat split; simpl; fin. }
      destruct (IH (remain - skip) b2) as (c & e & b' & -> & Hb' & d & Ht & ->); [done|lia|lia|].
      eexists _, _, _; split; [done|]. split; [done|].
      exists (rbuf b ++ d). split; [|rewrite blen_app; lia].
      unfold r_stream at 1. rewrite s_take_ge by (unfold blen in *; lia).
      replace (N.to_nat remain - length (rbuf b))%nat with (N.to_nat (remain - skip)) by (unfold blen in *; lia).
      unfold b2, r_stream in Ht; simpl in Ht. rewrite Hsk, ndrop_all in Ht by lia. simpl in Ht.
      rewrite Hsk. rewrite Ht. done.
Qed.

Lemma discard_spec n b : r_ok b ->
  exists c e b', discard cap n b = Some (c, e, b') /\ r_ok b' /\ s_discard n (r_stream b) = (c, e, r_stream b').
Proof.
  intros Hb. unfold discard. destruct (n =? 0) eqn:Hz.
  - apply N.eqb_eq in Hz as ->. eexists _, _, _; split; [done|]. split; done.
  - destruct (discard_loop_spec (S (S (length (rsrc b)) + N.to_nat n)) n n b) as (c & e & b' & -> & Hb' & d & Ht & Hc); [done|lia|lia|].
    eexists _, _, _; split; [done|]. split; [done|]. unfold s_discard. rewrite Ht. f_equal. f_equal. lia.
Qed.

(* ---- copy ---- *)
Lemma s_copy_0 w s : s_copy 0 w s = ([], 0, None, s, w).
Proof.
  unfold s_copy. destruct w as [k|]; simpl.
  - destruct (k <? 0) eqn:H; [lia|]. rewrite (blen_nil (A:=N)), N.sub_0_r. done.
  - done.
Qed.

(* Copying after d bytes already delivered without failure. *)
Lemma s_copy_app d n w w1 s : blen d <= n ->
  match w with Some k => blen d <= k /\ w1 = Some (k - blen d) | None => w1 = None end ->
  s_copy n w (map B d ++ s) =
  let '(o, n', e, r, w') := s_copy (n - blen d) w1 s in
  (d ++ o, n', e, r, w').
Proof.
  intros Hd Hw. unfold s_copy. destruct w as [k|]; [destruct Hw as [Hw ->]|subst w1].
  - destruct (k <? n) eqn:Hk.
    + destruct (k - blen d <? n - blen d) eqn:Hk'; [|lia].
      rewrite s_take_ge by (unfold blen in *; lia).
      replace (N.to_nat (k + 1) - length d)%nat with (N.to_nat (k - blen d + 1)) by (unfold blen in *; lia).
      destruct (s_take (N.to_nat (k - blen d + 1)) s) as [[d' e'] r'] eqn:Ht.
      destruct e' as [e'|].
      * rewrite blen_app. replace (n - blen d - blen d') with (n - (blen d + blen d')) by lia.
        replace (k - blen d - blen d') with (k - (blen d + blen d')) by lia. done.
      * rewrite ntake_app_ge, ndrop_app_ge by lia.
        replace (n - blen d - (k - blen d)) with (n - k) by lia. done.
    + destruct (k - blen d <? n - blen d) eqn:Hk'; [lia|].
      rewrite s_take_ge by (unfold blen in *; lia).
      replace (N.to_nat n - length d)%nat with (N.to_nat (n - blen d)) by (unfold blen in *; lia).
      destruct (s_take (N.to_nat (n - blen d)) s) as [[d' e'] r'] eqn:Ht.
      rewrite blen_app. replace (n - blen d - blen d') with (n - (blen d + blen d')) by lia.
        replace (k - blen d - blen d') with (k - (blen d + blen d')) by lia. done.
  - rewrite s_take_ge by (unfold blen in *; lia).
    replace (N.to_nat n - length d)%nat with (N.to_nat (n - blen d)) by (unfold blen in *; lia).
    destruct (s_take (N.to_nat (n - blen d)) s) as [[d' e'] r'] eqn:Ht.
    rewrite blen_app. replace (n - blen d - blen d') with (n - (blen d + blen d')) by lia. done.
Qed.

(* One writeBuf: either it finishes the copy (done or failed) as the spec does, or it moved the
   whole buffer. *)
Lemma writeBuf_spec w n b : r_ok b -> 0 < n ->
  exists o failed n' b' w', writeBuf w n b = (o, failed, n', b', w') /\ r_ok b' /\
  rsrc b' = rsrc b /\
  (((n' =? 0) || failed = true /\ s_copy n w (r_stream b) = (o, n', if failed then Some EWrite else None, r_stream b', w')) \/
   ((n' =? 0) || failed = false /\ o = rbuf b /\ rbuf b' = [] /\ n' = n - blen (rbuf b) /\ blen (rbuf b) < n /\
     match w with Some k => blen (rbuf b) <= k /\ w' = Some (k - blen (rbuf b)) | None => w' = None end)).
Proof.
  intros (Hn & Hok & Hb) Hpos. unfold writeBuf.
  set (p := if n <? blen (rbuf b) then ntake n (rbuf b) else rbuf b).
  assert (Hp : blen p = N.min n (blen (rbuf b))).
  { unfold p. destruct (n <? blen (rbuf b)) eqn:H; rewrite ?blen_ntake; lia. }
  assert (Hpt : forall m, m <= blen p -> ntake m p = ntake m (rbuf b)).
  { intros m Hm. unfold p in *. destruct (n <? blen (rbuf b)) eqn:H; [|done].
    rewrite ntake_ntake. f_equal. lia. }
  destruct (w_write w p) as [[nw failed] w'] eqn:Hw.
  assert (Hnw : nw <= blen p).
  { unfold w_write in Hw. destruct w as [k|].
    - destruct (blen p <=? k) eqn:Hk; injection Hw as <- <- <-; lia.
    - injection Hw as <- <- <-; lia. }
  do 5 eexists. split; [done|]. split.
  { repeat split; simpl; fin. }
  split; [done|]. simpl. rewrite Hpt by done.
  unfold w_write in Hw. destruct w as [k|].
  - destruct (blen p <=? k) eqn:Hk; injection Hw as <- <- <-.
    + destruct (n - blen p =? 0) eqn:Hz; simpl.
      * left. split; [done|]. unfold s_copy. destruct (k <? n) eqn:Hkn; [lia|].
        unfold r_stream at 1. rewrite s_take_le by (unfold blen in *; lia).
        assert (blen p = n) as Hpn by lia. rewrite Hpn. simpl.
        assert (blen (take (N.to_nat n) (rbuf b)) = n) as ->.
        { change (blen (ntake n (rbuf b)) = n). rewrite blen_ntake. lia. }
        done.
      * right. assert (blen p = blen (rbuf b)) as He by lia. rewrite He.
        split; [done|]. split; [apply ntake_all; lia|]. split; [apply ndrop_all; lia|].
        repeat split; try lia.
    + left. rewrite orb_true_r. split; [done|].
      unfold s_copy. destruct (k <? n) eqn:Hkn; [|lia].
      unfold r_stream at 1. rewrite s_take_le by (unfold blen in *; lia).
      unfold r_stream; simpl. rewrite app_assoc. rewrite <- map_app.
      assert (ntake k (take (N.to_nat (k + 1)) (rbuf b)) = ntake k (rbuf b)) as ->.
      { unfold ntake. rewrite take_take. f_equal. lia. }
      assert (ndrop k (take (N.to_nat (k + 1)) (rbuf b)) ++ drop (N.to_nat (k + 1)) (rbuf b) = ndrop k (rbuf b)) as ->.
      { unfold ndrop. rewrite <- drop_app_le; [|rewrite take_length; unfold blen in *; lia].
        rewrite take_drop. done. }
      done.
  - injection Hw as <- <- <-. destruct (n - blen p =? 0) eqn:Hz; simpl.
    + left. split; [done|]. unfold s_copy.
      unfold r_stream at 1. rewrite s_take_le by (unfold blen in *; lia).
      assert (blen p = n) as Hpn by lia. rewrite Hpn. simpl.
      assert (blen (take (N.to_nat n) (rbuf b)) = n) as ->.
      { change (blen (ntake n (rbuf b)) = n). rewrite blen_ntake. lia. }
      done.
    + right. assert (blen p = blen (rbuf b)) as He by lia. rewrite He.
      split; [done|]. split; [apply ntake_all; lia|]. split; [apply ndrop_all; lia|].
      repeat split; try lia.
Qed.

(* after fill of an empty buffer: error case *)
Lemma s_copy_err n w s e s' : 0 < n -> (forall m, s_take (S m) s = ([], Some e, s')) ->
  s_copy n w s = ([], n, match e with EEOF => None | x => Some x end, s', w).
Proof.
  intros Hn Ht. unfold s_copy. destruct w as [k|].
  - destruct (k <? n) eqn:Hk.
    + replace (N.to_nat (k + 1)) with (S (N.to_nat k)) by lia. rewrite Ht.
      rewrite blen_nil, !N.sub_0_r. destruct e; done.
    + replace (N.to_nat n) with (S (N.to_nat n - 1)) by lia. rewrite Ht.
      rewrite blen_nil, !N.sub_0_r. destruct e; done.
  - replace (N.to_nat n) with (S (N.to_nat n - 1)) by lia. rewrite Ht.
    rewrite blen_nil, !N.sub_0_r. destruct e; done.
Qed.

Lemma writeTo_loop_spec fuel : forall w n out b, src_ok (rsrc b) -> blen (rbuf b) <= cap -> 0 < n ->
  (N.to_nat n < fuel)%nat ->
  (forall e, rerr b = Some e -> rbuf b = []) -> (rerr b = None -> rbuf b <> []) ->
  let s := match rerr b with Some e => E e :: src_stream (rsrc b) | None => r_stream b end in
  exists o n' e b' w', writeTo_loop cap fuel w n out b = Some (out ++ o, n', e, b', w') /\ r_ok b' /\
    s_copy n w s = (o, n', e, r_stream b', w').
Proof.
  induction fuel as [|fuel IH]; intros w n out b Hok Hb Hn Hf He1 He2; [lia|].
  cbn [writeTo_loop].
  destruct (rbuf b) as [|x0 xs] eqn:Hbuf.
  - destruct (rerr b) as [e|] eqn:He; [|by destruct He2].
    do 5 eexists. split; [rewrite <- (app_nil_r out) at 1; done|]. split.
    { repeat split; simpl; try done. }
    rewrite (s_copy_err n w _ e (src_stream (rsrc b))); [|done|done].
    unfold r_stream; simpl. destruct e; done.
  - destruct (rerr b) as [e|] eqn:He; [specialize (He1 e eq_refl); done|].
    assert (r_ok b) as Hrok. { repeat split; [done..|]. rewrite Hbuf; lia. }
    destruct (writeBuf_spec w n b) as (o & failed & n' & b1 & w1 & -> & Hb1 & Hsrc & [[Hfin Hsp]|(Hnf & -> & Hempty & Hn' & Hlt & Hw)]); [done|lia| |].
    + rewrite Hfin. do 5 eexists; split; [done|]. split; [done|]. done.
    + rewrite Hnf. destruct Hb1 as (Hb1n & Hb1ok & Hb1len).
      destruct (fill_spec b1) as (b2 & -> & Hok2 & Hlen2 & H2); [done|rewrite Hempty, blen_nil; lia|done|].
      assert (Hblen : 1 <= blen (rbuf b)) by (rewrite Hbuf, blen_cons; lia).
      destruct (IH w1 n' (out ++ rbuf b) b2) as (o2 & n2 & e2 & b3 & w3 & Hrun & Hb3 & Hs2);
        [done|done|lia|lia| | |].
      { intros e Hee. rewrite Hee in H2. destruct H2 as [-> _]; done. }
      { intros Hee. rewrite Hee in H2. destruct H2 as [H2 _]. rewrite Hempty, blen_nil in H2.
        intros Hnil. rewrite Hnil in H2. unfold blen in H2; simpl in H2. lia. }
      do 5 eexists. split; [rewrite Hrun, <- app_assoc; done|]. split; [done|].
      unfold r_stream at 1. rewrite (s_copy_app _ _ _ w1); [|lia|exact Hw].
      rewrite <- Hn'.
      replace (s_copy n' w1 (src_stream (rsrc b))) with (o2, n2, e2, r_stream b3, w3); [done|].
      rewrite <- Hs2. rewrite <- Hsrc. destruct (rerr b2) as [e|] eqn:Hee.
      * destruct H2 as [Hb2e Ht]. rewrite (s_copy_err n' w1 _ e (src_stream (rsrc b2))); [|lia|done].
        rewrite (s_copy_err n' w1 _ e (src_stream (rsrc b2))); [done|lia|done].
      * destruct H2 as [_ ->]. unfold r_stream. rewrite Hempty. done.
Qed.

Lemma writeTo_spec w n b : r_ok b ->
  exists o n' e b' w', writeTo cap w n b = Some (o, n', e, b', w') /\ r_ok b' /\
    s_copy n w (r_stream b) = (o, n', e, r_stream b', w').
Proof.
  intros Hrok. unfold writeTo. destruct (n =? 0) eqn:Hz.
  { apply N.eqb_eq in Hz as ->. do 5 eexists; split; [done|]. split; [done|]. apply s_copy_0. }
  destruct (writeBuf_spec w n b) as (o & failed & n' & b1 & w1 & -> & Hb1 & Hsrc & [[Hfin Hsp]|(Hnf & -> & Hempty & Hn' & Hlt & Hw)]); [done|lia| |].
  - rewrite Hfin. do 5 eexists; split; [done|]. split; [done|]. done.
  - rewrite Hnf. destruct Hb1 as (Hb1n & Hb1ok & Hb1len).
    destruct (blen (rbuf b1) <? cap) eqn:Hc; [|rewrite Hempty in Hc; unfold blen in Hc; simpl in Hc; lia].
    destruct (fill_spec b1) as (b2 & -> & Hok2 & Hlen2 & H2); [done|rewrite Hempty, blen_nil; lia|done|].
    destruct (writeTo_loop_spec (S (length (rsrc b2)) + N.to_nat n) w1 n' (rbuf b) b2) as (o2 & n2 & e2 & b3 & w3 & Hrun & Hb3 & Hs2);
      [done|done|lia|lia| | |].
    { intros e Hee. rewrite Hee in H2. destruct H2 as [-> _]; done. }
    { intros Hee. rewrite Hee in H2. destruct H2 as [H2 _]. rewrite Hempty, blen_nil in H2.
      intros Hnil. rewrite Hnil in H2. unfold blen in H2; simpl in H2. lia. }
    do 5 eexists. split; [exact Hrun|]. split; [done|].
    unfold r_stream at 1. rewrite (s_copy_app _ _ _ w1); [|lia|exact Hw].
    rewrite <- Hn'.
    replace (s_copy n' w1 (src_stream (rsrc b))) with (o2, n2, e2, r_stream b3, w3); [done|].
    rewrite <- Hs2. rewrite <- Hsrc. destruct (rerr b2) as [e|] eqn:Hee.
    + destruct H2 as [Hb2e Ht]. rewrite (s_copy_err n' w1 _ e (src_stream (rsrc b2))); [|lia|done].
      rewrite (s_copy_err n' w1 _ e (src_stream (rsrc b2))); [done|lia|done].
    + destruct H2 as [_ ->]. unfold r_stream. rewrite Hempty. done.
Qed.

Lemma s_take_ok n s d e r : Forall item_ok s -> s_take n s = (d, e, r) -> all_bytes d /\ Forall item_ok r.
Proof.
  revert s d r; induction n as [|n IH]; intros s d r Hs; simpl.
  - intros [= <- <- <-]. split; [constructor|done].
  - destruct s as [|[b|e'] s']; try (intros [= <- <- <-]; split; [constructor|]; by inversion Hs).
    destruct (s_take n s') as [[d' e'] r'] eqn:Heq. intros [= <- -> ->].
    apply Forall_cons_1 in Hs as [Hb Hs]. apply IH in Heq as [Hd Hr]; [|done].
    split; [by constructor|done].
Qed.
Lemma Forall_item_B d : all_bytes d -> Forall item_ok (map B d).
Proof. intros Hd. apply Forall_fmap. eapply Forall_impl; [exact Hd|]. done. Qed.
Lemma s_byte_ok s r s' : Forall item_ok s -> s_byte s = (r, s') ->
  match r with inl b => is_byte b | inr _ => True end /\ Forall item_ok s'.
Proof. intros Hs. destruct s as [|[b|e] s0]; simpl; intros [= <- <-]; [done|..]; inversion Hs; done. Qed.
Lemma s_peek_ok n s d e s' : Forall item_ok s -> s_peek n s = (d, e, s') -> all_bytes d /\ Forall item_ok s'.
Proof.
  intros Hs. unfold s_peek. destruct (s_take _ s) as [[d0 e0] r] eqn:Ht. intros [= <- <- <-].
  apply s_take_ok in Ht as [Hd Hr]; [|done]. split; [done|].
  apply Forall_app; split; [by apply Forall_item_B|done].
Qed.
Lemma s_discard_ok n s c e s' : Forall item_ok s -> s_discard n s = (c, e, s') -> Forall item_ok s'.
Proof.
  intros Hs. unfold s_discard. destruct (s_take _ s) as [[d0 e0] r] eqn:Ht. intros [= <- <- <-].
  by apply s_take_ok in Ht as [Hd Hr].
Qed.
Lemma s_copy_ok n w s o n' e s' w' : Forall item_ok s -> s_copy n w s = (o, n', e, s', w') -> Forall item_ok s'.
Proof.
  intros Hs. unfold s_copy. destruct w as [k|].
  - destruct (k <? n).
    + destruct (s_take _ s) as [[d0 e0] r] eqn:Ht. apply s_take_ok in Ht as [Hd Hr]; [|done].
      destruct e0; intros [= <- <- <- <- <-]; [done|].
      apply Forall_app; split; [|done]. apply Forall_item_B. unfold ndrop. by apply Forall_drop.
    + destruct (s_take _ s) as [[d0 e0] r] eqn:Ht. apply s_take_ok in Ht as [Hd Hr]; [|done].
      intros [= <- <- <- <- <-]; done.
  - destruct (s_take _ s) as [[d0 e0] r] eqn:Ht. apply s_take_ok in Ht as [Hd Hr]; [|done].
    intros [= <- <- <- <- <-]; done.
Qed.

Theorem run_refines {A} (m : prog A) b : r_ok b -> Forall item_ok (r_stream b) -> peeks_ok cap m ->
  exists a b', run cap m b = Some (a, b') /\ r_ok b' /\ s_run m (r_stream b) = (a, r_stream b').
Proof.
  revert b; induction m as [a|k IH|n k IH|n k IH|n w k IH]; intros b Hb Hi Hm; simpl in *.
  - eauto.
  - destruct (readbyte_spec b Hb) as (r & b' & -> & Hb' & Hs). rewrite Hs.
    apply s_byte_ok in Hs as [Hr Hi']; [|done]. apply IH; auto.
  - destruct Hm as [Hn Hm]. destruct (peek_spec n b Hb Hn) as (d & e & b' & -> & Hb' & Hs). rewrite Hs.
    apply s_peek_ok in Hs as [Hr Hi']; [|done]. apply IH; auto.
  - destruct (discard_spec n b Hb) as (c & e & b' & -> & Hb' & Hs). rewrite Hs.
    apply s_discard_ok in Hs as Hi'; [|done]. apply IH; auto.
  - destruct (writeTo_spec w n b Hb) as (o & n' & e & b' & w' & -> & Hb' & Hs). rewrite Hs.
    apply s_copy_ok in Hs as Hi'; [|done]. apply IH; auto.
Qed.
End WithCap.

Lemma s_run_bind {A C} (m : prog A) (f : A -> prog C) s :
  s_run (pbind m f) s = let '(a, s') := s_run m s in s_run (f a) s'.
Proof.
  revert s; induction m as [a|k IH|n k IH|n k IH|n w k IH]; intros s; simpl; try done.
  - destruct (s_byte s); apply IH.
  - destruct (s_peek n s) as [[? ?] ?]; apply IH.
  - destruct (s_discard n s) as [[? ?] ?]; apply IH.
  - destruct (s_copy n w s) as [[[[? ?] ?] ?] ?]; apply IH.
Qed.
Lemma peeks_ok_bind {A C} cap (m : prog A) (f : A -> prog C) :
  peeks_ok cap m -> (forall a, peeks_ok cap (f a)) -> peeks_ok cap (pbind m f).
Proof. intros Hm Hf; induction m; simpl in *; naive_solver. Qed.
