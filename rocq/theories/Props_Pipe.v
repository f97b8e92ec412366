(* Props_Pipe.v -- C39 *)
From stdpp Require Import relations.
From Verif Require Import GoBase GoBaseLemmas PipeModel.
Local Open Scope N_scope.

(* what the hand-overs give: the bytes taken from write call w, in order; those given to read call r *)
Definition taken (w : N) (l : list (N * N * bytes)) : bytes := concat (map snd (filter (fun e => fst (fst e) = w) l)).
Definition given (r : N) (l : list (N * N * bytes)) : list bytes := map snd (filter (fun e => snd (fst e) = r) l).
(* the hand-overs of one write call follow each other *)
Definition contiguous (w : N) (l : list (N * N * bytes)) : Prop :=
  exists a m z, l = a ++ m ++ z /\ Forall (fun e => fst (fst e) <> w) a /\ Forall (fun e => fst (fst e) = w) m /\ Forall (fun e => fst (fst e) <> w) z.

Arguments taken : simpl never.
Arguments given : simpl never.
Lemma taken_app w l k : taken w (l ++ k) = taken w l ++ taken w k.
Proof. unfold taken. rewrite filter_app, map_app, concat_app. done. Qed.
Lemma taken_one w w' r d : taken w [(w', r, d)] = if decide (w' = w) then d else [].
Proof. unfold taken. rewrite filter_cons. cbn. case_decide; cbn; [by rewrite app_nil_r|done]. Qed.
Lemma given_app r l k : given r (l ++ k) = given r l ++ given r k.
Proof. unfold given. rewrite filter_app, map_app. done. Qed.
Lemma given_one r w r' d : given r [(w, r', d)] = if decide (r' = r) then [d] else [].
Proof. unfold given. rewrite filter_cons. cbn. case_decide; done. Qed.

Definition crit (p : ppc) : Prop := match p with WSel _ _ _ | WAck _ _ _ => True | _ => False end.
Definition writes (w : N) (p : ppc) (s : pst) : Prop :=
  match p with
  | WSel b rest n => taken w (pLog s) = ntake n b /\ rest = ndrop n b /\ n <= blen b
  | WAck b rest n => rest = ndrop n b /\ n <= blen b /\ exists r cap d, pPc s r = RAck w cap d /\ (forall r' w' cap' d', pPc s r' = RAck w' cap' d' -> r' = r) /\ 
      d = ntake cap rest /\ taken w (pLog s) = ntake (n + blen d) b
  | WDone b n ok => taken w (pLog s) = ntake n b /\ n <= blen b /\ (ok = true -> n = blen b) /\ (ok = false -> pDone s = true)
  | _ => taken w (pLog s) = [] /\ Forall (fun e => fst (fst e) <> w) (pLog s)
  end.
Definition reads (r : N) (p : ppc) (s : pst) : Prop :=
  match p with
  | RAck w cap d => pMu s = Some w /\ given r (pLog s) = [d] /\ blen d <= cap
  | RDone cap (ROk d) => given r (pLog s) = [d] /\ blen d <= cap
  | _ => given r (pLog s) = []
  end.
Definition pinv (s : pst) : Prop :=
  (forall w, crit (pPc s w) <-> pMu s = Some w) /\
  (forall w, writes w (pPc s w) s) /\ (forall r, reads r (pPc s r) s) /\
  (forall w, contiguous w (pLog s)) /\
  (forall w, pMu s = Some w -> exists a m, pLog s = a ++ m /\ Forall (fun e => fst (fst e) <> w) a /\ Forall (fun e => fst (fst e) = w) m) /\
  (forall r w cap d, pPc s r = RAck w cap d -> exists b rest n, pPc s w = WAck b rest n).
Lemma pinv0 : pinv pst0.
Proof.
  split_and!; cbn; try done. intros w. exists [], [], []. done.
Qed.

(* steps of one thread that leave log, mutex and critical sections alone *)
Lemma pinv_local c c' m f l i p : pinv (mkPst c m f l) -> (c = true -> c' = true) ->
  ~ crit p -> ~ crit (f i) -> (forall w cap d, f i <> RAck w cap d) -> (forall w cap d, p <> RAck w cap d) ->
  writes i p (mkPst c' m (pset f i p) l) -> reads i p (mkPst c' m (pset f i p) l) ->
  pinv (mkPst c' m (pset f i p) l).
Proof.
  intros (H1 & H2 & H3 & H4 & H5 & H6) Hc Hp Hf Hra Hrp Hw Hr. cbn in *.
  assert (forall j, j <> i -> pset f i p j = f j) as Hne by (intros; unfold pset; by rewrite decide_False).
  assert (pset f i p i = p) as Heq by (unfold pset; by rewrite decide_True).
  split_and!; cbn; try done.
  - intros w. destruct (decide (w = i)) as [->|Hw']; [rewrite Heq|by rewrite Hne]. split; [done|]. intros E. exfalso. by apply Hf, H1.
  - intros w. destruct (decide (w = i)) as [->|Hw']; [by rewrite Heq|]. rewrite Hne by done. specialize (H2 w). destruct (f w) eqn:Ew; cbn in *; try done.
    + destruct H2 as (? & ? & r & cap & d & Hrd & Huniq & Hd & Ht). split_and!; [done|done|]. exists r, cap, d. 
      assert (r <> i) by (intros ->; by eapply Hra). split_and!; [by rewrite Hne| |done|done].
      intros r' w' cap' d' E. destruct (decide (r' = i)) as [->|?Hn9]; [rewrite Heq in E; by apply Hrp in E|]. rewrite Hne in E by done. eauto.
    + destruct H2 as (? & ? & ? & ?). split_and!; auto.
  - intros r. destruct (decide (r = i)) as [->|?Hn9]; [by rewrite Heq|]. rewrite Hne by done. specialize (H3 r). destruct (f r); done.
  - intros r w cap d E. destruct (decide (r = i)) as [->|?Hn9]; [rewrite Heq in E; by apply Hrp in E|]. rewrite Hne in E by done.
    destruct (H6 r w cap d E) as (b & rest & n & Ew). exists b, rest, n. rewrite Hne; [done|]. intros ->. by rewrite Ew in Hf.
Qed.
Ltac loc := match goal with Hi : pinv _, E : ?f ?i = _, H2 : forall w, writes _ _ _, H3 : forall r, reads _ _ _ |- _ => 
  refine (pinv_local _ _ _ _ _ _ _ Hi _ _ _ _ _ _ _); specialize (H2 i); specialize (H3 i); rewrite E in *; cbn in *; try done; try (by intros []) end.
Lemma pinv_step s s' : pstep s s' -> pinv s -> pinv s'.
Proof.
  intros Hs Hi. pose proof Hi as (H1 & H2 & H3 & H4 & H5 & H6). inversion Hs; subst; cbn in *.
  - loc.
  - loc.
  - loc.
  - loc.
  - loc.
  - loc.
  - (* hand-over *)
    assert (m = Some w) as -> by (apply H1; by rewrite H). assert (w <> r) as Hwr by congruence.
    pose proof (H2 w) as Hw. rewrite H in Hw. cbn in Hw. destruct Hw as (Ht & -> & Hn).
    pose proof (H3 r) as Hr. rewrite H0 in Hr. cbn in Hr.
    set (d := ntake cap (ndrop n b)). set (f' := pset _ r _).
    assert (forall j, j <> w -> j <> r -> f' j = f j) as Hne by (intros; unfold f', pset; by rewrite !decide_False).
    assert (f' w = WAck b (ndrop n b) n) as Hfw by (unfold f', pset; rewrite decide_False, decide_True by done; done).
    assert (f' r = RAck w cap d) as Hfr by (unfold f', pset; by rewrite decide_True).
    assert (forall j w' cap' d', f j <> RAck w' cap' d') as Hnone.
    { intros j w' cap' d' E. destruct (H6 j w' cap' d' E) as (b2 & r2 & n2 & E2). assert (Some w = Some w') as [= <-] by (apply H1; by rewrite E2). congruence. }
    split_and!; cbn.
    + intros j. destruct (decide (j = w)) as [->|?Hn9]; [rewrite Hfw; done|]. destruct (decide (j = r)) as [->|?Hn9]; [rewrite Hfr; split; [done|congruence]|]. rewrite Hne by done. apply H1.
    + intros j. destruct (decide (j = w)) as [->|Hjw]; [rewrite Hfw|destruct (decide (j = r)) as [->|Hjr]; [rewrite Hfr|rewrite Hne by done]]; cbn.
      * split_and!; [done|done|]. exists r, cap, d. split_and!; [done| |done|].
        -- intros r' w' cap' d' E. destruct (decide (r' = r)) as [?|?]; [done|]. destruct (decide (r' = w)) as [->|?Hn9]; [congruence|]. rewrite Hne in E by done. by apply Hnone in E.
        -- rewrite taken_app, taken_one, decide_True by done. rewrite Ht. unfold d. set (k := blen (ntake cap (ndrop n b))).
           assert (ntake cap (ndrop n b) = ntake k (ndrop n b)) as ->.
           { unfold k. rewrite blen_ntake. destruct (N.le_gt_cases cap (blen (ndrop n b))); [by rewrite N.min_l|]. rewrite N.min_r by lia. rewrite !ntake_all by lia. done. }
           rewrite <- (ntake_ndrop n b) at 3. assert (blen (ntake n b) = n) as Hl by (rewrite blen_ntake; lia). rewrite ntake_app_ge by lia. rewrite Hl. do 2 f_equal. lia.
      * pose proof (H2 r) as Hr2. rewrite H0 in Hr2. cbn in Hr2. destruct Hr2 as [Hr2 Hr3]. split.
        -- rewrite taken_app, taken_one, decide_False by done. by rewrite Hr2.
        -- apply Forall_app. split; [done|]. by repeat constructor.
      * specialize (H2 j). destruct (f j) eqn:Ej; cbn in *.
        all: try (destruct H2 as [Ha Hb]; split; [rewrite taken_app, taken_one, decide_False by congruence; by rewrite Ha|apply Forall_app; split; [done|constructor; [cbn; congruence|done]]]).
        -- rewrite taken_app, taken_one, decide_False by congruence. rewrite app_nil_r. done.
        -- exfalso. assert (Some w = Some j) as [= ->] by (apply H1; by rewrite Ej). done.
        -- rewrite taken_app, taken_one, decide_False by congruence. rewrite app_nil_r. done.
    + intros j. destruct (decide (j = r)) as [->|Hjr]; [rewrite Hfr; cbn|].
      * split_and!; [done|by rewrite given_app, Hr, given_one, decide_True|]. unfold d. rewrite blen_ntake. lia.
      * assert (given j (l ++ [(w, r, d)]) = given j l) as Hg by (rewrite given_app, given_one, decide_False by congruence; by rewrite app_nil_r).
        destruct (decide (j = w)) as [->|?Hn9]; [rewrite Hfw; cbn; rewrite Hg; specialize (H3 w); by rewrite H in H3|]. rewrite Hne by done. specialize (H3 j).
        destruct (f j); cbn in *; rewrite ?Hg; done.
    + intros j. destruct (H5 w eq_refl) as (a & mm & -> & Ha & Hm). destruct (decide (j = w)) as [->|Hjw].
      * exists a, (mm ++ [(w, r, d)]), []. rewrite app_nil_r, <- app_assoc. split_and!; [done|done| |done]. apply Forall_app. split; [done|by repeat constructor].
      * destruct (H4 j) as (a' & m' & z' & E & Ha' & Hm' & Hz'). exists a', m', (z' ++ [(w, r, d)]). rewrite E, <- !app_assoc. split_and!; [done|done|done|].
        apply Forall_app. split; [done|]. constructor; [cbn; congruence|done].
    + intros j [= <-]. destruct (H5 w eq_refl) as (a & mm & -> & Ha & Hm). exists a, (mm ++ [(w, r, d)]). rewrite <- app_assoc. split_and!; [done|done|].
      apply Forall_app. split; [done|by repeat constructor].
    + intros j w' cap' d' E. destruct (decide (j = r)) as [->|?Hn9]; [rewrite Hfr in E; injection E as <- <- <-; eauto|]. destruct (decide (j = w)) as [->|?Hn9]; [congruence|]. rewrite Hne in E by done. by apply Hnone in E.
  - (* acknowledgement *)
    assert (m = Some w) as -> by (apply H1; by rewrite H).
    pose proof (H2 w) as Hw. rewrite H in Hw. cbn in Hw. destruct Hw as (-> & Hn & r1 & cap1 & d1 & Hr1 & Huniq & Hd1 & Ht).
    assert (r = r1) as -> by eauto. assert (w0 = w /\ cap1 = cap /\ d1 = d) as (-> & -> & ->) by (rewrite H0 in Hr1; naive_solver). clear Hr1. rename r1 into r.
    assert (w <> r) as Hwr by congruence. pose proof (H3 r) as Hr. rewrite H0 in Hr. cbn in Hr. destruct Hr as (_ & Hg & Hcap).
    assert (blen d <= blen b - n) as Hdl. { rewrite Hd1, blen_ntake, blen_ndrop. lia. }
    assert (forall p q, pset (pset f w p) r q w = p) as Ew by (intros; unfold pset; rewrite decide_False, decide_True by done; done).
    assert (forall p q, pset (pset f w p) r q r = q) as Er by (intros; unfold pset; by rewrite decide_True).
    assert (forall p q j, j <> w -> j <> r -> pset (pset f w p) r q j = f j) as Hne by (intros; unfold pset; by rewrite !decide_False).
    rewrite ndrop_ndrop. 
    assert (forall j w' cap' d', j <> r -> f j <> RAck w' cap' d') as Hnone by (intros j w' cap' d' Hj E; apply Hj; eauto).
    assert (forall j, j <> w -> ~ crit (f j)) as Hncrit by (intros j Hj Hc; apply H1 in Hc; congruence).
    clear Hs; case_decide as Hend.
    + assert (n + blen d = blen b) as Hall. { apply (f_equal blen) in Hend. rewrite blen_ndrop in Hend. rewrite blen_nil in Hend. rewrite ?blen_ndrop in Hend. lia. }
      split_and!; cbn.
      * intros j. split; [|done]. intros Hc. destruct (decide (j = w)) as [->|?Hn9]; [by rewrite Ew in Hc|]. destruct (decide (j = r)) as [->|?Hn9]; [by rewrite Er in Hc|]. rewrite Hne in Hc by done. by apply Hncrit in Hc.
      * intros j. destruct (decide (j = w)) as [->|Hjw]; [rewrite Ew; cbn; split_and!; [done|lia|done|done]|]. destruct (decide (j = r)) as [->|Hjr]; [rewrite Er; cbn; specialize (H2 r); by rewrite H0 in H2|].
        rewrite Hne by done. specialize (H2 j). specialize (Hncrit j Hjw). destruct (f j); cbn in *; try done.
      * intros j. destruct (decide (j = r)) as [->|Hjr]; [by rewrite Er|]. destruct (decide (j = w)) as [->|?Hn9]; [rewrite Ew; cbn; specialize (H3 w); by rewrite H in H3|]. rewrite Hne by done.
        specialize (H3 j). specialize (Hnone j). destruct (f j); cbn in *; try done. by exfalso; eapply Hnone.
      * done.
      * done.
      * intros j w' cap' d' E. destruct (decide (j = r)) as [->|?Hn9]; [by rewrite Er in E|]. destruct (decide (j = w)) as [->|?Hn9]; [by rewrite Ew in E|]. rewrite Hne in E by done. by apply Hnone in E.
    + split_and!; cbn.
      * intros j. destruct (decide (j = w)) as [->|?Hn9]; [rewrite Ew; done|]. destruct (decide (j = r)) as [->|?Hn9]; [rewrite Er; split; [done|congruence]|]. rewrite Hne by done. apply H1.
      * intros j. destruct (decide (j = w)) as [->|Hjw]; [rewrite Ew; cbn; split_and!; [done|done|lia]|]. destruct (decide (j = r)) as [->|Hjr]; [rewrite Er; cbn; specialize (H2 r); by rewrite H0 in H2|].
        rewrite Hne by done. specialize (H2 j). specialize (Hncrit j Hjw). destruct (f j); cbn in *; try done.
      * intros j. destruct (decide (j = r)) as [->|Hjr]; [by rewrite Er|]. destruct (decide (j = w)) as [->|?Hn9]; [rewrite Ew; cbn; specialize (H3 w); by rewrite H in H3|]. rewrite Hne by done.
        specialize (H3 j). specialize (Hnone j). destruct (f j); cbn in *; try done.
      * done.
      * done.
      * intros j w' cap' d' E. destruct (decide (j = r)) as [->|?Hn9]; [by rewrite Er in E|]. destruct (decide (j = w)) as [->|?Hn9]; [by rewrite Ew in E|]. rewrite Hne in E by done. by apply Hnone in E.
  - loc. destruct H2. split_and!; try done. lia.
  - loc.
  - (* lock *)
    assert (forall j, ~ crit (f j)) as Hncrit by (intros j Hc; apply H1 in Hc; done).
    assert (forall j, j <> i -> pset f i (WSel b b 0) j = f j) as Hne by (intros; unfold pset; by rewrite decide_False).
    assert (pset f i (WSel b b 0) i = WSel b b 0) as Heq by (unfold pset; by rewrite decide_True).
    assert (forall j w' cap' d', f j <> RAck w' cap' d') as Hnone.
    { intros j w' cap' d' E. destruct (H6 j w' cap' d' E) as (b2 & r2 & n2 & E2). apply (Hncrit w'). by rewrite E2. }
    split_and!; cbn.
    + intros j. destruct (decide (j = i)) as [->|?Hn9]; [by rewrite Heq|]. rewrite Hne by done. split; [intros Hc; by apply Hncrit in Hc|congruence].
    + intros j. destruct (decide (j = i)) as [->|?Hn9]; [rewrite Heq; cbn|].
      * specialize (H2 i). rewrite H in H2. cbn in H2. destruct H2. split_and!; [done|done|lia].
      * rewrite Hne by done. specialize (H2 j). specialize (Hncrit j). destruct (f j); cbn in *; done.
    + intros j. destruct (decide (j = i)) as [->|?Hn9]; [rewrite Heq; cbn; specialize (H3 i); by rewrite H in H3|]. rewrite Hne by done. specialize (H3 j). specialize (Hnone j). destruct (f j); cbn in *; try done. by exfalso; eapply Hnone.
    + done.
    + intros j [= <-]. exists l, []. rewrite app_nil_r. split_and!; [done| |done]. specialize (H2 i). rewrite H in H2. by destruct H2.
    + intros j w' cap' d' E. destruct (decide (j = i)) as [->|?Hn9]; [by rewrite Heq in E|]. rewrite Hne in E by done. by apply Hnone in E.
  - (* closed *)
    assert (m = Some i) as -> by (apply H1; by rewrite H).
    assert (forall j, j <> i -> ~ crit (f j)) as Hncrit by (intros j Hj Hc; apply H1 in Hc; congruence).
    assert (forall j, j <> i -> pset f i (WDone b n false) j = f j) as Hne by (intros; unfold pset; by rewrite decide_False).
    assert (pset f i (WDone b n false) i = WDone b n false) as Heq by (unfold pset; by rewrite decide_True).
    assert (forall j w' cap' d', f j <> RAck w' cap' d') as Hnone.
    { intros j w' cap' d' E. destruct (H6 j w' cap' d' E) as (b2 & r2 & n2 & E2). assert (Some i = Some w') as [= <-] by (apply H1; by rewrite E2). congruence. }
    split_and!; cbn.
    + intros j. destruct (decide (j = i)) as [->|?Hn9]; [by rewrite Heq|]. rewrite Hne by done. split; [intros Hc; by apply Hncrit in Hc|congruence].
    + intros j. destruct (decide (j = i)) as [->|?Hn9]; [rewrite Heq; cbn|].
      * specialize (H2 i). rewrite H in H2. cbn in H2. destruct H2 as (? & ? & ?). split_and!; done.
      * rewrite Hne by done. specialize (H2 j). specialize (Hncrit j). destruct (f j); cbn in *; try done; try (exfalso; by apply Hncrit).
    + intros j. destruct (decide (j = i)) as [->|?Hn9]; [rewrite Heq; cbn; specialize (H3 i); by rewrite H in H3|]. rewrite Hne by done. specialize (H3 j). specialize (Hnone j). destruct (f j); cbn in *; try done. by exfalso; eapply Hnone.
    + done.
    + done.
    + intros j w' cap' d' E. destruct (decide (j = i)) as [->|?Hn9]; [by rewrite Heq in E|]. rewrite Hne in E by done. by apply Hnone in E.
  - (* close *)
    split_and!; cbn; try done.
    + intros j. specialize (H2 j). destruct (f j); cbn in *; try done. destruct H2 as (? & ? & ? & ?). split_and!; done.
Qed.
Theorem pinv_reach s : rtc pstep pst0 s -> pinv s.
Proof.
  intros H. assert (pinv pst0) as H0 by apply pinv0. revert H0. induction H as [|x y z Hs _ IH]; [done|]. intros Hl. apply IH. by eapply pinv_step.
Qed.

(* A read that succeeds returns exactly one hand-over, and every hand-over is returned by the read it was made to (or is
   about to be). *)
Theorem C39_reads s r cap d : rtc pstep pst0 s -> pPc s r = RDone cap (ROk d) -> given r (pLog s) = [d] /\ blen d <= cap.
Proof. intros (_ & _ & H & _)%pinv_reach E. specialize (H r). by rewrite E in H. Qed.
Theorem C39_no_loss s w r d : rtc pstep pst0 s -> (w, r, d) ∈ pLog s -> exists cap, pPc s r = RDone cap (ROk d) \/ exists w', pPc s r = RAck w' cap d.
Proof.
  intros (_ & _ & H & _ & _ & H6)%pinv_reach Hin. specialize (H r).
  assert (d ∈ given r (pLog s)) as Hd. { unfold given. apply (elem_of_list_fmap_1 snd _ (w, r, d)). by apply elem_of_list_filter. }
  destruct (pPc s r) as [|cap|cap|w' cap d'|cap [d'| |]|b|b|b rest n|b rest n|b n ok] eqn:E; cbn in H; try (rewrite H in Hd; by apply elem_of_nil in Hd).
  - destruct H as (_ & Hg & _). rewrite Hg in Hd. apply elem_of_list_singleton in Hd as <-. exists cap. right. by exists w'.
  - destruct H as (Hg & _). rewrite Hg in Hd. apply elem_of_list_singleton in Hd as <-. exists cap. by left.
Qed.
(* A write that succeeds has handed over all its bytes, in order, without another write in between; one that fails has
   handed over the number it returns, and an end of the pipe was closed. *)
Theorem C39_writes s w b n ok : rtc pstep pst0 s -> pPc s w = WDone b n ok ->
  taken w (pLog s) = ntake n b /\ n <= blen b /\ (ok = true -> n = blen b) /\ (ok = false -> pDone s = true) /\ contiguous w (pLog s).
Proof. intros (_ & H & _ & Hc & _)%pinv_reach E. specialize (H w). rewrite E in H. destruct H as (? & ? & ? & ?). split_and!; auto. Qed.

(* A hand-over completes: while a read has bytes it has not acknowledged, the write it took them from is waiting, and it
   is the only one *)
Theorem C39_handover_completes s r w cap d : rtc pstep pst0 s -> pPc s r = RAck w cap d ->
  exists s', pstep s s' /\ pPc s' r = RDone cap (ROk d) /\ (forall w' b rest n, pPc s w' = WAck b rest n -> w' = w).
Proof.
  intros Hr E. apply pinv_reach in Hr as (H1 & H2 & H3 & _ & _ & H6). destruct (H6 r w cap d E) as (b & rest & n & Ew). destruct s as [c m f l]. cbn in *.
  eexists. split; [eapply (ps_ack c m f l w r w cap d b rest n); done|]. split.
  - case_decide; cbn; unfold pset; by rewrite decide_True.
  - intros w' b' rest' n' E'. assert (m = Some w) by (apply H1; by rewrite Ew). assert (m = Some w') by (apply H1; by rewrite E'). congruence.
Qed.
(* A waiting write and a waiting read meet, also when an end is being closed *)
Theorem C39_meet s w r b rest n cap : pPc s w = WSel b rest n -> pPc s r = RSel cap -> exists s', pstep s s' /\ pPc s' r = RAck w cap (ntake cap rest).
Proof. intros E1 E2. destruct s as [c m f l]. eexists. split; [eapply (ps_xfer c m f l w r); done|]. cbn. unfold pset. by rewrite decide_True. Qed.
(* After a close every waiting call returns *)
Theorem C39_close_releases s i : pDone s = true -> (exists cap, pPc s i = RCheck cap \/ pPc s i = RSel cap) \/ (exists b, pPc s i = WCheck b \/ exists rest n, pPc s i = WSel b rest n) ->
  exists s', pstep s s' /\ ((exists cap, pPc s' i = RDone cap RClosed) \/ exists b n, pPc s' i = WDone b n false).
Proof.
  destruct s as [c m f l]. cbn. intros -> [[cap [E|E]]|[b [E|(rest & n & E)]]]; eexists.
  - split; [by eapply ps_rcheck_done|]. cbn. unfold pset. rewrite decide_True by done. eauto.
  - split; [by eapply ps_rsel_done|]. cbn. unfold pset. rewrite decide_True by done. eauto.
  - split; [by eapply ps_wcheck_done|]. cbn. unfold pset. rewrite decide_True by done. eauto.
  - split; [by eapply ps_wsel_done|]. cbn. unfold pset. rewrite decide_True by done. eauto.
Qed.
(* One writer after the other and all of them successful: what was read is the concatenation of what was written.
   [ws] lists the write calls in the order of their hand-overs. *)
Theorem C39_stream s ws : rtc pstep pst0 s -> (forall e, e ∈ pLog s -> fst (fst e) ∈ ws) -> 
  (exists blocks, pLog s = concat blocks /\ Forall2 (fun w bl => Forall (fun e => fst (fst e) = w) bl) ws blocks) -> NoDup ws ->
  (forall w, w ∈ ws -> exists b, pPc s w = WDone b (blen b) true) ->
  concat (map snd (pLog s)) = concat (map (fun w => match pPc s w with WDone b _ _ => b | _ => [] end) ws).
Proof.
  intros Hr _ (blocks & Hl & Hf) Hnd Hok.
  assert (forall w, w ∈ ws -> taken w (pLog s) = match pPc s w with WDone b _ _ => b | _ => [] end) as Ht.
  { intros w Hw. destruct (Hok w Hw) as [b E]. rewrite E. destruct (C39_writes s w b (blen b) true Hr E) as (-> & _). by apply ntake_all. }
  clear Hok Hr. revert Ht. rewrite Hl. clear Hl. generalize (pPc s). intros f.
  assert (forall w bl, Forall (fun e : N * N * bytes => fst (fst e) = w) bl -> taken w bl = concat (map snd bl)) as Hown.
  { intros w bl H. induction H as [|e bl He _ IH]; [done|]. unfold taken in *. rewrite filter_cons, decide_True by done. cbn. by rewrite IH. }
  assert (forall w v bl, w <> v -> Forall (fun e : N * N * bytes => fst (fst e) = v) bl -> taken w bl = []) as Hoth.
  { intros w v bl Hv H. induction H as [|e bl He _ IH]; [done|]. unfold taken in *. rewrite filter_cons, decide_False by congruence. done. }
  induction Hf as [|w bl ws blocks Hw Hf IH]; intros Ht; [done|]. apply NoDup_cons in Hnd as [Hni Hnd].
  cbn [concat map]. rewrite map_app, concat_app. 
  assert (forall v, v ∈ ws -> taken v (concat (bl :: blocks)) = taken v (concat blocks)) as Hv.
  { intros v Hv. cbn. rewrite taken_app. rewrite (Hoth v w bl); [done| |done]. intros ->. done. }
  rewrite IH; [|done|]. 2: { intros v Hvin. rewrite <- Hv by done. apply Ht. by right. }
  f_equal. rewrite <- (Ht w) by left. cbn. rewrite taken_app, (Hown w bl Hw). 
  assert (taken w (concat blocks) = []) as ->; [|by rewrite app_nil_r].
  clear -Hf Hni Hoth. induction Hf as [|v bl' ws blocks Hv Hf IH]; [done|]. cbn. rewrite taken_app, (Hoth w v bl'); [|set_solver|done]. apply IH. set_solver.
Qed.
(* a case: a write of 5 bytes taken by two reads of 3 bytes *)
Lemma C39_case : exists s, rtc pstep pst0 s /\ pPc s 1 = WDone [1; 2; 3; 4; 5] 5 true /\ pPc s 2 = RDone 3 (ROk [1; 2; 3]) /\ pPc s 3 = RDone 3 (ROk [4; 5]) /\ pDone s = false.
Proof.
  eexists. split.
  - eapply rtc_l; [eapply (ps_call_write _ _ _ _ 1 [1; 2; 3; 4; 5]); reflexivity|]. eapply rtc_l; [eapply (ps_call_read _ _ _ _ 2 3); reflexivity|]. eapply rtc_l; [eapply (ps_call_read _ _ _ _ 3 3); reflexivity|].
    eapply rtc_l; [eapply (ps_wcheck_open _ _ _ 1); reflexivity|]. eapply rtc_l; [eapply (ps_lock _ _ _ 1); reflexivity|].
    eapply rtc_l; [eapply (ps_rcheck_open _ _ _ 2); reflexivity|]. eapply rtc_l; [eapply (ps_rcheck_open _ _ _ 3); reflexivity|].
    eapply rtc_l; [eapply (ps_xfer _ _ _ _ 1 2); reflexivity|]. eapply rtc_l; [eapply (ps_ack _ _ _ _ 1 2); reflexivity|]. rewrite decide_False by (by vm_compute).
    eapply rtc_l; [eapply (ps_xfer _ _ _ _ 1 3); reflexivity|]. eapply rtc_l; [eapply (ps_ack _ _ _ _ 1 3); reflexivity|]. rewrite decide_True by (by vm_compute). apply rtc_refl.
  - done.
Qed.
