(* Props_Deadline.v -- C94: deadlines on the virtual connection that carries a peer-to-peer visitor's requests (DeadlineModel).

   In net.Conn's contract a read deadline holds for all later and pending Reads until it is set again; a Read still pending when it comes ends with an error, and none ends so
   before it.  The client relies on it: its HTTP server has a ReadTimeout of 30 s (client.go 104).
     C94_first_read_in_time_partial   a Read pending at the deadline can be ended at once, if no Read has returned since the deadline was set
     C94_only_first_read_refuted      the first Read that returns in time ends the deadline: whatever comes later, and however late, no Read is stopped until a deadline is set again
     C94_half_request_refuted         so a visitor that sends one byte of its request keeps the connection for ever
     C94_early_refuted                a deadline set again with no Read in between (a second request already in the buffer) does not replace the first; nor one whose time came while data arrived
     C94_cleared_refuted              a deadline cannot be cleared
     C94_not_early_partial            if no earlier timer is live whenever a deadline is set or cleared, no Read is stopped before the last deadline, or with none set
     C94_result                       what a Read that ends says is what happened
     C94_abort_deadlock_refuted       at the end of a request, data (or the end of the connection) that arrives at the wrong moment blocks both goroutines for ever, and the connection is not closed
     C94_abort_partial                that moment is the only one
   The middle part says exactly which: the deadlock needs the Read to have ended before the handler's goroutine has stopped it and its goroutine not to have reported it when the
   handler's goroutine takes the lock. *)
From Verif Require Import GoBase DeadlineModel.
Local Open Scope N_scope.

Local Ltac sx := simplify_eq; try done; repeat (case_match; simplify_eq; try done).
Lemma set_st_lookup l i x j t : set_st l i x !! j = Some t -> (j = i /\ (exists u, l !! i = Some u /\ t = mkTm (mDue u) x)) \/ l !! j = Some t.
Proof.
  unfold set_st. destruct (l !! i) as [u|] eqn:E; [|intros; by right]. intros H. destruct (decide (j = i)) as [->|Hn].
  - rewrite list_lookup_insert in H by (by eapply lookup_lt_Some). simplify_eq. left. eauto.
  - rewrite list_lookup_insert_ne in H by done. by right.
Qed.
Lemma stop_lookup l i j t : stop_timer l i !! j = Some t -> (mSt t = Over /\ j = i) \/ (l !! j = Some t /\ (j = i -> mSt t <> Armed)).
Proof.
  unfold stop_timer. destruct (l !! i) as [[d [| |]]|] eqn:E; intros H; try (right; split; [done|]; intros ->; rewrite E in H; by simplify_eq).
  - destruct (decide (j = i)) as [->|Hn].
    + rewrite list_lookup_insert in H by (by eapply lookup_lt_Some). simplify_eq. by left.
    + rewrite list_lookup_insert_ne in H by done. right. split; [done|]. intros ->. done.
Qed.

(* ---- a Read pending at the deadline ---- *)
Definition no_return (tr : list dev) : Prop := Forall (fun e => e <> ERet) tr.
Definition alive (i : nat) (d : N) (s : dst) : Prop := (exists st, dTms s !! i = Some (mkTm d st) /\ st <> Over) \/ (exists r, dRd s = RGot r).
Lemma alive_step i d s e s' : alive i d s -> e <> ERet -> dstep s e = Some s' -> alive i d s'.
Proof.
  intros HA Hne H. destruct s as [now tp tms rd ab cl]. destruct HA as [(st & Hl & Hst)|[r Hr]]; cbn in *.
  2: { subst. destruct e; cbn in H; sx; right; cbn; eauto. }
  destruct e as [n|dd| | |j|j| | | | | |]; cbn in H; try done; sx; try (left; cbn; by eauto); try (right; cbn; by eauto).
  - left. cbn. exists st. split; [|done]. by apply lookup_app_l_Some.
  - left. cbn. unfold set_st. destruct (decide (i = j)) as [->|Hn].
    + repeat match goal with E : tms !! j = _ |- _ => rewrite E in *; simplify_eq end. rewrite ?Hl. exists Sending. split; [|done]. apply list_lookup_insert. by eapply lookup_lt_Some.
    + case_match; [rewrite list_lookup_insert_ne by done|]; eauto.
Qed.

Theorem C94_first_read_in_time_partial : forall s d s1 tr s2, dstep s (ESet d) = Some s1 -> drun s1 tr = Some s2 -> no_return tr -> dRd s2 = RPending -> d <= dNow s2 ->
  exists tr' s3, (length tr' <= 2)%nat /\ Forall (fun e => exists i, e = EFire i \/ e = EStop i) tr' /\ drun s2 tr' = Some s3 /\ dRd s3 = RGot RTimeout.
Proof.
  intros s d s1 tr s2 H1 H2 Hn Hr Hd.
  assert (A1 : alive (length (dTms s)) d s1).
  { destruct s as [now tp tms rd ab cl]. cbn in H1. case_match; simplify_eq. left. cbn. exists Armed. split; [|done]. by rewrite lookup_app_r, Nat.sub_diag by lia. }
  assert (A2 : alive (length (dTms s)) d s2).
  { clear H1 Hr Hd. revert s1 H2 A1. induction tr as [|e tr IH]; intros s1 H2 A1; cbn in H2; [by simplify_eq|]. apply bind_Some in H2 as (sm & E & H2).
    inversion Hn; subst. eapply IH; eauto using alive_step. }
  destruct A2 as [(st & Hl & Hst)|[r Hr']]; [|congruence]. set (i := length (dTms s)) in *. destruct s2 as [now tp tms rd ab cl]. cbn in *. subst rd.
  destruct st; [| |done].
  - exists [EFire i; EStop i]. eexists. split; [cbn; lia|]. split; [repeat constructor; eauto|].
    assert (Hx : set_st tms i Sending !! i = Some (mkTm d Sending)). { unfold set_st. rewrite Hl. apply list_lookup_insert. by eapply lookup_lt_Some. }
    cbn. rewrite Hl. destruct (N.leb_spec d now); [|lia]. cbn. rewrite Hx. cbn. done.
  - exists [EStop i]. eexists. split; [cbn; lia|]. split; [repeat constructor; eauto|]. cbn. rewrite Hl. cbn. done.
Qed.

(* ---- after it has returned ---- *)
Definition quiet (s : dst) : Prop := Forall (fun t => mSt t = Over) (dTms s) /\ dAbort s = false.
Definition no_set (tr : list dev) : Prop := Forall (fun e => e <> EAbort /\ forall d, e <> ESet d) tr.
Lemma quiet_step s e s' : quiet s -> dRd s <> RGot RTimeout -> e <> EAbort -> (forall d, e <> ESet d) -> dstep s e = Some s' -> quiet s' /\ dRd s' <> RGot RTimeout.
Proof.
  intros [HF Ha] Hr H1 H2 H. destruct s as [now tp tms rd ab cl]. cbn in *. subst ab. rewrite Forall_lookup in HF.
  destruct e as [n|dd| | |j|j| | | | | |]; try (exfalso; exact (H2 _ eq_refl)); try done; cbn in H; sx; unfold quiet; cbn; rewrite ?Forall_lookup;
    try (by split; [split|]);
    try (match goal with E : tms !! _ = Some (mkTm _ ?x) |- _ => specialize (HF _ _ E); cbn in HF; done end).
  split; [split|]; [|done|done]. intros k x Hx. apply stop_lookup in Hx as [[? _]|[Hx _]]; [done|]. by eapply HF.
Qed.
Lemma quiet_run tr : forall s s', quiet s -> dRd s <> RGot RTimeout -> no_set tr -> drun s tr = Some s' -> quiet s' /\ dRd s' <> RGot RTimeout.
Proof.
  induction tr as [|e tr IH]; intros s s' Hq Hr Hn H; cbn in H; [by simplify_eq|]. apply bind_Some in H as (sm & E & H). inversion Hn as [|? ? [? ?] ?]; subst.
  destruct (quiet_step _ _ _ Hq Hr ltac:(done) ltac:(done) E). eapply IH; eauto.
Qed.
(* at most the timer in c.timer waits, and has not fired *)
Definition one (d : N) (s : dst) : Prop := dNow s < d -> dAbort s = false /\ (forall i t, dTms s !! i = Some t -> mSt t = Over \/ (t = mkTm d Armed /\ dTimer s = Some i)).
Lemma now_mono s e s' : dstep s e = Some s' -> dNow s <= dNow s'.
Proof. intros H. destruct s as [now tp tms rd ab cl]. destruct e; cbn in H; sx; cbn; lia. Qed.
Lemma one_step d s e s' : one d s -> e <> EAbort -> (forall d, e <> ESet d) -> dstep s e = Some s' -> one d s'.
Proof.
  intros HO H1 H2 H Hlt. pose proof (now_mono _ _ _ H). destruct (HO ltac:(lia)) as [Ha HF]. clear HO. destruct s as [now tp tms rd ab cl]. cbn in *. subst ab.
  destruct e as [n|dd| | |j|j| | | | | |]; try (exfalso; exact (H2 _ eq_refl)); try done; cbn in H; sx; cbn in *; try (by split).
  - exfalso. match goal with E : tms !! _ = Some (mkTm _ Armed) |- _ => destruct (HF _ _ E) as [|[? _]]; simplify_eq/= end. match goal with E : (_ <=? _) = true |- _ => apply N.leb_le in E end. lia.
  - exfalso. match goal with E : tms !! _ = Some (mkTm _ Sending) |- _ => destruct (HF _ _ E) as [|[? _]]; simplify_eq/= end.
  - split; [done|]. intros i t Ht. apply stop_lookup in Ht as [[? _]|[Ht Hne]]; [by left|]. destruct (HF _ _ Ht) as [|[-> E]]; [by left|]. simplify_eq. exfalso. by apply Hne.
Qed.
Theorem C94_only_first_read_refuted : forall s d s1 tr1 s2 s3 tr2 s4, quiet s -> dstep s (ESet d) = Some s1 -> drun s1 tr1 = Some s2 -> no_set tr1 -> dstep s2 ERet = Some s3 -> dNow s3 < d ->
  no_set tr2 -> drun s3 tr2 = Some s4 -> dRd s4 <> RGot RTimeout.
Proof.
  intros s d s1 tr1 s2 s3 tr2 s4 [HF Ha] H1 H2 Hn1 H3 Hlt Hn2 H4.
  assert (O1 : one d s1).
  { intros _. destruct s as [now tp tms rd ab cl]. cbn in *. subst. case_match; simplify_eq. cbn. split; [done|]. intros i t Ht. rewrite Forall_lookup in HF.
    apply lookup_app_Some in Ht as [Ht|[Hge Ht]]; [left; by eapply HF|]. apply list_lookup_singleton_Some in Ht as [? <-]. right. split; [done|]. f_equal. lia. }
  assert (O2 : one d s2).
  { clear - O1 H2 Hn1. revert s1 H2 O1. induction tr1 as [|e tr IH]; intros s1 H2 O1; cbn in H2; [by simplify_eq|]. apply bind_Some in H2 as (sm & E & H2).
    inversion Hn1 as [|? ? [? ?] ?]; subst. eapply IH; eauto using one_step. }
  assert (Q : quiet s3 /\ dRd s3 <> RGot RTimeout).
  { pose proof (now_mono _ _ _ H3). destruct (O2 ltac:(lia)) as [Hb HF2]. destruct s2 as [now tp tms rd ab cl]. cbn in *. subst. sx; cbn.
    - split; [split|]; cbn; [|done|done]. apply Forall_lookup. intros i t Ht. apply stop_lookup in Ht as [[? _]|[Ht Hne]]; [done|]. destruct (HF2 _ _ Ht) as [|[-> E]]; [done|]. simplify_eq. exfalso. by apply Hne.
    - split; [split|]; cbn; [|done|done]. apply Forall_lookup. intros i t Ht. by destruct (HF2 _ _ Ht) as [|[-> E]]. }
  destruct Q. eapply quiet_run; eauto.
Qed.
(* one byte of a request, then nothing: at every later time the Read is pending, can only go on waiting, and no timer is left *)
Theorem C94_half_request_refuted : forall n, exists s, drun dst0 [ESet 30; ERead; ETick 1; EData; ERet; ERead; ETick n] = Some s /\ dRd s = RPending /\ dNow s = 1 + n /\
  (forall tr s', drun s tr = Some s' -> no_set tr -> dRd s' <> RGot RTimeout).
Proof.
  intros n. eexists. split; [cbn; reflexivity|]. split; [done|]. split; [done|]. intros tr s' H Hn. refine (proj2 (quiet_run tr _ s' _ _ Hn H)); [|done]. split; [by repeat constructor|done].
Qed.

(* ---- too early ---- *)
Theorem C94_early_refuted : forall d1 d2, 0 < d1 -> d1 < d2 ->
  (exists s, drun dst0 [ESet d1; ESet d2; ERead; ETick d1; EFire 0; EStop 0] = Some s /\ dRd s = RGot RTimeout /\ dNow s < d2) /\
  (exists s, drun dst0 [ESet d1; ERead; ETick d1; EFire 0; EData; ERet; ESet d2; ERead; EStop 0] = Some s /\ dRd s = RGot RTimeout /\ dNow s < d2).
Proof.
  intros d1 d2 H1 H2. split; eexists; cbn -[N.ltb N.leb N.add].
  - destruct (N.ltb_spec 0 d1); [|lia]. cbn -[N.ltb N.leb N.add]. destruct (N.ltb_spec 0 d2); [|lia]. cbn -[N.ltb N.leb N.add]. destruct (N.leb_spec d1 (0 + d1)); [|lia]. cbn. split; [reflexivity|]. split; [done|]. cbn. lia.
  - destruct (N.ltb_spec 0 d1); [|lia]. cbn -[N.ltb N.leb N.add]. destruct (N.leb_spec d1 (0 + d1)); [|lia]. cbn -[N.ltb N.leb N.add]. destruct (N.ltb_spec (0 + d1) d2); [|lia]. cbn. split; [reflexivity|]. split; [done|]. cbn. lia.
Qed.
Theorem C94_cleared_refuted : forall d, 0 < d -> exists s, drun dst0 [ESet d; EZero; ERead; ETick d; EFire 0; EStop 0] = Some s /\ dRd s = RGot RTimeout.
Proof. intros d H. eexists. cbn -[N.ltb N.leb N.add]. destruct (N.ltb_spec 0 d); [|lia]. cbn -[N.ltb N.leb N.add]. destruct (N.leb_spec d (0 + d)); [|lia]. cbn. done. Qed.

(* the deadline a caller has asked for: the last one, none once cleared *)
Definition asked (o : option N) (e : dev) : option N := match e with ESet d => Some d | EZero => None | _ => o end.
Definition no_live (s : dst) : Prop := Forall (fun t => mSt t = Over) (dTms s).
(* a run in which no timer is live whenever the deadline is changed *)
Inductive orderly : dst -> option N -> list dev -> dst -> option N -> Prop :=
  | o_nil s o : orderly s o [] s o
  | o_cons s o e s1 tr s2 o2 : dstep s e = Some s1 -> (asked o e = o \/ no_live s) -> (forall d, e = ESet d -> no_live s) -> orderly s1 (asked o e) tr s2 o2 -> orderly s o (e :: tr) s2 o2.
Definition due (o : option N) (s : dst) : Prop := forall i t, dTms s !! i = Some t -> mSt t <> Over -> o = Some (mDue t) /\ (mSt t = Sending -> mDue t <= dNow s).
Lemma due_step o s e s1 : due o s -> dstep s e = Some s1 -> (asked o e = o \/ no_live s) -> (forall d, e = ESet d -> no_live s) -> due (asked o e) s1.
Proof.
  intros HD H Hor Hset. pose proof (now_mono _ _ _ H) as Hnow. destruct s as [now tp tms rd ab cl]. unfold due, no_live in *. cbn in *.
  destruct e as [n|dd| | |j|j| | | | | |]; cbn in *; sx; cbn in *; try (by intros i t Hi Ho; destruct (HD i t Hi Ho) as [? Hs]; split; [done|]; intros ?; specialize (Hs ltac:(done)); lia).
  - specialize (Hset _ eq_refl). rewrite Forall_lookup in Hset. intros i t Hi Ho. apply lookup_app_Some in Hi as [Hi|[_ Hi]]; [by destruct Ho; eapply Hset|]. apply list_lookup_singleton_Some in Hi as [_ <-]. cbn. done.
  - destruct Hor as [->|HN]; [done|]. rewrite Forall_lookup in HN. intros i t Hi Ho. by destruct Ho; eapply HN.
  - intros i t Hi Ho. apply set_st_lookup in Hi as [(-> & u & Hu & ->)|Hi]; [|by destruct (HD i t Hi Ho)]. cbn in *. simplify_eq/=. match goal with E : tms !! j = _ |- _ => destruct (HD _ _ E ltac:(done)) end. split; [done|]. intros _. by apply N.leb_le.
  - intros i t Hi Ho. apply set_st_lookup in Hi as [(-> & u & Hu & ->)|Hi]; [done|by destruct (HD i t Hi Ho)].
  - intros i t Hi Ho. apply stop_lookup in Hi as [[? _]|[Hi _]]; [done|by destruct (HD i t Hi Ho)].
Qed.
Theorem C94_not_early_partial : forall tr s o i s', orderly dst0 None tr s o -> dstep s (EStop i) = Some s' -> exists d, o = Some d /\ d <= dNow s.
Proof.
  intros tr s o i s' HO H.
  assert (HD : due o s).
  { assert (G : forall a oa, orderly a oa tr s o -> due oa a -> due o s). { clear. intros a oa Hr. induction Hr; [done|]. intros. eauto using due_step. } eapply G; eauto. intros ? ? Hx. cbn [dst0 dTms] in Hx. by rewrite lookup_nil in Hx. }
  destruct s as [now tp tms rd ab cl]. cbn in H. destruct (tms !! i) as [[d [| |]]|] eqn:E; try done. destruct (HD i _ E ltac:(done)) as [-> Hs]. eexists. split; [done|]. apply Hs. done.
Qed.

(* what a Read that ends says is what happened: data arrived; a timer's time had come, or another goroutine had asked for the Read to be ended; the connection had been closed *)
Theorem C94_result : forall tr s e s' r, drun dst0 tr = Some s -> dstep s e = Some s' -> dRd s' = RGot r -> dRd s <> RGot r ->
  match r with
  | RData => e = EData
  | RTimeout => (exists i t, e = EStop i /\ dTms s !! i = Some t /\ mDue t <= dNow s) \/ (e = EAbortStop /\ EAbort ∈ tr)
  | RClosed => (e = EClosed \/ e = ERead) /\ EClose ∈ tr
  end.
Proof.
  intros tr s e s' r H0 E Hr Hn.
  assert (G : forall tr a s, drun a tr = Some s -> (dAbort s = true -> dAbort a = true \/ EAbort ∈ tr) /\ (dClosed s = true -> dClosed a = true \/ EClose ∈ tr) /\
    ((forall i t, dTms a !! i = Some t -> mSt t = Sending -> mDue t <= dNow a) -> forall i t, dTms s !! i = Some t -> mSt t = Sending -> mDue t <= dNow s)).
  { clear. induction tr as [|e tr IH]; intros a s H; cbn in H; [simplify_eq; auto|]. apply bind_Some in H as (m & E & H). destruct (IH _ _ H) as (I1 & I2 & I3). rewrite !elem_of_cons.
    pose proof (now_mono _ _ _ E) as Hm. destruct a as [now tp tms rd ab cl]. split; [|split].
    - intros Ha. destruct (I1 Ha) as [Hx|Hx]; [|auto]. destruct e; cbn in E; sx; cbn in *; auto; congruence.
    - intros Ha. destruct (I2 Ha) as [Hx|Hx]; [|auto]. destruct e; cbn in E; sx; cbn in *; auto; congruence.
    - intros Hd. apply I3. clear I1 I2 I3 H IH. cbn [dTms dNow] in *. destruct e as [n|dd| | |j|j| | | | | |]; cbn [dstep] in E; sx; cbn [dTms dNow] in *; intros i t Hi Hs; try (specialize (Hd i t Hi Hs); lia).
      + apply lookup_app_Some in Hi as [Hi|[_ Hi]]; [by apply (Hd i t)|]. apply list_lookup_singleton_Some in Hi as [_ <-]. done.
      + apply set_st_lookup in Hi as [(-> & u & Hu & ->)|Hi]; [|by apply (Hd i t)]. simplify_eq/=. by apply N.leb_le.
      + apply set_st_lookup in Hi as [(-> & u & Hu & ->)|Hi]; [done|by apply (Hd i t)].
      + apply stop_lookup in Hi as [[? _]|[Hi _]]; [congruence|by apply (Hd i t)]. }
  destruct (G _ _ _ H0) as (G1 & G2 & G3). specialize (G3 ltac:(intros i t Hx; cbn [dst0 dTms] in Hx; by rewrite lookup_nil in Hx)). clear G H0.
  destruct s as [now tp tms rd ab cl]. cbn [dAbort dClosed dTms dNow dRd] in *.
  destruct e as [n|dd| | |j|j| | | | | |]; cbn in E; sx; cbn in *; simplify_eq; try congruence; try done.
  - left. eauto 10.
  - right. split; [done|]. by destruct (G1 eq_refl).
  - split; [auto|]. by destruct (G2 eq_refl).
  - split; [auto|]. by destruct (G2 eq_refl).
Qed.

(* ---- the end of a request ---- *)
Theorem C94_abort_deadlock_refuted : exists s, arun ast0 [ALock; ALook; ADataIn] = Some s /\ aMain s <> MDone /\ aBg s <> BDone /\ (forall e, astep s e = None).
Proof. eexists. split; [reflexivity|]. split; [done|]. split; [done|]. by intros []. Qed.
Lemma abort_inv tr s : arun ast0 tr = Some s ->
  s ∈ [ast0; mkA MIn BRead (Some true) true; mkA MStop BRead (Some true) true; mkA MWait BWant None true; mkA MWait BHas (Some false) true; mkA MAgain BDone None false;
       mkA MIn BDone (Some true) false; mkA MDone BDone None false; mkA MWant BWant None true; mkA MIn BWant (Some true) true; mkA MStop BWant (Some true) true;
       mkA MWant BHas (Some false) true; mkA MWant BDone None false].
Proof.
  set (L := [_; _; _; _; _; _; _; _; _; _; _; _; _]). assert (G : forall a, a ∈ L -> arun a tr = Some s -> s ∈ L); [|apply G; left].
  induction tr as [|e tr IH]; intros a Ha H; cbn in H; [by simplify_eq|]. apply bind_Some in H as (sm & E & H). refine (IH sm _ H). clear - Ha E.
  unfold L in Ha. rewrite !elem_of_cons, elem_of_nil in Ha. unfold L. rewrite !elem_of_cons, elem_of_nil. destruct_or!; subst a; destruct e; cbn in E; simplify_eq; tauto.
Qed.
(* the handler's goroutine can finish, unless it holds the lock and the Read has ended by itself and not been reported *)
Theorem C94_abort_partial : forall tr s, arun ast0 tr = Some s -> (exists tr' s', arun s tr' = Some s' /\ aMain s' = MDone) <-> ~ (aLock s = Some true /\ aBg s = BWant).
Proof.
  intros tr s H. apply abort_inv in H. rewrite !elem_of_cons, elem_of_nil in H. destruct_or!; subst s; cbn;
    try (split; [intros _ [? ?]; done|intros _]).
  - by exists [ALock; ALook; AMeet; ABLock; ABSet; AWake; ALook]; eexists.
  - by exists [ALook; AMeet; ABLock; ABSet; AWake; ALook]; eexists.
  - by exists [AMeet; ABLock; ABSet; AWake; ALook]; eexists.
  - by exists [ABLock; ABSet; AWake; ALook]; eexists.
  - by exists [ABSet; AWake; ALook]; eexists.
  - by exists [AWake; ALook]; eexists.
  - by exists [ALook]; eexists.
  - by exists []; eexists.
  - by exists [ABLock; ABSet; ALock; ALook]; eexists.
  - split; [|by intros []]. intros (tr' & s' & Hr & Hm). exfalso. destruct tr' as [|e tr']; cbn in Hr; [by simplify_eq|]. destruct e; cbn in Hr; try done. destruct tr' as [|e tr']; cbn in Hr; [by simplify_eq|]. by destruct e.
  - split; [|by intros []]. intros (tr' & s' & Hr & Hm). exfalso. destruct tr' as [|e tr']; cbn in Hr; [by simplify_eq|]. by destruct e.
  - by exists [ABSet; ALock; ALook]; eexists.
  - by exists [ALock; ALook]; eexists.
Qed.

(* a slow visitor is stopped at the deadline; a quick one is not; the request ends *)
Theorem C94_witness :
  (exists s, orderly dst0 None [ESet 30; ERead; ETick 30; EFire 0] s (Some 30) /\ exists s', dstep s (EStop 0) = Some s' /\ dRd s' = RGot RTimeout) /\
  (exists s, drun dst0 [ESet 30; ERead; ETick 5; EData; ERet; ESet 40; ERead; ETick 2; EAbort; EAbortStop; ERet] = Some s /\ dRd s = RNone /\ dAbort s = false) /\
  (exists s, arun ast0 [ALock; ALook; AMeet; ABLock; ABSet; AWake; ALook] = Some s /\ aMain s = MDone).
Proof.
  split; [|split].
  - eexists. split.
    + eapply o_cons; [vm_compute; reflexivity|right; constructor|intros; constructor|]. do 3 (eapply o_cons; [vm_compute; reflexivity|by left|done|]). constructor.
    + eexists. split; [vm_compute; reflexivity|]. done.
  - eexists. split; [vm_compute; reflexivity|]. done.
  - eexists. split; [vm_compute; reflexivity|]. done.
Qed.
