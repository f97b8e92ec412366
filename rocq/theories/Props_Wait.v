(* Props_Wait.v -- C53: waiting until the client is connected *)
From Verif Require Import GoBase WaitModel.
Local Open Scope N_scope.

(* ---- specification: the ready tunnels after a history ---- *)
Definition ready_after (tr : list qevt) : gset N :=
  fold_left (fun s e => match e with VAdd t => {[ t ]} ∪ s | VRemove t => s ∖ {[ t ]} | _ => s end) tr ∅.
(* at some moment since the call w a tunnel was ready *)
Definition ready_since (w : N) (tr : list qevt) : Prop :=
  exists p q, tr = p ++ q /\ VCall w ∈ p /\ ready_after p <> ∅.

Lemma ready_snoc tr e : ready_after (tr ++ [e]) =
  match e with VAdd t => {[ t ]} ∪ ready_after tr | VRemove t => ready_after tr ∖ {[ t ]} | _ => ready_after tr end.
Proof. unfold ready_after. by rewrite fold_left_app. Qed.
Lemma since_app w tr l : ready_since w tr -> ready_since w (tr ++ l).
Proof. intros (p & q & -> & ? & ?). exists p, (q ++ l). by rewrite <- app_assoc. Qed.
Lemma since_now w tr : VCall w ∈ tr -> ready_after tr <> ∅ -> ready_since w tr.
Proof. intros. exists tr, []. by rewrite app_nil_r. Qed.

Definition other_fired (w : N) (s : qst) : Prop := exists w', w' <> w /\ w' ∈ qFired s.
Record qinv (tr : list qevt) (s : qst) : Prop := {
  qi_tun : qTun s = ready_after tr;
  qi_call : forall w p, qCalls s !! w = Some p -> VCall w ∈ tr;
  qi_fired : forall w, w ∈ qFired s <-> VFire w ∈ tr;
  qi_add : forall t, QAdder t ∈ qPend s -> t ∈ qTun s;
  qi_timer : forall w, QTimer w ∈ qPend s -> w ∈ qFired s;
  qi_reg : forall w, qCalls s !! w = Some QReg -> qTun s = ∅;
  (* a sleeper is never forgotten *)
  qi_sleep : forall w, qCalls s !! w = Some QSleep -> qTun s = ∅ \/ exists t, QAdder t ∈ qPend s;
  qi_woken : forall w, qCalls s !! w = Some QWoken -> w ∈ qFired s \/ other_fired w s \/ ready_since w tr }.


Lemma qinv_step tr s l s' : qinv tr s -> qstep s l s' -> qinv (tr ++ l) s'.
Proof.
  intros [Ht Hc Hf Ha Hti Hr Hs Hw] H.
  assert (Hsi : forall w e, ready_since w tr -> ready_since w (tr ++ [e])) by (intros; by apply since_app).
  assert (Hca : forall w e, VCall w ∈ tr -> VCall w ∈ tr ++ [e]) by (intros; apply elem_of_app; by left).
  assert (Hfi : forall w e, (forall w, e <> VFire w) -> VFire w ∈ tr <-> VFire w ∈ tr ++ [e]).
  { intros w e He. rewrite elem_of_app, elem_of_list_singleton. split; [auto|]. intros [?|?]; [done|]. by destruct (He w). }
  inversion H; subst; cbn [qTun qCalls qFired qPend] in *.
  - (* call *) split; cbn [qTun qCalls qFired qPend]; auto.
    + rewrite ready_snoc; first [done | by rewrite Ht | congruence].
    + intros u p Hu. apply lookup_insert_Some in Hu as [[<- <-]|[? Hu]]; [apply elem_of_app; right; by left|eauto].
    + intros u. rewrite Hf. by apply Hfi.
    + intros u Hu. apply lookup_insert_Some in Hu as [[? ?]|[? Hu]]; [done|eauto].
    + intros u Hu. apply lookup_insert_Some in Hu as [[? ?]|[? Hu]]; [done|eauto].
    + intros u Hu. apply lookup_insert_Some in Hu as [[? ?]|[? Hu]]; [done|]. destruct (Hw u Hu) as [?|[?|?]]; auto.
  - (* there *) split; cbn [qTun qCalls qFired qPend]; auto.
    + rewrite ready_snoc; first [done | by rewrite Ht | congruence].
    + intros u p Hu. apply lookup_insert_Some in Hu as [[<- <-]|[? Hu]]; eauto.
    + intros u. rewrite Hf. by apply Hfi.
    + intros u Hu. apply lookup_insert_Some in Hu as [[? ?]|[? Hu]]; [done|eauto].
    + intros u Hu. apply lookup_insert_Some in Hu as [[? ?]|[? Hu]]; [done|eauto].
    + intros u Hu. apply lookup_insert_Some in Hu as [[? ?]|[? Hu]]; [done|]. destruct (Hw u Hu) as [?|[?|?]]; auto.
  - (* test *) split; cbn [qTun qCalls qFired qPend]; auto.
    + rewrite ready_snoc; first [done | by rewrite Ht | congruence].
    + intros u p Hu. apply lookup_insert_Some in Hu as [[<- <-]|[? Hu]]; eauto.
    + intros u. rewrite Hf. by apply Hfi.
    + intros u Hu. apply lookup_insert_Some in Hu as [[? ?]|[? Hu]]; [done|]. destruct (Hw u Hu) as [?|[?|?]]; auto.
  - (* sleep *) split; cbn [qTun qCalls qFired qPend]; auto.
    + rewrite ready_snoc; first [done | by rewrite Ht | congruence].
    + intros u p Hu. apply lookup_insert_Some in Hu as [[<- <-]|[? Hu]]; eauto.
    + intros u. rewrite Hf. by apply Hfi.
    + intros u Hu. apply lookup_insert_Some in Hu as [[? ?]|[? Hu]]; [done|eauto].
    + intros u Hu. apply lookup_insert_Some in Hu as [[? ?]|[? Hu]]; [left; eauto|eauto].
    + intros u Hu. apply lookup_insert_Some in Hu as [[? ?]|[? Hu]]; [done|]. destruct (Hw u Hu) as [?|[?|?]]; auto.
  - (* return *) split; cbn [qTun qCalls qFired qPend]; auto.
    + rewrite ready_snoc; first [done | by rewrite Ht | congruence].
    + intros u p Hu. apply lookup_insert_Some in Hu as [[<- <-]|[? Hu]]; eauto.
    + intros u. rewrite Hf. by apply Hfi.
    + intros u Hu. apply lookup_insert_Some in Hu as [[? ?]|[? Hu]]; [done|eauto].
    + intros u Hu. apply lookup_insert_Some in Hu as [[? ?]|[? Hu]]; [done|eauto].
    + intros u Hu. apply lookup_insert_Some in Hu as [[? ?]|[? Hu]]; [done|]. destruct (Hw u Hu) as [?|[?|?]]; auto.
  - (* fire *) split; cbn [qTun qCalls qFired qPend]; auto.
    + rewrite ready_snoc; first [done | by rewrite Ht | congruence].
    + eauto.
    + intros u. rewrite elem_of_union, elem_of_singleton, Hf, elem_of_app, elem_of_list_singleton. split; [intros [->|?]; auto|intros [?|[=]]; auto].
    + intros t Hin. apply elem_of_cons in Hin as [?|Hin]; [done|auto].
    + intros u Hin. apply elem_of_union. apply elem_of_cons in Hin as [[=]|Hin]; [left; by apply elem_of_singleton|right; auto].
    + intros u Hu. destruct (Hs u Hu) as [?|[t ?]]; [auto|right; exists t; by right].
    + intros u Hu. destruct (Hw u Hu) as [?|[(w' & ? & ?)|?]]; [left; set_solver|right; left; exists w'; set_solver|auto].
  - (* broadcast *) split; cbn [qTun qCalls qFired qPend]; auto.
    + rewrite ready_snoc; first [done | by rewrite Ht | congruence].
    + intros u p Hu. rewrite lookup_fmap_Some in Hu. destruct Hu as (p0 & ? & ?). eauto.
    + intros u. rewrite Hf. by apply Hfi.
    + intros t Hin. apply Ha. set_solver.
    + intros t Hin. apply Hti. set_solver.
    + intros u Hu. rewrite lookup_fmap_Some in Hu. destruct Hu as (p0 & E & ?). destruct p0; cbn in E; try done. eauto.
    + intros u Hu. rewrite lookup_fmap_Some in Hu. destruct Hu as (p0 & E & ?). destruct p0; done.
    + intros u Hu. rewrite lookup_fmap_Some in Hu. destruct Hu as (p0 & E & Hu). destruct p0; cbn in E; try done.
      * (* was asleep *) destruct x as [t|w].
        -- right. right. apply Hsi. apply since_now; [eauto|]. rewrite <- Ht.
           specialize (Ha t). intros E0. rewrite E0 in Ha. set_solver.
        -- assert (w ∈ fd) by (apply Hti; set_solver). destruct (decide (w = u)) as [->|?]; [auto|]. right. left. exists w. auto.
      * destruct (Hw u Hu) as [?|[?|?]]; auto.
  - (* add *) split; cbn [qTun qCalls qFired qPend]; auto.
    + rewrite ready_snoc; first [done | by rewrite Ht | congruence].
    + eauto.
    + intros u. rewrite Hf. by apply Hfi.
    + intros u Hin. apply elem_of_cons in Hin as [[=->]|Hin]; [set_solver|]. specialize (Ha u Hin). set_solver.
    + intros u Hin. apply elem_of_cons in Hin as [?|Hin]; [done|auto].
    + intros u Hu. match goal with X : no_reader _ |- _ => specialize (X u _ Hu) end. done.
    + intros u Hu. right. exists t. by left.
    + intros u Hu. destruct (Hw u Hu) as [?|[?|?]]; auto.
  - (* remove *) split; cbn [qTun qCalls qFired qPend]; auto.
    + rewrite ready_snoc; first [done | by rewrite Ht | congruence].
    + eauto.
    + intros u. rewrite Hf. by apply Hfi.
    + intros u Hin. specialize (Ha u Hin). apply elem_of_difference. split; [done|]. rewrite elem_of_singleton. by intros ->.
    + intros u Hu. match goal with X : no_reader _ |- _ => specialize (X u _ Hu) end. done.
    + intros u Hu. destruct (Hs u Hu) as [E|?]; [left; rewrite E; set_solver|auto].
    + intros u Hu. destruct (Hw u Hu) as [?|[?|?]]; auto.
Qed.
Lemma qinv_exec tr s : qexec qst0 tr s -> qinv tr s.
Proof.
  intros H. remember qst0 as s0 eqn:E. induction H as [|s tr s1 l s2 H IH Hs]; subst.
  - split; cbn; try done; set_solver.
  - eapply qinv_step; eauto.
Qed.

(* errTimeout is returned only after this call's own timeout *)
Theorem C53_timeout_honest : forall tr s w s', qexec qst0 tr s -> qstep s [VRet w false] s' -> VFire w ∈ tr.
Proof.
  intros tr s w s' H Hs. apply qinv_exec in H as [_ _ Hf _ _ _ _ _]. inversion Hs; subst; cbn in *.
  match goal with X : bool_decide _ = false |- _ => apply bool_decide_eq_false in X end. apply Hf. destruct (decide (w ∈ fd)); naive_solver.
Qed.

(* A call returns at most once. *)
Lemma qret_done tr s : qexec qst0 tr s -> forall w ok, VRet w ok ∈ tr -> qCalls s !! w = Some QDone.
Proof.
  intros H. remember qst0 as s0 eqn:E. induction H as [|s tr s1 l s2 H IH Hs]; subst; intros w0 ok Hin; [by apply elem_of_nil in Hin|].
  specialize (IH eq_refl). apply elem_of_app in Hin as [Hin|Hin].
  - specialize (IH _ _ Hin). inversion Hs; subst; cbn [qCalls] in *; try done;
      try (destruct (decide (w = w0)) as [->|]; [rewrite lookup_insert; congruence|by rewrite lookup_insert_ne]).
    by rewrite lookup_fmap, IH.
  - inversion Hs; subst; apply elem_of_list_singleton in Hin; try discriminate Hin; injection Hin as -> _; cbn [qCalls]; by rewrite lookup_insert.
Qed.
Theorem C53_returns_once : forall tr s w ok s', qexec qst0 tr s -> qstep s [VRet w ok] s' -> VCall w ∈ tr /\ forall ok', VRet w ok' ∉ tr.
Proof.
  intros tr s w ok s' H Hs. split.
  - apply qinv_exec in H as [_ Hc _ _ _ _ _ _]. inversion Hs; subst; cbn in *; eauto.
  - intros ok' Hin. pose proof (qret_done _ _ H _ _ Hin) as Hd. inversion Hs; subst; cbn in *; congruence.
Qed.

(* If no other call's timeout has passed, nil is returned only when a tunnel was ready at some moment since the call. *)
Theorem C53_nil_means_was_ready_partial : forall tr s w s', qexec qst0 tr s -> qstep s [VRet w true] s' ->
  (forall w', VFire w' ∈ tr -> w' = w) -> ready_since w tr.
Proof.
  intros tr s w s' H Hs Ho. apply qinv_exec in H as [Ht Hc Hf _ _ _ _ Hw]. inversion Hs; subst; cbn [qTun qCalls qFired qPend] in *.
  - apply since_now; [eauto|]. by rewrite <- Ht.
  - match goal with X : bool_decide _ = true |- _ => apply bool_decide_eq_true in X end.
    destruct (Hw w ltac:(done)) as [?|[(w' & Hne & Hin)|?]]; [done| |done]. exfalso. apply Hne, Ho, Hf. exact Hin.
Qed.

(* No call sleeps while a tunnel is ready (once the Broadcast of addTunnel is done); a call that does not sleep returns by itself. *)
Theorem C53_not_asleep_when_ready : forall tr s w, qexec qst0 tr s -> ready_after tr <> ∅ -> (forall t, QAdder t ∉ qPend s) ->
  qCalls s !! w <> Some QSleep.
Proof.
  intros tr s w H Hne Hp Hw. apply qinv_exec in H as [Ht _ _ _ _ _ Hs _]. rewrite <- Ht in Hne.
  destruct (Hs w Hw) as [?|[t ?]]; [done|by destruct (Hp t)].
Qed.
Theorem C53_awake_returns : forall tr s w p, qexec qst0 tr s -> ready_after tr <> ∅ -> (forall t, QAdder t ∉ qPend s) ->
  qCalls s !! w = Some p -> p <> QDone -> exists ok s', qstep s [VRet w ok] s'.
Proof.
  intros tr s w p H Hne Hp Hw Hd. pose proof (qinv_exec _ _ H) as [Ht _ _ _ _ Hr _ _].
  pose proof (C53_not_asleep_when_ready _ _ w H Hne Hp) as Hns. destruct s as [tun cs fd pd]. cbn [qTun qCalls qFired qPend] in *.
  rewrite <- Ht in Hne. destruct p; try done.
  - exists true. eexists. by apply q_there.
  - by rewrite (Hr _ Hw) in Hne.
  - eexists _, _. by apply q_return.
Qed.

(* ---- where it fails ---- *)
Lemma qexec_cons s l s1 tr s2 : qstep s l s1 -> qexec s1 tr s2 -> qexec s (l ++ tr) s2.
Proof.
  intros H1 H2. induction H2 as [s1|s1 tr s3 l' s4 H IH Hs].
  - rewrite app_nil_r. apply (qx_snoc s [] s l s1); [constructor|done].
  - rewrite app_assoc. econstructor; [by apply IH|done].
Qed.
Ltac qside := try (vm_compute; reflexivity); try set_solver; try done.
Ltac qgo H := eapply qexec_cons; [apply H; qside|].
Ltac qtest i := eapply qexec_cons; [apply q_test with (w := i); qside|].
Ltac qslp i := eapply qexec_cons; [apply q_sleep with (w := i); qside|].
Ltac qfire i q := eapply qexec_cons; [apply q_fire with (w := i) (p := q); qside|].
Ltac qbc x0 := eapply qexec_cons; [apply q_broadcast with (pd1 := []) (pd2 := []) (x := x0)|].

(* Two calls, 1 with the shorter timeout: when it passes, call 2 returns nil, although its own timeout has not passed and no
   tunnel was ever ready. *)
Theorem C53_other_timer_refuted : exists tr s, qexec qst0 tr s /\ VRet 2 true ∈ tr /\ VFire 2 ∉ tr /\ forall t, VAdd t ∉ tr.
Proof.
  exists ([VCall 1] ++ [VCall 2] ++ [VTau] ++ [VTau] ++ [VTau] ++ [VTau] ++ [VFire 1] ++ [VTau] ++ [VRet 2 true] ++ []).
  eexists. split; [|set_solver]. unfold qst0.
  qgo q_call. qgo q_call. qtest 1. qtest 2. qslp 1. qslp 2.
  qfire 1 QSleep. qbc (QTimer 1).
  eapply qexec_cons; [|apply qx_nil].
  match goal with |- qstep (mkQ ?t ?c ?f ?p) _ _ => pose proof (q_return t c f p 2 ltac:(vm_compute; reflexivity)) as Hq end.
  rewrite bool_decide_true in Hq by set_solver. exact Hq.
Qed.

(* A tunnel is ready, and gone before the call runs on: nil, with no tunnel. *)
Theorem C53_gone_again_refuted : exists tr s, qexec qst0 tr s /\ VRet 1 true ∈ tr /\ ready_after tr = ∅ /\ forall w, VFire w ∉ tr.
Proof.
  exists ([VCall 1] ++ [VTau] ++ [VTau] ++ [VAdd 7] ++ [VTau] ++ [VRemove 7] ++ [VRet 1 true] ++ []).
  eexists. split; [|split; [set_solver|split; [unfold ready_after; cbn; apply set_eq; set_solver|set_solver]]]. unfold qst0.
  qgo q_call. qtest 1. qslp 1.
  eapply qexec_cons; [apply q_add with (t := 7); [|set_solver]|].
  { intros i p Hi. apply lookup_insert_Some in Hi as [[_ <-]|[? Hi]]; [done|]. rewrite lookup_insert_ne, lookup_insert_ne in Hi by done. done. }
  qbc (QAdder 7).
  eapply qexec_cons; [apply q_remove with (t := 7); [|set_solver|set_solver]|].
  { intros i p Hi. rewrite lookup_fmap_Some in Hi. destruct Hi as (p0 & <- & Hi).
    apply lookup_insert_Some in Hi as [[_ <-]|[? Hi]]; [done|]. rewrite lookup_insert_ne, lookup_insert_ne in Hi by done. done. }
  eapply qexec_cons; [|apply qx_nil].
  match goal with |- qstep (mkQ ?t ?c ?f ?p) _ _ => pose proof (q_return t c f p 1 ltac:(vm_compute; reflexivity)) as Hq end.
  rewrite bool_decide_true in Hq by set_solver. exact Hq.
Qed.

(* The timeout passes before Wait has put the call on the list: nobody wakes it, it goes on sleeping for as long as no
   tunnel gets ready and no other call times out. *)
Theorem C53_timeout_lost_refuted : exists tr s, qexec qst0 tr s /\ VFire 1 ∈ tr /\ qCalls s !! 1 = Some QSleep /\
  forall tr' s', qexec s tr' s' -> (forall t, VAdd t ∉ tr') -> (forall w, VFire w ∉ tr') -> forall ok, VRet 1 ok ∉ tr'.
Proof.
  exists ([VCall 1] ++ [VTau] ++ [VFire 1] ++ [VTau] ++ [VTau] ++ []).
  eexists (mkQ ∅ (<[1 := QSleep]> (qwake <$> <[1 := QReg]> (<[1 := QIn]> ∅))) ({[1]} ∪ ∅) []).
  split; [|split; [set_solver|split; [by vm_compute|]]].
  { unfold qst0. qgo q_call. qtest 1. qfire 1 QReg. qbc (QTimer 1).
    eapply qexec_cons; [|apply qx_nil]. apply q_sleep. vm_compute. reflexivity. }
  intros tr' s' H Ha Hf ok.
  set (s0 := mkQ _ _ _ _) in H.
  assert (P : qCalls s' !! 1 = Some QSleep /\ qPend s' = [] /\ VRet 1 ok ∉ tr').
  { assert (P0 : qCalls s0 !! 1 = Some QSleep /\ qPend s0 = []) by (by vm_compute). clearbody s0.
    induction H as [s|s tr s1 l s2 H IH Hs]; [split; [apply P0|split; [apply P0|set_solver]]|].
    destruct IH as (I1 & I2 & I3); [set_solver|set_solver|done|].
    inversion Hs; subst; cbn [qTun qCalls qFired qPend] in *; subst.
    - split; [|split; [done|set_solver]]. rewrite lookup_insert_ne; [done|]. by intros ->; congruence.
    - assert (w <> 1) by congruence. split; [by rewrite lookup_insert_ne|split; [done|set_solver]].
    - assert (w <> 1) by congruence. split; [by rewrite lookup_insert_ne|split; [done|set_solver]].
    - assert (w <> 1) by congruence. split; [by rewrite lookup_insert_ne|split; [done|set_solver]].
    - assert (w <> 1) by congruence. split; [by rewrite lookup_insert_ne|split; [done|set_solver]].
    - exfalso. apply (Hf w). set_solver.
    - by destruct pd1.
    - exfalso. apply (Ha t). set_solver.
    - split; [done|split; [done|set_solver]]. }
  apply P.
Qed.

(* ---- a run that meets the hypotheses of the positive theorems: one call, woken by a tunnel, about to return nil *)
Theorem C53_witness : exists tr s s', qexec qst0 tr s /\ qstep s [VRet 1 true] s' /\ (forall w', VFire w' ∈ tr -> w' = 1) /\
  ready_after tr <> ∅ /\ (forall t, QAdder t ∉ qPend s) /\ qCalls s !! 1 = Some QWoken.
Proof.
  exists ([VCall 1] ++ [VTau] ++ [VTau] ++ [VAdd 7] ++ [VTau] ++ []).
  eexists _, _. split; [|split; [|split; [set_solver|split; [|split]]]].
  { unfold qst0. qgo q_call. qtest 1. qslp 1.
    eapply qexec_cons; [apply q_add with (t := 7); [|set_solver]|].
    { intros i p Hi. apply lookup_insert_Some in Hi as [[_ <-]|[? Hi]]; [done|]. rewrite lookup_insert_ne, lookup_insert_ne in Hi by done. done. }
    qbc (QAdder 7). apply qx_nil. }
  { match goal with |- qstep (mkQ ?t ?c ?f ?p) _ _ => pose proof (q_return t c f p 1 ltac:(vm_compute; reflexivity)) as Hq end.
    rewrite bool_decide_true in Hq by set_solver. exact Hq. }
  { intros E. unfold ready_after in E; cbn in E. apply (f_equal (fun s => bool_decide (7 ∈ s))) in E. revert E. rewrite bool_decide_true, bool_decide_false by set_solver. done. }
  { intros t. cbn. set_solver. }
  by vm_compute.
Qed.
