(* FrameInv.v -- facts about the loops on arbitrary streams (a hostile or broken peer) *)
From Verif Require Import GoBase GoBaseLemmas BufioModel BufioProofs HandshakeModel HandshakeProofs FrameModel FrameSpec FrameProofs FrameProofsC FrameProofsD.
Local Open Scope N_scope.

(* every result of a program, whatever the reader answers *)
Fixpoint always {A} (P : A -> Prop) (m : prog A) : Prop :=
  match m with
  | PRet a => P a
  | PByte k => forall r, always P (k r)
  | PPeek _ k => forall r, always P (k r)
  | PDiscard _ k => forall r, always P (k r)
  | PCopy _ _ k => forall r, always P (k r)
  end.
Lemma always_run {A} (P : A -> Prop) m s : always P m -> P (fst (s_run m s)).
Proof.
  revert s. induction m as [a|k IH|n k IH|n k IH|n w k IH]; intros s H; cbn [s_run always] in *; [done|..].
  - destruct (s_byte s) as [r s']. by apply IH.
  - destruct (s_peek n s) as [[d e] s']. by apply IH.
  - destruct (s_discard n s) as [[d e] s']. by apply IH.
  - destruct (s_copy n w s) as [[[[o n'] e] s'] w']. by apply IH.
Qed.
Lemma always_bind {A C} (P : A -> Prop) (Q : C -> Prop) m f :
  always P m -> (forall a, P a -> always Q (f a)) -> always Q (pbind m f).
Proof. intros Hm Hf. induction m; cbn [always pbind] in *; auto. Qed.
Lemma always_peekd {A} (P : A -> Prop) n fail k :
  (forall e, always P (fail e)) -> (forall d, always P (k d)) -> always P (peekd n fail k).
Proof. intros Hf Hk. unfold peekd. cbn [always]. intros [d [e|]]; [done|]. cbn [always]. intros [c [e|]]; done. Qed.
Lemma always_impl {A} (P Q : A -> Prop) m : (forall a, P a -> Q a) -> always P m -> always Q m.
Proof. intros H. induction m; cbn [always]; auto. Qed.

(* ---- server ---- *)
Definition srv_post (deadline : bool) (st : sstate) (r : sres) : Prop :=
  match r with
  | inl (st', ev) => (sClosing st' = sClosing st \/ (sClosing st = false /\ sClosing st' = true)) /\
      (SRemoveTunnel ∈ ev <-> (sClosing st = false /\ sClosing st' = true))
  | inr (why, ev) => SRemoveTunnel ∉ ev /\ (why = StClosed -> sClosing st = true) /\ (why = StPanic -> deadline = true)
  end.
Ltac sp := cbn [srv_post always sClosing sTasks];
  repeat split; intros; destruct_and?; try (by left); try done; try congruence; try set_solver.
Lemma srv_iter_post deadline env st : always (srv_post deadline st) (srv_iter deadline env st).
Proof.
  unfold srv_iter. cbv zeta. apply always_peekd; [intros; sp|]. intros sb.
  destruct (_ =? PingSignal).
  { destruct (negb _); [sp|]. destruct (se_ping_ok env); sp. }
  destruct (_ =? CloseSignal).
  { destruct (sClosing st) eqn:Hc; [sp|]. cbn [always srv_post sClosing]. split; [auto|]. set_solver. }
  destruct (_ =? ServicesSignal); [sp|]. apply always_peekd; [intros; sp|]. intros ob.
  destruct (_ =? OpData).
  - apply always_peekd; [intros; sp|]. intros lb. destruct (_ !! _) as [w|].
    + cbn [always]. intros [[[o n'] e] w']. destruct (0 <? n').
      * cbn [always]. intros [c [e'|]]; sp.
      * destruct e as [[]|]; sp.
    + destruct (0 <? _).
      * cbn [always]. intros [c [e'|]]; sp.
      * destruct deadline; sp.
  - destruct (_ =? OpClose); [|sp]. destruct (_ !! _); sp.
Qed.
Definition count_ev {A} (P : A -> Prop) `{forall a, Decision (P a)} (l : list A) : nat := length (filter P l).
Lemma srv_loop_post deadline : forall envs st,
  always (fun '(o, evs) =>
    (sClosing st = true -> SRemoveTunnel ∉ evs) /\
    match o with
    | SRunning st' => sClosing st' = true <-> (sClosing st = true \/ SRemoveTunnel ∈ evs)
    | SStopped why => (why = StClosed -> sClosing st = true \/ SRemoveTunnel ∈ evs) /\ (why = StPanic -> deadline = true)
    end) (srv_loop deadline envs st).
Proof.
  induction envs as [|env envs IH]; intros st; cbn [srv_loop].
  - cbn [always]. set_solver.
  - eapply always_bind; [apply srv_iter_post|]. intros [[st' ev]|[why ev]]; cbn [srv_post].
    + intros [Hst Hev]. eapply always_bind; [apply IH|]. intros [o evs] [H1 H2]. cbn [always]. split.
      * intros Hc. rewrite not_elem_of_app. rewrite Hc in *. destruct Hst as [Hst|[? _]]; [|done].
        split; [|by apply H1]. intros Hin%Hev. destruct Hin; done.
      * destruct o as [st2|why].
        -- rewrite H2, elem_of_app, Hev. destruct (sClosing st), (sClosing st'); destruct Hst as [?|[? ?]]; try done; naive_solver.
        -- split; [|tauto]. intros Hw. destruct H2 as [H2 _]. specialize (H2 Hw). rewrite elem_of_app, Hev.
           destruct (sClosing st), (sClosing st'); destruct Hst as [?|[? ?]]; try done; naive_solver.
    + intros (H1 & H2 & H3). cbn [always]. split; [auto|]. split; [|done]. intros Hw. left. auto.
Qed.
(* exactly which bytes panic *)
Lemma srv_iter_panic deadline env st s ev s' :
  s_run (srv_iter deadline env st) s = (inr (StPanic, ev), s') ->
  deadline = true /\ exists d1 d2 d3, s = map B (d1 ++ d2 ++ d3) ++ s' /\ blen d1 = 4 /\ blen d2 = 2 /\ blen d3 = 4 /\
    p16 d2 = OpData /\ p32 d3 = 0 /\ acts (se_acts env) (sTasks st) !! (p32 d1) = None.
Proof.
  intros H. unfold srv_iter in H. cbv zeta in H.
  apply s_run_peekd_inv in H as [(e & s1 & H & _)|(d1 & s1 & -> & Hd1 & H)]; [done|].
  destruct (_ =? PingSignal).
  { destruct (negb _); [done|]. destruct (se_ping_ok env); done. }
  destruct (_ =? CloseSignal); [by destruct (sClosing st)|].
  destruct (_ =? ServicesSignal); [done|].
  apply s_run_peekd_inv in H as [(e & s2 & H & _)|(d2 & s2 & -> & Hd2 & H)]; [done|].
  destruct (_ =? OpData) eqn:Hop.
  - apply s_run_peekd_inv in H as [(e & s3 & H & _)|(d3 & s3 & -> & Hd3 & H)]; [done|].
    destruct (_ !! _) as [w|] eqn:Hm.
    + exfalso. cbn [s_run] in H. destruct (s_copy _ _ _) as [[[[o n'] e] s4] w']. destruct (0 <? n').
      * cbn [s_run] in H. destruct (s_discard _ _) as [[c e'] s5]. destruct e'; done.
      * destruct e as [[]|]; done.
    + destruct (0 <? p32 d3) eqn:Hl.
      * exfalso. cbn [s_run] in H. destruct (s_discard _ _) as [[c e'] s5]. destruct e'; done.
      * destruct deadline; [|done]. injection H as <- <-. split; [done|]. exists d1, d2, d3.
        rewrite !map_app, <- !app_assoc. repeat split; try done; lia.
  - destruct (_ =? OpClose); [|done]. destruct (_ !! _); done.
Qed.

(* ---- client ---- *)
Definition cnt (e : cevent) (evs : list cevent) : Z :=
  Z.of_nat (length (List.filter (fun x => match e, x with CPing, CPing | CPong, CPong | CCloseRecv, CCloseRecv => true | _, _ => false end) evs)).
Lemma cnt_app e a b : cnt e (a ++ b) = (cnt e a + cnt e b)%Z.
Proof. unfold cnt. rewrite List.filter_app, app_length. lia. Qed.
Definition quiet (ev : list cevent) : Prop := cnt CPing ev = 0%Z /\ cnt CPong ev = 0%Z /\ cnt CCloseRecv ev = 0%Z.
Definition cli_post (env : cenv) (st : cstate) (r : cres) : Prop :=
  let none := acts (ce_acts env) (cTasks st) = ∅ in
  match r with
  | inl (st', ev) =>
      cPings st' = (cPings st + cnt CPing ev - cnt CPong ev)%Z /\ (cnt CPing ev <= 1)%Z /\
      ((cnt CCloseRecv ev = 0%Z /\ cClosing st' = cClosing st) \/
       (cnt CCloseRecv ev = 1%Z /\ cClosing st = false /\ cClosing st' = true /\ ~ none))
  | inr (why, ev) => cnt CPing ev = 0%Z /\ why <> CsPings /\
      (why = CsClosed -> cnt CPong ev = 0%Z /\ cnt CCloseRecv ev = 1%Z /\ (cClosing st = true \/ none)) /\
      (why <> CsClosed -> cnt CCloseRecv ev = 0%Z) /\
      (why = CsIdle -> cClosing st = true /\ none /\ 3 <= cLastPing st + 1)
  end.
Lemma cp_inl env st st' ev : cPings st' = cPings st -> cClosing st' = cClosing st -> quiet ev -> cli_post env st (inl (st', ev)).
Proof. intros H1 H2 (H3 & H4 & H5). cbn [cli_post]. rewrite H3, H4, H5. split; [lia|]. split; [lia|]. left. done. Qed.
Lemma cp_inr env st why ev : why <> CsPings -> why <> CsClosed -> why <> CsIdle -> quiet ev -> cli_post env st (inr (why, ev)).
Proof. intros H1 H2 H3 (H4 & H5 & H6). cbn [cli_post]. repeat split; try done. Qed.
Lemma cli_after_post env st st' ev n re : cPings st' = cPings st -> cClosing st' = cClosing st -> quiet ev ->
  always (cli_post env st) (cli_after st' ev n re).
Proof.
  intros H1 H2 H3. unfold cli_after. destruct re as [e|]; [by apply cp_inr|].
  destruct (0 <? n); [|by apply cp_inl]. cbn [always]. intros [c [e|]]; [by apply cp_inr|by apply cp_inl].
Qed.
Lemma cli_service_data_post env st st' t s l : cPings st' = cPings st -> cClosing st' = cClosing st ->
  always (cli_post env st) (cli_service_data env st' t s l).
Proof.
  intros H1 H2. unfold cli_service_data. cbv zeta.
  assert (Hnormal : always (cli_post env st) (match ce_dial env s with
    | None => cli_after st' [CDialFail t] l None
    | Some w =>
        if 0 <? l then
          PCopy l w (fun '(o, n', e, w') =>
            cli_after (with_tasks st' (<[t := w']> (cTasks st'))) [CNew t s; CDeliver t o] n' (read_err e))
        else cli_after (with_tasks st' (<[t := w]> (cTasks st'))) [CNew t s] l None
    end)).
  { destruct (ce_dial env s); [|by apply cli_after_post]. destruct (0 <? l); [|by apply cli_after_post].
    intros [[[o' n] e] w']. by apply cli_after_post. }
  destruct (0 <? l); [|exact Hnormal]. cbn [always]. intros [d [e|]]; [by apply cp_inr|].
  destruct (_ =? _); [|exact Hnormal].
  destruct (ce_stuns env); [|by apply cli_after_post]. destruct (ce_newpeer env); [|by apply cli_after_post].
  intros [[[o' n] e] w']. by apply cli_after_post.
Qed.
Lemma cli_data_post env st st' t l : cPings st' = cPings st -> cClosing st' = cClosing st ->
  always (cli_post env st) (cli_data env st' t l).
Proof.
  intros H1 H2. unfold cli_data. destruct (_ !! _).
  - intros [[[o' n] e] w']. by apply cli_after_post.
  - destruct (ce_peer env t); [|by apply cli_after_post]. destruct (ce_stuns env); [|by apply cli_after_post].
    intros [[[o' n] e] w']. by apply cli_after_post.
Qed.
Ltac ccl := cbv [always cli_post cnt List.filter length Z.of_nat Pos.of_succ_nat Pos.succ]; cbn [cPings cLastPing cClosing cSvcs cTasks].
Lemma cli_iter_post env st : always (cli_post env st) (cli_iter env st).
Proof.
  unfold cli_iter. cbv zeta. unfold with_tasks. cbn [cPings cLastPing cClosing cSvcs cTasks]. cbn [always].
  intros [d e]. destruct e as [[]|]; try (by apply cp_inr).
  { destruct (ce_ping_ok env); [|by apply cp_inr]. ccl. repeat split; try lia. left. done. }
  cbn [always]. intros [c [e|]]; [by apply cp_inr|].
  match goal with |- context [pbind ?m _] => set (TF := m) end.
  assert (Htf : always (cli_post env st) TF).
  { unfold TF. apply always_peekd; [intros; by apply cp_inr|]. intros ob.
    destruct (_ =? OpServicesData).
    - apply always_peekd; [intros; by apply cp_inr|]. intros ib. destruct (cSvcs _); [|by apply cp_inr].
      destruct (_ <=? _); [by apply cp_inr|]. destruct (nnth _ _); [|by apply cp_inr].
      apply always_peekd; [intros; by apply cp_inr|]. intros lb. by apply cli_service_data_post.
    - destruct (_ =? OpData).
      + apply always_peekd; [intros; by apply cp_inr|]. intros lb. by apply cli_data_post.
      + destruct (_ =? OpClose); [|by apply cp_inl]. destruct (_ !! _); by apply cp_inl. }
  clearbody TF.
  destruct (_ =? PingSignal).
  { destruct (cClosing st) eqn:Hcl; destruct (3 <=? cLastPing st + 1) eqn:H3; cbn [andb];
      [destruct (bool_decide _) eqn:Hb|..].
    1:{ apply bool_decide_eq_true in Hb. ccl. repeat split; try done; lia. }
    all: destruct (6 <=? _); [destruct (ce_wait env)|]; ccl; rewrite ?Hcl; repeat split; try lia; left; done. }
  destruct (_ =? CloseSignal).
  { destruct (cClosing st) eqn:Hcl; [ccl; repeat split; try done; by left|].
    destruct (bool_decide _) eqn:Hb.
    - apply bool_decide_eq_true in Hb. ccl. repeat split; try done; by right.
    - apply bool_decide_eq_false in Hb. ccl. repeat split; try lia. right. done. }
  destruct (_ =? ReconnectSignal).
  { eapply always_bind; [exact Htf|]. intros [[st' ev]|[why ev]] H; cbn [always]; exact H. }
  destruct (_ =? ReadySignal); [by apply cp_inl|]. destruct (_ =? ServicesSignal); [by apply cp_inl|].
  destruct (_ =? ErrorSignal).
  { apply always_peekd; [intros; by apply cp_inr|]. intros cb. destruct (_ =? 2); [|by apply cp_inr].
    apply always_peekd; intros; by apply cp_inr. }
  destruct (_ =? InfoSignal); [|exact Htf].
  apply always_peekd; [intros; by apply cp_inr|]. intros cb. destruct (_ =? 1); [|by apply cp_inl].
  apply always_peekd; [intros; by apply cp_inr|]. intros sb2.
  apply always_peekd; [intros; by apply cp_inr|]. intros pb. by apply cp_inl.
Qed.

Lemma cnt_nil e : cnt e [] = 0%Z.
Proof. done. Qed.
Lemma cli_loop_post : forall envs st, (cPings st <= 4)%Z ->
  always (fun '(o, evs) =>
    (cPings st + cnt CPing evs - cnt CPong evs <= 4)%Z /\
    match o with
    | CRunning st' => cPings st' = (cPings st + cnt CPing evs - cnt CPong evs)%Z /\
        cnt CCloseRecv evs = ((if cClosing st' then 1 else 0) - (if cClosing st then 1 else 0))%Z
    | CStopped why =>
        (why = CsPings -> (cPings st + cnt CPing evs - cnt CPong evs = 4)%Z) /\
        (why = CsIdle -> ((if cClosing st then 1 else 0) + cnt CCloseRecv evs = 1)%Z) /\
        ((if cClosing st then 1 else 0) + cnt CCloseRecv evs <= 2)%Z /\
        ((if cClosing st then 1 else 0) + cnt CCloseRecv evs = 2 -> why = CsClosed)%Z
    end) (cli_loop envs st).
Proof.
  induction envs as [|env envs IH]; intros st Hp; cbn [cli_loop].
  - cbn [always]. rewrite !cnt_nil. split; [lia|]. destruct (cClosing st); lia.
  - destruct (3 <? cPings st)%Z eqn:H3.
    { cbn [always]. rewrite !cnt_nil. split; [lia|]. destruct (cClosing st); repeat split; try done; lia. }
    eapply always_bind; [apply cli_iter_post|]. intros [[st' ev]|[why ev]]; cbn [cli_post].
    + intros (Hpings & H1 & Hcl).
      assert (Hpo : (0 <= cnt CPong ev)%Z) by (unfold cnt; lia).
      eapply always_bind; [apply IH; lia|]. intros [o evs]. cbn beta iota. intros [Hle Ho]. cbn [always].
      rewrite !cnt_app. split; [lia|]. destruct o as [st2|why].
      * destruct Ho as [Ho1 Ho2]. split; [lia|].
        destruct Hcl as [[-> Hc]|(-> & Hc1 & Hc2 & _)]; rewrite Ho2; [rewrite Hc|rewrite Hc1, Hc2]; lia.
      * destruct Ho as (Ho1 & Ho2 & Ho3 & Ho4).
        destruct Hcl as [[-> Hc]|(-> & Hc1 & Hc2 & _)]; [rewrite Hc in *|rewrite Hc1, Hc2 in *].
        -- split; [intros Hx; specialize (Ho1 Hx); lia|]. split; [intros Hx; specialize (Ho2 Hx); lia|]. split; [lia|]. intros; apply Ho4; lia.
        -- split; [intros Hx; specialize (Ho1 Hx); lia|]. split; [intros Hx; specialize (Ho2 Hx); lia|]. split; [lia|]. intros; apply Ho4; lia.
    + intros (Hc1 & Hne & Hcl & Hncl & Hid). cbn [always].
      assert (Hpo : (0 <= cnt CPong ev)%Z) by (unfold cnt; lia).
      split; [lia|]. split; [done|].
      assert (Hdec : why = CsClosed \/ why <> CsClosed) by (destruct why; auto; right; done).
      destruct Hdec as [->|Hw].
      * destruct (Hcl eq_refl) as (_ & -> & Hor). repeat split; try done; destruct (cClosing st); lia.
      * rewrite Hncl by done. repeat split; try done.
        -- intros ->. destruct Hid as [-> _]; [done|lia].
        -- destruct (cClosing st); lia.
        -- destruct (cClosing st); lia.
Qed.

(* a connection to a service is only made for a new-visitor frame, and to the service at its index *)
Definition no_new (r : cres) : Prop := forall t sv, CNew t sv ∉ (match r with inl (_, ev) => ev | inr (_, ev) => ev end).
Lemma no_new_after st ev n re : (forall t sv, CNew t sv ∉ ev) -> always no_new (cli_after st ev n re).
Proof.
  intros H. unfold cli_after. destruct re; [exact H|]. destruct (0 <? n); [|exact H].
  cbn [always]. intros [c [e|]]; exact H.
Qed.
Lemma no_new_data env st t l : always no_new (cli_data env st t l).
Proof.
  unfold cli_data. destruct (_ !! _).
  - intros [[[o' n] e] w']. apply no_new_after. set_solver.
  - destruct (ce_peer env t); [destruct (ce_stuns env)|].
    + intros [[[o' n] e] w']. apply no_new_after. set_solver.
    + apply no_new_after. set_solver.
    + apply no_new_after. set_solver.
Qed.
Definition only_new (t : N) (sv : service) (r : cres) : Prop :=
  forall t' sv', CNew t' sv' ∈ (match r with inl (_, ev) => ev | inr (_, ev) => ev end) -> t' = t /\ sv' = sv.
Lemma only_new_after st ev n re t sv : (forall t' sv', CNew t' sv' ∈ ev -> t' = t /\ sv' = sv) ->
  always (only_new t sv) (cli_after st ev n re).
Proof.
  intros H. unfold cli_after. destruct re; [exact H|]. destruct (0 <? n); [|exact H].
  cbn [always]. intros [c [e|]]; exact H.
Qed.
Lemma only_new_service env st t sv l : always (only_new t sv) (cli_service_data env st t sv l).
Proof.
  unfold cli_service_data. cbv zeta.
  assert (Hnormal : always (only_new t sv) (match ce_dial env sv with
    | None => cli_after st [CDialFail t] l None
    | Some w =>
        if 0 <? l then
          PCopy l w (fun '(o, n', e, w') =>
            cli_after (with_tasks st (<[t := w']> (cTasks st))) [CNew t sv; CDeliver t o] n' (read_err e))
        else cli_after (with_tasks st (<[t := w]> (cTasks st))) [CNew t sv] l None
    end)).
  { destruct (ce_dial env sv); [|apply only_new_after; set_solver]. destruct (0 <? l); [|apply only_new_after; set_solver].
    intros [[[o' n] e] w']. apply only_new_after. set_solver. }
  destruct (0 <? l); [|exact Hnormal]. cbn [always]. intros [d [e|]]; [cbn; unfold only_new; set_solver|].
  destruct (_ =? _); [|exact Hnormal].
  destruct (ce_stuns env); [|apply only_new_after; set_solver]. destruct (ce_newpeer env); [|apply only_new_after; set_solver].
  intros [[[o' n] e] w']. apply only_new_after. set_solver.
Qed.
Lemma not_new_nil {X} (x : X) : forall t sv, CNew t sv ∉ @nil cevent.
Proof. intros. apply not_elem_of_nil. Qed.
Lemma cli_iter_new env st s r s' t sv :
  s_run (cli_iter env st) s = (r, s') ->
  CNew t sv ∈ (match r with inl (_, ev) => ev | inr (_, ev) => ev end) ->
  exists d1 d2 d3 rest svcs, s = map B (d1 ++ d2 ++ d3) ++ rest /\ blen d1 = 4 /\ blen d2 = 2 /\ blen d3 = 2 /\
    p32 d1 = t /\ p16 d2 = OpServicesData /\ cSvcs st = Some svcs /\ p16 d3 < u16 (blen svcs) /\ nnth (p16 d3) svcs = Some sv.
Proof.
  intros H Hin. unfold cli_iter in H. cbv zeta in H.
  unfold with_tasks in H. cbn [cPings cLastPing cClosing cSvcs cTasks] in H.
  set (m := acts (ce_acts env) (cTasks st)) in *.
  cbn [s_run] in H. unfold s_peek in H.
  destruct (s_take (N.to_nat 4) s) as [[d1 e] s1] eqn:Ht. destruct e as [e|].
  { exfalso. destruct e; cbn [s_run] in H; try (destruct (ce_ping_ok env)); injection H as <- _; set_solver. }
  apply s_take_none in Ht as [-> Hl1]. cbn [s_run] in H.
  assert (Hb1 : blen d1 = 4) by (unfold blen; lia).
  rewrite s_discard_full in H by done.
  match type of H with context [pbind ?x _] => set (TF := x) in H end.
  assert (Htf : forall r s', s_run TF s1 = (r, s') -> CNew t sv ∈ (match r with inl (_, ev) => ev | inr (_, ev) => ev end) ->
    exists d2 d3 rest svcs, s1 = map B (d2 ++ d3) ++ rest /\ blen d2 = 2 /\ blen d3 = 2 /\
    p32 d1 = t /\ p16 d2 = OpServicesData /\ cSvcs st = Some svcs /\ p16 d3 < u16 (blen svcs) /\ nnth (p16 d3) svcs = Some sv).
  { clear H Hin r s'. intros r s' H Hin. unfold TF in H.
    apply s_run_peekd_inv in H as [(e & s2 & H & _)|(d2 & s2 & -> & Hd2 & H)];
      [injection H as <- _; set_solver|].
    destruct (_ =? OpServicesData) eqn:Hop.
    - apply s_run_peekd_inv in H as [(e & s3 & H & _)|(d3 & s3 & -> & Hd3 & H)];
        [injection H as <- _; set_solver|].
      destruct (cSvcs st) as [svcs|]; [|injection H as <- _; set_solver].
      destruct (_ <=? _) eqn:Hge; [injection H as <- _; set_solver|].
      destruct (nnth _ _) as [sv'|] eqn:Hn; [|injection H as <- _; set_solver].
      apply s_run_peekd_inv in H as [(e & s4 & H & _)|(lb & s4 & -> & Hlb & H)];
        [injection H as <- _; set_solver|].
      match type of H with s_run (cli_service_data ?e ?st ?t ?s ?l) _ = _ => pose proof (only_new_service e st t s l) as Ho end.
      apply (always_run _ _ s4) in Ho. rewrite H in Ho. cbn [fst] in Ho.
      apply Ho in Hin as [-> ->]. exists d2, d3, (map B lb ++ s4), svcs.
      rewrite !map_app, <- !app_assoc. repeat split; try done; lia.
    - exfalso. destruct (_ =? OpData).
      + apply s_run_peekd_inv in H as [(e & s3 & H & _)|(d3 & s3 & -> & Hd3 & H)];
          [injection H as <- _; set_solver|].
        match type of H with s_run (cli_data ?e ?st ?t ?l) _ = _ => pose proof (no_new_data e st t l) as Ho end.
        apply (always_run _ _ s3) in Ho. rewrite H in Ho. by apply (Ho t sv).
      + destruct (_ =? OpClose); [destruct (m !! _)|]; injection H as <- _; set_solver. }
  assert (Hfin : (exists r0, s_run TF s1 = (r0, s') /\ CNew t sv ∈ (match r0 with inl (_, ev) => ev | inr (_, ev) => ev end)) ->
    exists d1 d2 d3 rest svcs, map B d1 ++ s1 = map B (d1 ++ d2 ++ d3) ++ rest /\ blen d1 = 4 /\ blen d2 = 2 /\ blen d3 = 2 /\
    p32 d1 = t /\ p16 d2 = OpServicesData /\ cSvcs st = Some svcs /\ p16 d3 < u16 (blen svcs) /\ nnth (p16 d3) svcs = Some sv).
  { intros (r0 & Hr & Hi). apply Htf in Hr as (d2 & d3 & rest & svcs & -> & Hx); [|done].
    exists d1, d2, d3, rest, svcs. rewrite !map_app, <- !app_assoc. split; [done|]. split; [done|]. tauto. }
  assert (Hgoal : exists r0, s_run TF s1 = (r0, s') /\ CNew t sv ∈ (match r0 with inl (_, ev) => ev | inr (_, ev) => ev end)).
  2:{ destruct (Hfin Hgoal) as (a & b & c & rest & svcs & Heq & Hx).
      exists d1. revert Heq Hx. intros. destruct Hgoal as (r0 & Hr & Hi).
      apply Htf in Hr as (d2 & d3 & rest' & svcs' & -> & Hy); [|done].
      exists d2, d3, rest', svcs'. rewrite !map_app, <- !app_assoc. split; [done|]. split; [done|]. tauto. }
  clear Htf Hfin. clearbody TF.
  destruct (_ =? PingSignal).
  { exfalso. destruct (_ && _); [injection H as <- _; set_solver|].
    destruct (_ <=? _); [destruct (ce_wait env)|]; injection H as <- _; set_solver. }
  destruct (_ =? CloseSignal).
  { exfalso. destruct (cClosing st); [|destruct (bool_decide _)]; injection H as <- _; set_solver. }
  destruct (_ =? ReconnectSignal).
  { rewrite s_run_bind in H. destruct (s_run TF s1) as [r0 s2]. exists r0.
    destruct r0 as [[st' ev]|[why ev]]; cbn [s_run] in H; injection H as <- <-; split; try done; set_solver. }
  destruct (_ =? ReadySignal); [exfalso; injection H as <- _; set_solver|].
  destruct (_ =? ServicesSignal); [exfalso; injection H as <- _; set_solver|].
  destruct (_ =? ErrorSignal).
  { exfalso. apply s_run_peekd_inv in H as [(e & s2 & H & _)|(d2 & s2 & -> & Hd2 & H)]; [injection H as <- _; set_solver|].
    destruct (_ =? 2); [|injection H as <- _; set_solver].
    apply s_run_peekd_inv in H as [(e & s3 & H & _)|(d3 & s3 & -> & Hd3 & H)]; injection H as <- _; set_solver. }
  destruct (_ =? InfoSignal).
  { exfalso. apply s_run_peekd_inv in H as [(e & s2 & H & _)|(d2 & s2 & -> & Hd2 & H)]; [injection H as <- _; set_solver|].
    destruct (_ =? 1); [|injection H as <- _; set_solver].
    apply s_run_peekd_inv in H as [(e & s3 & H & _)|(d3 & s3 & -> & Hd3 & H)]; [injection H as <- _; set_solver|].
    apply s_run_peekd_inv in H as [(e & s4 & H & _)|(d4 & s4 & -> & Hd4 & H)]; injection H as <- _; set_solver. }
  exists r. done.
Qed.
