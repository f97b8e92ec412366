(* Props_Reconn.v -- C79: a client keeps trying to reach its servers *)
From Verif Require Import GoBase GoBaseLemmas IdleModel ReconnModel.
Local Open Scope N_scope.

(* ---- specification ---- *)
(* Nothing of what is known to go wrong: no QUIC dial fails, no task of an ended connection ends while that connection's loop is waiting *)
Definition fine (s : rst) (e : rev) : Prop :=
  match e with RDial _ DPanic => False | RLate i => rPc s i <> LBlocked | _ => True end.
Inductive fine_run (c : rconf) : rst -> list rev -> rst -> Prop :=
  | fr_nil s : fine_run c s [] s
  | fr_cons s e s' es s'' : fine s e -> rstep c s e = Some s' -> fine_run c s' es s'' -> fine_run c s (e :: es) s''.
(* what the client itself does, with the time *)
Definition own (e : rev) : bool :=
  match e with RTop _ | RLock _ | RDial _ _ | RAfter _ | RSleep _ | RWait _ | RApi _ _ | RTick => true | _ => false end.
Definition dials_of (i : N) (s : rst) : nat := length (filter (fun d => d.1.1 = i) (rDials s)).

Ltac rcases H := unfold rstep in H; repeat (case_match; simplify_eq; try done); simplify_eq.
Lemma fine_run_rrun c s es s' : fine_run c s es s' -> rrun c s es = Some s'.
Proof. induction 1 as [|s e s1 es s' F H _ IH]; [done|]. cbn [rrun]. by rewrite H. Qed.
Lemma rrun_app c es1 : forall s es2 s', rrun c s (es1 ++ es2) = Some s' <-> exists s1, rrun c s es1 = Some s1 /\ rrun c s1 es2 = Some s'.
Proof.
  induction es1 as [|e es IH]; intros s es2 s'; cbn [app rrun]; [naive_solver|]. destruct (rstep c s e) as [s1|]; cbn [mbind option_bind]; [apply IH|]. split; [done|]. by intros (? & ? & _).
Qed.
Lemma up_eq {A} (f : N -> A) i x : up f i x i = x. Proof. unfold up. by rewrite decide_True. Qed.
Lemma up_ne {A} (f : N -> A) i j x : j <> i -> up f i x j = f j. Proof. intros. unfold up. by rewrite decide_False. Qed.

(* ---- one attempt at a time ---- *)
Definition inv_m (s : rst) : Prop := forall i, rPc s i = LDial -> rMtx s = Some i.
Ltac upd := repeat match goal with
  | H : context [up _ ?i _ ?j] |- _ => unfold up in H; destruct (decide (j = i)); simplify_eq
  | |- context [up _ ?i _ ?j] => unfold up; destruct (decide (j = i)); simplify_eq
  end.
Lemma wake_all_dial f j : wake_all f j = LDial -> f j = LDial.
Proof. unfold wake_all. by destruct (f j). Qed.
Lemma inv_m_step c s e s' : inv_m s -> rstep c s e = Some s' -> inv_m s'.
Proof.
  intros I H. destruct e; rcases H; unfold inv_m in *; cbn [rPc rMtx set_rpc] in *; intros j Hj; upd; try (apply wake_all_dial in Hj); eauto;
    try (apply I in Hj; congruence);
    match goal with Hd : rPc s _ = LDial |- _ => apply I in Hd; apply I in Hj; congruence end.
Qed.
Lemma inv_m_run c : forall es s s', inv_m s -> rrun c s es = Some s' -> inv_m s'.
Proof. induction es as [|e es IH]; intros s s' I H; cbn [rrun] in H; [by injection H as <-|]. destruct (rstep c s e) eqn:E; [|done]. eapply IH; [|exact H]. by eapply inv_m_step. Qed.
Lemma inv_m_0 c : inv_m (r0 c).
Proof. intros i H. cbn in H. by destruct (decide (loop_of c i)). Qed.
Theorem C79_one_at_a_time : forall c es s i j, rrun c (r0 c) es = Some s -> rPc s i = LDial -> rPc s j = LDial -> i = j.
Proof. intros c es s i j H Hi Hj. pose proof (inv_m_run _ _ _ _ (inv_m_0 c) H) as I. apply I in Hi, Hj. congruence. Qed.

(* ---- it keeps trying ---- *)
Record inv_f (c : rconf) (s : rst) : Prop := {
  if_m : inv_m s;
  if_hold : forall i, rMtx s = Some i -> rPc s i = LDial;
  if_loop : forall i, rPc s i <> LExit -> loop_of c i;
  if_old : forall i, 0 < rOld s i -> loop_of c i;
  if_pool : forall i, rPool s !! i = Some Idle -> loop_of c i /\ (rClosing s = true \/ rPc s i <> LBlocked);
  if_exit : rClosing s = false -> forall i, loop_of c i -> rPc s i <> LExit;
  if_block : rClosing s = true -> forall i, rPc s i <> LBlocked;
  if_some : 1 <= rLoops c -> rClosing s = false -> exists i, loop_of c i /\ rPc s i <> LBlocked }.
Lemma inv_f_0 c : inv_f c (r0 c).
Proof.
  split; cbn; try done.
  - apply inv_m_0.
  - intros i. by destruct (decide (loop_of c i)).
  - intros _ i Hi. by rewrite decide_True.
  - intros H _. exists 1. assert (L : loop_of c 1) by (split; lia). split; [done|]. by rewrite decide_True.
Qed.
Lemma other_idle_spec i m : other_idle i m = true <-> exists k, k <> i /\ m !! k = Some Idle.
Proof.
  unfold other_idle. rewrite existsb_exists. split.
  - intros ([k x] & Hi & [Hk Hx]%andb_true_iff). exists k. apply elem_of_list_In, elem_of_map_to_list in Hi. cbn in *. apply bool_decide_eq_true in Hx. subst. split; [|done]. apply negb_true_iff, N.eqb_neq in Hk. done.
  - intros (k & Hk & Hm). exists (k, Idle). split; [by apply elem_of_list_In, elem_of_map_to_list|]. cbn. rewrite andb_true_iff. split; [by apply negb_true_iff, N.eqb_neq|by apply bool_decide_eq_true].
Qed.
Lemma init_conn_pool min i m b m' : init_conn min i m = (b, m') -> m' !! i = Some (if b then Waiting else Connecting) /\ forall j, j <> i -> m' !! j = m !! j.
Proof. unfold init_conn. intros H. case_match; injection H as <- <-; (split; [by rewrite lookup_insert|]); intros j Hj; by rewrite !lookup_insert_ne. Qed.
Lemma set_running_pool i m k : set_running i m !! k = Some Idle -> m !! k = Some Idle /\ k <> i.
Proof.
  unfold set_running. case_decide as D.
  - intros H. split; [done|]. intros ->. by rewrite H in D.
  - destruct (decide (k = i)) as [->|N]; [by rewrite lookup_insert|]. rewrite lookup_insert_ne by done. done.
Qed.
Lemma change_to_wait_pool min i m k : (change_to_wait min i m).2 !! k = Some Idle -> m !! k = Some Idle.
Proof. unfold change_to_wait. case_match; [done|]. cbn [snd]. destruct (decide (k = i)) as [->|N]; [by rewrite lookup_insert|]. by rewrite lookup_insert_ne. Qed.
Lemma wake_all_block f j : wake_all f j <> LBlocked.
Proof. unfold wake_all. by destruct (f j). Qed.
Lemma wake_all_exit f j : wake_all f j = LExit <-> f j = LExit.
Proof. unfold wake_all. by destruct (f j). Qed.
Lemma inv_f_set c s s' i p m q : inv_f c s -> rPc s i <> LExit -> inv_m s' ->
  s' = mkR (up (rPc s) i p) m q (rTasks s') (rOld s') (rLoopAddr s') (rAddr s') (rNow s') (rClosing s) (rDials s') ->
  (forall k, rMtx s' = Some k -> k = i /\ p = LDial \/ k <> i /\ rPc s k = LDial) ->
  (p = LExit -> rClosing s = true) ->
  (p = LBlocked -> rClosing s = false /\ q !! i <> Some Idle /\ exists k, k <> i /\ rPool s !! k = Some Idle) ->
  (forall k, k <> i -> q !! k = Some Idle -> rPool s !! k = Some Idle) ->
  (forall k, 0 < rOld s' k -> k = i \/ 0 < rOld s k) -> inv_f c s'.
Proof.
  intros [M Ho Lo Ol Po Ex Bl So] Hi Im Es Hm He Hb Hq Hold. assert (Li : loop_of c i) by (by apply Lo).
  rewrite Es in *; cbn [rPc rMtx rPool rTasks rOld rLoopAddr rAddr rNow rClosing rDials] in *. split; cbn [rPc rMtx rPool rTasks rOld rLoopAddr rAddr rNow rClosing rDials].
  - done.
  - intros k Hk. destruct (Hm k Hk) as [[-> ->]|[N D]]; [by rewrite up_eq|by rewrite up_ne].
  - intros k Hk. upd; eauto.
  - intros k Hk. destruct (Hold k Hk) as [->|]; eauto.
  - intros k Hk. destruct (decide (k = i)) as [->|N].
    + split; [done|]. destruct (rClosing s) eqn:Ec; [by left|right]. rewrite up_eq. intros ->. by destruct (Hb eq_refl) as (_ & ? & _).
    + rewrite up_ne by done. apply Po. by apply Hq.
  - intros Hc k Hk. destruct (decide (k = i)) as [->|N]; [rewrite up_eq; intros ->; by rewrite He in Hc|rewrite up_ne by done; by apply Ex].
  - intros Hc k. destruct (decide (k = i)) as [->|N]; [rewrite up_eq; intros ->; destruct (Hb eq_refl); congruence|rewrite up_ne by done; by apply Bl].
  - intros Hl Hc. destruct (decide (p = LBlocked)) as [->|Np].
    + destruct (Hb eq_refl) as (_ & _ & k & N & Hk). destruct (Po k Hk) as [Lk [X|X]]; [congruence|]. exists k. split; [done|]. by rewrite up_ne.
    + exists i. split; [done|]. by rewrite up_eq.
Qed.
Lemma inv_f_same c s s' : inv_f c s -> rMtx s' = rMtx s -> rClosing s' = rClosing s -> (forall k, rPc s' k = LDial <-> rPc s k = LDial) -> (forall k, rPc s' k = LExit <-> rPc s k = LExit) -> (forall k, rPc s' k = LBlocked -> rPc s k = LBlocked) ->
  (forall k, rPool s' !! k = Some Idle -> rPool s !! k = Some Idle \/ loop_of c k /\ rPc s k <> LBlocked) -> (forall k, 0 < rOld s' k -> 0 < rOld s k) -> inv_f c s'.
Proof.
  intros [M Ho Lo Ol Po Ex Bl So] Em Ec Hd He Hb Hq Hold. split; rewrite ?Ec.
  - intros k Hk. rewrite Em. apply M. by apply Hd.
  - intros k Hk. apply Hd, Ho. congruence.
  - intros k Hk. apply Lo. by rewrite <- He.
  - eauto.
  - intros k Hk. destruct (Hq k Hk) as [X|[X Y]].
    + destruct (Po k X) as [? [?|?]]; (split; [done|]); [by left|right]. eauto.
    + split; [done|]. right. eauto.
  - intros Hc k Hk. rewrite He. eauto.
  - intros Hc k Hk. by apply (Bl Hc k), Hb.
  - intros Hl Hc. destruct (So Hl Hc) as (k & Lk & Hk). exists k. eauto.
Qed.
Lemma inv_f_step c s e s' : inv_f c s -> fine s e -> rstep c s e = Some s' -> inv_f c s'.
Proof.
  intros I F H. pose proof (inv_m_step _ _ _ _ (if_m _ _ I) H) as Im. destruct e as [i|i|i o|i|i|i|i|i a|i|i|i|i| |]; cbn [fine] in F; unfold rstep in H.
  - destruct (rPc s i) eqn:E; try done. assert (Hm : forall k, rMtx s = Some k -> k <> i /\ rPc s k = LDial) by (intros k Hk; apply (if_hold _ _ I) in Hk; split; [congruence|done]).
    destruct (rClosing s) eqn:Ec; injection H as <-; (eapply inv_f_set; [exact I|by rewrite E|exact Im|unfold set_rpc; cbn; rewrite ?Ec; reflexivity|..]; cbn; try done; try (by eauto)).
  - destruct (rPc s i) eqn:E; try done. destruct (rMtx s) eqn:Em; [done|]. destruct (init_conn (rMin c) i (rPool s)) as [[] q] eqn:Ei; apply init_conn_pool in Ei as [E1 E2]; injection H as <-;
      (eapply inv_f_set; [exact I|by rewrite E|exact Im|reflexivity|..]; cbn; try done; try (intros k Hk; rewrite E2 by done; done); try (by eauto)). intros k [= <-]. by left.
  - destruct (rPc s i) eqn:E; try done. destruct o; [| |done]; injection H as <-; (eapply inv_f_set; [exact I|by rewrite E|exact Im|reflexivity|..]; cbn; try done; try (by eauto)). intros k Hk. unfold set_idle. by rewrite lookup_insert_ne.
  - destruct (rPc s i) eqn:E; try done. injection H as <-. eapply inv_f_set; [exact I|by rewrite E|exact Im|reflexivity|..]; cbn; try done.
    + intros k Hk. apply (if_hold _ _ I) in Hk. right. split; [congruence|done].
    + intros k Hk. destruct (0 <? rTasks s i); [|eauto]. upd; eauto.
  - destruct (rPc s i) eqn:E; try done. injection H as <-. eapply inv_f_set; [exact I|by rewrite E|exact Im|reflexivity|..]; cbn; try done.
    + intros k Hk. apply (if_hold _ _ I) in Hk. right. split; [congruence|done].
    + by destruct (rClosing s).
    + by destruct (rClosing s).
    + intros k Hk. unfold set_wait. by rewrite lookup_insert_ne.
    + eauto.
  - destruct (rPc s i) eqn:E; try done. destruct (until <=? rNow s); [|done]. injection H as <-. eapply inv_f_set; [exact I|by rewrite E|exact Im|reflexivity|..]; cbn; try done.
    + intros k Hk. apply (if_hold _ _ I) in Hk. right. split; [congruence|done].
    + by destruct (rClosing s).
    + by destruct (rClosing s).
    + eauto.
  - destruct (rPc s i) eqn:E; try done. assert (Hm : forall k, rMtx s = Some k -> k <> i /\ rPc s k = LDial) by (intros k Hk; apply (if_hold _ _ I) in Hk; split; [congruence|done]).
    destruct (rClosing s) eqn:Ec; [|destruct (other_idle i (rPool s)) eqn:Eo]; injection H as <-; (eapply inv_f_set; [exact I|by rewrite E|exact Im|unfold set_rpc; cbn; rewrite ?Ec; reflexivity|..]; cbn; try done; try (by eauto)).
    + intros _. split; [done|]. split; [by rewrite lookup_insert|]. by apply other_idle_spec.
    + intros k Hk. by rewrite lookup_insert_ne.
    + intros k Hk. by rewrite lookup_insert_ne.
  - destruct (rPc s i) eqn:E; try done. assert (Hm : forall k, rMtx s = Some k -> k <> i /\ rPc s k = LDial) by (intros k Hk; apply (if_hold _ _ I) in Hk; split; [congruence|done]).
    destruct (rApi c); [destruct (rClosing s) eqn:Ec; [|destruct a]|destruct a; [done|]]; injection H as <-; try exact I; (eapply inv_f_set; [exact I|by rewrite E|exact Im|unfold set_rpc; cbn; rewrite ?Ec; reflexivity|..]; cbn; try done; try (by eauto)).
  - destruct (rPc s i) eqn:E; try done. injection H as <-. eapply inv_f_same; [exact I|..]; cbn; try done.
    + intros k. case_match; [|done]. split; [apply wake_all_dial|]. intros X. unfold wake_all. by rewrite X.
    + intros k. case_match; [|done]. apply wake_all_exit.
    + intros k. case_match; [|done]. intros X. by apply wake_all_block in X.
    + intros k Hk. left. by apply set_running_pool in Hk as [? _].
  - destruct (rPc s i) eqn:E; try done. destruct (rTasks s i =? 0); [done|]. injection H as <-. eapply inv_f_same; [exact I|..]; cbn; try done. intros k. destruct (rTasks s i =? 1); [|eauto]. unfold set_idle. destruct (decide (k = i)) as [->|N].
    + intros _. right. rewrite E. split; [|done]. apply (if_loop _ _ I). by rewrite E.
    + rewrite lookup_insert_ne by done. eauto.
  - destruct (N.eqb_spec (rOld s i) 0); [done|]. injection H as <-. eapply inv_f_same; [exact I|..]; cbn; try done.
    + intros k. unfold set_idle. destruct (decide (k = i)) as [->|N].
      * intros _. right. split; [|done]. apply (if_old _ _ I). lia.
      * rewrite lookup_insert_ne by done. eauto.
    + intros k Hk. upd; lia.
  - destruct (rPc s i) eqn:E; try done. injection H as <-. eapply inv_f_same; [exact I|..]; cbn; try done. intros k Hk. left. by apply change_to_wait_pool in Hk.
  - injection H as <-. eapply inv_f_same; [exact I|..]; cbn; try done. eauto.
  - injection H as <-. destruct I as [M Ho Lo Ol Po Ex Bl So]. split; cbn; try done.
    + intros k Hk. unfold wake_all. by rewrite (Ho k Hk).
    + intros k Hk. apply Lo. by rewrite wake_all_exit in Hk.
    + intros k Hk. split; [by apply Po|]. by left.
    + intros _ k. apply wake_all_block.
Qed.
Lemma inv_f_run c s es s' : fine_run c s es s' -> inv_f c s -> inv_f c s'.
Proof. induction 1 as [|s e s1 es s' F H _ IH]; [done|]. intros I. apply IH. by eapply inv_f_step. Qed.
Definition reach (c : rconf) (s s' : rst) : Prop := exists es, forallb own es = true /\ fine_run c s es s'.
Lemma reach_refl c s : reach c s s. Proof. exists []. split; [done|constructor]. Qed.
Lemma reach_step c s e s1 s' : own e = true -> fine s e -> rstep c s e = Some s1 -> reach c s1 s' -> reach c s s'.
Proof. intros O F H (es & Oe & R). exists (e :: es). split; [cbn; by rewrite O|]. by econstructor. Qed.
Lemma fine_run_app c s es1 s1 es2 s' : fine_run c s es1 s1 -> fine_run c s1 es2 s' -> fine_run c s (es1 ++ es2) s'.
Proof. induction 1 as [|s e s2 es1 s1 F H _ IH]; [done|]. intros R. econstructor; eauto. Qed.
Lemma reach_trans c s s1 s' : reach c s s1 -> reach c s1 s' -> reach c s s'.
Proof. intros (e1 & O1 & R1) (e2 & O2 & R2). exists (e1 ++ e2). split; [by rewrite forallb_app, O1, O2|by eapply fine_run_app]. Qed.
Definition at_time (s : rst) (t : N) : rst := mkR (rPc s) (rMtx s) (rPool s) (rTasks s) (rOld s) (rLoopAddr s) (rAddr s) t (rClosing s) (rDials s).
Lemma reach_time c s (n : nat) : reach c s (at_time s (rNow s + N.of_nat n)).
Proof.
  revert s. induction n as [|n IH]; intros s.
  - replace (rNow s + N.of_nat 0) with (rNow s) by lia. destruct s. apply reach_refl.
  - eapply (reach_step c s RTick); [done|done|reflexivity|]. specialize (IH (at_time s (rNow s + 1))). unfold at_time in *. cbn in *. by replace (rNow s + N.pos (Pos.of_succ_nat n)) with (rNow s + 1 + N.of_nat n) by lia.
Qed.
(* from here on: nothing but loop j has moved *)
Record drove (s s' : rst) (j : N) : Prop := {
  dv_mtx : rMtx s' = None;
  dv_closing : rClosing s' = rClosing s;
  dv_pc : forall k, k <> j -> rPc s' k = rPc s k;
  dv_pool : forall k, k <> j -> rPool s' !! k = rPool s !! k }.
Lemma drove_trans s s1 s' j : drove s s1 j -> drove s1 s' j -> drove s s' j.
Proof. intros [A B C D] [A' B' C' D']. split; [done|congruence|intros k Hk; by rewrite C', C|intros k Hk; by rewrite D', D]. Qed.
Lemma drove_refl s j : rMtx s = None -> drove s s j. Proof. by split. Qed.
Lemma lock_or c s j : rPc s j = LWant -> rMtx s = None -> exists s', reach c s s' /\ (rPc s' j = LDial \/ drove s s' j /\ rPc s' j = LAfter /\ rPool s' !! j = Some Waiting).
Proof.
  intros E Em. destruct (init_conn (rMin c) j (rPool s)) as [b q] eqn:Ei. pose proof (init_conn_pool _ _ _ _ _ Ei) as [E1 E2].
  destruct (rstep c s (RLock j)) as [s1|] eqn:H; [|unfold rstep in H; rewrite E, Em, Ei in H; by destruct b].
  exists s1. split; [eapply reach_step; [| |exact H|apply reach_refl]; done|]. unfold rstep in H. rewrite E, Em, Ei in H. destruct b; injection H as <-; cbn.
  - right. rewrite up_eq. split; [|done]. split; cbn; try done; intros k Hk; by rewrite up_ne.
  - left. apply up_eq.
Qed.
Lemma api_top c s j : rPc s j = LApi -> rMtx s = None -> rClosing s = false -> exists s', reach c s s' /\ drove s s' j /\ rPc s' j = LTop /\ rPool s' = rPool s.
Proof.
  intros E Em Ec. destruct (rApi c) eqn:Ea.
  - eexists. split; [eapply (reach_step c s (RApi j (Some 0))); [done|done| |apply reach_refl]; unfold rstep; rewrite E, Ea, Ec; reflexivity|]. cbn. split; [|by rewrite up_eq]. split; cbn; try done. intros k Hk. by rewrite up_ne.
  - eexists. split; [eapply (reach_step c s (RApi j None)); [done|done| |apply reach_refl]; unfold rstep; rewrite E, Ea; reflexivity|]. cbn. split; [|by rewrite up_eq]. split; cbn; try done. intros k Hk. by rewrite up_ne.
Qed.
Lemma top_want c s j : rPc s j = LTop -> rMtx s = None -> rClosing s = false -> exists s', reach c s s' /\ drove s s' j /\ rPc s' j = LWant /\ rPool s' = rPool s.
Proof.
  intros E Em Ec. eexists. split; [eapply (reach_step c s (RTop j)); [done|done| |apply reach_refl]; unfold rstep; rewrite E, Ec; reflexivity|]. cbn. split; [|by rewrite up_eq]. split; cbn; try done. intros k Hk. by rewrite up_ne.
Qed.
Lemma after_sleep c s j : rPc s j = LAfter -> rMtx s = None -> rClosing s = false -> exists s' t, reach c s s' /\ drove s s' j /\ rPc s' j = LSleep t /\ rPool s' !! j = Some Waiting.
Proof.
  intros E Em Ec. eexists _, _. split; [eapply (reach_step c s (RAfter j)); [done|done| |apply reach_refl]; unfold rstep; rewrite E, Ec; reflexivity|]. cbn. unfold set_wait. split; [|by rewrite up_eq, lookup_insert]. split; cbn; try done; intros k Hk; first [by rewrite up_ne|by rewrite lookup_insert_ne].
Qed.
Lemma sleep_wait c s j t : rPc s j = LSleep t -> rMtx s = None -> rClosing s = false -> exists s', reach c s s' /\ drove s s' j /\ rPc s' j = LWait /\ rPool s' = rPool s.
Proof.
  intros E Em Ec. set (s1 := at_time s (rNow s + N.of_nat (N.to_nat t))). eexists. split.
  - eapply (reach_trans c s s1); [apply reach_time|]. eapply (reach_step c s1 (RSleep j)); [done|done| |apply reach_refl]. unfold rstep, s1, at_time. cbn. rewrite E, Ec. assert (X : t <=? rNow s + N.of_nat (N.to_nat t) = true) by (apply N.leb_le; lia). rewrite X. reflexivity.
  - cbn. split; [|by rewrite up_eq]. split; cbn; try done. intros k Hk. by rewrite up_ne.
Qed.
Lemma wait_leaves c s j : rPc s j = LWait -> rMtx s = None -> rClosing s = false -> exists s', reach c s s' /\ drove s s' j /\ rPool s' !! j <> Some Idle /\
  (rPc s' j = LApi \/ rPc s' j = LBlocked /\ exists k, k <> j /\ rPool s !! k = Some Idle).
Proof.
  intros E Em Ec. destruct (rstep c s (RWait j)) as [s1|] eqn:H; [|unfold rstep in H; rewrite E, Ec in H; by destruct (other_idle j (rPool s))].
  exists s1. split; [eapply reach_step; [| |exact H|apply reach_refl]; done|]. unfold rstep in H. rewrite E, Ec in H. destruct (other_idle j (rPool s)) eqn:Eo; injection H as <-; cbn; rewrite lookup_insert, up_eq; (split; [split; cbn; try done; intros k Hk; first [by rewrite up_ne|by rewrite lookup_insert_ne]|split; [done|]]).
  - right. split; [done|]. by apply other_idle_spec.
  - by left.
Qed.
(* a loop that is not waiting dials or does not count as idle any more *)
Lemma clear c s j : rMtx s = None -> rClosing s = false -> rPc s j <> LBlocked -> rPc s j <> LExit -> rPc s j <> LRead -> rPc s j <> LDial ->
  exists s', reach c s s' /\ (rPc s' j = LDial \/ drove s s' j /\ rPool s' !! j <> Some Idle /\ rPc s' j <> LRead).
Proof.
  intros Em Ec N1 N2 N3 N4.
  assert (W : forall s, rPc s j = LWant -> rMtx s = None -> exists s', reach c s s' /\ (rPc s' j = LDial \/ drove s s' j /\ rPool s' !! j <> Some Idle /\ rPc s' j <> LRead)).
  { intros s1 E1 M1. destruct (lock_or c s1 j E1 M1) as (s' & R & [D|(D & P & Q)]); exists s'; (split; [done|]); [by left|right]. by rewrite Q, P. }
  assert (T : forall s, rPc s j = LTop -> rMtx s = None -> rClosing s = false -> exists s', reach c s s' /\ (rPc s' j = LDial \/ drove s s' j /\ rPool s' !! j <> Some Idle /\ rPc s' j <> LRead)).
  { intros s1 E1 M1 C1. destruct (top_want c s1 j E1 M1 C1) as (s2 & R & D & P & Q). destruct (W s2 P (dv_mtx _ _ _ D)) as (s3 & R3 & [X|(X & Y)]); exists s3; (split; [by eapply reach_trans|]); [by left|right]. split; [by eapply drove_trans|done]. }
  assert (L : forall s, rPc s j = LWait -> rMtx s = None -> rClosing s = false -> exists s', reach c s s' /\ (rPc s' j = LDial \/ drove s s' j /\ rPool s' !! j <> Some Idle /\ rPc s' j <> LRead)).
  { intros s1 E1 M1 C1. destruct (wait_leaves c s1 j E1 M1 C1) as (s2 & R & D & P & Q). exists s2. split; [done|]. right. split; [done|]. split; [done|]. destruct Q as [-> | [-> _]]; done. }
  destruct (rPc s j) eqn:E; try done.
  - by apply T.
  - by apply W.
  - destruct (after_sleep c s j E Em Ec) as (s' & t & R & D & P & Q). exists s'. split; [done|]. right. by rewrite P, Q.
  - destruct (sleep_wait c s j until E Em Ec) as (s1 & R & D & P & Q). destruct (L s1 P (dv_mtx _ _ _ D)) as (s2 & R2 & [X|(X & Y)]); [by rewrite (dv_closing _ _ _ D)| |]; exists s2; (split; [by eapply reach_trans|]); [by left|right]. split; [by eapply drove_trans|done].
  - by apply L.
  - destruct (api_top c s j E Em Ec) as (s1 & R & D & P & Q). destruct (T s1 P (dv_mtx _ _ _ D)) as (s2 & R2 & [X|(X & Y)]); [by rewrite (dv_closing _ _ _ D)| |]; exists s2; (split; [by eapply reach_trans|]); [by left|right]. split; [by eapply drove_trans|done].
Qed.
(* nothing idle: a loop that is not waiting gets to dial *)
Lemma to_dial c s j : 1 <= rMin c -> rMtx s = None -> rClosing s = false -> (forall k, rPool s !! k <> Some Idle) -> rPc s j <> LBlocked -> rPc s j <> LExit -> rPc s j <> LRead -> exists s', reach c s s' /\ rPc s' j = LDial.
Proof.
  intros Hmin Em Ec Hn N1 N2 N3.
  assert (W : forall s, rPc s j = LWant -> rMtx s = None -> (forall k, rPool s !! k <> Some Idle) -> exists s', reach c s s' /\ rPc s' j = LDial).
  { intros s1 E1 M1 P1. destruct (init_conn (rMin c) j (rPool s1)) as [b q] eqn:Ei. eexists. split.
    - eapply (reach_step c s1 (RLock j)); [done|done| |apply reach_refl]. unfold rstep. rewrite E1, M1, Ei. unfold init_conn in Ei. assert (X : idle_count (<[j:=Connecting]> (rPool s1)) = 0).
      { unfold idle_count. assert (Y : filter (fun kv : N * status => kv.2 = Idle) (<[j:=Connecting]> (rPool s1)) = ∅).
        { apply map_eq. intros k. rewrite lookup_empty. apply map_filter_lookup_None. right. intros x Hx. cbn. intros ->. destruct (decide (k = j)) as [->|N]; [by rewrite lookup_insert in Hx|]. rewrite lookup_insert_ne in Hx by done. by apply P1 in Hx. }
        rewrite Y. by rewrite map_size_empty. }
      rewrite X in Ei. assert (Z : 0 <? rMin c = true) by (apply N.ltb_lt; lia). rewrite Z in Ei. injection Ei as <- <-. reflexivity.
    - cbn. apply up_eq. }
  assert (T : forall s, rPc s j = LTop -> rMtx s = None -> rClosing s = false -> (forall k, rPool s !! k <> Some Idle) -> exists s', reach c s s' /\ rPc s' j = LDial).
  { intros s1 E1 M1 C1 P1. destruct (top_want c s1 j E1 M1 C1) as (s2 & R & D & P & Q). destruct (W s2 P (dv_mtx _ _ _ D)) as (s3 & R3 & X); [by rewrite Q|]. exists s3. split; [by eapply reach_trans|done]. }
  assert (A : forall s, rPc s j = LApi -> rMtx s = None -> rClosing s = false -> (forall k, rPool s !! k <> Some Idle) -> exists s', reach c s s' /\ rPc s' j = LDial).
  { intros s1 E1 M1 C1 P1. destruct (api_top c s1 j E1 M1 C1) as (s2 & R & D & P & Q). destruct (T s2 P (dv_mtx _ _ _ D)) as (s3 & R3 & X); [by rewrite (dv_closing _ _ _ D)|by rewrite Q|]. exists s3. split; [by eapply reach_trans|done]. }
  assert (L : forall s, rPc s j = LWait -> rMtx s = None -> rClosing s = false -> (forall k, rPool s !! k <> Some Idle) -> exists s', reach c s s' /\ rPc s' j = LDial).
  { intros s1 E1 M1 C1 P1. destruct (wait_leaves c s1 j E1 M1 C1) as (s2 & R & D & P & [Q|(_ & k & _ & X)]); [|by apply P1 in X]. destruct (A s2 Q (dv_mtx _ _ _ D)) as (s3 & R3 & X); [by rewrite (dv_closing _ _ _ D)| |].
    - intros k. destruct (decide (k = j)) as [->|N]; [done|]. by rewrite (dv_pool _ _ _ D).
    - exists s3. split; [by eapply reach_trans|done]. }
  assert (S : forall s t, rPc s j = LSleep t -> rMtx s = None -> rClosing s = false -> (forall k, rPool s !! k <> Some Idle) -> exists s', reach c s s' /\ rPc s' j = LDial).
  { intros s1 t E1 M1 C1 P1. destruct (sleep_wait c s1 j t E1 M1 C1) as (s2 & R & D & P & Q). destruct (L s2 P (dv_mtx _ _ _ D)) as (s3 & R3 & X); [by rewrite (dv_closing _ _ _ D)|by rewrite Q|]. exists s3. split; [by eapply reach_trans|done]. }
  destruct (rPc s j) eqn:E; try done; try (by eauto).
  - exists s. split; [apply reach_refl|done].
  - destruct (after_sleep c s j E Em Ec) as (s2 & t & R & D & P & Q). destruct (S s2 t P (dv_mtx _ _ _ D)) as (s3 & R3 & X); [by rewrite (dv_closing _ _ _ D)| |].
    + intros k. destruct (decide (k = j)) as [->|N]; [by rewrite Q|]. by rewrite (dv_pool _ _ _ D).
    + exists s3. split; [by eapply reach_trans|done].
Qed.
(* Whenever no connection is up and the client is not closing, its own steps lead to another attempt *)
Theorem C79_keeps_trying_partial : forall c es s, 1 <= rMin c -> 1 <= rLoops c -> fine_run c (r0 c) es s -> rClosing s = false -> (forall i, rPc s i <> LRead) ->
  exists es' s' i, forallb own es' = true /\ fine_run c s es' s' /\ rPc s' i = LDial.
Proof.
  intros c es s Hmin Hl R Hc Hr. pose proof (inv_f_run _ _ _ _ R (inv_f_0 c)) as I. clear R.
  assert (G : forall n s, (size (filter (fun kv : N * status => kv.2 = Idle) (rPool s)) <= n)%nat -> inv_f c s -> rClosing s = false -> (forall i, rPc s i <> LRead) -> exists s' i, reach c s s' /\ rPc s' i = LDial).
  { clear s I Hc Hr. induction n as [|n IH]; intros s Hn I Hc Hr.
    - destruct (rMtx s) as [k|] eqn:Em; [exists s, k; split; [apply reach_refl|by apply (if_hold _ _ I)]|].
      destruct (if_some _ _ I Hl Hc) as (j & Lj & Bj). destruct (to_dial c s j Hmin Em Hc) as (s' & R & D); [| | | |eauto]; try done; [|by apply (if_exit _ _ I)].
      intros k Hk. assert (Z : filter (fun kv : N * status => kv.2 = Idle) (rPool s) = ∅) by (apply map_size_empty_iff; lia). assert (X : filter (fun kv : N * status => kv.2 = Idle) (rPool s) !! k = Some Idle) by (by apply map_filter_lookup_Some). by rewrite Z, lookup_empty in X.
    - destruct (rMtx s) as [k|] eqn:Em; [exists s, k; split; [apply reach_refl|by apply (if_hold _ _ I)]|].
      destruct (decide (filter (fun kv : N * status => kv.2 = Idle) (rPool s) = ∅)) as [Z|Z]; [apply IH; try done; rewrite Z, map_size_empty; lia|].
      apply map_choose in Z as (j & x & Hj). apply map_filter_lookup_Some in Hj as [Hj Hx]. cbn in Hx. subst x. destruct (if_pool _ _ I j Hj) as [Lj [X|Bj]]; [congruence|].
      destruct (clear c s j Em Hc Bj) as (s' & R & [D|(D & P & Q)]); [by apply (if_exit _ _ I)|done| | |].
      + intros X. apply (if_m _ _ I) in X. congruence.
      + eauto.
      + destruct (IH s') as (s2 & i & R2 & X).
        * assert (Y : dom (filter (fun kv : N * status => kv.2 = Idle) (rPool s')) ⊂ dom (filter (fun kv : N * status => kv.2 = Idle) (rPool s))).
          { split.
            - intros k [y Hy]%elem_of_dom. apply map_filter_lookup_Some in Hy as [Hy Hy2]. cbn in Hy2. subst y. apply elem_of_dom. exists Idle. apply map_filter_lookup_Some. split; [|done]. destruct (decide (k = j)) as [->|N]; [done|]. by rewrite <- (dv_pool _ _ _ D).
            - intros X. assert (Jx : j ∈ dom (filter (fun kv : N * status => kv.2 = Idle) (rPool s))) by (apply elem_of_dom; eexists; by apply map_filter_lookup_Some). apply X in Jx. apply elem_of_dom in Jx as [y Hy]. apply map_filter_lookup_Some in Hy as [Hy Hy2]. cbn in Hy2. by subst y. }
          apply subset_size in Y. rewrite !size_dom in Y. lia.
        * destruct R as (es2 & _ & R). by eapply inv_f_run.
        * by rewrite (dv_closing _ _ _ D).
        * intros i. destruct (decide (i = j)) as [->|N]; [done|]. by rewrite (dv_pc _ _ _ D).
        * exists s2, i. split; [by eapply reach_trans|done]. }
  destruct (G _ s (le_n _) I Hc Hr) as (s' & i & (es' & O & R) & D). eauto 6.
Qed.

(* ---- what stops it ---- *)
Definition shut (s0 s : rst) : Prop := rMtx s <> None /\ (forall j, rPc s j <> LDial) /\ (forall j, rPc s j = LRead -> rPc s0 j = LRead).
Lemma shut_step c s0 s e s' : shut s0 s -> rstep c s e = Some s' -> rDials s' = rDials s /\ shut s0 s'.
Proof.
  intros (G1 & G2 & G3) E. destruct e; rcases E; try (by (exfalso; eapply G2; eauto)); unfold shut; cbn [rDials rMtx rPc set_rpc]; (split; [done|]); (split; [done|]); (split; [intros j Hj; upd; try (apply wake_all_dial in Hj); by eapply G2|]);
    intros j Hj; upd; eauto; apply G3; unfold wake_all in Hj; by case_match.
Qed.
Lemma shut_run c s0 : forall es s s', shut s0 s -> rrun c s es = Some s' -> rDials s' = rDials s /\ shut s0 s'.
Proof.
  induction es as [|e es IH]; intros s s' G H; cbn [rrun] in H; [by injection H as <-|]. destruct (rstep c s e) as [s2|] eqn:E; [|done]. cbn [mbind option_bind] in H.
  apply (shut_step _ _ _ _ _ G) in E as [E1 E2]. destruct (IH _ _ E2 H) as [E3 E4]. split; [congruence|done].
Qed.
(* One failed QUIC dial: nobody dials again and no connection comes up, whatever happens next, and however long *)
Theorem C79_quic_refuted : forall c es s i s1 es' s', rrun c (r0 c) es = Some s -> rstep c s (RDial i DPanic) = Some s1 -> rrun c s1 es' = Some s' ->
  rDials s' = rDials s1 /\ forall j, rPc s' j = LRead -> rPc s j = LRead.
Proof.
  intros c es s i s1 es' s' H H1 H2. pose proof (inv_m_run _ _ _ _ (inv_m_0 c) H) as I.
  assert (G : shut s s1).
  { cbn in H1. destruct (rPc s i) eqn:E; try done. destruct (rQuic c i); [|done]. injection H1 as <-. unfold shut. cbn. pose proof (I i E) as Em. rewrite Em. split; [done|]. split; intros j Hj; upd; try done. apply I in Hj. congruence. }
  destruct (shut_run _ _ _ _ _ G H2) as (E1 & _ & _ & E2). done.
Qed.
Theorem C79_quic_witness : exists s, rrun (mkRC 2 1 (fun _ => true) 5 false (fun i => i)) (r0 (mkRC 2 1 (fun _ => true) 5 false (fun i => i))) [RTop 1; RLock 1; RDial 1 DPanic; RTop 1; RTop 2] = Some s /\ rPc s 1 = LWant /\ rPc s 2 = LWant /\ rMtx s = Some 1 /\ rClosing s = false.
Proof.
  set (c := mkRC _ _ _ _ _ _). set (es := [_; _; _; _; _]). assert (X : (fun s => (rPc s 1, rPc s 2, rMtx s, rClosing s)) <$> rrun c (r0 c) es = Some (LWant, LWant, Some 1, false)) by (vm_compute; reflexivity).
  destruct (rrun c (r0 c) es) as [s|]; [|done]. injection X as X1 X2 X3 X4. eauto 6.
Qed.
Lemma exit_step c s e s' i : rPc s i = LExit -> rstep c s e = Some s' -> rPc s' i = LExit.
Proof. intros X E. destruct e; rcases E; cbn [rPc set_rpc]; upd; try done; try congruence; by apply wake_all_exit. Qed.
Lemma exit_run c i : forall es s s', rrun c s es = Some s' -> rPc s i = LExit -> rPc s' i = LExit.
Proof. induction es as [|e es IH]; intros s s' H X; cbn [rrun] in H; [by injection H as <-|]. destruct (rstep c s e) as [s2|] eqn:E; [|done]. eapply IH; [exact H|]. by eapply exit_step. Qed.
(* All loops waiting for one another: until it is closed nobody dials *)
Definition stuck (c : rconf) (s : rst) : Prop := forall i, (loop_of c i -> rPc s i = LBlocked) /\ (~ loop_of c i -> rPc s i = LExit).
Lemma stuck_step c s e s' : stuck c s -> e <> RClose -> rstep c s e = Some s' -> stuck c s' /\ rDials s' = rDials s /\ rClosing s' = rClosing s.
Proof.
  intros G N E. assert (G' : forall i, rPc s i = LBlocked \/ rPc s i = LExit) by (intros i; destruct (G i) as [A B]; destruct (decide (loop_of c i)); eauto).
  destruct e as [i|i|i o|i|i|i|i|i a|i|i|i|i| |]; try done; unfold rstep in E; try (by destruct (G' i) as [X|X]; rewrite X in E).
  - destruct (rOld s i =? 0); [done|]. injection E as <-. by repeat split; try apply G.
  - injection E as <-. by repeat split; try apply G.
Qed.
Theorem C79_stuck_for_ever : forall c es s s', stuck c s -> RClose ∉ es -> rrun c s es = Some s' -> stuck c s' /\ rDials s' = rDials s /\ rClosing s' = rClosing s.
Proof.
  intros c. induction es as [|e es IH]; intros s s' G N H; cbn [rrun] in H; [by injection H as <-|]. destruct (rstep c s e) as [s2|] eqn:E; [|done]. cbn [mbind option_bind] in H. apply not_elem_of_cons in N as [N1 N2].
  destruct (stuck_step _ _ _ _ G (not_eq_sym N1) E) as (E1 & E2 & E3). destruct (IH _ _ E1 N2 H) as (A & B & C). split; [done|]. split; congruence.
Qed.
(* ... and a task of an ended connection that ends late brings the client there: two connections, both lost *)
Definition two : rconf := mkRC 2 1 (fun _ => false) 0 false (fun i => i).
Theorem C79_late_task_refuted : exists s, rrun two (r0 two)
  [RTop 1; RLock 1; RDial 1 DOk; RStart 1; RTop 2; RLock 2; RDial 2 DOk; REnd 1; RAfter 1; RSleep 1; RWait 1; RLate 1; REnd 2; RAfter 2; RSleep 2; RWait 2] = Some s /\
  stuck two s /\ rClosing s = false /\ (forall i, rPc s i <> LRead).
Proof.
  set (es := [RTop 1; RLock 1; RDial 1 DOk; RStart 1; RTop 2; RLock 2; RDial 2 DOk; REnd 1; RAfter 1; RSleep 1; RWait 1; RLate 1; REnd 2; RAfter 2; RSleep 2; RWait 2]).
  assert (X : (fun s => (rPc s 1, rPc s 2, rClosing s)) <$> rrun two (r0 two) es = Some (LBlocked, LBlocked, false)) by (vm_compute; reflexivity).
  destruct (rrun two (r0 two) es) as [s|] eqn:E; [|done]. injection X as X1 X2 X3. exists s. split; [done|].
  assert (G : forall i, 1 <= i <= 2 -> i = 1 \/ i = 2) by (intros i; lia).
  assert (S : stuck two s).
  { intros i. split; [intros H; by destruct (G i H) as [-> | ->]|]. intros H. eapply exit_run; [exact E|]. cbn. by rewrite decide_False. }
  split; [done|]. split; [done|]. intros i. destruct (S i) as [A B]. destruct (decide (loop_of two i)) as [Y|Y]; [by rewrite A|by rewrite B].
Qed.
(* While as many connections as wanted are idle nobody dials: with two servers only one is connected to *)
Definition of_loop (e : rev) : option N :=
  match e with RTop i | RLock i | RDial i _ | REnd i | RAfter i | RSleep i | RWait i | RApi i _ | RStart i | RFinish i | RLate i | RToWait i => Some i | RTick | RClose => None end.
Theorem C79_second_server_refuted : forall c es s s', rMin c = 1 -> rPc s 1 = LRead -> rPool s !! 1 = Some Idle -> (forall i, rPc s i <> LDial) ->
  Forall (fun e => of_loop e <> Some 1) es -> rrun c s es = Some s' -> rDials s' = rDials s /\ (forall i, rPc s' i <> LDial) /\ (forall i, rPc s' i = LRead -> rPc s i = LRead).
Proof.
  intros c es. induction es as [|e es IH]; intros s s' Hm H1 H2 H3 Hf H; cbn [rrun] in H; [by injection H as <-|]. destruct (rstep c s e) as [s2|] eqn:E; [|done]. cbn [mbind option_bind] in H. apply Forall_cons in Hf as [Hn Hf].
  assert (X : rDials s2 = rDials s /\ rPc s2 1 = LRead /\ rPool s2 !! 1 = Some Idle /\ (forall i, rPc s2 i <> LDial) /\ (forall i, rPc s2 i = LRead -> rPc s i = LRead)).
  { assert (IC : forall i b q, i <> 1 -> init_conn (rMin c) i (rPool s) = (b, q) -> b = true /\ q !! 1 = Some Idle).
    { intros i b q Hi. unfold init_conn. rewrite Hm. destruct (N.ltb_spec (idle_count (<[i:=Connecting]> (rPool s))) 1) as [L|L].
      - exfalso. unfold idle_count in L. assert (Z : filter (fun kv : N * status => kv.2 = Idle) (<[i:=Connecting]> (rPool s)) = ∅) by (apply map_size_empty_iff; lia).
        assert (Y : filter (fun kv : N * status => kv.2 = Idle) (<[i:=Connecting]> (rPool s)) !! 1 = Some Idle) by (apply map_filter_lookup_Some; by rewrite lookup_insert_ne by done). by rewrite Z, lookup_empty in Y.
      - intros [= <- <-]. split; [done|]. by rewrite !lookup_insert_ne by done. }
    assert (CW : forall i, i <> 1 -> (change_to_wait (rMin c) i (rPool s)).2 !! 1 = Some Idle) by (intros i Hi; unfold change_to_wait; case_match; [done|]; cbn; by rewrite lookup_insert_ne).
    assert (SR : forall i, i <> 1 -> set_running i (rPool s) !! 1 = Some Idle) by (intros i Hi; unfold set_running; case_decide; [done|]; by rewrite lookup_insert_ne).
    destruct e as [i|i|i o|i|i|i|i|i a|i|i|i|i| |]; cbn [of_loop] in Hn; try (assert (Ni : i <> 1) by (intros ->; by apply Hn)); rcases E;
      try (by (exfalso; eapply H3; eauto));
      try (match goal with HI : init_conn _ _ _ = _ |- _ => destruct (IC _ _ _ Ni HI) as [IC1 IC2]; try done end);
      cbn [rDials rPc rPool set_rpc]; unfold set_wait, set_idle; rewrite ?up_ne by done; rewrite ?lookup_insert_ne by done; (split; [done|]);
      (split; [try done; unfold wake_all; by rewrite H1|]); (split; [auto|]); (split; [intros j Hj; upd; try (apply wake_all_dial in Hj); by eapply H3|]); intros j Hj; upd; try done; unfold wake_all in Hj; by case_match. }
  destruct X as (X1 & X2 & X3 & X4 & X5). destruct (IH s2 s' Hm X2 X3 X4 Hf H) as (A & B & C). split; [congruence|]. split; [done|]. eauto.
Qed.
(* The address the remote API gives later is not used: every attempt is at the first one *)
Theorem C79_address_refuted : forall c es s i a t, rrun c (r0 c) es = Some s -> (i, a, t) ∈ rDials s -> a = rFirst c i.
Proof.
  intros c es s i a t H Hi. assert (G : forall es s s', rrun c s es = Some s' -> (forall i, rLoopAddr s i = rFirst c i) /\ (forall i, rPc s i = LWant \/ rPc s i = LDial -> rAddr s i = rFirst c i) /\ (forall i a t, (i, a, t) ∈ rDials s -> a = rFirst c i) ->
     forall i a t, (i, a, t) ∈ rDials s' -> a = rFirst c i).
  { clear. induction es as [|e es IH]; intros s s' H G; cbn [rrun] in H; [injection H as <-; by destruct G as (_ & _ & ?)|]. destruct (rstep c s e) as [s2|] eqn:E; [|done]. cbn [mbind option_bind] in H. eapply IH; [exact H|]. clear IH H. destruct G as (G1 & G2 & G3).
    assert (GW : forall i, wake_all (rPc s) i = LWant \/ wake_all (rPc s) i = LDial -> rPc s i = LWant \/ rPc s i = LDial) by (intros i; unfold wake_all; case_match; naive_solver).
    destruct e; rcases E; cbn [rLoopAddr rPc rAddr rDials set_rpc]; (split; [done|]); (split; [intros j Hj; upd; auto; try (by destruct Hj)|try done]);
      (intros j b u Hj; apply elem_of_cons in Hj as [Hj|Hj]; [injection Hj as -> -> ->; auto|eauto]). }
  eapply (G es (r0 c)); [done| |done]. cbn. split; [done|]. split; [done|]. intros ? ? ? X. by apply elem_of_nil in X.
Qed.
Theorem C79_address_witness : exists s, rrun (mkRC 1 1 (fun _ => false) 0 true (fun _ => 7)) (r0 (mkRC 1 1 (fun _ => false) 0 true (fun _ => 7)))
  [RTop 1; RLock 1; RDial 1 DErr; RAfter 1; RSleep 1; RWait 1; RApi 1 (Some 8); RTop 1; RLock 1; RDial 1 DOk] = Some s /\ rDials s = [(1, 7, 0); (1, 7, 0)] /\ rPc s 1 = LRead.
Proof.
  set (c := mkRC _ _ _ _ _ _). set (es := RTop 1 :: _). assert (X : (fun s => (rDials s, rPc s 1)) <$> rrun c (r0 c) es = Some ([(1, 7, 0); (1, 7, 0)], LRead)) by (vm_compute; reflexivity).
  destruct (rrun c (r0 c) es) as [s|]; [|done]. injection X as X1 X2. eauto 6.
Qed.

(* ---- closing ---- *)
Definition may_dial (s : rst) (i : N) : nat := match rPc s i with LWant | LDial => 1 | _ => 0 end.
Lemma dials_of_cons i s d : dials_of i (mkR (rPc s) (rMtx s) (rPool s) (rTasks s) (rOld s) (rLoopAddr s) (rAddr s) (rNow s) (rClosing s) (d :: rDials s)) = ((if decide (d.1.1 = i) then 1 else 0) + dials_of i s)%nat.
Proof. unfold dials_of. cbn [rDials]. rewrite filter_cons. by destruct (decide (d.1.1 = i)). Qed.
(* Once it is closing each loop dials at most once more *)
Theorem C79_after_close : forall c es s s' i, rClosing s = true -> rrun c s es = Some s' -> (dials_of i s' + may_dial s' i <= dials_of i s + may_dial s i)%nat /\ (dials_of i s' <= S (dials_of i s))%nat.
Proof.
  intros c es s s' i Hc H. assert (G : (dials_of i s' + may_dial s' i <= dials_of i s + may_dial s i)%nat).
  { revert s Hc H. induction es as [|e es IH]; intros s Hc H; cbn [rrun] in H; [injection H as <-; lia|]. destruct (rstep c s e) as [s2|] eqn:E; [|done]. cbn [mbind option_bind] in H.
    assert (X : rClosing s2 = true /\ (dials_of i s2 + may_dial s2 i <= dials_of i s + may_dial s i)%nat).
    { assert (W : forall f : N -> lpc, match wake_all f i with LWant | LDial => 1%nat | _ => 0%nat end = match f i with LWant | LDial => 1%nat | _ => 0%nat end) by (intros f; unfold wake_all; by destruct (f i)).
      destruct e; rcases E; unfold dials_of, may_dial; cbn [rClosing rPc rDials set_rpc]; (split; [done|]); rewrite ?W; try lia; rewrite ?filter_cons; cbn [fst]; unfold up; repeat case_decide; subst; try congruence;
        repeat match goal with Hx : rPc s _ = _ |- _ => rewrite Hx end; cbn [length]; try lia; try (case_match; lia). }
    destruct X as [X1 X2]. specialize (IH s2 X1 H). lia. }
  split; [done|]. assert (may_dial s i <= 1)%nat by (unfold may_dial; case_match; lia). lia.
Qed.
(* Once it is closing every loop can end, by its own steps and the end of its connection: Shutdown returns *)
Definition ending (e : rev) : bool := match e with REnd _ => true | e => own e end.
Definition reach_end (c : rconf) (s s' : rst) : Prop := exists es, forallb ending es = true /\ fine_run c s es s'.
Lemma reach_end_step c s e s1 s' : ending e = true -> fine s e -> rstep c s e = Some s1 -> reach_end c s1 s' -> reach_end c s s'.
Proof. intros O F H (es & Oe & R). exists (e :: es). split; [cbn; by rewrite O|]. by econstructor. Qed.
Lemma reach_end_refl c s : reach_end c s s. Proof. exists []. split; [done|constructor]. Qed.
Lemma reach_end_trans c s s1 s' : reach_end c s s1 -> reach_end c s1 s' -> reach_end c s s'.
Proof. intros (e1 & O1 & R1) (e2 & O2 & R2). exists (e1 ++ e2). split; [by rewrite forallb_app, O1, O2|by eapply fine_run_app]. Qed.
Lemma reach_reach_end c s s' : reach c s s' -> reach_end c s s'.
Proof. intros (es & O & R). exists es. split; [|done]. apply forallb_forall. intros e He. rewrite forallb_forall in O. specialize (O e He). by destruct e. Qed.
Lemma exits_one c s i : inv_f c s -> rClosing s = true -> exists s', reach_end c s s' /\ inv_f c s' /\ rClosing s' = true /\ rPc s' i = LExit.
Proof.
  intros I Hc.
  assert (FIN : forall s s', inv_f c s -> reach_end c s s' -> rClosing s' = true -> rPc s' i = LExit -> exists s', reach_end c s s' /\ inv_f c s' /\ rClosing s' = true /\ rPc s' i = LExit).
  { intros s1 s2 I1 R C E. exists s2. split; [done|]. split; [|done]. destruct R as (es & _ & R). by eapply inv_f_run. }
  assert (AF : forall s, inv_f c s -> rClosing s = true -> rPc s i = LAfter -> exists s', reach_end c s s' /\ inv_f c s' /\ rClosing s' = true /\ rPc s' i = LExit).
  { intros s1 I1 C1 E. eapply FIN; [done| | |].
    - eapply (reach_end_step c s1 (RAfter i)); [done|done|unfold rstep; rewrite E; reflexivity|apply reach_end_refl].
    - done.
    - cbn. rewrite C1. apply up_eq. }
  assert (DI : forall s, inv_f c s -> rClosing s = true -> rPc s i = LDial -> exists s', reach_end c s s' /\ inv_f c s' /\ rClosing s' = true /\ rPc s' i = LExit).
  { intros s1 I1 C1 E. destruct (rstep c s1 (RDial i DErr)) as [s2|] eqn:H; [|unfold rstep in H; by rewrite E in H]. assert (I2 : inv_f c s2) by (eapply inv_f_step; [exact I1| |exact H]; done).
    unfold rstep in H. rewrite E in H. injection H as <-. destruct (AF _ I2) as (s3 & R & I3 & X); [done|cbn; apply up_eq|]. exists s3. split; [|done].
    eapply (reach_end_step c s1 (RDial i DErr)); [done|done|unfold rstep; rewrite E; reflexivity|done]. }
  assert (TP : forall s, inv_f c s -> rClosing s = true -> rPc s i = LTop -> exists s', reach_end c s s' /\ inv_f c s' /\ rClosing s' = true /\ rPc s' i = LExit).
  { intros s1 I1 C1 E. eapply FIN; [done| | |].
    - eapply (reach_end_step c s1 (RTop i)); [done|done|unfold rstep; rewrite E, C1; reflexivity|apply reach_end_refl].
    - done.
    - cbn. apply up_eq. }
  assert (WT : forall s, inv_f c s -> rClosing s = true -> rPc s i = LWant -> rMtx s = None -> exists s', reach_end c s s' /\ inv_f c s' /\ rClosing s' = true /\ rPc s' i = LExit).
  { intros s1 I1 C1 E M. destruct (rstep c s1 (RLock i)) as [s2|] eqn:H; [|unfold rstep in H; rewrite E, M in H; destruct (init_conn _ _ _) as [[] ?]; done].
    assert (I2 : inv_f c s2) by (eapply inv_f_step; [exact I1| |exact H]; done). assert (C2 : rClosing s2 = true /\ (rPc s2 i = LAfter \/ rPc s2 i = LDial)).
    { unfold rstep in H. rewrite E, M in H. destruct (init_conn _ _ _) as [[] ?]; injection H as <-; cbn; rewrite up_eq; eauto. }
    destruct C2 as [C2 [X|X]]; [destruct (AF _ I2 C2 X) as (s3 & R & Y)|destruct (DI _ I2 C2 X) as (s3 & R & Y)]; (exists s3; split; [|done]); (eapply reach_end_step; [| |exact H|exact R]; done). }
  assert (AP : forall s, inv_f c s -> rClosing s = true -> rPc s i = LApi -> exists s', reach_end c s s' /\ inv_f c s' /\ rClosing s' = true /\ rPc s' i = LExit).
  { intros s1 I1 C1 E. destruct (rApi c) eqn:Ea.
    - eapply FIN; [done| | |]; [eapply (reach_end_step c s1 (RApi i None)); [done|done|unfold rstep; rewrite E, Ea, C1; reflexivity|apply reach_end_refl]|done|cbn; apply up_eq].
    - destruct (rstep c s1 (RApi i None)) as [s2|] eqn:H; [|unfold rstep in H; by rewrite E, Ea in H]. assert (I2 : inv_f c s2) by (eapply inv_f_step; [exact I1| |exact H]; done).
      assert (X : rClosing s2 = true /\ rPc s2 i = LTop) by (unfold rstep in H; rewrite E, Ea in H; injection H as <-; cbn; by rewrite up_eq). destruct X as [C2 X]. destruct (TP _ I2 C2 X) as (s3 & R & Y). exists s3. split; [|done]. eapply reach_end_step; [| |exact H|exact R]; done. }
  destruct (rPc s i) as [| | | | |t| | | |] eqn:E.
  - eauto.
  - destruct (rMtx s) as [k|] eqn:M; [|eauto]. pose proof (if_hold _ _ I k M) as K.
    destruct (rstep c s (RDial k DErr)) as [s2|] eqn:H; [|unfold rstep in H; by rewrite K in H]. assert (I2 : inv_f c s2) by (eapply inv_f_step; [exact I| |exact H]; done).
    assert (X : rClosing s2 = true /\ rPc s2 i = LWant /\ rMtx s2 = None) by (unfold rstep in H; rewrite K in H; injection H as <-; cbn; rewrite up_ne by congruence; done). destruct X as (C2 & X & M2). destruct (WT _ I2 C2 X M2) as (s3 & R & Y). exists s3. split; [|done]. eapply reach_end_step; [| |exact H|exact R]; done.
  - eauto.
  - destruct (rstep c s (REnd i)) as [s2|] eqn:H; [|unfold rstep in H; by rewrite E in H]. assert (I2 : inv_f c s2) by (eapply inv_f_step; [exact I| |exact H]; done).
    assert (X : rClosing s2 = true /\ rPc s2 i = LAfter) by (unfold rstep in H; rewrite E in H; injection H as <-; cbn; by rewrite up_eq). destruct X as [C2 X]. destruct (AF _ I2 C2 X) as (s3 & R & Y). exists s3. split; [|done]. eapply reach_end_step; [| |exact H|exact R]; done.
  - eauto.
  - set (s1 := at_time s (rNow s + N.of_nat (N.to_nat t))). eapply (FIN s); [done| | |].
    + eapply (reach_end_trans c s s1); [apply reach_reach_end, reach_time|]. eapply (reach_end_step c s1 (RSleep i)); [done|done| |apply reach_end_refl]. unfold rstep, s1, at_time. cbn. rewrite E. assert (X : t <=? rNow s + N.of_nat (N.to_nat t) = true) by (apply N.leb_le; lia). rewrite X. reflexivity.
    + done.
    + cbn. rewrite Hc. apply up_eq.
  - destruct (rstep c s (RWait i)) as [s2|] eqn:H; [|unfold rstep in H; by rewrite E, Hc in H]. assert (I2 : inv_f c s2) by (eapply inv_f_step; [exact I| |exact H]; done).
    assert (X : rClosing s2 = true /\ rPc s2 i = LApi) by (unfold rstep in H; rewrite E, Hc in H; injection H as <-; cbn; by rewrite up_eq). destruct X as [C2 X]. destruct (AP _ I2 C2 X) as (s3 & R & Y). exists s3. split; [|done]. eapply reach_end_step; [| |exact H|exact R]; done.
  - by destruct (if_block _ _ I Hc i).
  - eauto.
  - exists s. split; [apply reach_end_refl|done].
Qed.
Theorem C79_ends : forall c es s, fine_run c (r0 c) es s -> rClosing s = true -> exists es' s', forallb ending es' = true /\ fine_run c s es' s' /\ forall i, rPc s' i = LExit.
Proof.
  intros c es s R Hc. pose proof (inv_f_run _ _ _ _ R (inv_f_0 c)) as I. clear R.
  assert (G : forall n, exists s', reach_end c s s' /\ inv_f c s' /\ rClosing s' = true /\ forall i, 1 <= i <= N.of_nat n -> rPc s' i = LExit).
  { induction n as [|n (s1 & R1 & I1 & C1 & X1)]; [exists s; split; [apply reach_end_refl|]; split; [done|]; split; [done|]; intros i; lia|].
    destruct (exits_one c s1 (N.of_nat (S n)) I1 C1) as (s2 & R2 & I2 & C2 & X2). exists s2. split; [by eapply reach_end_trans|]. split; [done|]. split; [done|]. intros i Hi. destruct (decide (i = N.of_nat (S n))) as [->|N]; [done|].
    destruct R2 as (es2 & _ & R2). apply fine_run_rrun in R2. eapply exit_run; [exact R2|]. apply X1. lia. }
  destruct (G (N.to_nat (rLoops c))) as (s' & (es' & O & R) & I' & C' & X). exists es', s'. split; [done|]. split; [done|]. intros i. destruct (decide (rPc s' i = LExit)) as [Y|Y]; [done|]. apply (if_loop _ _ I') in Y. apply X. unfold loop_of in Y. lia.
Qed.

(* ---- the delay ---- *)
Fixpoint spaced (d : N) (l : list (N * N * N)) : Prop := match l with [] => True | (i, _, t) :: l => (forall a' t', (i, a', t') ∈ l -> t' + d <= t) /\ spaced d l end.
Definition due (d now : N) (p : lpc) (t : N) : Prop := t <= now /\ match p with LAfter | LRead | LExit => True | LSleep u => t + d <= u | _ => t + d <= now end.
Definition inv_d (c : rconf) (s : rst) : Prop := spaced (rDelay c) (rDials s) /\ forall i a t, (i, a, t) ∈ rDials s -> due (rDelay c) (rNow s) (rPc s i) t.
Lemma due_wake d now f j t : due d now (wake_all f j) t <-> due d now (f j) t.
Proof. unfold due, wake_all. by destruct (f j). Qed.
Lemma inv_d_set c s s' i p : inv_d c s -> rPc s' = up (rPc s) i p -> rNow s' = rNow s -> rDials s' = rDials s -> (forall t, due (rDelay c) (rNow s) (rPc s i) t -> due (rDelay c) (rNow s) p t) -> inv_d c s'.
Proof. intros [G1 G2] Ep En Ed H. split; [by rewrite Ed|]. intros j a t Hj. rewrite Ed in Hj. rewrite Ep, En. specialize (G2 _ _ _ Hj). upd; auto. Qed.
Lemma inv_d_same c s s' : inv_d c s -> rPc s' = rPc s \/ rPc s' = wake_all (rPc s) -> rNow s <= rNow s' -> rDials s' = rDials s -> inv_d c s'.
Proof.
  intros [G1 G2] Ep En Ed. split; [by rewrite Ed|]. intros j a t Hj. rewrite Ed in Hj. specialize (G2 _ _ _ Hj). assert (X : due (rDelay c) (rNow s') (rPc s j) t) by (unfold due in *; split; [lia|]; destruct (rPc s j); (lia || done || tauto)).
  destruct Ep as [-> | ->]; [done|by apply due_wake].
Qed.
Lemma inv_d_step c s e s' : inv_d c s -> fine s e -> rstep c s e = Some s' -> inv_d c s'.
Proof.
  intros I F E. destruct e as [i|i|i o|i|i|i|i|i a|i|i|i|i| |]; unfold rstep in E;
    try (lazymatch type of E with context [rOld s i =? 0] => fail | _ => destruct (rPc s i) as [| | | | |u| | | |] eqn:P; try done end).
  - destruct (rClosing s); injection E as <-; (eapply inv_d_set; [exact I|reflexivity|done|done|]; rewrite P; unfold due; intros t [? ?]; split; (lia || done)).
  - destruct (rMtx s); [done|]. destruct (init_conn _ _ _) as [[] q]; injection E as <-; (eapply inv_d_set; [exact I|reflexivity|done|done|]; rewrite P; unfold due; intros t [? ?]; split; (lia || done)).
  - destruct o; [| |done]; injection E as <-; destruct I as [G1 G2]; (split; cbn; [split; [|done]; intros a' t' Hj; specialize (G2 _ _ _ Hj); rewrite P in G2; by destruct G2|]);
      intros j a t Hj; (apply elem_of_cons in Hj as [Hj|Hj]; [injection Hj as -> -> ->; rewrite up_eq; unfold due; split; (lia || done)|]); specialize (G2 _ _ _ Hj); upd; try done; unfold due in *; split; (done || tauto).
  - injection E as <-. eapply inv_d_set; [exact I|reflexivity|done|done|]. rewrite P. unfold due. intros t [? ?]. split; (lia || done).
  - injection E as <-. eapply inv_d_set; [exact I|reflexivity|done|done|]. rewrite P. unfold due. intros t [? ?]. destruct (rClosing s); split; (lia || done).
  - destruct (N.leb_spec u (rNow s)); [|done]. injection E as <-. eapply inv_d_set; [exact I|reflexivity|done|done|]. rewrite P. unfold due. intros t [? ?]. destruct (rClosing s); split; (lia || done).
  - destruct (rClosing s); [|destruct (other_idle i (rPool s))]; injection E as <-; (eapply inv_d_set; [exact I|reflexivity|done|done|]; rewrite P; unfold due; intros t [? ?]; split; (lia || done)).
  - destruct (rApi c); [destruct (rClosing s); [|destruct a]|destruct a; [done|]]; injection E as <-; try exact I; (eapply inv_d_set; [exact I|reflexivity|done|done|]; rewrite P; unfold due; intros t [? ?]; split; (lia || done)).
  - injection E as <-. eapply inv_d_same; [exact I| |cbn; lia|done]. cbn. case_match; eauto.
  - destruct (rTasks s i =? 0); [done|]. injection E as <-. eapply inv_d_same; [exact I| |cbn; lia|done]. by left.
  - destruct (rOld s i =? 0); [done|]. injection E as <-. eapply inv_d_same; [exact I| |cbn; lia|done]. by left.
  - injection E as <-. eapply inv_d_same; [exact I| |cbn; lia|done]. by left.
  - injection E as <-. eapply inv_d_same; [exact I| |cbn; lia|done]. by left.
  - injection E as <-. eapply inv_d_same; [exact I| |cbn; lia|done]. by right.
Qed.
(* Two attempts of one connection are at least the delay apart *)
Theorem C79_delay : forall c es s, fine_run c (r0 c) es s -> spaced (rDelay c) (rDials s).
Proof.
  intros c es s R. assert (G : inv_d c (r0 c)) by (split; [done|]; intros i a t Hi; by apply elem_of_nil in Hi). revert G. induction R as [s|s e s1 es s' F E _ IH]; [by intros [? _]|]. intros G. apply IH. by eapply inv_d_step.
Qed.
(* The third visitor at once on a busy connection, and every further one, wakes the loops that wait; the second does not. *)
Theorem C79_third_visitor : forall c s i s' j, rstep c s (RStart i) = Some s' -> rPc s j = LBlocked -> rPool s !! i = Some Running ->
  (rPc s' j = LWait <-> 3 <= rTasks s' i) /\ rTasks s' i = rTasks s i + 1.
Proof.
  intros c s i s' j H Hj Hp. cbn [rstep] in H. destruct (rPc s i) eqn:Ei; try done. injection H as <-. cbn [rPc rTasks]. unfold up. rewrite decide_True by done.
  split; [|done]. rewrite Hp. cbn [default]. rewrite bool_decide_true by done. cbn [andb]. destruct (N.leb_spec 3 (rTasks s i + 1)) as [L|L].
  - unfold wake_all. rewrite Hj. split; [intros _; exact L|done].
  - rewrite Hj. split; [done|lia].
Qed.
Theorem C79_third_visitor_witness : exists s s', rrun two (r0 two) [RTop 1; RLock 1; RDial 1 DOk; RTop 2; RLock 2; RAfter 2; RSleep 2; RWait 2; RStart 1; RStart 1] = Some s /\ rPc s 2 = LBlocked /\ rPool s !! 1 = Some Running /\
  rstep two s (RStart 1) = Some s' /\ rPc s' 2 = LWait.
Proof.
  set (es := RTop 1 :: _). assert (X : (fun s => (rPc s 2, rPool s !! 1, (fun s' => rPc s' 2) <$> rstep two s (RStart 1))) <$> rrun two (r0 two) es = Some (LBlocked, Some Running, Some LWait)) by (vm_compute; reflexivity).
  destruct (rrun two (r0 two) es) as [s|]; [|done]. cbn [fmap option_fmap option_map] in X. apply (inj Some) in X. apply pair_equal_spec in X as [X X3]. apply pair_equal_spec in X as [X1 X2].
  destruct (rstep two s (RStart 1)) as [s'|] eqn:E; [|done]. apply (inj Some) in X3. exists s, s'. done.
Qed.
(* a run with a failed attempt, a retry, a visitor and the loss of the connection *)
Theorem C79_witness : exists s, fine_run (mkRC 2 1 (fun _ => false) 2 false (fun i => i)) (r0 (mkRC 2 1 (fun _ => false) 2 false (fun i => i)))
   [RTop 1; RLock 1; RDial 1 DErr; RAfter 1; RTick; RTick; RSleep 1; RWait 1; RApi 1 None; RTop 1; RLock 1; RDial 1 DOk; RTop 2; RLock 2; RAfter 2; RStart 1; REnd 1; RLate 1; RAfter 1] s /\
   rDials s = [(1, 1, 2); (1, 1, 0)] /\ rClosing s = false /\ rPc s 1 = LSleep 4 /\ rPc s 2 = LSleep 4.
Proof.
  set (c := mkRC _ _ _ _ _ _). set (es := RTop 1 :: _).
  assert (Y : forall es s s', forallb (fun e => match e with RDial _ DPanic => false | RLate _ => false | _ => true end) es = true -> rrun c s es = Some s' -> fine_run c s es s').
  { clear es. induction es as [|e es IH]; intros s s' H1 H2; cbn [forallb rrun] in *; [injection H2 as <-; constructor|]. apply andb_true_iff in H1 as [H1 H3]. destruct (rstep c s e) as [s1|] eqn:E; [|done]. econstructor; [|exact E|by apply IH]. destruct e; try done. by destruct o. }
  assert (X : (fun s => (rDials s, rClosing s, rPc s 1, rPc s 2)) <$> rrun c (r0 c) es = Some ([(1, 1, 2); (1, 1, 0)], false, LSleep 4, LSleep 4)) by (vm_compute; reflexivity).
  destruct (rrun c (r0 c) es) as [s|] eqn:E; [|done]. injection X as X1 X2 X3 X4. exists s. split; [|exact (conj X1 (conj X2 (conj X3 X4)))]. clear X1 X2 X3 X4. unfold es in *. clear es.
  match type of E with rrun c (r0 c) ?l = _ => change l with (take 17 l ++ RLate 1 :: [RAfter 1]) in E end.
  match goal with |- fine_run c _ ?l _ => change l with (take 17 l ++ RLate 1 :: [RAfter 1]) end. apply rrun_app in E as (s1 & E1 & E2). eapply fine_run_app; [apply Y; [done|exact E1]|]. cbn [rrun] in E2. destruct (rstep c s1 (RLate 1)) as [s2|] eqn:E3; [|done]. cbn [mbind option_bind] in E2. econstructor; [|exact E3|apply Y; done].
  assert (Z : (fun s => rPc s 1) <$> Some s1 = Some LAfter) by (rewrite <- E1; vm_compute; reflexivity). injection Z as Z. cbn. by rewrite Z.
Qed.
