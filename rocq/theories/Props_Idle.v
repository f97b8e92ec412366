(* Props_Idle.v -- C35, C36: the pool of tunnel connections of a client *)
From Verif Require Import GoBase GoBaseLemmas IdleModel.
Local Open Scope N_scope.

(* ---- C35 ---- *)
(* specification: the connections that are idle *)
Definition idles (m : pool) : gset N := dom (filter (fun kv : N * status => snd kv = Idle) m).
Lemma idles_in m i : i ∈ idles m <-> m !! i = Some Idle.
Proof.
  unfold idles. rewrite elem_of_dom. split.
  - intros [s Hs]. apply map_filter_lookup_Some in Hs as [H1 H2]. cbn in H2. by subst.
  - intros H. exists Idle. by apply map_filter_lookup_Some.
Qed.
Lemma idle_count_size m : idle_count m = N.of_nat (size (idles m)).
Proof. unfold idle_count, idles. by rewrite size_dom. Qed.
Lemma idles_insert_other m i s : s <> Idle -> idles (<[i := s]> m) = idles m ∖ {[ i ]}.
Proof.
  intros Hs. apply set_eq. intros j. rewrite elem_of_difference, elem_of_singleton, !idles_in. destruct (decide (j = i)) as [->|Hn].
  - rewrite lookup_insert. split; [congruence|]. by intros [_ []].
  - rewrite lookup_insert_ne by congruence. split; [by intros|by intros []].
Qed.
(* downscaling leaves at least the minimum, whichever connection is put to wait; and it is refused exactly when there is
   no more than the minimum *)
Theorem C35_keeps_minimum min id m ok m' : change_to_wait min id m = (ok, m') ->
  (ok = true <-> min < N.of_nat (size (idles m))) /\ (ok = true -> min <= N.of_nat (size (idles m')) /\ m' !! id = Some Waiting) /\ (ok = false -> m' = m).
Proof.
  unfold change_to_wait. rewrite idle_count_size. destruct (N.leb_spec (N.of_nat (size (idles m))) min) as [H|H]; intros [= <- <-].
  - split; [split; [done|lia]|]. split; done.
  - split; [split; done|]. split; [|done]. intros _. rewrite lookup_insert. split; [|done]. rewrite idles_insert_other by done.
    assert (size (idles m) <= size (idles m ∖ {[id]}) + 1)%nat as Hs; [|lia].
    rewrite <- (size_singleton (C := gset N) id). rewrite <- size_union by set_solver. apply subseteq_size. intros x Hx. destruct (decide (x = id)); set_solver.
Qed.
(* any number of connections downscaling one after the other, in any order *)
Theorem C35_any_sequence min ids m : min <= N.of_nat (size (idles m)) ->
  min <= N.of_nat (size (idles (foldl (fun m id => snd (change_to_wait min id m)) m ids))).
Proof.
  revert m; induction ids as [|id ids IH]; intros m H; [done|]. cbn [foldl]. apply IH. destruct (change_to_wait min id m) as [ok m'] eqn:E.
  destruct (C35_keeps_minimum _ _ _ _ _ E) as (_ & H1 & H2). cbn. destruct ok; [by apply H1|by rewrite H2].
Qed.
(* with the minimum of client.Start at least one idle tunnel is left (if RemoteConnections >= 1) *)
Theorem C35_at_least_one remoteIdle remoteConns id m m' : 1 <= remoteConns -> change_to_wait (norm_min remoteIdle remoteConns) id m = (true, m') ->
  exists i, m' !! i = Some Idle.
Proof.
  intros Hr H. apply C35_keeps_minimum in H as (_ & H & _). destruct (H eq_refl) as [H1 _]. assert (1 <= norm_min remoteIdle remoteConns) as Hm.
  { unfold norm_min. destruct (N.ltb_spec remoteIdle 1); [lia|]. destruct (N.ltb_spec remoteConns remoteIdle); lia. }
  assert (idles m' <> ∅) as Hne. { intros E. rewrite E, size_empty in H1. lia. } apply set_choose_L in Hne as [i Hi]. exists i. by apply idles_in.
Qed.
(* a new connection is made only when the minimum is not there *)
Theorem C35_connects_when_needed min id m ex m' : init_conn min id m = (ex, m') ->
  (ex = false <-> N.of_nat (size (idles m ∖ {[ id ]})) < min) /\ m' !! id = Some (if ex then Waiting else Connecting) /\ (forall j, j <> id -> m' !! j = m !! j).
Proof.
  unfold init_conn. rewrite idle_count_size, idles_insert_other by done. destruct (N.ltb_spec (N.of_nat (size (idles m ∖ {[id]}))) min) as [H|H]; intros [= <- <-].
  - rewrite lookup_insert. split; [done|]. split; [done|]. intros j Hj. by rewrite lookup_insert_ne.
  - rewrite lookup_insert. split; [split; [done|lia]|]. split; [done|]. intros j Hj. by rewrite !lookup_insert_ne.
Qed.
(* a waiting connection goes on to connect only when no other is idle *)
Lemma other_idle_spec id m : other_idle id m = true <-> exists i, i <> id /\ m !! i = Some Idle.
Proof.
  unfold other_idle. rewrite existsb_exists. split.
  - intros ([i s] & Hin & H). apply andb_true_iff in H as [H1%negb_true_iff H2%bool_decide_eq_true]. cbn in *. apply N.eqb_neq in H1. subst s. exists i. split; [done|].
    apply elem_of_map_to_list. by apply elem_of_list_In.
  - intros (i & Hn & Hi). exists (i, Idle). split; [apply elem_of_list_In; by apply elem_of_map_to_list|]. cbn. rewrite bool_decide_eq_true_2 by done. destruct (N.eqb_spec i id); done.
Qed.
Theorem C35_reconnects_only_if_none_idle s s' id : istep s s' -> iPc s id = WScan -> iPc s' id = WOut -> forall i, i <> id -> iPool s !! i <> Some Idle.
Proof.
  intros Hs H1 H2. inversion Hs; subst; cbn in *.
  all: try (unfold set_pc in H2; destruct (decide (id = i)) as [->|]; congruence).
  all: try (unfold wake in H2; rewrite H1 in H2; congruence).
  all: try congruence.
  unfold set_pc in H2. destruct (decide (id = i)) as [->|]; [|congruence]. intros j Hj Hi. 
  assert (other_idle i m = true) as E; [|congruence]. apply other_idle_spec. by exists j.
Qed.
(* false: a connection that is running (a long silent request: six pings without data) is put to wait and told to close *)
Theorem C35_running_put_to_wait_refuted : exists m m', m !! 3 = Some Running /\ change_to_wait 1 3 m = (true, m') /\ m' !! 3 = Some Waiting.
Proof. exists (<[3 := Running]> (<[2 := Idle]> (<[1 := Idle]> ∅))). eexists. split_and!; [done|by vm_compute|by vm_compute]. Qed.
(* false: "idle" may be the state of a connection with a running request: the last request of the connection is counted
   out, a new one is counted in and finds the status running, and then the first one sets idle (client/task.go 246-265) *)
Inductive tev := TStart | TEnd | TSetIdle.     (* TasksCount.Add(1) and SetRunning; TasksCount.Add(-1); SetIdle if it was 0 *)
Record tst := mkTst { tCount : N; tPending : N; tStatus : status }.
Definition tstep (s : tst) (e : tev) : option tst :=
  match e with
  | TStart => Some (mkTst (tCount s + 1) (tPending s) (match tStatus s with Running => Running | _ => Running end))
  | TEnd => if tCount s =? 0 then None else Some (mkTst (tCount s - 1) (if tCount s =? 1 then tPending s + 1 else tPending s) (tStatus s))
  | TSetIdle => if tPending s =? 0 then None else Some (mkTst (tCount s) (tPending s - 1) Idle)
  end.
Fixpoint trun (s : tst) (l : list tev) : option tst := match l with [] => Some s | e :: l => match tstep s e with Some s => trun s l | None => None end end.
Theorem C35_idle_while_running_refuted : trun (mkTst 0 0 Idle) [TStart; TEnd; TStart; TSetIdle] = Some (mkTst 1 0 Idle).
Proof. done. Qed.
Lemma C35_case : change_to_wait 1 2 (<[3 := Running]> (<[2 := Idle]> (<[1 := Idle]> ∅))) = (true, <[2 := Waiting]> (<[3 := Running]> (<[2 := Idle]> (<[1 := Idle]> ∅))))
  /\ fst (change_to_wait 2 2 (<[3 := Running]> (<[2 := Idle]> (<[1 := Idle]> ∅)))) = false.
Proof. split; by vm_compute. Qed.

(* The statuses are those of the last operation: in any sequence of operations of any number of connections, a connection
   that was set running is not counted idle before it is set idle, and one set idle is not before it is used or parked. *)
Inductive pop := PInit (i : N) | PToWait (i : N) | PRun (i : N) | PIdle (i : N) | PWait (i : N).
Definition prun (min : N) (m : pool) (p : pop) : pool :=
  match p with
  | PInit i => snd (init_conn min i m)
  | PToWait i => snd (change_to_wait min i m)
  | PRun i => set_running i m
  | PIdle i => set_idle i m
  | PWait i => set_wait i m
  end.
Definition pop_of (p : pop) : N := match p with PInit i | PToWait i | PRun i | PIdle i | PWait i => i end.
Lemma prun_other min m p i : pop_of p <> i -> prun min m p !! i = m !! i.
Proof.
  destruct p as [j|j|j|j|j]; cbn [pop_of prun]; intros H.
  - unfold init_conn. destruct (_ <? min); cbn; by rewrite !lookup_insert_ne.
  - unfold change_to_wait. destruct (_ <=? min); cbn; [done|by rewrite lookup_insert_ne].
  - unfold set_running. destruct (decide _); [done|by rewrite lookup_insert_ne].
  - unfold set_idle. by rewrite lookup_insert_ne.
  - unfold set_wait. by rewrite lookup_insert_ne.
Qed.
Theorem C35_running_not_idle min m i ps : Forall (fun p => p <> PIdle i) ps ->
  foldl (prun min) (set_running i m) ps !! i <> Some Idle.
Proof.
  intros H. assert (H0 : set_running i m !! i <> Some Idle).
  { unfold set_running. destruct (decide _) as [E|E]; [|by rewrite lookup_insert]. destruct (m !! i); [|done]. cbn in E. by subst. }
  revert H0. generalize (set_running i m). clear m. induction H as [|p ps Hp H IH]; intros m H0; [done|]. cbn [foldl]. apply IH.
  destruct (decide (pop_of p = i)) as [E|E]; [|by rewrite prun_other].
  destruct p as [j|j|j|j|j]; cbn [pop_of] in E; subst j; cbn [prun].
  - unfold init_conn. destruct (_ <? min); cbn; by rewrite lookup_insert.
  - unfold change_to_wait. destruct (_ <=? min); cbn; [done|by rewrite lookup_insert].
  - unfold set_running. destruct (decide _) as [G|G]; [done|by rewrite lookup_insert].
  - done.
  - unfold set_wait. by rewrite lookup_insert.
Qed.
Theorem C35_idle_until_used min m i ps : Forall (fun p => pop_of p <> i) ps -> foldl (prun min) (set_idle i m) ps !! i = Some Idle.
Proof.
  intros H. assert (H0 : set_idle i m !! i = Some Idle) by (unfold set_idle; by rewrite lookup_insert).
  revert H0. generalize (set_idle i m). clear m. induction H as [|p ps Hp H IH]; intros m H0; [done|]. cbn [foldl]. apply IH. by rewrite prun_other.
Qed.
Theorem C35_set_running_runs m i : default Running (set_running i m !! i) = Running.
Proof. unfold set_running. destruct (decide _) as [E|E]; [done|]. by rewrite lookup_insert. Qed.

(* ---- C36 ---- *)
(* the mutex *)
Definition has_lock (p : wpc) : Prop := p = WLoad \/ p = WScan \/ p = WReg.
Definition lock_ok (s : ist) : Prop := forall i, has_lock (iPc s i) <-> iHolder s = Some i.
(* between the load of the closed flag, which gave false, and being on the list of waiters *)
Definition in_window (s : ist) (i : N) : Prop := iPc s i = WScan \/ iPc s i = WReg.

Ltac pcs := unfold set_pc, wake in *; cbn in *.
Lemma lock_step s s' : istep s s' -> lock_ok s -> lock_ok s'.
Proof.
  intros Hs Hl j. specialize (Hl j) as Hj. inversion Hs; subst; cbn in *; unfold set_pc, wake, has_lock in *.
  all: try (specialize (Hl i); cbn in Hl; unfold has_lock in Hl).
  - destruct (decide (j = i)) as [->|]; [|done]. rewrite H in Hj. split; [intros [?|[?|?]]; done|]. intros E. apply Hj in E. naive_solver.
  - destruct (decide (j = i)) as [->|]; [split; [done|auto]|]. split; [|congruence]. intros E. apply Hj in E. done.
  - destruct (decide (j = i)) as [->|]; [split; [intros [?|[?|?]]; done|done]|]. split; [|done]. intros E. apply Hj in E. assert (h = Some i) as E2. { apply Hl. rewrite H. auto. } congruence.
  - destruct (decide (j = i)) as [->|]; [|done]. rewrite H in Hj. split; [|auto]. intros _. apply Hj. auto.
  - destruct (decide (j = i)) as [->|]; [|done]. rewrite H in Hj. split; [|auto]. intros _. apply Hj. auto.
  - destruct (decide (j = i)) as [->|]; [split; [intros [?|[?|?]]; done|done]|]. split; [|done]. intros E. apply Hj in E. rewrite H in Hl. assert (h = Some i) by (apply Hl; auto). congruence.
  - destruct (decide (j = i)) as [->|]; [split; [intros [?|[?|?]]; done|done]|]. split; [|done]. intros E. apply Hj in E. rewrite H in Hl. assert (h = Some i) by (apply Hl; auto). congruence.
  - done.
  - destruct (f j) eqn:E; rewrite <- Hj; naive_solver.
  - done.
  - destruct (f j) eqn:E; rewrite <- Hj; naive_solver.
Qed.
Lemma lock_reach m s : rtc istep (ist0 m) s -> lock_ok s.
Proof.
  intros H. assert (lock_ok (ist0 m)) as H0. { intros i. cbn. split; [intros [?|[?|?]]; done|done]. } revert H0. induction H as [|x y z Hs _ IH]; [done|]. intros Hl. apply IH. by eapply lock_step.
Qed.
(* after Close at most one connection stays asleep *)
Definition one_left (s : ist) : Prop := iClose s = CDone -> forall i j, (in_window s i \/ iPc s i = WSleep) -> (in_window s j \/ iPc s j = WSleep) -> i = j.
Lemma one_step s s' : istep s s' -> lock_ok s -> one_left s -> one_left s'.
Proof.
  intros Hs Hl Ho Hc a b Ha Hb. unfold one_left, in_window in *. pose proof (Hl a) as La. pose proof (Hl b) as Lb. unfold has_lock in *.
  inversion Hs; subst; cbn in *; unfold set_pc, wake in *; try done.
  - eapply Ho; [done| |]; [destruct (decide (a = i))|destruct (decide (b = i))]; naive_solver.
  - eapply Ho; [done| |]; [destruct (decide (a = i))|destruct (decide (b = i))]; naive_solver.
  - eapply Ho; [done| |]; [destruct (decide (a = i))|destruct (decide (b = i))]; naive_solver.
  - eapply Ho; [done| |]; [destruct (decide (a = i))|destruct (decide (b = i))]; naive_solver.
  - eapply Ho; [done| |]; [destruct (decide (a = i))|destruct (decide (b = i))]; naive_solver.
  - eapply Ho; [done| |]; [destruct (decide (a = i))|destruct (decide (b = i))]; naive_solver.
  - eapply Ho; [done|done|done].
  - eapply Ho; [done| |]; [destruct (f a)|destruct (f b)]; naive_solver.
  - assert (h = Some a) as Ea. { apply La. destruct (f a); naive_solver. } assert (h = Some b) as Eb. { apply Lb. destruct (f b); naive_solver. } congruence.
Qed.
Theorem C36_at_most_one_left m s i j : rtc istep (ist0 m) s -> iClose s = CDone -> iPc s i = WSleep -> iPc s j = WSleep -> i = j.
Proof.
  intros H. assert (one_left s) as Ho; [|intros Hc Hi Hj; apply Ho; auto].
  assert (lock_ok (ist0 m)) as H0. { intros k. cbn. split; [intros [?|[?|?]]; done|done]. } assert (one_left (ist0 m)) as H1 by done. revert H0 H1.
  induction H as [|x y z Hs _ IH]; [done|]. intros Hl Ho. apply IH; [by eapply lock_step|by eapply one_step].
Qed.
(* if nobody is in the window when Close broadcasts, nobody is asleep from then on *)
Definition none_left (s : ist) : Prop := iClose s = CDone /\ forall i, ~ in_window s i /\ iPc s i <> WSleep.
Lemma none_step s s' : istep s s' -> none_left s -> none_left s'.
Proof.
  intros Hs [Hc Hn]. unfold none_left, in_window in *. inversion Hs; subst; cbn in *; unfold set_pc, wake in *; try done.
  all: split; [done|]; intros j; specialize (Hn j) as Hj; try (destruct (decide (j = i)) as [->|]; [|done]); try (specialize (Hn i)); try (destruct (f j); naive_solver); naive_solver.
Qed.
Theorem C36_all_wake_partial s0 s1 s : (forall i, ~ in_window s0 i) -> iClose s0 = CStored -> s1 = mkIst (iPool s0) (iHolder s0) (wake (iPc s0)) CDone ->
  rtc istep s1 s -> forall i, iPc s i <> WSleep.
Proof.
  intros Hw Hc -> H i. assert (none_left s) as [_ Hn]; [|by apply Hn].
  assert (none_left (mkIst (iPool s0) (iHolder s0) (wake (iPc s0)) CDone)) as H0.
  { split; [done|]. intros j. specialize (Hw j). unfold in_window, wake in *. cbn. destruct (iPc s0 j); naive_solver. }
  revert H0. induction H as [|x y z Hs _ IH]; [done|]. intros Hl. apply IH. by eapply none_step.
Qed.
(* and whoever is not asleep after Close can always return *)
Lemma release s i : iClose s = CDone -> lock_ok s -> has_lock (iPc s i) ->
  exists s', rtc istep s s' /\ iHolder s' = None /\ iClose s' = CDone /\ (forall j, j <> i -> iPc s' j = iPc s j) /\ (iPc s i = WLoad -> iPc s' i = WOut).
Proof.
  destruct s as [m h f c]. cbn. intros -> Hl Hp. unfold has_lock in Hp.
  assert (f i = WReg \/ f i = WScan \/ f i = WLoad) as [H|[H|H]] by tauto.
  - eexists. split; [eapply rtc_once, (is_wait _ _ _ _ i H)|]. cbn. split_and!; try done; [|congruence]. intros j Hj. unfold set_pc. by rewrite decide_False.
  - destruct (other_idle i m) eqn:Eo.
    + eexists. split; [eapply rtc_l; [eapply (is_scan_busy _ _ _ _ i H Eo)|]; eapply rtc_once, (is_wait _ _ _ _ i)|]; [unfold set_pc; by rewrite decide_True|].
      cbn. split_and!; try done; [|congruence]. intros j Hj. unfold set_pc. by rewrite !decide_False.
    + eexists. split; [eapply rtc_once, (is_scan_free _ _ _ _ i H Eo)|]. cbn. split_and!; try done; [|congruence]. intros j Hj. unfold set_pc. by rewrite decide_False.
  - eexists. split; [eapply rtc_once, (is_load_closed _ _ _ _ i H)|]; [done|]. cbn. split_and!; try done; [intros j Hj; unfold set_pc; by rewrite decide_False|]. intros _. unfold set_pc. by rewrite decide_True.
Qed.
Theorem C36_can_return m s i : rtc istep (ist0 m) s -> iClose s = CDone -> iPc s i <> WSleep -> ~ in_window s i -> exists s', rtc istep s s' /\ iPc s' i = WOut.
Proof.
  intros H Hc Hn Hw. pose proof (lock_reach m s H) as Hl.
  destruct (iPc s i) eqn:E; [by exists s| |..].
  - (* wants the mutex: whoever has it gives it back first *)
    assert (exists s1, rtc istep s s1 /\ iHolder s1 = None /\ iClose s1 = CDone /\ iPc s1 i = WWant) as (s1 & R1 & Hh1 & Hc1 & P1).
    { destruct (iHolder s) as [j|] eqn:Eh; [|by exists s]. assert (has_lock (iPc s j)) as Hj by (by apply Hl). assert (i <> j) as Hij.
      { intros ->. unfold has_lock in Hj. rewrite E in Hj. naive_solver. }
      destruct (release s j Hc Hl Hj) as (s1 & R & A & B & C & _). exists s1. split_and!; try done. rewrite C by done. done. }
    destruct s1 as [m1 h1 f1 c1]. cbn in *. subst. eexists. split; [etransitivity; [exact R1|]; eapply rtc_l; [by eapply (is_lock _ _ _ i)|]; eapply rtc_once, (is_load_closed _ _ _ _ i)|].
    + unfold set_pc. by rewrite decide_True.
    + done.
    + cbn. unfold set_pc. by rewrite decide_True.
  - destruct (release s i Hc Hl) as (s1 & R & _ & _ & _ & P); [left; done|]. exists s1. auto.
  - destruct Hw. by left.
  - destruct Hw. by right.
  - done.
Qed.
(* false in general: the store and the broadcast of Close fall between the load and the Wait of a connection; it sleeps on
   although everything is closed, and the client's Shutdown waits for it *)
Definition pool2 : pool := <[2 := Idle]> (<[1 := Waiting]> ∅).
Theorem C36_lost_wakeup_refuted : exists s, rtc istep (ist0 pool2) s /\ iClose s = CDone /\ iPc s 1 = WSleep /\ (forall i, i <> 1 -> iPc s i = WOut) /\ iHolder s = None.
Proof.
  eexists. split.
  - eapply rtc_l; [apply (is_call _ _ _ _ 1); done|]. eapply rtc_l; [apply (is_lock _ _ _ 1); done|]. eapply rtc_l; [apply (is_load_open _ _ _ 1); done|].
    eapply rtc_l; [apply is_store|]. eapply rtc_l; [apply is_close_broadcast|].
    eapply rtc_l; [apply (is_scan_busy _ _ _ _ 1); by vm_compute|]. eapply rtc_l; [apply (is_wait _ _ _ _ 1); by vm_compute|]. apply rtc_refl.
  - split_and!; try done. intros i Hi. cbn. unfold set_pc, wake. rewrite !decide_False by done. done.
Qed.
(* such a state changes only by a broadcast, which only a connection with three running requests makes, or a new call *)
Theorem C36_lost_for_ever s s' : iClose s = CDone -> iPc s 1 = WSleep -> istep s s' -> iPc s' 1 = WSleep \/ exists m h f c, s = mkIst m h f c /\ s' = mkIst m h (wake f) c.
Proof.
  intros Hc Hp Hs. inversion Hs; subst; cbn in *; unfold set_pc in *; try (left; destruct (decide (1 = i)) as [<-|]; congruence); try (by left); try congruence. right. by eexists _, _, _, _.
Qed.
