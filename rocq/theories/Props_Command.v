(* Props_Command.v -- C77: commands given with gt -s *)
From Verif Require Import GoBase GoBaseLemmas CommandModel.
Local Open Scope N_scope.

(* whether manager i has begun to watch, and the commands given since *)
Definition view1 (i : nat) (v : bool * list cmd) (e : xevt) : bool * list cmd :=
  match e with
  | XCmd c _ => if v.1 then (true, v.2 ++ [c]) else v
  | XStep j GWatch => if bool_decide (i = j) then (true, v.2) else v
  | _ => v
  end.
Definition view (i : nat) (tr : list xevt) : bool * list cmd := fold_left (view1 i) tr (false, []).
Definition given_since (i : nat) (tr : list xevt) : list cmd := (view i tr).2.
Definition taken (i : nat) (tr : list xevt) : list xevt := filter (fun e => match e with XStep j GTake => bool_decide (i = j) | _ => false end = true) tr.

Lemma xrun_snoc ms tr e ms' : xrun ms (tr ++ [e]) = Some ms' <-> exists ms1, xrun ms tr = Some ms1 /\ xstep ms1 e = Some ms'.
Proof.
  revert ms. induction tr as [|e1 tr IH]; intros ms; cbn [app xrun].
  - destruct (xstep ms e) eqn:E; cbn; split; [intros [= <-]|intros (? & [= <-] & ?)|done|intros (? & [= <-] & ?)]; [eauto|congruence|congruence].
  - destruct (xstep ms e1) as [w1|]; cbn [mbind option_bind]; [apply IH|]. split; [done|by intros (? & ? & ?)].
Qed.
Lemma view_snoc i tr e : view i (tr ++ [e]) = view1 i (view i tr) e.
Proof. unfold view. by rewrite fold_left_app. Qed.

Definition ginv (v : bool * list cmd) (t : nat) (m : man) : Prop :=
  match nPhase m with
  | GOff => v = (false, []) /\ nSeen m = [] /\ nChan m = None /\ nLast m = None /\ t = 0%nat
  | GWait => v.1 = true /\ t = 0%nat /\ match nLast m with
             | None => nChan m = None /\ hd_error (nSeen m) = hd_error v.2
             | Some _ => is_Some (nChan m) /\ nChan m = hd_error v.2
             end
  | GBusy c => v.1 = true /\ is_Some (nLast m) /\ hd_error v.2 = Some c /\ t = 1%nat
  | GEnd => v.1 = true /\ t = 1%nat
  end.
Lemma hd_app {A} (l : list A) x c : hd_error l = Some x -> hd_error (l ++ c) = Some x.
Proof. by destruct l. Qed.
Lemma ginv_run k tr ms i m : xrun (replicate k man0) tr = Some ms -> ms !! i = Some m -> ginv (view i tr) (length (taken i tr)) m.
Proof.
  revert ms m. induction tr as [|e tr IH] using rev_ind; intros ms m H Hm.
  - injection H as <-. apply lookup_replicate in Hm as [-> _]. done.
  - apply xrun_snoc in H as (ms1 & H & E). rewrite view_snoc. unfold taken. rewrite filter_app, app_length. change (filter (fun e => match e with XStep j GTake => bool_decide (i = j) | _ => false end = true) tr) with (taken i tr).
    destruct e as [c n|d|j e]; cbn [xstep] in E.
    + injection E as <-. rewrite list_lookup_fmap in Hm. destruct (ms1 !! i) as [m1|] eqn:E1; [|done]. injection Hm as <-. specialize (IH _ _ H E1). unfold ginv in *. destruct m1 as [ph now last seen ch].
      cbn [told nPhase nLast nSeen nChan] in *. rewrite filter_cons_False, Nat.add_0_r by done. destruct ph; cbn [watching].
      * destruct IH as (-> & IH). by split.
      * destruct IH as (Hv & -> & IH). cbn [view1]. rewrite Hv. cbn [fst snd]. split; [done|]. split; [done|]. destruct last.
        -- destruct IH as [[x ->] IH]. split; [done|]. symmetry. symmetry in IH. by apply hd_app.
        -- destruct IH as [-> IH]. split; [done|]. destruct seen as [|x seen]; cbn in IH |- *; [destruct (snd (view i tr)); done|]. symmetry. symmetry in IH. by apply hd_app.
      * destruct IH as (Hv & Hl & Hh & ->). cbn [view1]. rewrite Hv. cbn [fst snd]. repeat split; try done. by apply hd_app.
      * destruct IH as (Hv & ->). cbn [view1]. rewrite Hv. done.
    + injection E as <-. rewrite list_lookup_fmap in Hm. destruct (ms1 !! i) as [m1|] eqn:E1; [|done]. injection Hm as <-. specialize (IH _ _ H E1). destruct m1 as [ph now last seen ch]. rewrite filter_cons_False, Nat.add_0_r by done. exact IH.
    + destruct (ms1 !! j) as [mj|] eqn:Ej; [|done]. cbn [mbind option_bind] in E. destruct (gstep mj e) as [m'|] eqn:Eg; [|done]. cbn in E. injection E as <-. destruct (decide (i = j)) as [<-|Nij].
      * rewrite list_lookup_insert in Hm by (by apply lookup_lt_is_Some; eauto). injection Hm as <-. specialize (IH _ _ H Ej). unfold ginv in *. destruct mj as [ph now last seen ch]. cbn [gstep] in Eg. cbn [nPhase nLast nSeen nChan] in *. destruct e.
        -- destruct ph; try done. injection Eg as <-. cbn [view1 nPhase nLast nSeen nChan]. rewrite bool_decide_true by done. rewrite filter_cons_False, Nat.add_0_r by done. destruct IH as (-> & -> & -> & -> & ->). done.
        -- rewrite filter_cons_False, Nat.add_0_r by done. cbn [view1]. unfold see in Eg. destruct ph; try done; destruct seen as [|x0 seen]; try done.
           ++ destruct IH as (Hv & Ht & IH). destruct last as [t|].
              ** destruct (now - t <? 3); [injection Eg as <-; cbn [nPhase nLast nSeen nChan]; done|]. destruct IH as [[x ->] _]. done.
              ** destruct IH as [-> IH]. injection Eg as <-. cbn [nPhase nLast nSeen nChan]. cbn in IH. split; [done|]. split; [done|]. split; [eauto|done].
           ++ destruct IH as (Hv & Hl & Hh & Ht). destruct last as [t|]; [|by destruct Hl]. destruct (now - t <? 3); [injection Eg as <-; cbn [nPhase nLast nSeen nChan]; done|]. destruct ch; [done|]. injection Eg as <-. cbn [nPhase nLast nSeen nChan]. repeat split; eauto.
        -- destruct ph; try done. destruct ch as [c|]; [|done]. injection Eg as <-. cbn [view1 nPhase nLast nSeen nChan]. rewrite filter_cons_True by (by rewrite bool_decide_true). destruct IH as (Hv & -> & IH). destruct last; [|by destruct IH]. destruct IH as [_ IH]. repeat split; eauto.
        -- destruct ph; try done. injection Eg as <-. cbn [view1 nPhase nLast nSeen nChan]. rewrite filter_cons_False, Nat.add_0_r by done. destruct IH as (Hv & _ & _ & ->). done.
      * rewrite list_lookup_insert_ne in Hm by done. specialize (IH _ _ H Hm). assert (Ev : view1 i (view i tr) (XStep j e) = view i tr) by (cbn; destruct e; try done; by rewrite bool_decide_false). rewrite Ev.
        rewrite filter_cons_False; [by rewrite Nat.add_0_r|]. destruct e; try done. by rewrite bool_decide_false.
Qed.
(* A manager acts on one command at most, the first given since it began to watch *)
Theorem C77_first : forall k tr ms i m c, xrun (replicate k man0) tr = Some ms -> ms !! i = Some m -> nPhase m = GBusy c -> hd_error (given_since i tr) = Some c.
Proof. intros k tr ms i m c H Hm Hp. pose proof (ginv_run _ _ _ _ _ H Hm) as I. unfold ginv in I. rewrite Hp in I. by destruct I as (_ & _ & ? & _). Qed.
Theorem C77_once : forall k tr ms i, xrun (replicate k man0) tr = Some ms -> (i < k)%nat -> (length (taken i tr) <= 1)%nat.
Proof.
  intros k tr ms i H Hi. assert (L : forall tr ms, xrun (replicate k man0) tr = Some ms -> length ms = k).
  { clear. intros tr. induction tr as [|e tr IH] using rev_ind; intros ms H; [injection H as <-; apply replicate_length|]. apply xrun_snoc in H as (ms1 & H & E). specialize (IH _ H). destruct e as [c n|d|j e]; cbn [xstep] in E.
    - injection E as <-. by rewrite fmap_length. - injection E as <-. by rewrite fmap_length. - destruct (ms1 !! j); [|done]. cbn in E. destruct (gstep m e); [|done]. injection E as <-. by rewrite insert_length. }
  specialize (L _ _ H). destruct (lookup_lt_is_Some_2 ms i) as [m Hm]; [lia|]. pose proof (ginv_run _ _ _ _ _ H Hm) as I. unfold ginv in I. destruct (nPhase m); [destruct I as (_ & _ & _ & _ & ->)|destruct I as (_ & -> & _)|destruct I as (_ & _ & _ & ->)|destruct I as (_ & ->)]; lia.
Qed.
(* Every manager that waits when a command is given acts on it, if it is the first it was given: all gt's of the machine *)
Theorem C77_acts : forall k tr ms i m c, xrun (replicate k man0) tr = Some ms -> ms !! i = Some m -> nPhase m = GWait -> hd_error (given_since i tr) = Some c ->
  exists own ms' m', (own = [XStep i GSee; XStep i GTake] \/ own = [XStep i GTake]) /\ xrun ms own = Some ms' /\ ms' !! i = Some m' /\ nPhase m' = GBusy c.
Proof.
  intros k tr ms i m c H Hm Hp Hc. pose proof (ginv_run _ _ _ _ _ H Hm) as I. assert (Li : (i < length ms)%nat) by (apply lookup_lt_is_Some; eauto). unfold ginv in I. rewrite Hp in I. destruct I as (_ & _ & I). unfold given_since in Hc.
  destruct m as [ph now last seen ch]. cbn [nPhase nLast nSeen nChan] in *. subst ph. destruct last as [t|].
  - destruct I as [_ ->]. rewrite Hc in Hm. exists [XStep i GTake]. cbn [xrun xstep]. rewrite Hm. cbn [mbind option_bind gstep]. eexists _, _. split; [by right|]. split; [reflexivity|]. split; [by rewrite list_lookup_insert|done].
  - destruct I as [-> I]. rewrite Hc in I. destruct seen as [|x seen]; [done|]. cbn in I. injection I as ->. exists [XStep i GSee; XStep i GTake]. cbn [xrun xstep]. rewrite Hm. cbn [mbind option_bind gstep see]. rewrite list_lookup_insert by done. cbn [mbind option_bind gstep].
    eexists _, _. split; [by left|]. split; [reflexivity|]. split; [rewrite list_lookup_insert; [done|by rewrite insert_length]|done].
Qed.
(* A command given while no manager waits for one is acted on by nobody: stop given while a reload is going on and its new manager does not watch yet *)
Theorem C77_nobody : forall k tr c n tr' ms i m, xrun (replicate k man0) (tr ++ XCmd c n :: tr') = Some ms -> ms !! i = Some m -> (view i tr).1 = false -> given_since i (tr ++ XCmd c n :: tr') = given_since i (tr ++ tr').
Proof.
  intros k tr c n tr' ms i m _ _ Hv. unfold given_since, view in *. rewrite !fold_left_app. cbn [fold_left]. f_equal. f_equal. cbn [view1]. by rewrite Hv.
Qed.
Theorem C77_stop_lost_refuted : exists tr ms m0 m1, xrun (replicate 2 man0) tr = Some ms /\ ms !! 0%nat = Some m0 /\ ms !! 1%nat = Some m1 /\
  (XCmd CStop 0) ∈ tr /\ nPhase m0 = GEnd /\ nPhase m1 = GWait /\ nSeen m1 = [] /\ nChan m1 = None /\ given_since 0 tr = [CReload; CStop] /\ given_since 1 tr = [].
Proof.
  exists [XStep 0 GWatch; XTick 10; XCmd CReload 1; XStep 0 GSee; XStep 0 GTake; XStep 0 GSee; XTick 5; XCmd CStop 0; XStep 0 GSee; XStep 1 GWatch; XTick 1; XStep 0 GDone; XTick 1000].
  eexists _, _, _. split; [vm_compute; reflexivity|]. split; [reflexivity|]. split; [reflexivity|]. split; [set_solver|]. repeat split.
Qed.
(* A command reaches all managers: one meant for one of two gt's ends both *)
Theorem C77_witness : exists ms m0 m1, xrun (replicate 2 man0) [XStep 0 GWatch; XStep 1 GWatch; XCmd CStop 2; XStep 1 GSee; XStep 0 GSee; XStep 0 GTake; XStep 1 GTake; XStep 1 GSee] = Some ms /\
  ms !! 0%nat = Some m0 /\ ms !! 1%nat = Some m1 /\ nPhase m0 = GBusy CStop /\ nPhase m1 = GBusy CStop.
Proof. eexists _, _, _. split; [vm_compute; reflexivity|]. repeat split. Qed.
