(* Props_Conc.v -- C10, C11, C18, C19, C22, C23 *)
From stdpp Require Import relations.
From Verif Require Import GoBase GoBaseLemmas ConcModel.
Local Open Scope N_scope.

Local Arguments PreservedSignal : simpl never.
(* ---------------------------------------------------------------- C10, C11 *)
Global Instance tid_eq_dec : EqDecision tid.
Proof. solve_decision. Defined.
(* the identifiers that were given out *)
Definition got (v : tid) (id : N) : Prop := v = TGot id \/ v = TDone id.
Definition wrapping (l : list tid) : nat := length (filter (fun v => v = TWrap) l).

(* C10: an identifier is never a control signal, for every number of visitors and every interleaving *)
Theorem C10_never_a_signal st i v id : rtc tid_step tid_init st -> tVis st !! i = Some v -> got v id -> id < PreservedSignal.
Proof.
  intros Hr. revert i v id. assert (forall i v id, tVis tid_init !! i = Some v -> got v id -> id < PreservedSignal) as H0 by done.
  revert H0. induction Hr as [|st st1 st' Hs Hr IH]; [done|]. intros H0. apply IH. clear IH Hr st'.
  intros i v id. destruct Hs as [s l|s l j Hj|s l j Hj|s l j id' Hj]; cbn in *.
  - intros Hi Hg. apply lookup_app_Some in Hi as [Hi|[_ Hi]]; [by eapply H0|]. apply list_lookup_singleton_Some in Hi as [_ <-]. by destruct Hg.
  - destruct (decide (i = j)) as [->|]; [|rewrite list_lookup_insert_ne by done; by eapply H0].
    rewrite list_lookup_insert by (by eapply lookup_lt_Some). intros [= <-] Hg. destruct (N.leb_spec PreservedSignal (u32 (s + 1))); [by destruct Hg|].
    destruct Hg as [[= <-]|]; done.
  - destruct (decide (i = j)) as [->|]; [|rewrite list_lookup_insert_ne by done; by eapply H0].
    rewrite list_lookup_insert by (by eapply lookup_lt_Some). intros [= <-] [[= <-]|]; done.
  - destruct (decide (i = j)) as [->|]; [|rewrite list_lookup_insert_ne by done; by eapply H0].
    rewrite list_lookup_insert by (by eapply lookup_lt_Some). intros [= <-] [|[= <-]]; [done|]. eapply H0; [done|by left].
Qed.
(* the control signals of the protocol are all at or above that bound (conn/conn.go 103-120) *)
Theorem C10_signals : Forall (fun s => PreservedSignal <= s) [4294967295; 4294967294; 4294967293; 4294967292; 4294967291; 4294967290; 4294967289].
Proof. repeat constructor; done. Qed.

(* C10: and it is at least 1 as long as no more than 3000 visitors are caught between the two statements of the wrap *)
Definition tid_step_few (s s' : tidst) : Prop := tid_step s s' /\ (wrapping (tVis s) <= 3000)%nat.
Lemma filter_insert_count (P : tid -> Prop) `{!forall x, Decision (P x)} l i v w : l !! i = Some v ->
  (length (filter P (<[i := w]> l)) + (if decide (P v) then 1 else 0) = length (filter P l) + (if decide (P w) then 1 else 0))%nat.
Proof.
  revert i; induction l as [|x l IH]; intros [|i] Hi; try done.
  - injection Hi as ->. change (<[0%nat := w]> (v :: l)) with (w :: l). rewrite !filter_cons.
    destruct (decide (P v)), (decide (P w)); cbn [length]; lia.
  - change (<[S i := w]> (x :: l)) with (x :: <[i := w]> l). cbn in Hi. apply IH in Hi. rewrite !filter_cons.
    destruct (decide (P x)); cbn [length]; [|exact Hi]. lia.
Qed.
Definition few_inv (st : tidst) : Prop :=
  tSeed st < PreservedSignal + N.of_nat (wrapping (tVis st)) /\ forall i v id, tVis st !! i = Some v -> got v id -> 1 <= id.
Theorem C10_at_least_one_partial st i v id : rtc tid_step_few tid_init st -> tVis st !! i = Some v -> got v id -> 1 <= id.
Proof.
  intros Hr. revert i v id. assert (few_inv tid_init) as H0 by (split; done).
  assert (few_inv st) as [_ ?]; [|done]. induction Hr as [|st st1 st' [Hs Hf] Hr IH]; [done|]. apply IH. clear IH Hr st'.
  destruct H0 as [H1 H2]. destruct Hs as [s l|s l j Hj|s l j Hj|s l j id' Hj]; cbn in *; unfold few_inv; cbn.
  - split.
    + unfold wrapping in *. rewrite filter_app, app_length. lia.
    + intros i v id Hi Hg. apply lookup_app_Some in Hi as [Hi|[_ Hi]]; [by eapply H2|]. apply list_lookup_singleton_Some in Hi as [_ <-]. by destruct Hg.
  - assert (u32 (s + 1) = s + 1) as Hu.
    { unfold u32. apply N.mod_small. change PreservedSignal with 4294964295 in H1. lia. }
    rewrite Hu. unfold wrapping in *. split.
    + pose proof (filter_insert_count (fun v => v = TWrap) l j TStart (if PreservedSignal <=? s + 1 then TWrap else TGot (s + 1)) Hj) as Hc.
      rewrite (decide_False (P := TStart = TWrap)) in Hc by done.
      destruct (N.leb_spec PreservedSignal (s + 1)).
      * rewrite decide_True in Hc by done. lia.
      * rewrite decide_False in Hc by done. lia.
    + intros i v id Hi Hg. destruct (decide (i = j)) as [->|]; [|rewrite list_lookup_insert_ne in Hi by done; by eapply H2].
      rewrite list_lookup_insert in Hi by (by eapply lookup_lt_Some). injection Hi as <-.
      destruct (N.leb_spec PreservedSignal (s + 1)); [by destruct Hg|]. destruct Hg as [[= <-]|]; [lia|done].
  - split; [change PreservedSignal with 4294964295; lia|].
    intros i v id Hi Hg. destruct (decide (i = j)) as [->|]; [|rewrite list_lookup_insert_ne in Hi by done; by eapply H2].
    rewrite list_lookup_insert in Hi by (by eapply lookup_lt_Some). injection Hi as <-. destruct Hg as [[= <-]|]; [lia|done].
  - unfold wrapping in *. split.
    + pose proof (filter_insert_count (fun v => v = TWrap) l j (TGot id') (TDone id') Hj) as Hc. rewrite !decide_False in Hc by done. lia.
    + intros i v id Hi Hg. destruct (decide (i = j)) as [->|]; [|rewrite list_lookup_insert_ne in Hi by done; by eapply H2].
      rewrite list_lookup_insert in Hi by (by eapply lookup_lt_Some). injection Hi as <-. destruct Hg as [|[= <-]]; [done|]. eapply H2; [done|by left].
Qed.

(* runs: n visitors come and go one after the other *)
Definition seqN (s : N) (n : nat) : list tid := map (fun k => TDone (s + 1 + N.of_nat k)) (seq 0 n).
Lemma visit s l : s + 1 < PreservedSignal -> rtc tid_step (mkTid s l) (mkTid (s + 1) (l ++ [TGot (s + 1)])).
Proof.
  intros Hs. eapply rtc_l; [apply ts_spawn|]. eapply rtc_l; [eapply (ts_add _ _ (length l)); by rewrite lookup_app_r, Nat.sub_diag by lia|].
  rewrite insert_app_r_alt, Nat.sub_diag by lia. cbn.
  assert (u32 (s + 1) = s + 1) as -> by (apply N.mod_small; change PreservedSignal with 4294964295 in *; lia).
  destruct (N.leb_spec PreservedSignal (s + 1)); [lia|]. apply rtc_refl.
Qed.
Lemma visit_gone s l : s + 1 < PreservedSignal -> rtc tid_step (mkTid s l) (mkTid (s + 1) (l ++ [TDone (s + 1)])).
Proof.
  intros Hs. etrans; [by apply visit|]. apply rtc_once.
  replace (l ++ [TDone (s + 1)]) with (<[length l := TDone (s + 1)]> (l ++ [TGot (s + 1)])).
  - eapply ts_end. by rewrite lookup_app_r, Nat.sub_diag by lia.
  - by rewrite insert_app_r_alt, Nat.sub_diag by lia.
Qed.
Lemma visits s l n : s + N.of_nat n < PreservedSignal ->
  exists k, length k = n /\ rtc tid_step (mkTid s l) (mkTid (s + N.of_nat n) (l ++ k)) /\ Forall (fun v => exists id, v = TDone id) k.
Proof.
  revert s l; induction n as [|n IH]; intros s l Hs.
  - exists []. rewrite app_nil_r, N.add_0_r. repeat split; [apply rtc_refl|by constructor].
  - destruct (IH (s + 1) (l ++ [TDone (s + 1)])) as (k & Hl & Hr & Hf); [lia|]. exists (TDone (s + 1) :: k). split; [cbn; lia|]. split.
    + etrans; [apply visit_gone; lia|]. rewrite <- app_assoc in Hr. replace (s + N.of_nat (S n)) with (s + 1 + N.of_nat n) by lia. done.
    + constructor; [by eexists|done].
Qed.
Lemma to_the_brink l s : s < PreservedSignal - 1 ->
  exists k, rtc tid_step (mkTid s l) (mkTid (PreservedSignal - 1) (l ++ k)) /\ Forall (fun v => exists id, v = TDone id) k.
Proof.
  intros Hs. destruct (visits s l (N.to_nat (PreservedSignal - 1 - s))) as (k & _ & Hr & Hf).
  - change PreservedSignal with 4294964295 in *. lia.
  - exists k. split; [|done]. replace (PreservedSignal - 1) with (s + N.of_nat (N.to_nat (PreservedSignal - 1 - s))) at 1; [done|].
    change PreservedSignal with 4294964295 in *. lia.
Qed.

(* C10's lower bound refuted without that proviso: 3002 visitors arriving together just before the wrap give identifier 0
   (which is not a signal either) *)
Lemma many_adds n s l m : PreservedSignal <= s + 1 -> s + N.of_nat n < 4294967296 ->
  rtc tid_step (mkTid s (l ++ replicate (n + m) TStart)) (mkTid (s + N.of_nat n) (l ++ replicate n TWrap ++ replicate m TStart)).
Proof.
  revert s l; induction n as [|n IH]; intros s l H1 H2; [cbn; rewrite N.add_0_r; apply rtc_refl|].
  eapply rtc_l; [eapply (ts_add _ _ (length l)); by rewrite lookup_app_r, Nat.sub_diag by lia|].
  rewrite insert_app_r_alt, Nat.sub_diag by lia. cbn [Nat.add replicate insert list_insert].
  assert (u32 (s + 1) = s + 1) as -> by (apply N.mod_small; lia). destruct (N.leb_spec PreservedSignal (s + 1)); [|lia].
  replace (s + N.of_nat (S n)) with (s + 1 + N.of_nat n) by lia. 
  specialize (IH (s + 1) (l ++ [TWrap])). rewrite <- !app_assoc in IH. apply IH; lia.
Qed.
Lemma spawns n s l : rtc tid_step (mkTid s l) (mkTid s (l ++ replicate n TStart)).
Proof.
  revert l; induction n as [|n IH]; intros l; [rewrite app_nil_r; apply rtc_refl|]. eapply rtc_l; [apply ts_spawn|]. specialize (IH (l ++ [TStart])). by rewrite <- app_assoc in IH.
Qed.
Theorem C10_zero_refuted : exists st i, rtc tid_step tid_init st /\ tVis st !! i = Some (TGot 0).
Proof.
  destruct (to_the_brink [] 0) as (k & Hr & _); [done|]. cbn [app] in Hr.
  eexists (mkTid 0 (k ++ replicate (N.to_nat 3001) TWrap ++ [TGot 0])), (length k + N.to_nat 3001)%nat. split.
  - etrans; [apply Hr|]. etrans; [apply (spawns (N.to_nat 3001 + 1))|].
    etrans; [apply (many_adds (N.to_nat 3001) _ k 1)|].
    + change PreservedSignal with 4294964295. lia.
    + change PreservedSignal with 4294964295. lia.
    + apply rtc_once. replace (mkTid 0 (k ++ replicate (N.to_nat 3001) TWrap ++ [TGot 0])) with
        (mkTid (u32 (PreservedSignal - 1 + N.of_nat (N.to_nat 3001) + 1))
          (<[(length k + N.to_nat 3001)%nat := if PreservedSignal <=? u32 (PreservedSignal - 1 + N.of_nat (N.to_nat 3001) + 1) then TWrap
                else TGot (u32 (PreservedSignal - 1 + N.of_nat (N.to_nat 3001) + 1))]> (k ++ replicate (N.to_nat 3001) TWrap ++ replicate 1 TStart))).
      * apply ts_add. rewrite lookup_app_r by lia. rewrite lookup_app_r by (rewrite replicate_length; lia).
        rewrite replicate_length. by replace (length k + N.to_nat 3001 - length k - N.to_nat 3001)%nat with 0%nat by lia.
      * rewrite N2Nat.id. change (u32 (PreservedSignal - 1 + 3001 + 1)) with 0. cbn [N.leb]. f_equal.
        rewrite insert_app_r_alt by lia. rewrite insert_app_r_alt by (rewrite replicate_length; lia).
        rewrite replicate_length. by replace (length k + N.to_nat 3001 - length k - N.to_nat 3001)%nat with 0%nat by lia.
  - cbn [tVis]. rewrite lookup_app_r by lia. rewrite lookup_app_r by (rewrite replicate_length; lia).
    rewrite replicate_length. by replace (length k + N.to_nat 3001 - length k - N.to_nat 3001)%nat with 0%nat by lia.
Qed.

(* C11 before the first wrap: all identifiers ever given out differ *)
Definition early_inv (st : tidst) : Prop :=
  (N.to_nat (tSeed st) <= length (tVis st))%nat
  /\ (length (filter (fun v => v = TStart) (tVis st)) + N.to_nat (tSeed st) = length (tVis st))%nat
  /\ (forall i, tVis st !! i <> Some TWrap)
  /\ (forall i v id, tVis st !! i = Some v -> got v id -> id <= tSeed st)
  /\ (forall i j v w id, tVis st !! i = Some v -> tVis st !! j = Some w -> got v id -> got w id -> i = j).
Lemma tid_step_length s s' : tid_step s s' -> (length (tVis s) <= length (tVis s'))%nat.
Proof. destruct 1; cbn; rewrite ?app_length, ?insert_length; cbn; lia. Qed.
Lemma tid_steps_length s s' : rtc tid_step s s' -> (length (tVis s) <= length (tVis s'))%nat.
Proof. induction 1 as [|? ? ? H _ IH]; [done|]. apply tid_step_length in H. lia. Qed.
Theorem C11_unique_before_wrap_partial st i j v w id :
  rtc tid_step tid_init st -> N.of_nat (length (tVis st)) < PreservedSignal ->
  tVis st !! i = Some v -> tVis st !! j = Some w -> got v id -> got w id -> i = j.
Proof.
  intros Hr Hlen. assert (early_inv st) as (_ & _ & _ & _ & H); [|by apply H].
  assert (early_inv tid_init) as H0 by (repeat split; try done).
  induction Hr as [|st st1 st' Hs Hr IH]; [done|]. specialize (IH Hlen). apply IH. clear IH. apply tid_steps_length in Hr.
  assert (N.of_nat (length (tVis st1)) < PreservedSignal) as Hb by lia. clear Hr Hlen st'.
  destruct H0 as (Ha & Hcount & Hw & Hle & Hinj).
  destruct Hs as [s l|s l p Hp|s l p Hp|s l p id' Hp]; cbn in *; unfold early_inv; cbn.
  - rewrite filter_app, !app_length, filter_cons, decide_True by done. cbn [length filter list_filter]. repeat split; [lia|lia| | |].
    + intros k Hk. apply lookup_app_Some in Hk as [Hk|[_ Hk]]; [by apply Hw in Hk|]. by apply list_lookup_singleton_Some in Hk as [_ ?].
    + intros k x y Hk Hg. apply lookup_app_Some in Hk as [Hk|[_ Hk]]; [by eapply Hle|]. apply list_lookup_singleton_Some in Hk as [_ <-]. by destruct Hg.
    + intros k k' x x' y Hk Hk' Hg Hg'. apply lookup_app_Some in Hk as [Hk|[_ Hk]]; [|apply list_lookup_singleton_Some in Hk as [_ <-]; by destruct Hg].
      apply lookup_app_Some in Hk' as [Hk'|[_ Hk']]; [|apply list_lookup_singleton_Some in Hk' as [_ <-]; by destruct Hg']. by eapply Hinj.
  - rewrite insert_length in Hb.
    pose proof (filter_insert_count (fun v => v = TStart) l p TStart (if PreservedSignal <=? u32 (s + 1) then TWrap else TGot (u32 (s + 1))) Hp) as Hc.
    rewrite (decide_True (P := TStart = TStart)) in Hc by done.
    rewrite (decide_False (P := (if PreservedSignal <=? u32 (s + 1) then TWrap else TGot (u32 (s + 1))) = TStart)) in Hc by (by destruct (_ <=? _)).
    assert (1 <= length (filter (fun v => v = TStart) l))%nat.
    { clear -Hp. apply elem_of_list_lookup_2 in Hp. assert (TStart ∈ filter (fun v => v = TStart) l) as Hin by (by apply elem_of_list_filter).
      destruct (filter _ l); [by apply elem_of_nil in Hin|cbn; lia]. }
    assert (u32 (s + 1) = s + 1) as Hu by (apply N.mod_small; change PreservedSignal with 4294964295 in Hb; lia).
    rewrite Hu in *. destruct (N.leb_spec PreservedSignal (s + 1)) as [|_]; [lia|]. rewrite !insert_length. repeat split; [lia|lia| | |].
    + intros k Hk. destruct (decide (k = p)) as [->|]; [rewrite list_lookup_insert in Hk by (by eapply lookup_lt_Some); done|].
      rewrite list_lookup_insert_ne in Hk by done. by apply Hw in Hk.
    + intros k x y Hk Hg. destruct (decide (k = p)) as [->|].
      * rewrite list_lookup_insert in Hk by (by eapply lookup_lt_Some). injection Hk as <-. destruct Hg as [[= <-]|]; [lia|done].
      * rewrite list_lookup_insert_ne in Hk by done. pose proof (Hle _ _ _ Hk Hg). lia.
    + intros k k' x x' y Hk Hk' Hg Hg'. destruct (decide (k = p)) as [->|], (decide (k' = p)) as [->|]; try done.
      * rewrite list_lookup_insert in Hk by (by eapply lookup_lt_Some). injection Hk as <-. rewrite list_lookup_insert_ne in Hk' by done.
        pose proof (Hle _ _ _ Hk' Hg'). destruct Hg as [[= <-]|]; [lia|done].
      * rewrite list_lookup_insert in Hk' by (by eapply lookup_lt_Some). injection Hk' as <-. rewrite list_lookup_insert_ne in Hk by done.
        pose proof (Hle _ _ _ Hk Hg). destruct Hg' as [[= <-]|]; [lia|done].
      * rewrite list_lookup_insert_ne in Hk, Hk' by done. by eapply Hinj.
  - by apply Hw in Hp.
  - rewrite insert_length in *. pose proof (filter_insert_count (fun v => v = TStart) l p (TGot id') (TDone id') Hp) as Hc. rewrite !decide_False in Hc by done.
    repeat split; [lia|lia| | |].
    + intros k Hk. destruct (decide (k = p)) as [->|]; [rewrite list_lookup_insert in Hk by (by eapply lookup_lt_Some); done|].
      rewrite list_lookup_insert_ne in Hk by done. by apply Hw in Hk.
    + intros k x y Hk Hg. destruct (decide (k = p)) as [->|].
      * rewrite list_lookup_insert in Hk by (by eapply lookup_lt_Some). injection Hk as <-. destruct Hg as [|[= <-]]; [done|]. eapply Hle; [done|by left].
      * rewrite list_lookup_insert_ne in Hk by done. by eapply Hle.
    + intros k k' x x' y Hk Hk' Hg Hg'. destruct (decide (k = p)) as [->|], (decide (k' = p)) as [->|]; try done.
      * rewrite list_lookup_insert in Hk by (by eapply lookup_lt_Some). injection Hk as <-. rewrite list_lookup_insert_ne in Hk' by done.
        destruct Hg as [|[= <-]]; [done|]. eapply Hinj; [exact Hp|exact Hk'|by left|done].
      * rewrite list_lookup_insert in Hk' by (by eapply lookup_lt_Some). injection Hk' as <-. rewrite list_lookup_insert_ne in Hk by done.
        destruct Hg' as [|[= <-]]; [done|]. eapply Hinj; [exact Hk|exact Hp|done|by left].
      * rewrite list_lookup_insert_ne in Hk, Hk' by done. by eapply Hinj.
Qed.
(* C11 across the wrap: as long as no two visitors are caught between the two statements of the wrap, the identifiers go
   round: each is given out again only after all the others *)
Definition gives (s s' : tidst) (id : N) : Prop := exists i, tVis s' !! i = Some (TGot id) /\ tVis s !! i <> Some (TGot id).
(* the identifiers in the order they were given out *)
Inductive tid_log : tidst -> list N -> Prop :=
  | tl_init : tid_log tid_init []
  | tl_give s l s' id : tid_log s l -> tid_step s s' -> (wrapping (tVis s') <= 1)%nat -> gives s s' id -> tid_log s' (l ++ [id])
  | tl_none s l s' : tid_log s l -> tid_step s s' -> (wrapping (tVis s') <= 1)%nat -> (forall id, ~ gives s s' id) -> tid_log s' l.
Definition log_inv (s : tidst) (l : list N) : Prop :=
  (forall a x, l !! a = Some x -> x = 1 + N.of_nat a mod (PreservedSignal - 1)) /\
  ((wrapping (tVis s) = 0%nat /\ tSeed s < PreservedSignal /\ N.of_nat (length l) mod (PreservedSignal - 1) = tSeed s mod (PreservedSignal - 1)) \/
   (wrapping (tVis s) = 1%nat /\ tSeed s = PreservedSignal /\ N.of_nat (length l) mod (PreservedSignal - 1) = 0)).
Lemma wrapping_insert l i v w : l !! i = Some v ->
  (wrapping (<[i := w]> l) + (if decide (v = TWrap) then 1 else 0) = wrapping l + (if decide (w = TWrap) then 1 else 0))%nat.
Proof. intros H. exact (filter_insert_count (fun v => v = TWrap) l i v w H). Qed.
Lemma wrapping_app l k : wrapping (l ++ k) = (wrapping l + wrapping k)%nat.
Proof. unfold wrapping. by rewrite filter_app, app_length. Qed.
Lemma wrapping_in l i : l !! i = Some TWrap -> (1 <= wrapping l)%nat.
Proof.
  intros H. pose proof (wrapping_insert l i TWrap TStart H) as E. rewrite decide_True, decide_False in E by done. lia.
Qed.
Lemma log_app l id (q : N -> N) : (forall a x, l !! a = Some x -> x = q (N.of_nat a)) -> id = q (N.of_nat (length l)) ->
  forall a x, (l ++ [id]) !! a = Some x -> x = q (N.of_nat a).
Proof.
  intros H E a x Ha. apply lookup_app_Some in Ha as [Ha|[Hl Ha]]; [auto|]. apply list_lookup_singleton_Some in Ha as [Hz <-]. subst id. f_equal. f_equal. lia.
Qed.
Lemma log_inv_log : forall s l, tid_log s l -> log_inv s l.
Proof.
  assert (M : PreservedSignal - 1 = 4294964294) by done.
  assert (Hgive : forall s l s' id, log_inv s l -> tid_step s s' -> (wrapping (tVis s') <= 1)%nat -> gives s s' id -> log_inv s' (l ++ [id])).
  { intros s l s' id [H1 H2] Hs Hw (i & Hi & Hn). destruct Hs as [sd v|sd v j Hj|sd v j Hj|sd v j x Hj]; cbn [tVis tSeed] in *.
    - exfalso. apply lookup_app_Some in Hi as [Hi|[_ Hi]]; [done|]. by apply list_lookup_singleton_Some in Hi as [_ ?].
    - pose proof (wrapping_insert v j TStart (if PreservedSignal <=? u32 (sd + 1) then TWrap else TGot (u32 (sd + 1))) Hj) as C. rewrite decide_False in C by done.
      destruct (decide (i = j)) as [->|]; [|rewrite list_lookup_insert_ne in Hi by done; done].
      rewrite list_lookup_insert in Hi by (by eapply lookup_lt_Some). injection Hi as Hi.
      destruct (N.leb_spec PreservedSignal (u32 (sd + 1))) as [L|L]; [done|]. injection Hi as <-. rewrite decide_False in C by done.
      assert (sd < PreservedSignal /\ N.of_nat (length l) mod (PreservedSignal - 1) = sd mod (PreservedSignal - 1) /\ wrapping v = 0%nat) as (S1 & S2 & S3).
      { destruct H2 as [(? & ? & ?)|(? & -> & ?)]; [done|]. exfalso. change (u32 (PreservedSignal + 1)) with (PreservedSignal + 1) in L. lia. }
      assert (u32 (sd + 1) = sd + 1) as U by (apply N.mod_small; change PreservedSignal with 4294964295 in S1; lia). rewrite U in *.
      assert (sd mod (PreservedSignal - 1) = sd) as E by (apply N.mod_small; lia). rewrite E in S2.
      split.
      + apply (log_app l (sd + 1) (fun n => 1 + n mod (PreservedSignal - 1))); [done|]. lia.
      + left. cbn [tVis tSeed]. split; [lia|]. split; [lia|]. rewrite app_length, Nat2N.inj_add. cbn [length]. change (N.of_nat 1) with 1.
        rewrite <- N.add_mod_idemp_l by (rewrite M; done). by rewrite S2.
    - pose proof (wrapping_insert v j TWrap (TGot 1) Hj) as C. rewrite decide_True, decide_False in C by done.
      destruct (decide (i = j)) as [->|]; [|rewrite list_lookup_insert_ne in Hi by done; done].
      rewrite list_lookup_insert in Hi by (by eapply lookup_lt_Some). injection Hi as <-.
      destruct H2 as [(W & _ & _)|(W & _ & S2)]; [apply wrapping_in in Hj; lia|]. split.
      + apply (log_app l 1 (fun n => 1 + n mod (PreservedSignal - 1))); [done|]. by rewrite S2.
      + left. cbn [tVis tSeed]. split; [lia|]. split; [done|]. rewrite app_length, Nat2N.inj_add. cbn [length]. change (N.of_nat 1) with 1.
        rewrite <- N.add_mod_idemp_l by (rewrite M; done). by rewrite S2.
    - exfalso. destruct (decide (i = j)) as [->|]; [rewrite list_lookup_insert in Hi by (by eapply lookup_lt_Some); done|rewrite list_lookup_insert_ne in Hi by done; done]. }
  assert (Hnone : forall s l s', log_inv s l -> tid_step s s' -> (wrapping (tVis s') <= 1)%nat -> (forall id, ~ gives s s' id) -> log_inv s' l).
  { intros s l s' [H1 H2] Hs Hw Hn. split; [done|]. destruct Hs as [sd v|sd v j Hj|sd v j Hj|sd v j x Hj]; cbn [tVis tSeed] in *.
    - rewrite wrapping_app. change (wrapping [TStart]) with 0%nat. by rewrite Nat.add_0_r.
    - pose proof (wrapping_insert v j TStart (if PreservedSignal <=? u32 (sd + 1) then TWrap else TGot (u32 (sd + 1))) Hj) as C. rewrite decide_False in C by done.
      destruct (N.leb_spec PreservedSignal (u32 (sd + 1))) as [L|L].
      + rewrite decide_True in C by done. right. destruct H2 as [(W & S1 & S2)|(W & _ & _)]; [|lia].
        assert (u32 (sd + 1) = sd + 1) as U by (apply N.mod_small; change PreservedSignal with 4294964295 in S1; lia). rewrite U in *.
        assert (sd = PreservedSignal - 1) as -> by lia. split; [lia|]. split; [by rewrite M|]. rewrite S2. apply N.mod_same. by rewrite M.
      + exfalso. apply (Hn (u32 (sd + 1))). exists j. cbn [tVis]. rewrite list_lookup_insert by (by eapply lookup_lt_Some). split; [done|]. rewrite Hj. done.
    - exfalso. apply (Hn 1). exists j. cbn [tVis]. rewrite list_lookup_insert by (by eapply lookup_lt_Some). split; [done|]. rewrite Hj. done.
    - pose proof (wrapping_insert v j (TGot x) (TDone x) Hj) as C. rewrite !decide_False in C by done. destruct H2 as [(? & ? & ?)|(? & ? & ?)]; [left|right]; repeat split; try done; lia. }
  induction 1 as [|s l s' id H IH Hs Hw Hg|s l s' H IH Hs Hw Hg]; [|by eapply Hgive|by eapply Hnone].
  split; [done|]. left. done.
Qed.
Theorem C11_around_the_wrap_partial s l a b x : tid_log s l -> l !! a = Some x -> l !! b = Some x -> (a < b)%nat -> PreservedSignal - 1 <= N.of_nat (b - a).
Proof.
  intros H Ha Hb Hlt. apply log_inv_log in H as [H _]. apply H in Ha. apply H in Hb. assert (M : PreservedSignal - 1 = 4294964294) by done.
  assert (N.of_nat a mod (PreservedSignal - 1) = N.of_nat b mod (PreservedSignal - 1)) as E by lia.
  assert (N.of_nat b = N.of_nat a + N.of_nat (b - a)) as Eb by lia. rewrite Eb in E.
  pose proof (N.div_mod (N.of_nat a) (PreservedSignal - 1) ltac:(rewrite M; done)) as D1.
  pose proof (N.div_mod (N.of_nat a + N.of_nat (b - a)) (PreservedSignal - 1) ltac:(rewrite M; done)) as D2. rewrite M in *. nia.
Qed.
(* every identifier below the signals is used *)
Theorem C11_order_partial s l a x : tid_log s l -> l !! a = Some x -> x = 1 + N.of_nat a mod (PreservedSignal - 1).
Proof. intros H. apply log_inv_log in H as [H _]. apply H. Qed.
(* such runs exist beyond any number of visitors *)
Theorem C11_wrap_witness : forall n, exists s l, tid_log s l /\ length l = n /\ wrapping (tVis s) = 0%nat.
Proof.
  induction n as [|n (s & l & H & E & W)]; [by exists tid_init, []; split; [apply tl_init|]|].
  destruct s as [sd v]. cbn [tVis] in W.
  assert (tid_log (mkTid sd (v ++ [TStart])) l) as H1.
  { eapply tl_none; [exact H|apply ts_spawn| |]; cbn [tVis]; [rewrite wrapping_app; change (wrapping [TStart]) with 0%nat; lia|].
    intros id (i & Hi & Hn). cbn [tVis] in *. apply lookup_app_Some in Hi as [Hi|[_ Hi]]; [done|]. by apply list_lookup_singleton_Some in Hi as [_ ?]. }
  assert ((v ++ [TStart]) !! length v = Some TStart) as Hj by (by rewrite lookup_app_r, Nat.sub_diag by lia).
  assert (wrapping (v ++ [TStart]) = 0%nat) as W1 by (rewrite wrapping_app; change (wrapping [TStart]) with 0%nat; lia).
  pose proof (ts_add sd _ _ Hj) as St. pose proof (wrapping_insert _ _ _ (if PreservedSignal <=? u32 (sd + 1) then TWrap else TGot (u32 (sd + 1))) Hj) as C.
  rewrite decide_False in C by done. rewrite W1 in C. pose proof (lookup_lt_Some _ _ _ Hj) as Lt.
  destruct (N.leb_spec PreservedSignal (u32 (sd + 1))) as [L|L].
  - rewrite decide_True in C by done. set (w := <[length v := TWrap]> (v ++ [TStart])) in *.
    assert (tid_log (mkTid (u32 (sd + 1)) w) l) as H2.
    { eapply tl_none; [exact H1|exact St|cbn [tVis]; lia|]. intros id (i & Hi & Hn). cbn [tVis] in *. unfold w in Hi.
      destruct (decide (i = length v)) as [->|]; [by rewrite list_lookup_insert in Hi by done|by rewrite list_lookup_insert_ne in Hi by done]. }
    assert (w !! length v = Some TWrap) as Hj2 by (unfold w; by rewrite list_lookup_insert by done).
    pose proof (wrapping_insert w _ TWrap (TGot 1) Hj2) as C2. rewrite decide_True, decide_False in C2 by done.
    eexists _, _. split; [eapply tl_give; [exact H2|apply (ts_store _ _ _ Hj2)|cbn [tVis]; lia|]|].
    + exists (length v). cbn [tVis]. split; [apply list_lookup_insert; by eapply lookup_lt_Some|by rewrite Hj2].
    + split; [rewrite app_length; cbn; lia|]. cbn [tVis]. lia.
  - rewrite decide_False in C by done. eexists _, _. split; [eapply tl_give; [exact H1|exact St|cbn [tVis]; lia|]|].
    + exists (length v). cbn [tVis]. split; [by apply list_lookup_insert|by rewrite Hj].
    + split; [rewrite app_length; cbn; lia|]. cbn [tVis]. lia.
Qed.
(* C11 refuted: the visitor with identifier 1 is still there when the counter wraps *)
Theorem C11_long_lived_refuted :
  exists st i j, rtc tid_step tid_init st /\ i <> j /\ tVis st !! i = Some (TGot 1) /\ tVis st !! j = Some (TGot 1).
Proof.
  destruct (to_the_brink [TGot 1] 1) as (k & Hr & _); [done|].
  exists (mkTid 1 ([TGot 1] ++ k ++ [TGot 1])), 0%nat, (S (length k)). split; [|split; [done|split; [done|]]].
  - etrans; [apply (visit 0 []); done|]. etrans; [apply Hr|]. eapply rtc_l; [apply ts_spawn|].
    eapply rtc_l; [eapply (ts_add _ _ (S (length k))); rewrite lookup_app_r by (cbn; lia); cbn [length app]; by rewrite Nat.sub_diag|].
    rewrite insert_app_r_alt by (cbn; lia). cbn [length app]. rewrite Nat.sub_diag. cbn [insert list_insert].
    change (PreservedSignal - 1 + 1) with 4294964295. change (u32 4294964295) with 4294964295. change (PreservedSignal <=? 4294964295) with true. cbn [app].
    apply rtc_once. replace (TGot 1 :: k ++ [TGot 1]) with (<[S (length k) := TGot 1]> (TGot 1 :: k ++ [TWrap])).
    + apply ts_store. exact (list_lookup_middle k [] TWrap (length k) eq_refl).
    + change (TGot 1 :: <[length k := TGot 1]> (k ++ [TWrap]) = TGot 1 :: k ++ [TGot 1]). rewrite insert_app_r_alt by lia. by rewrite Nat.sub_diag.
  - exact (list_lookup_middle k [] (TGot 1) (length k) eq_refl).
Qed.
(* C11 refuted: even with short-lived visitors only, two that arrive together at the wrap both get identifier 1 *)
Theorem C11_wrap_race_refuted :
  exists st k, rtc tid_step tid_init st /\ tVis st = k ++ [TGot 1; TGot 1] /\ Forall (fun v => exists id, v = TDone id) k.
Proof.
  destruct (to_the_brink [] 0) as (k & Hr & Hk); [done|]. cbn [app] in Hr.
  exists (mkTid 1 (k ++ [TGot 1; TGot 1])), k. split; [|done].
  etrans; [apply Hr|]. etrans; [apply (spawns 2)|]. etrans; [apply (many_adds 2 _ k 0)|]; [done|done|]. cbn [replicate app].
  eapply rtc_l; [eapply (ts_store _ _ (length k)); by rewrite lookup_app_r, Nat.sub_diag by lia|].
  rewrite insert_app_r_alt, Nat.sub_diag by lia. cbn [insert list_insert].
  apply rtc_once. replace (k ++ [TGot 1; TGot 1]) with (<[S (length k) := TGot 1]> (k ++ [TGot 1; TWrap])).
  - apply ts_store. rewrite lookup_app_r by lia. by replace (S (length k) - length k)%nat with 1%nat by lia.
  - rewrite insert_app_r_alt by lia. by replace (S (length k) - length k)%nat with 1%nat by lia.
Qed.

(* C10/C11 hypotheses are met by real runs: three visitors, two alive at once *)
Example C11_example : exists st, rtc tid_step tid_init st /\ tVis st = [TGot 1; TDone 2; TGot 3].
Proof.
  exists (mkTid 3 [TGot 1; TDone 2; TGot 3]). split; [|done].
  etrans; [apply (visit 0 []); done|]. etrans; [apply (visit_gone 1 [TGot 1]); done|]. apply (visit 2 [TGot 1; TDone 2]); done.
Qed.

(* ---------------------------------------------------------------- C18 *)
Fixpoint won (l : list cl) : N := match l with [] => 0 | CWon :: l => 1 + won l | _ :: l => won l end.
Lemma won_insert l i c d : l !! i = Some c -> won (<[i := d]> l) + won [c] = won l + won [d].
Proof.
  revert i; induction l as [|x l IH]; intros [|i] Hi; try done.
  - injection Hi as ->. change (<[0%nat := d]> (c :: l)) with (d :: l). destruct c, d; cbn [won]; lia.
  - change (<[S i := d]> (x :: l)) with (x :: <[i := d]> l). cbn in Hi. apply IH in Hi. destruct x; cbn [won] in *; lia.
Qed.
Lemma won_snoc l v : won (l ++ [CCall v]) = won l.
Proof. induction l as [|[] l IH]; cbn; lia. Qed.
Lemma won_none l : Forall (fun c => exists v, c = CCall v) l -> won l = 0.
Proof. induction 1 as [|x l [v ->] _ IH]; done. Qed.
Lemma won_ret l : Forall (fun c => c = CRet) l -> won l = 0.
Proof. induction 1 as [|x l -> _ IH]; done. Qed.
Definition cl_inv (st : clst) : Prop :=
  (forall i v, kCalls st !! i = Some (CCall v) -> v = 1 \/ v = 2) /\
  ((kClosing st = 0 /\ kCloses st = 0 /\ Forall (fun c => exists v, c = CCall v) (kCalls st))
   \/ ((kClosing st = 1 \/ kClosing st = 2) /\ kCloses st + won (kCalls st) = 1)).
Lemma cl_step_inv st st' : cl_inv st -> cl_step st st' -> cl_inv st'.
Proof.
  intros [Hc Hi] Hs.
  assert (forall (l : list cl) (i : nat) d, (forall (i : nat) v, l !! i = Some (CCall v) -> v = 1 \/ v = 2) -> (forall v, d <> CCall v) ->
          forall (j : nat) v, <[i := d]> l !! j = Some (CCall v) -> v = 1 \/ v = 2) as Hins.
  { intros l i d Hl Hd j v Hj. apply list_lookup_insert_Some in Hj as [(_ & ? & _)|[_ Hj]]; [by destruct (Hd v)|by eapply Hl]. }
  destruct Hs as [k n l v Hv|k n l i v Hl|k n l i Hl]; cbn in *.
  - split; cbn.
    + intros i w Hw. apply lookup_app_Some in Hw as [Hw|[_ Hw]]; [by eapply Hc|]. by apply list_lookup_singleton_Some in Hw as [_ [= <-]].
    + rewrite won_snoc. destruct Hi as [(? & ? & Hf)|?]; [left; repeat split; try done|by right]. apply Forall_app. split; [done|]. constructor; [by eexists|done].
  - destruct (N.eqb_spec k 0) as [->|Hk]; (split; cbn; [by apply Hins|]).
    + right. pose proof (won_insert l i _ CWon Hl) as Hw. cbn in Hw. destruct Hi as [(_ & -> & H0)|[[] _]]; [|done..].
      split; [by eapply Hc|]. rewrite (won_none l) in Hw by done. lia.
    + destruct Hi as [[? _]|[H1 H2]]; [done|]. right. split; [done|]. pose proof (won_insert l i _ CRet Hl) as Hw. cbn in Hw. lia.
  - split; cbn; [by apply Hins|]. destruct Hi as [(_ & _ & Hf)|[H1 H2]].
    + rewrite Forall_lookup in Hf. apply Hf in Hl as [? ?]. done.
    + right. split; [done|]. pose proof (won_insert l i _ CRet Hl) as Hw. cbn in Hw. lia.
Qed.
Lemma cl_inv_reach st : rtc cl_step cl_init st -> cl_inv st.
Proof.
  intros Hr. assert (cl_inv cl_init) as H0 by (split; [done|left; split; [done|split; [done|constructor]]]). revert H0.
  induction Hr as [|? ? ? Hs _ IH]; [done|]. intros H0. by eapply IH, cl_step_inv.
Qed.
(* C18: never twice; and once every call has returned, exactly once *)
Theorem C18_closed_once st : rtc cl_step cl_init st ->
  kCloses st <= 1 /\ (Forall (fun c => c = CRet) (kCalls st) -> kCalls st <> [] -> kCloses st = 1).
Proof.
  intros Hr. apply cl_inv_reach in Hr as [_ [(_ & -> & Hf)|[_ H]]].
  - split; [lia|]. intros Hr Hne. destruct (kCalls st) as [|c l]; [done|]. apply Forall_cons_1 in Hr as [-> _]. apply Forall_cons_1 in Hf as [[v ?] _]. done.
  - split; [lia|]. intros Hr _. rewrite (won_ret _ Hr) in H. lia.
Qed.
(* C18: the recorded reason is that of the first call, and it never changes *)
Theorem C18_first_reason st st' : cl_step st st' ->
  (kClosing st <> 0 -> kClosing st' = kClosing st)
  /\ (kClosing st = 0 -> kClosing st' <> 0 -> exists i, kCalls st !! i = Some (CCall (kClosing st')) /\ kCalls st' !! i = Some CWon).
Proof.
  intros Hs. destruct Hs as [k n l v Hv|k n l i v Hl|k n l i Hl]; cbn; [done| |done].
  destruct (N.eqb_spec k 0) as [->|Hk]; cbn; split; try done. intros _ Hne. exists i. split; [done|].
  apply list_lookup_insert. by eapply lookup_lt_Some.
Qed.
Theorem C18_reason_kept st st' : rtc cl_step st st' -> kClosing st <> 0 -> kClosing st' = kClosing st.
Proof.
  induction 1 as [|a b c Hs _ IH]; [done|]. intros Hne. apply C18_first_reason in Hs as [Hs _]. rewrite IH; [by apply Hs|]. by rewrite Hs.
Qed.
Example C18_example : rtc cl_step cl_init (mkCl 2 1 [CRet; CRet]).
Proof.
  eapply rtc_l; [apply (cs_call 0 0 [] 1); by left|]. eapply rtc_l; [apply (cs_call 0 0 [CCall 1] 2); by right|].
  eapply rtc_l; [apply (cs_cas 0 0 [CCall 1; CCall 2] 1 2); done|]. cbn.
  eapply rtc_l; [apply (cs_cas 2 0 [CCall 1; CWon] 0 1); done|]. cbn.
  eapply rtc_l; [apply (cs_close 2 0 [CRet; CWon] 1); done|]. apply rtc_refl.
Qed.

(* ---------------------------------------------------------------- C19 *)
Definition e_inv (s : est) : Prop :=
  eClosing s <= 2 /\
  match ePc s with
  | PRun | PReadErr | PWriteErr | PSend => eFrames s = 0
  | PEnd true => eFrames s = 0
  | PEnd false => eFrames s = 1 \/ (eFrames s = 0 /\ eClosing s = 2)
  end.
Lemma e_inv_reach s : rtc e_step e_init s -> e_inv s.
Proof.
  intros Hr. assert (e_inv e_init) as H0 by (split; [cbn; lia|done]). revert H0. induction Hr as [|? ? ? Hs _ IH]; [done|].
  intros [H1 H2]. apply IH. clear IH. destruct Hs as [pc k n v Hv|k n|k n|k n|k n|k n]; unfold e_inv in *; cbn in *.
  - destruct (N.eqb_spec k 0) as [->|]; [|by split]. split; [lia|]. destruct pc; try done. destruct tunnelFailed; [done|]. destruct H2 as [?|[_ ?]]; [by left|done].
  - by split.
  - by split.
  - split; [done|]. subst. destruct (N.eqb_spec k 2); [right|]; done.
  - split; [done|]. left. lia.
  - by split.
Qed.
(* C19: at most one close frame; a task that ended without the tunnel failing, and not closed by the peer, sent exactly one *)
Theorem C19_local_one s : rtc e_step e_init s ->
  eFrames s <= 1 /\ (ePc s = PEnd false -> eClosing s <> 2 -> eFrames s = 1).
Proof.
  intros Hr. apply e_inv_reach in Hr as [H1 H2]. destruct (ePc s) as [| | | |[]]; try (split; [lia|done]).
  split; [destruct H2 as [|[]]; lia|]. intros _ Hne. by destruct H2 as [|[]].
Qed.
(* C19: once the peer has closed the task, and nothing was sent for it yet, nothing ever is *)
Theorem C19_remote_none s s' : rtc e_step e_init s -> eClosing s = 2 -> ePc s <> PSend -> eFrames s = 0 ->
  rtc e_step s s' -> eFrames s' = 0.
Proof.
  intros _ Hk Hp Hn Hr. induction Hr as [|a b c Hs _ IH]; [done|]. apply IH; clear IH.
  - destruct Hs; cbn in *; try done. subst. done.
  - destruct Hs; cbn in *; try done. subst. done.
  - destruct Hs; cbn in *; try done.
Qed.
(* C19: the tunnel's own failure, which ends the tunnel, is the only other way *)
Theorem C19_failed_none s : rtc e_step e_init s -> ePc s = PEnd true -> eFrames s = 0.
Proof. intros Hr Hp. apply e_inv_reach in Hr as [_ H2]. by rewrite Hp in H2. Qed.
Example C19_example : rtc e_step e_init (mkE (PEnd false) 2 0) /\ rtc e_step e_init (mkE (PEnd false) 0 1).
Proof.
  split.
  - eapply rtc_l; [apply (es_close PRun 0 0 2); by right|]. eapply rtc_l; [apply es_rerr|]. eapply rtc_l; [apply es_check|]. apply rtc_refl.
  - eapply rtc_l; [apply es_rerr|]. eapply rtc_l; [apply es_check|]. eapply rtc_l; [apply es_send|]. apply rtc_refl.
Qed.

(* ---------------------------------------------------------------- C22 *)
(* In any iteration order, whatever the loads return (other goroutines may change the counts between them): the tunnel
   that is chosen has the least of the loaded values. *)
Lemma get_loop_spec {T} (l : list (T * N)) c (n : N) :
  (forall t, c = Some t -> 0 < n) ->
  (c = None -> n = 0) ->
  match get_loop l c n with
  | None => l = [] /\ c = None
  | Some t => (exists k, (t, k) ∈ l /\ (forall t' k', (t', k') ∈ l -> k <= k') /\ (c <> None -> k <= n))
              \/ (c = Some t /\ forall t' k', (t', k') ∈ l -> n <= k')
  end.
Proof.
  revert c n; induction l as [|[t0 k0] l IH]; intros c n H1 H2; cbn [get_loop].
  - destruct c; [right|done]. split; [done|]. intros t' k' H. set_solver.
  - destruct (N.eqb_spec k0 0) as [->|Hk0].
    + left. exists 0. split; [left|]. split; intros; lia.
    + destruct (N.ltb_spec k0 n) as [Hlt|Hge]; cbn [orb].
      * specialize (IH (Some t0) k0). destruct (get_loop l (Some t0) k0) as [t|]; [|destruct IH as [_ ?]; [intros; lia|done|done]].
        destruct IH as [(k & Hin & Hmin & Hle)|[[= <-] Hmin]]; [intros; lia|done| |].
        -- left. exists k. specialize (Hle ltac:(done)). split; [by right|]. split; [|intros; lia].
           intros t' k' [[= -> ->]|H]%elem_of_cons; [lia|by eapply Hmin].
        -- left. exists k0. split; [left|]. split; [|intros; lia]. intros t' k' [[= -> ->]|H]%elem_of_cons; [lia|by eapply Hmin].
      * destruct c as [t1|].
        -- specialize (IH (Some t1) n H1 H2). destruct (get_loop l (Some t1) n) as [t|]; [|by destruct IH].
           destruct IH as [(k & Hin & Hmin & Hle)|[[= <-] Hmin]].
           ++ left. exists k. specialize (Hle ltac:(done)). split; [by right|]. split; [|intros; lia].
              intros t' k' [[= -> ->]|H]%elem_of_cons; [lia|by eapply Hmin].
           ++ right. split; [done|]. intros t' k' [[= -> ->]|H]%elem_of_cons; [lia|by eapply Hmin].
        -- specialize (IH (Some t0) k0). destruct (get_loop l (Some t0) k0) as [t|]; [|destruct IH as [_ ?]; [intros; lia|done|done]].
           destruct IH as [(k & Hin & Hmin & Hle)|[[= <-] Hmin]]; [intros; lia|done| |].
           ++ left. exists k. specialize (Hle ltac:(done)). split; [by right|]. split; [|done].
              intros t' k' [[= -> ->]|H]%elem_of_cons; [lia|by eapply Hmin].
           ++ left. exists k0. split; [left|]. split; [|done]. intros t' k' [[= -> ->]|H]%elem_of_cons; [lia|by eapply Hmin].
Qed.
Theorem C22_least_loaded {T} (l : list (T * N)) :
  match get_tunnel l with
  | None => l = []
  | Some t => exists k, (t, k) ∈ l /\ forall t' k', (t', k') ∈ l -> k <= k'
  end.
Proof.
  assert (match get_loop l None 0 with
  | None => l = []
  | Some t => exists k, (t, k) ∈ l /\ forall t' k', (t', k') ∈ l -> k <= k'
  end) as HH.
  { pose proof (get_loop_spec l None 0) as H. destruct (get_loop l None 0) as [t|].
    - destruct H as [(k & ? & ? & _)|[? _]]; [done|done| |done]. by exists k.
    - by destruct H. }
  destruct l as [|[t k] [|p l]]; cbn [get_tunnel]; [done| |exact HH].
  exists k. split; [left|]. intros t' k' [[= -> ->]|H]%elem_of_cons; [lia|]. by apply elem_of_nil in H.
Qed.
(* with the counts at rest: a gmap of counts, any enumeration of it *)
Theorem C22_assignment (counts : gmap N N) (order : list (N * N)) : Permutation order (map_to_list counts) ->
  match get_tunnel order with
  | None => counts = ∅
  | Some t => exists k, counts !! t = Some k /\ (forall t' k', counts !! t' = Some k' -> k <= k')
  end.
Proof.
  intros Hp. pose proof (C22_least_loaded order) as H. destruct (get_tunnel order) as [t|].
  - destruct H as (k & Hin & Hmin). exists k. split; [apply elem_of_map_to_list; by rewrite <- Hp|].
    intros t' k' Hk'. apply (Hmin t'). rewrite Hp. by apply elem_of_map_to_list.
  - subst. apply Permutation_nil in Hp. by apply map_to_list_empty_iff.
Qed.
(* C22 under concurrency: the choice and the increment are not one atomic step (the lock is shared), so two visitors may
   both be put on a tunnel that was idle when they looked, although another one is still idle *)
Theorem C22_concurrent_refuted :
  rtc g_step (mkG {[ 1 := 0; 2 := 0 ]} []) (mkG {[ 1 := 2; 2 := 0 ]} []).
Proof.
  assert (forall m : gmap N N, exists o, Permutation o (map_to_list m) /\ (m !! 1 = Some 0 -> get_tunnel o = Some 1)) as Ho.
  { intros m. destruct (m !! 1) as [[|p]|] eqn:Hm; [|by exists (map_to_list m)..].
    apply elem_of_map_to_list, elem_of_Permutation in Hm as [k Hk]. exists ((1, 0) :: k). split; [done|]. intros _. by destruct k. }
  destruct (Ho {[ 1 := 0; 2 := 0 ]}) as (o & Hp & Hg). specialize (Hg eq_refl).
  eapply rtc_l; [by eapply (gs_choose _ _ o 1)|]. eapply rtc_l; [by eapply (gs_choose _ _ o 1)|]. cbn [app].
  eapply rtc_l; [by eapply (gs_add _ [] 1 [1] 0)|]. cbn [app].
  eapply rtc_l; [eapply (gs_add _ [] 1 [] 1); by rewrite lookup_insert|]. cbn [app].
  rewrite insert_insert. rewrite insert_insert. apply rtc_refl.
Qed.
(* while no other visitor is between its choice and its increment, the assignment is exact *)
Theorem C22_sequential_partial m order t : Permutation order (map_to_list m) -> get_tunnel order = Some t ->
  exists c, m !! t = Some c /\ (forall t' c', m !! t' = Some c' -> c <= c')
  /\ rtc g_step (mkG m []) (mkG (<[t := c + 1]> m) []).
Proof.
  intros Hp Hg. pose proof (C22_assignment m order Hp) as H. rewrite Hg in H. destruct H as (c & Hc & Hmin). exists c. split; [done|]. split; [done|].
  eapply rtc_l; [by eapply gs_choose|]. cbn [app]. eapply rtc_l; [by eapply (gs_add m [] t [])|]. apply rtc_refl.
Qed.

(* ---------------------------------------------------------------- C23 *)
Definition volume (up : bool) (calls : list (bool * N)) : N :=
  foldr (fun c n => (if Bool.eqb (fst c) up then snd c else 0) + n) 0 calls.
Lemma speed_limit_spec speed count b : 0 < speed -> count < speed -> speed + b <= 4294967296 ->
  speed_limit speed count b = ((count + b) mod speed, (count + b) / speed).
Proof.
  intros H0 Hc Hb. unfold speed_limit. assert (u32 (count + b) = count + b) as -> by (apply N.mod_small; lia).
  destruct (N.ltb_spec (count + b) speed) as [Hl|Hl]; [by rewrite N.mod_small, N.div_small|].
  pose proof (N.div_mod (count + b) speed ltac:(lia)) as Hd. pose proof (N.mod_lt (count + b) speed ltac:(lia)) as Hm.
  f_equal. set (q := (count + b) / speed) in *. set (r := (count + b) mod speed) in *.
  assert (u32 (q * speed) = q * speed) as -> by (apply N.mod_small; lia).
  replace (count + b + 4294967296 - q * speed) with (r + 1 * 4294967296) by lia. unfold u32. rewrite N.mod_add, N.mod_small by lia. done.
Qed.
Lemma speed_run_spec speed calls u d su sd vu vd : 0 < speed ->
  Forall (fun c => speed + snd c <= 4294967296) calls ->
  u = vu mod speed -> d = vd mod speed -> su = vu / speed -> sd = vd / speed ->
  speed_run speed (u, d, (su, sd)) calls =
  ((vu + volume true calls) mod speed, (vd + volume false calls) mod speed,
   ((vu + volume true calls) / speed, (vd + volume false calls) / speed)).
Proof.
  intros H0 Hf. revert u d su sd vu vd. induction Hf as [|[up b] calls Hb Hf IH]; intros u d su sd vu vd -> -> -> ->; cbn [speed_run volume foldr fst snd].
  - by rewrite !N.add_0_r.
  - assert (forall v, v mod speed < speed) as Hlt by (intros; apply N.mod_lt; lia).
    assert (forall v, (v mod speed + b) mod speed = (v + b) mod speed) as Hm by (intros; by rewrite N.add_mod_idemp_l by lia).
    assert (forall v, v / speed + (v mod speed + b) / speed = (v + b) / speed) as Hq.
    { intros v. rewrite (N.div_mod v speed) at 3 by lia. replace (speed * (v / speed) + v mod speed + b) with (v mod speed + b + (v / speed) * speed) by lia.
      rewrite N.div_add by lia. lia. }
    destruct up; rewrite speed_limit_spec by done; rewrite Hm; cbn [Bool.eqb].
    + rewrite (IH _ _ _ _ (vu + b) vd); [|done..|by rewrite Hq|done]. by rewrite N.add_0_l, N.add_assoc.
    + rewrite (IH _ _ _ _ vu (vd + b)); [|done..|by rewrite Hq]. by rewrite N.add_0_l, N.add_assoc.
Qed.
(* C23: as long as one piece plus the speed stays below 2^32, each direction on its own sleeps floor(bytes / speed)
   seconds, and less than one second's worth passes without a sleep *)
Theorem C23_exact_partial speed calls : 0 < speed -> Forall (fun c => speed + snd c <= 4294967296) calls ->
  exists u d, speed_run speed (0, 0, (0, 0)) calls = (u, d, (volume true calls / speed, volume false calls / speed))
  /\ u = volume true calls mod speed /\ d = volume false calls mod speed /\ u < speed /\ d < speed.
Proof.
  intros H0 Hf. rewrite (speed_run_spec speed calls 0 0 0 0 0 0) by (done || by rewrite ?N.mod_0_l, ?N.div_0_l by lia).
  rewrite !N.add_0_l. do 2 eexists. split; [done|]. repeat split; apply N.mod_lt; lia.
Qed.
Example C23_example : speed_run 1000 (0, 0, (0, 0)) [(true, 900); (false, 100); (true, 2200)] = (100, 100, (3, 0)).
Proof. by vm_compute. Qed.
(* C23 refuted for uploads: the piece length is the 32-bit length field of the client's own frame, and the counter wraps:
   frames of 1 byte and of 2^32-1 bytes in turn are never limited at all, whatever the speed *)
Theorem C23_upload_bypass_refuted speed n : 1 < speed ->
  speed_run speed (0, 0, (0, 0)) (mjoin (replicate n [(true, 1); (true, 4294967295)])) = (0, 0, (0, 0))
  /\ volume true (mjoin (replicate n [(true, 1); (true, 4294967295)])) = N.of_nat n * 4294967296.
Proof.
  intros Hs. induction n as [|n [IH1 IH2]]; [done|]. cbn [replicate mjoin list_join app speed_run].
  assert (speed_limit speed 0 1 = (1, 0)) as ->. { unfold speed_limit. change (u32 (0 + 1)) with 1. destruct (N.ltb_spec 1 speed); [done|lia]. }
  assert (speed_limit speed 1 4294967295 = (0, 0)) as ->. { unfold speed_limit. change (u32 (1 + 4294967295)) with 0. destruct (N.ltb_spec 0 speed); [done|lia]. }
  split; [exact IH1|]. cbn [volume foldr fst snd Bool.eqb]. etrans; [apply (f_equal (fun z => 1 + (4294967295 + z)) IH2)|]. lia.
Qed.
