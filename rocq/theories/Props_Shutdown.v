(* Props_Shutdown.v -- C43 *)
From Verif Require Import GoBase ShutdownModel.
Local Open Scope nat_scope.

(* ---------------- specification *)
Definition in_phase (p : cphase) (st : sst) : nat := length (filter (eq p) (conns st)).
Notation visitors := (in_phase PVisitor).       (* connections being handled that are not tunnels *)
Notation tunnels := (in_phase PTunnel).
Notation ending := (in_phase PEnded).           (* former tunnels whose handler is returning *)

(* ---------------- *)
Lemma count_insert (p : cphase) l : forall i a b, l !! i = Some a ->
  length (filter (eq p) (<[i := b]> l)) + (if decide (p = a) then 1 else 0) =
  length (filter (eq p) l) + (if decide (p = b) then 1 else 0).
Proof.
  induction l as [|x l IH]; intros [|i] a b E; cbn in E; try done.
  - injection E as ->. cbn [insert list_insert]. rewrite !filter_cons. repeat case_match; cbn [length]; try done; lia.
  - specialize (IH i a b E). cbn [insert list_insert]. rewrite !filter_cons.
    destruct (decide (p = x)); cbn [length]; apply eq_S || idtac; exact IH || (cbn; f_equal; exact IH).
Qed.
Lemma count_app (p : cphase) l b : length (filter (eq p) (l ++ [b])) = length (filter (eq p) l) + (if decide (p = b) then 1 else 0).
Proof. rewrite filter_app, app_length. cbn. destruct (decide (p = b)); done. Qed.

Definition counted (st : sst) : Prop :=
  accepted st = length (conns st) /\ served st = in_phase PServed st /\ tunneling st = tunnels st.
Lemma counted_step st st' : counted st -> sstep st st' -> counted st'.
Proof.
  unfold counted, in_phase. intros (A & B & C) Hs.
  inversion Hs; subst; cbn [accepted served tunneling conns] in *;
    rewrite ?app_length, ?insert_length, ?count_app; cbn [length]; try (split; [|split]; done).
  - repeat case_decide; try done. lia.
  - pose proof (count_insert PServed cs j _ PTunnel H) as X1. pose proof (count_insert PTunnel cs j _ PTunnel H) as X2.
    repeat case_decide; try done. lia.
  - pose proof (count_insert PServed cs j _ PEnded H) as X1. pose proof (count_insert PTunnel cs j _ PEnded H) as X2.
    repeat case_decide; try done. lia.
  - pose proof (count_insert PServed cs j _ PServed H) as X1. pose proof (count_insert PTunnel cs j _ PServed H) as X2.
    match goal with H : _ \/ _ |- _ => destruct H as [-> | ->] end; repeat case_decide; try done; lia.
Qed.
Lemma counted_reach st : sreach sinit st -> counted st.
Proof.
  intros HR. assert (HG : forall a b, sreach a b -> counted a -> counted b).
  { intros a b Hab. induction Hab; [done|]. intros HC. apply IHHab. by eapply counted_step. }
  by eapply HG.
Qed.
Lemma phases l : length l = length (filter (eq PVisitor) l) + length (filter (eq PTunnel) l) + length (filter (eq PEnded) l) + length (filter (eq PServed) l).
Proof. induction l as [|x l IH]; [done|]. rewrite !filter_cons. destruct x; cbn [length]; repeat case_decide; try done; cbn [length]; lia. Qed.

(* ---------------- C43 *)
(* at every instant: accepted = served + tunneling + the connections being handled that are not tunnels *)
Theorem C43_counters st : sreach sinit st ->
  accepted st = served st + tunneling st + visitors st + ending st /\ tunneling st = tunnels st.
Proof.
  intros HR. destruct (counted_reach _ HR) as (A & B & C). split; [|done].
  pose proof (phases (conns st)). unfold in_phase in *. lia.
Qed.
(* so the condition of Shutdown, evaluated at one instant, holds exactly when no visitor is left *)
Theorem C43_condition st : sreach sinit st ->
  accepted st = served st + tunneling st <-> visitors st = 0 /\ ending st = 0.
Proof. intros HR. destruct (C43_counters _ HR) as [A _]. lia. Qed.

(* Shutdown evaluates it with three loads.  If it leaves the loop through the condition and no connection was counted
   since its load of accepted, no visitor is left at that moment. *)
Definition snap (st : sst) : Prop :=
  match shut st with
  | SGotA _ a => a <= accepted st
  | SGotS _ a s => a <= accepted st /\ s <= served st
  | _ => True
  end.
Lemma snap_step st st' : snap st -> sstep st st' -> snap st'.
Proof.
  unfold snap. intros HI Hs. inversion Hs; subst; cbn [shut accepted served] in *; try done;
    try (repeat case_match; try done; lia).
Qed.
Theorem C43_exit_sound_partial st st' k a s :
  sreach sinit st -> shut st = SGotS k a s -> sstep st st' -> shut st' = SExit ->
  accepted st = a ->
  visitors st' = 0 /\ ending st' = 0.
Proof.
  intros HR HS Hst HE HA. destruct (C43_counters _ HR) as [A _].
  assert (HI : snap st).
  { assert (HG : forall a b, sreach a b -> snap a -> snap b).
    { intros x y Hab. induction Hab; [done|]. intros HC. apply IHHab. by eapply snap_step. }
    by eapply HG. }
  unfold snap in HI. rewrite HS in HI.
  inversion Hst; subst; cbn [shut accepted served tunneling conns] in *; try congruence.
  injection HS as -> -> ->. match type of HE with context [?x =? ?y] => destruct (Nat.eqb_spec x y); [|done] end.
  unfold in_phase in *. cbn in *. lia.
Qed.
(* conversely when no visitor is left and nothing else happens, the round under way ends the wait *)
Theorem C43_exit_complete st k :
  sreach sinit st -> shut st = SRead k -> visitors st = 0 -> ending st = 0 ->
  exists st1 st2 st3, sstep st st1 /\ sstep st1 st2 /\ sstep st2 st3 /\ shut st3 = SExit.
Proof.
  intros HR HS HV HE. destruct (C43_counters _ HR) as [A _]. destruct st as [a s t c cs ls sh]. cbn in HS, A. subst sh.
  exists (mkS a s t c cs ls (SGotA k a)), (mkS a s t c cs ls (SGotS k a s)), (mkS a s t c cs ls SExit).
  split; [constructor|]. split; [constructor|]. split; [|done].
  assert (HT : (a =? s + t) = true) by (apply Nat.eqb_eq; unfold in_phase in *; cbn in *; lia).
  pose proof (st_read_t a s t c cs ls k a s) as X. by rewrite HT in X.
Qed.
(* the wait has at most 40 rounds *)
Definition round (sh : sphase) : option nat :=
  match sh with SRead k | SGotA k _ | SGotS k _ _ | SSleep k => Some k | _ => None end.
Theorem C43_bounded st k : sreach sinit st -> round (shut st) = Some k -> k < 40.
Proof.
  intros HR. assert (HG : forall a b, sreach a b -> (forall k, round (shut a) = Some k -> k < 40) -> forall k, round (shut b) = Some k -> k < 40).
  { intros a b Hab. induction Hab as [|a b c Hab Hbc IH]; [done|]. intros HC. apply IH. clear IH Hbc.
    intros j Hj. inversion Hab; subst; cbn [shut] in *; try (by apply HC); try (apply HC; done); try done.
    - injection Hj as <-. lia.
    - destruct (_ =? _); [done|]. cbn in Hj. apply HC. done.
    - destruct (Nat.ltb_spec (S k0) maxRounds) as [HL|]; [|done]. injection Hj as <-. exact HL. }
  apply (HG sinit st HR). done.
Qed.

(* Once closing is set, every accept loop counts at most one more connection. *)
Definition may_count (l : lphase) : nat := match l with LAccept | LGot => 1 | _ => 0 end.
Definition late (st : sst) : nat := sum_list (may_count <$> loops st).
Lemma late_insert ls : forall i a b, ls !! i = Some a ->
  sum_list (may_count <$> <[i := b]> ls) + may_count a = sum_list (may_count <$> ls) + may_count b.
Proof.
  induction ls as [|x ls IH]; intros [|i] a b E; cbn in E; try done.
  - injection E as ->. cbn. lia.
  - specialize (IH i a b E). cbn. rewrite <- !Nat.add_assoc. f_equal. exact IH.
Qed.
Lemma late_app ls : sum_list (may_count <$> ls ++ [LCheck]) = sum_list (may_count <$> ls).
Proof. induction ls as [|x ls IH]; [done|]. cbn in *. lia. Qed.
Lemma late_bound ls : sum_list (may_count <$> ls) <= length ls.
Proof. induction ls as [|x ls IH]; [done|]. cbn in *. destruct x; cbn; lia. Qed.
Theorem C43_few_late_accepts st st' : closing st = true -> sreach st st' ->
  accepted st' + late st' <= accepted st + late st /\ accepted st' <= accepted st + length (loops st).
Proof.
  intros HC HR. assert (HG : accepted st' + late st' <= accepted st + late st).
  { revert HC. induction HR as [|a b c Hab Hbc IH]; [done|]. intros HC.
    assert (HS : closing b = true /\ accepted b + late b <= accepted a + late a).
    { unfold late. inversion Hab; subst; cbn [closing accepted loops] in *; try (split; [done|lia]); (split; [done|]);
        rewrite ?late_app; try lia;
        match goal with E : ?ls !! ?i = Some ?x |- context [<[?i := ?y]> ?ls] => pose proof (late_insert ls i x y E) end;
        repeat case_match; cbn [may_count] in *; try done; try lia. }
    destruct HS as [HB HL]. specialize (IH HB). lia. }
  split; [exact HG|]. pose proof (late_bound (loops st)). unfold late in *. lia.
Qed.

(* The three loads are not one instant: a connection counted in between can end the wait while a visitor is being served. *)
Theorem C43_exit_early_refuted : exists st, sreach sinit st /\ shut st = SExit /\ visitors st = 1.
Proof.
  exists (mkS 2 1 0 true [PVisitor; PServed] [LCheck; LCheck] SExit). split; [|done].
  unfold sreach, sinit.
  eapply rtc_l; [apply st_listen|]. eapply rtc_l; [apply st_listen|]. cbn [app].
  eapply rtc_l; [apply (st_check _ _ _ _ _ _ _ 0); done|]. eapply rtc_l; [apply (st_check _ _ _ _ _ _ _ 1); done|]. cbn [insert list_insert].
  eapply rtc_l; [apply (st_accept _ _ _ _ _ _ _ 0); done|]. eapply rtc_l; [apply (st_accept _ _ _ _ _ _ _ 1); done|]. cbn [insert list_insert].
  eapply rtc_l; [apply (st_count _ _ _ _ _ _ _ 0); done|]. cbn [insert list_insert app].
  eapply rtc_l; [apply st_shutdown|]. eapply rtc_l; [apply st_read_a|].
  eapply rtc_l; [apply (st_count _ _ _ _ _ _ _ 1); done|]. cbn [insert list_insert app].
  eapply rtc_l; [apply (st_served _ _ _ _ _ _ _ 1 PVisitor); [done|by left]|]. cbn [insert list_insert].
  eapply rtc_l; [apply st_read_s|]. eapply rtc_l; [apply st_read_t|]. cbn. apply rtc_refl.
Qed.
(* and a visitor that stays longer than the 40 rounds (two minutes) is not waited for *)
Lemma one_round k cs ls a s t : (a =? s + t) = false -> k < 39 ->
  sreach (mkS a s t true cs ls (SRead k)) (mkS a s t true cs ls (SRead (S k))).
Proof.
  intros HE HK. eapply rtc_l; [apply st_read_a|]. eapply rtc_l; [apply st_read_s|]. eapply rtc_l; [apply st_read_t|]. rewrite HE.
  eapply rtc_l; [apply st_sleep|]. replace (S k <? maxRounds) with true; [apply rtc_refl|]. symmetry. apply Nat.ltb_lt. unfold maxRounds. lia.
Qed.
Theorem C43_gives_up_refuted : exists st, sreach sinit st /\ shut st = SGaveUp /\ visitors st = 1.
Proof.
  exists (mkS 1 0 0 true [PVisitor] [LCheck] SGaveUp). split; [|done].
  unfold sreach, sinit.
  eapply rtc_l; [apply st_listen|]. cbn [app].
  eapply rtc_l; [apply (st_check _ _ _ _ _ _ _ 0); done|]. cbn [insert list_insert].
  eapply rtc_l; [apply (st_accept _ _ _ _ _ _ _ 0); done|]. cbn [insert list_insert].
  eapply rtc_l; [apply (st_count _ _ _ _ _ _ _ 0); done|]. cbn [insert list_insert app].
  eapply rtc_l; [apply st_shutdown|].
  assert (HK : forall k, k <= 39 -> sreach (mkS 1 0 0 true [PVisitor] [LCheck] (SRead 0)) (mkS 1 0 0 true [PVisitor] [LCheck] (SRead k))).
  { induction k as [|k IH]; intros HL; [apply rtc_refl|]. eapply rtc_transitive; [apply IH; lia|]. apply one_round; [done|lia]. }
  eapply rtc_transitive; [apply (HK 39); lia|].
  eapply rtc_l; [apply st_read_a|]. eapply rtc_l; [apply st_read_s|]. eapply rtc_l; [apply st_read_t|]. cbn [Nat.eqb Nat.add].
  eapply rtc_l; [apply st_sleep|]. apply rtc_refl.
Qed.
(* the hypotheses of C43_exit_sound_partial are met: a tunnel remains, the visitor is gone *)
Theorem C43_witness : exists st st' k a s, sreach sinit st /\ shut st = SGotS k a s /\ sstep st st' /\ shut st' = SExit /\ accepted st = a /\ tunnels st = 1 /\ served st = 1.
Proof.
  exists (mkS 2 1 1 true [PTunnel; PServed] [LCheck] (SGotS 0 2 1)), (mkS 2 1 1 true [PTunnel; PServed] [LCheck] SExit), 0, 2, 1.
  split; [|split; [done|split; [|done]]].
  - unfold sreach, sinit.
    eapply rtc_l; [apply st_listen|]. cbn [app].
    eapply rtc_l; [apply (st_check _ _ _ _ _ _ _ 0); done|]. cbn [insert list_insert].
    eapply rtc_l; [apply (st_accept _ _ _ _ _ _ _ 0); done|]. cbn [insert list_insert].
    eapply rtc_l; [apply (st_count _ _ _ _ _ _ _ 0); done|]. cbn [insert list_insert app].
    eapply rtc_l; [apply (st_tunnel _ _ _ _ _ _ _ 0); done|]. cbn [insert list_insert app].
    eapply rtc_l; [apply (st_check _ _ _ _ _ _ _ 0); done|]. cbn [insert list_insert].
    eapply rtc_l; [apply (st_accept _ _ _ _ _ _ _ 0); done|]. cbn [insert list_insert].
    eapply rtc_l; [apply (st_count _ _ _ _ _ _ _ 0); done|]. cbn [insert list_insert app].
    eapply rtc_l; [apply (st_served _ _ _ _ _ _ _ 1 PVisitor); [done|by left]|]. cbn [insert list_insert].
    eapply rtc_l; [apply st_shutdown|]. eapply rtc_l; [apply st_read_a|]. eapply rtc_l; [apply st_read_s|]. apply rtc_refl.
  - apply (st_read_t 2 1 1 true [PTunnel; PServed] [LCheck] 0 2 1).
Qed.
