(* Props_Reload.v -- C52: a reload comes to an end *)
From Verif Require Import GoBase ReloadModel.
Local Open Scope N_scope.

(* ---- specification, on what can be seen from outside ---- *)
#[global] Instance revt_eq_dec : EqDecision revt. Proof. solve_decision. Defined.
(* how often a configuration was written to tunnel t, how often the tunnel has read an answer *)
Definition written (t : N) (tr : list revt) : nat := length (filter (fun e => e = VWrite t) tr).
Definition answered (t : N) (tr : list revt) : nat := length (filter (fun e => e = VAnswer t true \/ e = VAnswer t false) tr).
(* is a reload running after tr *)
Definition running (tr : list revt) : bool :=
  fold_left (fun b e => match e with VStart => true | VReturn _ => false | _ => b end) tr false.
(* the refusals (ErrorSignal) read while no reload was running *)
Definition strays (tr : list revt) : nat :=
  snd (fold_left (fun '(b, n) e => match e with
                   | VStart => (true, n) | VReturn _ => (false, n)
                   | VAnswer _ false => (b, if b : bool then n else S n) | _ => (b, n) end) tr (false, 0%nat)).

(* ---- proofs ---- *)
Definition pend (p : rpc) : Z := match p with RWritten _ _ => 1%Z | _ => 0%Z end.
Definition scount (t : N) (l : list N) : nat := length (filter (fun x => x = t) l).

Lemma written_app t a b : written t (a ++ b) = (written t a + written t b)%nat.
Proof. unfold written. by rewrite filter_app, app_length. Qed.
Lemma answered_app t a b : answered t (a ++ b) = (answered t a + answered t b)%nat.
Proof. unfold answered. by rewrite filter_app, app_length. Qed.
Lemma scount_app t a b : scount t (a ++ b) = (scount t a + scount t b)%nat.
Proof. unfold scount. by rewrite filter_app, app_length. Qed.
Lemma running_app a b : running (a ++ b) = fold_left (fun b e => match e with VStart => true | VReturn _ => false | _ => b end) b (running a).
Proof. unfold running. by rewrite fold_left_app. Qed.
Lemma strays_pair tr : fold_left (fun '(b, n) e => match e with
                   | VStart => (true, n) | VReturn _ => (false, n)
                   | VAnswer _ false => (b, if b : bool then n else S n) | _ => (b, n) end) tr (false, 0%nat) = (running tr, strays tr).
Proof.
  unfold strays. induction tr as [|e tr IH] using rev_ind; [done|].
  rewrite running_app, fold_left_app. rewrite IH. cbn [fold_left fst snd].
  destruct e as [| |? []| | | | |]; reflexivity.
Qed.
Lemma strays_app a b : strays (a ++ b) = snd (fold_left (fun '(b, n) e => match e with
                   | VStart => (true, n) | VReturn _ => (false, n)
                   | VAnswer _ false => (b, if b : bool then n else S n) | _ => (b, n) end) b (running a, strays a)).
Proof. unfold strays at 1. rewrite fold_left_app. by rewrite strays_pair. Qed.

Record rinv (tr : list revt) (s : rst) : Prop := {
  ri_run : running tr = is_reloading (wPc s);
  ri_wg : wWg s = (Z.of_nat (length (wOwed s)) + Z.of_nat (strays tr) - pend (wPc s))%Z;
  ri_owed : forall t, (written t tr = answered t tr + scount t (wOwed s))%nat }.

Lemma rinv_step tr s l s' : rinv tr s -> rstep s l s' -> rinv (tr ++ l) s'.
Proof.
  intros [Hr Hw Ho] Hs.
  assert (Hcase : forall t wg, done_event t wg = [] \/ done_event t wg = [VPanic t]) by (intros; unfold done_event; case_match; auto).
  inversion Hs; subst; cbn [wPc wWg wOwed] in *;
    try (destruct (Hcase t wg) as [HE|HE]; rewrite ?HE in * ); try (destruct p; cbn [is_reloading] in *; rewrite ?HE in * );
    (split; cbn [wPc wWg wOwed];
     [ rewrite running_app, Hr; reflexivity
     | rewrite strays_app, Hr; cbn [fold_left fst snd is_reloading pend length] in *; rewrite ?app_length in *; cbn [length] in *; lia
     | intros u; specialize (Ho u); rewrite written_app, answered_app; rewrite ?scount_app in *;
       unfold written, answered, scount in *; rewrite ?filter_cons, ?filter_nil in *; repeat case_decide; cbn [length] in *;
       try lia; exfalso; intuition congruence ]).
Qed.
Lemma rinv_exec tr s : rexec rst0 tr s -> rinv tr s.
Proof.
  intros H. remember rst0 as s0 eqn:E. induction H as [|s tr s1 l s2 H IH Hs]; subst.
  - split; done.
  - eapply rinv_step; eauto.
Qed.

Lemma rexec_app s tr1 s1 tr2 s2 : rexec s tr1 s1 -> rexec s1 tr2 s2 -> rexec s (tr1 ++ tr2) s2.
Proof.
  intros H1 H2. induction H2 as [|s1 tr s3 l s4 H IH Hs].
  - by rewrite app_nil_r.
  - rewrite app_assoc. econstructor; [by apply IH|done].
Qed.
Lemma scount_pos t l : (0 < scount t l)%nat -> t ∈ l.
Proof.
  unfold scount. intros H. destruct (filter (fun x => x = t) l) as [|x r] eqn:E; [cbn in H; lia|].
  assert (Hx : x ∈ filter (fun x => x = t) l) by (rewrite E; left).
  apply elem_of_list_filter in Hx as [-> ?]. done.
Qed.
Lemma scount_in t l : t ∈ l -> (0 < scount t l)%nat.
Proof.
  unfold scount. intros H. assert (Hx : t ∈ filter (fun x => x = t) l) by (by apply elem_of_list_filter).
  destruct (filter (fun x => x = t) l); [by apply elem_of_nil in Hx | cbn; lia].
Qed.

(* ReloadServices returns without an error only when every configuration it (or an earlier call) wrote was answered. *)
Theorem C52_return_means_answered : forall tr s s', rexec rst0 tr s -> rstep s [VReturn true] s' ->
  forall t, written t tr = answered t tr.
Proof.
  intros tr s s' H Hs t. apply rinv_exec in H as [Hr Hw Ho]. inversion Hs; subst; cbn in *.
  - assert (length owed = 0%nat) as Hl by lia. apply length_zero_iff_nil in Hl as ->.
    rewrite (Ho t). cbn. lia.
Qed.

(* And it was written to every tunnel that was in service when the reload began, once to each. *)
Definition left_over (p : rpc) : list N := match p with RLoop todo => todo | RWritten _ todo => todo | _ => [] end.
Lemma scount_NoDup t l : NoDup l -> scount t l = if decide (t ∈ l) then 1%nat else 0%nat.
Proof.
  unfold scount. induction l as [|x l IH]; intros ND; [by rewrite decide_False by apply not_elem_of_nil|].
  apply NoDup_cons in ND as [N1 N2]. specialize (IH N2). rewrite filter_cons. destruct (decide (x = t)) as [->|Hne].
  - rewrite decide_False in IH by done. cbn [length]. rewrite IH. by rewrite decide_True by (by left).
  - rewrite IH. destruct (decide (t ∈ l)) as [E|E], (decide (t ∈ x :: l)) as [E'|E']; try done; rewrite elem_of_cons in E'; naive_solver.
Qed.
Theorem C52_return_means_written : forall tr s0 s1 tr' s2 s3, rexec rst0 tr s0 -> rstep s0 [VStart] s1 -> rexec s1 tr' s2 ->
  (forall ok, VReturn ok ∉ tr') -> rstep s2 [VReturn true] s3 -> forall t, written t tr' = if decide (t ∈ wSet s0) then 1%nat else 0%nat.
Proof.
  intros tr s0 s1 tr' s2 s3 _ Hst Hx Hn Hret t.
  assert (G : is_reloading (wPc s2) = true /\ (written t tr' + scount t (left_over (wPc s2)) = if decide (t ∈ wSet s0) then 1 else 0)%nat).
  { clear Hret. induction Hx as [s1|s1 tr' s2 l s3' Hx IH Hs].
    - inversion Hst; subst; cbn [wSet wPc left_over is_reloading]. split; [done|]. change (written t []) with 0%nat.
      transitivity (scount t (elements set)).
      + unfold scount. cbn. match goal with X : Permutation _ _ |- _ => by rewrite X end.
      + rewrite scount_NoDup by apply NoDup_elements. destruct (decide (t ∈ set)) as [E|E], (decide (t ∈ elements set)) as [E'|E']; rewrite elem_of_elements in E'; done.
    - destruct IH as [I1 I2]; [done|intros ok Hin; apply (Hn ok), elem_of_app; by left|].
      assert (Hl : forall ok, VReturn ok ∉ l) by (intros ok Hin; apply (Hn ok), elem_of_app; by right). clear Hn.
      rewrite written_app. inversion Hs; subst; cbn [wPc is_reloading left_over] in *; try done;
        try (exfalso; by eapply Hl, elem_of_list_singleton); try (split; [done|]; change (written t [VTau]) with 0%nat; lia).
      + split; [done|]. unfold written at 2. unfold scount in *. rewrite filter_cons, filter_nil in *. rewrite filter_cons in I2.
        destruct (decide (t0 = t)) as [->|Hne]; [rewrite decide_True in * by done; cbn [length] in *; lia|]. rewrite decide_False by congruence. cbn [length]. lia.
      + split; [done|]. change (written t [VExit]) with 0%nat. lia.
      + split; [done|]. assert (written t (VAnswer t0 true :: done_event t0 wg) = 0%nat) as -> by (unfold done_event; destruct (wg - 1 <? 0)%Z; reflexivity). lia.
      + split; [done|]. rewrite I1. assert (written t (VAnswer t0 false :: done_event t0 wg) = 0%nat) as -> by (unfold done_event; destruct (wg - 1 <? 0)%Z; reflexivity). lia.
      + split; [done|]. change (written t [VDie t0]) with 0%nat. lia. }
  destruct G as [_ G]. inversion Hret; subst. cbn in G. change (scount t []) with 0%nat in G. lia.
Qed.

(* the panic of the wait group can only hit a tunnel that answers before ReloadServices has counted it *)
Theorem C52_panic_only_between_write_and_add : forall tr s l s' t, rexec rst0 tr s -> rstep s l s' -> VPanic t ∈ l ->
  exists t' todo, wPc s = RWritten t' todo.
Proof.
  intros tr s l s' t H Hs Hin. apply rinv_exec in H as [Hr Hw Ho].
  assert (Hcase : forall t wg, VPanic t ∈ done_event t wg \/ True) by auto.
  inversion Hs; subst; cbn [wPc wWg wOwed] in *; repeat (apply elem_of_cons in Hin as [Hin|Hin]; [done|]); try (by apply elem_of_nil in Hin).
  - unfold done_event in Hin. destruct (wg - 1 <? 0)%Z eqn:E; [|by apply elem_of_nil in Hin].
    rewrite app_length in Hw. cbn [length] in Hw. destruct p; cbn [pend] in *; try lia. eauto.
  - destruct (is_reloading p); [|by apply elem_of_nil in Hin].
    unfold done_event in Hin. destruct (wg - 1 <? 0)%Z eqn:E; [|by apply elem_of_nil in Hin].
    rewrite app_length in Hw. cbn [length] in Hw. destruct p; cbn [pend] in *; try lia. eauto.
Qed.

(* If all tunnels that still owe an answer are alive, and no refusal came while no reload was running, a waiting
   ReloadServices can return, and the answers are all it takes; no tunnel is hurt on the way. *)
Lemma drain : forall owed set live, Forall (fun t => t ∈ live) owed ->
  exists tr, rexec (mkR RWait (Z.of_nat (length owed)) live set owed false) tr (mkR RWait 0 live set [] false) /\
    Forall (fun e => exists t, e = VAnswer t true) tr.
Proof.
  induction owed as [|t owed IH]; intros set live Hf.
  - exists []. split; [constructor|constructor].
  - apply Forall_cons in Hf as [Ht Hf]. destruct (IH set live Hf) as (tr & He & Htr).
    exists ([VAnswer t true] ++ tr). split.
    + eapply rexec_app; [|exact He].
      pose proof (rx_snoc _ _ _ _ _ (rx_nil _) (r_services RWait (Z.of_nat (length (t :: owed))) live set [] owed t Ht)) as H.
      unfold done_event, done_live in H. cbn [app length] in *.
      replace (Z.of_nat (S (length owed)) - 1 <? 0)%Z with false in H by lia.
      by replace (Z.of_nat (S (length owed)) - 1)%Z with (Z.of_nat (length owed)) in H by lia.
    + constructor; eauto.
Qed.
Theorem C52_finishes_partial : forall tr s, rexec rst0 tr s -> wPc s = RWait -> wExit s = false -> strays tr = 0%nat ->
  (forall t, (answered t tr < written t tr)%nat -> t ∈ wLive s) ->
  exists tr' s', rexec s (tr' ++ [VReturn true]) s' /\ Forall (fun e => exists t, e = VAnswer t true) tr'.
Proof.
  intros tr [p wg live set owed ex] H Hp He Hs Hl. cbn in *. subst.
  pose proof (rinv_exec _ _ H) as [Hr Hw Ho]. cbn in *. rewrite Hs in Hw.
  assert (Hf : Forall (fun t => t ∈ live) owed).
  { apply Forall_forall. intros t Ht. apply Hl. rewrite (Ho t). pose proof (scount_in t owed Ht) as Hc. unfold scount in Hc. lia. }
  destruct (drain owed set live Hf) as (tr' & He & Htr').
  exists tr', (mkR RNot 0 live set [] false). split; [|done].
  replace wg with (Z.of_nat (length owed)) by lia. econstructor; [exact He|constructor].
Qed.

(* ---- where it fails ---- *)
Lemma stuck_exec (P : rst -> Prop) :
  (forall s l s', P s -> rstep s l s' -> P s' /\ VReturn true ∉ l) ->
  forall s tr s', P s -> rexec s tr s' -> VReturn true ∉ tr.
Proof.
  intros Hp s tr s' H0 H. assert (P s' /\ VReturn true ∉ tr); [|by destruct_and?].
  induction H as [s|s tr s1 l s2 H IH Hs]; [split; [done|apply not_elem_of_nil]|].
  destruct (IH H0) as [H1 H2]. destruct (Hp _ _ _ H1 Hs) as [H3 H4]. split; [done|]. by apply not_elem_of_app.
Qed.

(* A tunnel that goes down while it owes an answer -- for every such state: no reload ever ends well again; the running one
   and the later ones end by the exit of the process. *)
Theorem C52_dead_tunnel_refuted : forall tr s t, rexec rst0 tr s -> (answered t tr < written t tr)%nat -> t ∉ wLive s ->
  forall tr' s', rexec s tr' s' -> VReturn true ∉ tr'.
Proof.
  intros tr s t H Hlt Hdead. pose proof (rinv_exec _ _ H) as [Hr Hw Ho].
  set (P := fun s : rst => t ∉ wLive s /\ t ∈ wOwed s /\
              (wWg s >= Z.of_nat (length (wOwed s)) - pend (wPc s))%Z).
  intros tr' s' H'. apply (stuck_exec P) with (s := s) (s' := s'); [|split; [done|split] |done].
  - clear. intros s l s' (Hd & Hin & Hw) Hs. unfold P. inversion Hs; subst; cbn [wPc wWg wOwed wLive] in *.
    + repeat split; auto; [set_solver].
    + repeat split; [done|by right|cbn [pend length] in *; lia|set_solver].
    + repeat split; auto. set_solver.
    + repeat split; auto; [cbn [pend] in *; lia|set_solver].
    + repeat split; auto. set_solver.
    + exfalso. cbn [pend] in Hw. destruct owed; [by apply elem_of_nil in Hin|cbn [length] in Hw; lia].
    + repeat split; auto. set_solver.
    + rewrite app_length in *. cbn [length] in *. repeat split.
      * unfold done_live. case_match; set_solver.
      * set_solver.
      * lia.
      * unfold done_event. case_match; set_solver.
    + rewrite app_length in *. cbn [length] in *. repeat split.
      * set_solver.
      * set_solver.
      * destruct p; cbn [is_reloading pend] in *; lia.
      * unfold done_event. repeat case_match; set_solver.
    + repeat split; [set_solver|done|done|set_solver].
    + repeat split; [set_solver|done|done|set_solver].
    + repeat split; [done|done|done|set_solver].
  - apply scount_pos. specialize (Ho t). lia.
  - lia.
Qed.

(* A refusal read while no reload runs is never taken off the counter: from then on no reload ends well, although every
   configuration was answered. *)
Lemma stray_blocks : forall tr s, rexec rst0 tr s -> (0 < strays tr)%nat -> forall tr' s', rexec s tr' s' -> VReturn true ∉ tr'.
Proof.
  intros tr s H Hlt. pose proof (rinv_exec _ _ H) as [Hr Hw Ho].
  set (P := fun s : rst => (wWg s >= 1 + Z.of_nat (length (wOwed s)) - pend (wPc s))%Z).
  intros tr' s' H'. apply (stuck_exec P) with (s := s) (s' := s'); [|unfold P; lia|done].
  clear. intros s l s' Hw Hs. unfold P in *. inversion Hs; subst; cbn [wPc wWg wOwed wLive pend length] in *;
    rewrite ?app_length in *; cbn [length] in *; (split; [try (destruct p; cbn [is_reloading pend] in * ); lia|]);
    unfold done_event; repeat case_match; try set_solver; lia.
Qed.

(* ---- witnesses ---- *)
Lemma rexec_cons s l s1 tr s2 : rstep s l s1 -> rexec s1 tr s2 -> rexec s (l ++ tr) s2.
Proof. intros H1 H2. eapply rexec_app; [|exact H2]. apply (rx_snoc s [] s l s1); [constructor|done]. Qed.
Ltac fwd H := eapply rexec_cons; [apply H; try (vm_compute; reflexivity); set_solver|].

(* two tunnels; a reload that goes well; before the answers the hypotheses of C52_finishes_partial hold *)
Notation good_before := (mkR RWait 2 ({[1]} ∪ ({[2]} ∪ ∅)) ({[1]} ∪ ({[2]} ∪ ∅)) [2; 1] false).
Notation good_trace := [VTau; VTau; VStart; VWrite 1; VTau; VWrite 2; VTau; VTau].
Lemma good_run : rexec rst0 good_trace good_before.
Proof.
  change good_trace with ([VTau] ++ [VTau] ++ [VStart] ++ [VWrite 1] ++ [VTau] ++ [VWrite 2] ++ [VTau] ++ [VTau] ++ [] : list revt).
  unfold rst0.
  fwd (r_ready 0 ∅ ∅ [] 2). fwd (r_ready 0 ({[2]} ∪ ∅) ({[2]} ∪ ∅) [] 1).
  fwd (r_start 0 ({[1]} ∪ ({[2]} ∪ ∅)) ({[1]} ∪ ({[2]} ∪ ∅)) [] [1; 2]).
  fwd r_write. fwd r_add. fwd r_write. fwd r_add. fwd r_wait. apply rx_nil.
Qed.
Theorem C52_finishes_witness : exists tr s, rexec rst0 tr s /\ wPc s = RWait /\ wExit s = false /\ strays tr = 0%nat /\
  (forall t, (answered t tr < written t tr)%nat -> t ∈ wLive s) /\ (answered 1 tr < written 1 tr)%nat /\ (answered 2 tr < written 2 tr)%nat.
Proof.
  exists good_trace, good_before. split; [exact good_run|]. split; [done|]. split; [done|]. split; [done|].
  split; [|by vm_compute].
  intros t Ht. pose proof (rinv_exec _ _ good_run) as [_ _ Ho]. cbn [wOwed wLive] in *.
  assert (t ∈ [2; 1]) by (apply scount_pos; specialize (Ho t); lia). set_solver.
Qed.

(* The answer overtakes the Add: the tunnel, whose reload was accepted by the server, is killed by the panic. *)
Theorem C52_early_answer_refuted : exists tr s t, rexec rst0 tr s /\ tr = [VTau; VStart; VWrite t; VAnswer t true; VPanic t] /\ t ∉ wLive s.
Proof.
  exists ([VTau] ++ [VStart] ++ [VWrite 1] ++ [VAnswer 1 true; VPanic 1] ++ []), (mkR (RWritten 1 []) (-1) (({[1]} ∪ ∅) ∖ {[1]}) ({[1]} ∪ ∅) [] false), 1.
  split; [|split; [done|set_solver]]. unfold rst0.
  fwd (r_ready 0 ∅ ∅ [] 1). fwd (r_start 0 ({[1]} ∪ ∅) ({[1]} ∪ ∅) [] [1]). fwd r_write.
  fwd (r_services (RWritten 1 []) 0 ({[1]} ∪ ∅) ({[1]} ∪ ∅) [] [] 1). apply rx_nil.
Qed.

(* First reload: written to tunnel 1, the write to tunnel 2 fails, so it returns the error; then tunnel 1 is told by the
   server that the configuration is refused.  Second reload: written to tunnel 3, answered.  Everything was answered, and
   the second reload cannot return. *)
Theorem C52_stray_refuted : exists tr s, rexec rst0 tr s /\ wPc s = RWait /\ wExit s = false /\
  (forall t, written t tr = answered t tr) /\ Forall (fun e => forall t, e <> VPanic t) tr /\
  forall tr' s', rexec s tr' s' -> VReturn true ∉ tr'.
Proof.
  set (tr := [VTau] ++ [VTau] ++ [VTau] ++ [VStart] ++ [VWrite 1] ++ [VTau] ++ [VReturn false] ++ [VAnswer 1 false] ++ [VDie 2] ++ [VTau] ++ [VTau]
       ++ [VStart] ++ [VWrite 3] ++ [VTau] ++ [VTau] ++ [VAnswer 3 true] ++ [] : list revt).
  set (S0 := ({[1]} ∪ ({[2]} ∪ ({[3]} ∪ ∅))) : gset N).
  set (L1 := (S0 ∖ {[1]}) ∖ {[2]}).
  assert (HL : L1 = {[3]}) by (apply set_eq; intros x; unfold L1, S0; set_solver).
  assert (H : rexec rst0 tr (mkR RWait 1 L1 L1 [] false)).
  { unfold tr, rst0.
    fwd (r_ready 0 ∅ ∅ [] 3). fwd (r_ready 0 ({[3]} ∪ ∅) ({[3]} ∪ ∅) [] 2).
    fwd (r_ready 0 ({[2]} ∪ ({[3]} ∪ ∅)) ({[2]} ∪ ({[3]} ∪ ∅)) [] 1). fold S0.
    eapply rexec_cons; [apply (r_start 0 S0 S0 [] [1; 2; 3]); apply NoDup_Permutation; [repeat constructor; set_solver|apply NoDup_elements|intros x; rewrite elem_of_elements; unfold S0; set_solver]|].
    fwd r_write. fwd r_add. fwd r_write_fails.
    eapply rexec_cons; [apply (r_error RNot 1 S0 S0 [] [] 1); unfold S0; set_solver|]. cbn [is_reloading].
    eapply rexec_cons; [apply (r_die RNot 1 _ S0 [] 2); unfold S0; set_solver|]. fold L1.
    eapply rexec_cons; [apply (r_removed 1 L1 S0 [] 1); rewrite HL; set_solver|].
    eapply rexec_cons; [apply (r_removed 1 L1 _ [] 2); rewrite HL; set_solver|]. fold L1.
    eapply rexec_cons; [apply (r_start 1 L1 L1 [] [3]); rewrite HL; by rewrite elements_singleton|].
    fwd r_write. fwd r_add. fwd r_wait.
    eapply rexec_cons; [apply (r_services RWait 2 L1 L1 [] [] 3); rewrite HL; set_solver|]. apply rx_nil. }
  exists tr, (mkR RWait 1 L1 L1 [] false). split; [exact H|]. split; [done|]. split; [done|]. split.
  { intros t. pose proof (rinv_exec _ _ H) as [_ _ Ho]. specialize (Ho t). cbn [wOwed] in Ho. change (scount t []) with 0%nat in Ho. lia. }
  split; [unfold tr; cbn [app]; repeat constructor; done|].
  apply (stray_blocks tr); [exact H|by vm_compute].
Qed.
