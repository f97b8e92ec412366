(* Props_LocalTold.v -- C104: what the client does about a visitor whose service it cannot reach (FrameModel: client/conn.go 318-334, 419-421, 460-484) *)
From Verif Require Import GoBase FrameModel FrameSpec FrameProofs FrameProofsC.
Local Open Scope N_scope.

Definition about (t : N) (e : cevent) : Prop :=
  match e with CNew t' _ | CDialFail t' | CDeliver t' _ | CPeer t' _ | CForbidden t' | CCloseTask t' => t' = t | _ => False end.
(* The service takes no connection, and nothing else of the client is concerned with t. *)
Definition unreachable (t : N) (env : cenv) : Prop := (forall s, ce_dial env s = None) /\ ce_peer env t = None /\ leaves_alone t (ce_acts env).
Definition plain_frame (t : N) (f : frame) : Prop := match f with FServices t' _ p => t' = t -> is_p2p p = false | _ => True end.
Lemma effect_about t env st f : unreachable t env -> plain_frame t f -> cTasks st !! t = None ->
  cTasks (cli_effect env st f).1 !! t = None /\ forall e, e ∈ snd (cli_effect env st f) -> about t e -> e = CDialFail t.
Proof.
  intros (Hd & Hp & Ha) Hf Hn. assert (Hm : acts (ce_acts env) (cTasks st) !! t = None) by (rewrite (acts_alone t); done).
  assert (K : forall st' (l : list cevent), cTasks st' !! t = None -> (forall e, e ∈ l -> about t e -> e = CDialFail t) -> cTasks (fst (st', l)) !! t = None /\ forall e, e ∈ snd (st', l) -> about t e -> e = CDialFail t) by (intros; by split).
  destruct f as [t' si p|t' p|t'|s|c|si|si po]; cbn [cli_effect plain_frame] in *.
  - destruct (cSvcs st) as [svcs|]; [|apply K; [done|by intros e ?%elem_of_nil]]. destruct (nnth si svcs) as [s|]; [|apply K; [done|by intros e ?%elem_of_nil]]. rewrite Hd. destruct (is_p2p p) eqn:Ep.
    + assert (Ht : t' <> t) by (intros Et; specialize (Hf Et); congruence). destruct (ce_stuns env), (ce_newpeer env); (apply K; [done|]); intros e He Hab; apply elem_of_list_singleton in He as ->; by destruct (Ht Hab).
    + apply K; [done|]. intros e He Hab. apply elem_of_list_singleton in He as ->. cbn in Hab. by subst.
  - destruct (_ !! t') as [w|] eqn:Et.
    + assert (Ht : t' <> t) by (intros ->; congruence). apply K; [cbn; by rewrite lookup_insert_ne|]. intros e He Hab. apply elem_of_list_singleton in He as ->. by destruct (Ht Hab).
    + destruct (ce_peer env t') as [w|] eqn:Ew; [|apply K; [done|by intros e ?%elem_of_nil]]. assert (Ht : t' <> t) by (intros ->; congruence). apply K; [done|]. intros e He Hab. apply elem_of_list_singleton in He as ->. destruct (ce_stuns env); by destruct (Ht Hab).
  - destruct (_ !! t') as [w|] eqn:Et; [|apply K; [done|by intros e ?%elem_of_nil]]. assert (Ht : t' <> t) by (intros ->; congruence). apply K; [cbn; by rewrite lookup_insert_ne|]. intros e He Hab. apply elem_of_list_singleton in He as ->. by destruct (Ht Hab).
  - destruct (s =? PingSignal); [destruct (6 <=? _)|]; (apply K; [done|]); intros e He Hab; repeat (apply elem_of_cons in He as [-> | He]; [by try destruct (s =? ReadySignal)|]); try (destruct (ce_wait env); repeat (apply elem_of_cons in He as [-> | He]; [done|])); by apply elem_of_nil in He.
  - apply K; [done|by intros e ?%elem_of_nil].
  - apply K; [done|by intros e ?%elem_of_nil].
  - apply K; [done|]. intros e He Hab. by apply elem_of_list_singleton in He as ->.
Qed.
(* Whatever else goes through the tunnel, before, between and after: all that ever happens about a visitor whose service takes no connection is that the client notes it; there is no message about it to the server. *)
Theorem C104_not_told_refuted t fs : forall envs st, Forall (unreachable t) envs -> Forall (plain_frame t) fs -> cTasks st !! t = None ->
  forall e, e ∈ snd (cli_effects envs st fs) -> about t e -> e = CDialFail t.
Proof.
  induction fs as [|f fs IH]; intros [|env envs] st Hu Hf Hn e He Hab; cbn [cli_effects] in He; try (by apply elem_of_nil in He). apply Forall_cons_1 in Hu as [Hu1 Hu]. apply Forall_cons_1 in Hf as [Hf1 Hf].
  destruct (effect_about t env st f Hu1 Hf1 Hn) as [E1 E2]. destruct (cli_effect env st f) as [st' ev]. cbn [fst snd] in *. pose proof (IH envs st' Hu Hf E1) as K. destruct (cli_effects envs st' fs) as [st'' evs]. cbn [snd] in *.
  apply elem_of_app in He as [He|He]; auto.
Qed.
(* a visitor that says GET, and goes on; a ping in between *)
Theorem C104_not_told_witness : forall sv, let env := mkCenv true false [sv] [] (fun _ => None) true (fun _ => None) None in
  let fs := [FServices 5 0 [71; 69; 84]; FSignal PingSignal; FData 5 [32; 47]; FClose 5] in
  Forall (unreachable 5) (replicate 4 env) /\ Forall (plain_frame 5) fs /\ snd (cli_effects (replicate 4 env) (mkCstate 0 0 false (Some [sv]) ∅) fs) = [CDialFail 5; CPong].
Proof.
  intros sv env fs. split; [|split].
  - repeat constructor; done.
  - repeat constructor; done.
  - reflexivity.
Qed.
