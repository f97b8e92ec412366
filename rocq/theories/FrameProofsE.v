(* FrameProofsE.v -- static conditions on the frames; inversions for arbitrary streams *)
From Verif Require Import GoBase GoBaseLemmas BufioModel BufioProofs HandshakeModel HandshakeProofs FrameModel FrameSpec FrameProofs FrameProofsC FrameProofsD.
Local Open Scope N_scope.

Lemma be32_bytes v : all_bytes (be32 v).
Proof. unfold be32, all_bytes, is_byte, u8. repeat (apply Forall_cons_2; [lia|]). by apply Forall_nil_2. Qed.
Lemma be16_bytes v : all_bytes (be16 v).
Proof. unfold be16, all_bytes, is_byte, u8. repeat (apply Forall_cons_2; [lia|]). by apply Forall_nil_2. Qed.
Lemma all_bytes_app a b : all_bytes a -> all_bytes b -> all_bytes (a ++ b).
Proof. intros. by apply Forall_app. Qed.
Lemma enc_frame_bytes f : frame_bytes f -> all_bytes (enc_frame f).
Proof.
  intros H. destruct f; cbn [enc_frame frame_bytes] in *; repeat apply all_bytes_app; auto using be32_bytes, be16_bytes.
Qed.
Lemma wire_bytes fs : Forall frame_bytes fs -> all_bytes (wire fs).
Proof.
  induction 1 as [|f fs Hf _ IH]; [by apply Forall_nil_2|]. rewrite wire_cons. apply all_bytes_app; [|done].
  by apply enc_frame_bytes.
Qed.
Lemma honest_server_bytes svcs fs : Forall (honest_server svcs) fs -> Forall frame_bytes fs.
Proof. intros Hf. eapply Forall_impl; [exact Hf|]. intros f [_ H]. destruct f; cbn in *; try done. tauto. Qed.
Lemma honest_client_bytes fs : Forall honest_client fs -> Forall frame_bytes fs.
Proof. intros Hf. eapply Forall_impl; [exact Hf|]. intros f [_ H]. destruct f; cbn in *; try done. tauto. Qed.

Lemma cli_effect_up svcs env envs st f : client_up svcs (env :: envs) st -> honest_server svcs f ->
  server_frame env st f /\ client_up svcs envs (fst (cli_effect env st f)).
Proof.
  intros (Hsv & Hcl & Hp & Hes) [Hok Hf]. apply Forall_cons_1 in Hes as [He Hes]. split.
  - split; [done|]. split; [done|]. destruct f as [t si p|t p|t|sg|c|si|si port]; cbn in *; try done.
    + destruct Hf as (? & ? & ?). eauto.
    + destruct Hf as [->|[->| ->]]; auto.
  - unfold client_up. unfold cli_effect. rewrite Hsv, ?Hcl.
    destruct f as [t si p|t p|t|sg|c|si|si port]; cbn in Hf; try done.
    + destruct (nnth si svcs); [|done]. destruct (is_p2p p).
      * destruct (ce_stuns env); [|done]. destruct (ce_newpeer env); done.
      * destruct (ce_dial env s); done.
    + destruct (acts _ _ !! t); [done|]. destruct (ce_peer env t); done.
    + destruct (acts _ _ !! t); done.
    + destruct (sg =? PingSignal).
      * destruct (_ <=? _); cbn [fst cSvcs cClosing cPings]; repeat split; try done; lia.
      * cbn [fst cSvcs cClosing cPings]. rewrite He. done.
Qed.
Lemma honest_server_frames svcs : forall envs fs st, length envs = length fs ->
  client_up svcs envs st -> Forall (honest_server svcs) fs -> server_frames envs st fs.
Proof.
  induction envs as [|env envs IH]; intros [|f fs] st Hl Hu Hf; try done.
  apply Forall_cons_1 in Hf as [Hf1 Hf]. destruct (cli_effect_up svcs env envs st f Hu Hf1) as [H1 H2].
  split; [done|]. apply IH; [cbn in Hl; lia|done|done].
Qed.
Lemma honest_client_frames deadline : forall envs fs st, length envs = length fs ->
  server_up envs -> Forall honest_client fs -> client_frames deadline envs st fs.
Proof.
  induction envs as [|env envs IH]; intros [|f fs] st Hl Hu Hf; try done.
  apply Forall_cons_1 in Hf as [[Hok Hf1] Hf]. apply Forall_cons_1 in Hu as [Hu1 Hu]. split.
  - split; [done|]. destruct f; try done; cbn in *; left; tauto.
  - apply IH; [cbn in Hl; lia|done|done].
Qed.

(* what reaches a task depends on its own frames and its own destination only *)
Lemma srv_task_view t : forall envs st fs, length envs = length fs ->
  Forall (fun e => leaves_alone t (se_acts e)) envs ->
  s_delivered t (snd (srv_effects envs st fs)) = task_view (sTasks st !! t) (frames_of t fs).
Proof.
  induction envs as [|env envs IH]; intros st [|f fs] Hl Ha; try done.
  apply Forall_cons_1 in Ha as [Ha1 Ha]. rewrite srv_effects_cons_delivered, frames_of_cons.
  assert (Hl' : length envs = length fs) by (cbn in Hl; lia). rewrite IH by done.
  pose proof (acts_alone t (se_acts env) (sTasks st) Ha1) as Hm.
  case_decide as Hft.
  - destruct f as [t' si p|t' p|t'|sg|c|si|si port]; cbn [frame_task] in Hft; try done; injection Hft as ->.
    + unfold srv_effect. cbn [fst snd sTasks task_view]. rewrite Hm. done.
    + unfold srv_effect. rewrite Hm. cbn [task_view]. destruct (sTasks st !! t) as [w|] eqn:Hw; cbn [fst snd sTasks].
      * rewrite s_delivered_self, lookup_insert. done.
      * rewrite Hm. done.
    + unfold srv_effect. rewrite Hm. cbn [task_view]. destruct (sTasks st !! t) as [w|] eqn:Hw; cbn [fst snd sTasks].
      * rewrite lookup_insert. done.
      * rewrite Hm. done.
  - destruct (srv_effect_ne t env st f Hft) as [-> ->]. rewrite Hm. done.
Qed.
(* the same on the client, for a task that already exists *)
Lemma cli_task_view t : forall envs st fs, server_frames envs st fs ->
  Forall (fun e => leaves_alone t (ce_acts e)) envs -> 
  Forall (fun f => forall si p, f <> FServices t si p) (frames_of t fs) ->
  c_delivered t (snd (cli_effects envs st fs)) = task_view (cTasks st !! t) (frames_of t fs).
Proof.
  induction envs as [|env envs IH]; intros st [|f fs] Hs Ha Hns; try done.
  apply Forall_cons_1 in Ha as [Ha1 Ha]. destruct Hs as [Hs1 Hs].
  rewrite cli_effects_cons, c_delivered_app, frames_of_cons. rewrite frames_of_cons in Hns.
  rewrite IH; [|done|done|case_decide; [by apply Forall_cons_1 in Hns as [_ ?]|done]].
  pose proof (acts_alone t (ce_acts env) (cTasks st) Ha1) as Hm.
  case_decide as Hft.
  - destruct f as [t' si p|t' p|t'|sg|c|si|si port]; cbn [frame_task] in Hft; try done; injection Hft as ->.
    + apply Forall_cons_1 in Hns as [Hns _]. by destruct (Hns si p).
    + unfold cli_effect. rewrite Hm. cbn [task_view]. destruct (cTasks st !! t) as [w|] eqn:Hw; cbn [fst snd cTasks].
      * rewrite c_delivered_self, lookup_insert. done.
      * destruct (ce_peer env t); cbn [fst snd cTasks]; rewrite Hm; [|done]. by destruct (ce_stuns env).
    + unfold cli_effect. rewrite Hm. cbn [task_view]. destruct (cTasks st !! t) as [w|] eqn:Hw; cbn [fst snd cTasks].
      * rewrite lookup_insert. done.
      * rewrite Hm. done.
  - destruct (cli_effect_ne t env st f Hs1 Hft) as [-> Ho]. rewrite (c_other_delivered _ _ Ho), Hm. done.
Qed.

(* ---- a visitor's whole life on the client ---- *)
Lemma is_p2p_ntake n p : 2 <= n -> is_p2p (ntake n p) = is_p2p p.
Proof.
  intros Hn. unfold ntake. replace (N.to_nat n) with (S (S (N.to_nat (n - 2)))) by lia.
  destruct p as [|a [|b p]]; done.
Qed.
Lemma cli_visitor t si p ps tl svcs s w : (tl = [] \/ tl = [FClose t]) -> forall envs st fs,
  length envs = length fs -> client_up svcs envs st -> Forall (honest_server svcs) fs ->
  nnth si svcs = Some s -> is_p2p p = false ->
  Forall (fun e => leaves_alone t (ce_acts e)) envs -> Forall (fun e => ce_dial e s = Some w) envs ->
  frames_of t fs = FServices t si p :: map (FData t) ps ++ tl ->
  let evs := snd (cli_effects envs st fs) in
  c_delivered t evs = w_take w (p ++ concat ps) /\ (forall s', CNew t s' ∈ evs <-> s' = s).
Proof.
  intros Htl. induction envs as [|env envs IH]; intros st [|f fs] Hl Hu Hf Hsi Hp2 Ha Hd Hfs; try done.
  cbv zeta. pose proof (honest_server_frames svcs (env :: envs) (f :: fs) st Hl Hu Hf) as [Hs1 Hs].
  apply Forall_cons_1 in Hf as [Hf1 Hf]. apply Forall_cons_1 in Ha as [Ha1 Ha]. apply Forall_cons_1 in Hd as [Hd1 Hd].
  pose proof (cli_effect_up svcs env envs st f Hu Hf1) as [_ Hu'].
  assert (Hl' : length envs = length fs) by (cbn in Hl; lia).
  rewrite cli_effects_cons, c_delivered_app. rewrite frames_of_cons in Hfs. case_decide as Hft.
  - injection Hfs as -> Hrest. destruct Hu as (Hsv & _).
    assert (Hnew : cli_effect env st (FServices t si p) =
      (mkCstate (cPings st) 0 (cClosing st) (cSvcs st) (<[t := w_after w p]> (acts (ce_acts env) (cTasks st))),
       CNew t s :: (if decide (p = []) then [] else [CDeliver t (w_take w p)]))).
    { unfold cli_effect. rewrite Hsv, Hsi, Hp2, Hd1. done. }
    rewrite Hnew in *. cbn [fst snd] in *. set (st1 := mkCstate _ _ _ _ _) in *.
    assert (Hdel : c_delivered t (snd (cli_effects envs st1 fs)) = w_take (w_after w p) (concat ps)).
    { eapply (cli_deliver_cap t tl); try done. subst st1. cbn. apply lookup_insert. }
    assert (Hno : Forall (fun f => forall si p, f <> FServices t si p) (frames_of t fs)).
    { apply (no_services t ps tl); [done|]. rewrite Hrest. done. }
    assert (Hnn : forall s', CNew t s' ∉ snd (cli_effects envs st1 fs)).
    { clear - Hs Hno. revert fs Hs Hno. generalize st1. clear st1.
      clear env st p w; induction envs as [|env envs IH]; intros st1 [|f fs] Hs Hno s'; try (apply not_elem_of_nil).
      destruct Hs as [Hs1 Hs]. rewrite cli_effects_cons, not_elem_of_app. rewrite frames_of_cons in Hno. split.
      - case_decide as Hft.
        + apply Forall_cons_1 in Hno as [Hno _].
          destruct f as [t' si p|t' p|t'|sg|c|si|si port]; cbn [frame_task] in Hft; try done; injection Hft as ->.
          * by destruct (Hno si p).
          * unfold cli_effect. destruct (acts _ _ !! t); cbn [snd]; [set_solver|].
            destruct (ce_peer env t); cbn [snd]; [destruct (ce_stuns env); set_solver|apply not_elem_of_nil].
          * unfold cli_effect. destruct (acts _ _ !! t); cbn [snd]; [set_solver|apply not_elem_of_nil].
        + destruct (cli_effect_ne t env st1 f Hs1 Hft) as [_ Ho]. intros Hin.
          rewrite Forall_forall in Ho. apply Ho in Hin. by cbn in Hin.
      - apply IH; [done|]. case_decide; [by apply Forall_cons_1 in Hno as [_ ?]|done]. }
    split.
    + rewrite Hdel, w_take_app. f_equal. case_decide as Hp; [subst p; rewrite w_take_nil; done|].
      change (CNew t s :: [CDeliver t (w_take w p)]) with ([CNew t s] ++ [CDeliver t (w_take w p)]).
      rewrite c_delivered_app, c_delivered_self. done.
    + intros s'. rewrite elem_of_app. specialize (Hnn s'). split.
      * intros [Hin|Hin]; [|done]. case_decide; set_solver.
      * intros ->. left. set_solver.
  - destruct (cli_effect_ne t env st f Hs1 Hft) as [_ Ho]. rewrite (c_other_delivered _ _ Ho). cbn [app].
    specialize (IH _ fs Hl' Hu' Hf Hsi Hp2 Ha Hd Hfs) as [H1 H2]. split; [done|].
    intros s'. rewrite elem_of_app, H2. split; [|by right]. intros [Hin|Hin]; [|done].
    rewrite Forall_forall in Ho. apply Ho in Hin. by cbn in Hin.
Qed.
Lemma cli_visitor_prefix t si p ps : forall envs st fs, server_frames envs st fs ->
  Forall (fun e => only_stops t (ce_acts e)) envs -> dead (cTasks st !! t) ->
  frames_of t fs `prefix_of` FServices t si p :: map (FData t) ps ++ [FClose t] ->
  c_delivered t (snd (cli_effects envs st fs)) `prefix_of` p ++ concat ps.
Proof.
  induction envs as [|env envs IH]; intros st [|f fs] Hs Ha Hdead Hfs; try (apply prefix_nil).
  apply Forall_cons_1 in Ha as [Ha1 Ha]. destruct Hs as [Hs1 Hs]. rewrite cli_effects_cons, c_delivered_app.
  rewrite frames_of_cons in Hfs. case_decide as Hft.
  - apply prefix_cons_inv_1 in Hfs as Hff. subst f. apply prefix_cons_inv_2 in Hfs.
    assert (Hns : Forall (fun f => forall si p, f <> FServices t si p) (frames_of t fs)).
    { apply (no_services t ps [FClose t]); [by right|done]. }
    assert (Hd' : dead (acts (ce_acts env) (cTasks st) !! t)) by (by apply acts_dead).
    unfold cli_effect in *. destruct (cSvcs st) as [svcs|]; cbn [fst snd] in *.
    2:{ rewrite (cli_dead t); [apply prefix_nil|done|done|done|done]. }
    destruct (nnth si svcs) as [s|] eqn:Hn; cbn [fst snd] in *.
    2:{ rewrite (cli_dead t); [apply prefix_nil|done|done|done|done]. }
    destruct (is_p2p p).
    { assert (Hd2 : forall evs st1, cTasks st1 = acts (ce_acts env) (cTasks st) -> server_frames envs st1 fs ->
        c_delivered t evs = [] -> c_delivered t evs ++ c_delivered t (snd (cli_effects envs st1 fs)) `prefix_of` p ++ concat ps).
      { intros evs st1 H1 H2 ->. rewrite (cli_dead t); [apply prefix_nil|done|done|done|by rewrite H1]. }
      destruct (ce_stuns env); [destruct (ce_newpeer env)|]; apply Hd2; done. }
    destruct (ce_dial env s) as [w|]; cbn [fst snd] in *.
    2:{ rewrite (cli_dead t); [apply prefix_nil|done|done|done|done]. }
    assert (Hhd : c_delivered t (CNew t s :: (if decide (p = []) then [] else [CDeliver t (w_take w p)])) = w_take w p).
    { case_decide as Hp; [subst p; by rewrite w_take_nil|].
      change (CNew t s :: [CDeliver t (w_take w p)]) with ([CNew t s] ++ [CDeliver t (w_take w p)]).
      by rewrite c_delivered_app, c_delivered_self. }
    rewrite Hhd. destruct w as [k|].
    + destruct (decide (k < blen p)) as [Hk|Hk].
      * rewrite (cli_dead t); [|done|done|done|cbn [cTasks]; rewrite lookup_insert; right; by rewrite w_after_some].
        rewrite app_nil_r. apply prefix_app_r, w_take_prefix.
      * rewrite w_take_some by lia. apply prefix_app. by apply cli_deliver_prefix.
    + apply prefix_app. by apply cli_deliver_prefix.
  - destruct (cli_effect_ne t env st f Hs1 Hft) as [Hk Ho]. rewrite (c_other_delivered _ _ Ho). cbn [app].
    apply IH; [done|done| |done]. rewrite Hk. by apply acts_dead.
Qed.
