(* Props_Ready.v -- C47, the part that holds: nothing but a visitor's first frame before the first ready or services signal ends the client that way, whatever
   arrives (FrameModel: client/conn.go 169-374) *)
From Verif Require Import GoBase GoBaseLemmas BufioModel BufioProofs HandshakeModel HandshakeProofs FrameModel FrameSpec FrameProofs FrameProofsC FrameProofsD FrameInv Props_Frames.
Local Open Scope N_scope.

Definition no_signal (ev : list cevent) : Prop := CReady ∉ ev /\ CServices ∉ ev.
Definition ready_post (st : cstate) (r : cres) : Prop :=
  match r with
  | inl (st', ev) => (cSvcs st' = cSvcs st /\ no_signal ev) \/ cSvcs st' <> None
  | inr (why, ev) => (why = CsPanic -> cSvcs st = None) /\ no_signal ev
  end.
Lemma rp_inl st st' ev : cSvcs st' = cSvcs st -> no_signal ev -> ready_post st (inl (st', ev)).
Proof. intros H1 H2. by left. Qed.
Lemma rp_inr st why ev : why <> CsPanic -> no_signal ev -> ready_post st (inr (why, ev)).
Proof. intros H1 H2. by split. Qed.
Ltac ns := unfold no_signal; rewrite ?not_elem_of_cons; split_and!; (done || apply not_elem_of_nil).
Lemma rp_after st st' ev n re : cSvcs st' = cSvcs st -> no_signal ev -> always (ready_post st) (cli_after st' ev n re).
Proof.
  intros H1 H2. unfold cli_after. destruct re as [e|]; [by apply rp_inr|]. destruct (0 <? n); [|by apply rp_inl]. cbn [always]. intros [c [e|]]; [by apply rp_inr|by apply rp_inl].
Qed.
Lemma rp_service_data env st st' t s l : cSvcs st' = cSvcs st -> always (ready_post st) (cli_service_data env st' t s l).
Proof.
  intros H1. unfold cli_service_data. cbv zeta.
  assert (Hnormal : always (ready_post st) (match ce_dial env s with
    | None => cli_after st' [CDialFail t] l None
    | Some w =>
        if 0 <? l then
          PCopy l w (fun '(o, n', e, w') =>
            cli_after (with_tasks st' (<[t := w']> (cTasks st'))) [CNew t s; CDeliver t o] n' (read_err e))
        else cli_after (with_tasks st' (<[t := w]> (cTasks st'))) [CNew t s] l None
    end)).
  { destruct (ce_dial env s); [|apply rp_after; [done|ns]]. destruct (0 <? l); [|apply rp_after; [done|ns]]. intros [[[o' n] e] w']. apply rp_after; [done|ns]. }
  destruct (0 <? l); [|exact Hnormal]. cbn [always]. intros [d [e|]]; [apply rp_inr; [done|ns]|]. destruct (_ =? _); [|exact Hnormal].
  destruct (ce_stuns env); [|apply rp_after; [done|ns]]. destruct (ce_newpeer env); [|apply rp_after; [done|ns]]. intros [[[o' n] e] w']. apply rp_after; [done|ns].
Qed.
Lemma rp_data env st st' t l : cSvcs st' = cSvcs st -> always (ready_post st) (cli_data env st' t l).
Proof.
  intros H1. unfold cli_data. destruct (_ !! _).
  - intros [[[o' n] e] w']. apply rp_after; [done|ns].
  - destruct (ce_peer env t); [|apply rp_after; [done|ns]]. destruct (ce_stuns env); [|apply rp_after; [done|ns]]. intros [[[o' n] e] w']. apply rp_after; [done|ns].
Qed.
Lemma u16_le n : u16 n <= n.
Proof. unfold u16. apply N.mod_le. lia. Qed.
Lemma rp_iter env st : always (ready_post st) (cli_iter env st).
Proof.
  unfold cli_iter. cbv zeta. unfold with_tasks. cbn [cPings cLastPing cClosing cSvcs cTasks]. cbn [always].
  intros [d e]. destruct e as [[]|]; try (apply rp_inr; [done|ns]).
  { destruct (ce_ping_ok env); [apply rp_inl; [done|ns]|apply rp_inr; [done|ns]]. }
  cbn [always]. intros [c [e|]]; [apply rp_inr; [done|ns]|].
  match goal with |- context [pbind ?m _] => set (TF := m) end.
  assert (Htf : always (ready_post st) TF).
  { unfold TF. apply always_peekd; [intros; apply rp_inr; [done|ns]|]. intros ob. destruct (_ =? OpServicesData).
    - apply always_peekd; [intros; apply rp_inr; [done|ns]|]. intros ib. destruct (cSvcs st) as [svcs|] eqn:Es; [|by split; [|ns]].
      destruct (N.leb_spec (u16 (blen svcs)) (p16 ib)) as [Hl|Hl]; [apply rp_inr; [done|ns]|]. pose proof (u16_le (blen svcs)). destruct (nnth (p16 ib) svcs) eqn:En.
      + apply always_peekd; [intros; apply rp_inr; [done|ns]|]. intros lb. apply rp_service_data. done.
      + exfalso. unfold nnth in En. apply lookup_ge_None in En. unfold blen in *. lia.
    - destruct (_ =? OpData); [apply always_peekd; [intros; apply rp_inr; [done|ns]|]; intros lb; by apply rp_data|].
      destruct (_ =? OpClose); [|apply rp_inl; [done|ns]]. destruct (_ !! _); (apply rp_inl; [done|ns]). }
  clearbody TF.
  destruct (_ =? PingSignal).
  { destruct (cClosing st && _ && _); [apply rp_inr; [done|ns]|]. destruct (6 <=? _); [destruct (ce_wait env)|]; (apply rp_inl; [done|ns]). }
  destruct (_ =? CloseSignal).
  { destruct (cClosing st); [apply rp_inr; [done|ns]|]. destruct (bool_decide _); [apply rp_inr; [done|ns]|apply rp_inl; [done|ns]]. }
  destruct (_ =? ReconnectSignal).
  { eapply always_bind; [exact Htf|]. intros [[st' ev]|[why ev]] H; cbn [always ready_post] in *; [|destruct H as [H [H1 H2]]; split; [done|]; split; rewrite not_elem_of_cons; done].
    destruct H as [(H & H1 & H2)|H]; [left; split; [done|]; split; rewrite not_elem_of_cons; done|by right]. }
  destruct (_ =? ReadySignal); [by right|]. destruct (_ =? ServicesSignal); [by right|].
  destruct (_ =? ErrorSignal).
  { apply always_peekd; [intros; apply rp_inr; [done|ns]|]. intros cb. destruct (_ =? 2); [|apply rp_inr; [done|ns]]. apply always_peekd; intros; (apply rp_inr; [done|ns]). }
  destruct (_ =? InfoSignal); [|exact Htf].
  apply always_peekd; [intros; apply rp_inr; [done|ns]|]. intros cb. destruct (_ =? 1); [|apply rp_inl; [done|ns]].
  apply always_peekd; [intros; apply rp_inr; [done|ns]|]. intros sb2. apply always_peekd; [intros; apply rp_inr; [done|ns]|]. intros pb. apply rp_inl; [done|ns].
Qed.
Lemma rp_loop envs : forall st, always (fun '(o, evs) => o = CStopped CsPanic -> cSvcs st = None /\ no_signal evs) (cli_loop envs st).
Proof.
  induction envs as [|env envs IH]; intros st; cbn [cli_loop]; [done|]. destruct (3 <? cPings st)%Z; [done|].
  eapply always_bind; [apply rp_iter|]. intros [[st' ev]|[why ev]]; cbn [ready_post].
  - intros H. eapply always_bind; [apply IH|]. intros [o evs] Ho. cbn [always]. intros E. destruct (Ho E) as [H1 [H2 H3]]. destruct H as [[H [H4 H5]]|H]; [|done].
    split; [congruence|]. split; rewrite not_elem_of_app; done.
  - intros [H1 H2]. cbn [always]. intros [= ->]. split; [by apply H1|done].
Qed.
(* Whatever bytes arrive and however they are cut, a client that panics on its services had them not yet: no ready and no services signal had been read. *)
Theorem C47_only_before_ready_partial envs st s evs s' : s_run (cli_loop envs st) s = ((CStopped CsPanic, evs), s') -> cSvcs st = None /\ CReady ∉ evs /\ CServices ∉ evs.
Proof.
  intros H. pose proof (always_run _ _ s (rp_loop envs st)) as G. rewrite H in G. cbn [fst] in G. by apply G.
Qed.
(* So a client whose first signal is the ready signal is safe from then on, *)
Theorem C47_after_ready_partial env envs st rest : (cPings st <= 3)%Z -> fst (fst (s_run (cli_loop (env :: envs) st) (map B (enc_frame (FSignal ReadySignal)) ++ rest))) <> CStopped CsPanic.
Proof.
  intros Hp E. destruct (s_run (cli_loop (env :: envs) st) (map B (enc_frame (FSignal ReadySignal)) ++ rest)) as [[o evs] s'] eqn:H. cbn [fst] in E. subst o.
  cbn [cli_loop] in H. destruct (3 <? cPings st)%Z eqn:H3; [lia|]. rewrite s_run_bind in H. rewrite cli_iter_frame in H; [| |done].
  2:{ split; [done|]. split; [done|]. right. by left. }
  cbn [cli_effect] in H. change (ReadySignal =? PingSignal) with false in H. cbn iota in H. rewrite s_run_bind in H.
  destruct (s_run (cli_loop envs _) rest) as [[o2 evs2] s2] eqn:H2. cbn [s_run] in H. injection H as -> _ _. apply C47_only_before_ready_partial in H2 as [H2 _]. done.
Qed.
(* and a panic is caused by the head of such a frame. *)
Definition no_panic (r : cres) : Prop := match r with inl _ => True | inr (why, _) => why <> CsPanic end.
Lemma np_after st ev n re : always no_panic (cli_after st ev n re).
Proof. unfold cli_after. destruct re as [e|]; [done|]. destruct (0 <? n); [|done]. cbn [always]. by intros [c [e|]]. Qed.
Lemma np_data env st t l : always no_panic (cli_data env st t l).
Proof.
  unfold cli_data. destruct (_ !! _); [intros [[[o' n] e] w']; apply np_after|]. destruct (ce_peer env t); [|apply np_after]. destruct (ce_stuns env); [|apply np_after]. intros [[[o' n] e] w']. apply np_after.
Qed.
Theorem C47_cause_partial env st s ev s' : s_run (cli_iter env st) s = (inr (CsPanic, ev), s') ->
  cSvcs st = None /\ exists d1 d2 d3, s = map B (d1 ++ d2 ++ d3) ++ s' /\ blen d1 = 4 /\ blen d2 = 2 /\ blen d3 = 2 /\ p16 d2 = OpServicesData.
Proof.
  intros H. pose proof (always_run _ _ s (rp_iter env st)) as G. rewrite H in G. cbn [fst ready_post] in G. destruct G as [G _]. specialize (G eq_refl). split; [done|].
  unfold cli_iter in H. cbv zeta in H. unfold with_tasks in H. cbn [cPings cLastPing cClosing cSvcs cTasks] in H. cbn [s_run] in H. unfold s_peek in H.
  destruct (s_take (N.to_nat 4) s) as [[d1 e] s1] eqn:Ht. destruct e as [e|].
  { exfalso. destruct e; cbn [s_run] in H; try (destruct (ce_ping_ok env)); discriminate H. }
  apply s_take_none in Ht as [-> Hl1]. cbn [s_run] in H. assert (Hb1 : blen d1 = 4) by (unfold blen; lia). rewrite s_discard_full in H by done.
  match type of H with context [pbind ?x _] => set (TF := x) in H end.
  assert (Htf : forall ev s', s_run TF s1 = (inr (CsPanic, ev), s') -> exists d2 d3, s1 = map B (d2 ++ d3) ++ s' /\ blen d2 = 2 /\ blen d3 = 2 /\ p16 d2 = OpServicesData).
  { clear H ev s'. intros ev s' H. unfold TF in H. apply s_run_peekd_inv in H as [(e & s2 & H & _)|(d2 & s2 & -> & Hd2 & H)]; [done|].
    destruct (N.eqb_spec (p16 d2) OpServicesData) as [Hop|Hop].
    - apply s_run_peekd_inv in H as [(e & s3 & H & _)|(d3 & s3 & -> & Hd3 & H)]; [done|]. rewrite G in H. injection H as <- <-.
      exists d2, d3. rewrite !map_app, <- !app_assoc. repeat split; try done; lia.
    - exfalso. destruct (_ =? OpData).
      + apply s_run_peekd_inv in H as [(e & s3 & H & _)|(d3 & s3 & -> & Hd3 & H)]; [done|].
        match type of H with s_run (cli_data ?e ?st ?t ?l) _ = _ => pose proof (np_data e st t l) as Ho end. apply (always_run _ _ s3) in Ho. rewrite H in Ho. cbn in Ho. done.
      + destruct (_ =? OpClose); [destruct (_ !! _)|]; done. }
  assert (Hfin : (exists ev0, s_run TF s1 = (inr (CsPanic, ev0), s')) -> exists d1' d2 d3, map B d1 ++ s1 = map B (d1' ++ d2 ++ d3) ++ s' /\ blen d1' = 4 /\ blen d2 = 2 /\ blen d3 = 2 /\ p16 d2 = OpServicesData).
  { intros [ev0 H0]. apply Htf in H0 as (d2 & d3 & -> & H2). exists d1, d2, d3. rewrite !map_app, <- !app_assoc. done. }
  destruct (_ =? PingSignal); [destruct (cClosing st && _ && _); [done|]; destruct (6 <=? _); done|].
  destruct (_ =? CloseSignal); [destruct (cClosing st); [done|]; destruct (bool_decide _); done|].
  destruct (_ =? ReconnectSignal).
  { apply Hfin. rewrite s_run_bind in H. destruct (s_run TF s1) as [[[st' ev']|[why ev']] s2] eqn:E; cbn [s_run] in H; [done|]. injection H as -> <- <-. by exists ev'. }
  destruct (_ =? ReadySignal); [done|]. destruct (_ =? ServicesSignal); [done|].
  destruct (_ =? ErrorSignal).
  { apply s_run_peekd_inv in H as [(e & s2 & H & _)|(d2 & s2 & -> & Hd2 & H)]; [done|]. destruct (_ =? 2); [|done]. apply s_run_peekd_inv in H as [(e & s3 & H & _)|(d3 & s3 & -> & Hd3 & H)]; done. }
  destruct (_ =? InfoSignal); [|apply Hfin; by exists ev].
  apply s_run_peekd_inv in H as [(e & s2 & H & _)|(d2 & s2 & -> & Hd2 & H)]; [done|]. destruct (_ =? 1); [|done].
  apply s_run_peekd_inv in H as [(e & s3 & H & _)|(d3 & s3 & -> & Hd3 & H)]; [done|]. apply s_run_peekd_inv in H as [(e & s4 & H & _)|(d4 & s4 & -> & Hd4 & H)]; done.
Qed.
Theorem C47_witness : let env := mkCenv true true ex_svcs [] (fun _ => None) false (fun _ => Some None) None in let st := mkCstate 0 0 false None ∅ in
  fst (s_run (cli_loop [env; env] st) (map B (wire [FSignal ReadySignal; FServices 7 0 [65; 66]]))) = (CRunning (mkCstate 0 0 false (Some ex_svcs) {[7 := None]}), [CReady; CNew 7 (ex_svc 97); CDeliver 7 [65; 66]]) /\
  fst (s_run (cli_loop [env; env] st) (map B (wire [FServices 7 0 [65; 66]; FSignal ReadySignal]))) = (CStopped CsPanic, []).
Proof. split; vm_compute; reflexivity. Qed.
