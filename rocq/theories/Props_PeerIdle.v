(* Props_PeerIdle.v -- C72: the process of a peer-to-peer visitor ends when, and only when, it is idle *)
From Verif Require Import GoBase GoBaseLemmas PeerIdleModel.
Local Open Scope N_scope.

(* ---- in terms of what happened ---- *)
#[global] Instance pev_dec : EqDecision pev. Proof. solve_decision. Defined.
#[global] Instance pend_dec : EqDecision pend. Proof. solve_decision. Defined.
#[global] Instance pst_dec : EqDecision pst. Proof. solve_decision. Defined.
Definition count (e : pev) (tr : list pev) : N := N.of_nat (length (filter (fun x => x = e) tr)).
Definition seconds (tr : list pev) : N := count PTick tr.
Definition channels (tr : list pev) : N := count POpen tr - count PDone tr.      (* data channels that are open *)
Definition quiet (tr : list pev) : Prop := POpen ∉ tr /\ PDone ∉ tr /\ PMsg ∉ tr.
(* the timer fires when it is due: no second passes before it has *)
Definition timely (T : N) (tr : list pev) : Prop := forall tr1 tr2 s, tr = tr1 ++ PTick :: tr2 -> prun T tr1 = Some s -> pNow s < pStart s + T.

Lemma prun_snoc T tr e : prun T (tr ++ [e]) = prun T tr ≫= fun s => pstep T s e. Proof. unfold prun. by rewrite fold_left_app. Qed.
Lemma count_snoc e tr x : count e (tr ++ [x]) = count e tr + (if decide (x = e) then 1 else 0).
Proof. unfold count. rewrite filter_app, app_length. cbn. destruct (decide (x = e)); cbn; lia. Qed.

(* what the state says about the past *)
Record pinv (T : N) (tr : list pev) (s : pst) : Prop := {
  i_count : pCount s + count PDone tr = count POpen tr;
  i_now : pNow s = seconds tr;
  i_start : pStart s <= pNow s;
  i_seen : pSeen s <= pNid s;
  (* the timer was set at a moment of the past; since then no message; and if a channel has been open since, the number has changed or one is open *)
  i_past : exists tr0 tr1, tr = tr0 ++ tr1 /\ seconds tr0 = pStart s /\ PMsg ∉ tr1 /\
           (pCount s = 0 -> pSeen s = pNid s -> forall a b, tr1 = a ++ b -> channels (tr0 ++ a) = 0) }.
Ltac cnt := unfold channels, seconds in *; rewrite ?count_snoc; repeat (case_decide; try done); cbn; try lia.
Ltac notin := apply not_elem_of_app; split; [done|by apply not_elem_of_cons; split; [|apply not_elem_of_nil]].
Lemma pinv_run T tr s : prun T tr = Some s -> pinv T tr s.
Proof.
  revert s. induction tr as [|e tr IH] using rev_ind; intros s.
  - intros [= <-]. split; try done. exists [], []. split_and!; try done; [apply not_elem_of_nil|]. intros _ _ [|] b; done.
  - rewrite prun_snoc. intros (s1 & H1 & He)%bind_Some. pose proof (IH s1 H1) as I. unfold pstep in He. destruct (pEnded s1) eqn:E1; [done|].
    assert (forall tr1 a b, tr1 ++ [e] = a ++ b -> b = [] /\ a = tr1 ++ [e] \/ exists b', b = b' ++ [e] /\ tr1 = a ++ b') as Hsplit.
    { intros tr1 a b E. destruct b as [|x b' _] using rev_ind; [left; by rewrite app_nil_r in E|]. right. rewrite app_assoc in E. apply app_inj_tail in E as [-> ->]. by exists b'. }
    destruct I as [Ic In Is Ie (tr0 & tr1 & -> & Hs & Hm & Hp)].
    destruct e; cbn in He.
    + injection He as <-. split; cbn; [cnt..|].
      exists tr0, (tr1 ++ [POpen]). split_and!; [by rewrite app_assoc|done|notin|]. lia.
    + destruct (N.eqb_spec (pCount s1) 0); [done|]. injection He as <-. split; cbn; [cnt..| |]; [case_match; lia|].
      exists tr0, (tr1 ++ [PDone]). split_and!; [by rewrite app_assoc|done|notin|].
      destruct (N.eqb_spec (pCount s1) 1); lia.
    + injection He as <-. split; cbn; [cnt..|].
      exists ((tr0 ++ tr1) ++ [PMsg]), []. rewrite app_nil_r. split_and!; [done|cnt|apply not_elem_of_nil|].
      intros Hc _ [|] [|] E; try done. rewrite app_nil_r. cnt.
    + destruct (pNow s1 <? pStart s1 + T); [done|].
      assert (forall sn en, sn <= pNid s1 -> pinv T ((tr0 ++ tr1) ++ [PFire]) (mkPst (pCount s1) (pNid s1) sn (pNow s1) (pNow s1) en)) as Hnew.
      { intros sn en Hsn. split; cbn; [cnt..|]. exists ((tr0 ++ tr1) ++ [PFire]), []. rewrite app_nil_r.
        split_and!; [done|cnt|apply not_elem_of_nil|]. intros Hc _ [|] [|] E; try done. rewrite app_nil_r. cnt. }
      destruct (N.eqb_spec (pCount s1) 0); [destruct (N.eqb_spec (pSeen s1) (pNid s1))|]; injection He as <-; by apply Hnew.
    + injection He as <-. split; cbn; [cnt..|].
      exists tr0, (tr1 ++ [PEnd]). split_and!; [by rewrite app_assoc|done|notin|].
      intros Hc Hn a b E. apply Hsplit in E as [[-> ->]|(b' & -> & ->)]; [|by eapply Hp]. rewrite app_assoc. cnt.
    + injection He as <-. split; cbn; [cnt..|].
      exists tr0, (tr1 ++ [PTick]). split_and!; [by rewrite app_assoc|done|notin|].
      intros Hc Hn a b E. apply Hsplit in E as [[-> ->]|(b' & -> & ->)]; [|by eapply Hp]. rewrite app_assoc. cnt.
Qed.
Lemma count_app e a b : count e (a ++ b) = count e a + count e b. Proof. unfold count. rewrite filter_app, app_length. lia. Qed.

(* The process gives up as idle only if for the whole of the last T seconds no data channel was open and no message came *)
Theorem C72_only_when_idle ns tr s : prun (peer_timeout ns) tr = Some s -> pEnded s = Some NoChannel ->
  forall before after, tr = before ++ after -> seconds after < peer_timeout ns -> channels before = 0 /\ PMsg ∉ after.
Proof.
  set (T := peer_timeout ns). intros Hr He before after E Ht.
  destruct tr as [|e tr _] using rev_ind; [injection Hr as <-; done|]. rewrite prun_snoc in Hr. apply bind_Some in Hr as (s1 & H1 & Hr).
  destruct (pinv_run T tr s1 H1) as [Ic In Is Ie (tr0 & tr1 & -> & Hs & Hm & Hp)]. unfold pstep in Hr. destruct (pEnded s1); [done|].
  destruct e; try (injection Hr as <-; done); [by case_match; [|injection Hr as <-]|]. destruct (N.ltb_spec (pNow s1) (pStart s1 + T)) as [?|Hd]; [done|].
  destruct (N.eqb_spec (pCount s1) 0) as [Hc|?]; [|injection Hr as <-; done]. destruct (N.eqb_spec (pSeen s1) (pNid s1)) as [Hn|?]; [|injection Hr as <-; done].
  destruct after as [|x after _] using rev_ind.
  { split; [|apply not_elem_of_nil]. rewrite app_nil_r in E. subst before. cnt. }
  rewrite app_assoc in E. apply app_inj_tail in E as [E <-]. unfold seconds in Ht. rewrite count_snoc in Ht. case_decide; [done|].
  unfold seconds in *. rewrite count_app in In. 
  (* the moment is after the timer was set *)
  assert (exists a, before = tr0 ++ a /\ tr1 = a ++ after) as (a & -> & ->).
  { apply app_eq_inv in E as [(k & -> & E)|(k & -> & ->)]; [|by exists k]. subst after. rewrite count_app in *.
    exfalso. lia. }
  split; [by eapply Hp|]. apply not_elem_of_app in Hm as [_ Hm]. apply not_elem_of_app. split; [done|]. by apply not_elem_of_cons; split; [|apply not_elem_of_nil].
Qed.

Lemma quiet_snoc tr e : quiet (tr ++ [e]) -> quiet tr /\ e <> POpen /\ e <> PDone /\ e <> PMsg.
Proof. unfold quiet. rewrite !not_elem_of_app, !not_elem_of_cons. intros ((H1 & H2 & _) & (H3 & H4 & _) & (H5 & H6 & _)). by split_and!. Qed.
Lemma timely_app T a b : timely T (a ++ b) -> timely T a.
Proof. intros H tr1 tr2 s -> Hr. eapply (H tr1 (tr2 ++ b)); [by rewrite <- app_assoc|done]. Qed.
Lemma due T tr s : prun T tr = Some s -> timely T tr -> pNow s <= pStart s + T.
Proof.
  revert s. induction tr as [|e tr IH] using rev_ind; intros s; [intros [= <-] _; cbn; lia|]. rewrite prun_snoc. intros (s1 & H1 & He)%bind_Some Ht.
  pose proof (IH s1 H1 (timely_app T _ _ Ht)) as Hd. pose proof (pinv_run T tr s1 H1) as [_ _ Hs _ _]. unfold pstep in He. destruct (pEnded s1); [done|]. destruct e.
  - by injection He as <-.
  - case_match; [done|]. by injection He as <-.
  - injection He as <-. cbn. lia.
  - repeat case_match; try done; injection He as <-; cbn; lia.
  - by injection He as <-.
  - injection He as <-. cbn. specialize (Ht tr [] s1 eq_refl H1). lia.
Qed.
(* ... and it does give up: when no channel is open, none is opened and no message comes, it runs on for at most 2 T seconds *)
Theorem C72_ends_when_idle ns tr1 tr2 s : prun (peer_timeout ns) (tr1 ++ tr2) = Some s -> timely (peer_timeout ns) (tr1 ++ tr2) ->
  channels tr1 = 0 -> quiet tr2 -> pEnded s = None -> seconds tr2 <= 2 * peer_timeout ns.
Proof.
  set (T := peer_timeout ns). intros Hr Ht Hc Hq He. 
  assert (forall tr2 s, prun T (tr1 ++ tr2) = Some s -> timely T (tr1 ++ tr2) -> quiet tr2 -> pEnded s = None -> pCount s = 0 /\
    (pStart s <= seconds tr1 \/ pSeen s = pNid s /\ pStart s <= seconds tr1 + T)) as H.
  { clear tr2 s Hr Ht Hq He. induction tr2 as [|e tr2 IH] using rev_ind; intros s Hr Ht Hq He.
    - rewrite app_nil_r in Hr, Ht. destruct (pinv_run T tr1 s Hr) as [Ic In Is Ie _]. unfold channels in Hc. split; [lia|]. left. lia.
    - rewrite app_assoc, prun_snoc in Hr. apply bind_Some in Hr as (s1 & H1 & Hr). rewrite app_assoc in Ht. apply quiet_snoc in Hq as (Hq & Hq1 & Hq2 & Hq3).
      unfold pstep in Hr. destruct (pEnded s1) eqn:E1; [done|]. destruct (IH s1 H1 (timely_app T _ _ Ht) Hq E1) as (Hc1 & Hs). pose proof (due T _ _ H1 (timely_app T _ _ Ht)) as Hd.
      destruct e; try done.
      + destruct (pNow s1 <? pStart s1 + T); [done|]. rewrite Hc1 in Hr. cbn in Hr. destruct (N.eqb_spec (pSeen s1) (pNid s1)); injection Hr as <-; [done|]. cbn in *. split; [done|]. right. destruct Hs as [|[? _]]; [|done]. split; [done|lia].
      + injection Hr as <-. done.
      + injection Hr as <-. done. }
  destruct (H tr2 s Hr Ht Hq He) as (_ & Hs). pose proof (due T _ _ Hr Ht) as Hd. destruct (pinv_run T _ s Hr) as [_ In _ _ _]. unfold seconds in *. rewrite count_app in In. lia.
Qed.
(* the timeout is the configured one in whole seconds, but at least 5 s *)
Theorem C72_timeout ns : ns < 65536 * 1000000000 -> peer_timeout ns = N.max (ns / 1000000000) 5.
Proof. intros H. unfold peer_timeout, sent_timeout. rewrite u16_id; [done|]. apply N.div_lt_upper_bound; lia. Qed.
(* a channel that is open keeps the process *)
Theorem C72_open_channel_keeps ns tr s : prun (peer_timeout ns) tr = Some s -> 0 < channels tr -> pEnded s <> Some NoChannel.
Proof.
  intros Hr Hc He. pose proof (C72_only_when_idle ns tr s Hr He tr [] ltac:(by rewrite app_nil_r)) as H. unfold seconds, count in H. cbn in H.
  assert (0 < peer_timeout ns) as H0 by (unfold peer_timeout; lia). destruct (H H0). lia.
Qed.
(* a visitor's channel is open for 3 seconds; the process ends 6 s after it was closed, at the second firing of the timer *)
Definition secs (n : nat) : list pev := replicate n PTick.
Definition visit0 : list pev := secs 2 ++ [PMsg] ++ secs 1 ++ [POpen] ++ secs 3 ++ [PDone].
Definition idle0 : list pev := secs 1 ++ [PFire] ++ secs 5.
Lemma timely_check T tr : forallb (fun i => match tr !! i with Some PTick => match prun T (take i tr) with Some s => pNow s <? pStart s + T | None => true end | _ => true end) (seq 0 (length tr)) = true -> timely T tr.
Proof.
  intros H tr1 tr2 s E Hr. rewrite forallb_forall in H. specialize (H (length tr1)). rewrite E in H. rewrite lookup_app_r in H by done. rewrite Nat.sub_diag in H. cbn [lookup list_lookup] in H.
  rewrite take_app, Hr in H. apply N.ltb_lt, H. apply in_seq. rewrite app_length. cbn. lia.
Qed.
Theorem C72_witness : (exists s, prun (peer_timeout 0) (visit0 ++ idle0) = Some s /\ pEnded s = None) /\ timely (peer_timeout 0) (visit0 ++ idle0) /\
  channels (secs 2 ++ [PMsg] ++ secs 1 ++ [POpen]) = 1 /\ channels visit0 = 0 /\ quiet idle0 /\ seconds idle0 = 6 /\
  (exists s, prun (peer_timeout 0) (visit0 ++ idle0 ++ [PFire]) = Some s /\ pEnded s = Some NoChannel) /\ peer_timeout 300000000000 = 300.
Proof.
  split; [eexists; split; [vm_compute; reflexivity|done]|]. split; [apply timely_check; by vm_compute|]. split; [by vm_compute|]. split; [by vm_compute|].
  split; [unfold quiet; split_and!; apply (bool_decide_unpack _); vm_compute; exact I|]. split; [by vm_compute|]. split; [eexists; split; [vm_compute; reflexivity|done]|]. by vm_compute.
Qed.
(* a configured timeout of 65540 s is passed on as 4 s and taken as 5 s *)
Theorem C72_long_timeout_refuted : peer_timeout (65540 * 1000000000) = 5. Proof. by vm_compute. Qed.
