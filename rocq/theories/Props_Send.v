(* Props_Send.v -- C84: sending over a data channel *)
From Verif Require Import GoBase GoBaseLemmas SendModel.
Local Open Scope N_scope.

Lemma drun_snoc es e s s' : drun s (es ++ [e]) = Some s' <-> exists s1, drun s es = Some s1 /\ dstep s1 e = Some s'.
Proof.
  revert s. induction es as [|x es IH]; intros s; cbn [app drun].
  - destruct (dstep s e) as [s1|] eqn:E; cbn; split; [intros [= <-]; eauto|intros (? & [= <-] & H); congruence|done|intros (? & [= <-] & H); congruence].
  - destruct (dstep s x) as [s1|]; cbn [mbind option_bind]; [apply IH|]. split; [done|]. by intros (? & ? & _).
Qed.
Ltac dproj := cbn [dMax dBuf dQueue dLeft dPc dWaiting dClosed dFreed dRes] in *.
Ltac dcases E :=
  lazymatch type of E with dstep ?s ?e = Some _ =>
    destruct s as [mx b q l pc w c fr res]; destruct e as [| | | |ok|open|n|]; cbn [dstep] in E;
    [destruct pc as [k| | | | | | |]; try done; destruct l as [|m l]; [|destruct (fits _ m) eqn:Hf]; injection E as <-
    |destruct pc as [|k| | | | | |]; try done; injection E as <-
    |destruct pc as [| |k| | | | |]; try done; injection E as <-
    |destruct pc as [| | | |k| | |]; try done; destruct c; [|destruct l as [|m l]; [done|]; destruct (fits _ m) eqn:Hf]; injection E as <-
    |destruct pc as [| | | | |k| |]; try done; destruct l as [|m l]; [done|]; destruct ok; [destruct (negb c && (b + blen m <=? mx)) eqn:Hok; [|done]|]; injection E as <-
    |destruct pc as [| | | | | |k|]; try done; destruct (open && (k <? 9)%nat) eqn:Hop; injection E as <-
    |destruct (negb c && (0 <? n) && (n <=? b)) eqn:Hn; [|done]; injection E as <-
    |injection E as <-] end; dproj.
(* What the channel has taken is what the service has sent, in order, nothing left out or twice *)
Theorem C84_in_order : forall M ms es s, drun (d0 M ms) es = Some s -> dQueue s ++ dLeft s = ms.
Proof.
  intros M ms es. induction es as [|e es IH] using rev_ind; intros s H; [by injection H as <-|]. apply drun_snoc in H as (s1 & H & E). specialize (IH s1 H).
  dcases E; try done. by rewrite <- app_assoc.
Qed.
(* Send says yes for what the channel has taken; a no is the last answer *)
Theorem C84_answers : forall M ms es s, drun (d0 M ms) es = Some s -> dRes s = replicate (length (dQueue s)) true \/ (dPc s = DEnd /\ dRes s = replicate (length (dQueue s)) true ++ [false]).
Proof.
  intros M ms es. induction es as [|e es IH] using rev_ind; intros s H; [injection H as <-; by left|]. apply drun_snoc in H as (s1 & H & E). specialize (IH s1 H).
  dcases E; try (destruct IH as [-> | [? ->]]; [|done]; by left); try (destruct IH as [-> | [? ->]]; [|done]; right; done).
  - destruct IH as [-> | [? _]]; [|done]. left. rewrite app_length, Nat.add_comm. cbn [length Nat.add]. by rewrite <- replicate_cons_app.
  - destruct IH as [-> | [-> ->]]; [by left|by right].
  - destruct IH as [-> | [-> ->]]; [by left|by right].
Qed.
(* It all arrives if nothing is in its way: all that is left goes out, whatever there is, once the queue has room for it *)
Theorem C84_can_send : forall mx ms es s m l, drun (d0 mx ms) es = Some s -> dPc s = DTop 0 -> dLeft s = m :: l -> dClosed s = false -> dBuf s + blen m <= dMax s ->
  exists s', drun s [KCheck; KSend true] = Some s' /\ dQueue s' = dQueue s ++ [m] /\ dLeft s' = l /\ dPc s' = DTop 0.
Proof.
  intros mx ms es [mx' b q ll pc w c fr res] m l _ Hp Hl Hc Hb. dproj. subst. cbn [drun dstep mbind option_bind]. unfold fits. dproj. replace (blen m <=? mx' - b) with true by (symmetry; apply N.leb_le; lia). cbn [drun dstep mbind option_bind negb andb]. replace (b + blen m <=? mx') with true by (symmetry; apply N.leb_le; lia). eexists. split; [reflexivity|]. done.
Qed.

(* ---- waiting for room ---- *)
Definition window (pc : dpc) : Prop := match pc with DPre _ | DWait _ => True | _ => False end.
(* no bytes leave the queue while the sender is between its look at the queue and its sleep *)
Definition calm (s : dst) (es : list dev) : Prop := forall es1 n es2 s1, es = es1 ++ KNet n :: es2 -> drun s es1 = Some s1 -> ~ window (dPc s1).
Lemma asleep_inv M ms es s : drun (d0 M ms) es = Some s -> calm (d0 M ms) es -> KClose ∉ es ->
  dMax s = M /\ dBuf s <= M /\ dClosed s = false /\ (forall k, dPc s = DAsleep k \/ dPc s = DWait k -> dWaiting s = true)
  /\ (forall k, dPc s = DAsleep k \/ dPc s = DPre k \/ dPc s = DWait k -> exists m l, dLeft s = m :: l /\ M < dBuf s + blen m).
Proof.
  revert s. induction es as [|e es IH] using rev_ind; intros s H C N.
  { injection H as <-. cbn. split; [done|]. split; [lia|]. split; [done|]. split; [by intros k [?|?]|by intros k [?|[?|?]]]. }
  apply drun_snoc in H as (s1 & H & E). apply not_elem_of_app in N as [N Ne]. apply not_elem_of_cons in Ne as [Ne _]. destruct (IH s1 H) as (I1 & I2 & I3 & I4 & I5); [intros es1 n es2 s2 -> H2; apply (C es1 n (es2 ++ [e]) s2); [by rewrite <- app_assoc|done]|done|].
  assert (W : forall n, e = KNet n -> ~ window (dPc s1)) by (intros n ->; by apply (C es n [] s1)). clear IH C N H.
  remember (dClosed s1 = false) as P eqn:HP. dcases E; subst P mx.
  all: try (split; [done|]; split; [done|]; split; [done|]).
  - split; [by intros k0 [?|?]|by intros k0 [?|[?|?]]].
  - split; [by intros k0 [?|?]|by intros k0 [?|[?|?]]].
  - split; [by intros k0 [?|?]|]. intros k0 _. exists m, l. split; [done|]. unfold fits in Hf. dproj. apply N.leb_gt in Hf. lia.
  - split; [done|]. intros k0 _. apply (I5 k). auto.
  - split; [intros k0 _; apply (I4 k); auto|]. intros k0 _. apply (I5 k). auto.
  - done.
  - split; [by intros k0 [?|?]|by intros k0 [?|[?|?]]].
  - split; [by intros k0 [?|?]|]. intros k0 _. exists m, l. split; [done|]. unfold fits in Hf. dproj. apply N.leb_gt in Hf. lia.
  - apply andb_true_iff in Hok as [_ Hok]. apply N.leb_le in Hok. split; [done|]. split; [done|]. split; [done|]. split; [by intros k0 [?|?]|by intros k0 [?|[?|?]]].
  - split; [by intros k0 [?|?]|by intros k0 [?|[?|?]]].
  - split; [by intros k0 [?|?]|by intros k0 [?|[?|?]]].
  - split; [by intros k0 [?|?]|by intros k0 [?|[?|?]]].
  - split; [done|]. split; [lia|]. split; [done|]. specialize (W n eq_refl). destruct pc; try (by destruct W); try (split; [by intros k0 [?|?]|by intros k0 [?|[?|?]]]). rewrite (I4 k (or_introl eq_refl)). split; [by intros k0 [?|?]|by intros k0 [?|[?|?]]].
  - done.
Qed.
(* Then the sender sleeps only while there is no room, and the next bytes to leave wake it; those that make room let it send *)
Theorem C84_wakes_partial : forall M ms es s k, Forall (fun m => blen m <= M) ms -> drun (d0 M ms) es = Some s -> calm (d0 M ms) es -> KClose ∉ es -> dPc s = DAsleep k ->
  exists m l, dLeft s = m :: l /\ M < dBuf s + blen m /\ (forall n s', dstep s (KNet n) = Some s' -> dPc s' = DWoken k)
  /\ (exists n s', 0 < n <= dBuf s /\ drun s [KNet n; KWoken; KSend true] = Some s' /\ dQueue s' = dQueue s ++ [m]).
Proof.
  intros M ms es s k F H C N Hp. destruct (asleep_inv M ms es s H C N) as (I1 & I2 & I3 & I4 & I5). destruct (I5 k) as (m & l & El & Hm); [auto|]. exists m, l. split; [done|]. split; [done|].
  assert (Hl : blen m <= M). { rewrite <- (C84_in_order M ms es s H), El in F. apply Forall_app in F as [_ F]. by apply Forall_cons in F as [F _]. }
  specialize (I4 k (or_introl Hp)). clear H C N I5 F. destruct s as [mx b q ll pc w c fr res]. dproj. subst. split.
  - intros n s' E. cbn [dstep negb andb] in E. destruct ((0 <? n) && (n <=? b)); [|done]. by injection E as <-.
  - exists b. cbn [drun dstep mbind option_bind negb andb]. rewrite N.leb_refl. replace (0 <? b) with true by (symmetry; apply N.ltb_lt; lia). cbn [andb drun dstep mbind option_bind]. unfold fits. dproj. replace (blen m <=? M - (b - b)) with true by (symmetry; apply N.leb_le; lia). cbn [drun dstep mbind option_bind negb andb]. replace (b - b + blen m <=? M) with true by (symmetry; apply N.leb_le; lia). eexists. split; [lia|]. split; [reflexivity|]. done.
Qed.
(* A close wakes a sender that sleeps, which then ends *)
Theorem C84_close_wakes : forall M ms es s k, drun (d0 M ms) es = Some s -> dPc s = DAsleep k -> exists s', drun s [KClose; KWoken] = Some s' /\ dPc s' = DEnd /\ dRes s' = dRes s ++ [false].
Proof. intros M ms es [mx b q l pc w c fr res] k _ Hp. dproj. subst. eexists. split; [reflexivity|]. done. Qed.
(* Bytes that leave in the window wake nobody: the sender sleeps on although the queue is empty, until the channel is closed *)
Theorem C84_lost_wakeup_refuted : forall M a b, a <> [] -> blen a <= M -> blen b <= M -> M < blen a + blen b ->
  exists es s, drun (d0 M [a; b]) es = Some s /\ dBuf s = 0 /\ dQueue s = [a] /\ dLeft s = [b] /\ dPc s = DAsleep 0
  /\ forall es' s', KClose ∉ es' -> drun s es' = Some s' -> es' = [].
Proof.
  intros M a b Ha La Lb Lab. exists [KCheck; KSend true; KCheck; KNet (blen a); KMark; KSleep]. eexists. split.
  - unfold d0. cbn [drun dstep mbind option_bind]. unfold fits. dproj. replace (blen a <=? M - 0) with true by (symmetry; apply N.leb_le; lia). cbn [drun dstep mbind option_bind negb andb]. replace (0 + blen a <=? M) with true by (symmetry; apply N.leb_le; lia). cbn [drun dstep mbind option_bind negb andb]. unfold fits. dproj. replace (blen b <=? M - (0 + blen a)) with false by (symmetry; apply N.leb_gt; lia). cbn [drun dstep mbind option_bind negb andb].
    assert (0 < blen a) by (destruct a; [done|]; unfold blen; cbn [length]; lia). replace (0 <? blen a) with true by (symmetry; apply N.ltb_lt; lia). replace (blen a <=? 0 + blen a) with true by (symmetry; apply N.leb_le; lia). cbn [drun dstep mbind option_bind negb andb]. replace (0 + blen a - blen a) with 0 by lia. reflexivity.
  - split; [done|]. split; [done|]. split; [done|]. split; [done|]. intros [|e es'] s' N H; [done|]. exfalso. apply not_elem_of_cons in N as [N _]. cbn [drun] in H. destruct e as [| | | |ok|open|n|]; cbn [dstep mbind option_bind negb andb] in H; try done. destruct (0 <? n) eqn:A; [|done]. destruct (n <=? 0) eqn:B; [|done]. apply N.ltb_lt in A. apply N.leb_le in B. lia.
Qed.
(* Nor does a close in the window: the sender sleeps for ever *)
Theorem C84_close_lost_refuted : forall M a b, blen a <= M -> blen b <= M -> M < blen a + blen b ->
  exists es s, drun (d0 M [a; b]) es = Some s /\ dClosed s = true /\ dPc s = DAsleep 0 /\ forall es' s', KClose ∉ es' -> drun s es' = Some s' -> es' = [].
Proof.
  intros M a b La Lb Lab. exists [KCheck; KSend true; KCheck; KClose; KMark; KSleep]. eexists. split.
  - unfold d0. cbn [drun dstep mbind option_bind]. unfold fits. dproj. replace (blen a <=? M - 0) with true by (symmetry; apply N.leb_le; lia). cbn [drun dstep mbind option_bind negb andb]. replace (0 + blen a <=? M) with true by (symmetry; apply N.leb_le; lia). cbn [drun dstep mbind option_bind negb andb]. unfold fits. dproj. replace (blen b <=? M - (0 + blen a)) with false by (symmetry; apply N.leb_gt; lia). cbn [drun dstep mbind option_bind negb andb]. reflexivity.
  - split; [done|]. split; [done|]. intros [|e es'] s' N H; [done|]. exfalso. apply not_elem_of_cons in N as [N _]. cbn [drun] in H. by destruct e as [| | | |ok|open|n|]; cbn [dstep mbind option_bind negb andb] in H.
Qed.
(* A close between two messages: the channel is used after it has been freed *)
Theorem C84_freed_refuted : forall M a, exists s, drun (d0 M [a]) [KClose; KCheck] = Some s /\ dFreed s = true.
Proof. intros M a. unfold d0. cbn [drun dstep mbind option_bind]. destruct (fits _ a); by eexists. Qed.
(* ... only then *)
Theorem C84_freed_only_closed : forall M ms es s, drun (d0 M ms) es = Some s -> KClose ∉ es -> dFreed s = false.
Proof.
  intros M ms es s H N. assert (G : dFreed s = false /\ dClosed s = false); [|tauto]. revert s H. induction es as [|e es IH] using rev_ind; intros s H; [by injection H as <-|]. apply drun_snoc in H as (s1 & H & E). apply not_elem_of_app in N as [N Ne]. apply not_elem_of_cons in Ne as [Ne _]. destruct (IH N s1 H) as [I1 I2]. clear IH.
  dcases E; rewrite ?I1, ?I2; done.
Qed.
(* The channel is only ever asked to take a message that there is room for at that moment. *)
Theorem C84_only_with_room : forall M ms es s k, drun (d0 M ms) es = Some s -> dPc s = DSend k -> exists m l, dLeft s = m :: l /\ dBuf s + blen m <= M.
Proof.
  intros M ms es s k H. assert (G : dMax s = M /\ dBuf s <= M /\ forall k, dPc s = DSend k -> exists m l, dLeft s = m :: l /\ dBuf s + blen m <= M); [|apply G]. clear k.
  revert s H. induction es as [|e es IH] using rev_ind; intros s H; [injection H as <-; split; [done|]; split; [cbn; lia|done]|]. apply drun_snoc in H as (s1 & H & E). specialize (IH s1 H). clear H.
  dcases E; destruct IH as (I1 & I2 & I3); subst mx; (split; [done|]).
  all: try (apply andb_true_iff in Hok as [_ Hok]; apply N.leb_le in Hok).
  all: (split; [lia|]); intros kk Hk; try discriminate Hk.
  - unfold fits in Hf. dproj. apply N.leb_le in Hf. do 2 eexists. split; [reflexivity|lia].
  - unfold fits in Hf. dproj. apply N.leb_le in Hf. do 2 eexists. split; [reflexivity|lia].
  - destruct pc; try discriminate Hk; [by destruct w|]. destruct (I3 _ eq_refl) as (m & l' & -> & ?). do 2 eexists. split; [reflexivity|lia].
  - destruct pc; try discriminate Hk. destruct (I3 _ eq_refl) as (m & l' & -> & ?). do 2 eexists. split; [reflexivity|lia].
Qed.
Theorem C84_witness : exists s, drun (d0 4 [[1; 2; 3]; [4; 5]; [6]]) [KCheck; KSend true; KCheck; KMark; KSleep; KNet 1; KWoken; KSend true; KCheck; KMark; KSleep; KNet 2; KWoken; KSend false; KPause true; KCheck; KSend true; KCheck] = Some s
  /\ dQueue s = [[1; 2; 3]; [4; 5]; [6]] /\ dRes s = [true; true; true] /\ dPc s = DEnd /\ calm (d0 4 [[1; 2; 3]; [4; 5]; [6]]) [KCheck; KSend true; KCheck; KMark; KSleep; KNet 1; KWoken].
Proof.
  eexists. split; [vm_compute; reflexivity|]. split; [done|]. split; [done|]. split; [done|]. intros es1 n es2 s1 E H.
  do 5 (destruct es1 as [|? es1]; [discriminate E|cbn [app] in E; injection E as <- E]).
  destruct es1 as [|? es1]; [injection E as <- <-; vm_compute in H; injection H as <-; by intros []|cbn [app] in E; injection E as <- E].
  destruct es1 as [|? es1]; [discriminate E|cbn [app] in E; injection E as <- E]. by destruct es1.
Qed.
