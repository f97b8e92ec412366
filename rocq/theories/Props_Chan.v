(* Props_Chan.v -- C75: the data channels of a peer-to-peer visitor with -webrtcThread *)
From Verif Require Import GoBase ChanModel.
Local Open Scope N_scope.

(* ==== the timer ==== *)
Definition live (p : aphase) : Prop := p = AAdded \/ p = AOpen.
#[global] Instance live_dec p : Decision (live p). Proof. unfold live. apply _. Defined.
Definition lives (m : gmap nat aphase) : gmap nat aphase := filter (fun kv => live kv.2) m.
Lemma arun_snoc tr e : arun (tr ++ [e]) = arun tr ≫= fun s => astep s e. Proof. unfold arun. by rewrite fold_left_app. Qed.
Lemma lives_new m c : m !! c = None -> size (lives (<[c := AAdded]> m)) = S (size (lives m)).
Proof.
  intros H. unfold lives. rewrite map_filter_insert_True by (by left). apply map_size_insert_None. apply map_filter_lookup_None. by left.
Qed.
Lemma lives_keep m c p q : m !! c = Some p -> live p -> live q -> size (lives (<[c := q]> m)) = size (lives m).
Proof. intros H Hp Hq. unfold lives. rewrite map_filter_insert_True by done. apply map_size_insert_Some. exists p. by apply map_filter_lookup_Some. Qed.
Lemma lives_drop m c p q : m !! c = Some p -> live p -> ~ live q -> size (lives m) = S (size (lives (<[c := q]> m))).
Proof.
  intros H Hp Hq. unfold lives. rewrite map_filter_insert_False by done. rewrite map_filter_delete.
  rewrite map_size_delete. assert (filter (fun kv : nat * aphase => live kv.2) m !! c = Some p) as E by by apply map_filter_lookup_Some. rewrite E.
  assert (size (filter (fun kv : nat * aphase => live kv.2) m) <> 0%nat); [|lia]. intros H0. apply map_size_empty_inv in H0. rewrite H0 in E. by apply lookup_empty_Some in E.
Qed.
Lemma lives_dead m c p q : m !! c = Some p -> ~ live p -> ~ live q -> lives (<[c := q]> m) = lives m.
Proof. intros H Hp Hq. unfold lives. rewrite map_filter_insert_False by done. rewrite map_filter_delete. apply delete_notin. apply map_filter_lookup_None. right. intros x Hx. rewrite Hx in H. injection H as ->. done. Qed.
Lemma lives_none m : size (lives m) = 0%nat -> forall c p, m !! c = Some p -> ~ live p.
Proof. intros H c p Hc Hp. apply map_size_empty_inv in H. assert (lives m !! c = Some p) as E by by apply map_filter_lookup_Some. rewrite H in E. by apply lookup_empty_Some in E. Qed.
Lemma not_live_last : ~ live ALast. Proof. by intros [|]. Qed.
Lemma not_live_gone : ~ live AGone. Proof. by intros [|]. Qed.
Lemma astep_count s e s' : aCount s = N.of_nat (size (lives (aChans s))) -> astep s e = Some s' -> aCount s' = N.of_nat (size (lives (aChans s'))).
Proof.
  intros Hc He. unfold astep in He. destruct (aClosed s); [done|]. destruct e as [|c|c|c|c|]; try (case_bool_decide as Hb; [|done]); try (injection He as <-; cbn).
  - done.
  - rewrite lives_new by done. lia.
  - rewrite (lives_keep _ _ AAdded) by (done || by (left + right)). done.
  - rewrite (lives_drop _ _ _ (if aCount s =? 1 then ALast else AGone) Hb) in Hc; [lia|by right|]. destruct (_ =? _); [apply not_live_last|apply not_live_gone].
  - rewrite (lives_dead _ _ ALast) by (done || apply not_live_last || apply not_live_gone). done.
  - destruct (aArmed s); [|done]. injection He as <-. done.
Qed.
Lemma arun_count tr s : arun tr = Some s -> aCount s = N.of_nat (size (lives (aChans s))).
Proof.
  revert s. induction tr as [|e tr IH] using rev_ind; intros s; [by intros [= <-]|]. rewrite arun_snoc. intros (s1 & H1 & He)%bind_Some. eapply astep_count; [|done]. by apply IH.
Qed.

(* [calm]: no channel is opened between the two steps with which the last one ends *)
Definition calm (tr : list aev) : Prop := forall a b d c x, tr = a ++ ADrop c :: b ++ AReset c :: d -> AAdd x ∉ b.
Lemma calm_app a b : calm (a ++ b) -> calm a.
Proof. intros H x y d c z ->. eapply (H x y (d ++ b)). rewrite <- app_assoc. cbn. by rewrite <- app_assoc. Qed.
Record ainv (tr : list aev) (s : ast) : Prop := {
  i_last : forall c, aChans s !! c = Some ALast -> exists a b, tr = a ++ ADrop c :: b /\ ((forall x, AAdd x ∉ b) -> forall d p, aChans s !! d = Some p -> ~ live p);
  i_armed : aArmed s = true -> forall c, aChans s !! c <> Some AOpen }.
Lemma ainv_run tr s : arun tr = Some s -> calm tr -> ainv tr s.
Proof.
  revert s. induction tr as [|e tr IH] using rev_ind; intros s.
  - intros [= <-] _. split; [intros c Hc; cbn in Hc; by rewrite lookup_empty in Hc|intros _ c; cbn; by rewrite lookup_empty].
  - rewrite arun_snoc. intros (s1 & H1 & He)%bind_Some Hcalm. pose proof (IH s1 H1 (calm_app _ _ Hcalm)) as [Il Ia]. pose proof (arun_count tr s1 H1) as Hcount.
    assert (forall b x, (forall x, AAdd x ∉ b ++ [e]) -> AAdd x ∉ b) as Hb1 by (intros b x H; specialize (H x); by apply not_elem_of_app in H as [? _]).
    unfold astep in He. destruct (aClosed s1); [done|]. destruct e as [|c|c|c|c|]; try (case_bool_decide as Hb; [|done]).
    + injection He as <-. split; cbn; [|done]. intros c Hc. destruct (Il c Hc) as (a & b & -> & H). exists a, (b ++ [AConnected]). split; [by rewrite <- app_assoc|]. intros Hx. apply H. intros x. by apply Hb1.
    + injection He as <-. split; cbn.
      * intros d. destruct (decide (c = d)) as [->|Hd]; [by rewrite lookup_insert|]. rewrite lookup_insert_ne by done. intros Hx. destruct (Il d Hx) as (a & b & -> & H). exists a, (b ++ [AAdd c]).
        split; [by rewrite <- app_assoc|]. intros Hn. exfalso. apply (Hn c). apply elem_of_app. right. by left.
      * intros Har d. destruct (decide (c = d)) as [->|Hd]; [by rewrite lookup_insert|]. rewrite lookup_insert_ne by done. by apply Ia.
    + injection He as <-. split; cbn; [|done]. intros d. destruct (decide (c = d)) as [->|Hd]; [by rewrite lookup_insert|]. rewrite lookup_insert_ne by done. intros Hx.
      destruct (Il d Hx) as (a & b & -> & H). exists a, (b ++ [AStop c]). split; [by rewrite <- app_assoc|]. intros Hn. exfalso. eapply (H (fun x => Hb1 b x Hn) c AAdded Hb). by left.
    + injection He as <-. pose proof (lives_drop _ _ _ (if aCount s1 =? 1 then ALast else AGone) Hb) as Hsz. specialize (Hsz ltac:(by right)).
      assert (~ live (if aCount s1 =? 1 then ALast else AGone)) as Hnl by (destruct (_ =? _); [apply not_live_last|apply not_live_gone]). specialize (Hsz Hnl).
      split; cbn.
      * intros d. destruct (decide (c = d)) as [->|Hd].
        -- rewrite lookup_insert. intros E. destruct (N.eqb_spec (aCount s1) 1) as [E1|?]; [|done]. exists tr, []. split; [done|]. intros _. apply lives_none. lia.
        -- rewrite lookup_insert_ne by done. intros Hx. destruct (Il d Hx) as (a & b & -> & H). exists a, (b ++ [ADrop c]). split; [by rewrite <- app_assoc|]. intros Hn. exfalso. eapply (H (fun x => Hb1 b x Hn) c AOpen Hb). by right.
      * intros Har d. destruct (decide (c = d)) as [->|Hd]; [rewrite lookup_insert; by destruct (_ =? _)|]. rewrite lookup_insert_ne by done. by apply Ia.
    + injection He as <-. destruct (Il c Hb) as (a & b & -> & H). assert (forall x, AAdd x ∉ b) as Hn by (intros x; eapply (Hcalm a b []); by rewrite <- app_assoc). split; cbn.
      * intros d. destruct (decide (c = d)) as [->|Hd]; [by rewrite lookup_insert|]. rewrite lookup_insert_ne by done. intros Hx. destruct (Il d Hx) as (a' & b' & E & H'). exists a', (b' ++ [AReset c]). split; [by rewrite E, <- app_assoc|].
        intros Hn' f p. destruct (decide (c = f)) as [->|Hf]; [rewrite lookup_insert; intros [= <-]; apply not_live_gone|]. rewrite lookup_insert_ne by done. apply H'. intros x. by apply Hb1.
      * intros _ d. destruct (decide (c = d)) as [->|Hd]; [by rewrite lookup_insert|]. rewrite lookup_insert_ne by done. intros Hx. apply (H Hn d AOpen Hx). by right.
    + destruct (aArmed s1); [|done]. injection He as <-. split; cbn; [|done]. intros c Hc. destruct (Il c Hc) as (a & b & -> & H). exists a, (b ++ [AFire]). split; [by rewrite <- app_assoc|]. intros Hx. apply H. intros x. by apply Hb1.
Qed.
(* The idle timer never closes a peer connection with a channel that is being served, if no channel is opened while the last one is
   just being ended *)
Theorem C75_idle_partial tr s : arun (tr ++ [AFire]) = Some s -> calm tr -> forall c, aChans s !! c <> Some AOpen.
Proof.
  rewrite arun_snoc. intros (s1 & H1 & He)%bind_Some Hc. pose proof (ainv_run tr s1 H1 Hc) as [_ Ia]. unfold astep in He. destruct (aClosed s1); [done|]. destruct (aArmed s1) eqn:E; [|done]. injection He as <-. by apply Ia.
Qed.
(* ... and otherwise it does *)
Theorem C75_idle_refuted : exists tr s, arun (tr ++ [AFire]) = Some s /\ aChans s !! 1%nat = Some AOpen /\ aClosed s = true.
Proof.
  exists [AConnected; AAdd 0; AStop 0; ADrop 0; AAdd 1; AStop 1; AReset 0]. eexists. split; [vm_compute; reflexivity|]. split; reflexivity.
Qed.
(* When every channel has ended, the timer runs *)
Theorem C75_idle_ends tr s : arun tr = Some s -> (forall a b, tr = a ++ AConnected :: b -> a = []) -> aChans s <> ∅ -> (forall c p, aChans s !! c = Some p -> p = AGone) -> aArmed s = true \/ aClosed s = true.
Proof.
  intros Hr Hc Hne Hg. assert (aArmed s = true \/ aClosed s = true \/ aChans s = ∅ \/ exists c p, aChans s !! c = Some p /\ p <> AGone) as H; [|destruct H as [?|[?|[?|(c & p & Hp & Hn)]]]; [tauto..|]; by apply Hg in Hp].
  clear Hne Hg. revert s Hr. induction tr as [|e tr IH] using rev_ind; intros s; [intros [= <-]; by left|]. rewrite arun_snoc. intros (s1 & H1 & He)%bind_Some.
  assert (aArmed s1 = true \/ aClosed s1 = true \/ aChans s1 = ∅ \/ exists c p, aChans s1 !! c = Some p /\ p <> AGone) as I by (apply IH; [intros a b ->; apply (Hc a (b ++ [e])); by rewrite <- app_assoc|done]).
  pose proof (arun_count _ _ H1) as Hcount. unfold astep in He. destruct (aClosed s1) eqn:Ecl; [done|]. destruct e as [|c|c|c|c|]; try (case_bool_decide as Hb; [|done]).
  - assert (tr = []) as -> by by apply (Hc tr []). injection H1 as <-. injection He as <-. cbn. auto.
  - injection He as <-. cbn. right. right. right. exists c, AAdded. by rewrite lookup_insert.
  - injection He as <-. cbn. right. right. right. exists c, AOpen. by rewrite lookup_insert.
  - injection He as <-. cbn. right. right. right. destruct (N.eqb_spec (aCount s1) 1) as [E|E]; [exists c, ALast; by rewrite lookup_insert|].
    pose proof (lives_drop _ _ _ AGone Hb ltac:(by right) not_live_gone) as Hsz. assert (size (lives (<[c:=AGone]> (aChans s1))) <> 0%nat) as Hn by lia.
    apply map_size_non_empty_iff in Hn. apply map_choose in Hn as (d & p & Hd). apply map_filter_lookup_Some in Hd as [Hd Hl]. exists d, p. split; [done|]. intros ->. by apply not_live_gone.
  - injection He as <-. cbn. auto.
  - destruct (aArmed s1); [|done]. injection He as <-. cbn. auto.
Qed.
(* But a visitor that opens no channel is never given up, as soon as it is connected *)
Theorem C75_never_opened_refuted tr s : arun (AConnected :: tr) = Some s -> (forall c, AAdd c ∉ tr) -> aClosed s = false.
Proof.
  intros Hr Hn. assert (aClosed s = false /\ aArmed s = false /\ aChans s = ∅) as [? _]; [|done]. revert s Hr. induction tr as [|e tr IH] using rev_ind; intros s; [by intros [= <-]|].
  rewrite app_comm_cons, arun_snoc. intros (s1 & H1 & He)%bind_Some. destruct (IH (fun c => proj1 (proj1 (not_elem_of_app _ _ _) (Hn c))) s1 H1) as (E1 & E2 & E3).
  unfold astep in He. rewrite E1, E2, E3 in He. destruct e as [|c|c|c|c|]; try done.
  - by injection He as <-.
  - exfalso. apply (Hn c). apply elem_of_app. right. by left.
Qed.

(* ==== the threads ==== *)
Definition called (c : nat) (tr : list dev) : list bytes := omap (fun e => match e with DCall d (CMsg m) => if decide (d = c) then Some m else None | _ => None end) tr.
Definition got (c : nat) (s : dst) : list bytes := omap (fun x : nat * bytes => if decide (x.1 = c) then Some x.2 else None) (rev (dGot s)).
Lemma drun_snoc o tr e : drun o (tr ++ [e]) = drun o tr ≫= fun s => dstep o s e. Proof. unfold drun. by rewrite fold_left_app. Qed.
Definition pending (o : nat -> nat) (c : nat) (s : dst) : list bytes := match dWait s !! o c with Some (d, CMsg m) => if decide (d = c) then [m] else [] | _ => [] end.
Lemma got_perform c d x s : got c (perform s d x) = got c s ++ match x with CMsg m => if decide (d = c) then [m] else [] | CClosed => [] end.
Proof. destruct x as [m|]; cbn; unfold got; cbn; [|by rewrite app_nil_r]. rewrite omap_app. cbn. by destruct (decide (d = c)). Qed.
Lemma wait_perform d x s : dWait (perform s d x) = dWait s. Proof. by destruct x. Qed.
Lemma task_perform d x s : dTask (perform s d x) = dTask s. Proof. by destruct x. Qed.
Lemma called_snoc c tr e : called c (tr ++ [e]) = called c tr ++ match e with DCall d (CMsg m) => if decide (d = c) then [m] else [] | _ => [] end.
Proof. unfold called. rewrite omap_app. f_equal. destruct e as [|d [m|]]; cbn; [done| |done]. by destruct (decide (d = c)). Qed.
Record dinv (o : nat -> nat) (tr : list dev) (s : dst) : Prop := {
  i_task : forall c, dTask s !! c = Some true <-> DDial c true ∈ tr;
  i_ok : forall c, dTask s !! c <> Some false;
  i_wait : forall t c x, dWait s !! t = Some (c, x) -> o c = t /\ dTask s !! c = None;
  i_got : forall c, got c s ++ pending o c s = called c tr }.
Lemma dinv_run o tr s : drun o tr = Some s -> (forall c, DDial c false ∉ tr) -> dinv o tr s.
Proof.
  revert s. induction tr as [|e tr IH] using rev_ind; intros s.
  - intros [= <-] _. split; cbn [dst0 dTask dWait]. + intros c. rewrite lookup_empty. split; [done|]. by intros ?%elem_of_nil. + intros c. by rewrite lookup_empty. + intros t c x. by rewrite lookup_empty. + intros c. unfold pending. cbn. by rewrite lookup_empty.
  - rewrite drun_snoc. intros (s1 & H1 & He)%bind_Some Hn. destruct (IH s1 H1 (fun c => proj1 (proj1 (not_elem_of_app _ _ _) (Hn c)))) as [It Io Iw Ig].
    destruct e as [c ok|c x]; cbn [dstep] in He.
    + case_bool_decide as Hc; [|done]. assert (ok = true) as ->. { destruct ok; [done|]. exfalso. apply (Hn c). apply elem_of_app. right. by left. }
      assert (forall f, <[c := true]> (dTask s1) !! f = Some true <-> DDial f true ∈ tr ++ [DDial c true]) as Ht'.
      { intros f. rewrite elem_of_app, elem_of_list_singleton, <- It. destruct (decide (c = f)) as [->|Hf]; [rewrite lookup_insert; tauto|]. rewrite lookup_insert_ne by done. split; [by left|]. intros [?|[= ?]]; [done|by subst]. }
      assert (forall f, <[c := true]> (dTask s1) !! f <> Some false) as Ho'.
      { intros f. destruct (decide (c = f)) as [->|Hf]; [by rewrite lookup_insert|]. rewrite lookup_insert_ne by done. apply Io. }
      cbn [dWait dTask dGot dEnd] in He.
      destruct (dWait s1 !! o c) as [[c' x]|] eqn:Ew.
      * destruct (decide (c' = c)) as [->|Hne].
        -- rewrite bool_decide_eq_true_2 in He by done. cbn [andb] in He. injection He as <-. split.
           ++ intros f. rewrite task_perform. apply Ht'.
           ++ intros f. rewrite task_perform. apply Ho'.
           ++ intros t d y. rewrite wait_perform, task_perform. cbn. intros Hd. apply lookup_delete_Some in Hd as [Hne Hd]. destruct (Iw t d y Hd) as [E1 E2]. split; [done|]. rewrite lookup_insert_ne; [done|]. intros ->. done.
           ++ intros f. rewrite got_perform, called_snoc, app_nil_r. rewrite <- (Ig f). change (got f (mkDst (<[c:=true]> (dTask s1)) (delete (o c) (dWait s1)) (dGot s1) (dEnd s1))) with (got f s1).
              unfold pending. rewrite wait_perform. cbn [dWait]. destruct (decide (o f = o c)) as [E|E].
              ** rewrite E, lookup_delete, Ew, app_nil_r. by destruct x.
              ** rewrite lookup_delete_ne by done. rewrite <- app_assoc. f_equal. destruct x as [m|]; [|done]. destruct (decide (c = f)) as [->|]; done.
        -- rewrite bool_decide_eq_false_2 in He by done. cbn [andb] in He. injection He as <-. split; cbn [dTask dWait]; [apply Ht'|apply Ho'| |].
           ++ intros t d y Hd. destruct (Iw t d y Hd) as [E1 E2]. split; [done|]. rewrite lookup_insert_ne; [done|]. intros <-. rewrite <- E1 in Hd. rewrite Ew in Hd. by injection Hd as -> _.
           ++ intros f. rewrite called_snoc, app_nil_r. apply Ig.
      * injection He as <-. split; cbn [dTask dWait]; [apply Ht'|apply Ho'| |].
        -- intros t d y Hd. destruct (Iw t d y Hd) as [E1 E2]. split; [done|]. rewrite lookup_insert_ne; [done|]. intros <-. rewrite <- E1 in Hd. by rewrite Ew in Hd.
        -- intros f. rewrite called_snoc, app_nil_r. apply Ig.
    + destruct (dWait s1 !! o c) as [[c' y]|] eqn:Ew; [done|]. injection He as <-.
      assert (forall f, dTask s1 !! f = Some true <-> DDial f true ∈ tr ++ [DCall c x]) as Ht' by (intros f; rewrite elem_of_app, elem_of_list_singleton, It; split; [by left|by intros [?|?]]).
      assert (pending o c s1 = []) as Hp by (unfold pending; by rewrite Ew).
      assert (forall f, f <> c -> match x with CMsg m => if decide (c = f) then [m] else [] | CClosed => [] end = []) as Hx by (intros f Hf; destruct x; [destruct (decide (c = f)); congruence|done]).
      destruct (dTask s1 !! c) as [[|]|] eqn:Et.
      * split; [intros f; rewrite task_perform; apply Ht'|intros f; rewrite task_perform; apply Io|intros t d z; rewrite wait_perform, task_perform; apply Iw|].
        intros f. rewrite got_perform, called_snoc. rewrite <- (Ig f). replace (pending o f (perform s1 c x)) with (pending o f s1) by (unfold pending; by rewrite wait_perform).
        destruct (decide (f = c)) as [->|Hf]; [rewrite Hp, !app_nil_r; by destruct x|]. rewrite (Hx f Hf), app_nil_r. destruct x; [|by rewrite app_nil_r]. destruct (decide (c = f)); [by subst|by rewrite app_nil_r].
      * by apply Io in Et.
      * split; cbn [dTask dWait]; [apply Ht'|apply Io| |].
        -- intros t d z. destruct (decide (o c = t)) as [<-|Hne]; [rewrite lookup_insert; by intros [= <- <-]|]. rewrite lookup_insert_ne by done. apply Iw.
        -- intros f. rewrite called_snoc, <- (Ig f). change (got f (mkDst (dTask s1) (<[o c:=(c, x)]> (dWait s1)) (dGot s1) (dEnd s1))) with (got f s1). unfold pending. cbn [dWait].
           destruct (decide (o f = o c)) as [E|E]; [rewrite E, Ew, lookup_insert, app_nil_r; by destruct x|]. rewrite lookup_insert_ne by done.
           assert (f <> c) as Hf by (intros ->; done). destruct x as [m|]; [destruct (decide (c = f)); [by subst|]|]; by rewrite app_nil_r.
Qed.
(* If no connection to a service fails, each service gets the messages of its channel, all and in order *)
Theorem C75_messages_partial owner tr s c : drun owner tr = Some s -> (forall d, DDial d false ∉ tr) -> DDial c true ∈ tr -> got c s = called c tr.
Proof.
  intros Hr Hn Hd. destruct (dinv_run owner tr s Hr Hn) as [It Io Iw Ig]. rewrite <- (Ig c). apply It in Hd. unfold pending. destruct (dWait s !! owner c) as [[d x]|] eqn:E; [|by rewrite app_nil_r].
  destruct (Iw _ _ _ E) as [_ H]. destruct x; [|by rewrite app_nil_r]. destruct (decide (d = c)) as [->|]; [by rewrite H in Hd|by rewrite app_nil_r].
Qed.
(* ... and meanwhile, before it is connected, a part of them *)
Theorem C75_messages_prefix_partial owner tr s c : drun owner tr = Some s -> (forall d, DDial d false ∉ tr) -> got c s `prefix_of` called c tr.
Proof. intros Hr Hn. destruct (dinv_run owner tr s Hr Hn) as [_ _ _ Ig]. rewrite <- (Ig c). by exists (pending owner c s). Qed.
(* One failed connection to a local service, and the next call for that channel (the end of the channel is one) blocks its thread for
   ever: no visitor served on that thread gets another message through *)
Lemma stuck_step o s e s' c x : dTask s !! c = Some false -> dWait s !! o c = Some (c, x) -> dstep o s e = Some s' -> dTask s' !! c = Some false /\ dWait s' !! o c = Some (c, x) /\ forall d y, e = DCall d y -> o d <> o c.
Proof.
  intros Ht Hw He. destruct e as [d ok|d y]; cbn [dstep] in He.
  - case_bool_decide as Hd; [|done]. assert (d <> c) as Hdc by (intros ->; by rewrite Ht in Hd). cbn [dWait dTask dGot dEnd] in He. split_and!; [| |done].
    + destruct (dWait s !! o d) as [[c' z]|]; [destruct (bool_decide (c' = d) && ok)|]; injection He as <-; rewrite ?task_perform; cbn; by rewrite lookup_insert_ne.
    + destruct (dWait s !! o d) as [[c' z]|] eqn:E; [destruct (bool_decide (c' = d) && ok) eqn:Eb|]; injection He as <-; rewrite ?wait_perform; cbn; [|done|done].
      apply andb_true_iff in Eb as [->%bool_decide_eq_true_1 _]. rewrite lookup_delete_ne; [done|]. intros Eq. rewrite Eq, Hw in E. injection E as -> _. done.
  - destruct (dWait s !! o d) as [|] eqn:E; [done|]. assert (o d <> o c) as Hne by (intros Eq; rewrite Eq, Hw in E; done).
    injection He as <-. split; [|split; [|by intros ? ? [= <- <-]]].
    + destruct (dTask s !! d) as [[|]|]; rewrite ?task_perform; done.
    + destruct (dTask s !! d) as [[|]|]; rewrite ?wait_perform; cbn; rewrite ?lookup_insert_ne by done; done.
Qed.
Theorem C75_failed_dial_refuted owner tr1 tr2 s1 s2 c x : drun owner tr1 = Some s1 -> DDial c false ∈ tr1 -> drun owner (tr1 ++ DCall c x :: tr2) = Some s2 ->
  forall d y, DCall d y ∈ tr2 -> owner d <> owner c.
Proof.
  intros H1 Hd H2.
  assert (forall tr s, drun owner tr = Some s -> DDial c false ∈ tr -> dTask s !! c = Some false) as Hf.
  { clear. induction tr as [|e tr IH] using rev_ind; intros s; [intros _ H; by apply elem_of_nil in H|]. rewrite drun_snoc. intros (s1 & H1 & He)%bind_Some Hin.
    apply elem_of_app in Hin as [Hin|Hin%elem_of_list_singleton].
    - pose proof (IH s1 H1 Hin) as Hs. destruct e as [d ok|d y]; cbn [dstep] in He.
      + case_bool_decide as Hd; [|done]. assert (d <> c) as Hdc by (intros ->; by rewrite Hs in Hd). cbn [dWait dTask dGot dEnd] in He.
        destruct (dWait s1 !! owner d) as [[c' z]|]; [destruct (bool_decide (c' = d) && ok)|]; injection He as <-; rewrite ?task_perform; cbn; by rewrite lookup_insert_ne.
      + destruct (dWait s1 !! owner d); [done|]. injection He as <-. destruct (dTask s1 !! d) as [[|]|]; rewrite ?task_perform; done.
    - subst e. cbn [dstep] in He. case_bool_decide as Hc; [|done]. cbn [dWait dTask dGot dEnd] in He.
      destruct (dWait s1 !! owner c) as [[c' z]|]; [rewrite andb_false_r in He|]; injection He as <-; cbn; by rewrite lookup_insert. }
  pose proof (Hf tr1 s1 H1 Hd) as Ht. rewrite cons_middle, app_assoc in H2.
  assert (exists s, drun owner (tr1 ++ [DCall c x]) = Some s) as (s & Hs).
  { destruct (drun owner (tr1 ++ [DCall c x])) as [s|] eqn:E; [by exists s|]. unfold drun in H2, E. rewrite fold_left_app in H2. rewrite E in H2. exfalso. clear -H2. induction tr2 as [|e tr2 IH]; [done|]. by apply IH. }
  assert (dTask s !! c = Some false /\ dWait s !! owner c = Some (c, x)) as [Ht' Hw].
  { rewrite drun_snoc, H1 in Hs. cbn in Hs. destruct (dWait s1 !! owner c) as [|]; [done|]. rewrite Ht in Hs. injection Hs as <-. cbn. by rewrite lookup_insert. }
  unfold drun in H2, Hs. rewrite fold_left_app, Hs in H2. clear -H2 Ht' Hw. revert s Ht' Hw H2. induction tr2 as [|e tr2 IH]; intros s Ht Hw H2 d y Hin; [by apply elem_of_nil in Hin|]. cbn in H2.
  destruct (dstep owner s e) as [s'|] eqn:E; [|exfalso; clear -H2; induction tr2 as [|e tr2 IH]; [done|by apply IH]]. destruct (stuck_step _ _ _ _ _ _ Ht Hw E) as (Ht' & Hw' & Hne).
  apply elem_of_cons in Hin as [<-|Hin]; [by eapply Hne|]. by eapply IH.
Qed.
Theorem C75_witness : let tr := [AConnected; AAdd 0; AStop 0; AAdd 1; ADrop 0; AStop 1; ADrop 1; AReset 1] in
  (exists s, arun tr = Some s /\ aArmed s = true) /\ (exists s, arun (tr ++ [AFire]) = Some s /\ aClosed s = true) /\
  (exists s, drun (fun c => Nat.modulo c 3) [DCall 0 (CMsg [1]); DDial 0 true; DCall 3 (CMsg [9]); DDial 3 true; DCall 0 (CMsg [2; 3]); DCall 3 CClosed] = Some s /\ got 0 s = [[1]; [2; 3]] /\ got 3 s = [[9]]) /\
  (exists s, drun (fun c => Nat.modulo c 3) [DDial 0 false; DCall 0 CClosed; DDial 1 true; DCall 1 (CMsg [5])] = Some s /\ got 1 s = [[5]] /\ dstep (fun c => Nat.modulo c 3) s (DCall 3 (CMsg [7])) = None).
Proof.
  cbv zeta. split; [eexists; split; [vm_compute; reflexivity|reflexivity]|]. split; [eexists; split; [vm_compute; reflexivity|reflexivity]|].
  split; [eexists; split; [vm_compute; reflexivity|split; reflexivity]|]. eexists; split; [vm_compute; reflexivity|split; reflexivity].
Qed.
