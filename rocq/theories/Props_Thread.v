(* Props_Thread.v -- C86: peer-to-peer visitors served by threads do not hold each other up; what is true of that. *)
From Verif Require Import GoBase ThreadModel.
Local Open Scope N_scope.

(* ---------- the pool *)
Definition one_at_a_time (n : nat) (tr : list pev) : Prop := forall t o, t `prefix_of` tr -> prun (pool0 n) t = Some o -> (size (oCalls o) <= 1)%nat.
Definition pinv (n : nat) (o : pool) : Prop :=
  oN o = n /\ oIdx o = (length (oGot o) `mod` n)%nat /\
  (forall k c sk r, oGot o !! k = Some (c, sk, r) -> r = Some (k `mod` n)%nat) /\
  (forall c sk p, oCalls o !! c = Some (sk, p) -> match p with
     | CShared | CExcl => True
     | CAgain | CTake => oIdx o ∈ made o sk
     | CNext r => r = Some (oIdx o)
     | CWrite r v => r = Some (oIdx o) /\ v = oIdx o end).

Lemma prun_snoc o tr e : prun o (tr ++ [e]) = prun o tr ≫= fun s => pstep s e.
Proof. unfold prun. by rewrite fold_left_app. Qed.
Lemma size1 {A} (m : gmap nat A) c d x y : (size m <= 1)%nat -> m !! c = Some x -> m !! d = Some y -> c = d.
Proof.
  intros Hs Hc Hd. destruct (decide (c = d)) as [|Hn]; [done|]. exfalso.
  assert (size m = S (size (delete c m))) as E1 by (rewrite map_size_delete_Some by eauto; assert (size m ≠ 0)%nat by (intros H0; apply map_size_empty_inv in H0; subst; done); lia).
  assert (size (delete c m) ≠ 0)%nat; [|lia]. intros H0. apply map_size_empty_inv in H0.
  assert (delete c m !! d = Some y) as H1 by (by rewrite lookup_delete_ne). rewrite H0 in H1. done.
Qed.
Lemma made_at o c sk p sk' : made (at_ o c sk p) sk' = made o sk'. Proof. by destruct sk'. Qed.
Lemma made_make o sk i : i ∈ made (make1 o sk i) sk. Proof. destruct sk; cbn; set_solver. Qed.

Lemma pinv_run n tr o : (0 < n)%nat -> one_at_a_time n tr -> prun (pool0 n) tr = Some o -> pinv n o.
Proof.
  intros Hn. revert o. induction tr as [|e tr IH] using rev_ind; intros o H1.
  { cbn. intros [= <-]. split_and!; [done|cbn; by rewrite Nat.mod_0_l by lia|done|]. intros c sk p. cbn. by rewrite lookup_empty. }
  intros Hr. pose proof Hr as Hfull. rewrite prun_snoc in Hr. destruct (prun (pool0 n) tr) as [o1|] eqn:E; [|done]. cbn in Hr.
  assert (one_at_a_time n tr) as H1' by (intros t o' Ht; apply H1; by apply prefix_app_r).
  destruct (IH o1 H1' eq_refl) as (I1 & I2 & I3 & I4). clear IH.
  assert (size (oCalls o) <= 1)%nat as Hs by (by apply (H1 _ _ (reflexivity _))).
  destruct e as [c sk|c]; cbn [pstep] in Hr.
  - destruct (oCalls o1 !! c) eqn:Ec; [done|]. injection Hr as <-. split_and!; [done|done|done|].
    intros d sk' p Hd. cbn [oCalls at_] in Hd. destruct (decide (d = c)) as [-> |Hdc]; [rewrite lookup_insert in Hd; by simplify_eq|].
    rewrite lookup_insert_ne in Hd by done. apply I4 in Hd. by destruct p; rewrite ?made_at.
  - destruct (oCalls o1 !! c) as [[sk p]|] eqn:Ec; [|done]. cbn in Hr.
    assert (forall o' sk' p', oCalls o = <[c := (sk', p')]> o' -> forall d x, oCalls o !! d = Some x -> d = c /\ x = (sk', p')) as Honly.
    { intros o' sk' p' He d x Hd. assert (d = c) as -> by (eapply size1; [exact Hs|exact Hd|rewrite He; apply lookup_insert]). split; [done|].
      rewrite He, lookup_insert in Hd. congruence. }
    specialize (I4 _ _ _ Ec).
    destruct p as [| | | |r|r v].
    + injection Hr as <-. split_and!; [done|done|done|]. intros d sk' p' Hd. destruct (Honly _ _ _ eq_refl _ _ Hd) as [_ [= -> ->]].
      case_bool_decide as Hm; [|done]. by rewrite made_at.
    + case_bool_decide; [|done]. injection Hr as <-. split_and!; [done|done|done|]. intros d sk' p' Hd. destruct (Honly _ _ _ eq_refl _ _ Hd) as [_ [= -> ->]].
      rewrite made_at. apply made_make.
    + injection Hr as <-. split_and!; [done|done|done|]. intros d sk' p' Hd. destruct (Honly _ _ _ eq_refl _ _ Hd) as [_ [= -> ->]]. by rewrite made_at.
    + injection Hr as <-. split_and!; [done|done|done|]. intros d sk' p' Hd. destruct (Honly _ _ _ eq_refl _ _ Hd) as [_ [= -> ->]].
      by rewrite bool_decide_true.
    + injection Hr as <-. split_and!; [done|done|done|]. intros d sk' p' Hd. destruct (Honly _ _ _ eq_refl _ _ Hd) as [_ [= -> ->]]. done.
    + destruct I4 as [-> ->]. injection Hr as <-. split_and!; cbn [oN oIdx oGot oCalls].
      * done.
      * rewrite app_length, I1, I2. cbn [length]. rewrite Nat.add_1_r. rewrite <- (Nat.add_1_l (_ `mod` _)), Nat.add_mod_idemp_r by lia. f_equal.
      * intros k c' sk' r Hk. apply lookup_app_Some in Hk as [Hk|[Hk1 Hk]]; [by eapply I3|]. apply list_lookup_singleton_Some in Hk as [Hk0 [= <- <- <-]].
        assert (k = length (oGot o1)) as -> by lia. by rewrite <- I2.
      * intros d sk' p' Hd. exfalso. apply lookup_delete_Some in Hd as [Hdc Hd]. cbn [oCalls] in Hs.
        assert (size (oCalls o1) <= 1)%nat as Hs1 by (by apply (H1' _ _ (reflexivity _))). apply Hdc. eapply size1; eauto.
Qed.

(* Calls that do not overlap are given the threads in turn, and a thread each. *)
Theorem C86_in_turn_partial n tr o k c sk r : (0 < n)%nat -> one_at_a_time n tr -> prun (pool0 n) tr = Some o -> oGot o !! k = Some (c, sk, r) -> r = Some (k `mod` n)%nat.
Proof. intros Hn H1 Hr Hk. destruct (pinv_run n tr o Hn H1 Hr) as (_ & _ & H & _). by eapply H. Qed.
(* Every visitor takes three, and there are three: the signalling thread is the same one for all of them, and so are the other two. *)
Theorem C86_all_the_same_refuted tr o j i c sk r : one_at_a_time 3 tr -> prun (pool0 3) tr = Some o -> (i < 3)%nat -> oGot o !! (3 * j + i)%nat = Some (c, sk, r) -> r = Some i.
Proof.
  intros H1 Hr Hi Hk. pose proof (C86_in_turn_partial 3 tr o _ c sk r ltac:(lia) H1 Hr Hk) as ->. f_equal.
  rewrite Nat.add_comm, (Nat.mul_comm 3 j), Nat.mod_add by lia. by apply Nat.mod_small.
Qed.
(* Two calls that overlap: one is given a null pointer. *)
Theorem C86_null_refuted : exists o, prun (pool0 3) [PCall 0 false; PStep 0; PCall 1 false; PStep 1; PStep 0; PStep 1; PStep 0; PStep 0; PStep 0; PStep 0; PStep 1; PStep 1; PStep 1; PStep 1] = Some o /\
  oGot o = [(0%nat, false, Some 0%nat); (1%nat, false, None)].
Proof. eexists. split; [vm_compute; reflexivity|]. vm_compute. done. Qed.

(* ---------- the signalling thread *)
Lemma grun_snoc s tr e : grun s (tr ++ [e]) = grun s tr ≫= fun s => gstep s e.
Proof. unfold grun. by rewrite fold_left_app. Qed.
Definition phase_of (s : sig) (p : nat) : option pphase := pPh <$> gPeers s !! p.
Definition chan_of (s : sig) (p : nat) : list bytes := default [] (pChan <$> gPeers s !! p).
Definition got_of (s : sig) (p : nat) : list bytes := default [] (pGot <$> gPeers s !! p).

(* The thread waits to hand over a candidate to a task whose channel is full and whose loop does not run, be it not yet or no longer: then it waits for
   ever.  No job of any visitor is done any more: no answer is given, no candidate handed over, no connection closed. *)
Definition jammed (s : sig) : Prop := exists p c js, gJobs s = JCand p c :: js /\ (ROOM <= length (chan_of s p))%nat /\ phase_of s p <> Some PRun /\ is_Some (gPeers s !! p).
Lemma jammed_step s e s' : jammed s -> gstep s e = Some s' -> jammed s' /\ gDone s' = gDone s /\
  (forall q, phase_of s q <> Some PRun -> phase_of s' q <> Some PRun /\ got_of s' q = got_of s q).
Proof.
  intros (p & c & js & Hj & Hf & Hph & x & Hx) Hs. destruct s as [js0 ps dn]. unfold chan_of, phase_of, got_of in *. cbn [gJobs gPeers gDone] in *. rewrite Hx in Hf, Hph. cbn in Hf, Hph.
  assert (forall js' ps' d, js' = js0 \/ (exists j, js' = js0 ++ [j]) -> ps' !! p = Some d -> pPh d <> PRun -> (ROOM <= length (pChan d))%nat -> jammed (mkSig js' ps' dn)) as Hgoal.
  { intros js' ps' d Hjs Hd Hd1 Hd2. exists p, c. unfold chan_of, phase_of. cbn [gJobs gPeers]. rewrite Hd. destruct Hjs as [-> |(j & ->)].
    - exists js. split_and!; [done|done| |by eexists]. cbn. by intros [= ?].
    - exists (js ++ [j]). split_and!; [by rewrite Hj|done| |by eexists]. cbn. by intros [= ?]. }
  assert (pPh x <> PRun) as Hph' by (intros E; by rewrite E in Hph). clear Hph.
  destruct e as [q|q d|q| |q|q|q]; cbn [gstep] in Hs.
  - destruct (ps !! q) as [pe|] eqn:Eq; [done|]. injection Hs as <-. split_and!; [|done|].
    + eapply (Hgoal _ _ x); [by left| |done|done]. rewrite lookup_insert_ne; [done|congruence].
    + intros r Hr. cbn [gPeers]. destruct (decide (r = q)) as [-> |]; [rewrite lookup_insert, Eq; done|]. by rewrite lookup_insert_ne.
  - destruct (ps !! q) as [pe|] eqn:Eq; [|done]. injection Hs as <-. split_and!; [|done|done]. eapply (Hgoal _ _ x); [right; by eexists|done|done|done].
  - destruct (ps !! q) as [[[] ch gt]|] eqn:Eq; try done. injection Hs as <-. split_and!; [|done|].
    + destruct (decide (q = p)) as [-> |Hq].
      * rewrite Hx in Eq. injection Eq as ->. eapply (Hgoal _ _ (mkPeer PAsked ch gt)); [right; by eexists|apply lookup_insert|done|done].
      * eapply (Hgoal _ _ x); [right; by eexists| |done|done]. by rewrite lookup_insert_ne.
    + intros r Hr. cbn [gPeers]. destruct (decide (r = q)) as [-> |]; [rewrite lookup_insert, Eq; done|]. by rewrite lookup_insert_ne.
  - exfalso. rewrite Hj, Hx in Hs. destruct x as [ph ch gt]. cbn in Hf. destruct (Nat.ltb_spec (length ch) ROOM); [lia|done].
  - destruct (ps !! q) as [[[] [|d ch] gt]|] eqn:Eq; try done. injection Hs as <-. split_and!; [|done|].
    + destruct (decide (q = p)) as [-> |Hq]; [rewrite Hx in Eq; by injection Eq as ->|]. eapply (Hgoal _ _ x); [by left| |done|done]. by rewrite lookup_insert_ne.
    + intros r Hr. cbn [gPeers]. destruct (decide (r = q)) as [-> |]; [by rewrite Eq in Hr|]. by rewrite lookup_insert_ne.
  - destruct (ps !! q) as [[[] ch gt]|] eqn:Eq; try done. injection Hs as <-. split_and!; [|done|].
    + destruct (decide (q = p)) as [-> |Hq]; [rewrite Hx in Eq; by injection Eq as ->|]. eapply (Hgoal _ _ x); [by left| |done|done]. by rewrite lookup_insert_ne.
    + intros r Hr. cbn [gPeers]. destruct (decide (r = q)) as [-> |]; [by rewrite Eq in Hr|]. by rewrite lookup_insert_ne.
  - destruct (ps !! q) as [pe|] eqn:Eq; [|done]. injection Hs as <-. split_and!; [|done|done]. eapply (Hgoal _ _ x); [right; by eexists|done|done|done].
Qed.
Theorem C86_jammed_for_ever_refuted s tr s' : jammed s -> grun s tr = Some s' -> gDone s' = gDone s /\
  forall q, phase_of s q <> Some PRun -> phase_of s' q <> Some PRun /\ got_of s' q = got_of s q.
Proof.
  intros Hj. enough (grun s tr = Some s' -> jammed s' /\ gDone s' = gDone s /\ forall q, phase_of s q <> Some PRun -> phase_of s' q <> Some PRun /\ got_of s' q = got_of s q) by tauto.
  revert s'. induction tr as [|e tr IH] using rev_ind; intros s'; [by intros [= <-]|]. rewrite grun_snoc. destruct (grun s tr) as [s1|]; [|done]. cbn. intros H.
  destruct (IH _ eq_refl) as (H1 & H2 & H3). destruct (jammed_step _ _ _ H1 H) as (K1 & K2 & K3). split_and!; [done|congruence|].
  intros q Hq. destruct (H3 q Hq) as [L1 L2]. destruct (K3 q L1) as [M1 M2]. split; [done|congruence].
Qed.

(* How it comes to that: seventeen candidates are found before the task has asked for its description; or while its visitor's connection is broken.  A
   second visitor then gets nothing at all. *)
Theorem C86_jam_refuted : exists s, grun sig0 (GOpen 1 :: replicate 17 (GFound 1 [99]) ++ replicate 16 GWork ++ [GAsk 1; GOpen 2; GFound 2 [98]; GAsk 2]) = Some s /\
  jammed s /\ phase_of s 1 = Some PAsked /\ phase_of s 2 = Some PAsked /\ gJobs s = [JCand 1 [99]; JGet 1; JCand 2 [98]; JGet 2].
Proof.
  eexists. split; [vm_compute; reflexivity|]. split_and!; [|vm_compute; done..]. exists 1%nat, [99]. eexists. split; [vm_compute; reflexivity|].
  split_and!; [vm_compute; lia|vm_compute; done|vm_compute; by eexists].
Qed.
Theorem C86_broken_visitor_refuted : exists s, grun sig0 ([GOpen 1; GAsk 1; GWork; GFound 1 [97]; GWork; GTake 1; GLeave 1] ++ replicate 17 (GFound 1 [99]) ++ replicate 16 GWork ++ [GClose 1]) = Some s /\
  jammed s /\ phase_of s 1 = Some PEnd /\ JDel 1 ∈ gJobs s.
Proof.
  eexists. split; [vm_compute; reflexivity|]. split_and!; [|vm_compute; done|vm_compute; set_solver]. exists 1%nat, [99]. eexists. split; [vm_compute; reflexivity|].
  split_and!; [vm_compute; lia|vm_compute; done|vm_compute; by eexists].
Qed.

(* ---------- what holds.  All that is handed over is taken out in the order it was found. *)
Definition is_cand (p : nat) (j : job) : bool := match j with JCand q _ => bool_decide (q = p) | _ => false end.
Definition cands (p : nat) (l : list job) : list bytes := omap (fun j => match j with JCand q c => if bool_decide (q = p) then Some c else None | _ => None end) l.
Definition found (p : nat) (tr : list gev) : list bytes := omap (fun e => match e with GFound q c => if bool_decide (q = p) then Some c else None | _ => None end) tr.
Lemma cands_app p a b : cands p (a ++ b) = cands p a ++ cands p b. Proof. apply omap_app. Qed.

Definition asked_ok (s : sig) : Prop := forall q, JGet q ∈ gJobs s -> phase_of s q = Some PAsked.
Definition ginv (s : sig) : Prop := (forall p, cands p (gDone s) = got_of s p ++ chan_of s p) /\ (forall p c, JCand p c ∈ gJobs s -> is_Some (gPeers s !! p)) /\
  (forall p, (length (chan_of s p) <= ROOM)%nat) /\ asked_ok s /\ (forall q, (length (filter (fun j => j = JGet q) (gJobs s)) <= 1)%nat).
Lemma ginv_run tr s : grun sig0 tr = Some s -> ginv s /\ forall p, found p tr = cands p (gDone s ++ gJobs s).
Proof.
  revert s. induction tr as [|e tr IH] using rev_ind; intros s.
  { cbn. intros [= <-]. split; [|done]. unfold ginv, asked_ok, got_of, chan_of, phase_of. cbn. split_and!; intros; rewrite ?lookup_empty; try done; try set_solver; cbn; lia. }
  rewrite grun_snoc. destruct (grun sig0 tr) as [[js ps dn]|] eqn:E; [|done]. cbn [mbind option_bind]. destruct (IH _ eq_refl) as ((I1 & I2 & I3 & I4 & I5) & I6). clear IH E.
  unfold ginv, asked_ok, got_of, chan_of, phase_of in *. cbn [gJobs gPeers gDone] in *.
  assert (forall p, found p (tr ++ [e]) = found p tr ++ found p [e]) as Hf by (intros p; apply omap_app).
  destruct e as [q|q d|q| |q|q|q]; cbn [gstep].
  - destruct (ps !! q) as [pe|] eqn:Eq; [done|]. intros [= <-]. cbn [gJobs gPeers gDone]. split; [|intros p; rewrite Hf; cbn; rewrite app_nil_r; apply I6]. split_and!.
    + intros p. specialize (I1 p). destruct (decide (p = q)) as [-> |]; [rewrite lookup_insert; rewrite Eq in I1; done|]. by rewrite lookup_insert_ne.
    + intros p c Hj. destruct (I2 _ _ Hj) as [x Hx]. exists x. rewrite lookup_insert_ne; [done|congruence].
    + intros p. specialize (I3 p). destruct (decide (p = q)) as [-> |]; [rewrite lookup_insert; cbn; lia|]. by rewrite lookup_insert_ne.
    + intros p Hj. specialize (I4 p Hj). destruct (decide (p = q)) as [-> |]; [by rewrite Eq in I4|]. by rewrite lookup_insert_ne.
    + done.
  - destruct (ps !! q) as [pe|] eqn:Eq; [|done]. intros [= <-]. cbn [gJobs gPeers gDone]. split.
    2: { intros p. rewrite Hf, I6, (assoc_L (++)), (cands_app p (dn ++ js)). done. }
    split_and!; [done| |done| |].
    + intros p c. rewrite elem_of_app, elem_of_list_singleton. intros [Hj|[= -> ->]]; [by eapply I2|by eexists].
    + intros p. rewrite elem_of_app, elem_of_list_singleton. intros [Hj|?]; [by apply I4|done].
    + intros p. rewrite filter_app, app_length, (filter_cons_False _ (JCand q d)) by done. cbn. specialize (I5 p). lia.
  - destruct (ps !! q) as [[[] ch gt]|] eqn:Eq; try done. intros [= <-]. cbn [gJobs gPeers gDone]. split.
    2: { intros p. rewrite Hf, I6. rewrite (assoc_L (++)), (cands_app p _ [JGet q]). cbn. done. }
    split_and!.
    + intros p. specialize (I1 p). destruct (decide (p = q)) as [-> |]; [rewrite lookup_insert; rewrite Eq in I1; done|]. by rewrite lookup_insert_ne.
    + intros p c. rewrite elem_of_app, elem_of_list_singleton. intros [Hj|?]; [|done]. destruct (I2 _ _ Hj) as [x Hx].
      destruct (decide (p = q)) as [-> |]; [rewrite lookup_insert; by eexists|]. rewrite lookup_insert_ne by done. by eexists.
    + intros p. specialize (I3 p). destruct (decide (p = q)) as [-> |]; [rewrite lookup_insert; by rewrite Eq in I3|]. by rewrite lookup_insert_ne.
    + intros p. rewrite elem_of_app, elem_of_list_singleton. destruct (decide (p = q)) as [-> |Hpq]; [intros _; by rewrite lookup_insert|]. rewrite lookup_insert_ne by done.
      intros [Hj|[= ?]]; [by apply I4|done].
    + intros p. rewrite filter_app, app_length. specialize (I5 p). destruct (decide (p = q)) as [-> |Hpq].
      * rewrite (filter_cons_True _ (JGet q)) by done. cbn. assert (filter (fun j => j = JGet q) js = []) as ->; [|cbn; lia].
        destruct (filter (fun j => j = JGet q) js) as [|j l] eqn:Ef; [done|]. assert (j ∈ filter (fun j => j = JGet q) js) as Hj by (rewrite Ef; left).
        apply elem_of_list_filter in Hj as [-> Hj]. apply I4 in Hj. by rewrite Eq in Hj.
      * rewrite (filter_cons_False _ (JGet q)) by congruence. cbn. lia.
  - destruct js as [|[q c|q|q] js]; [done|..].
    + destruct (ps !! q) as [[ph ch gt]|] eqn:Eq; [|done]. destruct (Nat.ltb_spec (length ch) ROOM) as [Hl|]; [|done]. intros [= <-]. cbn [gJobs gPeers gDone]. split.
      2: { intros p. rewrite Hf, I6, <- (assoc_L (++)). cbn [app found omap list_omap]. by rewrite app_nil_r. }
      split_and!.
      * intros p. specialize (I1 p). rewrite cands_app, I1. destruct (decide (p = q)) as [-> |Hpq].
        -- rewrite lookup_insert, Eq. cbn. rewrite bool_decide_true by done. by rewrite (assoc_L (++)).
        -- rewrite lookup_insert_ne by done. cbn. rewrite bool_decide_false by done. by rewrite app_nil_r.
      * intros p c' Hj. destruct (I2 p c') as [x Hx]; [by right|]. destruct (decide (p = q)) as [-> |]; [rewrite lookup_insert; by eexists|]. rewrite lookup_insert_ne by done. by eexists.
      * intros p. specialize (I3 p). destruct (decide (p = q)) as [-> |]; [rewrite lookup_insert; cbn; rewrite app_length; cbn; lia|]. by rewrite lookup_insert_ne.
      * intros p Hj. specialize (I4 p). destruct (decide (p = q)) as [-> |]; [rewrite lookup_insert; rewrite Eq in I4; apply I4; by right|]. rewrite lookup_insert_ne by done. apply I4. by right.
      * intros p. specialize (I5 p). by rewrite (filter_cons_False _ (JCand q c)) in I5 by done.
    + destruct (ps !! q) as [[[] ch gt]|] eqn:Eq; try done. intros [= <-]. cbn [gJobs gPeers gDone]. split.
      2: { intros p. rewrite Hf, I6, <- (assoc_L (++)). cbn [app found omap list_omap]. by rewrite app_nil_r. }
      split_and!.
      * intros p. specialize (I1 p). rewrite cands_app, I1. cbn. rewrite app_nil_r. destruct (decide (p = q)) as [-> |Hpq]; [by rewrite lookup_insert, Eq|]. by rewrite lookup_insert_ne.
      * intros p c' Hj. destruct (I2 p c') as [x Hx]; [by right|]. destruct (decide (p = q)) as [-> |]; [rewrite lookup_insert; by eexists|]. rewrite lookup_insert_ne by done. by eexists.
      * intros p. specialize (I3 p). destruct (decide (p = q)) as [-> |]; [rewrite lookup_insert; by rewrite Eq in I3|]. by rewrite lookup_insert_ne.
      * intros p Hj. destruct (decide (p = q)) as [-> |].
        -- exfalso. specialize (I5 q). rewrite (filter_cons_True _ (JGet q)) in I5 by done. cbn in I5.
           assert (JGet q ∈ filter (fun j => j = JGet q) js) as Hin by (by apply elem_of_list_filter). destruct (filter _ js); [by apply elem_of_nil in Hin|cbn in I5; lia].
        -- rewrite lookup_insert_ne by done. apply I4. by right.
      * intros p. specialize (I5 p). destruct (decide (p = q)) as [-> |].
        -- rewrite (filter_cons_True _ (JGet q)) in I5 by done. cbn in I5. lia.
        -- by rewrite (filter_cons_False _ (JGet q)) in I5 by congruence.
    + intros [= <-]. cbn [gJobs gPeers gDone]. split.
      2: { intros p. rewrite Hf, I6, <- (assoc_L (++)). cbn [app found omap list_omap]. by rewrite app_nil_r. }
      split_and!.
      * intros p. rewrite cands_app, I1. cbn. by rewrite app_nil_r.
      * intros p c' Hj. apply (I2 p c'). by right.
      * done.
      * intros p Hj. apply I4. by right.
      * intros p. specialize (I5 p). by rewrite (filter_cons_False _ (JDel q)) in I5 by done.
  - destruct (ps !! q) as [[[] [|c ch] gt]|] eqn:Eq; try done. intros [= <-]. cbn [gJobs gPeers gDone]. split; [|intros p; rewrite Hf; cbn; rewrite app_nil_r; apply I6]. split_and!.
    + intros p. rewrite I1. destruct (decide (p = q)) as [-> |]; [rewrite lookup_insert, Eq; cbn; by rewrite <- (assoc_L (++))|]. by rewrite lookup_insert_ne.
    + intros p c' Hj. destruct (I2 p c' Hj) as [x Hx]. destruct (decide (p = q)) as [-> |]; [rewrite lookup_insert; by eexists|]. rewrite lookup_insert_ne by done. by eexists.
    + intros p. specialize (I3 p). destruct (decide (p = q)) as [-> |]; [rewrite lookup_insert; rewrite Eq in I3; cbn in *; lia|]. by rewrite lookup_insert_ne.
    + intros p Hj. specialize (I4 p Hj). destruct (decide (p = q)) as [-> |]; [by rewrite Eq in I4|]. by rewrite lookup_insert_ne.
    + done.
  - destruct (ps !! q) as [[[] ch gt]|] eqn:Eq; try done. intros [= <-]. cbn [gJobs gPeers gDone]. split; [|intros p; rewrite Hf; cbn; rewrite app_nil_r; apply I6]. split_and!.
    + intros p. rewrite I1. destruct (decide (p = q)) as [-> |]; [by rewrite lookup_insert, Eq|]. by rewrite lookup_insert_ne.
    + intros p c' Hj. destruct (I2 p c' Hj) as [x Hx]. destruct (decide (p = q)) as [-> |]; [rewrite lookup_insert; by eexists|]. rewrite lookup_insert_ne by done. by eexists.
    + intros p. specialize (I3 p). destruct (decide (p = q)) as [-> |]; [rewrite lookup_insert; by rewrite Eq in I3|]. by rewrite lookup_insert_ne.
    + intros p Hj. specialize (I4 p Hj). destruct (decide (p = q)) as [-> |]; [by rewrite Eq in I4|]. by rewrite lookup_insert_ne.
    + done.
  - destruct (ps !! q) as [pe|] eqn:Eq; [|done]. intros [= <-]. cbn [gJobs gPeers gDone]. split.
    2: { intros p. rewrite Hf, I6. rewrite (assoc_L (++)), (cands_app p _ [JDel q]). cbn. done. }
    split_and!; [done| |done| |].
    + intros p c. rewrite elem_of_app, elem_of_list_singleton. intros [Hj|?]; [by eapply I2|done].
    + intros p. rewrite elem_of_app, elem_of_list_singleton. intros [Hj|?]; [by apply I4|done].
    + intros p. rewrite filter_app, app_length, (filter_cons_False _ (JDel q)) by done. cbn. specialize (I5 p). lia.
Qed.

Theorem C86_in_order tr s p : grun sig0 tr = Some s -> got_of s p `prefix_of` found p tr.
Proof. intros Hr. destruct (ginv_run _ _ Hr) as ((I1 & _) & I6). rewrite I6, cands_app, I1, <- !(assoc_L (++)). by apply prefix_app_r. Qed.

(* As long as the loops run, or a visitor has no more than sixteen candidates, the thread goes on. *)
Definition done1 (s s' : sig) : Prop := exists j, head (gJobs s) = Some j /\ gDone s' = gDone s ++ [j].
Lemma work_cand p c js ps dn ph ch gt : ps !! p = Some (mkPeer ph ch gt) -> (length ch < ROOM)%nat ->
  gstep (mkSig (JCand p c :: js) ps dn) GWork = Some (mkSig js (<[p := mkPeer ph (ch ++ [c]) gt]> ps) (dn ++ [JCand p c])).
Proof. intros Hx Hl. cbn [gstep]. rewrite Hx. destruct (Nat.ltb_spec (length ch) ROOM); [done|lia]. Qed.
Theorem C86_goes_on_partial tr s : grun sig0 tr = Some s -> gJobs s <> [] ->
  (forall p c, head (gJobs s) = Some (JCand p c) -> phase_of s p = Some PRun \/ (length (found p tr) <= 16)%nat) ->
  exists es s', (length es <= 2)%nat /\ grun s es = Some s' /\ done1 s s'.
Proof.
  intros Hr Hj Hok. destruct (ginv_run _ _ Hr) as ((I1 & I2 & I3 & I4 & I5) & I6). destruct s as [js ps dn]. cbn [gJobs] in *.
  destruct js as [|[p c|p|p] js]; [done|..].
  - specialize (I2 p c ltac:(left)) as [[ph ch gt] Hx]. cbn [gPeers] in Hx. specialize (I1 p). specialize (I3 p). specialize (I6 p). unfold got_of, chan_of, phase_of in *.
    cbn [gPeers gJobs gDone] in *. rewrite Hx in I1, I3. cbn in I1, I3.
    assert ((length ch < ROOM)%nat \/ ph = PRun) as [Hroom|Hrun].
    { destruct (Hok p c eq_refl) as [Hph|Hl]; [right; rewrite Hx in Hph; by injection Hph|left].
      rewrite I6, cands_app, I1 in Hl. cbn [cands omap list_omap] in Hl. rewrite bool_decide_true in Hl by done. rewrite !app_length in Hl. cbn in Hl. unfold ROOM. lia. }
    + exists [GWork]. eexists. split; [cbn; lia|]. split; [exact (work_cand _ _ _ _ _ _ _ _ Hx Hroom)|]. by eexists.
    + subst ph. destruct (decide (length ch < ROOM)%nat) as [Hroom|Hfull].
      * exists [GWork]. eexists. split; [cbn; lia|]. split; [exact (work_cand _ _ _ _ _ _ _ _ Hx Hroom)|]. by eexists.
      * destruct ch as [|d ch]; [exfalso; unfold ROOM in Hfull; cbn in Hfull; lia|]. exists [GTake p; GWork]. eexists. split; [cbn; lia|].
        split; [unfold grun; cbn [fold_left mbind option_bind gstep]; rewrite Hx; eapply work_cand; [apply lookup_insert|cbn in I3; lia]|]. by eexists.
  - specialize (I4 p ltac:(left)). unfold phase_of in I4. cbn in I4. destruct (ps !! p) as [[ph ch gt]|] eqn:Hx; [|done]. injection I4 as ->.
    exists [GWork]. eexists. split; [cbn; lia|]. split; [cbn; by rewrite Hx|]. by eexists.
  - exists [GWork]. eexists. split; [cbn; lia|]. split; [done|]. by eexists.
Qed.

Theorem C86_witness : exists s, grun sig0 [GOpen 1; GFound 1 [97]; GAsk 1; GOpen 2; GWork; GFound 1 []; GWork; GTake 1; GWork; GTake 1; GAsk 2; GWork; GFound 2 [98]; GWork; GTake 2] = Some s /\
  got_of s 1 = [[97]; []] /\ phase_of s 1 = Some PEnd /\ got_of s 2 = [[98]] /\ gJobs s = [].
Proof. eexists. split; [vm_compute; reflexivity|]. split_and!; vm_compute; done. Qed.
Theorem C86_witness_pool : exists o, prun (pool0 3)
    [PCall 0 false; PStep 0; PStep 0; PStep 0; PStep 0; PStep 0; PStep 0; PCall 1 true; PStep 1; PStep 1; PStep 1; PStep 1; PStep 1; PStep 1] = Some o /\
  oGot o = [(0%nat, false, Some 0%nat); (1%nat, true, Some 1%nat)].
Proof. eexists. split; [vm_compute; reflexivity|]. vm_compute. done. Qed.
