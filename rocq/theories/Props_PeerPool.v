(* Props_PeerPool.v -- C56: the number of peer-to-peer connections *)
From Verif Require Import GoBase PeerPoolModel.
Local Open Scope N_scope.

(* ---- specification, on the history ---- *)
Definition requests (tr : list ppevt) : list N := omap (fun e => match e with PReq id => Some id | _ => None end) tr.
(* task n was made for id and not closed *)
Definition alive (tr : list ppevt) (id n : N) : Prop := PAccept id n ∈ tr /\ PClose n ∉ tr.

(* ---- the map is never larger than the limit, in any history ---- *)
Record minv (limit : N) (s : ppool) : Prop := {
  mi_size : N.of_nat (size (pPeers s)) <= limit;
  mi_look : forall id, pHolder s = HLook id -> N.of_nat (size (pPeers s)) < limit;
  mi_entry : forall id n, pPeers s !! id = Some n -> exists ph, pTasks s !! n = Some (id, ph) /\ ph <> TClosed }.
Lemma size_delete_le (P : gmap N N) x : (size (delete x P) <= size P)%nat.
Proof. destruct (P !! x) eqn:E; [rewrite map_size_delete_Some by eauto; lia|by rewrite delete_notin]. Qed.
Lemma size_insert_le (P : gmap N N) x n : (size (<[x := n]> P) <= S (size P))%nat.
Proof. destruct (P !! x) eqn:E; [rewrite map_size_insert_Some by eauto; lia|by rewrite map_size_insert_None]. Qed.
Lemma minv_step limit s l s' : minv limit s -> ppstep limit s l s' -> minv limit s'.
Proof.
  intros [Hs Hl He] H. inversion H; subst; cbn [pPeers pTasks pHolder] in *; (split; cbn [pPeers pTasks pHolder]; [|try (intros ?; discriminate)|]); auto.
  - pose proof (size_insert_le P id n). specialize (Hl id eq_refl). lia.
  - intros i m Hm. apply lookup_insert_Some in Hm as [[<- <-]|[? Hm]]; [exists TLive; by rewrite lookup_insert|].
    destruct (He i m Hm) as (ph & ? & ?). exists ph. rewrite lookup_insert_ne; [done|]. intros ->. congruence.
  - intros i m Hm. destruct (He i m Hm) as (ph & ? & ?). destruct (decide (m = o)) as [->|].
    + exists TClosing. rewrite lookup_insert. split; [|done]. congruence.
    + exists ph. by rewrite lookup_insert_ne.
  - intros i m Hm. destruct (He i m Hm) as (ph & ? & ?). destruct (decide (m = o)) as [->|].
    + exists TClosing. rewrite lookup_insert. split; [|done]. congruence.
    + exists ph. by rewrite lookup_insert_ne.
  - pose proof (size_delete_le P x). lia.
  - intros i m Hm. apply lookup_delete_Some in Hm as [Hne Hm]. destruct (He i m Hm) as (ph & ? & ?). destruct (decide (m = o)) as [->|].
    + congruence.
    + exists ph. by rewrite lookup_insert_ne.
  - assert (size (filter (fun kv : N * N => closing T (snd kv) = true) P) <= size P)%nat; [|lia].
    rewrite <- !size_dom. apply subseteq_size. apply dom_filter_subseteq.
  - intros i m Hm. apply map_filter_lookup_Some in Hm as [Hm Hc]. cbn in Hc. unfold closing in Hc.
    destruct (T !! m) as [[x []]|] eqn:E; try done. destruct (He i m Hm) as (ph & E2 & ?). exists TClosing. split; [|done].
    rewrite map_lookup_imap, E. cbn. unfold closed_by_all. cbn. congruence.
Qed.
Theorem C56_map_bounded : forall limit tr s, ppexec limit ppool0 tr s -> N.of_nat (size (pPeers s)) <= limit.
Proof.
  intros limit tr s H. assert (G : minv limit s); [|apply G]. remember ppool0 as s0 eqn:E. induction H as [|s tr s1 l s2 H IH Hs]; subst.
  - split; cbn; [rewrite map_size_empty; lia|done|]. intros id n Hn. by rewrite lookup_empty in Hn.
  - eapply minv_step; eauto.
Qed.

(* ---- when no id is used twice ---- *)
Record pinv (tr : list ppevt) (s : ppool) : Prop := {
  pv_req : forall n id ph, pTasks s !! n = Some (id, ph) -> id ∈ requests tr;
  pv_holder : forall id, pHolder s = HCheck id \/ pHolder s = HLook id -> id ∈ requests tr /\ forall n ph, pTasks s !! n <> Some (id, ph);
  pv_free : forall id, pHolder s <> HStuck id;
  pv_one : forall n m id p q, pTasks s !! n = Some (id, p) -> pTasks s !! m = Some (id, q) -> n = m;
  pv_in : PCloseAll ∉ tr -> forall n id, pTasks s !! n = Some (id, TLive) -> pPeers s !! id = Some n;
  pv_acc : PCloseAll ∉ tr -> forall n id, PAccept id n ∈ tr -> PClose n ∉ tr -> pTasks s !! n = Some (id, TLive);
  pv_ent : forall id n, pPeers s !! id = Some n -> exists ph, pTasks s !! n = Some (id, ph) }.
Lemma requests_app a b : requests (a ++ b) = requests a ++ requests b.
Proof. unfold requests. apply omap_app. Qed.

Lemma pinv_step limit tr s l s' : NoDup (requests (tr ++ l)) -> pinv tr s -> ppstep limit s l s' -> pinv (tr ++ l) s'.
Proof.
  intros Hnd [Hr Hh Hf Ho Hi Ha He] H. rewrite requests_app in Hnd.
  assert (Hca : PCloseAll ∉ tr ++ l -> PCloseAll ∉ tr) by set_solver.
  assert (Hra : forall x, x ∈ requests tr -> x ∈ requests (tr ++ l)) by (intros; rewrite requests_app; set_solver).
  inversion H; subst; cbn [pPeers pTasks pHolder] in *.
  - (* req *) split; cbn [pPeers pTasks pHolder]; eauto.
    + intros id' [[= <-]|[=]]. split; [rewrite requests_app; set_solver|]. intros n ph Hn. apply Hr in Hn.
      apply NoDup_app in Hnd as (_ & Hd & _). apply (Hd _ Hn). cbn. by left.
    + intros Hc n id' Hin Hn. apply Ha; set_solver.
  - (* forbid *) split; cbn [pPeers pTasks pHolder]; eauto.
    + intros id' [[=]|[=]].
    + intros Hc n id' Hin Hn. apply Ha; set_solver.
  - (* check *) split; cbn [pPeers pTasks pHolder]; eauto; try done.
    + intros id' [[=]|[= <-]]. destruct (Hh id) as [? ?]; auto.
    + intros Hc n id' Hin Hn. apply Ha; set_solver.
  - (* new *) destruct (Hh id) as [Hreq Hno]; [auto|].
    assert (HP : P !! id = None).
    { destruct (P !! id) as [o|] eqn:E; [|done]. destruct (He id o E) as [ph ?]. by destruct (Hno o ph). }
    split; cbn [pPeers pTasks pHolder].
    + intros m id' ph Hm. apply lookup_insert_Some in Hm as [[<- [= <- <-]]|[? Hm]]; eauto.
    + intros id' [[=]|[=]].
    + intros ? [=].
    + intros m1 m2 id' p q G1 G2. apply lookup_insert_Some in G1 as [[<- [= <- <-]]|[? G1]]; apply lookup_insert_Some in G2 as [[<- E2]|[? G2]]; try done.
      * by destruct (Hno m2 q).
      * injection E2 as <- <-. by destruct (Hno m1 p).
      * by eapply Ho.
    + intros Hc m id' Hm. apply lookup_insert_Some in Hm as [[<- [= <-]]|[? Hm]]; [by rewrite lookup_insert|].
      rewrite lookup_insert_ne; [auto|]. intros ->. by destruct (Hno m TLive).
    + intros Hc m id' Hin Hn. apply elem_of_app in Hin as [Hin|Hin].
      * rewrite lookup_insert_ne; [apply Ha; set_solver|]. intros ->.
        assert (T !! m = Some (id', TLive)) by (apply Ha; set_solver). congruence.
      * apply elem_of_list_singleton in Hin. injection Hin as -> ->. by rewrite lookup_insert.
    + intros id' m Hm. apply lookup_insert_Some in Hm as [[<- <-]|[? Hm]]; [eexists; by rewrite lookup_insert|].
      destruct (He id' m Hm) as [ph ?]. exists ph. rewrite lookup_insert_ne; [done|]. intros ->. congruence.
  - (* same *) exfalso. destruct (Hh id) as [_ Hno]; [auto|]. match goal with X : P !! id = Some _ |- _ => destruct (He _ _ X) as [ph ?] end. by destruct (Hno o ph).
  - (* close *) split; cbn [pPeers pTasks pHolder]; auto.
    + intros m id' ph Hm. apply lookup_insert_Some in Hm as [[<- [= <- <-]]|[? Hm]]; eauto.
    + intros id' Hx. destruct (Hh id' Hx) as [? Hno]. split; [auto|]. intros m ph Hm. apply lookup_insert_Some in Hm as [[<- [= <- <-]]|[? Hm]]; [|by eapply Hno]. by eapply Hno.
    + intros m1 m2 id' p q G1 G2. apply lookup_insert_Some in G1 as [[<- [= <- <-]]|[? G1]]; apply lookup_insert_Some in G2 as [[<- E2]|[? G2]]; try done.
      * by eapply Ho.
      * injection E2 as <- <-. by eapply Ho.
      * by eapply Ho.
    + intros Hc m id' Hm. apply lookup_insert_Some in Hm as [[<- [=]]|[? Hm]]; auto.
    + intros Hc m id' Hin Hn. apply elem_of_app in Hin as [Hin|Hin]; [|set_solver].
      rewrite lookup_insert_ne; [apply Ha; set_solver|]. intros ->. set_solver.
    + intros id' m Hm. destruct (He id' m Hm) as [ph E]. destruct (decide (m = o)) as [->|]; [|exists ph; by rewrite lookup_insert_ne].
      eexists. rewrite lookup_insert. f_equal. f_equal. congruence.
  - (* delete *) split; cbn [pPeers pTasks pHolder]; auto.
    + intros m id' ph Hm. apply lookup_insert_Some in Hm as [[<- [= <- <-]]|[? Hm]]; eauto.
    + intros id' [[=]|[=]].
    + intros m1 m2 id' p q G1 G2. apply lookup_insert_Some in G1 as [[<- [= <- <-]]|[? G1]]; apply lookup_insert_Some in G2 as [[<- E2]|[? G2]]; try done.
      * by eapply Ho.
      * injection E2 as <- <-. by eapply Ho.
      * by eapply Ho.
    + intros Hc m id' Hm. apply lookup_insert_Some in Hm as [[<- [=]]|[Hno Hm]]. rewrite lookup_delete_ne; [auto|].
      intros ->. apply Hno. by eapply Ho.
    + intros Hc m id' Hin Hn. apply elem_of_app in Hin as [Hin|Hin]; [|set_solver].
      assert (E : T !! m = Some (id', TLive)) by (apply Ha; set_solver).
      rewrite lookup_insert_ne; [done|]. intros ->. congruence.
    + intros id' m Hm. apply lookup_delete_Some in Hm as [? Hm]. destruct (He id' m Hm) as [ph E]. destruct (decide (m = o)) as [->|]; [|exists ph; by rewrite lookup_insert_ne].
      eexists. rewrite lookup_insert. f_equal. f_equal. congruence.
  - (* data *) split; cbn [pPeers pTasks pHolder]; eauto.
    + intros id' [[=]|[=]].
    + intros Hc m id' Hin Hn. apply Ha; set_solver.
  - (* all *) assert (Him : forall m, map_imap (fun n x => Some (closed_by_all P n x)) T !! m = closed_by_all P m <$> T !! m).
    { intros m. rewrite map_lookup_imap. by destruct (T !! m). }
    assert (Hid : forall m x, fst (closed_by_all P m x) = fst x) by (intros m [x []]; unfold closed_by_all; cbn; try case_bool_decide; done).
    split; cbn [pPeers pTasks pHolder].
    + intros m id' ph Hm. rewrite Him in Hm. apply fmap_Some in Hm as ([x p] & E & E2). apply (f_equal fst) in E2. rewrite Hid in E2. cbn in E2. subst x. eauto.
    + intros id' [[=]|[=]].
    + intros ? [=].
    + intros m1 m2 id' p q G1 G2. rewrite Him in G1, G2. apply fmap_Some in G1 as ([x1 p1] & E1 & F1). apply fmap_Some in G2 as ([x2 p2] & E2 & F2).
      apply (f_equal fst) in F1. apply (f_equal fst) in F2. rewrite Hid in F1, F2. cbn in F1, F2. subst. by eapply Ho.
    + intros Hc. set_solver.
    + intros Hc. set_solver.
    + intros id' m Hm. apply map_filter_lookup_Some in Hm as [Hm _]. destruct (He id' m Hm) as [ph E]. rewrite Him, E. cbn.
      destruct (closed_by_all P m (id', ph)) as [y q] eqn:E2. exists q. f_equal. f_equal. apply (f_equal fst) in E2. rewrite Hid in E2. by cbn in E2.
Qed.
Lemma pinv_exec limit tr s : ppexec limit ppool0 tr s -> NoDup (requests tr) -> pinv tr s.
Proof.
  intros H. remember ppool0 as s0 eqn:E. induction H as [|s tr s1 l s2 H IH Hs]; subst; intros Hnd.
  - split; cbn; try done; intros; try (rewrite lookup_empty in *; done); try naive_solver; set_solver.
  - eapply pinv_step; eauto. apply IH; [done|]. rewrite requests_app in Hnd. by apply NoDup_app in Hnd as (? & _ & _).
Qed.

Lemma ppexec_cons limit s l s1 tr s2 : ppstep limit s l s1 -> ppexec limit s1 tr s2 -> ppexec limit s (l ++ tr) s2.
Proof.
  intros H1 H2. induction H2 as [s1|s1 tr s3 l' s4 H IH Hs].
  - rewrite app_nil_r. apply (ppx_snoc limit s [] s l s1); [constructor|done].
  - rewrite app_assoc. econstructor; [by apply IH|done].
Qed.
(* Before the client is closed, and if no request has the id of an earlier one: there are never more connections than
   configured, *)
Theorem C56_bounded_partial : forall limit tr s l, ppexec limit ppool0 tr s -> NoDup (requests tr) -> PCloseAll ∉ tr ->
  NoDup l -> (forall n, n ∈ l -> exists id, alive tr id n) -> N.of_nat (length l) <= limit.
Proof.
  intros limit tr s l H Hnd Hc Hl Hal. pose proof (pinv_exec _ _ _ H Hnd) as [_ _ _ Ho Hi Ha _].
  assert (G : exists ids : list N, length ids = length l /\ NoDup ids /\ (forall i, i ∈ ids -> exists n, n ∈ l /\ pTasks s !! n = Some (i, TLive))).
  { induction l as [|n l IH]; [exists []; split; [done|split; [constructor|set_solver]]|].
    apply NoDup_cons in Hl as [Hn Hl]. destruct IH as (ids & Hlen & Hd & Hin); [done|intros; apply Hal; set_solver|].
    destruct (Hal n) as (id & H1 & H2); [set_solver|]. pose proof (Ha Hc n id H1 H2) as Hn2.
    exists (id :: ids). split; [cbn; lia|]. split.
    - constructor; [|done]. intros Hx. destruct (Hin id Hx) as (m & Hm & Hm2). apply Hn. by rewrite (Ho n m id _ _ Hn2 Hm2).
    - intros i Hx. apply elem_of_cons in Hx as [->|Hx]; [exists n; set_solver|]. destruct (Hin i Hx) as (m & ? & ?). exists m. set_solver. }
  destruct G as (ids & Hlen & Hd & Hin).
  assert (Hsz : (length ids <= size (pPeers s))%nat).
  { rewrite <- size_dom. rewrite <- (size_list_to_set (C := gset N)) by done. apply subseteq_size. intros i Hx. apply elem_of_list_to_set in Hx.
    destruct (Hin i Hx) as (n & _ & Hn). apply elem_of_dom. exists n. by apply Hi. }
  pose proof (C56_map_bounded _ _ _ H). lia.
Qed.
(* every data frame of a connection reaches it, *)
Theorem C56_data_reaches_partial : forall limit tr s s' id n r, ppexec limit ppool0 tr s -> NoDup (requests tr) -> PCloseAll ∉ tr ->
  alive tr id n -> ppstep limit s [PData id r] s' -> r = Some n.
Proof.
  intros limit tr s s' id n r H Hnd Hc [H1 H2] Hs. pose proof (pinv_exec _ _ _ H Hnd) as [_ _ _ _ Hi Ha _].
  inversion Hs; subst; cbn in *. apply Hi; [done|]. by apply Ha.
Qed.
(* When Client.Close has closed the peers, none is left working; *)
Theorem C56_close_closes_partial : forall limit tr s s', ppexec limit ppool0 tr s -> NoDup (requests tr) -> PCloseAll ∉ tr ->
  ppstep limit s [PCloseAll] s' -> forall n id, pTasks s' !! n <> Some (id, TLive).
Proof.
  intros limit tr s s' H Hnd Hc Hs n id Hn. pose proof (pinv_exec _ _ _ H Hnd) as [_ _ _ _ Hi _ _]. inversion Hs; subst; cbn [pTasks pPeers] in *.
  rewrite map_lookup_imap in Hn. destruct (T !! n) as [[i p]|] eqn:E; [|done]. cbn in Hn. injection Hn as Hn. unfold closed_by_all in Hn. cbn in Hn.
  destruct p; try done. rewrite (Hi Hc n i E), bool_decide_eq_true_2 in Hn by done. done.
Qed.
(* and the lock of the table is always given back by the next steps of its holder. *)
Theorem C56_lock_released_partial : forall limit tr s, ppexec limit ppool0 tr s -> NoDup (requests tr) ->
  exists tr' s', ppexec limit s tr' s' /\ pHolder s' = HNone.
Proof.
  intros limit tr [P T h] H Hnd. pose proof (pinv_exec _ _ _ H Hnd) as [Hr Hh Hf Ho Hi Ha He]. cbn in *.
  assert (Hnew : forall id, h = HCheck id \/ h = HLook id -> exists s', ppexec limit (mkPP P T (HLook id)) [PAccept id (fresh (dom T))] s' /\ pHolder s' = HNone).
  { intros id Hid. destruct (Hh id Hid) as [_ Hno].
    assert (HP : P !! id = None) by (destruct (P !! id) as [o|] eqn:E; [|done]; destruct (He id o E) as [ph ?]; by destruct (Hno o ph)).
    eexists. split; [|shelve]. change [PAccept id (fresh (dom T))] with ([] ++ [PAccept id (fresh (dom T))]). eapply ppx_snoc; [constructor|]. apply pp_new.
    - apply not_elem_of_dom. apply is_fresh.
    - by rewrite HP.
    Unshelve. done. }
  destruct h as [|id|id|id].
  - exists [], (mkPP P T HNone). split; [constructor|done].
  - destruct (decide (limit <= N.of_nat (size P))) as [Hle|Hle].
    + exists ([] ++ [PForbid id]), (mkPP P T HNone). split; [|done]. eapply ppx_snoc; [constructor|]. by apply pp_forbid.
    + destruct (Hnew id) as (s' & Hx & Hd); [auto|]. exists ([PPTau] ++ [PAccept id (fresh (dom T))]), s'. split; [|done].
      eapply ppexec_cons; [apply pp_check; lia|exact Hx].
  - destruct (Hnew id) as (s' & Hx & Hd); [auto|]. eauto.
  - by destruct (Hf id).
Qed.

(* ---- where it fails ---- *)
(* A request whose id belongs to a live task (a second server, or the server was restarted and counts from 1 again): the
   readLoop waits for the lock it holds.  From then on no request, no data frame and no Close gets through the table. *)
Definition through (e : ppevt) : bool := match e with PReq _ | PAccept _ _ | PForbid _ | PData _ _ | PCloseAll => true | _ => false end.
Theorem C56_stuck_for_ever : forall limit P T id tr s, ppexec limit (mkPP P T (HStuck id)) tr s -> Forall (fun e => through e = false) tr.
Proof.
  intros limit P T id tr s H. remember (mkPP P T (HStuck id)) as s0 eqn:E0.
  assert (G : Forall (fun e => through e = false) tr /\ pHolder s = HStuck id); [|apply G].
  induction H as [s|s tr s1 l s2 H IH Hs]; [by subst|]. destruct (IH E0) as [I1 I2].
  inversion Hs; subst; cbn in I2; try discriminate I2. cbn. split; [|done]. apply Forall_app. split; [done|]. by repeat constructor.
Qed.
Theorem C56_deadlock_refuted : exists tr s, ppexec 30 ppool0 tr s /\ requests tr = [1; 1] /\
  forall tr' s', ppexec 30 s tr' s' -> Forall (fun e => through e = false) tr'.
Proof.
  exists ([PReq 1] ++ [PPTau] ++ [PAccept 1 100] ++ [PReq 1] ++ [PPTau] ++ [PClose 100] ++ []).
  eexists. split; [|split; [done|]].
  - unfold ppool0. eapply ppexec_cons; [apply pp_req|]. eapply ppexec_cons; [apply pp_check; by vm_compute|].
    eapply ppexec_cons; [apply pp_new; [by vm_compute|by rewrite lookup_empty]|].
    eapply ppexec_cons; [apply pp_req|]. eapply ppexec_cons; [apply pp_check; by vm_compute|].
    eapply ppexec_cons; [eapply pp_same with (o := 100); by vm_compute|]. apply ppx_nil.
  - intros tr' s' H. eapply C56_stuck_for_ever. exact H.
Qed.
(* The old task with the id is just being closed: it deletes the entry of the new one.  The new connection gets no data any
   more and is not counted: with a limit of 2, three are alive. *)
Theorem C56_limit_refuted : exists tr s, ppexec 2 ppool0 tr s /\ PCloseAll ∉ tr /\
  alive tr 1 101 /\ alive tr 2 102 /\ alive tr 3 103 /\ PData 1 None ∈ tr.
Proof.
  exists ([PReq 1] ++ [PPTau] ++ [PAccept 1 100] ++ [PClose 100] ++ [PReq 1] ++ [PPTau] ++ [PAccept 1 101] ++ [PPTau] ++ [PData 1 None]
       ++ [PReq 2] ++ [PPTau] ++ [PAccept 2 102] ++ [PReq 3] ++ [PPTau] ++ [PAccept 3 103] ++ []).
  eexists. split; [|split; [set_solver|unfold alive; set_solver]]. unfold ppool0.
  eapply ppexec_cons; [apply pp_req|]. eapply ppexec_cons; [apply pp_check; by vm_compute|].
  eapply ppexec_cons; [apply pp_new; [by vm_compute|by rewrite lookup_empty]|].
  eapply ppexec_cons; [eapply pp_close with (o := 100); by vm_compute|].
  eapply ppexec_cons; [apply pp_req|]. eapply ppexec_cons; [apply pp_check; by vm_compute|].
  eapply ppexec_cons; [apply pp_new; [by vm_compute|by rewrite lookup_insert]|].
  eapply ppexec_cons; [eapply pp_delete with (o := 100) (x := 1); by vm_compute|].
  match goal with |- ppexec _ (mkPP ?P ?T _) _ _ => pose proof (pp_data 2 P T 1) as Hd end. rewrite lookup_delete in Hd.
  eapply ppexec_cons; [exact Hd|].
  eapply ppexec_cons; [apply pp_req|]. eapply ppexec_cons; [apply pp_check; by vm_compute|].
  eapply ppexec_cons; [apply pp_new; [by vm_compute|by vm_compute]|].
  eapply ppexec_cons; [apply pp_req|]. eapply ppexec_cons; [apply pp_check; by vm_compute|].
  eapply ppexec_cons; [apply pp_new; [by vm_compute|by vm_compute]|]. apply ppx_nil.
Qed.
(* and such a connection is not closed with the client either *)
Theorem C56_close_refuted : exists tr s, ppexec 2 ppool0 (tr ++ [PCloseAll]) s /\ alive tr 1 101 /\ pTasks s !! 101 = Some (1, TLive).
Proof.
  exists ([PReq 1] ++ [PPTau] ++ [PAccept 1 100] ++ [PClose 100] ++ [PReq 1] ++ [PPTau] ++ [PAccept 1 101] ++ [PPTau]).
  eexists. split; [|split; [unfold alive; set_solver|]]; [rewrite <- !app_assoc; unfold ppool0|].
  { eapply ppexec_cons; [apply pp_req|]. eapply ppexec_cons; [apply pp_check; by vm_compute|].
  eapply ppexec_cons; [apply pp_new; [by vm_compute|by rewrite lookup_empty]|].
  eapply ppexec_cons; [eapply pp_close with (o := 100); by vm_compute|].
  eapply ppexec_cons; [apply pp_req|]. eapply ppexec_cons; [apply pp_check; by vm_compute|].
  eapply ppexec_cons; [apply pp_new with (n := 101); [by vm_compute|by rewrite lookup_insert]|].
  eapply ppexec_cons; [eapply pp_delete with (o := 100) (x := 1); by vm_compute|].
  change [PCloseAll] with ([PCloseAll] ++ []). eapply ppexec_cons; [apply pp_all|]. apply ppx_nil. }
  by vm_compute.
Qed.
(* ---- a history that meets the hypotheses: two connections, one request refused ---- *)
Theorem C56_witness : exists tr s, ppexec 2 ppool0 tr s /\ NoDup (requests tr) /\ PCloseAll ∉ tr /\ alive tr 1 101 /\ alive tr 2 102 /\ PForbid 3 ∈ tr /\ PData 1 (Some 101) ∈ tr.
Proof.
  exists ([PReq 1] ++ [PPTau] ++ [PAccept 1 101] ++ [PReq 2] ++ [PPTau] ++ [PAccept 2 102] ++ [PReq 3] ++ [PForbid 3] ++ [PData 1 (Some 101)] ++ []).
  eexists. split; [|split; [|split; [set_solver|unfold alive; set_solver]]]; [|cbn; repeat constructor; set_solver]. unfold ppool0.
  eapply ppexec_cons; [apply pp_req|]. eapply ppexec_cons; [apply pp_check; by vm_compute|].
  eapply ppexec_cons; [apply pp_new; [by vm_compute|by rewrite lookup_empty]|].
  eapply ppexec_cons; [apply pp_req|]. eapply ppexec_cons; [apply pp_check; by vm_compute|].
  eapply ppexec_cons; [apply pp_new; [by vm_compute|by vm_compute]|].
  eapply ppexec_cons; [apply pp_req|]. eapply ppexec_cons; [apply pp_forbid; by vm_compute|].
  eapply ppexec_cons; [exact (pp_data 2 (<[2:=102]> (<[1:=101]> ∅)) _ 1)|]. apply ppx_nil.
Qed.
