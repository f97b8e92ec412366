(* Props_Dispatch.v -- C49 (visitors reach the service behind their prefix, also while the client reloads) and
   C50 (a reload does not disturb the visitors being served) *)
From Verif Require Import GoBase DispatchModel.
Local Open Scope N_scope.

(* ---------------- specification *)
(* two configurations agree where they overlap: the service of an index is the same in both *)
Definition compatible (c d : cfg) : Prop := forall i x y, c !! i = Some x -> d !! i = Some y -> x = y.
(* a visitor that asked for p was connected to l and p -> l is in one of the configurations that were in force *)
Definition rightly (cs : list cfg) (x : N * N) : Prop := exists c, c ∈ cs /\ x ∈ c.

(* ---------------- the invariant, for a set [A] of compatible configurations *)
Definition entry (A : cfg -> Prop) (p i : N) : Prop := exists c l, A c /\ c !! N.to_nat i = Some (p, l).
Definition tun_ok (A : cfg -> Prop) (T : tun) : Prop :=
  Forall A (tUp T) /\ Forall (fun m => match m with DTask _ p i => entry A p i | DReady => True end) (tDown T) /\
  (forall c, tSvcs T = Some c -> A c).
Record dinv (A : cfg -> Prop) (st : dst) : Prop := {
  di_reg : forall p i, dReg st !! p = Some i -> entry A p i;
  di_cur : A (dCur st);
  di_tun : forall t T, dTuns st !! t = Some T -> tun_ok A T;
  di_vis : forall v p i, dVis st !! v = Some (p, i) -> entry A p i }.
Definition good (A : cfg -> Prop) (x : N * N) : Prop := exists c, A c /\ x ∈ c.

Lemma index_entry (A : cfg -> Prop) p c i : A c -> index_of p c = Some i -> entry A p i.
Proof.
  intros HA. unfold index_of. destruct (list_find _ c) as [[k x]|] eqn:E; [|done]. cbn. intros [= <-].
  apply list_find_Some in E. destruct E as (Hk & Hp & _). exists c, x.2. rewrite Nat2N.id. split; [done|].
  destruct x; cbn in *. by subst.
Qed.

Lemma dinv_step (A : cfg -> Prop) st st' :
  (forall c d, A c -> A d -> compatible c d) ->
  dinv A st -> dstep st st' -> A (dCur st') ->
  dinv A st' /\ exists new, dOut st' = dOut st ++ new /\ Forall (good A) new.
Proof.
  intros HC [HR HU HT HV] Hs HA.
  assert (HT' : forall (tuns : gmap nat tun) t T, (forall t T, tuns !! t = Some T -> tun_ok A T) -> tun_ok A T ->
            forall t' T', <[t := T]> tuns !! t' = Some T' -> tun_ok A T').
  { intros tuns t T H1 H2' t' T' E. apply lookup_insert_Some in E. destruct E as [[_ <-]|[_ E]]; [done|by eapply H1]. }
  inversion Hs; subst; cbn [dReg dCur dTuns dVis dOut] in *.
  - split; [|exists []; by rewrite app_nil_r]. split; cbn; try done. apply HT'; [done|]. split; [by constructor|]. split; [constructor|done].
  - split; [|exists []; by rewrite app_nil_r]. split; cbn; try done. apply HT'; [done|]. by apply (HT _ _ H).
  - split; [|exists []; by rewrite app_nil_r]. split; cbn; try done. intros q i E.
    destruct (HT _ _ H) as (Hup & _). cbn in Hup. inversion_clear Hup.
    destruct (index_of p c) as [k|] eqn:EI.
    + apply lookup_insert_Some in E. destruct E as [[<- <-]|[_ E]]; [by eapply index_entry|by apply HR].
    + apply lookup_delete_Some in E. destruct E as [_ E]. by apply HR.
  - split; [|exists []; by rewrite app_nil_r]. split; cbn; try done. apply HT'; [done|].
    destruct (HT _ _ H) as (Hup & Hd & Hsv). cbn in *. inversion_clear Hup. split; [done|]. split; [|done].
    cbn. apply Forall_app. split; [done|]. by constructor.
  - split; [|exists []; by rewrite app_nil_r]. split; cbn; try done. intros q i E.
    apply lookup_delete_Some in E. destruct E as [_ E]. by apply HR.
  - split; [|exists []; by rewrite app_nil_r]. split; cbn; try done. intros w q k E.
    apply lookup_insert_Some in E. destruct E as [[_ [= <- <-]]|[_ E]]; [by apply HR|by eapply HV].
  - split; [|exists []; by rewrite app_nil_r]. split; cbn; try done.
    + apply HT'; [done|]. match goal with E : tuns !! _ = Some _ |- _ => destruct (HT _ _ E) as (Hup & Hd & Hsv) end.
      split; [done|]. split; [|done]. cbn. apply Forall_app. split; [done|]. constructor; [|done]. by eapply HV.
    + intros w q k E. apply lookup_delete_Some in E. destruct E as [_ E]. by eapply HV.
  - split; [|exists []; by rewrite app_nil_r]. split; cbn; done.
  - match goal with E : tuns !! _ = Some _ |- _ => destruct (HT _ _ E) as (Hup & Hd & Hsv) end. cbn in *.
    inversion_clear Hd as [|? ? He Hd']. destruct He as (c0 & l0 & Hc0 & El0).
    assert (HAc : A c) by (by apply Hsv).
    assert (E2 : (p, l0) = (q, l)) by (eapply (HC c0 c); done). injection E2 as <- <-.
    split.
    + split; cbn; try done. apply HT'; [done|]. split; [done|]. by split.
    + exists [(p, l0)]. split; [done|]. constructor; [|done]. exists c. split; [done|]. by eapply elem_of_list_lookup_2.
  - match goal with E : tuns !! _ = Some _ |- _ => destruct (HT _ _ E) as (Hup & Hd & Hsv) end. cbn in *.
    inversion_clear Hd. split; [|exists []; by rewrite app_nil_r]. split; cbn; try done. apply HT'; [done|]. split; [done|]. split; [done|]. cbn. by intros ? [= <-].
  - split; [|exists []; by rewrite app_nil_r]. split; cbn; try done. intros t' T' E. apply lookup_delete_Some in E. destruct E as [_ E]. by eapply HT.
  - split; [|exists []; by rewrite app_nil_r]. split; cbn; done.
  - split; [|exists []; by rewrite app_nil_r]. split; cbn; try done. apply HT'; [done|].
    match goal with E : tuns !! _ = Some _ |- _ => destruct (HT _ _ E) as (Hup & Hd & Hsv) end. split; [|done].
    cbn. apply Forall_app. split; [done|]. by constructor.
  - split; [|exists []; by rewrite app_nil_r]. split; cbn; done.
Qed.
Lemma hist_step st st' : dstep st st' -> exists new, dHist st' = dHist st ++ new /\ (dCur st' = dCur st \/ dCur st' ∈ new).
Proof. intros Hs. inversion Hs; subst; cbn; try (exists []; rewrite app_nil_r; by auto). exists [new]. split; [done|]. right. by left. Qed.
Lemma hist_reach st st' : dreach st st' -> dCur st ∈ dHist st -> dCur st' ∈ dHist st' /\ forall c, c ∈ dHist st -> c ∈ dHist st'.
Proof.
  intros HR. induction HR as [|a b c Hab Hbc IH]; [done|]. intros HC.
  destruct (hist_step _ _ Hab) as (new & E & HN).
  assert (HB : dCur b ∈ dHist b) by (rewrite E; apply elem_of_app; destruct HN as [->|HN]; auto).
  destruct (IH HB) as [A1 A2]. split; [done|]. intros d Hd. apply A2. rewrite E. apply elem_of_app. by left.
Qed.

(* Whatever the interleaving, if the configurations that were in force agree where they overlap (for instance when reloads
   only append services, or change nothing but prefixes' order at the end), every visitor is connected to a service its
   prefix stood for. *)
Theorem C49_right_service_partial c0 st :
  dreach (dinit c0) st ->
  (forall c d, c ∈ dHist st -> d ∈ dHist st -> compatible c d) ->
  Forall (rightly (dHist st)) (dOut st).
Proof.
  intros HR HC.
  assert (HG : forall a b, dreach a b -> dCur a ∈ dHist a -> (forall c, c ∈ dHist b -> c ∈ dHist st) ->
            dinv (fun c => c ∈ dHist st) a -> Forall (good (fun c => c ∈ dHist st)) (dOut a) -> Forall (good (fun c => c ∈ dHist st)) (dOut b)).
  { intros a b Hab. induction Hab as [|a b d Hab Hbd IH]; [done|]. intros HCur HSub HI HO.
    destruct (hist_step _ _ Hab) as (new & E & HN).
    assert (HB : dCur b ∈ dHist b) by (rewrite E; apply elem_of_app; destruct HN as [->|HN]; auto).
    destruct (hist_reach _ _ Hbd HB) as [_ HM].
    destruct (dinv_step (fun c => c ∈ dHist st) a b) as [HI' (o & EO & HO')]; [done|done|done| |].
    { apply HSub, HM, HB. }
    apply IH; [done|done|done|]. rewrite EO. apply Forall_app. by split. }
  destruct (hist_reach _ _ HR) as [_ HM]; [cbn; by left|].
  assert (HI : dinv (fun c => c ∈ dHist st) (dinit c0)).
  { split; cbn; try done. apply HM. cbn. by left. }
  assert (HF : Forall (good (fun c => c ∈ dHist st)) (dOut st)).
  { apply (HG (dinit c0) st HR); [cbn; by left|done|done|]. cbn. constructor. }
  eapply Forall_impl; [exact HF|]. intros x (c & Hc & Hx). exists c. done.
Qed.

(* In particular while no reload changes anything: from a settled state every visitor is connected to the service its prefix
   stands for. *)
Definition settled (c : cfg) (st : dst) : Prop := dinv (fun d => d = c) st.
Lemma hist_len st st' : dreach st st' -> (length (dHist st) <= length (dHist st'))%nat.
Proof. induction 1 as [|a b c Hab _ IH]; [done|]. destruct (hist_step _ _ Hab) as (new & E & _). rewrite E, app_length in IH. lia. Qed.
Theorem C49_settled c st st' :
  settled c st -> dreach st st' -> dHist st' = dHist st ->             (* no reload in between *)
  settled c st' /\ exists new, dOut st' = dOut st ++ new /\ Forall (fun x => x ∈ c) new.
Proof.
  intros HI HR. revert HI. induction HR as [b|b d e Hbd Hde IH]; intros HIb HH.
  - split; [done|]. exists []. by rewrite app_nil_r.
  - destruct (hist_step _ _ Hbd) as (new & E & HN). pose proof (hist_len _ _ Hde) as HL. rewrite HH, E, app_length in HL.
    destruct new; [|cbn in HL; lia]. rewrite app_nil_r in E. destruct HN as [HN|HN]; [|by apply elem_of_nil in HN].
    destruct (dinv_step (fun d => d = c) b d) as [HI' (o & EO & HO')]; [|done|done| |].
    + intros x y -> -> i u v E1 E2. congruence.
    + rewrite HN. apply HIb.
    + destruct (IH HI' ltac:(congruence)) as (HS & n2 & E2 & F2). split; [done|]. exists (o ++ n2). rewrite E2, EO, <- app_assoc. split; [done|].
      apply Forall_app. split; [|done]. eapply Forall_impl; [exact HO'|]. by intros x (? & -> & ?).
Qed.
(* the start is settled, so a client that never reloads always connects visitors rightly *)
Lemma settled_init c : settled c (dinit c).
Proof. split; cbn; done. Qed.

(* ---------------- a reload does not spare the visitors in flight *)
(* The server ends every visitor of a tunnel when it reads the new configuration on it, whatever the change is. *)
Theorem C50_reload_cuts_all_refuted st st' t T T' v :
  dTuns st !! t = Some T -> tBegun T = false -> dstep st st' -> dTuns st' !! t = Some T' -> tBegun T' = true ->
  dBusy st !! v = Some t -> dBusy st' !! v = None /\ v ∈ dCut st'.
Proof.
  intros HT HB Hs HT' HB' Hv. inversion Hs; subst; cbn [dTuns dBusy dCut] in *;
    try (simplify_eq; congruence);
    try (match goal with H : <[?k := _]> _ !! t = Some T' |- _ => apply lookup_insert_Some in H; destruct H as [[? ?]|[? ?]]; simplify_eq; cbn in *; congruence end).
  - apply lookup_insert_Some in HT'. destruct HT' as [[<- <-]|[? ?]]; [|simplify_eq; congruence].
    split.
    + apply map_filter_lookup_None. right. intros x Hx Hne. rewrite Hv in Hx. injection Hx as <-. cbn in Hne. done.
    + apply elem_of_app. right. apply elem_of_list_fmap. match goal with H : busy !! v = Some ?k |- _ => exists (v, k) end. split; [done|].
      apply elem_of_list_filter. split; [done|]. by apply elem_of_map_to_list.
  - apply lookup_delete_Some in HT'. destruct HT' as [? ?]. simplify_eq; congruence.
Qed.

(* ---------------- concrete runs *)
Definition c_old : cfg := [(97, 1); (98, 2)].       (* 'a' -> service 1, 'b' -> service 2 *)
Definition c_new : cfg := [(98, 2)].                  (* 'a' is removed: 'b' moves from index 1 to index 0 *)

(* A reload that removes a service.  The server has taken the new configuration from tunnel 1; a visitor of 'b' is sent
   with the new index over tunnel 2, on which the client still uses the old list: it is connected to the service behind 'a',
   which no configuration ever associated with 'b'. *)
Theorem C49_misrouted_refuted :
  exists c0 st, dreach (dinit c0) st /\ ~ Forall (rightly (dHist st)) (dOut st) /\
    (forall c, c ∈ dHist st -> NoDup (fst <$> c)).
Proof.
  exists c_old. eexists. split.
  - unfold dreach, dinit.
    eapply rtc_l; [apply (d_connect _ _ _ _ _ _ _ _ _ 1%nat); reflexivity|].
    eapply rtc_l; [eapply (d_begin _ _ _ _ _ _ _ _ _ 1%nat); reflexivity|].
    eapply rtc_l; [eapply (d_update _ _ _ _ _ _ _ _ _ 1%nat _ _ _ _ 97); reflexivity|].
    eapply rtc_l; [eapply (d_update _ _ _ _ _ _ _ _ _ 1%nat _ _ _ _ 98); reflexivity|].
    eapply rtc_l; [eapply (d_answer _ _ _ _ _ _ _ _ _ 1%nat); reflexivity|].
    eapply rtc_l; [eapply (d_ready _ _ _ _ _ _ _ _ _ 1%nat); reflexivity|].
    eapply rtc_l; [apply (d_connect _ _ _ _ _ _ _ _ _ 2%nat); reflexivity|].
    eapply rtc_l; [eapply (d_begin _ _ _ _ _ _ _ _ _ 2%nat); reflexivity|].
    eapply rtc_l; [eapply (d_answer _ _ _ _ _ _ _ _ _ 2%nat); reflexivity|].
    eapply rtc_l; [eapply (d_ready _ _ _ _ _ _ _ _ _ 2%nat); reflexivity|].
    eapply rtc_l; [apply (d_reload _ _ _ _ _ _ _ _ c_new)|].
    match goal with |- context [mkD _ _ ?p _ _ _ _ _ _] => let p' := eval vm_compute in p in change p with p' end.
    match goal with |- context [mkD _ _ (?t :: ?r) _ _ _ _ _ _] => eapply rtc_l; [eapply (d_write _ _ r _ _ _ _ _ _ t); reflexivity|] end.
    match goal with |- context [mkD _ _ (?t :: ?r) _ _ _ _ _ _] => eapply rtc_l; [eapply (d_write _ _ r _ _ _ _ _ _ t); reflexivity|] end.
    eapply rtc_l; [eapply (d_begin _ _ _ _ _ _ _ _ _ 1%nat); reflexivity|].
    eapply rtc_l; [eapply (d_update _ _ _ _ _ _ _ _ _ 1%nat _ _ _ _ 98); reflexivity|].
    eapply rtc_l; [eapply (d_update _ _ _ _ _ _ _ _ _ 1%nat _ _ _ _ 97); reflexivity|].
    eapply rtc_l; [eapply (d_lookup _ _ _ _ _ _ _ _ _ 7%nat 98); reflexivity|].
    eapply rtc_l; [eapply (d_send _ _ _ _ _ _ _ _ _ 7%nat 98 _ 2%nat); reflexivity|].
    eapply rtc_l; [eapply (d_deliver _ _ _ _ _ _ _ _ _ 2%nat); reflexivity|].
    apply rtc_refl.
  - split.
    + cbn [dOut dHist app]. intros HF. inversion HF as [|? ? (c & Hc & Hx) _]; subst.
      assert (HB : c = c_old \/ c = c_new) by (cbn in Hc; set_solver).
      destruct HB as [-> | ->]; unfold c_old, c_new in Hx; repeat (apply elem_of_cons in Hx; destruct Hx as [Hx|Hx]; [done|]); by apply elem_of_nil in Hx.
    + cbn [dHist app]. intros c Hc. assert (HB : c = c_old \/ c = c_new) by (cbn in Hc; set_solver).
      destruct HB as [-> | ->]; vm_compute; repeat constructor; set_solver.
Qed.

(* The server may use a tunnel before it sends ReadySignal: the client then has no list of services on it (a nil pointer). *)
Theorem C49_before_ready_refuted :
  exists c0 st t T v p i down, dreach (dinit c0) st /\ dTuns st !! t = Some T /\ tDown T = DTask v p i :: down /\ tSvcs T = None.
Proof.
  exists c_old. eexists _, 1%nat, _, 7%nat, 97, 0, _. split; [|split; [|split]].
  - unfold dreach, dinit.
    eapply rtc_l; [apply (d_connect _ _ _ _ _ _ _ _ _ 1%nat); reflexivity|].
    eapply rtc_l; [eapply (d_begin _ _ _ _ _ _ _ _ _ 1%nat); reflexivity|].
    eapply rtc_l; [eapply (d_update _ _ _ _ _ _ _ _ _ 1%nat _ _ _ _ 97); reflexivity|].
    eapply rtc_l; [eapply (d_lookup _ _ _ _ _ _ _ _ _ 7%nat 97); reflexivity|].
    eapply rtc_l; [eapply (d_send _ _ _ _ _ _ _ _ _ 7%nat 97 _ 1%nat); reflexivity|].
    eapply rtc_l; [eapply (d_answer _ _ _ _ _ _ _ _ _ 1%nat); reflexivity|].
    apply rtc_refl.
  - reflexivity.
  - reflexivity.
  - reflexivity.
Qed.

(* a non-trivial run that C49_right_service_partial covers: a reload that appends a service, with visitors before and after *)
Theorem C49_witness :
  exists c0 st, dreach (dinit c0) st /\ (forall c d, c ∈ dHist st -> d ∈ dHist st -> compatible c d) /\
    length (dHist st) = 2%nat /\ dOut st = [(98, 2); (98, 2)].
Proof.
  exists [(98, 2)]. eexists. split; [|split; [|split]].
  - unfold dreach, dinit.
    eapply rtc_l; [apply (d_connect _ _ _ _ _ _ _ _ _ 1%nat); reflexivity|].
    eapply rtc_l; [eapply (d_begin _ _ _ _ _ _ _ _ _ 1%nat); reflexivity|].
    eapply rtc_l; [eapply (d_update _ _ _ _ _ _ _ _ _ 1%nat _ _ _ _ 98); reflexivity|].
    eapply rtc_l; [eapply (d_answer _ _ _ _ _ _ _ _ _ 1%nat); reflexivity|].
    eapply rtc_l; [eapply (d_ready _ _ _ _ _ _ _ _ _ 1%nat); reflexivity|].
    eapply rtc_l; [eapply (d_lookup _ _ _ _ _ _ _ _ _ 7%nat 98); reflexivity|].
    eapply rtc_l; [eapply (d_send _ _ _ _ _ _ _ _ _ 7%nat 98 _ 1%nat); reflexivity|].
    eapply rtc_l; [apply (d_reload _ _ _ _ _ _ _ _ [(98, 2); (97, 1)])|].
    match goal with |- context [mkD _ _ ?p _ _ _ _ _ _] => let p' := eval vm_compute in p in change p with p' end.
    match goal with |- context [mkD _ _ (?t :: ?r) _ _ _ _ _ _] => eapply rtc_l; [eapply (d_write _ _ r _ _ _ _ _ _ t); reflexivity|] end.
    eapply rtc_l; [eapply (d_begin _ _ _ _ _ _ _ _ _ 1%nat); reflexivity|].
    eapply rtc_l; [eapply (d_update _ _ _ _ _ _ _ _ _ 1%nat _ _ _ _ 97); reflexivity|].
    eapply rtc_l; [eapply (d_lookup _ _ _ _ _ _ _ _ _ 8%nat 98); reflexivity|].
    eapply rtc_l; [eapply (d_send _ _ _ _ _ _ _ _ _ 8%nat 98 _ 1%nat); reflexivity|].
    eapply rtc_l; [eapply (d_deliver _ _ _ _ _ _ _ _ _ 1%nat); reflexivity|].
    eapply rtc_l; [eapply (d_deliver _ _ _ _ _ _ _ _ _ 1%nat); reflexivity|].
    apply rtc_refl.
  - cbn [dHist app]. intros c d Hc Hd.
    assert (HB : forall e, e ∈ [[(98, 2)]; [(98, 2); (97, 1)]] -> e = [(98, 2)] \/ e = [(98, 2); (97, 1)]) by (intros e He; set_solver).
    intros i x y Hx Hy. destruct (HB c Hc) as [-> | ->], (HB d Hd) as [-> | ->];
      destruct i as [|[|i]]; cbn in Hx, Hy; try done; congruence.
  - reflexivity.
  - reflexivity.
Qed.
(* and one in which a reload cuts a visitor whose service did not change *)
Theorem C50_witness :
  exists c0 st v, dreach (dinit c0) st /\ v ∈ dCut st /\ dOut st = [(98, 2)] /\
    (forall c, c ∈ dHist st -> c !! 0%nat = Some (98, 2)) /\ length (dHist st) = 2%nat.
Proof.
  exists [(98, 2)]. eexists _, 7%nat. split; [|split; [|split; [|split]]].
  - unfold dreach, dinit.
    eapply rtc_l; [apply (d_connect _ _ _ _ _ _ _ _ _ 1%nat); reflexivity|].
    eapply rtc_l; [eapply (d_begin _ _ _ _ _ _ _ _ _ 1%nat); reflexivity|].
    eapply rtc_l; [eapply (d_update _ _ _ _ _ _ _ _ _ 1%nat _ _ _ _ 98); reflexivity|].
    eapply rtc_l; [eapply (d_answer _ _ _ _ _ _ _ _ _ 1%nat); reflexivity|].
    eapply rtc_l; [eapply (d_ready _ _ _ _ _ _ _ _ _ 1%nat); reflexivity|].
    eapply rtc_l; [eapply (d_lookup _ _ _ _ _ _ _ _ _ 7%nat 98); reflexivity|].
    eapply rtc_l; [eapply (d_send _ _ _ _ _ _ _ _ _ 7%nat 98 _ 1%nat); reflexivity|].
    eapply rtc_l; [eapply (d_deliver _ _ _ _ _ _ _ _ _ 1%nat); reflexivity|].
    eapply rtc_l; [apply (d_reload _ _ _ _ _ _ _ _ [(98, 2); (97, 1)])|].
    match goal with |- context [mkD _ _ ?p _ _ _ _ _ _] => let p' := eval vm_compute in p in change p with p' end.
    match goal with |- context [mkD _ _ (?t :: ?r) _ _ _ _ _ _] => eapply rtc_l; [eapply (d_write _ _ r _ _ _ _ _ _ t); reflexivity|] end.
    eapply rtc_l; [eapply (d_begin _ _ _ _ _ _ _ _ _ 1%nat); reflexivity|].
    apply rtc_refl.
  - vm_compute. left.
  - reflexivity.
  - cbn [dHist app]. intros c Hc. assert (HB : c = [(98, 2)] \/ c = [(98, 2); (97, 1)]) by set_solver. by destruct HB as [-> | ->].
  - reflexivity.
Qed.
