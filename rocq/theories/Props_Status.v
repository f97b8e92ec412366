(* Props_Status.v -- C82: the status page *)
From Verif Require Import GoBase GoBaseLemmas StatusModel.
Local Open Scope N_scope.

Lemma trun_snoc es e s s' : trun s (es ++ [e]) = Some s' <-> exists s1, trun s es = Some s1 /\ tstep s1 e = Some s'.
Proof.
  revert s. induction es as [|x es IH]; intros s; cbn [app trun].
  - destruct (tstep s e) as [s1|] eqn:E; cbn; split; [intros [= <-]; eauto|intros (? & [= <-] & H); congruence|done|intros (? & [= <-] & H); congruence].
  - destruct (tstep s x) as [s1|]; cbn [mbind option_bind]; [apply IH|]. split; [done|]. by intros (? & ? & _).
Qed.
Ltac tcases E :=
  lazymatch type of E with tstep ?s ?e = Some _ =>
    destruct s as [now h fl seen id sec c ct au ans pr acc]; destruct e as [d|r|r cands table|r k|r|r out|r|r|r|a i k|a]; cbn [tstep] in E;
    [injection E as <-
    |destruct h as [?|]; [done|]; destruct (decide (r ∈ seen)) as [?|Hnew]; [done|]; injection E as <-
    |destruct h as [[r' [| | | | |]]|]; try done; destruct (N.eqb_spec r r') as [<-|?]; [|done]; destruct (choose cands table) as [i|] eqn:Hch; injection E as <-
    |destruct h as [[r' [|i0| | | |]]|]; try done; destruct (N.eqb_spec r r') as [<-|?]; [|done]; injection E as <-
    |destruct h as [[r' [| | | | |]]|]; try done; destruct (N.eqb_spec r r') as [<-|?]; [|done]; destruct (fresh _) eqn:Hfr; injection E as <-
    |destruct h as [[r' [| | | | |]]|]; try done; destruct (N.eqb_spec r r') as [<-|?]; [|done]; destruct out as [[code b]|]; injection E as <-
    |destruct h as [[r' [| | | |ok|]]|]; try done; destruct (N.eqb_spec r r') as [<-|?]; [|done]; injection E as <-
    |destruct h as [[r' [| | | | |ok]]|]; try done; destruct (N.eqb_spec r r') as [<-|?]; [|done]; injection E as <-
    |destruct (decide (r ∈ fl)) as [Hfl|?]; [|done]; injection E as <-
    |case_bool_decide as Hid; injection E as <-
    |destruct (list_find _ au) as [[p [? [i k]]]|] eqn:Hau; [|done]; injection E as <-] end.
Ltac tproj := cbn [tNow tHolder tFail tSeen tId tSec tCache tCacheAt tAuth tAnswers tProbes tAccepted] in *.

(* ---- what a good answer means ---- *)
Lemma recent_inv es s : trun st0 es = Some s ->
  (forall a, a ∈ tAnswers s -> aCode a = 200 -> exists p, p ∈ tProbes s /\ pBody p = aBody a /\ pTime p <= aTime a <= pTime p + 15000)
  /\ (forall t, tCacheAt s = Some t -> t <= tNow s /\ exists p, p ∈ tProbes s /\ pTime p = t /\ pBody p = tCache s).
Proof.
  revert s. induction es as [|e es IH] using rev_ind; intros s H; [injection H as <-; split; [by intros a ?%elem_of_nil|done]|]. apply trun_snoc in H as (s1 & H & E). destruct (IH s1 H) as [I1 I2]. clear IH H.
  tcases E; tproj; try (by split); try (split; [done|]; intros t Ht; destruct (I2 t Ht) as [? ?]; split; [lia|done]).
  - split; [|done]. intros x [Hx|Hx]%elem_of_app; [by apply I1|]. apply elem_of_list_singleton in Hx. subst x. cbn [aCode aTime aBody]. intros _. unfold fresh in Hfr. tproj. destruct c as [|y c]; [done|]. destruct ct as [t|]; [|done]. apply N.leb_le in Hfr. destruct (I2 t eq_refl) as (L & p & Hp & <- & Hb). exists p. split; [done|]. split; [done|]. lia.
  - split.
    + intros x [Hx|Hx]%elem_of_app Hc; [destruct (I1 x Hx Hc) as (p & ? & ?); exists p; split; [rewrite elem_of_app; by left|done]|]. apply elem_of_list_singleton in Hx. subst x. cbn. exists (mkProbe now code b). split; [rewrite elem_of_app, elem_of_list_singleton; by right|]. cbn. split; [done|lia].
    + intros t [= <-]. split; [lia|]. exists (mkProbe now code b). rewrite elem_of_app, elem_of_list_singleton. auto.
  - split; [|done]. intros x [Hx|Hx]%elem_of_app; [by apply I1|]. apply elem_of_list_singleton in Hx. subst x. done.
Qed.
(* A good answer is what a probe brought through the tunnel at most fifteen seconds before *)
Theorem C82_ok_recent : forall es s, trun st0 es = Some s -> forall a, a ∈ tAnswers s -> aCode a = 200 -> exists p, p ∈ tProbes s /\ pBody p = aBody a /\ pTime p <= aTime a <= pTime p + 15000.
Proof. intros es s H. apply (recent_inv es s H). Qed.

(* ---- how often it probes ---- *)
Lemma spaced_inv es s : trun st0 es = Some s ->
  (forall l1 p q l2, tProbes s = l1 ++ p :: q :: l2 -> pBody p <> [] -> pTime p + 15000 < pTime q)
  /\ (forall p, last (tProbes s) = Some p -> tCacheAt s = Some (pTime p) /\ tCache s = pBody p)
  /\ (forall r, tHolder s = Some (r, PProbe) -> fresh s = false).
Proof.
  revert s. induction es as [|e es IH] using rev_ind; intros s H; [injection H as <-; split; [by intros []|done]|]. apply trun_snoc in H as (s1 & H & E). destruct (IH s1 H) as (I1 & I2 & I3). clear IH H.
  tcases E; tproj; try (split; [done|split; [done|]]; intros r0 Hr0; first [done | discriminate Hr0 | exact (I3 r0 Hr0) | exact Hfr]).
  - split; [done|split; [done|]]. intros r Hr. specialize (I3 r Hr). unfold fresh in *. tproj. destruct c; [done|]. destruct ct; [|done]. apply N.leb_gt in I3. apply N.leb_gt. lia.
  - specialize (I3 r eq_refl). split; [|split; [|done]].
    + intros l1 p q l2 El Hp. destruct l2 as [|x l2 _] using rev_ind.
      * replace (l1 ++ [p; q]) with ((l1 ++ [p]) ++ [q]) in El by (by rewrite <- app_assoc). apply app_inj_tail in El as [-> <-]. destruct (I2 p) as [-> ->]; [by rewrite last_snoc|]. unfold fresh in I3. tproj. destruct (pBody p); [done|]. apply N.leb_gt in I3. cbn. lia.
      * replace (l1 ++ p :: q :: l2 ++ [x]) with ((l1 ++ p :: q :: l2) ++ [x]) in El by (by rewrite <- app_assoc). apply app_inj_tail in El as [El _]. by eapply I1.
    + intros p. rewrite last_snoc. by intros [= <-].
Qed.
(* After a probe that brought an answer the next one comes more than fifteen seconds later, however many ask *)
Theorem C82_probes_apart : forall es s, trun st0 es = Some s -> forall l1 p q l2, tProbes s = l1 ++ p :: q :: l2 -> pBody p <> [] -> pTime p + 15000 < pTime q.
Proof. intros es s H. apply (spaced_inv es s H). Qed.

(* ---- each request, one answer ---- *)
Definition own_failure (es : list tev) (r : N) : Prop :=
  TProbe r None ∈ es \/ exists cands table, TGen r cands table ∈ es /\ forall i c, (i < 10)%nat -> cands !! i = Some c -> c ∈ table.
Lemma choose_none cands table : choose cands table = None <-> forall i c, (i < 10)%nat -> cands !! i = Some c -> c ∈ table.
Proof.
  unfold choose. destruct (list_find _ _) as [[p x]|] eqn:E; cbn.
  - split; [done|]. intros H. apply list_find_Some in E as (L & N & _). exfalso. apply N. pose proof (lookup_lt_Some _ _ _ L) as Hl. rewrite take_length in Hl. rewrite lookup_take in L by lia. apply (H p x); [lia|done].
  - split; [|done]. intros _ i c Hi Hc. apply list_find_None in E. rewrite Forall_lookup in E. specialize (E i c). rewrite lookup_take in E by done. specialize (E Hc). cbn in E. destruct (decide (c ∈ table)); [done|]. by exfalso; apply E.
Qed.
Lemma choose_some cands table i : choose cands table = Some i -> i ∈ cands /\ i ∉ table.
Proof.
  unfold choose. destruct (list_find _ _) as [[p x]|] eqn:E; cbn; [|done]. intros [= <-]. apply list_find_Some in E as (L & N & _). split; [|done]. apply elem_of_list_lookup_2 in L. by eapply elem_of_take in L as (j & L & _); apply elem_of_list_lookup_2 in L.
Qed.
Definition failing (h : option (N * spc)) (r : N) : Prop := h = Some (r, PClrId false) \/ h = Some (r, PClrSec false).
Definition undecided (h : option (N * spc)) (r : N) : Prop := exists p, h = Some (r, p) /\ p <> PClrId true /\ p <> PClrSec true.
Lemma life_inv es s : trun st0 es = Some s ->
  (forall r p, tHolder s = Some (r, p) -> r ∈ tSeen s) /\ (forall r, r ∈ tFail s -> r ∈ tSeen s) /\ (forall a, a ∈ tAnswers s -> aReq a ∈ tSeen s)
  /\ (forall r p, tHolder s = Some (r, p) -> r ∉ tFail s)
  /\ (forall r, undecided (tHolder s) r \/ r ∈ tFail s -> r ∉ (aReq <$> tAnswers s))
  /\ NoDup (aReq <$> tAnswers s)
  /\ (forall r, failing (tHolder s) r \/ r ∈ tFail s \/ (exists a, a ∈ tAnswers s /\ aReq a = r /\ aCode a = 503) <-> own_failure es r)
  /\ (forall a, a ∈ tAnswers s -> aCode a = 200 \/ aCode a = 503).
Proof.
  revert s. induction es as [|e es IH] using rev_ind; intros s H.
  { injection H as <-. cbn. split; [done|]. split; [by intros r ?%elem_of_nil|]. split; [by intros r ?%elem_of_nil|]. split; [done|]. split; [by intros r _ ?%elem_of_nil|]. split; [constructor|]. split; [|by intros r ?%elem_of_nil].
    intros r. split; [intros [[?|?]|[?%elem_of_nil|(a & ?%elem_of_nil & _)]]; done|]. intros [?%elem_of_nil|(c & t & ?%elem_of_nil & _)]; done. }
  apply trun_snoc in H as (s1 & H & E). destruct (IH s1 H) as (I1 & I2 & I3 & I4 & I5 & I6 & I7 & I8). clear IH H.
  assert (OF : forall r, own_failure (es ++ [e]) r <-> own_failure es r \/ own_failure [e] r).
  { intros r. unfold own_failure. rewrite elem_of_app. setoid_rewrite elem_of_app. firstorder. }
  assert (OF' : (match e with TProbe _ None | TGen _ _ _ => false | _ => true end) = true -> forall r, own_failure (es ++ [e]) r <-> own_failure es r).
  { intros X r. rewrite OF. split; [|by left]. intros [?|[Y|(c & t & Y & _)]]; [done| |]; apply elem_of_list_singleton in Y; by subst e. }
  assert (UND : forall r, failing (tHolder s1) r -> undecided (tHolder s1) r) by (intros r [X|X]; eexists; (split; [exact X|done])).
  tcases E; tproj; try specialize (OF' eq_refl).
  - (* tick *) repeat (split; [done|]). split; [intros r; rewrite OF'; apply I7|done].
  - (* lock *) split; [intros r0 p [= <- <-]; by left|]. split; [intros r0 Hr; right; by apply I2|]. split; [intros a Ha; right; by apply I3|]. split; [intros r0 p [= <- <-] Hr; by apply Hnew, I2|].
    split; [intros r0 [(p & [= <- <-] & _)|Hr]; [intros (a & -> & Ha)%elem_of_list_fmap; by apply Hnew, I3|apply I5; by right]|]. split; [done|]. split; [|done].
    intros r0. rewrite OF', <- I7. split; (intros [[X|X]|X]; [done|done|by right]).
  - (* gen *) split; [intros r0 p [= <- <-]; by eapply I1|]. split; [done|]. split; [done|]. split; [intros r0 p [= <- <-]; by eapply I4|].
    split; [intros r0 [(p & [= <- <-] & _)|Hr]; apply I5; [left; eexists; split; [reflexivity|done]|by right]|]. split; [done|]. split; [|done].
    intros r0. rewrite OF. split; [intros [[X|X]|X]; [done|done|left; apply I7; by right]|]. intros [X|X].
    + apply I7 in X as [[X|X]|X]; [done|done|by right].
    + exfalso. destruct X as [X|(c0 & t0 & X & Y)]; apply elem_of_list_singleton in X; [done|]. injection X as -> -> ->. apply choose_none in Y. congruence.
  - (* no id *) split; [done|]. split; [intros r0 [-> | Hr]%elem_of_cons; [by eapply I1|by apply I2]|]. split; [done|]. split; [done|].
    split; [intros r0 [(p & X & _)|[-> | Hr]%elem_of_cons]; [done|apply I5; left; eexists; split; [reflexivity|done]|apply I5; by right]|]. split; [done|]. split; [|done].
    intros r0. rewrite OF. rewrite elem_of_cons. split.
    + intros [[X|X]|[[-> | X]|X]]; [done|done| | |]; [right; right; exists cands, table; rewrite elem_of_list_singleton; split; [done|by apply choose_none]|left; apply I7; auto|left; apply I7; auto].
    + intros [X|X]; [apply I7 in X as [[X|X]|X]; [done|done|right; tauto]|]. right; left; left. destruct X as [X|(c0 & t0 & X & _)]; apply elem_of_list_singleton in X; [done|by injection X].
  - (* secret *) split; [intros r0 p [= <- <-]; by eapply I1|]. split; [done|]. split; [done|]. split; [intros r0 p [= <- <-]; by eapply I4|].
    split; [intros r0 [(p & [= <- <-] & _)|Hr]; apply I5; [left; eexists; split; [reflexivity|done]|by right]|]. split; [done|]. split; [|done].
    intros r0. rewrite OF', <- I7. split; (intros [[X|X]|X]; [done|done|by right]).
  - (* cached *) assert (Hn : r ∉ aReq <$> ans) by (apply I5; left; eexists; split; [reflexivity|done]). split; [intros r0 p [= <- <-]; by eapply I1|]. split; [done|].
    split; [intros a [Ha|Ha]%elem_of_app; [by apply I3|apply elem_of_list_singleton in Ha; subst a; by eapply I1]|]. split; [intros r0 p [= <- <-]; by eapply I4|].
    split; [intros r0 [(p & [= <- <-] & ? & ?)|Hr]; [done|]; rewrite fmap_app, not_elem_of_app; split; [apply I5; by right|]; cbn; rewrite elem_of_list_singleton; intros ->; by eapply I4|].
    split; [rewrite fmap_app; apply NoDup_app; split; [done|]; split; [cbn; intros x Hx ->%elem_of_list_singleton; done|apply NoDup_singleton]|].
    split; [|intros a [Ha|Ha]%elem_of_app; [by apply I8|apply elem_of_list_singleton in Ha; subst a; by left]].
    intros r0. rewrite OF', <- I7. split.
    + intros [[X|X]|[X|(a & [Ha|Ha]%elem_of_app & X)]]; [done|done|by right; left|right; right; eauto|]. apply elem_of_list_singleton in Ha. subst a. by destruct X.
    + intros [[X|X]|[X|(a & Ha & X)]]; [done|done|by right; left|]. right; right. exists a. rewrite elem_of_app. auto.
  - (* stale *) split; [intros r0 p [= <- <-]; by eapply I1|]. split; [done|]. split; [done|]. split; [intros r0 p [= <- <-]; by eapply I4|].
    split; [intros r0 [(p & [= <- <-] & _)|Hr]; apply I5; [left; eexists; split; [reflexivity|done]|by right]|]. split; [done|]. split; [|done].
    intros r0. rewrite OF', <- I7. split; (intros [[X|X]|X]; [done|done|by right]).
  - (* probe *) assert (Hn : r ∉ aReq <$> ans) by (apply I5; left; eexists; split; [reflexivity|done]). split; [intros r0 p [= <- <-]; by eapply I1|]. split; [done|].
    split; [intros a [Ha|Ha]%elem_of_app; [by apply I3|apply elem_of_list_singleton in Ha; subst a; by eapply I1]|]. split; [intros r0 p [= <- <-]; by eapply I4|].
    split; [intros r0 [(p & [= <- <-] & ? & ?)|Hr]; [done|]; rewrite fmap_app, not_elem_of_app; split; [apply I5; by right|]; cbn; rewrite elem_of_list_singleton; intros ->; by eapply I4|].
    split; [rewrite fmap_app; apply NoDup_app; split; [done|]; split; [cbn; intros x Hx ->%elem_of_list_singleton; done|apply NoDup_singleton]|].
    split; [|intros a [Ha|Ha]%elem_of_app; [by apply I8|apply elem_of_list_singleton in Ha; subst a; by left]].
    intros r0. rewrite OF', <- I7. split.
    + intros [[X|X]|[X|(a & [Ha|Ha]%elem_of_app & X)]]; [done|done|by right; left|right; right; eauto|]. apply elem_of_list_singleton in Ha. subst a. by destruct X.
    + intros [[X|X]|[X|(a & Ha & X)]]; [done|done|by right; left|]. right; right. exists a. rewrite elem_of_app. auto.
  - (* probe failed *) split; [intros r0 p [= <- <-]; by eapply I1|]. split; [done|]. split; [done|]. split; [intros r0 p [= <- <-]; by eapply I4|].
    split; [intros r0 [(p & [= <- <-] & _)|Hr]; apply I5; [left; eexists; split; [reflexivity|done]|by right]|]. split; [done|]. split; [|done].
    intros r0. rewrite OF. split.
    + intros [[X|X]|X]; [|done|left; apply I7; by right]. injection X as <-. right; left. by apply elem_of_list_singleton.
    + intros [X|X]; [apply I7 in X as [[X|X]|X]; [done|done|by right]|]. left; left. destruct X as [X|(c0 & t0 & X & _)]; apply elem_of_list_singleton in X; [by injection X as ->|done].
  - (* clear id *) split; [intros r0 p [= <- <-]; by eapply I1|]. split; [done|]. split; [done|]. split; [intros r0 p [= <- <-]; by eapply I4|].
    split; [intros r0 [(p & [= <- <-] & ? & ?)|Hr]; apply I5; [left; eexists; split; [reflexivity|split; congruence]|by right]|]. split; [done|]. split; [|done].
    intros r0. rewrite OF', <- I7. unfold failing. split; (intros [[X|X]|X]; [| |by right]); first [discriminate X | injection X as <- ->; left; by auto].
  - (* clear secret *) split; [done|]. split; [intros r0 Hr; destruct ok; [by apply I2|]; apply elem_of_cons in Hr as [-> | Hr]; [by eapply I1|by apply I2]|]. split; [done|]. split; [done|].
    split; [intros r0 [(p & X & _)|Hr]; [done|]; destruct ok; [apply I5; by right|]; apply elem_of_cons in Hr as [-> | Hr]; apply I5; [left; eexists; split; [reflexivity|done]|by right]|]. split; [done|]. split; [|done].
    intros r0. rewrite OF', <- I7. unfold failing. destruct ok; rewrite ?elem_of_cons; split.
    + intros [[X|X]|X]; [done|done|by right].
    + intros [[X|X]|X]; [done|done|by right].
    + intros [[X|X]|[[-> | X]|X]]; [done|done|auto|auto|auto].
    + intros [[X|X]|[X|X]]; [done|injection X as <-; auto|auto|auto].
  - (* fail *) assert (FM : forall x, x ∈ List.filter (fun x => negb (x =? r)) fl <-> x ∈ fl /\ x <> r). { intros x. rewrite !elem_of_list_In, filter_In, negb_true_iff, N.eqb_neq. done. }
    assert (Hn : r ∉ aReq <$> ans) by (apply I5; by right). split; [done|]. split; [intros r0 [? _]%FM; by apply I2|].
    split; [intros a [Ha|Ha]%elem_of_app; [by apply I3|apply elem_of_list_singleton in Ha; subst a; by apply I2]|]. split; [intros r0 p Hp [? _]%FM; by eapply I4|].
    split; [intros r0 Hr; rewrite fmap_app, not_elem_of_app; split; [apply I5; destruct Hr as [Hr|[? _]%FM]; auto|]; cbn; rewrite elem_of_list_singleton; intros ->; destruct Hr as [(p & Hp & _)|[_ ?]%FM]; [by eapply I4|done]|].
    split; [rewrite fmap_app; apply NoDup_app; split; [done|]; split; [cbn; intros x Hx ->%elem_of_list_singleton; done|apply NoDup_singleton]|].
    split; [|intros a [Ha|Ha]%elem_of_app; [by apply I8|apply elem_of_list_singleton in Ha; subst a; by right]].
    intros r0. rewrite OF', <- I7. split.
    + intros [X|[[? _]%FM|(a & [Ha|Ha]%elem_of_app & X)]]; [auto|auto|right; right; eauto|]. apply elem_of_list_singleton in Ha. subst a. destruct X as [<- _]. auto.
    + intros [X|[X|(a & Ha & X)]]; [auto| |right; right; exists a; rewrite elem_of_app; auto]. destruct (decide (r0 = r)) as [-> |]; [|right; left; by apply FM]. right; right. eexists. rewrite elem_of_app, elem_of_list_singleton. by split; [right|].
  - repeat (split; [done|]). split; [intros r0; rewrite OF'; apply I7|done].
  - repeat (split; [done|]). split; [intros r0; rewrite OF'; apply I7|done].
  - repeat (split; [done|]). split; [intros r0; rewrite OF'; apply I7|done].
Qed.
(* Nobody is answered twice *)
Theorem C82_one_answer : forall es s, trun st0 es = Some s -> NoDup (aReq <$> tAnswers s).
Proof. intros es s H. apply (life_inv es s H). Qed.
(* The answer is 503 if and only if the request's own check has failed: no id was found or its probe went wrong; else it is 200 *)
Theorem C82_503 : forall es s, trun st0 es = Some s -> forall a, a ∈ tAnswers s -> (aCode a = 503 <-> own_failure es (aReq a)) /\ (aCode a = 200 <-> ~ own_failure es (aReq a)).
Proof.
  intros es s H a Ha. destruct (life_inv es s H) as (_ & _ & _ & _ & I5 & I6 & I7 & I8).
  assert (E : aCode a = 503 <-> own_failure es (aReq a)).
  { rewrite <- I7. split; [intros X; right; right; eauto|]. intros X. assert (Hm : aReq a ∈ aReq <$> tAnswers s) by (apply elem_of_list_fmap; eauto).
    destruct X as [X|[X|(b & Hb & Er & Hc)]]; [|exfalso; apply (I5 (aReq a)); auto|].
    - exfalso. apply (I5 (aReq a)); [|done]. left. destruct X as [X|X]; eexists; (split; [exact X|done]).
    - assert (a = b); [|by subst]. apply elem_of_list_lookup in Ha as [i Hi]. apply elem_of_list_lookup in Hb as [j Hj]. assert (i = j); [|by subst; congruence]. eapply (NoDup_lookup (aReq <$> tAnswers s)); [done|rewrite list_lookup_fmap, Hi; reflexivity|rewrite list_lookup_fmap, Hj; cbn; by rewrite Er]. }
  split; [done|]. destruct (I8 a Ha) as [X|X]; rewrite X in *; split; [|done|done|]; [intros _ Y; apply E in Y; done|intros Y; exfalso; apply Y, E; done].
Qed.
(* A failure is not remembered: unless an earlier good answer is still fresh the next request probes again, and can succeed *)
Theorem C82_recovers : forall es s r i k code b, trun st0 es = Some s -> tHolder s = None -> r ∉ tSeen s -> fresh s = false ->
  exists s', trun s [TLock r; TGen r [i] []; TSecret r k; TTest r; TProbe r (Some (code, b))] = Some s' /\ mkAns (tNow s) r 200 b ∈ tAnswers s'.
Proof.
  intros es s r i k code b _ Hh Hr Hf. destruct s as [now h fl seen id sec c ct au ans pr acc]. tproj. subst h.
  assert (E1 : tstep (mkSt now None fl seen id sec c ct au ans pr acc) (TLock r) = Some (mkSt now (Some (r, PGen)) fl (r :: seen) id sec c ct au ans pr acc)) by (cbn; by rewrite decide_False).
  assert (C : choose [i] [] = Some i) by (unfold choose; cbn; by rewrite decide_True by apply not_elem_of_nil).
  assert (E2 : tstep (mkSt now (Some (r, PGen)) fl (r :: seen) id sec c ct au ans pr acc) (TGen r [i] []) = Some (mkSt now (Some (r, PSec i)) fl (r :: seen) i sec c ct au ans pr acc)) by (cbn [tstep]; by rewrite N.eqb_refl, C).
  assert (E3 : tstep (mkSt now (Some (r, PSec i)) fl (r :: seen) i sec c ct au ans pr acc) (TSecret r k) = Some (mkSt now (Some (r, PTest)) fl (r :: seen) i k c ct au ans pr acc)) by (cbn [tstep]; by rewrite N.eqb_refl).
  assert (E : fresh (mkSt now (Some (r, PTest)) fl (r :: seen) i k c ct au ans pr acc) = false) by exact Hf.
  assert (E4 : tstep (mkSt now (Some (r, PTest)) fl (r :: seen) i k c ct au ans pr acc) (TTest r) = Some (mkSt now (Some (r, PProbe)) fl (r :: seen) i k c ct au ans pr acc)) by (cbn [tstep]; by rewrite N.eqb_refl, E).
  cbn [trun]. rewrite E1. cbn [mbind option_bind]. rewrite E2. cbn [mbind option_bind]. rewrite E3. cbn [mbind option_bind]. rewrite E4. cbn [mbind option_bind tstep]. rewrite N.eqb_refl. eexists. split; [reflexivity|]. cbn. rewrite elem_of_app, elem_of_list_singleton. by right.
Qed.
(* The id of a check is no user's when it is chosen *)
Theorem C82_unused_id : forall s r cands table s', tstep s (TGen r cands table) = Some s' -> tHolder s' <> None -> tId s' ∈ cands /\ tId s' ∉ table.
Proof. intros [now h fl seen id sec c ct au ans pr acc] r cands table s' E Hh. cbn [tstep] in E. destruct h as [[r' [| | | | |]]|]; try done. destruct (r =? r'); [|done]. destruct (choose cands table) as [i|] eqn:C; injection E as <-; [|done]. by apply choose_some. Qed.

(* ---- the credentials of a check ---- *)
Definition id_made (es : list tev) (i : bytes) : Prop := exists r cands table, TGen r cands table ∈ es /\ choose cands table = Some i.
Definition sec_made (es : list tev) (k : bytes) : Prop := exists r, TSecret r k ∈ es.
Lemma cred_inv es s : trun st0 es = Some s ->
  ((tHolder s = None \/ (exists r, tHolder s = Some (r, PGen))) -> tId s = [] /\ tSec s = [])
  /\ (forall r i, tHolder s = Some (r, PSec i) -> tSec s = [])
  /\ (forall r ok, tHolder s = Some (r, PClrSec ok) -> tId s = [])
  /\ (tId s <> [] -> id_made es (tId s)) /\ (tSec s <> [] -> sec_made es (tSec s))
  /\ (forall x, x ∈ tAuth s -> x.2.1 <> [] -> id_made es x.2.1)
  /\ (forall x, x ∈ tAccepted s -> (x.1 <> [] -> id_made es x.1) /\ (x.2 <> [] -> sec_made es x.2)).
Proof.
  revert s. induction es as [|e es IH] using rev_ind; intros s H.
  { injection H as <-. cbn. split; [done|]. split; [done|]. split; [done|]. split; [done|]. split; [done|]. split; by intros x ?%elem_of_nil. }
  apply trun_snoc in H as (s1 & H & E). destruct (IH s1 H) as (I1 & I2 & I3 & I4 & I5 & I6 & I7). clear IH H.
  assert (M1 : forall i, id_made es i -> id_made (es ++ [e]) i) by (intros i (r & cs & t & X & Y); exists r, cs, t; rewrite elem_of_app; auto).
  assert (M2 : forall k, sec_made es k -> sec_made (es ++ [e]) k) by (intros k (r & X); exists r; rewrite elem_of_app; auto).
  assert (J4 : tId s1 <> [] -> id_made (es ++ [e]) (tId s1)) by auto.
  assert (J5 : tSec s1 <> [] -> sec_made (es ++ [e]) (tSec s1)) by auto.
  assert (J6 : forall x, x ∈ tAuth s1 -> x.2.1 <> [] -> id_made (es ++ [e]) x.2.1) by auto.
  assert (J7 : forall x, x ∈ tAccepted s1 -> (x.1 <> [] -> id_made (es ++ [e]) x.1) /\ (x.2 <> [] -> sec_made (es ++ [e]) x.2)) by (intros x Hx; destruct (I7 x Hx); auto).
  clear M1 M2 I4 I5 I6 I7.
  tcases E; tproj.
  - auto 10.
  - split; [intros _; by apply I1; left|]. split; [done|]. split; [done|]. auto.
  - split; [intros [X|[? X]]; done|]. split; [intros r0 i0 _; apply I1; right; eauto|]. split; [done|]. split; [intros _; exists r, cands, table; rewrite elem_of_app, elem_of_list_singleton; auto|]. auto.
  - split; [intros _; apply I1; right; eauto|]. split; [done|]. split; [done|]. auto.
  - split; [intros [X|[? X]]; done|]. split; [done|]. split; [done|]. split; [done|]. split; [intros _; exists r; rewrite elem_of_app, elem_of_list_singleton; auto|]. auto.
  - split; [intros [X|[? X]]; done|]. split; [done|]. split; [done|]. auto.
  - split; [intros [X|[? X]]; done|]. split; [done|]. split; [done|]. auto.
  - split; [intros [X|[? X]]; done|]. split; [done|]. split; [done|]. auto.
  - split; [intros [X|[? X]]; done|]. split; [done|]. split; [done|]. auto.
  - split; [intros [X|[? X]]; done|]. split; [done|]. split; [done|]. split; [done|]. auto.
  - split; [intros _; split; [by eapply I3|done]|]. split; [done|]. split; [done|]. split; [done|]. split; [done|]. auto.
  - auto 10.
  - split; [done|]. split; [done|]. split; [done|]. split; [done|]. split; [done|]. split; [|done]. intros x [-> | Hx]%elem_of_cons; [cbn; subst i; done|by apply J6].
  - auto 10.
  - split; [done|]. split; [done|]. split; [done|]. split; [done|]. split; [done|]. apply list_find_Some in Hau as (L & _ & _). split.
    + intros x Hx. apply J6. eapply elem_of_submseteq; [exact Hx|]. apply sublist_submseteq, sublist_delete.
    + case_bool_decide as Hk; [|done]. intros x [Hx|Hx]%elem_of_app; [by apply J7|]. apply elem_of_list_singleton in Hx. subst x. cbn [fst snd]. split; [|by subst k]. apply elem_of_list_lookup_2 in L. exact (J6 _ L).
Qed.
(* While no check is under way there are no credentials, so that a call of Auth which begins then accepts no id but the empty one *)
Theorem C82_no_check_no_credentials : forall es s a i k s', trun st0 es = Some s -> tHolder s = None -> i <> [] -> tstep s (TAuthId a i k) = Some s' -> s' = s.
Proof.
  intros es s a i k s' H Hh Hi E. destruct (cred_inv es s H) as (I1 & _). destruct I1 as [I1 _]; [by left|]. destruct s as [now h fl seen id sec c ct au ans pr acc]. cbn [tstep] in E. tproj. case_bool_decide as X; [congruence|]. by injection E as <-.
Qed.
(* Auth never accepts an id or a secret that no check has made *)
Theorem C82_only_made : forall es s i k, trun st0 es = Some s -> (i, k) ∈ tAccepted s -> (i <> [] -> id_made es i) /\ (k <> [] -> sec_made es k).
Proof. intros es s i k H Hx. destruct (cred_inv es s H) as (_ & _ & _ & _ & _ & _ & I7). exact (I7 _ Hx). Qed.
(* ... but the two may be of different checks: they are loaded one after the other *)
Theorem C82_mixed_refuted : forall i1 k1 i2 k2, i1 <> i2 -> k1 <> k2 -> exists es s, trun st0 es = Some s /\ (i1, k2) ∈ tAccepted s
  /\ (forall r cands table, TGen r cands table ∈ es -> (r = 1 -> cands = [i1]) /\ (r = 2 -> cands = [i2])) /\ (forall r k, TSecret r k ∈ es -> (r = 1 /\ k = k1) \/ (r = 2 /\ k = k2)).
Proof.
  intros i1 k1 i2 k2 _ _.
  assert (C : forall i, choose [i] [] = Some i) by (intros i; unfold choose; cbn; by rewrite decide_True by apply not_elem_of_nil).
  exists [TLock 1; TGen 1 [i1] []; TSecret 1 k1; TTest 1; TAuthId 9 i1 k2; TProbe 1 None; TClrId 1; TClrSec 1; TLock 2; TGen 2 [i2] []; TSecret 2 k2; TAuthSec 9]. eexists. split.
  { cbn [trun st0 tstep mbind option_bind]. rewrite decide_False by apply not_elem_of_nil. cbn [trun tstep mbind option_bind N.eqb Pos.eqb]. rewrite C. cbn [trun tstep mbind option_bind N.eqb Pos.eqb fresh tCache tCacheAt]. rewrite bool_decide_eq_true_2 by done. cbn [trun tstep mbind option_bind N.eqb Pos.eqb]. rewrite decide_False by (rewrite elem_of_list_singleton; done). cbn [trun tstep mbind option_bind N.eqb Pos.eqb]. rewrite C. cbn [trun tstep mbind option_bind N.eqb Pos.eqb list_find]. rewrite decide_True by done. cbn [trun tstep mbind option_bind N.eqb Pos.eqb list_find fmap option_fmap option_map prod_map]. rewrite bool_decide_eq_true_2 by done. reflexivity. }
  split; [by left|]. split.
  - intros r cands table Hin. repeat (apply elem_of_cons in Hin as [Hin|Hin]; [first [discriminate Hin | injection Hin as -> -> ->; done]|]). by apply elem_of_nil in Hin.
  - intros r k Hin. repeat (apply elem_of_cons in Hin as [Hin|Hin]; [first [discriminate Hin | injection Hin as -> ->; auto]|]). by apply elem_of_nil in Hin.
Qed.
(* The status code of the probe's response is not looked at: any is reported as 200, and again for fifteen seconds *)
Theorem C82_code_refuted : forall i k code b, b <> [] -> exists s, trun st0 [TLock 1; TGen 1 [i] []; TSecret 1 k; TTest 1; TProbe 1 (Some (code, b)); TClrId 1; TClrSec 1; TTick 15000; TLock 2; TGen 2 [i] []; TSecret 2 k; TTest 2] = Some s
  /\ tAnswers s = [mkAns 0 1 200 b; mkAns 15000 2 200 b] /\ tProbes s = [mkProbe 0 code b].
Proof.
  intros i k code b Hb. assert (C : forall i, choose [i] [] = Some i) by (intros j; unfold choose; cbn; by rewrite decide_True by apply not_elem_of_nil).
  destruct b as [|x b]; [done|].
  eexists. split; [|split].
  { cbn [trun st0 tstep mbind option_bind]. rewrite decide_False by apply not_elem_of_nil. cbn [trun tstep mbind option_bind N.eqb Pos.eqb]. rewrite C. cbn [trun tstep mbind option_bind N.eqb Pos.eqb fresh tCache tCacheAt]. rewrite decide_False by (rewrite elem_of_list_singleton; done). cbn [trun tstep mbind option_bind N.eqb Pos.eqb]. rewrite C. cbn [trun tstep mbind option_bind N.eqb Pos.eqb fresh tCache tCacheAt tNow]. replace (0 + 15000 - 0 <=? 15000) with true by done. reflexivity. }
  all: done.
Qed.
(* The probe has no time limit and all requests share one lock: until it ends nobody else is answered, but for failures decided before *)
Theorem C82_hang_refuted : forall es s r s' es', trun st0 es = Some s -> tHolder s = Some (r, PProbe) -> trun s es' = Some s' -> (forall out, TProbe r out ∉ es') ->
  tHolder s' = Some (r, PProbe) /\ forall a, a ∈ tAnswers s' -> a ∈ tAnswers s \/ aReq a ∈ tFail s.
Proof.
  intros es s w s' es' _ Hh H Hn. assert (G : tHolder s' = Some (w, PProbe) /\ (forall x, x ∈ tFail s' -> x ∈ tFail s) /\ forall a, a ∈ tAnswers s' -> a ∈ tAnswers s \/ aReq a ∈ tFail s); [|tauto].
  revert s' H. induction es' as [|e es' IH] using rev_ind; intros s' H; [injection H as <-; auto|]. apply trun_snoc in H as (s1 & H & E). destruct IH with s1 as (I1 & I2 & I3); [intros out X; apply (Hn out); rewrite elem_of_app; by left|done|].
  assert (Ne : forall out, e <> TProbe w out) by (intros out ->; apply (Hn out); rewrite elem_of_app, elem_of_list_singleton; by right). clear Hn H.
  remember (tHolder s1 = Some (w, PProbe)) as P eqn:HP. tcases E; tproj; subst P; try discriminate I1; try (by split).
  - injection I1 as <-. by destruct (Ne (Some (code, b))).
  - injection I1 as <-. by destruct (Ne None).
  - split; [done|]. split; [intros x Hx; apply I2; apply elem_of_list_In, filter_In in Hx as [Hx _]; by apply elem_of_list_In|]. intros a [Ha|Ha]%elem_of_app; [by apply I3|]. apply elem_of_list_singleton in Ha. subst a. right. cbn. by apply I2.
Qed.
Theorem C82_witness : exists s, trun st0 [TLock 1; TGen 1 [[1]; [2]] [[1]]; TAuthId 7 [2] [5]; TSecret 1 [5]; TAuthSec 7; TTest 1; TProbe 1 None; TClrId 1; TClrSec 1; TLock 2; TFail 1; TGen 2 [[3]] []; TSecret 2 [6]; TTest 2; TTick 40; TProbe 2 (Some (200, [9])); TClrId 2; TClrSec 2; TTick 15000; TLock 3; TGen 3 [[4]] []; TSecret 3 [7]; TTest 3; TClrId 3; TClrSec 3; TTick 1; TLock 4; TGen 4 [[4]] []; TSecret 4 [7]; TTest 4; TProbe 4 (Some (200, [8]))] = Some s
  /\ tAnswers s = [mkAns 0 1 503 failed_body; mkAns 40 2 200 [9]; mkAns 15040 3 200 [9]; mkAns 15041 4 200 [8]] /\ tAccepted s = [([2], [5])].
Proof. eexists. split; [vm_compute; reflexivity|]. done. Qed.
