(* Props_ClientClose.v -- C54: a client that is closed stops serving *)
From Verif Require Import GoBase ClientCloseModel.
Local Open Scope N_scope.

(* ---- specification, on the history ---- *)
#[global] Instance kevt_eq_dec : EqDecision kevt. Proof. solve_decision. Defined.
(* the tunnel was ready when Close or Shutdown was called *)
Definition ready_before_call (t : N) (tr : list kevt) : Prop := exists a f b, tr = a ++ ECall f :: b /\ EReady t ∈ a.
Definition ended (t : N) (tr : list kevt) : Prop := exists self, EEnd t self ∈ tr.
(* the part of the history after the first call *)
Fixpoint after_call (tr : list kevt) : list kevt := match tr with [] => [] | ECall _ :: tr => tr | _ :: tr => after_call tr end.
Definition called (tr : list kevt) : Prop := exists f, ECall f ∈ tr.
Definition dials (i : N) (tr : list kevt) : nat := length (filter (fun e => e = EDial i) tr).

(* ---- proofs ---- *)
Lemma after_call_app a b : called a -> after_call (a ++ b) = after_call a ++ b.
Proof.
  intros [f Hf]. induction a as [|e a IH]; [by apply elem_of_nil in Hf|].
  destruct e; cbn; try reflexivity; (apply elem_of_cons in Hf as [Hf|Hf]; [done|auto]).
Qed.
Lemma after_call_none a f b : ~ called a -> after_call (a ++ ECall f :: b) = b.
Proof.
  intros Hn. induction a as [|e a IH]; [done|].
  destruct e; cbn; try (apply IH; intros [g Hg]; apply Hn; exists g; by right). destruct Hn. eexists. by left.
Qed.
Lemma dials_app i a b : dials i (a ++ b) = (dials i a + dials i b)%nat.
Proof. unfold dials. by rewrite filter_app, app_length. Qed.

Lemma tell_events_in f (L : gmap N lpc) e : e ∈ concat (tell_events f <$> (map_to_list L).*2) <-> exists i p, L !! i = Some p /\ e ∈ tell_events f p.
Proof.
  split.
  - intros H. apply elem_of_list_In, in_concat in H as (l & Hl & He). apply elem_of_list_In in Hl, He. apply elem_of_list_fmap in Hl as (p & -> & Hp).
    apply elem_of_list_fmap in Hp as ([i p'] & -> & Hp). apply elem_of_map_to_list in Hp. eauto.
  - intros (i & p & Hi & He). apply elem_of_list_In, in_concat. exists (tell_events f p). split; [|by apply elem_of_list_In]. apply elem_of_list_In.
    apply elem_of_list_fmap. exists p. split; [done|]. apply elem_of_list_fmap. exists (i, p). split; [done|]. by apply elem_of_map_to_list.
Qed.
Lemma tell_events_shape f p e : e ∈ tell_events f p -> exists t, e = ESignal t \/ e = EClosed t.
Proof. destruct p as [| | |t [] c| | | | |]; cbn; intros H; try by apply elem_of_nil in H. destruct f; set_solver. Qed.

Definition tunnel_at (s : kst) (t : N) (r c : bool) : Prop := exists i, kLoops s !! i = Some (LTun t r c).
Record kinv (tr : list kevt) (s : kst) : Prop := {
  ki_open : forall t, EOpen t ∈ tr -> ended t tr \/ exists r c, tunnel_at s t r c;
  ki_ready : forall t, EReady t ∈ tr -> ended t tr \/ exists c, tunnel_at s t true c;
  ki_called : called tr <-> kCloser s <> KNot;
  ki_closing : kClosing s = true <-> kCloser s <> KNot;
  ki_told : forall f, kCloser s = KTold f \/ kCloser s = KIdle f \/ kCloser s = KRet f ->
      forall t, ready_before_call t tr -> ended t tr \/ (ESignal t ∈ tr /\ (f = true -> EClosed t ∈ tr));
  ki_dials : called tr -> forall i, (dials i (after_call tr) + (if decide (kLoops s !! i = Some LGo) then 1 else 0) <= 1)%nat }.

Lemma ended_app t a b : ended t a -> ended t (a ++ b).
Proof. intros [x ?]. exists x. apply elem_of_app. by left. Qed.
Lemma ended_new t c a : ended t (a ++ [EEnd t c]).
Proof. exists c. apply elem_of_app. right. by left. Qed.
Lemma rbc_app t tr l : (forall f, ECall f ∉ l) -> ready_before_call t (tr ++ l) -> ready_before_call t tr.
Proof.
  intros Hl (a & f & b & E & Hr). apply app_eq_app in E as (l0 & [[-> E]|[-> E]]).
  - destruct l0 as [|e l0]; cbn in E.
    + exfalso. apply (Hl f). rewrite <- E. by left.
    + inversion E; subst. by exists a, f, l0.
  - exfalso. apply (Hl f). rewrite E. apply elem_of_app. right. by left.
Qed.
Lemma called_app a b : called (a ++ b) <-> called a \/ called b.
Proof. unfold called. split; [intros [f H]; apply elem_of_app in H as [?|?]; eauto|intros [[f ?]|[f ?]]; exists f; apply elem_of_app; auto]. Qed.
Lemma called_single e : (forall f, e <> ECall f) -> ~ called [e].
Proof. intros H [f Hf]. apply elem_of_list_singleton in Hf. by apply (H f). Qed.

(* a step of one loop: what has to be shown *)
Lemma kinv_loop tr L cl ic k sn sn' i p q e :
  kinv tr (mkK L cl ic k sn) -> L !! i = Some p ->
  (forall f, e <> ECall f) ->
  (forall t r c, p = LTun t r c -> (exists r', q = LTun t r' c /\ (r = true -> r' = true)) \/ exists b, e = EEnd t b) ->
  (forall t, e = EOpen t -> exists r c, q = LTun t r c) ->
  (forall t, e = EReady t -> exists c, q = LTun t true c) ->
  (forall j, e = EDial j -> j = i /\ p = LGo) ->
  (q = LGo -> cl = false) ->
  kinv (tr ++ [e]) (mkK (<[i := q]> L) cl ic k sn').
Proof.
  intros [Ho Hr Hc Hcl Ht Hd] Hi He Hp Hop Hre Hdi Hq.
  assert (Htun : forall t r c, tunnel_at (mkK L cl ic k sn) t r c ->
            ended t (tr ++ [e]) \/ exists r', tunnel_at (mkK (<[i := q]> L) cl ic k sn') t r' c /\ (r = true -> r' = true)).
  { intros t r c [j Hj]. cbn in Hj. destruct (decide (j = i)) as [->|Hne].
    - rewrite Hi in Hj. injection Hj as ->. destruct (Hp t r c eq_refl) as [(r' & -> & ?)|[b ->]].
      + right. exists r'. split; [|done]. exists i. cbn. by rewrite lookup_insert.
      + left. apply ended_new.
    - right. exists r. split; [|done]. exists j. cbn. by rewrite lookup_insert_ne. }
  assert (Hq0 : q = LGo -> ~ called tr).
  { intros E Hcd. specialize (Hq E). subst cl. apply Hc in Hcd. apply Hcl in Hcd. done. }
  split; cbn [kLoops kClosing kCloser].
  - intros t Hin. apply elem_of_app in Hin as [Hin|Hin].
    + destruct (Ho t Hin) as [?|(r & c & H)]; [left; by apply ended_app|]. destruct (Htun _ _ _ H) as [?|(r' & ? & ?)]; eauto.
    + apply elem_of_list_singleton in Hin. destruct (Hop t (eq_sym Hin)) as (r & c & ->). right. exists r, c. exists i. cbn. by rewrite lookup_insert.
  - intros t Hin. apply elem_of_app in Hin as [Hin|Hin].
    + destruct (Hr t Hin) as [?|(c & H)]; [left; by apply ended_app|]. destruct (Htun _ _ _ H) as [?|(r' & ? & E)]; [auto|]. rewrite E in * by done. eauto.
    + apply elem_of_list_singleton in Hin. destruct (Hre t (eq_sym Hin)) as (c & ->). right. exists c. exists i. cbn. by rewrite lookup_insert.
  - rewrite called_app. cbn in Hc. pose proof (called_single e He). tauto.
  - done.
  - intros f Hf t H. apply rbc_app in H; [|intros g Hg; apply elem_of_list_singleton in Hg; by apply (He g)].
    destruct (Ht f Hf t H) as [?|[? ?]]; [left; by apply ended_app|]. right. split; [apply elem_of_app; by left|]. intros. apply elem_of_app; left; auto.
  - intros Hcd j. rewrite called_app in Hcd. destruct Hcd as [Hcd|Hcd]; [|by destruct (called_single e He)].
    rewrite after_call_app by done. rewrite dials_app. specialize (Hd Hcd j). cbn [kLoops] in Hd.
    assert (Hdj : dials j [e] = 0%nat \/ (dials j [e] = 1%nat /\ j = i /\ p = LGo)).
    { unfold dials. rewrite filter_cons, filter_nil. destruct (decide (e = EDial j)) as [E|E]; [|auto]. right. split; [done|by apply Hdi]. }
    destruct (decide (j = i)) as [->|Hne].
    + rewrite lookup_insert. destruct (decide (Some q = Some LGo)) as [E|E].
      * injection E as E. destruct (Hq0 E Hcd).
      * destruct Hdj as [->|(-> & _ & ->)]; [lia|]. rewrite decide_True in Hd by done. lia.
    + rewrite lookup_insert_ne by done. destruct Hdj as [->|(_ & ? & _)]; [lia|done].
Qed.

Lemma kinv_step tr s l s' : kinv tr s -> kstep s l s' -> kinv (tr ++ l) s'.
Proof.
  intros Hinv H.
  inversion H; subst;
    try (eapply kinv_loop; [exact Hinv|eassumption|..]; [done| | | | |]; intros;
         try (match goal with X : ?p = LTun _ _ _ |- _ => first [discriminate X | injection X as <- <- <-] end);
         try (match goal with X : _ = EDial _ |- _ => first [discriminate X | injection X as ->] end);
         try (match goal with X : _ = EOpen _ |- _ => first [discriminate X | injection X as ->] end);
         try (match goal with X : _ = EReady _ |- _ => first [discriminate X | injection X as ->] end);
         try done; try (left; eexists; split; [reflexivity|done]); eauto; try (destruct cl; done); fail).
  - (* serve *) destruct Hinv as [Ho Hr Hc Hcl Ht Hd].
    assert (Hno : ~ called [EServe t]) by (apply called_single; done).
    split; cbn [kLoops kClosing kCloser] in *.
    + intros u Hu. apply elem_of_app in Hu as [Hu|Hu]; [|set_solver]. destruct (Ho u Hu); [left; by apply ended_app|auto].
    + intros u Hu. apply elem_of_app in Hu as [Hu|Hu]; [|set_solver]. destruct (Hr u Hu); [left; by apply ended_app|auto].
    + rewrite called_app. tauto.
    + done.
    + intros f Hf u Hu. apply rbc_app in Hu; [|set_solver]. destruct (Ht f Hf u Hu) as [?|[? ?]]; [left; by apply ended_app|].
      right. split; [apply elem_of_app; by left|]. intros. apply elem_of_app; left; auto.
    + intros Hcd j. rewrite called_app in Hcd. assert (Hcd' : called tr) by tauto. rewrite after_call_app, dials_app by done.
      specialize (Hd Hcd' j). replace (dials j [EServe t]) with 0%nat; [lia|done].
  - (* call *) destruct Hinv as [Ho Hr Hc Hcl Ht Hd]. cbn [kLoops kClosing kCloser] in *.
    assert (Hn : ~ called tr) by tauto.
    split; cbn [kLoops kClosing kCloser].
    + intros u Hu. apply elem_of_app in Hu as [Hu|Hu]; [|set_solver]. destruct (Ho u Hu); [left; by apply ended_app|auto].
    + intros u Hu. apply elem_of_app in Hu as [Hu|Hu]; [|set_solver]. destruct (Hr u Hu); [left; by apply ended_app|auto].
    + split; [done|]. intros _. exists f. apply elem_of_app. right. by left.
    + done.
    + intros g Hg. exfalso. naive_solver.
    + intros _ j. rewrite after_call_none by done. unfold dials. cbn. case_decide; lia.
  - (* tell *) destruct Hinv as [Ho Hr Hc Hcl Ht Hd]. cbn [kLoops kClosing kCloser] in *.
    set (l := concat _). assert (Hl : forall e, e ∈ ETau :: l -> e = ETau \/ exists t, e = ESignal t \/ e = EClosed t).
    { intros e He. apply elem_of_cons in He as [?|He]; [auto|]. apply tell_events_in in He as (i & p & _ & He). right. by eapply tell_events_shape. }
    assert (Hnc : ~ called (ETau :: l)).
    { intros [g Hg]. apply Hl in Hg as [?|(u & [?|?])]; done. }
    assert (Htun : forall t r c, tunnel_at (mkK L cl ic (KCalled f) sn) t r c -> exists c', tunnel_at (mkK (tell f <$> L) cl ic (KTold f) sn) t r c').
    { intros t r c [j Hj]. cbn in Hj. exists (if r then c || f else c). exists j. cbn. rewrite lookup_fmap, Hj. destruct r; done. }
    split; cbn [kLoops kClosing kCloser].
    + intros u Hu. apply elem_of_app in Hu as [Hu|Hu]; [|apply Hl in Hu as [?|(v & [?|?])]; done].
      destruct (Ho u Hu) as [?|(r & c & X)]; [left; by apply ended_app|]. destruct (Htun _ _ _ X) as [c' ?]. eauto.
    + intros u Hu. apply elem_of_app in Hu as [Hu|Hu]; [|apply Hl in Hu as [?|(v & [?|?])]; done].
      destruct (Hr u Hu) as [?|(c & X)]; [left; by apply ended_app|]. destruct (Htun _ _ _ X) as [c' ?]. eauto.
    + rewrite called_app. split; [done|]. intros _. left. by apply Hc.
    + split; [done|]. intros _. by apply Hcl.
    + intros g Hg u Hu. assert (g = f) as -> by naive_solver.
      apply rbc_app in Hu; [|intros g' Hg'; apply Hnc; by exists g'].
      destruct Hu as (a & g & b & -> & Hin).
      destruct (Hr u) as [?|(c & i & Hi)]; [apply elem_of_app; by left|left; by apply ended_app|].
      cbn in Hi. right. split.
      * apply elem_of_app. right. right. apply tell_events_in. exists i, (LTun u true c). split; [done|]. cbn. by left.
      * intros ->. apply elem_of_app. right. right. apply tell_events_in. exists i, (LTun u true c). split; [done|]. cbn. right. by left.
    + intros Hcd j. rewrite called_app in Hcd. assert (Hcd' : called tr) by tauto. rewrite after_call_app, dials_app by done.
      specialize (Hd Hcd' j). replace (dials j (ETau :: l)) with 0%nat.
      * destruct (decide ((tell f <$> L) !! j = Some LGo)) as [E|E]; [|destruct (decide (L !! j = Some LGo)); lia].
        rewrite lookup_fmap_Some in E. destruct E as (p & E & Hp).
        assert (p = LGo) as -> by (destruct p as [| | |? []| | | | |]; cbn in E; done). rewrite decide_True in Hd by done. lia.
      * unfold dials. destruct (filter (fun e => e = EDial j) (ETau :: l)) as [|x xs] eqn:E; [done|].
        assert (Hx : x ∈ filter (fun e => e = EDial j) (ETau :: l)) by (rewrite E; left).
        apply elem_of_list_filter in Hx as [-> Hx]. apply Hl in Hx as [?|(v & [?|?])]; done.
  - (* idle close *) destruct Hinv as [Ho Hr Hc Hcl Ht Hd]. cbn [kLoops kClosing kCloser] in *.
    split; cbn [kLoops kClosing kCloser].
    + intros u Hu. apply elem_of_app in Hu as [Hu|Hu]; [|set_solver]. destruct (Ho u Hu); [left; by apply ended_app|auto].
    + intros u Hu. apply elem_of_app in Hu as [Hu|Hu]; [|set_solver]. destruct (Hr u Hu); [left; by apply ended_app|auto].
    + rewrite called_app. split; [done|]. intros _. left. by apply Hc.
    + split; [done|]. intros _. by apply Hcl.
    + intros g Hg u Hu. assert (g = f) as -> by naive_solver. apply rbc_app in Hu; [|set_solver].
      destruct (Ht f (or_introl eq_refl) u Hu) as [?|[? ?]]; [left; by apply ended_app|].
      right. split; [apply elem_of_app; by left|]. intros. apply elem_of_app; left; auto.
    + intros Hcd j. rewrite called_app in Hcd. assert (Hcd' : called tr) by (destruct Hcd as [?|Hx]; [done|destruct (called_single ETau) in Hx; done]).
      rewrite after_call_app, dials_app by done. specialize (Hd Hcd' j). replace (dials j [ETau]) with 0%nat; [lia|done].
  - (* return *) destruct Hinv as [Ho Hr Hc Hcl Ht Hd]. cbn [kLoops kClosing kCloser] in *.
    split; cbn [kLoops kClosing kCloser].
    + intros u Hu. apply elem_of_app in Hu as [Hu|Hu]; [|set_solver]. destruct (Ho u Hu); [left; by apply ended_app|auto].
    + intros u Hu. apply elem_of_app in Hu as [Hu|Hu]; [|set_solver]. destruct (Hr u Hu); [left; by apply ended_app|auto].
    + rewrite called_app. split; [done|]. intros _. left. by apply Hc.
    + split; [done|]. intros _. by apply Hcl.
    + intros g Hg u Hu. assert (g = true) as -> by naive_solver. apply rbc_app in Hu; [|set_solver].
      destruct (Ht true (or_intror (or_introl eq_refl)) u Hu) as [?|[? ?]]; [left; by apply ended_app|].
      right. split; [apply elem_of_app; by left|]. intros. apply elem_of_app; left; auto.
    + intros Hcd j. assert (Hcd' : called tr) by (by apply Hc).
      rewrite after_call_app, dials_app by done. specialize (Hd Hcd' j). replace (dials j [ERet true]) with 0%nat; [lia|done].
  - destruct Hinv as [Ho Hr Hc Hcl Ht Hd]. cbn [kLoops kClosing kCloser] in *.
    split; cbn [kLoops kClosing kCloser].
    + intros u Hu. apply elem_of_app in Hu as [Hu|Hu]; [|set_solver]. destruct (Ho u Hu); [left; by apply ended_app|auto].
    + intros u Hu. apply elem_of_app in Hu as [Hu|Hu]; [|set_solver]. destruct (Hr u Hu); [left; by apply ended_app|auto].
    + rewrite called_app. split; [done|]. intros _. left. by apply Hc.
    + split; [done|]. intros _. by apply Hcl.
    + intros g Hg u Hu. assert (g = false) as -> by naive_solver. apply rbc_app in Hu; [|set_solver].
      destruct (Ht false (or_intror (or_introl eq_refl)) u Hu) as [?|[? ?]]; [left; by apply ended_app|].
      right. split; [apply elem_of_app; by left|]. intros. apply elem_of_app; left; auto.
    + intros Hcd j. assert (Hcd' : called tr) by (by apply Hc).
      rewrite after_call_app, dials_app by done. specialize (Hd Hcd' j). replace (dials j [ERet false]) with 0%nat; [lia|done].
Qed.
Lemma kinv_exec ids tr s : kexec (kst0 ids) tr s -> kinv tr s.
Proof.
  intros H. remember (kst0 ids) as s0 eqn:E. induction H as [|s tr s1 l s2 H IH Hs]; subst.
  - split; cbn.
    + intros t Ht. by apply elem_of_nil in Ht.
    + intros t Ht. by apply elem_of_nil in Ht.
    + split; [intros [f Hf]; by apply elem_of_nil in Hf|done].
    + done.
    + intros f [?|[?|?]]; done.
    + intros [f Hf]. by apply elem_of_nil in Hf.
  - eapply kinv_step; eauto.
Qed.

(* where tunnels are, and that a closed one serves no more *)
Definition quiet (t : N) (s : kst) : Prop := t ∈ kSeen s /\ forall i r c, kLoops s !! i = Some (LTun t r c) -> c = true.
Record kinv2 (tr : list kevt) (s : kst) : Prop := {
  k2_seen : forall i t r c, kLoops s !! i = Some (LTun t r c) -> t ∈ kSeen s;
  k2_one : forall i j t r c r' c', kLoops s !! i = Some (LTun t r c) -> kLoops s !! j = Some (LTun t r' c') -> i = j;
  k2_ready : forall t, EReady t ∈ tr -> t ∈ kSeen s;
  k2_end : forall t b, EEnd t b ∈ tr -> t ∈ kSeen s /\ forall i r c, kLoops s !! i <> Some (LTun t r c);
  k2_ready_at : forall t i c, EReady t ∈ tr -> kLoops s !! i <> Some (LTun t false c);
  k2_call : kCloser s = KNot <-> ~ called tr;
  k2_quiet : kCloser s = KTold true \/ kCloser s = KIdle true \/ kCloser s = KRet true -> forall t, ready_before_call t tr -> quiet t s }.
Lemma quiet_step t s l s' : quiet t s -> kstep s l s' -> quiet t s'.
Proof.
  intros [Q1 Q2] H. destruct H; unfold quiet in *; cbn [kSeen kLoops] in *;
    try (split; [done|]; intros j r' c' Hj; apply lookup_insert_Some in Hj as [[<- E]|[_ Hj]]; [|by eapply Q2]; try (destruct cl; done); try done; fail);
    try (split; done).
  - split; [set_solver|]. intros j r' c' Hj. apply lookup_insert_Some in Hj as [[<- [= <- _ _]]|[_ Hj]]; [done|by eapply Q2].
  - split; [done|]. intros j r' c' Hj. apply lookup_insert_Some in Hj as [[<- [= <- _ <-]]|[_ Hj]]; by eapply Q2.
  - split; [done|]. intros j r' c' Hj. rewrite lookup_fmap_Some in Hj. destruct Hj as (p & E & Hp).
    destruct p as [| | |u [] c| | | | |]; cbn in E; try done; injection E as -> <- <-; rewrite (Q2 _ _ _ Hp); done.
Qed.
(* a step of a loop that neither opens, readies nor calls *)
Lemma kinv2_loop tr L cl ic k sn i p q e : kinv2 tr (mkK L cl ic k sn) -> L !! i = Some p -> (forall f, e <> ECall f) -> (forall t, e <> EReady t) ->
  (forall t b, e = EEnd t b -> exists r c, p = LTun t r c) -> (forall t r c, q <> LTun t r c) -> kinv2 (tr ++ [e]) (mkK (<[i := q]> L) cl ic k sn).
Proof.
  intros [H1 H2 H3 H4 H5 H6 H7] Hi He Hr Hd Hq. cbn [kLoops kSeen kCloser] in *.
  assert (A : forall j t r c, (<[i := q]> L) !! j = Some (LTun t r c) -> j <> i /\ L !! j = Some (LTun t r c)).
  { intros j t r c Hj. apply lookup_insert_Some in Hj as [[_ E]|[? ?]]; [by destruct (Hq t r c)|]. split; [congruence|done]. }
  split; cbn [kLoops kSeen kCloser].
  - intros j t r c Hj. apply A in Hj as [_ Hj]. by eapply H1.
  - intros j j' t r c r' c' Hj Hj'. apply A in Hj as [_ Hj]. apply A in Hj' as [_ Hj']. by eapply H2.
  - intros t Hin. apply elem_of_app in Hin as [Hin|Hin]; [auto|]. apply elem_of_list_singleton in Hin. by destruct (Hr t).
  - intros t b Hin. apply elem_of_app in Hin as [Hin|Hin].
    + destruct (H4 t b Hin) as [? G]. split; [done|]. intros j r c Hj. apply A in Hj as [_ Hj]. by eapply G.
    + apply elem_of_list_singleton in Hin. destruct (Hd t b (eq_sym Hin)) as (r & c & ->). split; [by eapply H1|].
      intros j r' c' Hj. apply A in Hj as [Hne Hj]. apply Hne. by eapply H2.
  - intros t j c Hin Hj. apply A in Hj as [_ Hj]. apply elem_of_app in Hin as [Hin|Hin]; [by eapply H5|]. apply elem_of_list_singleton in Hin. by destruct (Hr t).
  - rewrite H6, called_app. pose proof (called_single e He). tauto.
  - intros Hk t Ht. apply rbc_app in Ht; [|intros f Hf; apply elem_of_list_singleton in Hf; by destruct (He f)].
    destruct (H7 Hk t Ht) as [Q1 Q2]. split; [done|]. intros j r c Hj. cbn [kLoops] in Hj. apply A in Hj as [_ Hj]. by eapply Q2.
Qed.
Lemma kinv2_step tr s l s' : kinv tr s -> kinv2 tr s -> kstep s l s' -> kinv2 (tr ++ l) s'.
Proof.
  intros KI Hinv H. inversion H; subst;
    try (eapply kinv2_loop; [exact Hinv|eassumption|done|done|..]; [first [done|intros ? ? [= <- <-]; by do 2 eexists]|intros; try (destruct cl; done); done]; fail).
  all: pose proof Hinv as [G1_ G2_ G3_ G4_ G5_ G6_ G7_]; cbn [kLoops kSeen kCloser] in *.
  - (* open *) assert (HL : forall j r c, L !! j <> Some (LTun t r c)) by (intros j r c Hj; apply G1_ in Hj; done).
    split; cbn [kLoops kSeen kCloser].
    + intros j u r c Hj. apply lookup_insert_Some in Hj as [[<- [= <- _ _]]|[_ Hj]]; [set_solver|]. apply G1_ in Hj. set_solver.
    + intros j j' u r c r' c' Hj Hj'. apply lookup_insert_Some in Hj as [[<- E]|[_ Hj]]; apply lookup_insert_Some in Hj' as [[<- E']|[_ Hj']]; try done.
      * injection E as <- <- <-. by destruct (HL j' r' c').
      * injection E' as <- <- <-. by destruct (HL j r c).
      * by eapply G2_.
    + intros u Hu. apply elem_of_app in Hu as [Hu|Hu]; [|set_solver]. specialize (G3_ u Hu). set_solver.
    + intros u b Hu. apply elem_of_app in Hu as [Hu|Hu]; [|set_solver]. destruct (G4_ u b Hu) as [G1 G2]. split; [set_solver|].
      intros j r c Hj. apply lookup_insert_Some in Hj as [[<- [= <- _ _]]|[_ Hj]]; [done|by eapply G2].
    + intros u j c Hu Hj. apply elem_of_app in Hu as [Hu|Hu]; [|set_solver]. apply lookup_insert_Some in Hj as [[<- [= <- _]]|[_ Hj]]; [by apply G3_ in Hu|by eapply G5_].
    + rewrite G6_, called_app. assert (~ called [EOpen t]) by by apply called_single. tauto.
    + intros Hk u Hu. apply rbc_app in Hu; [|set_solver]. eapply quiet_step; [by apply (G7_ Hk)|exact H].
  - (* ready *) split; cbn [kLoops kSeen kCloser].
    + intros j u r c' Hj. apply lookup_insert_Some in Hj as [[<- [= <- _ _]]|[_ Hj]]; by eapply G1_.
    + intros j j' u r d r' d' Hj Hj'. apply lookup_insert_Some in Hj as [[<- E]|[_ Hj]]; apply lookup_insert_Some in Hj' as [[<- E']|[_ Hj']]; try done.
      * injection E as <- <- <-. by eapply G2_.
      * injection E' as <- <- <-. by eapply G2_.
      * by eapply G2_.
    + intros u Hu. apply elem_of_app in Hu as [Hu|Hu]; [auto|]. apply elem_of_list_singleton in Hu. injection Hu as ->. by eapply G1_.
    + intros u b Hu. apply elem_of_app in Hu as [Hu|Hu]; [|set_solver]. destruct (G4_ u b Hu) as [G1 G2]. split; [done|].
      intros j r d Hj. apply lookup_insert_Some in Hj as [[<- [= <- _ _]]|[_ Hj]]; by eapply G2.
    + intros u j d Hu Hj. apply lookup_insert_Some in Hj as [[<- E]|[Hne Hj]]; [done|]. apply elem_of_app in Hu as [Hu|Hu]; [by eapply G5_|].
      apply elem_of_list_singleton in Hu. injection Hu as ->. apply Hne. by eapply G2_.
    + rewrite G6_, called_app. assert (~ called [EReady t]) by by apply called_single. tauto.
    + intros Hk u Hu. apply rbc_app in Hu; [|set_solver]. eapply quiet_step; [by apply (G7_ Hk)|exact H].
  - (* serve *) split; cbn [kLoops kSeen kCloser]; try done.
    + intros u Hu. apply elem_of_app in Hu as [Hu|Hu]; [auto|set_solver].
    + intros u b Hu. apply elem_of_app in Hu as [Hu|Hu]; [by eapply G4_|set_solver].
    + intros u j c Hu. apply elem_of_app in Hu as [Hu|Hu]; [by eapply G5_|set_solver].
    + rewrite G6_, called_app. assert (~ called [EServe t]) by by apply called_single. tauto.
    + intros Hk u Hu. apply rbc_app in Hu; [|set_solver]. by apply (G7_ Hk).
  - (* call *) split; cbn [kLoops kSeen kCloser]; try done.
    + intros u Hu. apply elem_of_app in Hu as [Hu|Hu]; [auto|set_solver].
    + intros u b Hu. apply elem_of_app in Hu as [Hu|Hu]; [by eapply G4_|set_solver].
    + intros u j c Hu. apply elem_of_app in Hu as [Hu|Hu]; [by eapply G5_|set_solver].
    + split; [done|]. intros Hn. exfalso. apply Hn. exists f. set_solver.
    + intros [?|[?|?]]; done.
  - (* tell *) set (l := concat _). assert (Hl : forall e, e ∈ ETau :: l -> e = ETau \/ exists t, e = ESignal t \/ e = EClosed t).
    { intros e He. apply elem_of_cons in He as [?|He]; [auto|]. apply tell_events_in in He as (i & p & _ & He). right. by eapply tell_events_shape. }
    assert (Hnc : ~ called (ETau :: l)) by (intros [g Hg]; apply Hl in Hg as [?|(u & [?|?])]; done).
    assert (A : forall j t r c, (tell f <$> L) !! j = Some (LTun t r c) -> exists c0, L !! j = Some (LTun t r c0) /\ c = (c0 || (r && f))).
    { intros j t r c Hj. rewrite lookup_fmap_Some in Hj. destruct Hj as (p & E & Hp). destruct p as [| | |u [] d| | | | |]; cbn in E; try done; injection E as <- <- <-; exists d; (split; [done|]).
      - by rewrite andb_true_l. - by rewrite orb_false_r. }
    split; cbn [kLoops kSeen kCloser].
    + intros j u r c Hj. apply A in Hj as (d & Hj & _). by eapply G1_.
    + intros j j' u r c r' c' Hj Hj'. apply A in Hj as (d & Hj & _). apply A in Hj' as (d' & Hj' & _). by eapply G2_.
    + intros u Hu. apply elem_of_app in Hu as [Hu|Hu]; [auto|]. apply Hl in Hu as [?|(v & [?|?])]; done.
    + intros u b Hu. apply elem_of_app in Hu as [Hu|Hu]; [|apply Hl in Hu as [?|(v & [?|?])]; done]. destruct (G4_ u b Hu) as [G1 G2]. split; [done|].
      intros j r c Hj. apply A in Hj as (d & Hj & _). by eapply G2.
    + intros u j c Hu Hj. apply A in Hj as (d & Hj & _). apply elem_of_app in Hu as [Hu|Hu]; [by eapply G5_|]. apply Hl in Hu as [?|(v & [?|?])]; done.
    + rewrite called_app. split; [done|]. intros Hn. exfalso. apply Hn. left. destruct (ki_called _ _ KI) as [_ G]. by apply G.
    + intros Hk u Hu. assert (f = true) as -> by (destruct Hk as [[= ?]|[?|?]]; done).
      apply rbc_app in Hu; [|intros g Hg; apply Hnc; by exists g]. destruct Hu as (a & g & b & -> & Hin).
      assert (EReady u ∈ a ++ ECall g :: b) as Hu by (apply elem_of_app; by left).
      split; [by apply G3_|]. intros j r c Hj. cbn [kLoops] in Hj. apply A in Hj as (d & Hj & ->). destruct r; [|by destruct (G5_ u j d Hu)]. by rewrite andb_true_l, orb_true_r.
  - (* idle *) split; cbn [kLoops kSeen kCloser]; try done.
    + intros u Hu. apply elem_of_app in Hu as [Hu|Hu]; [auto|set_solver].
    + intros u b Hu. apply elem_of_app in Hu as [Hu|Hu]; [by eapply G4_|set_solver].
    + intros u j c Hu. apply elem_of_app in Hu as [Hu|Hu]; [by eapply G5_|set_solver].
    + split; [done|]. intros Hn. exfalso. apply Hn. apply called_app. left. by apply (ki_called _ _ KI).
    + intros Hk u Hu. apply rbc_app in Hu; [|set_solver]. assert (f = true) as -> by (destruct Hk as [?|[[= ?]|?]]; done). by apply (G7_ (or_introl eq_refl)).
  - split; cbn [kLoops kSeen kCloser]; try done.
    + intros u Hu. apply elem_of_app in Hu as [Hu|Hu]; [auto|set_solver].
    + intros u b Hu. apply elem_of_app in Hu as [Hu|Hu]; [by eapply G4_|set_solver].
    + intros u j c Hu. apply elem_of_app in Hu as [Hu|Hu]; [by eapply G5_|set_solver].
    + split; [done|]. intros Hn. exfalso. apply Hn. apply called_app. left. by apply (ki_called _ _ KI).
    + intros Hk u Hu. apply rbc_app in Hu; [|set_solver]. by apply (G7_ (or_intror (or_introl eq_refl))).
  - split; cbn [kLoops kSeen kCloser]; try done.
    + intros u Hu. apply elem_of_app in Hu as [Hu|Hu]; [auto|set_solver].
    + intros u b Hu. apply elem_of_app in Hu as [Hu|Hu]; [by eapply G4_|set_solver].
    + intros u j c Hu. apply elem_of_app in Hu as [Hu|Hu]; [by eapply G5_|set_solver].
    + split; [done|]. intros Hn. exfalso. apply Hn. apply called_app. left. by apply (ki_called _ _ KI).
    + intros [?|[?|?]]; done.
Qed.
Lemma kinv2_exec ids tr s : kexec (kst0 ids) tr s -> kinv2 tr s.
Proof.
  intros H. remember (kst0 ids) as s0 eqn:E. induction H as [|s tr s1 l s2 H IH Hs]; subst.
  - assert (A : forall i t r c, kLoops (kst0 ids) !! i <> Some (LTun t r c)) by (intros i t r c Hi; cbn in Hi; apply lookup_gset_to_gmap_Some in Hi as [_ ?]; done).
    split.
    + intros i t r c Hi. by destruct (A i t r c).
    + intros i j t r c r' c' Hi. by destruct (A i t r c).
    + intros t Ht. by apply elem_of_nil in Ht.
    + intros t b Ht. by apply elem_of_nil in Ht.
    + intros t i c Ht. by apply elem_of_nil in Ht.
    + split; [intros _ [f Hf]; by apply elem_of_nil in Hf|done].
    + intros [?|[?|?]]; done.
  - eapply kinv2_step; [by eapply kinv_exec|by apply IH|done].
Qed.
(* Once Close has returned, no tunnel that was ready when it was called hands anything more to a local service. *)
Theorem C54_silent_after_close : forall ids tr s s' t, kexec (kst0 ids) tr s -> kstep s [ERet true] s' -> ready_before_call t tr ->
  forall tr' s'', kexec s' tr' s'' -> EServe t ∉ tr'.
Proof.
  intros ids tr s s' t H Hs Hr tr' s'' Hx. pose proof (kinv2_exec _ _ _ H) as HI. inversion Hs; subst.
  assert (Q : quiet t (mkK L cl ic (KIdle true) sn)) by (apply (k2_quiet _ _ HI); auto).
  assert (G : quiet t s'' /\ EServe t ∉ tr'); [|apply G]. remember (mkK L cl ic (KRet true) sn) as s0 eqn:E0.
  induction Hx as [|s0 tr1 s1 l s2 Hx IH Hst]; subst.
  - split; [done|]. by intros X%elem_of_nil.
  - destruct (IH eq_refl Hs) as [Q1 Q2]. split; [by eapply quiet_step|]. intros Hin. apply elem_of_app in Hin as [Hin|Hin]; [done|].
    destruct Hst; try (apply elem_of_list_singleton in Hin; discriminate Hin).
    + apply elem_of_list_singleton in Hin. injection Hin as ->. destruct Q1 as [_ Q1]. by specialize (Q1 _ _ _ H0).
    + apply elem_of_cons in Hin as [?|Hin]; [done|]. apply tell_events_in in Hin as (j & p & _ & Hin). apply tell_events_shape in Hin as (u & [?|?]); done.
Qed.
(* Shutdown closes no connection: that is left to the server, which ends the tunnel when its visitors are done. *)
Theorem C54_shutdown_gentle : forall ids tr s t, kexec (kst0 ids) tr s -> EClosed t ∈ tr -> ECall true ∈ tr.
Proof.
  intros ids tr s t H. remember (kst0 ids) as s0 eqn:E.
  assert (G : (EClosed t ∈ tr -> ECall true ∈ tr) /\ (kCloser s = KCalled true -> ECall true ∈ tr)); [|apply G].
  induction H as [|s tr s1 l s2 H IH Hs]; subst; [split; [by intros X%elem_of_nil|done]|]. destruct (IH eq_refl) as [I1 I2].
  assert (A : EClosed t ∈ l -> kCloser s1 = KCalled true).
  { destruct Hs; intros Hin; try (apply elem_of_list_singleton in Hin; discriminate Hin). apply elem_of_cons in Hin as [?|Hin]; [done|].
    apply tell_events_in in Hin as (j & p & _ & Hin). destruct p as [| | |u [] d| | | | |]; cbn in Hin; try by apply elem_of_nil in Hin.
    destruct f; [done|]. apply elem_of_list_singleton in Hin. done. }
  split.
  - intros Hin. apply elem_of_app. apply elem_of_app in Hin as [Hin|Hin]; auto.
  - intros Hk. apply elem_of_app. destruct Hs; cbn [kCloser] in *; try (left; by apply I2); try done. injection Hk as ->. right. by left.
Qed.
(* When Close returns, every tunnel that was ready when it was called has been told and closed, or had ended. *)
Theorem C54_ready_tunnels_closed : forall ids tr s s' t, kexec (kst0 ids) tr s -> kstep s [ERet true] s' -> ready_before_call t tr ->
  ended t tr \/ (ESignal t ∈ tr /\ EClosed t ∈ tr).
Proof.
  intros ids tr s s' t H Hs Hr. apply kinv_exec in H. inversion Hs; subst.
  destruct (ki_told _ _ H true) with (t := t) as [?|[? ?]]; auto.
Qed.
(* Shutdown tells every tunnel that was ready when it was called, unless it had ended. *)
Theorem C54_shutdown_tells : forall ids tr s t, kexec (kst0 ids) tr s -> (kCloser s = KIdle false \/ kCloser s = KRet false) -> ready_before_call t tr ->
  ended t tr \/ ESignal t ∈ tr.
Proof.
  intros ids tr s t H Hs Hr. apply kinv_exec in H.
  destruct (ki_told _ _ H false) with (t := t) as [?|[? ?]]; auto.
Qed.
(* When Shutdown returns, every tunnel the client ever opened has ended, and nothing happens any more. *)
Theorem C54_shutdown_complete : forall ids tr s s', kexec (kst0 ids) tr s -> kstep s [ERet false] s' ->
  (forall t, EOpen t ∈ tr -> ended t tr) /\ forall l s'', ~ kstep s' l s''.
Proof.
  intros ids tr s s' H Hs. apply kinv_exec in H. inversion Hs; subst. split.
  - intros t Ht. destruct (ki_open _ _ H t Ht) as [?|(r & c & i & Hi)]; [done|]. cbn in Hi.
    match goal with X : map_Forall _ L |- _ => specialize (X i _ Hi); done end.
  - intros l s'' Hs2. inversion Hs2; subst;
      try (match goal with X : map_Forall _ L, Y : L !! _ = Some _ |- _ => specialize (X _ _ Y); discriminate X end).
Qed.
(* After the call every connect loop begins at most one more connection to the server. *)
Theorem C54_one_more_dial : forall ids tr s i, kexec (kst0 ids) tr s -> called tr -> (dials i (after_call tr) <= 1)%nat.
Proof. intros ids tr s i H Hc. apply kinv_exec in H. pose proof (ki_dials _ _ H Hc i). case_decide; lia. Qed.

(* After the call, apart from the data that a tunnel may serve, only a bounded number of things happen; and while a loop has
   not ended it can go on -- by itself, unless it is in a tunnel that was not closed. *)
Definition lrank (p : lpc) : nat :=
  match p with LGo => 9 | LDial => 8 | LTun _ false _ => 7 | LTun _ true _ => 6 | LAfter => 5 | LSlept => 4 | LIdle => 3 | LRemote => 2 | LTop => 1 | LEnd => 0 end%nat.
Definition krank (k : kpc) : nat := match k with KNot => 4 | KCalled _ => 3 | KTold _ => 2 | KIdle _ => 1 | KRet _ => 0 end%nat.
Definition loops_rank (L : gmap N lpc) : nat := map_fold (fun _ p n => lrank p + n)%nat 0%nat L.
Definition is_serve (l : list kevt) : bool := match l with [EServe _] => true | _ => false end.

Lemma loops_rank_insert L i p : L !! i = None -> loops_rank (<[i := p]> L) = (lrank p + loops_rank L)%nat.
Proof. intros H. unfold loops_rank. rewrite map_fold_insert_L; [done| |done]. intros. lia. Qed.
Lemma loops_rank_update L i p q : L !! i = Some p -> (loops_rank (<[i := q]> L) + lrank p = loops_rank L + lrank q)%nat.
Proof.
  intros H. rewrite <- insert_delete_insert. rewrite loops_rank_insert by apply lookup_delete.
  assert (E : loops_rank L = (lrank p + loops_rank (delete i L))%nat).
  { rewrite <- (loops_rank_insert (delete i L) i p) by apply lookup_delete. by rewrite insert_delete. }
  lia.
Qed.
Lemma loops_rank_tell f L : loops_rank (tell f <$> L) = loops_rank L.
Proof.
  induction L as [|i p L Hi IH] using map_ind; [done|].
  rewrite fmap_insert, loops_rank_insert by (by rewrite lookup_fmap, Hi). rewrite loops_rank_insert by done. rewrite IH.
  f_equal. destruct p as [| | |? []| | | | |]; done.
Qed.
Lemma loops_rank_bound L : (loops_rank L <= 9 * size L)%nat.
Proof.
  induction L as [|i p L Hi IH] using map_ind; [done|]. rewrite loops_rank_insert, map_size_insert_None by done.
  destruct p as [| | |? []| | | | |]; cbn [lrank]; lia.
Qed.

(* an execution, with the number of its steps that are not the serving of data *)
Inductive kexec_n : kst -> nat -> kst -> Prop :=
  | kn_nil s : kexec_n s 0 s
  | kn_snoc s n s1 l s2 : kexec_n s n s1 -> kstep s1 l s2 -> kexec_n s (if is_serve l then n else S n) s2.

Lemma rank_step s l s' : kClosing s = true -> kstep s l s' ->
  kClosing s' = true /\
  (loops_rank (kLoops s') + krank (kCloser s') + (if is_serve l then 0 else 1) <= loops_rank (kLoops s) + krank (kCloser s))%nat.
Proof.
  intros Hc H.
  inversion H; subst; cbn [kLoops kClosing kCloser] in *; subst; (split; [done|]); cbn [is_serve];
    try (match goal with X : ?L !! ?i = Some ?p |- context [<[_ := ?q]> ?L] =>
      pose proof (loops_rank_update L i p q X) as E; cbn [lrank] in E; lia end);
    try (rewrite loops_rank_tell); cbn [krank]; try lia.
  pose proof (loops_rank_update L i _ LAfter H0) as E. destruct r; cbn [lrank] in E; lia.
Qed.
Theorem C54_comes_to_rest : forall s n s', kClosing s = true -> kexec_n s n s' -> (n <= 9 * size (kLoops s) + 4)%nat.
Proof.
  intros s n s' Hc H.
  assert (G : kClosing s' = true /\ (loops_rank (kLoops s') + krank (kCloser s') + n <= loops_rank (kLoops s) + krank (kCloser s))%nat).
  { induction H as [|s n s1 l s2 H IH Hs]; [split; [done|lia]|]. destruct (IH Hc) as [Hc1 IH1].
    destruct (rank_step _ _ _ Hc1 Hs) as [? ?]. split; [done|]. destruct (is_serve l); lia. }
  pose proof (loops_rank_bound (kLoops s)). destruct (kCloser s); cbn [krank] in *; lia.
Qed.
Theorem C54_no_loop_is_stuck : forall s i p, kClosing s = true -> kLoops s !! i = Some p -> p <> LEnd -> (forall t r, p <> LTun t r false) ->
  exists l s', kstep s l s' /\ kLoops s' !! i <> Some p /\ (forall t, l <> [EEnd t false]) /\ is_serve l = false.
Proof.
  intros [L cl ic k sn] i p Hc Hi He Ht. cbn in *. subst cl.
  assert (Hgo : forall q l, kstep (mkK L true ic k sn) l (mkK (<[i := q]> L) true ic k sn) -> q <> p -> (forall t, l <> [EEnd t false]) -> is_serve l = false ->
    exists l s', kstep (mkK L true ic k sn) l s' /\ kLoops s' !! i <> Some p /\ (forall t, l <> [EEnd t false]) /\ is_serve l = false).
  { intros q l Hst Hq Hl Hsv. exists l, (mkK (<[i := q]> L) true ic k sn). split; [done|]. cbn. rewrite lookup_insert. split; [congruence|done]. }
  destruct p as [| | |t r c| | | | |].
  - apply (Hgo LEnd [ETau]); [by apply (k_top L true)|done..].
  - apply (Hgo LAfter [ETau]); [by apply k_wait|done..].
  - apply (Hgo LAfter [ETau]); [by apply k_dial_fails|done..].
  - destruct c; [|by destruct (Ht t r)]. apply (Hgo LAfter [EEnd t true]); [by eapply k_end|done..].
  - apply (Hgo LEnd [ETau]); [by apply (k_after L true)|done..].
  - apply (Hgo LEnd [ETau]); [by apply (k_slept L true)|done..].
  - apply (Hgo LRemote [ETau]); [by apply k_idle|done..].
  - apply (Hgo LTop [ETau]); [by apply k_remote|done..].
  - done.
Qed.

(* ---- where it fails ---- *)
Lemma kexec_cons s l s1 tr s2 : kstep s l s1 -> kexec s1 tr s2 -> kexec s (l ++ tr) s2.
Proof.
  intros H1 H2. induction H2 as [s1|s1 tr s3 l' s4 H IH Hs].
  - rewrite app_nil_r. apply (kx_snoc s [] s l s1); [constructor|done].
  - rewrite app_assoc. econstructor; [by apply IH|done].
Qed.
Ltac kgo H := eapply kexec_cons; [eapply H; try (vm_compute; reflexivity); try set_solver|].

Lemma left_alone i t f s tr s' : kCloser s = KTold f \/ kCloser s = KIdle f \/ (exists g, kCloser s = KRet g) ->
  kexec s tr s' -> kLoops s !! i = Some (LTun t true false) ->
  ESignal t ∉ tr /\ EClosed t ∉ tr /\ ((forall self, EEnd t self ∉ tr) -> exists s'', kstep s' [EServe t] s'').
Proof.
  intros Hk H Hi.
  assert (G : (kCloser s' = KTold f \/ kCloser s' = KIdle f \/ (exists g, kCloser s' = KRet g)) /\ ESignal t ∉ tr /\ EClosed t ∉ tr /\
              ((exists self, EEnd t self ∈ tr) \/ kLoops s' !! i = Some (LTun t true false))).
  { induction H as [s|s tr s1 l s2 H IH Hs]; [split; [done|split; [set_solver|split; [set_solver|auto]]]|].
    destruct (IH Hk Hi) as (I1 & I2 & I3 & I4).
    assert (I4' : (exists self, EEnd t self ∈ tr) -> exists self, EEnd t self ∈ tr ++ l) by (intros [x ?]; exists x; set_solver).
    inversion Hs; subst; cbn [kLoops kCloser] in *; try (exfalso; naive_solver);
      (split; [first [done | naive_solver] |]); (split; [set_solver|]); (split; [set_solver|]);
      (destruct I4 as [I4|I4]; [by left; apply I4'|]);
      try (by right);
      try (match goal with X : ?L0 !! ?j = Some _, Y : ?L0 !! i = Some _ |- _ => destruct (decide (j = i)) as [->|]; [|right; by rewrite lookup_insert_ne] end; congruence).
    destruct (decide (i0 = i)) as [->|]; [|right; by rewrite lookup_insert_ne].
    left. assert (t0 = t) as -> by congruence. exists c. set_solver. }
  destruct G as (_ & G2 & G3 & G4). split; [done|]. split; [done|]. intros He. destruct G4 as [[x Hx]|G4]; [by destruct (He x)|].
  destruct s' as [L cl ic k sn]. cbn in G4. eexists. by eapply k_serve.
Qed.
Lemma no_return i t s tr s' : kexec s tr s' -> kLoops s !! i = Some (LTun t true false) -> kCloser s = KTold false -> (forall self, EEnd t self ∉ tr) -> ERet false ∉ tr.
Proof.
  intros H Hi Hk He.
  assert (G : ERet false ∉ tr /\ (kCloser s' = KTold false \/ kCloser s' = KIdle false) /\ kLoops s' !! i = Some (LTun t true false)); [|by destruct_and?].
  induction H as [s|s tr s1 l s2 H IH Hs]; [split; [set_solver|auto]|].
  destruct IH as (I1 & I2 & I3); [done|done|intros x Hx; apply (He x); set_solver|].
  inversion Hs; subst; cbn [kLoops kCloser] in *; try (exfalso; naive_solver);
    try (split; [set_solver|]; split; [naive_solver|]; first [done |
      match goal with X : ?L0 !! ?j = Some _, Y : ?L0 !! i = Some _ |- _ => destruct (decide (j = i)) as [->|]; [congruence|by rewrite lookup_insert_ne] end]).
  - destruct (decide (i0 = i)) as [->|]; [|split; [set_solver|split; [naive_solver|by rewrite lookup_insert_ne]]].
    exfalso. apply (He c). assert (t0 = t) as -> by congruence. set_solver.
  - exfalso. match goal with X : map_Forall _ L |- _ => specialize (X i _ I3); discriminate X end.
Qed.

(* Close is called while loop 1 is connecting.  Close returns; then the tunnel gets ready and serves visitors, and whatever
   happens, the client never closes it or tells the server. *)
Theorem C54_leak_refuted : exists a b s t, kexec (kst0 {[1]}) (a ++ ERet true :: b) s /\ EOpen t ∈ b /\ EReady t ∈ b /\ EServe t ∈ b /\
  (forall tr' s', kexec s tr' s' -> ESignal t ∉ tr' /\ EClosed t ∉ tr' /\
     ((forall self, EEnd t self ∉ tr') -> exists s'', kstep s' [EServe t] s'')).
Proof.
  exists ([ETau] ++ [EDial 1] ++ [ECall true] ++ [ETau] ++ [ETau]), ([EOpen 7] ++ [EReady 7] ++ [EServe 7] ++ []).
  set (L := <[1:=LTun 7 true false]> (<[1:=LTun 7 false false]> (tell true <$> <[1:=LDial]> (<[1:=LGo]> (gset_to_gmap LTop {[1]}))))).
  exists (mkK L true true (KRet true) ({[7]} ∪ ∅)), 7. split.
  { change (kexec (kst0 {[1]}) ([ETau] ++ [EDial 1] ++ [ECall true] ++ [ETau] ++ [ETau] ++ [ERet true] ++ [EOpen 7] ++ [EReady 7] ++ [EServe 7] ++ []) (mkK L true true (KRet true) ({[7]} ∪ ∅))).
    unfold kst0.
    eapply kexec_cons; [apply k_top with (i := 1); vm_compute; reflexivity|].
    eapply kexec_cons; [apply k_connect with (i := 1); vm_compute; reflexivity|].
    eapply kexec_cons; [apply k_call|].
    eapply kexec_cons; [exact (k_tell (<[1:=LDial]> (<[1:=LGo]> (gset_to_gmap LTop {[1]}))) true false ∅ true)|].
    eapply kexec_cons; [apply k_idle_close|]. eapply kexec_cons; [apply k_close_returns|].
    eapply kexec_cons; [apply k_dialed with (i := 1) (t := 7); [vm_compute; reflexivity|set_solver]|].
    eapply kexec_cons; [apply k_ready with (i := 1); vm_compute; reflexivity|].
    eapply kexec_cons; [apply k_serve with (i := 1) (r := true); vm_compute; reflexivity|]. apply kx_nil. }
  split; [set_solver|]. split; [set_solver|]. split; [set_solver|].
  assert (P0 : L !! 1 = Some (LTun 7 true false)) by (vm_compute; reflexivity).
  intros tr' s' H. eapply (left_alone 1 7 true); [|exact H|exact P0]. right. right. by eexists.
Qed.

(* Shutdown is called while loop 1 is connecting: the tunnel that comes of it is never told.  As long as the server keeps it,
   it serves and Shutdown does not return. *)
Theorem C54_shutdown_hangs_refuted : exists tr s t, kexec (kst0 {[1]}) tr s /\ ECall false ∈ tr /\ EServe t ∈ tr /\
  (forall tr' s', kexec s tr' s' -> ESignal t ∉ tr' /\ EClosed t ∉ tr' /\
     ((forall self, EEnd t self ∉ tr') -> ERet false ∉ tr' /\ exists s'', kstep s' [EServe t] s'')).
Proof.
  exists ([ETau] ++ [EDial 1] ++ [ECall false] ++ [ETau] ++ [EOpen 7] ++ [EReady 7] ++ [EServe 7] ++ []).
  set (L := <[1:=LTun 7 true false]> (<[1:=LTun 7 false false]> (tell false <$> <[1:=LDial]> (<[1:=LGo]> (gset_to_gmap LTop {[1]}))))).
  exists (mkK L true false (KTold false) ({[7]} ∪ ∅)), 7. split.
  { unfold kst0.
    eapply kexec_cons; [apply k_top with (i := 1); vm_compute; reflexivity|].
    eapply kexec_cons; [apply k_connect with (i := 1); vm_compute; reflexivity|].
    eapply kexec_cons; [apply k_call|].
    eapply kexec_cons; [exact (k_tell (<[1:=LDial]> (<[1:=LGo]> (gset_to_gmap LTop {[1]}))) true false ∅ false)|].
    eapply kexec_cons; [apply k_dialed with (i := 1) (t := 7); [vm_compute; reflexivity|set_solver]|].
    eapply kexec_cons; [apply k_ready with (i := 1); vm_compute; reflexivity|].
    eapply kexec_cons; [apply k_serve with (i := 1) (r := true); vm_compute; reflexivity|]. apply kx_nil. }
  split; [set_solver|]. split; [set_solver|].
  assert (P0 : L !! 1 = Some (LTun 7 true false)) by (vm_compute; reflexivity).
  intros tr' s' H.
  assert (G : kCloser (mkK L true false (KTold false) ({[7]} ∪ ∅)) = KTold false) by done.
  destruct (left_alone 1 7 false (mkK L true false (KTold false) ({[7]} ∪ ∅)) tr' s') as (A1 & A2 & A3); [by left|done|done|].
  split; [done|]. split; [done|]. intros He. split; [|by apply A3].
  eapply (no_return 1 7); [exact H|exact P0|done|done].
Qed.

(* ---- a run that meets the hypotheses of the positive theorems ---- *)
Theorem C54_witness : exists tr s s', kexec (kst0 {[1]}) tr s /\ kstep s [ERet true] s' /\ ready_before_call 7 tr /\ ~ ended 7 tr.
Proof.
  exists ([ETau] ++ [EDial 1] ++ [EOpen 7] ++ [EReady 7] ++ [ECall true] ++ [ETau; ESignal 7; EClosed 7] ++ [ETau] ++ []).
  eexists _, _. split; [|split; [apply k_close_returns|split]].
  - unfold kst0.
    eapply kexec_cons; [apply k_top with (i := 1); vm_compute; reflexivity|].
    eapply kexec_cons; [apply k_connect with (i := 1); vm_compute; reflexivity|].
    eapply kexec_cons; [apply k_dialed with (i := 1) (t := 7); [vm_compute; reflexivity|set_solver]|].
    eapply kexec_cons; [apply k_ready with (i := 1); vm_compute; reflexivity|].
    eapply kexec_cons; [apply k_call|].
    eapply kexec_cons; [exact (k_tell (<[1:=LTun 7 true false]> (<[1:=LTun 7 false false]> (<[1:=LDial]> (<[1:=LGo]> (gset_to_gmap LTop {[1]}))))) true false ({[7]} ∪ ∅) true)|].
    eapply kexec_cons; [apply k_idle_close|]. apply kx_nil.
  - exists [ETau; EDial 1; EOpen 7; EReady 7], true, [ETau; ESignal 7; EClosed 7; ETau]. split; [done|set_solver].
  - intros [b Hb]. set_solver.
Qed.
(* Shutdown with one tunnel that the server closes in answer to the signal *)
Theorem C54_shutdown_witness : exists tr s s', kexec (kst0 {[1]}) tr s /\ kstep s [ERet false] s' /\ ready_before_call 7 tr /\ EOpen 7 ∈ tr.
Proof.
  exists ([ETau] ++ [EDial 1] ++ [EOpen 7] ++ [EReady 7] ++ [ECall false] ++ [ETau; ESignal 7] ++ [ETau] ++ [EEnd 7 false] ++ [ETau] ++ []).
  set (L := <[1:=LTun 7 true false]> (<[1:=LTun 7 false false]> (<[1:=LDial]> (<[1:=LGo]> (gset_to_gmap LTop {[1]}))))).
  eexists (mkK (<[1 := LEnd]> (<[1 := LAfter]> (tell false <$> L))) true true (KIdle false) ({[7]} ∪ ∅)), _.
  split; [|split; [apply k_shutdown_returns|split]].
  - unfold kst0.
    eapply kexec_cons; [apply k_top with (i := 1); vm_compute; reflexivity|].
    eapply kexec_cons; [apply k_connect with (i := 1); vm_compute; reflexivity|].
    eapply kexec_cons; [apply k_dialed with (i := 1) (t := 7); [vm_compute; reflexivity|set_solver]|].
    eapply kexec_cons; [apply k_ready with (i := 1); vm_compute; reflexivity|].
    eapply kexec_cons; [apply k_call|].
    eapply kexec_cons; [exact (k_tell L true false ({[7]} ∪ ∅) false)|].
    eapply kexec_cons; [apply k_idle_close|].
    eapply kexec_cons; [apply k_end with (i := 1) (r := true) (c := false); vm_compute; reflexivity|].
    eapply kexec_cons; [apply (k_after _ true) with (i := 1); vm_compute; reflexivity|]. apply kx_nil.
  - intros i p Hi. destruct (decide (i = 1)) as [->|Hne].
    + rewrite lookup_insert in Hi. by injection Hi as <-.
    + exfalso. unfold L in Hi. rewrite !lookup_insert_ne in Hi by done. rewrite lookup_fmap, !lookup_insert_ne in Hi by done.
      rewrite lookup_gset_to_gmap in Hi. destruct (decide (i ∈ ({[1]} : gset N))) as [Hin|Hin]; [set_solver|].
      rewrite option_guard_False in Hi by done. done.
  - exists [ETau; EDial 1; EOpen 7; EReady 7], false, [ETau; ESignal 7; ETau; EEnd 7 false; ETau]. split; [done|set_solver].
  - set_solver.
Qed.
