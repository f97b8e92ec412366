(* Props_Block.v -- C44 *)
From Verif Require Import GoBase BlockModel.
Local Open Scope N_scope.

Lemma bexec_snoc s tr s1 l s' : bexec s tr s1 -> bstep s1 l s' -> bexec s (tr ++ [l]) s'.
Proof. induction 1; intros Hs; cbn; econstructor; eauto. constructor. Qed.
Lemma bexec_app s tr s1 tr' s' : bexec s tr s1 -> bexec s1 tr' s' -> bexec s (tr ++ tr') s'.
Proof. induction 1; intros Hs; cbn; [done|]. econstructor; eauto. Qed.
Lemma bexec_ind_r (P : list blabel -> bst -> Prop) s : P [] s -> (forall tr s1 l s', bexec s tr s1 -> P tr s1 -> bstep s1 l s' -> P (tr ++ [l]) s') ->
  forall tr s', bexec s tr s' -> P tr s'.
Proof.
  intros H0 Hs tr s' He.
  assert (forall pre s1, bexec s pre s1 -> P pre s1 -> forall tr s2, bexec s1 tr s2 -> P (pre ++ tr) s2) as H.
  { intros pre s1 Hp HP tr2 s2 He2. revert pre Hp HP. induction He2; intros pre Hp HP; [by rewrite app_nil_r|].
    rewrite cons_middle, app_assoc. apply IHHe2; [by eapply bexec_snoc|eauto]. }
  apply (H [] s); [constructor|done|done].
Qed.
Lemma bexec_last s tr l s' : bexec s (tr ++ [l]) s' -> exists s1, bexec s tr s1 /\ bstep s1 l s'.
Proof.
  revert s. induction tr as [|l' tr IH]; intros s0 He; cbn in He; inversion He; subst.
  - inversion H4; subst. exists s0. split; [constructor|done].
  - destruct (IH _ H4) as (s2 & ? & ?). exists s2. split; [|done]. by econstructor.
Qed.

(* the argument of a Set in progress; the points behind which a value has been stored *)
Definition arg (p : bpc) : option (option N) := match p with SStore x | SLoad x | SInit x | SClose x => Some x | _ => None end.
Definition past (p : bpc) : bool := match p with GRead | SLoad _ | SInit _ | SClose _ => true | _ => false end.
Definition called (tr : list blabel) (x : option N) : Prop := exists i, LCallSet i x ∈ tr.
Lemma called_app tr l x : called tr x -> called (tr ++ l) x.
Proof. intros [i H]. exists i. apply elem_of_app. by left. Qed.
Definition set_inv (tr : list blabel) (s : bst) : Prop :=
  (forall i x, arg (bPc s i) = Some x -> called tr x) /\
  ((bInit s = true \/ bClosed s = true \/ exists i, past (bPc s i) = true) -> called tr (bV s)).
(* a step of thread i to p that does not touch the value *)
Lemma set_inv_keep tr l v a c p f i q a' c' p' : set_inv tr (mkBst v a c p f) ->
  (arg q = None \/ arg q = arg (f i)) -> ((a' = true \/ c' = true \/ past q = true) -> a = true \/ c = true \/ past (f i) = true) ->
  set_inv (tr ++ l) (mkBst v a' c' p' (bset f i q)).
Proof.
  intros [H1 H2] Ha Hp. cbn in *. split; cbn; unfold bset.
  - intros j x. case_decide as E; intros Hj; apply called_app; [|eauto]. subst j. destruct Ha as [Ha|Ha]; [congruence|]. rewrite Ha in Hj. eauto.
  - intros Hor. apply called_app, H2. destruct Hor as [?|[?|[j Hj]]].
    + destruct Hp as [?|[?|?]]; eauto.
    + destruct Hp as [?|[?|?]]; eauto.
    + case_decide as E; [|eauto]. destruct Hp as [?|[?|?]]; eauto.
Qed.
Ltac rw_pc := match goal with E : ?f ?i = _ |- context [?f ?i] => rewrite E end.
Lemma set_inv_ok tr s : bexec bst0 tr s -> set_inv tr s.
Proof.
  revert tr s. apply bexec_ind_r.
  - split; cbn; [done|]. intros [?|[?|[i ?]]]; done.
  - intros tr s1 l s' _ H Hs. inversion Hs; subst.
    all: try (eapply set_inv_keep; [exact H|rw_pc; cbn; solve [auto]|rw_pc; cbn; solve [intuition discriminate | intuition auto]]).
    + split; cbn; unfold bset.
      * intros j y. case_decide; intros Hj; [|apply called_app; by eapply H]. injection Hj as ->. exists i. apply elem_of_app. right. by apply elem_of_list_singleton.
      * intros Hor. apply called_app. apply H. cbn. destruct Hor as [?|[?|[j Hj]]]; auto. case_decide; [done|eauto].
    + destruct H as [H1 H2]. cbn in *. split; cbn; unfold bset.
      * intros j y. case_decide; intros Hj; apply called_app; [|by eapply H1]. injection Hj as ->. eapply H1. rewrite H0. done.
      * intros _. apply called_app. apply (H1 i). by rewrite H0.
Qed.
(* Get returns a value that was passed to a Set called earlier (so it does not return before the first Set) *)
Theorem C44_get_returns_a_set_value tr i r s : bexec bst0 (tr ++ [LRetGet i r]) s -> exists j, LCallSet j r ∈ tr.
Proof.
  intros He. apply bexec_last in He as (s1 & H1 & H2). apply set_inv_ok in H1 as [_ H]. inversion H2; subst. apply H. cbn. right. right. exists i. by rw_pc.
Qed.
(* with one Set it is that value *)
Theorem C44_single_value tr i r s x : bexec bst0 (tr ++ [LRetGet i r]) s -> (forall j y, LCallSet j y ∈ tr -> y = x) -> r = x.
Proof. intros [j Hj]%C44_get_returns_a_set_value H. eauto. Qed.

(* Set does not panic when the first Set has returned before a second is called *)
Definition first_alone (tr : list blabel) : Prop := forall pre i x post, tr = pre ++ LCallSet i x :: post -> (forall j y, LCallSet j y ∉ pre) \/ exists j, LRetSet j ∈ pre.
Lemma first_alone_prefix tr l : first_alone (tr ++ [l]) -> first_alone tr.
Proof. intros H pre i x post ->. apply (H pre i x (post ++ [l])). by rewrite <- app_assoc. Qed.
Definition calm (tr : list blabel) (s : bst) : Prop :=
  bPanic s = false /\
  (  ((forall j y, LCallSet j y ∉ tr) /\ (forall j, LRetSet j ∉ tr) /\ bInit s = false /\ bClosed s = false /\ forall i, arg (bPc s i) = None)
  \/ ((forall j, LRetSet j ∉ tr) /\ (exists j y, LCallSet j y ∈ tr) /\ bClosed s = false /\ exists i, arg (bPc s i) <> None /\ (forall j, j <> i -> arg (bPc s j) = None) /\
        (bInit s = true <-> exists x, bPc s i = SClose x))
  \/ ((exists j, LRetSet j ∈ tr) /\ bInit s = true /\ forall i x, bPc s i <> SInit x /\ bPc s i <> SClose x)).
Ltac bcase i := intros j; unfold bset; destruct (decide (j = i)) as [->|]; cbn; auto.
Lemma calm_ok tr s : bexec bst0 tr s -> first_alone tr -> calm tr s.
Proof.
  revert tr s. apply (bexec_ind_r (fun tr s => first_alone tr -> calm tr s)).
  - intros _. split; [done|]. left. split_and!; try done; intros; apply not_elem_of_nil.
  - intros tr s1 l s' _ IH Hs Hf. destruct (IH (first_alone_prefix _ _ Hf)) as [Hp H].
    assert (forall j y, LCallSet j y ∈ tr ++ [l] <-> LCallSet j y ∈ tr \/ LCallSet j y = l) as Ec by (intros; rewrite elem_of_app, elem_of_list_singleton; done).
    assert (forall j, LRetSet j ∈ tr ++ [l] <-> LRetSet j ∈ tr \/ LRetSet j = l) as Er by (intros; rewrite elem_of_app, elem_of_list_singleton; done).
    unfold calm. setoid_rewrite Ec. setoid_rewrite Er. clear Ec Er.
    destruct H as [(Hn & Hnr & Hi & Hc & Ha)|[(Hn & Hcall & Hc & k & Hk & Ho & Hi)|(Hr & Hi & Ha)]].
    + (* no Set called yet *)
      assert (forall i x, bPc s1 i <> SStore x /\ bPc s1 i <> SLoad x /\ bPc s1 i <> SInit x /\ bPc s1 i <> SClose x) as Hnot.
      { intros i x. specialize (Ha i). destruct (bPc s1 i); cbn in Ha; try done; split_and!; done. }
      inversion Hs; subst; cbn in *; try done.
      all: try (exfalso; match goal with E : ?g ?k = _ ?y |- _ => destruct (Hnot k y) as (? & ? & ? & ?); done end).
      4: { split; [done|]. right. left. split_and!; [intros j [?|?]; [by eapply Hnr|done]|eauto|done|].
        exists i. unfold bset. rewrite decide_True by done. split_and!; [done| |]. { intros j Hj. rewrite decide_False by done. auto. }
        split; [congruence|]. intros [y ?]. done. }
      all: split; [done|]; left; split_and!; try done; [intros j y [?|?]; [by eapply Hn|done]|intros j [?|?]; [by eapply Hnr|done]|bcase i].
    + (* the first Set in progress *)
      assert (forall i, i <> k -> forall x, bPc s1 i <> SStore x /\ bPc s1 i <> SLoad x /\ bPc s1 i <> SInit x /\ bPc s1 i <> SClose x) as Hnot.
      { intros i Hik x. specialize (Ho i Hik). destruct (bPc s1 i); cbn in Ho; try done; split_and!; done. }
      assert (exists j y, LCallSet j y ∈ tr \/ LCallSet j y = l) as Hcall' by (destruct Hcall as (j & y & ?); exists j, y; auto).
      inversion Hs; subst; cbn in *; try done.
      all: try match goal with E : _ ?i = _ ?x |- _ => destruct (decide (i = k)) as [->|Hik]; [|exfalso; destruct (Hnot i Hik x) as (? & ? & ? & ?); done] end.
      all: try (destruct (decide (i = k)) as [->|Hik]; [exfalso; apply Hk; by rw_pc|];
        split; [done|]; right; left; split_and!; [intros j [?|?]; [by eapply Hn|done]|done|done|]; exists k; unfold bset; rewrite (decide_False (P := k = i)) by done; split_and!; [done| |done];
        intros j Hj; case_decide; [done|auto]).
      * (* a second call *)
        exfalso. destruct (Hf tr i x []) as [Hx|[j Hj]]; [done| |by eapply Hn]. destruct Hcall as (j & y & Hj). by eapply Hx.
      * split; [done|]. right. left. split_and!; [intros j [?|?]; [by eapply Hn|done]|done|done|]. exists k. unfold bset. rewrite decide_True by done.
        split_and!; [done|intros j Hj; rewrite decide_False by done; auto|]. rewrite Hi, H. split; intros [? ?]; done.
      * destruct (proj1 Hi eq_refl) as [y Hy]. congruence.
      * split; [done|]. right. left. split_and!; [intros j [?|?]; [by eapply Hn|done]|done|done|]. exists k. unfold bset. rewrite decide_True by done.
        split_and!; [done|intros j Hj; rewrite decide_False by done; auto|]. split; [congruence|]. intros [? ?]; done.
      * split; [done|]. right. left. split_and!; [intros j [?|?]; [by eapply Hn|done]|done|done|]. exists k. unfold bset. rewrite decide_True by done.
        split_and!; [done|intros j Hj; rewrite decide_False by done; auto|]. split; eauto.
      * split; [done|]. right. right. split_and!; [exists k; auto|apply Hi; eauto|]. intros j y. unfold bset. case_decide; [done|].
        specialize (Ho j ltac:(done)). destruct (f j); cbn in Ho; done.
    + (* a Set has returned *)
      assert (exists j, LRetSet j ∈ tr \/ LRetSet j = l) as Hr' by (destruct Hr as (j & ?); exists j; auto).
      inversion Hs; subst; cbn in *; try done.
      all: try (exfalso; match goal with E : _ ?k = _ ?y |- _ => destruct (Ha k y) as (? & ?); done end).
      all: split; [done|]; right; right; split_and!; try done; intros j y; unfold bset; case_decide; [done|auto].
Qed.
Theorem C44_no_panic_partial tr s : bexec bst0 tr s -> first_alone tr -> bPanic s = false.
Proof. intros. by apply (calm_ok tr s). Qed.
(* false in general: two goroutines calling Set for the first time at once *)
Theorem C44_panic_refuted : exists tr s, bexec bst0 tr s /\ bPanic s = true.
Proof.
  eexists. eexists. split.
  - eapply be_cons; [eapply (bs_call_set _ _ _ _ _ 1 (Some 5)); reflexivity|]. eapply be_cons; [eapply (bs_call_set _ _ _ _ _ 2 (Some 6)); reflexivity|].
    eapply be_cons; [eapply (bs_store _ _ _ _ _ 1 (Some 5)); reflexivity|]. eapply be_cons; [eapply (bs_store _ _ _ _ _ 2 (Some 6)); reflexivity|].
    eapply be_cons; [eapply (bs_sload_f _ _ _ _ 1 (Some 5)); reflexivity|]. eapply be_cons; [eapply (bs_sload_f _ _ _ _ 2 (Some 6)); reflexivity|].
    eapply be_cons; [eapply (bs_init _ _ _ _ _ 1 (Some 5)); reflexivity|]. eapply be_cons; [eapply (bs_init _ _ _ _ _ 2 (Some 6)); reflexivity|].
    eapply be_cons; [eapply (bs_close _ _ _ _ 1 (Some 5)); reflexivity|]. eapply be_cons; [eapply (bs_panic _ _ _ _ 2 (Some 6)); reflexivity|]. apply be_nil.
  - done.
Qed.

(* once a Set has returned, every Get in progress or called later can return *)
Definition live (tr : list blabel) (s : bst) : Prop :=
  ((exists j, LRetSet j ∈ tr) -> bInit s = true) /\ (bClosed s = true -> bInit s = true) /\ (bInit s = true -> bClosed s = true \/ exists i x, bPc s i = SClose x) /\
  forall i x, bPc s i = SClose x -> bInit s = true.
Lemma live_ok tr s : bexec bst0 tr s -> live tr s.
Proof.
  revert tr s. apply bexec_ind_r.
  - split_and!; cbn; try done. intros [j H]. by apply not_elem_of_nil in H.
  - intros tr s1 l s' _ (H1 & H2 & H3 & H4) Hs.
    assert (forall j, LRetSet j ∈ tr ++ [l] <-> LRetSet j ∈ tr \/ LRetSet j = l) as Er by (intros; rewrite elem_of_app, elem_of_list_singleton; done).
    unfold live. setoid_rewrite Er. clear Er.
    inversion Hs; subst; cbn in *; split_and!; try done; auto; unfold bset.
    all: try (intros [j [?|?]]; [eauto|done]).
    all: try (intros j y; case_decide; [done|apply H4]).
    all: try (intros Hi; destruct (H3 Hi) as [?|(j & y & Hj)]; [auto|right; exists j, y; destruct (decide (j = i)) as [->|]; [congruence|done]]).
    + intros _. right. exists i, x. by rewrite decide_True.
    + intros _. by eapply H4.
    + intros _. by eapply H4.
Qed.
Theorem C44_get_can_return tr s i : bexec bst0 tr s -> (exists j, LRetSet j ∈ tr) -> bPc s i = GLoad \/ bPc s i = GWait \/ bPc s i = GRead ->
  exists tr' s' r, bexec s (tr' ++ [LRetGet i r]) s'.
Proof.
  intros He Hr Hg. apply live_ok in He as (H1 & _ & H3 & _). specialize (H1 Hr). specialize (H3 H1). destruct s as [v a c p f]. cbn in *. subst a.
  destruct Hg as [Hg|[Hg|Hg]].
  - eexists [LTau], _, v. cbn. eapply be_cons; [by apply (bs_load_t v c p f i)|]. eapply be_cons; [apply (bs_ret_get _ _ _ _ _ i); unfold bset; by rewrite decide_True|]. apply be_nil.
  - destruct c.
    + eexists [LTau], _, v. cbn. eapply be_cons; [by apply (bs_recv v true p f i)|]. eapply be_cons; [apply (bs_ret_get _ _ _ _ _ i); unfold bset; by rewrite decide_True|]. apply be_nil.
    + destruct H3 as [|(k & x & Hk)]; [done|]. eexists [LRetSet k; LTau], _, v. cbn. eapply be_cons; [by apply (bs_close v true p f k x)|].
      eapply be_cons; [apply (bs_recv v true p _ i); unfold bset; rewrite decide_False; [done|congruence]|].
      eapply be_cons; [apply (bs_ret_get _ _ _ _ _ i); unfold bset; by rewrite decide_True|]. apply be_nil.
  - eexists [], _, v. cbn. eapply be_cons; [by apply (bs_ret_get _ _ _ _ _ i)|]. apply be_nil.
Qed.
Definition isset (l : blabel) : bool := match l with LCallSet _ _ => true | _ => false end.
(* a case: Get waits, Set wakes it *)
Lemma C44_case : exists s, bexec bst0 [LCallGet 1; LTau; LCallSet 2 (Some 7); LTau; LTau; LTau; LRetSet 2; LTau; LRetGet 1 (Some 7)] s /\ first_alone [LCallGet 1; LTau; LCallSet 2 (Some 7); LTau; LTau; LTau; LRetSet 2; LTau; LRetGet 1 (Some 7)].
Proof.
  eexists. split.
  - eapply be_cons; [apply (bs_call_get _ _ _ _ _ 1); reflexivity|]. eapply be_cons; [apply (bs_load_f _ _ _ _ 1); reflexivity|].
    eapply be_cons; [apply (bs_call_set _ _ _ _ _ 2 (Some 7)); reflexivity|]. eapply be_cons; [apply (bs_store _ _ _ _ _ 2 (Some 7)); reflexivity|].
    eapply be_cons; [apply (bs_sload_f _ _ _ _ 2 (Some 7)); reflexivity|]. eapply be_cons; [apply (bs_init _ _ _ _ _ 2 (Some 7)); reflexivity|].
    eapply be_cons; [apply (bs_close _ _ _ _ 2 (Some 7)); reflexivity|]. eapply be_cons; [apply (bs_recv _ _ _ _ 1); reflexivity|].
    eapply be_cons; [apply (bs_ret_get _ _ _ _ _ 1); reflexivity|]. apply be_nil.
  - intros pre i x post E. left. intros j y [p1 [p2 ->]]%elem_of_list_split.
    assert (forall l1 l2, List.filter isset (l1 ++ l2) = List.filter isset l1 ++ List.filter isset l2) as Hap by (intros; apply List.filter_app).
    apply (f_equal (fun l => length (List.filter isset l))) in E. rewrite Hap in E. rewrite Hap in E. rewrite !app_length in E. cbn in E. lia.
Qed.
