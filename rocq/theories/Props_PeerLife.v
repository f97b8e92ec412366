(* Props_PeerLife.v -- C90: the peer connection of a peer-to-peer visitor. *)
From Verif Require Import GoBase PeerLifeModel.
Local Open Scope N_scope.
Local Open Scope nat_scope.

Definition todo (x : hstate) : list act := match x with HRun l => l | HMaking _ l => l | HWait _ k _ l => AAsync k :: l end.

(* ---------- invariants of all runs *)
Record PI (s : pst) : Prop := {
  i_cur : pCur s = (match length (pConns s) with O => None | S n => Some n end);
  i_open : pClosed s = false -> Forall (fun x => cDel x = 0 /\ cRef x = true) (pConns s);
  i_del : Forall (fun x => cDel x <= 1) (pConns s);
  i_making : forall h c l, pHands s !! h = Some (HMaking c l) -> c < length (pConns s);
  i_wait : forall h c k n l, pHands s !! h = Some (HWait c k n l) -> exists x, pConns s !! c = Some x /\ (pClosed s = false -> (k, n) ∈ cPend x \/ exists b, (k, n, b) ∈ cRes x);
  i_pend : forall c x k n, pConns s !! c = Some x -> (k, n) ∈ cPend x -> exists h l, pHands s !! h = Some (HWait c k n l);
  i_res : forall c x k n b, pConns s !! c = Some x -> (k, n, b) ∈ cRes x -> exists h l, pHands s !! h = Some (HWait c k n l);
  i_only0 : forall h x a, pHands s !! h = Some x -> a ∈ todo x -> h <> 0 -> a = ASync \/ a = AAsync KSetRemote;
  i_remote : forall h x, pHands s !! h = Some x -> AAsync KSetRemote ∈ todo x -> pInit s = true;
  i_remote1 : forall h h' x x', pHands s !! h = Some x -> pHands s !! h' = Some x' -> AAsync KSetRemote ∈ todo x -> AAsync KSetRemote ∈ todo x' -> h = h';
  i_got : forall n m b, (n, m, b) ∈ pGot s -> n = m;
  i_once : Forall (fun x => (forall k n b, (k, n) ∈ cPend x -> (k, n, b) ∉ cRes x) /\ NoDup ((cRes x).*1).*1) (pConns s);
  i_num : forall h c k n l, pHands s !! h = Some (HWait c k n l) -> n < pNext s }.

Lemma i_uniq s : PI s -> forall h h' c k n n' l l', pHands s !! h = Some (HWait c k n l) -> pHands s !! h' = Some (HWait c k n' l') -> n = n'.
Proof.
  intros I h h' c k n n' l l' H H'. assert (h = h') as <-; [|by rewrite H in H'; injection H'].
  destruct (decide (k = KSetRemote)) as [-> | Hk].
  - eapply (i_remote1 s I); [exact H|exact H'|left|left].
  - assert (forall g m r, pHands s !! g = Some (HWait c k m r) -> g = 0) as Hz.
    { intros g m r Hg. destruct (decide (g = 0)); [done|]. destruct (i_only0 s I _ _ (AAsync k) Hg ltac:(left) n0) as [?|E]; [done|]. by injection E. }
    by rewrite (Hz _ _ _ H), (Hz _ _ _ H').
Qed.
Lemma take_res_in k l n b r : take_res k l = Some (n, b, r) -> (k, n, b) ∈ l /\ (forall y, y ∈ r -> y ∈ l).
Proof.
  revert n b r. induction l as [|[[k' m] b'] l IH]; intros n b r H; [done|]. cbn in H. case_bool_decide as E.
  - injection H as <- <- <-. subst k'. split; [left|by right].
  - destruct (take_res k l) as [[[m' b''] r']|] eqn:Et; [|done]. cbn in H. injection H as <- <- <-. destruct (IH _ _ _ eq_refl) as [H1 H2].
    split; [by right|]. intros y [-> |Hy]%elem_of_cons; [left|right; auto].
Qed.
Lemma take_res_kinds k l n b r : take_res k l = Some (n, b, r) -> NoDup (l.*1).*1 -> k ∉ (r.*1).*1 /\ NoDup (r.*1).*1.
Proof.
  revert n b r. induction l as [|[[k' m] b'] l IH]; intros n b r H Hn; [done|]. cbn in H, Hn. apply NoDup_cons in Hn as [Hk Hn]. case_bool_decide as E.
  - injection H as <- <- <-. by subst k'.
  - destruct (take_res k l) as [[[m' b''] r']|] eqn:Et; [|done]. cbn in H. injection H as <- <- <-. destruct (IH _ _ _ eq_refl Hn) as [H1 H2].
    destruct (take_res_in _ _ _ _ _ Et) as [_ Hs]. cbn. split.
    + apply not_elem_of_cons. split; [by intros ->|done].
    + apply NoDup_cons. split; [|done]. intros Hi. apply Hk. apply elem_of_list_fmap in Hi as ([k2 n2] & -> & Hi). apply elem_of_list_fmap in Hi as ([[k3 n3] b3] & E3 & Hi). cbn in E3. injection E3 as -> ->.
      apply elem_of_list_fmap. exists (k3, n3). split; [done|]. apply elem_of_list_fmap. exists (k3, n3, b3). split; [done|auto].
Qed.
Lemma take_res_none k l : take_res k l = None -> k ∉ (l.*1).*1.
Proof.
  induction l as [|[[k' m] b'] l IH]; intros H; [apply not_elem_of_nil|]. cbn in *. case_bool_decide as E; [done|]. destruct (take_res k l) as [[[? ?] ?]|]; [done|].
  apply not_elem_of_cons. split; [by intros ->|auto].
Qed.
Lemma in_kinds (k : callk) (n : nat) (b : bool) l : (k, n, b) ∈ l -> k ∈ (l.*1).*1.
Proof. intros H. apply elem_of_list_fmap. exists (k, n). split; [done|]. apply elem_of_list_fmap. by exists (k, n, b). Qed.
Lemma take_res_some k l n b : (k, n, b) ∈ l -> take_res k l <> None.
Proof.
  induction l as [|[[k' m] b'] l IH]; [by intros ?%elem_of_nil|]. intros [E|H]%elem_of_cons; cbn.
  - injection E as <- <- <-. by rewrite bool_decide_true.
  - case_bool_decide; [done|]. specialize (IH H). destruct (take_res k l) as [[[? ?] ?]|]; done.
Qed.

Ltac simp := unfold set_hand, set_conn, fail, with_init, with_neg in *; cbn [pClosed pNeg pInit pConns pCur pHands pNext pGot pFault cPtr cDel cRef cPend cRes] in *.

Lemma PI0 : PI pst0.
Proof. split; simp; try done; try constructor; intros; try (by rewrite lookup_empty in *); try (by rewrite lookup_nil in *); by apply elem_of_nil in H. Qed.
(* a handler that is idle gets a new state without waits *)
Lemma PI_fault s f : PI s -> PI (fail s f). Proof. intros []. split; simp; done. Qed.
Lemma PI_neg s : PI s -> PI (with_neg s). Proof. intros []. split; simp; done. Qed.
(* handler h, not waiting, gets the state HRun l *)
Lemma PI_run s h l : PI s -> (forall c k n r, pHands s !! h <> Some (HWait c k n r)) ->
  (forall a, a ∈ l -> (h <> 0 -> a = ASync \/ a = AAsync KSetRemote) /\ (a = AAsync KSetRemote -> pInit s = true /\ forall h' x, h' <> h -> pHands s !! h' = Some x -> AAsync KSetRemote ∉ todo x)) ->
  PI (set_hand s h (HRun l)).
Proof.
  intros I Hw Hl. destruct I as [I1 I2 I3 I4 I5 I6 I7 I8 I9 I10 I11 I12 I13]. split; simp; try done.
  - intros g c r Hg. destruct (decide (g = h)) as [-> | Hne]; [by rewrite lookup_insert in Hg|]. rewrite lookup_insert_ne in Hg by done. eauto.
  - intros g c k n r Hg. destruct (decide (g = h)) as [-> | Hne]; [by rewrite lookup_insert in Hg|]. rewrite lookup_insert_ne in Hg by done. eauto.
  - intros c x k n Hc Hp. destruct (I6 _ _ _ _ Hc Hp) as (g & r & Hg). exists g, r. destruct (decide (g = h)) as [-> | Hne]; [by apply Hw in Hg|]. by rewrite lookup_insert_ne.
  - intros c x k n b Hc Hp. destruct (I7 _ _ _ _ _ Hc Hp) as (g & r & Hg). exists g, r. destruct (decide (g = h)) as [-> | Hne]; [by apply Hw in Hg|]. by rewrite lookup_insert_ne.
  - intros g x a Hg Ha Hz. destruct (decide (g = h)) as [-> | Hne].
    + rewrite lookup_insert in Hg. injection Hg as <-. cbn in Ha. by apply Hl.
    + rewrite lookup_insert_ne in Hg by done. eauto.
  - intros g x Hg Ha. destruct (decide (g = h)) as [-> | Hne].
    + rewrite lookup_insert in Hg. injection Hg as <-. cbn in Ha. by apply (Hl _ Ha).
    + rewrite lookup_insert_ne in Hg by done. eauto.
  - intros g g' x x' Hg Hg' Ha Ha'. destruct (decide (g = h)) as [-> | Hne], (decide (g' = h)) as [-> | Hne']; [done|..].
    + rewrite lookup_insert in Hg. injection Hg as <-. rewrite lookup_insert_ne in Hg' by done. cbn in Ha. by destruct (proj2 (Hl _ Ha) eq_refl) as [_ Hx]; destruct (Hx _ _ Hne' Hg').
    + rewrite lookup_insert in Hg'. injection Hg' as <-. rewrite lookup_insert_ne in Hg by done. cbn in Ha'. by destruct (proj2 (Hl _ Ha') eq_refl) as [_ Hx]; destruct (Hx _ _ Hne Hg).
    + rewrite lookup_insert_ne in Hg, Hg' by done. eauto.
  - intros g c k n r Hg. destruct (decide (g = h)) as [-> | Hne]; [by rewrite lookup_insert in Hg|]. rewrite lookup_insert_ne in Hg by done. eauto.
Qed.
(* going on with a part of what is to be done *)
Lemma PI_go s h x l : PI s -> pHands s !! h = Some x -> (forall c k n r, x <> HWait c k n r) -> (forall a, a ∈ l -> a ∈ todo x) -> PI (set_hand s h (HRun l)).
Proof.
  intros I Hx Hw Hl. apply PI_run; [done|rewrite Hx; intros ???? E; injection E as E; by apply Hw in E|].
  intros a Ha. split.
  - intros Hz. eapply (i_only0 s I); eauto.
  - intros ->. split; [eapply (i_remote s I); eauto|]. intros h' x' Hne Hx' Hi. apply Hne. symmetry. eapply (i_remote1 s I h h'); eauto.
Qed.
Lemma idle_not s h : idle s h = true -> (forall c k n r, pHands s !! h <> Some (HWait c k n r)) /\ (forall c l, pHands s !! h <> Some (HMaking c l)).
Proof. unfold idle. intros H. split; intros; intros E; rewrite E in H; done. Qed.
Lemma PI_init s : PI s -> PI (with_init s). Proof. intros []. split; simp; done. Qed.

Lemma PI_msg s h r s' : PI s -> msg s h r = Some s' -> PI s'.
Proof.
  intros I. unfold msg. destruct (idle s h) eqn:Ei; [|done]. cbn [negb]. destruct (idle_not s h Ei) as [Hw _].
  assert (PI (set_hand s h (HRun prog_candidate))) as Hcand.
  { apply PI_run; [done..|]. intros a ->%elem_of_list_singleton. split; [by left|done]. }
  assert (pInit s = false -> forall l, (forall a, a ∈ l -> h <> 0 -> a = ASync \/ a = AAsync KSetRemote) -> PI (set_hand (with_init s) h (HRun l))) as Hfirst.
  { intros E l Hl. apply PI_run; [by apply PI_init|done|]. intros a Ha. split; [by apply Hl|]. intros ->. split; [done|]. intros h' x Hne Hx Hi.
    pose proof (i_remote s I h' x Hx Hi). congruence. }
  destruct r.
  - case_bool_decide; [|done]. intros [= <-]. apply PI_run; [done..|]. intros a Ha. split; [done|]. intros ->. unfold prog_get in Ha. rewrite !elem_of_cons in Ha. destruct Ha as [?|[?|[?|[?|[?|[?|[?|?%elem_of_nil]]]]]]]; done.
  - case_bool_decide; [|done]. intros [= <-]. destruct (pInit s) eqn:E; [done|]. by apply Hfirst.
  - destruct (_ || _); [|done]. intros [= <-]. destruct (pInit s) eqn:E; [done|]. apply Hfirst; [done|]. intros a ->%elem_of_list_singleton _. by right.
Qed.
Lemma lookup_snoc_cases {A} (l : list A) x c y : (l ++ [x]) !! c = Some y -> l !! c = Some y \/ (c = length l /\ y = x).
Proof. intros H. destruct (decide (c < length l)) as [Hl|Hl]; [rewrite lookup_app_l in H by done; by left|]. rewrite lookup_app_r in H by lia. right. destruct (c - length l) as [|q] eqn:E; [|done]. injection H as <-. split; [lia|done]. Qed.
Lemma PI_hstep s h s' : PI s -> hstep s h = Some s' -> PI s'.
Proof.
  intros I. unfold hstep. destruct (pHands s !! h) as [[[|a l]|c l|c k n l]|] eqn:Eh; try done.
  assert (forall r, (forall x, x ∈ r -> x ∈ a :: l) -> PI (set_hand s h (HRun r))) as Hgo by (intros r Hr; by eapply PI_go).
  destruct a as [| |k|].
  - intros [= <-]. destruct I as [I1 I2 I3 I4 I5 I6 I7 I8 I9 I10 I11 I12 I13]. split; simp; try done.
    + rewrite app_length, Nat.add_comm. done.
    + intros Hc. apply Forall_app. split; [auto|]. by constructor.
    + apply Forall_app. split; [done|]. constructor; [cbn; lia|done].
    + intros g c r Hg. rewrite app_length. cbn. destruct (decide (g = h)) as [-> | Hne]; [rewrite lookup_insert in Hg; injection Hg as <- <-; lia|]. rewrite lookup_insert_ne in Hg by done. pose proof (I4 _ _ _ Hg). lia.
    + intros g c k n r Hg. destruct (decide (g = h)) as [-> | Hne]; [by rewrite lookup_insert in Hg|]. rewrite lookup_insert_ne in Hg by done. destruct (I5 _ _ _ _ _ Hg) as (x & Hx & Hy). exists x. split; [by apply lookup_app_l_Some|done].
    + intros c x k n Hc Hp. apply lookup_snoc_cases in Hc as [Hc|[_ ->]]; [|by apply elem_of_nil in Hp]. destruct (I6 _ _ _ _ Hc Hp) as (g & r & Hg). exists g, r. rewrite lookup_insert_ne; [done|]. intros <-. congruence.
    + intros c x k n b Hc Hp. apply lookup_snoc_cases in Hc as [Hc|[_ ->]]; [|by apply elem_of_nil in Hp]. destruct (I7 _ _ _ _ _ Hc Hp) as (g & r & Hg). exists g, r. rewrite lookup_insert_ne; [done|]. intros <-. congruence.
    + intros g x b Hg Hb Hz. destruct (decide (g = h)) as [-> | Hne]; [|rewrite lookup_insert_ne in Hg by done; eauto]. rewrite lookup_insert in Hg. injection Hg as <-. eapply I8; [exact Eh|by right|done].
    + intros g x Hg Hb. destruct (decide (g = h)) as [-> | Hne]; [|rewrite lookup_insert_ne in Hg by done; eauto]. rewrite lookup_insert in Hg. injection Hg as <-. eapply I9; [exact Eh|by right].
    + intros g g' x x' Hg Hg' Hb Hb'.
      assert (exists y, pHands s !! g = Some y /\ AAsync KSetRemote ∈ todo y) as (y & Hy & Hyb).
      { destruct (decide (g = h)) as [-> | Hne]; [rewrite lookup_insert in Hg; injection Hg as <-; eexists; split; [exact Eh|by right]|rewrite lookup_insert_ne in Hg by done; eauto]. }
      assert (exists y, pHands s !! g' = Some y /\ AAsync KSetRemote ∈ todo y) as (y' & Hy' & Hyb').
      { destruct (decide (g' = h)) as [-> | Hne]; [rewrite lookup_insert in Hg'; injection Hg' as <-; eexists; split; [exact Eh|by right]|rewrite lookup_insert_ne in Hg' by done; eauto]. }
      eauto.
    + apply Forall_app. split; [done|]. constructor; [|done]. cbn. split; [intros; apply not_elem_of_nil|constructor].
    + intros g c k n r Hg. destruct (decide (g = h)) as [-> | Hne]; [by rewrite lookup_insert in Hg|]. rewrite lookup_insert_ne in Hg by done. eauto.
  - destruct (use s) as [[[c x]|f]|]; intros [= <-]; [apply Hgo; by right|by apply PI_fault|apply Hgo; by intros ? ?%elem_of_nil].
  - destruct (use s) as [[[c x]|f]|] eqn:Eu; intros [= <-]; [|by apply PI_fault|apply Hgo; by intros ? ?%elem_of_nil].
    unfold use in Eu. destruct (pCur s) as [c'|] eqn:Ec; [|done]. cbn [mbind option_bind] in Eu. destruct (pConns s !! c') as [x'|] eqn:Ex; [|done]. cbn [mbind option_bind] in Eu.
    destruct (cPtr x') eqn:Ep; [|done]. cbn [negb] in Eu. case_bool_decide as Ed; [|done]. injection Eu as <- <-.
    assert (c' < length (pConns s)) as Hlt by (by apply lookup_lt_Some in Ex).
    destruct I as [I1 I2 I3 I4 I5 I6 I7 I8 I9 I10 I11 I12 I13]. split; simp; try done.
    + by rewrite insert_length, <- Ec.
    + intros Hc. apply Forall_insert; [auto|]. cbn. eapply Forall_lookup in Ex; [|by apply I2]. done.
    + apply Forall_insert; [done|]. cbn. lia.
    + intros g c r Hg. rewrite insert_length. destruct (decide (g = h)) as [-> | Hne]; [by rewrite lookup_insert in Hg|]. rewrite lookup_insert_ne in Hg by done. eauto.
    + intros g c k' n r Hg. destruct (decide (g = h)) as [-> | Hne].
      * rewrite lookup_insert in Hg. injection Hg as <- <- <- <-. eexists. rewrite list_lookup_insert by done. split; [done|]. intros _. left. apply elem_of_app. right. left.
      * rewrite lookup_insert_ne in Hg by done. destruct (I5 _ _ _ _ _ Hg) as (x & Hx & Hy). destruct (decide (c = c')) as [-> | Hcc].
        -- rewrite Ex in Hx. injection Hx as <-. eexists. rewrite list_lookup_insert by done. split; [done|]. intros Ho. destruct (Hy Ho) as [?|?]; [left; apply elem_of_app; by left|by right].
        -- exists x. by rewrite list_lookup_insert_ne by done.
    + intros c x k' n Hc Hp. destruct (decide (c = c')) as [-> | Hcc].
      * rewrite list_lookup_insert in Hc by done. injection Hc as <-. cbn in Hp. apply elem_of_app in Hp as [Hp|Hp].
        -- destruct (I6 _ _ _ _ Ex Hp) as (g & r & Hg). exists g, r. rewrite lookup_insert_ne; [done|]. intros <-. congruence.
        -- apply elem_of_list_singleton in Hp. injection Hp as -> ->. exists h, l. by rewrite lookup_insert.
      * rewrite list_lookup_insert_ne in Hc by done. destruct (I6 _ _ _ _ Hc Hp) as (g & r & Hg). exists g, r. rewrite lookup_insert_ne; [done|]. intros <-. congruence.
    + intros c x k' n b Hc Hp. assert (exists y, pConns s !! c = Some y /\ (k', n, b) ∈ cRes y) as (y & Hy & Hyp).
      { destruct (decide (c = c')) as [-> | Hcc]; [rewrite list_lookup_insert in Hc by done; injection Hc as <-; eauto|rewrite list_lookup_insert_ne in Hc by done; eauto]. }
      destruct (I7 _ _ _ _ _ Hy Hyp) as (g & r & Hg). exists g, r. rewrite lookup_insert_ne; [done|]. intros <-. congruence.
    + intros g x b Hg Hb Hz. destruct (decide (g = h)) as [-> | Hne]; [|rewrite lookup_insert_ne in Hg by done; eauto]. rewrite lookup_insert in Hg. injection Hg as <-. eapply I8; [exact Eh|exact Hb|done].
    + intros g x Hg Hb. destruct (decide (g = h)) as [-> | Hne]; [|rewrite lookup_insert_ne in Hg by done; eauto]. rewrite lookup_insert in Hg. injection Hg as <-. eapply I9; [exact Eh|exact Hb].
    + intros g g' x1 x2 Hg Hg' Hb Hb'.
      assert (exists y, pHands s !! g = Some y /\ AAsync KSetRemote ∈ todo y) as (y & Hy & Hyb).
      { destruct (decide (g = h)) as [-> | Hne]; [rewrite lookup_insert in Hg; injection Hg as <-; eexists; split; [exact Eh|exact Hb]|rewrite lookup_insert_ne in Hg by done; eauto]. }
      assert (exists y, pHands s !! g' = Some y /\ AAsync KSetRemote ∈ todo y) as (y' & Hy' & Hyb').
      { destruct (decide (g' = h)) as [-> | Hne]; [rewrite lookup_insert in Hg'; injection Hg' as <-; eexists; split; [exact Eh|exact Hb']|rewrite lookup_insert_ne in Hg' by done; eauto]. }
      eauto.
    + apply Forall_insert; [done|]. cbn. pose proof Ex as Ex2. eapply Forall_lookup in Ex2; [|exact I12]. destruct Ex2 as [N1 N2]. split; [|done].
      intros k' n b Hp Hr. apply elem_of_app in Hp as [Hp|Hp]; [by eapply N1|]. apply elem_of_list_singleton in Hp. injection Hp as -> ->.
      destruct (I7 _ _ _ _ _ Ex Hr) as (g & r & Hg). pose proof (I13 _ _ _ _ _ Hg). lia.
    + intros g c k' n r Hg. destruct (decide (g = h)) as [-> | Hne]; [rewrite lookup_insert in Hg; injection Hg as <- <- <- <-; lia|]. rewrite lookup_insert_ne in Hg by done. pose proof (I13 _ _ _ _ _ Hg). lia.
  - destruct (pNeg s); [intros [= <-]; apply Hgo; by right|]. destruct (pClosed s); [|done]. intros [= <-]. apply Hgo. by intros ? ?%elem_of_nil.
Qed.
(* a connection is replaced by one with fewer calls and results *)
Lemma PI_conn s c x y : PI s -> pConns s !! c = Some x -> (pClosed s = false -> cDel y = 0 /\ cRef y = true) -> cDel y <= 1 ->
  (forall p, p ∈ cPend y -> p ∈ cPend x) -> (forall k n b, (k, n, b) ∈ cRes y -> (k, n) ∈ cPend x \/ exists b', (k, n, b') ∈ cRes x) ->
  (pClosed s = false -> forall k n, (k, n) ∈ cPend x \/ (exists b, (k, n, b) ∈ cRes x) -> (k, n) ∈ cPend y \/ (exists b, (k, n, b) ∈ cRes y)) ->
  (forall k n b, (k, n) ∈ cPend y -> (k, n, b) ∉ cRes y) -> NoDup ((cRes y).*1).*1 -> PI (set_conn s c y).
Proof.
  intros I Hx Ho Hd Hp Hr Hk N1 N2. assert (c < length (pConns s)) as Hlt by (by apply lookup_lt_Some in Hx). destruct I as [I1 I2 I3 I4 I5 I6 I7 I8 I9 I10 I11 I12 I13]. split; simp; try done.
  - by rewrite insert_length.
  - intros Hc. apply Forall_insert; [auto|]. auto.
  - by apply Forall_insert.
  - intros g c' r Hg. rewrite insert_length. eauto.
  - intros g c' k n r Hg. destruct (I5 _ _ _ _ _ Hg) as (z & Hz & Hy). destruct (decide (c' = c)) as [-> | Hcc].
    + rewrite Hx in Hz. injection Hz as <-. exists y. rewrite list_lookup_insert by done. split; [done|]. intros Hc. apply Hk; auto.
    + exists z. by rewrite list_lookup_insert_ne by done.
  - intros c' z k n Hz Hpz. destruct (decide (c' = c)) as [-> | Hcc]; [rewrite list_lookup_insert in Hz by done; injection Hz as <-; eauto|rewrite list_lookup_insert_ne in Hz by done; eauto].
  - intros c' z k n b Hz Hpz. destruct (decide (c' = c)) as [-> | Hcc]; [rewrite list_lookup_insert in Hz by done; injection Hz as <-; destruct (Hr _ _ _ Hpz) as [?|[b' ?]]; eauto|rewrite list_lookup_insert_ne in Hz by done; eauto].
  - apply Forall_insert; [done|]. done.
Qed.
Lemma PI_step s e s' : PI s -> pstep s e = Some s' -> PI s'.
Proof.
  intros I. unfold pstep. destruct (pFault s); [done|]. destruct e as [h r|h|h ok|c k n ok|h|c|].
  - by apply PI_msg.
  - by apply PI_hstep.
  - destruct (pHands s !! h) as [[|c l|]|] eqn:Eh; try done. destruct (pConns s !! c) as [x|] eqn:Ex; [|done]. cbn [mbind option_bind]. intros [= <-]. destruct ok.
    + eapply (PI_go (set_conn s c _) h (HMaking c l)); [|done|done|done]. eapply PI_conn; [done|exact Ex|..]; cbn; try done.
      * intros Ho. pose proof (i_open s I Ho) as F. eapply Forall_lookup in Ex; [|exact F]. done.
      * pose proof (i_del s I) as F. eapply Forall_lookup in Ex; [|exact F]. done.
      * intros k n b ?. right. eauto.
      * pose proof (i_once s I) as F. eapply Forall_lookup in Ex; [|exact F]. apply Ex.
      * pose proof (i_once s I) as F. eapply Forall_lookup in Ex; [|exact F]. apply Ex.
    + eapply PI_go; [done|exact Eh|done|]. by intros ? ?%elem_of_nil.
  - destruct (pConns s !! c) as [x|] eqn:Ex; [|done]. cbn [mbind option_bind]. destruct (bool_decide ((k, n) ∈ cPend x)) eqn:Eb; [|done]. apply bool_decide_eq_true in Eb. cbn [andb].
    destruct (negb (cRef x) || _) eqn:Ec; [|done]. intros [= <-]. eapply PI_conn; [done|exact Ex|..]; cbn.
    + intros Ho. pose proof (i_open s I Ho) as F. eapply Forall_lookup in Ex; [|exact F]. done.
    + pose proof (i_del s I) as F. eapply Forall_lookup in Ex; [|exact F]. done.
    + intros p Hp. by apply elem_of_list_filter in Hp as [_ ?].
    + intros k' n' b Hb. destruct (cRef x); [|right; eauto]. apply elem_of_app in Hb as [?|Hb]; [right; eauto|]. apply elem_of_list_singleton in Hb. injection Hb as -> -> ->. by left.
    + intros Ho k' n' H. pose proof (i_open s I Ho) as F. pose proof Ex as Ex2. eapply Forall_lookup in Ex2; [|exact F]. destruct Ex2 as [_ ->].
      destruct H as [H|[b H]]; [|right; exists b; apply elem_of_app; by left]. destruct (decide ((k', n') = (k, n))) as [E|E].
      * injection E as -> ->. right. exists ok. apply elem_of_app. right. left.
      * left. by apply elem_of_list_filter.
    + pose proof (i_once s I) as F. pose proof Ex as Ex2. eapply Forall_lookup in Ex2; [|exact F]. destruct Ex2 as [N1 N2]. intros k' n' b Hp. apply elem_of_list_filter in Hp as [Hne Hp].
      destruct (cRef x); [|by apply N1]. rewrite elem_of_app, elem_of_list_singleton. intros [?|E]; [by eapply N1|]. injection E as -> -> ->. done.
    + pose proof (i_once s I) as F. pose proof Ex as Ex2. eapply Forall_lookup in Ex2; [|exact F]. destruct Ex2 as [N1 N2]. destruct (cRef x); [|done]. cbn [negb orb] in Ec. apply bool_decide_eq_true in Ec.
      rewrite !fmap_app. apply NoDup_app. split; [done|]. split; [|apply NoDup_singleton]. intros y Hy ->%elem_of_list_singleton. by apply take_res_none in Ec.
  - destruct (pHands s !! h) as [[|c l|c k n l]|] eqn:Eh; try done. destruct (pConns s !! c) as [x|] eqn:Ex; [|done]. cbn [mbind option_bind].
    destruct (take_res k (cRes x)) as [[[m b] r]|] eqn:Et; [|done]. cbn [mbind option_bind]. intros [= <-].
    destruct (take_res_in _ _ _ _ _ Et) as [Hin Hsub]. destruct (i_res s I c x k m b Ex Hin) as (h' & l' & Hh').
    pose proof (i_uniq s I _ _ _ _ _ _ _ _ Eh Hh') as <-.
    assert (forall h2 n2 l2, pHands s !! h2 = Some (HWait c k n2 l2) -> h2 = h) as Hone.
    { intros h2 n2 l2 H2. destruct (decide (k = KSetRemote)) as [-> | Hk]; [eapply (i_remote1 s I); [exact H2|exact Eh|left|left]|].
      assert (forall g m' r', pHands s !! g = Some (HWait c k m' r') -> g = 0) as Hz.
      { intros g m' r' Hg. destruct (decide (g = 0)) as [|Hg0]; [done|]. destruct (i_only0 s I _ _ (AAsync k) Hg ltac:(left) Hg0) as [?|E]; [done|]. by injection E. }
      by rewrite (Hz _ _ _ H2), (Hz _ _ _ Eh). }
    assert (c < length (pConns s)) as Hlt by (by apply lookup_lt_Some in Ex).
    pose proof (i_once s I) as F. pose proof Ex as Ex2. eapply Forall_lookup in Ex2; [|exact F]. destruct Ex2 as [N1 N2]. destruct (take_res_kinds _ _ _ _ _ Et N2) as [K1 K2].
    destruct I as [I1 I2 I3 I4 I5 I6 I7 I8 I9 I10 I11 I12 I13]. split; simp; try done.
    + by rewrite insert_length.
    + intros Hc. apply Forall_insert; [auto|]. eapply Forall_lookup in Ex; [|by apply I2]. done.
    + apply Forall_insert; [done|]. eapply Forall_lookup in Ex; [|by apply I3]. done.
    + intros g c' r' Hg. rewrite insert_length. destruct (decide (g = h)) as [-> | Hne]; [by rewrite lookup_insert in Hg|]. rewrite lookup_insert_ne in Hg by done. eauto.
    + intros g c' k' n' r' Hg. destruct (decide (g = h)) as [-> | Hne]; [by rewrite lookup_insert in Hg|]. rewrite lookup_insert_ne in Hg by done.
      destruct (I5 _ _ _ _ _ Hg) as (z & Hz & Hy). destruct (decide (c' = c)) as [-> | Hcc]; [|exists z; by rewrite list_lookup_insert_ne by done].
      rewrite Ex in Hz. injection Hz as <-. eexists. rewrite list_lookup_insert by done. split; [done|]. cbn. intros Ho. destruct (Hy Ho) as [?|[b' Hb']]; [by left|]. right.
      destruct (decide (k' = k)) as [-> | Hk]; [by apply Hone in Hg|]. exists b'. clear -Et Hb' Hk. revert n b r Et. induction (cRes x) as [|[[k2 n2] b2] q IH]; intros n b r Et; [by apply elem_of_nil in Hb'|].
      cbn in Et. case_bool_decide as E2.
      * injection Et as <- <- <-. apply elem_of_cons in Hb' as [E|?]; [|done]. injection E as -> -> ->. done.
      * destruct (take_res k q) as [[[? ?] ?]|]; [|done]. cbn in Et. injection Et as <- <- <-. apply elem_of_cons in Hb' as [-> |Hb']; [left|right]. eapply IH; [done|reflexivity].
    + intros c' z k' n' Hz Hp. assert (exists y, pConns s !! c' = Some y /\ (k', n') ∈ cPend y) as (y & Hy & Hyp).
      { destruct (decide (c' = c)) as [-> | Hcc]; [rewrite list_lookup_insert in Hz by done; injection Hz as <-; eauto|rewrite list_lookup_insert_ne in Hz by done; eauto]. }
      destruct (I6 _ _ _ _ Hy Hyp) as (g & r' & Hg). exists g, r'. rewrite lookup_insert_ne; [done|]. intros <-. rewrite Eh in Hg. injection Hg as <- <- <- <-.
      rewrite Ex in Hy. injection Hy as <-. by eapply N1.
    + intros c' z k' n' b' Hz Hp. assert (exists y, pConns s !! c' = Some y /\ (k', n', b') ∈ cRes y) as (y & Hy & Hyp).
      { destruct (decide (c' = c)) as [-> | Hcc]; [rewrite list_lookup_insert in Hz by done; injection Hz as <-; eauto|rewrite list_lookup_insert_ne in Hz by done; eauto]. }
      destruct (I7 _ _ _ _ _ Hy Hyp) as (g & r' & Hg). exists g, r'. rewrite lookup_insert_ne; [done|]. intros <-. rewrite Eh in Hg. injection Hg as <- <- <- <-.
      rewrite list_lookup_insert in Hz by done. injection Hz as <-. cbn in Hp. apply in_kinds in Hp. done.
    + intros g x' a Hg Ha Hz. destruct (decide (g = h)) as [-> | Hne]; [|rewrite lookup_insert_ne in Hg by done; eauto]. rewrite lookup_insert in Hg. injection Hg as <-. cbn in Ha.
      eapply I8; [exact Eh| |done]. right. destruct b; [done|by apply elem_of_nil in Ha].
    + intros g x' Hg Ha. destruct (decide (g = h)) as [-> | Hne]; [|rewrite lookup_insert_ne in Hg by done; eauto]. rewrite lookup_insert in Hg. injection Hg as <-. cbn in Ha.
      eapply I9; [exact Eh|]. right. destruct b; [done|by apply elem_of_nil in Ha].
    + intros g g' x1 x2 Hg Hg' Hb Hb'.
      assert (forall g x1, <[h:=HRun (if b then l else [])]> (pHands s) !! g = Some x1 -> AAsync KSetRemote ∈ todo x1 -> exists y, pHands s !! g = Some y /\ AAsync KSetRemote ∈ todo y) as Hh.
      { clear -Eh. intros g x1 Hg Hb. destruct (decide (g = h)) as [-> | Hne]; [|rewrite lookup_insert_ne in Hg by done; eauto]. rewrite lookup_insert in Hg. injection Hg as <-. eexists. split; [exact Eh|].
        cbn in *. right. destruct b; [done|by apply elem_of_nil in Hb]. }
      destruct (Hh _ _ Hg Hb) as (y & ? & ?), (Hh _ _ Hg' Hb') as (y' & ? & ?). eauto.
    + intros n' m' b' Hg. apply elem_of_app in Hg as [Hg|Hg]; [eauto|]. apply elem_of_list_singleton in Hg. by injection Hg as -> -> ->.
    + apply Forall_insert; [done|]. cbn. split; [|done]. intros k' n' b' Hp Hr. eapply N1; [exact Hp|]. by apply Hsub.
    + intros g c' k' n' r' Hg. destruct (decide (g = h)) as [-> | Hne]; [by rewrite lookup_insert in Hg|]. rewrite lookup_insert_ne in Hg by done. eauto.
  - destruct (pConns s !! c) as [x|] eqn:Ex; [|done]. cbn [mbind option_bind]. destruct (_ && _); [|done]. intros [= <-]. destruct (cRef x); [|done]. destruct (pNeg s); [by apply PI_fault|by apply PI_neg].
  - destruct (pClosed s) eqn:Ec; [done|]. intros [= <-].
    assert (PI (mkP true (pNeg s) (pInit s) (pConns s) (pCur s) (pHands s) (pNext s) (pGot s) None)) as I'.
    { destruct I as [I1 I2 I3 I4 I5 I6 I7 I8 I9 I10 I11 I12 I13]. split; simp; try done. intros h c k n l Hh. destruct (I5 _ _ _ _ _ Hh) as (x & Hx & _). by exists x. }
    destruct (c ← pCur s; x ← pConns s !! c; Some (c, x)) as [[c x]|] eqn:Ex; [|done].
    destruct (pCur s) as [c'|] eqn:Eq; [|done]. cbn [mbind option_bind] in Ex. destruct (pConns s !! c') as [x'|] eqn:Ex'; [|done]. cbn [mbind option_bind] in Ex. injection Ex as <- <-.
    pose proof (i_open s I Ec) as F. pose proof Ex' as Ex2. eapply Forall_lookup in Ex2; [|exact F]. destruct Ex2 as [Ed _].
    pose proof (i_once s I) as F1. pose proof Ex' as Ex3. eapply Forall_lookup in Ex3; [|exact F1]. destruct Ex3 as [N1 N2].
    eapply (PI_conn _ c' x'); [exact I'|exact Ex'|..]; cbn; try done.
    + rewrite Ed. destruct (cPtr x'); lia.
    + intros k n b ?. right. eauto.
Qed.
Lemma PI_runs s es s' : PI s -> prun s es = Some s' -> PI s'.
Proof. revert s. induction es as [|e es IH]; intros s I H; [by injection H as <-|]. cbn in H. destruct (pstep s e) as [s1|] eqn:E; [|done]. eapply IH; [by eapply PI_step|exact H]. Qed.

Lemma prun_cons s e s1 es r : pstep s e = Some s1 -> prun s1 es = r -> prun s (e :: es) = r.
Proof. intros H H'. cbn [prun]. by rewrite H. Qed.
Definition reachable (s : pst) : Prop := exists es, prun pst0 es = Some s.
Lemma reach_PI s : reachable s -> PI s. Proof. intros [es H]. eapply PI_runs; [apply PI0|exact H]. Qed.
Definition by_visitor (h : nat) (e : pev) : Prop := match e with EMsg g _ => g = h | _ => True end.

(* No peer connection is freed twice, and none before the task is closed. *)
Theorem C90_deleted_once s : reachable s -> Forall (fun x => cDel x <= 1 /\ (pClosed s = false -> cDel x = 0)) (pConns s).
Proof.
  intros I%reach_PI. apply Forall_lookup. intros c x Hx. split; [by eapply Forall_lookup in Hx; [|apply (i_del s I)]|].
  intros Ho. eapply Forall_lookup in Hx; [|by apply (i_open s I)]. by destruct Hx.
Qed.
(* Each call that is answered by a callback is given its own answer, whoever calls. *)
Theorem C90_own_answer s n m b : reachable s -> (n, m, b) ∈ pGot s -> m = n.
Proof. intros I%reach_PI H. symmetry. by eapply (i_got s I). Qed.
(* As long as the task is open, a handler that waits for such an answer waits only for libwebrtc: either the answer is there or the callback may come, with
   any result, and brings it. *)
Theorem C90_waits_for_libwebrtc_partial s h c k n l : reachable s -> pClosed s = false -> pFault s = None -> pHands s !! h = Some (HWait c k n l) ->
  (exists s' ok, pstep s (ERecv h) = Some s' /\ pHands s' !! h = Some (HRun (if ok : bool then l else []))) \/
  (forall ok, exists s' s'', pstep s (EBack c k n ok) = Some s' /\ pstep s' (ERecv h) = Some s'' /\ pHands s'' !! h = Some (HRun (if ok then l else []))).
Proof.
  intros I%reach_PI Ho Hf Hh. destruct (i_wait s I _ _ _ _ _ Hh) as (x & Hx & Hp). pose proof (i_open s I Ho) as F. pose proof Hx as Hx2. eapply Forall_lookup in Hx2; [|exact F]. destruct Hx2 as [Hd Hr].
  assert (c < length (pConns s)) as Hlt by (by apply lookup_lt_Some in Hx).
  destruct (take_res k (cRes x)) as [[[m b] r]|] eqn:Et.
  - left. eexists. exists b. unfold pstep. rewrite Hf, Hh, Hx. cbn [mbind option_bind]. rewrite Et. cbn [mbind option_bind]. split; [reflexivity|]. simp. by rewrite lookup_insert.
  - right. intros ok. destruct (Hp Ho) as [Hp'|[b Hb]]; [|by apply take_res_some in Hb].
    eexists. eexists. split; [|split]; unfold pstep.
    + rewrite Hf, Hx. cbn [mbind option_bind]. rewrite (bool_decide_true ((k, n) ∈ cPend x)) by done. rewrite Et, Hr. cbn [negb orb andb]. rewrite bool_decide_true by done. reflexivity.
    + simp. rewrite Hf, Hh, list_lookup_insert by done. cbn [mbind option_bind cRes].
      assert (take_res k (cRes x ++ [(k, n, ok)]) = Some (n, ok, cRes x)) as ->.
      { clear -Et. induction (cRes x) as [|[[k' m'] b'] q IH]; cbn in *; [by rewrite bool_decide_true|]. case_bool_decide; [done|]. destruct (take_res k q) as [[[? ?] ?]|]; [done|]. by rewrite IH. }
      cbn [mbind option_bind]. reflexivity.
    + simp. by rewrite lookup_insert.
Qed.
(* If one connection was made for the task and is there when the task is closed, closing frees it; and nothing that comes later frees it again. *)
Ltac fin := split; [try done; eauto|]; split; [lia|]; split; [auto|]; intros ?; split; [lia|first [done|congruence]].
Lemma del_mono s e s' c x : pstep s e = Some s' -> pConns s !! c = Some x -> exists x', pConns s' !! c = Some x' /\ cDel x <= cDel x' /\ (cPtr x = true -> cPtr x' = true) /\ (pClosed s = true -> cDel x' = cDel x /\ pClosed s' = true).
Proof.
  intros H Hx. assert (c < length (pConns s)) as Hlt by (by apply lookup_lt_Some in Hx).
  assert (forall c' y y' (l : list pconn), l !! c' = Some y -> l !! c = Some x -> cDel y' = cDel y -> (cPtr y = true -> cPtr y' = true) -> exists x', <[c' := y']> l !! c = Some x' /\ cDel x' = cDel x /\ (cPtr x = true -> cPtr x' = true)) as Hi.
  { intros c' y y' l Hy Hxl Hd Hpt. destruct (decide (c' = c)) as [-> | Hne]; [|exists x; by rewrite list_lookup_insert_ne by done]. rewrite Hxl in Hy. injection Hy as <-. exists y'. rewrite list_lookup_insert by (by apply lookup_lt_Some in Hxl). done. }
  unfold pstep in H. destruct (pFault s) eqn:Ef; [done|]. destruct e as [h r|h|h ok|c' k n ok|h|c'|].
  - unfold msg in H. destruct (negb _); [done|]. destruct r; [case_bool_decide; [|done]|case_bool_decide; [|done]|destruct (_ || _); [|done]]; injection H as <-; try destruct (pInit s); simp; exists x; fin.
  - unfold hstep in H. destruct (pHands s !! h) as [[[|a l]|c2 l|c2 k2 n2 l]|] eqn:Eh; try done. destruct a as [| |k|].
    + injection H as <-. simp. exists x. split; [by apply lookup_app_l_Some|]. split; [lia|]. done.
    + destruct (use s) as [[[c2 x2]|f]|]; injection H as <-; simp; exists x; fin.
    + destruct (use s) as [[[c2 x2]|f]|] eqn:Eu; injection H as <-; simp; [|exists x; fin..].
      unfold use in Eu. destruct (pCur s) as [c3|]; [|done]. cbn [mbind option_bind] in Eu. destruct (pConns s !! c3) as [x3|] eqn:Ex; [|done]. cbn [mbind option_bind] in Eu.
      destruct (cPtr x3) eqn:Ep3; [|done]. cbn [negb] in Eu. case_bool_decide; [|done]. injection Eu as <- <-.
      destruct (Hi c3 x3 (mkC (cPtr x3) (cDel x3) (cRef x3) (cPend x3 ++ [(k, pNext s)]) (cRes x3)) _ Ex Hx eq_refl ltac:(done)) as (x' & ? & ? & ?). rewrite Ep3 in *. exists x'. fin.
    + destruct (pNeg s); [|destruct (pClosed s) eqn:?; [|done]]; injection H as <-; simp; exists x; fin.
  - destruct (pHands s !! h) as [[|c2 l|]|] eqn:Eh; try done. destruct (pConns s !! c2) as [x2|] eqn:Ex; [|done]. cbn [mbind option_bind] in H. injection H as <-. destruct ok; simp; [|exists x; fin].
    destruct (Hi c2 x2 (mkC true (cDel x2) (cRef x2) (cPend x2) (cRes x2)) _ Ex Hx eq_refl ltac:(done)) as (x' & ? & ? & ?). exists x'. fin.
  - destruct (pConns s !! c') as [x2|] eqn:Ex; [|done]. cbn [mbind option_bind] in H. destruct (_ && _); [|done]. injection H as <-. simp.
    edestruct (Hi c' x2) as (x' & H1 & ? & ?); [exact Ex|exact Hx| | |exists x'; fin]; done.
  - destruct (pHands s !! h) as [[|c2 l|c2 k n l]|] eqn:Eh; try done. destruct (pConns s !! c2) as [x2|] eqn:Ex; [|done]. cbn [mbind option_bind] in H.
    destruct (take_res k (cRes x2)) as [[[m b] r]|] eqn:Et; [|done]. cbn [mbind option_bind] in H. injection H as <-. simp.
    edestruct (Hi c2 x2) as (x' & H1 & ? & ?); [exact Ex|exact Hx| | |exists x'; fin]; done.
  - destruct (pConns s !! c') as [x2|] eqn:Ex; [|done]. cbn [mbind option_bind] in H. destruct (_ && _); [|done]. injection H as <-. destruct (cRef x2), (pNeg s); simp; exists x; fin.
  - destruct (pClosed s) eqn:Ec; [done|]. injection H as <-. destruct (c ← pCur s; x ← pConns s !! c; Some (c, x)) as [[c2 x2]|] eqn:Ex; simp; [|exists x; fin].
    destruct (pCur s) as [c3|]; [|done]. cbn [mbind option_bind] in Ex. destruct (pConns s !! c3) as [x3|] eqn:Ex3; [|done]. cbn [mbind option_bind] in Ex. injection Ex as <- <-.
    destruct (decide (c3 = c)) as [-> | Hne]; [|exists x; rewrite list_lookup_insert_ne by done; fin]. rewrite Hx in Ex3. injection Ex3 as <-. eexists. rewrite list_lookup_insert by done. split; [done|]. cbn. split; [destruct (cPtr x); lia|]. done.
Qed.
Lemma del_stays s es s' c x : prun s es = Some s' -> pClosed s = true -> pConns s !! c = Some x -> exists x', pConns s' !! c = Some x' /\ cDel x' = cDel x /\ (cPtr x = true -> cPtr x' = true).
Proof.
  revert s x. induction es as [|e es IH]; intros s x H Hc Hx; cbn in H; [injection H as <-; eauto|]. destruct (pstep s e) as [s1|] eqn:E; [|done].
  destruct (del_mono _ _ _ _ _ E Hx) as (x1 & Hx1 & _ & Hp & Hcl). destruct (Hcl Hc) as [Hd Hc1]. destruct (IH s1 x1 H Hc1 Hx1) as (x' & ? & ? & ?). exists x'. split; [done|]. split; [lia|auto].
Qed.
Theorem C90_closing_frees_partial s es s' x0 : reachable s -> pConns s = [x0] -> cPtr x0 = true -> prun s (EClose :: es) = Some s' ->
  exists x, pConns s' !! 0 = Some x /\ cDel x = 1.
Proof.
  intros I%reach_PI Hl1 Hp H. cbn in H. destruct (pstep s EClose) as [s1|] eqn:E; [|done]. cbn [mbind option_bind] in H.
  unfold pstep in E. destruct (pFault s); [done|]. destruct (pClosed s) eqn:Ec; [done|]. rewrite (i_cur s I), Hl1 in E. cbn [length mbind option_bind lookup list_lookup] in E. injection E as <-.
  pose proof (i_open s I Ec) as F. rewrite Hl1 in F. apply Forall_cons in F as [[Hd _] _].
  match type of H with prun ?t _ = _ => assert (exists y, pConns t !! 0 = Some y /\ cDel y = 1) as (y & Hy & Hy1) end.
  { eexists. simp. split; [cbn; reflexivity|]. cbn. by rewrite Hp, Hd. }
  destruct (del_stays _ _ _ 0 y H) as (x' & Hx' & Hd' & _); [done|done|]. exists x'. split; [done|lia].
Qed.

(* A visitor by itself, as long as its task is open, libwebrtc makes what it is asked for and says once that negotiation is needed, does the client no harm. *)
Record PJ (s : pst) : Prop := {
  j_pi : PI s; j_open : pClosed s = false; j_ok : pFault s = None; j_alone : forall h, h <> 0 -> pHands s !! h = None;
  j_ptr : forall c x, pConns s !! c = Some x -> cPtr x = false -> exists l, pHands s !! 0 = Some (HMaking c l) }.
Definition is_neg (e : pev) : bool := match e with ENeg _ => true | _ => false end.
Lemma PJ_step s e s' : PJ s -> by_visitor 0 e -> e <> EClose -> (forall h, e <> EMade h false) -> (is_neg e = true -> pNeg s = false) -> pstep s e = Some s' -> PJ s' /\ (pNeg s' = true -> pNeg s = true \/ is_neg e = true).
Proof.
  intros J Hb Hc Hm Hn H. pose proof (PI_step _ _ _ (j_pi s J) H) as I'. destruct J as [I Ho Hf Ha Hp].
  assert (forall y, use s = Some (inr y) -> (exists l, pHands s !! 0 = Some (HRun l)) -> False) as Hu.
  { intros y Hy [l Hl]. unfold use in Hy. destruct (pCur s) as [c|]; [|done]. cbn [mbind option_bind] in Hy. destruct (pConns s !! c) as [x|] eqn:Ex; [|done]. cbn [mbind option_bind] in Hy.
    destruct (cPtr x) eqn:Ep; [|destruct (Hp _ _ Ex Ep); congruence]. cbn [negb] in Hy. pose proof (i_open s I Ho) as F. eapply Forall_lookup in Ex; [|exact F]. destruct Ex as [E _]. rewrite bool_decide_true in Hy by done. done. }
  assert (forall c y y' (l : list pconn), l !! c = Some y -> cPtr y' = true \/ cPtr y' = cPtr y -> forall c' x, <[c := y']> l !! c' = Some x -> cPtr x = false -> exists z, l !! c' = Some z /\ cPtr z = false) as Hins.
  { intros c y y' l Hy Hpt c' x Hx Hpx. destruct (decide (c = c')) as [<- | Hne]; [|rewrite list_lookup_insert_ne in Hx by done; eauto]. rewrite list_lookup_insert in Hx by (by apply lookup_lt_Some in Hy). injection Hx as <-. exists y. split; [done|]. destruct Hpt; congruence. }
  unfold pstep in H. rewrite Hf in H. destruct e as [h r|h|h ok|c k n ok|h|c|]; [..|done].
  - cbn in Hb. subst h. unfold msg in H. destruct (idle s 0) eqn:Ei; [|done]. cbn [negb] in H. destruct (idle_not s 0 Ei) as [_ Hmk].
    assert (forall l b, PI (set_hand (mkP (pClosed s) (pNeg s) b (pConns s) (pCur s) (pHands s) (pNext s) (pGot s) (pFault s)) 0 (HRun l)) -> PJ (set_hand (mkP (pClosed s) (pNeg s) b (pConns s) (pCur s) (pHands s) (pNext s) (pGot s) (pFault s)) 0 (HRun l))) as Hmj.
    { intros l b Ix. split; simp; try done; [intros h Hh; by rewrite lookup_insert_ne, Ha by done|]. intros c x Hx Hpx. destruct (Hp _ _ Hx Hpx) as [q Hq]. by apply Hmk in Hq. }
    destruct r; [case_bool_decide; [|done]|case_bool_decide; [|done]|destruct (_ || _); [|done]]; injection H as <-; try (destruct (pInit s) eqn:Ein); (split; [|simp; auto]).
    + rewrite <- Ein in *. by apply Hmj.
    + rewrite <- Ein in *. by apply Hmj.
    + simp. rewrite <- Ein in *. by apply Hmj.
    + by apply (Hmj _ true).
    + simp. rewrite <- Ein in *. by apply Hmj.
    + by apply (Hmj _ true).
  - destruct (decide (h = 0)) as [-> | Hh]; [|unfold hstep in H; by rewrite (Ha h Hh) in H].
    unfold hstep in H. destruct (pHands s !! 0) as [[[|a l]|c2 l|c2 k2 n2 l]|] eqn:Eh; try done.
    assert (forall c x, pConns s !! c = Some x -> cPtr x = true) as Hall. { intros c x Hx. destruct (cPtr x) eqn:E; [done|]. destruct (Hp _ _ Hx E). congruence. }
    destruct a as [| |k|].
    + injection H as <-. split; [|simp; auto]. split; simp; try done; [intros h Hh; by rewrite lookup_insert_ne, Ha by done|]. intros c x Hx Hpx. apply lookup_snoc_cases in Hx as [Hx|[-> ->]]; [rewrite (Hall _ _ Hx) in Hpx; done|]. rewrite lookup_insert. eauto.
    + destruct (use s) as [[[c2 x2]|f]|] eqn:Eu; [|exfalso; eapply Hu; eauto|]; injection H as <-; (split; [|simp; auto]); split; simp; try done; try (intros h Hh; by rewrite lookup_insert_ne, Ha by done); intros c x Hx Hpx; rewrite (Hall _ _ Hx) in Hpx; done.
    + destruct (use s) as [[[c2 x2]|f]|] eqn:Eu; [|exfalso; eapply Hu; eauto|]; injection H as <-; (split; [|simp; auto]); split; simp; try done; try (intros h Hh; by rewrite lookup_insert_ne, Ha by done).
      * intros c x Hx Hpx. exfalso. unfold use in Eu. destruct (pCur s) as [c3|]; [|done]. cbn [mbind option_bind] in Eu. destruct (pConns s !! c3) as [x3|] eqn:Ex; [|done]. cbn [mbind option_bind] in Eu.
        destruct (negb (cPtr x3)); [done|]. case_bool_decide; [|done]. injection Eu as <- <-. edestruct (Hins c3 x3) as (z & Hz & Hpz); [exact Ex| |exact Hx|exact Hpx|]; [by right|]. by rewrite (Hall _ _ Hz) in Hpz.
      * intros c x Hx Hpx; rewrite (Hall _ _ Hx) in Hpx; done.
    + destruct (pNeg s) eqn:En; [|by rewrite Ho in H]. injection H as <-. split; [|simp; auto]. split; simp; try done; [intros h Hh; by rewrite lookup_insert_ne, Ha by done|]. intros c x Hx Hpx. rewrite (Hall _ _ Hx) in Hpx; done.
  - destruct ok; [|by destruct (Hm h)]. destruct (decide (h = 0)) as [-> | Hh]; [|by rewrite (Ha h Hh) in H].
    destruct (pHands s !! 0) as [[|c2 l|]|] eqn:Eh; try done. destruct (pConns s !! c2) as [x2|] eqn:Ex; [|done]. cbn [mbind option_bind] in H. injection H as <-. split; [|simp; auto]. split; simp; try done; [intros h Hh; by rewrite lookup_insert_ne, Ha by done|].
    intros c x Hx Hpx. exfalso. destruct (decide (c2 = c)) as [<- | Hne].
    + rewrite list_lookup_insert in Hx by (by apply lookup_lt_Some in Ex). injection Hx as <-. done.
    + rewrite list_lookup_insert_ne in Hx by done. destruct (Hp _ _ Hx Hpx) as [q Hq]. congruence.
  - destruct (pConns s !! c) as [x2|] eqn:Ex; [|done]. cbn [mbind option_bind] in H. destruct (_ && _); [|done]. injection H as <-. split; [|simp; auto]. split; simp; try done.
    intros c' x Hx Hpx. edestruct (Hins c x2) as (z & Hz & Hpz); [exact Ex| |exact Hx|exact Hpx|]; [by right|]. eauto.
  - destruct (decide (h = 0)) as [-> | Hh]; [|by rewrite (Ha h Hh) in H].
    destruct (pHands s !! 0) as [[|c2 l|c2 k n l]|] eqn:Eh; try done. destruct (pConns s !! c2) as [x2|] eqn:Ex; [|done]. cbn [mbind option_bind] in H.
    destruct (take_res k (cRes x2)) as [[[m b] r]|] eqn:Et; [|done]. cbn [mbind option_bind] in H. injection H as <-. split; [|simp; auto]. split; simp; try done; [intros h Hh; by rewrite lookup_insert_ne, Ha by done|].
    intros c' x Hx Hpx. exfalso. edestruct (Hins c2 x2) as (z & Hz & Hpz); [exact Ex| |exact Hx|exact Hpx|]; [by right|]. destruct (Hp _ _ Hz Hpz). congruence.
  - destruct (pConns s !! c) as [x2|] eqn:Ex; [|done]. cbn [mbind option_bind] in H. destruct (_ && _); [|done]. injection H as <-. rewrite (Hn eq_refl) in *. destruct (cRef x2); (split; [|by right]); split; simp; done.
Qed.
Theorem C90_no_harm_partial es s : prun pst0 es = Some s -> Forall (by_visitor 0) es -> EClose ∉ es -> (forall h, EMade h false ∉ es) -> length (List.filter is_neg es) <= 1 -> pFault s = None.
Proof.
  intros H Hb Hc Hm Hn. assert (PJ pst0) as J. { split; [apply PI0|done..]. }
  assert (pNeg pst0 = true -> length (List.filter is_neg es) = 0) as Hz by done.
  revert J Hz H. generalize pst0. induction es as [|e es IH]; intros s0 J Hz H; [injection H as <-; by apply j_ok|]. cbn in H. destruct (pstep s0 e) as [s1|] eqn:E; [|done].
  apply Forall_cons in Hb as [Hb1 Hb2]. apply not_elem_of_cons in Hc as [Hc1 Hc2]. cbn [List.filter] in Hn, Hz.
  destruct (PJ_step s0 e s1 J Hb1) as [J1 Hn1]; [by intros ->|intros h ->; apply (Hm h); left| |done|].
  - intros En. rewrite En in Hz. destruct (pNeg s0); [|done]. by specialize (Hz eq_refl).
  - apply (IH Hb2 Hc2) with s1; [intros h Hh; apply (Hm h); by right| |done| |done].
    + destruct (is_neg e); cbn in Hn; lia.
    + intros Ht. destruct (Hn1 Ht) as [H0|H0]; [|rewrite H0 in Hn; cbn in Hn; lia]. specialize (Hz H0). destruct (is_neg e); [done|done].
Qed.

(* ---------- what goes wrong *)
(* A visitor that has asked for an offer once may ask again on its connection: the event channel is closed a second time, the whole client ends. *)
Theorem C90_two_requests_refuted s : pFault s = None -> idle s 0 = true -> pNeg s = true ->
  exists es s', prun s es = Some s' /\ pFault s' = Some ClosedTwice /\ Forall (by_visitor 0) es.
Proof.
  intros Hf Hid Hn. exists [EMsg 0 RGetOffer; EStep 0; EMade 0 true; ENeg (length (pConns s))]. eexists. split; [|split; [|by repeat constructor]].
  - eapply prun_cons; [unfold pstep; rewrite Hf; unfold msg; rewrite Hid; cbn [negb]; rewrite bool_decide_true by done; reflexivity|].
    eapply prun_cons; [unfold pstep; simp; rewrite ?Hf; unfold hstep; simp; rewrite lookup_insert; cbn [prog_get]; reflexivity|].
    eapply prun_cons; [unfold pstep; simp; rewrite ?Hf, !lookup_insert; simp; rewrite lookup_app_r, Nat.sub_diag by lia; cbn [lookup list_lookup mbind option_bind]; reflexivity|].
    eapply prun_cons; [unfold pstep; simp; rewrite ?Hf; rewrite list_lookup_insert by (rewrite app_length; cbn; lia); cbn [mbind option_bind]; simp; rewrite bool_decide_true by done; cbn [andb]; rewrite Hn; reflexivity|]. reflexivity.
  - done.
Qed.
(* Closed while a call is out: the callback finds nobody, and the handler waits for ever, whatever happens. *)
Lemma stuck_step s e s' h c k n l : PI s -> pstep s e = Some s' -> pHands s !! h = Some (HWait c k n l) -> (exists x, pConns s !! c = Some x /\ cRef x = false /\ take_res k (cRes x) = None) ->
  pHands s' !! h = Some (HWait c k n l) /\ exists x, pConns s' !! c = Some x /\ cRef x = false /\ take_res k (cRes x) = None.
Proof.
  intros I H Hh (x & Hx & Hr & Ht). assert (c < length (pConns s)) as Hlt by (by apply lookup_lt_Some in Hx).
  unfold pstep in H. destruct (pFault s) eqn:Ef; [done|]. destruct e as [g r|g|g ok|c' k' n' ok|g|c'|].
  - unfold msg in H. destruct (idle s g) eqn:Ei; [|done]. cbn [negb] in H. assert (g <> h) as Hne by (intros ->; unfold idle in Ei; by rewrite Hh in Ei).
    destruct r; [case_bool_decide; [|done]|case_bool_decide; [|done]|destruct (_ || _); [|done]]; injection H as <-; try destruct (pInit s); simp; rewrite lookup_insert_ne by done; eauto.
  - unfold hstep in H. destruct (pHands s !! g) as [[[|a r]|c2 r|c2 k2 n2 r]|] eqn:Eg; try done. assert (g <> h) as Hne by (intros ->; congruence). destruct a as [| |k0|].
    + injection H as <-. simp. rewrite lookup_insert_ne by done. split; [done|]. exists x. split; [by apply lookup_app_l_Some|done].
    + destruct (use s) as [[[c2 x2]|f]|]; injection H as <-; simp; rewrite ?lookup_insert_ne by done; eauto.
    + destruct (use s) as [[[c2 x2]|f]|] eqn:Eu; injection H as <-; simp; rewrite ?lookup_insert_ne by done; [|eauto..]. split; [done|].
      unfold use in Eu. destruct (pCur s) as [c3|]; [|done]. cbn [mbind option_bind] in Eu. destruct (pConns s !! c3) as [x3|] eqn:Ex; [|done]. cbn [mbind option_bind] in Eu.
      destruct (cPtr x3) eqn:Ep3; [|done]. cbn [negb] in Eu. case_bool_decide; [|done]. injection Eu as <- <-.
      destruct (decide (c3 = c)) as [-> | Hc]; [|exists x; by rewrite list_lookup_insert_ne by done]. rewrite Hx in Ex. injection Ex as <-. eexists. rewrite list_lookup_insert by done. split; [done|]. done.
    + destruct (pNeg s); [|destruct (pClosed s); [|done]]; injection H as <-; simp; rewrite lookup_insert_ne by done; eauto.
  - destruct (pHands s !! g) as [[|c2 r|]|] eqn:Eg; try done. assert (g <> h) as Hne by (intros ->; congruence). destruct (pConns s !! c2) as [x2|] eqn:Ex; [|done]. cbn [mbind option_bind] in H. injection H as <-. destruct ok; simp; rewrite lookup_insert_ne by done; [|eauto].
    split; [done|]. destruct (decide (c2 = c)) as [-> | Hc]; [|exists x; by rewrite list_lookup_insert_ne by done]. rewrite Hx in Ex. injection Ex as <-. eexists. rewrite list_lookup_insert by done. split; [done|]. done.
  - destruct (pConns s !! c') as [x2|] eqn:Ex; [|done]. cbn [mbind option_bind] in H. destruct (_ && _); [|done]. injection H as <-. simp. split; [done|].
    destruct (decide (c' = c)) as [-> | Hc]; [|exists x; by rewrite list_lookup_insert_ne by done]. rewrite Hx in Ex. injection Ex as <-. eexists. rewrite list_lookup_insert by done. split; [done|]. cbn. by rewrite Hr.
  - destruct (pHands s !! g) as [[|c2 r|c2 k2 n2 r]|] eqn:Eg; try done. destruct (pConns s !! c2) as [x2|] eqn:Ex; [|done]. cbn [mbind option_bind] in H.
    destruct (take_res k2 (cRes x2)) as [[[m b] q]|] eqn:Et; [|done]. cbn [mbind option_bind] in H. injection H as <-. simp.
    assert (g <> h) as Hne. { intros ->. rewrite Hh in Eg. injection Eg as <- <- <- <-. rewrite Hx in Ex. injection Ex as <-. congruence. }
    rewrite lookup_insert_ne by done. split; [done|]. destruct (decide (c2 = c)) as [-> | Hc]; [|exists x; by rewrite list_lookup_insert_ne by done]. rewrite Hx in Ex. injection Ex as <-. eexists. rewrite list_lookup_insert by done. split; [done|]. cbn. split; [done|].
    destruct (take_res k q) as [[[m' b'] q']|] eqn:Eq; [|done]. destruct (take_res_in _ _ _ _ _ Eq) as [Hin _]. apply (proj2 (take_res_in _ _ _ _ _ Et)) in Hin. by apply take_res_some in Hin.
  - destruct (pConns s !! c') as [x2|] eqn:Ex; [|done]. cbn [mbind option_bind] in H. destruct (_ && _); [|done]. injection H as <-. destruct (cRef x2), (pNeg s); simp; eauto.
  - destruct (pClosed s) eqn:Ec; [done|]. injection H as <-. destruct (c ← pCur s; x ← pConns s !! c; Some (c, x)) as [[c2 x2]|] eqn:Ex; simp; [|eauto]. split; [done|].
    destruct (pCur s) as [c3|]; [|done]. cbn [mbind option_bind] in Ex. destruct (pConns s !! c3) as [x3|] eqn:Ex3; [|done]. cbn [mbind option_bind] in Ex. injection Ex as <- <-.
    destruct (decide (c3 = c)) as [-> | Hc]; [|exists x; by rewrite list_lookup_insert_ne by done]. rewrite Hx in Ex3. injection Ex3 as <-. eexists. rewrite list_lookup_insert by done. split; [done|]. done.
Qed.
Lemma stuck_run s es s' h c k n l : PI s -> prun s es = Some s' -> pHands s !! h = Some (HWait c k n l) -> (exists x, pConns s !! c = Some x /\ cRef x = false /\ take_res k (cRes x) = None) -> pHands s' !! h = Some (HWait c k n l).
Proof.
  revert s. induction es as [|e es IH]; intros s I H Hh Hx; cbn in H; [by injection H as <-|]. destruct (pstep s e) as [s1|] eqn:E; [|done].
  destruct (stuck_step _ _ _ _ _ _ _ _ I E Hh Hx) as [Hh1 Hx1]. eapply (IH s1); [by eapply PI_step|done..].
Qed.
Theorem C90_waits_for_ever_refuted s h k n l es s' : reachable s -> pHands s !! h = Some (HWait (pred (length (pConns s))) k n l) ->
  (exists x, pConns s !! pred (length (pConns s)) = Some x /\ (k, n) ∈ cPend x) -> prun s (EClose :: es) = Some s' -> pHands s' !! h = Some (HWait (pred (length (pConns s))) k n l).
Proof.
  intros I%reach_PI Hh (x & Hx & Hp) H. cbn in H. destruct (pstep s EClose) as [s1|] eqn:E; [|done]. cbn [mbind option_bind] in H. pose proof (PI_step _ _ _ I E) as I1.
  eapply (stuck_run s1); [done|exact H|..]; unfold pstep in E; destruct (pFault s); try done; destruct (pClosed s) eqn:Ec; try done; rewrite (i_cur s I) in E;
    destruct (length (pConns s)) as [|q] eqn:El; cbn [pred] in *; try (apply lookup_lt_Some in Hx; lia); cbn [mbind option_bind] in E; rewrite Hx in E; cbn [mbind option_bind] in E; injection E as <-; simp; [done|].
  eexists. rewrite list_lookup_insert by lia. split; [done|]. cbn. split; [done|]. destruct (take_res k (cRes x)) as [[[m b] r]|] eqn:Et; [|done]. destruct (take_res_in _ _ _ _ _ Et) as [Hin _].
  destruct (i_res s I _ _ _ _ _ Hx Hin) as (h' & l' & Hh'). pose proof (i_uniq s I _ _ _ _ _ _ _ _ Hh Hh') as <-. pose proof (i_once s I) as F. eapply Forall_lookup in Hx; [|exact F]. destruct Hx as [N1 _]. by apply N1 in Hin.
Qed.
(* A closed task still serves the requests of its connection: what it makes then is never freed, whatever happens, and the task is in no table any more. *)
Theorem C90_never_freed_refuted s : pFault s = None -> idle s 0 = true -> pClosed s = true ->
  exists es s1, prun s es = Some s1 /\ Forall (by_visitor 0) es /\ forall es' s2, prun s1 es' = Some s2 -> exists x, pConns s2 !! length (pConns s) = Some x /\ cPtr x = true /\ cDel x = 0.
Proof.
  intros Hf Hid Hc. exists [EMsg 0 RGetOffer; EStep 0; EMade 0 true]. eexists. split; [|split; [by repeat constructor|]].
  - eapply prun_cons; [unfold pstep; rewrite Hf; unfold msg; rewrite Hid; cbn [negb]; rewrite bool_decide_true by done; reflexivity|].
    eapply prun_cons; [unfold pstep; simp; rewrite ?Hf; unfold hstep; simp; rewrite lookup_insert; cbn [prog_get]; reflexivity|].
    eapply prun_cons; [unfold pstep; simp; rewrite ?Hf, !lookup_insert; simp; rewrite lookup_app_r, Nat.sub_diag by lia; cbn [lookup list_lookup mbind option_bind]; reflexivity|].
    reflexivity.
  - intros es' s2 H. match type of H with prun ?t _ = _ => assert (exists y, pConns t !! length (pConns s) = Some y /\ cDel y = 0 /\ cPtr y = true) as (y & Hy & Hy1 & Hy2) end.
    { eexists. simp. rewrite list_lookup_insert by (rewrite app_length; cbn; lia). done. }
    destruct (del_stays _ _ _ (length (pConns s)) y H) as (x' & Hx' & Hd & Hp); [done|done|]. exists x'. split; [done|]. split; [by apply Hp|lia].
Qed.
(* And the next message of a visitor whose connection was freed goes to the freed object. *)
Theorem C90_freed_refuted s c x : pFault s = None -> idle s 0 = true -> pInit s = true -> pCur s = Some c -> pConns s !! c = Some x -> cPtr x = true -> cDel x <> 0 ->
  exists s', prun s [EMsg 0 ROffer; EStep 0] = Some s' /\ pFault s' = Some Freed.
Proof.
  intros Hf Hid Hi Hc Hx Hp Hd. eexists. split.
  - eapply prun_cons; [unfold pstep; rewrite Hf; unfold msg; rewrite Hid; cbn [negb]; rewrite bool_decide_true, Hi by done; reflexivity|].
    eapply prun_cons; [unfold pstep; simp; rewrite ?Hf; unfold hstep, use; simp; rewrite lookup_insert, Hc; cbn [mbind option_bind prog_candidate]; rewrite Hx; cbn [mbind option_bind]; rewrite Hp; cbn [negb]; rewrite bool_decide_false by done; reflexivity|]. reflexivity.
  - done.
Qed.
(* When libwebrtc refuses to make the connection (400), the next message is given to a null pointer. *)
Theorem C90_null_refuted s : pFault s = None -> idle s 0 = true -> pInit s = false ->
  exists s', prun s [EMsg 0 ROffer; EStep 0; EMade 0 false; EMsg 0 ROffer; EStep 0] = Some s' /\ pFault s' = Some NullPointer.
Proof.
  intros Hf Hid Hi. eexists. split.
  - eapply prun_cons; [unfold pstep; rewrite Hf; unfold msg; rewrite Hid; cbn [negb]; rewrite bool_decide_true, Hi by done; reflexivity|].
    eapply prun_cons; [unfold pstep; simp; rewrite ?Hf; unfold hstep; simp; rewrite lookup_insert; cbn [prog_offer]; reflexivity|].
    eapply prun_cons; [unfold pstep; simp; rewrite ?Hf, !lookup_insert; simp; rewrite lookup_app_r, Nat.sub_diag by lia; cbn [lookup list_lookup mbind option_bind]; reflexivity|].
    eapply prun_cons; [unfold pstep; simp; rewrite ?Hf; unfold msg, idle; simp; rewrite lookup_insert; cbn [negb]; rewrite bool_decide_true by done; reflexivity|].
    eapply prun_cons; [unfold pstep; simp; rewrite ?Hf; unfold hstep, use; simp; rewrite lookup_insert; cbn [mbind option_bind prog_candidate]; rewrite lookup_app_r, Nat.sub_diag by lia; cbn [lookup list_lookup mbind option_bind]; simp; cbn [negb]; reflexivity|]. reflexivity.
  - done.
Qed.
(* Any other visitor can answer the offer made to this one, by its id alone; *)
Theorem C90_foreign_refuted s h c x : pFault s = None -> h <> 0 -> pHands s !! h = None -> pClosed s = false -> pInit s = false -> pCur s = Some c -> pConns s !! c = Some x -> cPtr x = true -> cDel x = 0 -> cRef x = true ->
  take_res KSetRemote (cRes x) = None -> pHands s !! 0 = Some (HRun []) ->
  exists es s', prun s es = Some s' /\ Forall (by_visitor h) es /\ (pNext s, pNext s, true) ∈ pGot s' /\ pInit s' = true /\ pHands s' !! 0 = Some (HRun []) /\ pFault s' = None /\ pClosed s' = false /\
    (* and the answer of the visitor itself is then taken for a candidate *)
    pstep s' (EMsg 0 RAnswer) = Some (set_hand s' 0 (HRun prog_candidate)).
Proof.
  intros Hf Hh0 Hh Ho Hi Hc Hx Hp Hd Hr Ht H0. exists [EMsg h RAnswer; EStep h; EBack c KSetRemote (pNext s) true; ERecv h].
  assert (c < length (pConns s)) as Hlt by (by apply lookup_lt_Some in Hx).
  eexists. split; [|split; [by repeat constructor|]].
  - eapply prun_cons; [unfold pstep; rewrite Hf; unfold msg, idle; rewrite Hh; cbn [negb]; rewrite Ho, Hi; cbn [negb]; rewrite orb_true_r; reflexivity|].
    eapply prun_cons; [unfold pstep; simp; rewrite ?Hf; unfold hstep, use; simp; rewrite lookup_insert, Hc; cbn [prog_answer mbind option_bind]; rewrite Hx; cbn [mbind option_bind]; rewrite Hp; cbn [negb]; rewrite bool_decide_true by done; simp; reflexivity|].
    eapply prun_cons; [unfold pstep; simp; rewrite ?Hf, list_lookup_insert by done; cbn [mbind option_bind]; simp; rewrite bool_decide_true by (apply elem_of_app; right; left); rewrite Hr, Ht; cbn [negb orb andb]; rewrite bool_decide_true by done; reflexivity|].
    eapply prun_cons; [|reflexivity]. unfold pstep. simp. rewrite ?Hf, lookup_insert. rewrite list_lookup_insert by (rewrite insert_length; lia). cbn [mbind option_bind]. simp.
    assert (take_res KSetRemote (cRes x ++ [(KSetRemote, pNext s, true)]) = Some (pNext s, true, cRes x)) as ->.
    { clear -Ht. induction (cRes x) as [|[[k' m'] b'] q IH]; cbn in *; [done|]. case_bool_decide; [done|]. destruct (take_res KSetRemote q) as [[[? ?] ?]|]; [done|]. by rewrite IH. }
    cbn [mbind option_bind]. simp. reflexivity.
  - simp. split; [apply elem_of_app; right; left|]. split; [done|]. rewrite !lookup_insert_ne by done. split; [done|]. split; [done|]. split; [done|].
    unfold pstep. simp. unfold msg, idle. simp. rewrite !lookup_insert_ne, H0 by done. cbn [negb]. rewrite bool_decide_true by done. done.
Qed.

(* ---------- reachable states that meet these hypotheses *)
Definition offered : list pev := [EMsg 0 RGetOffer; EStep 0; EMade 0 true; ENeg 0; EStep 0; EStep 0; EStep 0; EStep 0; EBack 0 KOffer 0 true; ERecv 0; EStep 0; EBack 0 KSetLocal 1 true; ERecv 0; EStep 0].
Theorem C90_witness :
  (* get-offer, served: idle, event seen, one connection; the foreign answer's hypotheses too *)
  (exists s, prun pst0 offered = Some s /\ pFault s = None /\ idle s 0 = true /\ pNeg s = true /\ pClosed s = false /\ pInit s = false /\ pHands s !! 0 = Some (HRun []) /\ pHands s !! 1 = None /\ pCur s = Some 0 /\
     pConns s = [mkC true 0 true [] []] /\ pGot s = [(0, 0, true); (1, 1, true)]) /\
  (* an offer, closed while SetRemoteDescription is out *)
  (exists s x l, prun pst0 [EMsg 0 ROffer; EStep 0; EMade 0 true; EStep 0] = Some s /\ pHands s !! 0 = Some (HWait 0 KSetRemote 0 l) /\ pConns s = [x] /\ (KSetRemote, 0) ∈ cPend x /\ pClosed s = false /\ pFault s = None) /\
  (* a task that is closed before its visitor has said anything *)
  (exists s, prun pst0 [EClose] = Some s /\ pFault s = None /\ idle s 0 = true /\ pClosed s = true) /\
  (* an offer, served, then closed *)
  (exists s, prun pst0 [EMsg 0 ROffer; EStep 0; EMade 0 true; EStep 0; EBack 0 KSetRemote 0 true; ERecv 0; EStep 0; EBack 0 KAnswer 1 true; ERecv 0; EStep 0; EBack 0 KSetLocal 2 true; ERecv 0; EStep 0; EClose] = Some s /\
     pFault s = None /\ idle s 0 = true /\ pInit s = true /\ pCur s = Some 0 /\ pConns s = [mkC true 1 false [] []]).
Proof.
  split; [eexists; split; [vm_compute; reflexivity|]; repeat (split; [vm_compute; reflexivity|]); vm_compute; reflexivity|].
  split; [do 3 eexists; split; [vm_compute; reflexivity|]; split; [vm_compute; reflexivity|]; split; [vm_compute; reflexivity|]; split; [left|]; split; vm_compute; reflexivity|].
  split; [eexists; split; [vm_compute; reflexivity|]; repeat (split; [vm_compute; reflexivity|]); vm_compute; reflexivity|].
  eexists; split; [vm_compute; reflexivity|]; repeat (split; [vm_compute; reflexivity|]); vm_compute; reflexivity.
Qed.
