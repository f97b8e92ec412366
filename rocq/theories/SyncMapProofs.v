(* SyncMapProofs.v -- the invariant of the concurrent map, and the simulation by the device of SyncMapSpec. *)
From Verif Require Import GoBase SyncMapSpec SyncMapModel.
Local Open Scope N_scope.

(* ---- the entry through which key k is reached, and its value *)
Definition cur (c : core) (k : K) : option eid :=
  match readm c !! k with Some e => Some e | None => if amended c then dirty_get c k else None end.
Definition absval (c : core) (k : K) : option V :=
  match cur c k with Some e => match heap c !! e with Some (_, x) => val_of x | None => None end | None => None end.
Definition Out (c : core) (e : eid) : Prop := forall k, readm c !! k <> Some e /\ dirty_get c k <> Some e.

(* ---- the global invariant; [todo]: what dirtyLocked still has to copy *)
Record GI (c : core) (todo : gmap K eid) : Prop := {
  gi_read : forall k e, readm c !! k = Some e -> exists x, heap c !! e = Some (k, x);
  gi_dirty : forall k e, dirty_get c k = Some e -> exists x, heap c !! e = Some (k, x) /\ x <> Exp;
  gi_amended : amended c = true -> is_Some (dirty c) /\ todo = ∅;
  gi_none : dirty c = None -> (forall k e x, readm c !! k = Some e -> heap c !! e = Some (k, x) -> x <> Exp) /\ todo = ∅;
  gi_done : forall k e x, is_Some (dirty c) -> readm c !! k = Some e -> heap c !! e = Some (k, x) -> todo !! k = None ->
              (x = Exp /\ dirty_get c k = None) \/ (x <> Exp /\ dirty_get c k = Some e);
  gi_todo : forall k e x, is_Some (dirty c) -> readm c !! k = Some e -> heap c !! e = Some (k, x) -> todo !! k <> None ->
              dirty_get c k = None /\ x <> Exp;
  gi_only : forall k e, readm c !! k = None -> dirty_get c k = Some e -> amended c = true /\ exists v, heap c !! e = Some (k, Val v);
  gi_sub : forall k e, todo !! k = Some e -> readm c !! k = Some e
}.

(* ---- how one step may change things, as seen by the others *)
Definition lt (h h' : list kvmap) (k : K) (o : option V) : Prop :=
  exists j m, (pred (length h) <= j)%nat /\ h' !! j = Some m /\ m !! k = o.
Record Gu (own : eid -> Prop) (c : core) (h : list kvmap) (c' : core) (h' : list kvmap) : Prop := {
  gu_hist : h' = h \/ exists m, h' = h ++ [m];
  gu_tag : forall e k x, heap c !! e = Some (k, x) -> exists x', heap c' !! e = Some (k, x');
  gu_read : forall k e x', readm c !! k = Some e -> heap c' !! e = Some (k, x') ->
              readm c' !! k = Some e \/ (x' = Exp /\ lt h h' k None);
  gu_orphan : forall k e, readm c !! k <> Some e -> heap c !! e = Some (k, Exp) -> heap c' !! e = Some (k, Exp);
  gu_cur : forall k e x', cur c k = Some e -> heap c' !! e = Some (k, x') ->
              cur c' k = Some e \/ (lt h h' k (val_of x') /\ lt h h' k None);
  gu_notcur : forall k e x x', cur c k <> Some e -> heap c !! e = Some (k, x) -> heap c' !! e = Some (k, x') ->
              val_of x' = val_of x \/ val_of x' = None;
  gu_out : forall e k x, Out c e -> ~ own e -> heap c !! e = Some (k, x) -> Out c' e /\ heap c' !! e = Some (k, x)
}.
(* what a step made without the lock leaves alone *)
Record quiet (c c' : core) : Prop := {
  q_read : readm c' = readm c; q_amended : amended c' = amended c; q_dirty : dirty c' = dirty c;
  q_exp : forall e k x, heap c !! e = Some (k, x) -> exists x', heap c' !! e = Some (k, x') /\ (x = Exp <-> x' = Exp)
}.

(* ---- what a goroutine knows *)
Definition sees (h : list kvmap) (n : nat) (k : K) (o : option V) : Prop := saw h n (fun m => m !! k = o).
Definition hold (c : core) (h : list kvmap) (n : nat) (k : K) (e : eid) : Prop :=
  exists x, heap c !! e = Some (k, x) /\ (cur c k = Some e \/ (sees h n k (val_of x) /\ sees h n k None)).
Definition modif (c : core) (k : K) (e : eid) : Prop :=
  exists x, heap c !! e = Some (k, x) /\ (readm c !! k = Some e \/ x = Exp).
Definition lkd (c : core) (miss : bool) (k : K) (e : eid) : Prop :=
  cur c k = Some e /\ (exists x, heap c !! e = Some (k, x) /\ x <> Exp) /\ (miss = true -> amended c = true).
Definition delmod (c : core) (h : list kvmap) (n : nat) (k : K) (e : eid) : Prop :=
  exists x, heap c !! e = Some (k, x) /\ (readm c !! k = Some e \/ (x = Exp /\ sees h n k None)).
Definition owner (c : core) (k : K) (e : eid) (d : option res) : Prop :=
  exists v, heap c !! e = Some (k, Val v) /\ Out c e /\ d = Some (ROpt (Some v)).

Definition opof (a : act) (k : K) : op := match a with AStore v => OStore k v | ALos v => OLoadOrStore k v | ALoc => OLoadOrCreate k end.
Definition opin (i : inop) : op := match i with ILoad k => OLoad k | IDel k => OLoadAndDelete k | IPut a k => opof a k | IRange => ORange end.
Definition putv (a : act) (v : V) (cr : list V) : Prop := match a with AStore _ => False | ALos v0 => v = v0 | ALoc => v ∈ cr end.
Definition resok (h : list kvmap) (o : op) (n : nat) (cr : list V) (d : option res) (r : res) : Prop :=
  d = Some r \/ (d = None /\ saw h n (fun m => sem o cr m r m)) \/
  (d = None /\ o = ORange /\ exists l b, r = RRange l b /\ range_ok (drop n h) l b).

Definition locked (q : pc) : bool :=
  match q with
  | PTry (Some _) _ _ _ | PMk (Some _) _ _ | PCasN (Some _) _ _ _ _ | PRe (Some _) _ _ _ _ | PIn _ | PUnexp _ _ _
  | PCopy _ _ _ | PAmend _ _ | PMkI _ | PIns _ _ _ | PMiss _ | PUnl _ | PBad => true
  | _ => false
  end.
Definition unlq (q : pc) : Prop := match q with PLoadE _ _ | PDelE _ _ | PRIter _ _ | PRet _ => True | _ => False end.
Definition lmod (lk : option bool) (c : core) (k : K) (e : eid) : Prop :=
  match lk with None => modif c k e | Some miss => lkd c miss k e end.
Definition absent (c : core) (k : K) (am : bool) : Prop :=
  readm c !! k = None /\ dirty_get c k = None /\ is_Some (dirty c) /\ amended c = am.

Fixpoint TI (c : core) (h : list kvmap) (q : pc) (o : op) (n : nat) (cr : list V) (d : option res) : Prop :=
  match q with
  | PLoad0 k => o = OLoad k /\ d = None
  | PLoadE k e => o = OLoad k /\ d = None /\ hold c h n k e
  | PDel0 k => o = OLoadAndDelete k /\ d = None
  | PDelE k e | PDelCas k e _ => o = OLoadAndDelete k /\ ((d = None /\ delmod c h n k e) \/ owner c k e d)
  | PPut0 a k => o = opof a k /\ d = None
  | PTry lk a k e => o = opof a k /\ d = None /\ lmod lk c k e
  | PCasS v k e x => o = OStore k v /\ d = None /\ modif c k e /\ x <> Exp
  | PMk lk k e => o = OLoadOrCreate k /\ d = None /\ lmod lk c k e
  | PCasN lk a k e v | PRe lk a k e v => o = opof a k /\ d = None /\ lmod lk c k e /\ putv a v cr
  | PLock i | PIn i => o = opin i /\ d = None
  | PUnexp a k e => o = opof a k /\ d = None /\ readm c !! k = Some e
  | PCopy a k _ | PAmend a k => o = opof a k /\ d = None /\ absent c k false
  | PMkI k => o = OLoadOrCreate k /\ d = None /\ absent c k true
  | PIns k v r => d = None /\ absent c k true /\ forall m, m !! k = None -> sem o cr m r (<[k := v]> m)
  | PMiss q => unlq q /\ amended c = true /\ TI c h q o n cr d
  | PUnl q => unlq q /\ TI c h q o n cr d
  | PR0 => o = ORange /\ d = None
  | PRIter todo acc => o = ORange /\ d = None /\ (forall k e, todo !! k = Some e -> hold c h n k e) /\ NoDup acc.*1 /\
      (forall k, k ∈ acc.*1 -> todo !! k = None) /\ (forall k v, (k, v) ∈ acc -> sees h n k (Some v)) /\
      (forall k, todo !! k = None -> k ∉ acc.*1 -> sees h n k None)
  | PRet r => resok h o n cr d r
  | PBad => False
  end.

(* ---- basic facts *)
Lemma saw_grow h h' n P : (h' = h \/ exists m, h' = h ++ [m]) -> saw h n P -> saw h' n P.
Proof. intros [-> | [m ->]]; [done|]. apply saw_mono. Qed.
Lemma saw_imp h n (P Q : kvmap -> Prop) : (forall m, P m -> Q m) -> saw h n P -> saw h n Q.
Proof. intros HPQ (j & m & Hj & Hl & HP). exists j, m. split; [done|]. split; [done|]. by apply HPQ. Qed.
Lemma saw_last h n m (P : kvmap -> Prop) : (n < length h)%nat -> last h = Some m -> P m -> saw h n P.
Proof.
  intros Hn Hl HP. exists (pred (length h)), m. split; [lia|]. split; [|done]. by rewrite <- last_lookup.
Qed.
Lemma lt_sees h h' n k o : (n < length h)%nat -> lt h h' k o -> sees h' n k o.
Proof. intros Hn (j & m & Hj & Hl & HP). exists j, m. split; [lia|]. by split. Qed.
Lemma lt_last h h' m k o : (h' = h \/ exists m, h' = h ++ [m]) -> last h' = Some m -> m !! k = o -> lt h h' k o.
Proof.
  intros Hh Hl HP. exists (pred (length h')), m. split; [|split; [by rewrite <- last_lookup|done]].
  destruct Hh as [-> | [m' ->]]; [done|]. rewrite app_length. cbn. lia.
Qed.
Lemma lt_here h h' m k o : (h' = h \/ exists m, h' = h ++ [m]) -> last h = Some m -> m !! k = o -> lt h h' k o.
Proof.
  intros Hh Hl HP. exists (pred (length h)), m. split; [done|]. split; [|done]. rewrite last_lookup in Hl.
  destruct Hh as [-> | [m' ->]]; [done|]. by apply lookup_app_l_Some.
Qed.
Lemma range_ok_grow h h' n l b : (n < length h)%nat -> (h' = h \/ exists m, h' = h ++ [m]) -> range_ok (drop n h) l b -> range_ok (drop n h') l b.
Proof.
  intros Hn [-> | [m ->]]; [done|]. intros (H1 & H2 & H3). rewrite drop_app_le by lia. split; [done|]. split.
  - intros k v Hin. destruct (H2 k v Hin) as (m0 & Hm & Hk). exists m0. split; [|done]. apply elem_of_app. by left.
  - intros Hb k Hall. apply H3; [done|]. intros m0 Hm0. apply Hall. apply elem_of_app. by left.
Qed.

(* ---- stability *)
Section stable.
  Context (own : eid -> Prop) (c c' : core) (h h' : list kvmap) (n : nat).
  Hypothesis (HG : Gu own c h c' h') (Hn : (n < length h)%nat).

  Lemma sees_st k o : sees h n k o -> sees h' n k o.
  Proof. apply saw_grow. by apply (gu_hist _ _ _ _ _ HG). Qed.
  Lemma hold_st k e : hold c h n k e -> hold c' h' n k e.
  Proof.
    intros (x & Hx & Hc). destruct (gu_tag _ _ _ _ _ HG _ _ _ Hx) as [x' Hx']. exists x'. split; [done|].
    destruct (decide (cur c k = Some e)) as [E|E].
    - destruct (gu_cur _ _ _ _ _ HG _ _ _ E Hx') as [?|[Ha Hb]]; [by left|right]. split; eapply lt_sees; done.
    - destruct Hc as [?|[Ha Hb]]; [done|]. right. split; [|by apply sees_st].
      destruct (gu_notcur _ _ _ _ _ HG _ _ _ _ E Hx Hx') as [-> | ->]; by apply sees_st.
  Qed.
  Lemma modif_st k e : modif c k e -> modif c' k e.
  Proof.
    intros (x & Hx & Hc). destruct (gu_tag _ _ _ _ _ HG _ _ _ Hx) as [x' Hx']. exists x'. split; [done|].
    destruct (decide (readm c !! k = Some e)) as [E|E].
    - destruct (gu_read _ _ _ _ _ HG _ _ _ E Hx') as [?|[Ha Hb]]; [by left|by right].
    - destruct Hc as [?| ->]; [done|]. right. pose proof (gu_orphan _ _ _ _ _ HG _ _ E Hx). congruence.
  Qed.
  Lemma delmod_st k e : delmod c h n k e -> delmod c' h' n k e.
  Proof.
    intros (x & Hx & Hc). destruct (gu_tag _ _ _ _ _ HG _ _ _ Hx) as [x' Hx']. exists x'. split; [done|].
    destruct (decide (readm c !! k = Some e)) as [E|E].
    - destruct (gu_read _ _ _ _ _ HG _ _ _ E Hx') as [?|[Ha Hb]]; [by left|right]. split; [done|]. by eapply lt_sees.
    - destruct Hc as [?|[-> Hs]]; [done|]. right. pose proof (gu_orphan _ _ _ _ _ HG _ _ E Hx). split; [congruence|]. by apply sees_st.
  Qed.
  Lemma owner_st k e d : ~ own e -> owner c k e d -> owner c' k e d.
  Proof.
    intros Hno (v & Hx & Ho & Hd). exists v. destruct (gu_out _ _ _ _ _ HG _ _ _ Ho Hno Hx). done.
  Qed.
  Lemma resok_st o cr d r : resok h o n cr d r -> resok h' o n cr d r.
  Proof.
    intros [?|[[? Hs]|(? & ? & l & b & ? & Hr)]]; [by left|right; left|right; right].
    - split; [done|]. eapply saw_grow; [by apply (gu_hist _ _ _ _ _ HG)|done].
    - split; [done|]. split; [done|]. exists l, b. split; [done|]. eapply range_ok_grow; [exact Hn|by apply (gu_hist _ _ _ _ _ HG)|done].
  Qed.

  (* points whose knowledge does not depend on the lock *)
  Definition free_pc (q : pc) : Prop :=
    match q with
    | PLoadE _ _ | PDelE _ _ | PDelCas _ _ _ | PCasS _ _ _ _ | PRIter _ _ | PRet _ | PLoad0 _ | PDel0 _ | PPut0 _ _ | PLock _ | PR0 => True
    | PTry None _ _ _ | PMk None _ _ | PCasN None _ _ _ _ | PRe None _ _ _ _ => True
    | _ => False
    end.
  Definition owned (q : pc) (d : option res) (e : eid) : Prop :=
    d <> None /\ match q with PDelE _ e' | PDelCas _ e' _ | PUnl (PDelE _ e') | PMiss (PDelE _ e') => e' = e | _ => False end.
  Lemma TI_free_st q o cr d : free_pc q -> (forall e, owned q d e -> ~ own e) -> TI c h q o n cr d -> TI c' h' q o n cr d.
  Proof.
    intros Hf Ho HT. destruct q as [| | |k e|k e w| |[|] | |[|] |[|] |[|] | | | | | | | | | | |todo acc|r|]; try done; cbn [TI lmod] in *.
    - destruct HT as (? & ? & ?). split; [done|]. split; [done|]. by apply hold_st.
    - destruct HT as (? & [[? ?]|Hw]); (split; [done|]); [left|right].
      + split; [done|]. by apply delmod_st.
      + apply owner_st; [|done]. apply Ho. split; [|done]. by destruct Hw as (v & _ & _ & ->).
    - destruct HT as (? & [[? ?]|Hw]); (split; [done|]); [left|right].
      + split; [done|]. by apply delmod_st.
      + apply owner_st; [|done]. apply Ho. split; [|done]. by destruct Hw as (v & _ & _ & ->).
    - destruct HT as (? & ? & ?). split; [done|]. split; [done|]. by apply modif_st.
    - destruct HT as (? & ? & ? & ?). split; [done|]. split; [done|]. split; [|done]. by apply modif_st.
    - destruct HT as (? & ? & ?). split; [done|]. split; [done|]. by apply modif_st.
    - destruct HT as (? & ? & ? & ?). split; [done|]. split; [done|]. split; [|done]. by apply modif_st.
    - destruct HT as (? & ? & ? & ?). split; [done|]. split; [done|]. split; [|done]. by apply modif_st.
    - destruct HT as (? & ? & H1 & ? & ? & H2 & H3). split; [done|]. split; [done|]. split; [|split; [done|split; [done|split]]].
      + intros k e Hk. apply hold_st. by apply H1.
      + intros k v Hk. apply sees_st. by apply H2.
      + intros k Hk Hk'. apply sees_st. by apply H3.
    - by apply resok_st.
  Qed.

  Lemma cur_quiet k : quiet c c' -> cur c' k = cur c k.
  Proof. intros [q1 q2 q3 q4]. unfold cur, dirty_get. by rewrite q1, q2, q3. Qed.
  Lemma lkd_quiet miss k e : quiet c c' -> lkd c miss k e -> lkd c' miss k e.
  Proof.
    intros Hq (H1 & (x & Hx & Hne) & H2). split; [by rewrite cur_quiet|]. destruct Hq as [q1 q2 q3 q4].
    destruct (q4 _ _ _ Hx) as (x' & Hx' & HE). split; [|by rewrite q2]. exists x'. split; [done|]. by rewrite <- HE.
  Qed.
  Lemma absent_quiet k am : quiet c c' -> absent c k am -> absent c' k am.
  Proof. intros [q1 q2 q3 q4]. unfold absent, dirty_get. by rewrite q1, q2, q3. Qed.
  (* the others, while somebody moves without touching what the lock protects *)
  Lemma TI_quiet_st q o cr d : quiet c c' -> (forall e, owned q d e -> ~ own e) -> TI c h q o n cr d -> TI c' h' q o n cr d.
  Proof.
    intros Hq Ho HT. destruct (decide (locked q = true)) as [El|El].
    2: { apply TI_free_st; [|done|done]. by destruct q as [| | |k e|k e w| |[|] | |[|] |[|] |[|] | | | | | | | | | | |todo acc|r|]. }
    destruct q as [| | |k e|k e w| |[miss|] ? ? ?| |[miss|] ? ?|[miss|] ? ? ? ?|[miss|] ? ? ? ?| | |a k e|a k td|a k|k|k v r|q|q| |todo acc|r|]; try done; cbn [TI lmod] in *.
    - destruct HT as (? & ? & ?). split; [done|]. split; [done|]. by apply lkd_quiet.
    - destruct HT as (? & ? & ?). split; [done|]. split; [done|]. by apply lkd_quiet.
    - destruct HT as (? & ? & ? & ?). split; [done|]. split; [done|]. split; [|done]. by apply lkd_quiet.
    - destruct HT as (? & ? & ? & ?). split; [done|]. split; [done|]. split; [|done]. by apply lkd_quiet.
    - destruct Hq as [q1 q2 q3 q4]. by rewrite q1.
    - destruct HT as (? & ? & ?). split; [done|]. split; [done|]. by apply absent_quiet.
    - destruct HT as (? & ? & ?). split; [done|]. split; [done|]. by apply absent_quiet.
    - destruct HT as (? & ? & ?). split; [done|]. split; [done|]. by apply absent_quiet.
    - destruct HT as (? & ? & ?). split; [done|]. split; [|done]. by apply absent_quiet.
    - destruct HT as (? & ? & ?). split; [done|]. split; [by rewrite (q_amended _ _ Hq)|]. apply TI_free_st; [by destruct q| |done].
      intros e [Hd He]. apply Ho. split; [done|]. by destruct q.
    - destruct HT as (? & ?). split; [done|]. apply TI_free_st; [by destruct q| |done].
      intros e [Hd He]. apply Ho. split; [done|]. by destruct q.
  Qed.
End stable.

(* ---- the updates *)
Definition abs (m : kvmap) (c : core) : Prop := forall k, m !! k = absval c k.

Lemma cur_tag c td k e : GI c td -> cur c k = Some e -> exists x, heap c !! e = Some (k, x).
Proof.
  intros HI. unfold cur. destruct (readm c !! k) eqn:E; [intros [= ->]; by eapply gi_read|].
  destruct (amended c); [|done]. intros Hd. destruct (gi_dirty _ _ HI _ _ Hd) as (x & Hx & _). by exists x.
Qed.
Lemma cur_read c k e : readm c !! k = Some e -> cur c k = Some e.
Proof. unfold cur. by intros ->. Qed.
Lemma cur_not_out c k e : cur c k = Some e -> Out c e -> False.
Proof.
  intros Hc Ho. destruct (Ho k) as [H1 H2]. unfold cur in Hc. destruct (readm c !! k); [congruence|]. by destruct (amended c).
Qed.
Lemma absval_cur c k e x : cur c k = Some e -> heap c !! e = Some (k, x) -> absval c k = val_of x.
Proof. unfold absval. by intros -> ->. Qed.

Lemma Gu_refl own c h : Gu own c h c h.
Proof.
  split; try done; eauto.
  intros. left. congruence.
Qed.

(* 1. the cell of the entry of k changes *)
Section set_cell.
  Context (c : core) (td : gmap K eid) (k : K) (e : eid) (x y : cell) (h : list kvmap) (m : kvmap).
  Hypothesis (HI : GI c td) (Hcur : cur c k = Some e) (Hx : heap c !! e = Some (k, x)) (Hnx : x <> Exp) (Hny : y <> Exp).
  Hypothesis (Hm : last h = Some m) (Ha : abs m c).
  Let c' := set_cell c e k y.

  Lemma sc_cur k' : cur c' k' = cur c k'.
  Proof. done. Qed.
  Lemma sc_heap e' : heap c' !! e' = if decide (e' = e) then Some (k, y) else heap c !! e'.
  Proof. cbn. destruct (decide (e' = e)) as [->|]; [apply lookup_insert|by apply lookup_insert_ne]. Qed.
  Lemma sc_quiet : quiet c c'.
  Proof.
    split; try done. intros e' k' z Hz. rewrite sc_heap. destruct (decide (e' = e)) as [->|]; [|by exists z].
    rewrite Hx in Hz. injection Hz as <- <-. by exists y.
  Qed.
  Lemma sc_abs m' : (forall k', k' <> k -> m' !! k' = m !! k') -> m' !! k = val_of y -> abs m' c'.
  Proof.
    intros H1 H2 k'. destruct (decide (k' = k)) as [->|Hne].
    - rewrite H2. symmetry. eapply absval_cur; [exact Hcur|]. rewrite sc_heap. by rewrite decide_True.
    - rewrite H1 by done. rewrite (Ha k'). unfold absval. rewrite sc_cur. destruct (cur c k') as [e'|] eqn:E; [|done].
      rewrite sc_heap. destruct (decide (e' = e)) as [->|]; [|done]. destruct (cur_tag _ _ _ _ HI E) as [z Hz]. congruence.
  Qed.
  Lemma sc_GI : (readm c !! k = Some e \/ exists v, y = Val v) -> GI c' td.
  Proof.
    intros Hv. destruct HI as [i1 i2 i3 i4 i5 i6 i7 i8]. split; try done; cbn [c' set_cell readm amended dirty].
    - intros k' e' Hk. destruct (i1 _ _ Hk) as [z Hz]. rewrite sc_heap. destruct (decide (e' = e)) as [->|]; [|by exists z]. exists y. congruence.
    - intros k' e' Hk. destruct (i2 _ _ Hk) as (z & Hz & Hne). rewrite sc_heap. destruct (decide (e' = e)) as [->|]; [|by exists z]. exists y. split; [congruence|done].
    - intros Hd. destruct (i4 Hd) as [Hi ?]. split; [|done]. intros k' e' z Hk. rewrite sc_heap. destruct (decide (e' = e)); [congruence|by apply Hi].
    - intros k' e' z Hd Hk. rewrite sc_heap. destruct (decide (e' = e)) as [->|]; [|by apply i5]. intros [= <- <-] Ht. right. split; [done|].
      destruct (i5 _ _ _ Hd Hk Hx Ht) as [[? ?]|[? ?]]; [done|]. done.
    - intros k' e' z Hd Hk. rewrite sc_heap. destruct (decide (e' = e)) as [->|]; [|by apply i6]. intros [= <- <-] Ht.
      destruct (i6 _ _ _ Hd Hk Hx Ht) as [? ?]. done.
    - intros k' e' Hk Hd. destruct (i7 _ _ Hk Hd) as [? [v Hv']]. split; [done|]. rewrite sc_heap. destruct (decide (e' = e)) as [->|]; [|by exists v].
      assert (k' = k) as -> by congruence. destruct Hv as [Hv|[v' ->]]; [congruence|by exists v'].
  Qed.
  Lemma sc_Gu own h' : h' = h \/ (exists m, h' = h ++ [m]) -> Gu own c h c' h'.
  Proof.
    intros Hh. split; try done.
    - intros e' k' z Hz. rewrite sc_heap. destruct (decide (e' = e)) as [->|]; [|by exists z]. exists y. congruence.
    - intros k' e' z Hz. by left.
    - intros k' e' Hk Hz. rewrite sc_heap. destruct (decide (e' = e)) as [->|]; congruence.
    - intros k' e' z Hk Hz. by left.
    - intros k' e' z z' Hk Hz. rewrite sc_heap. destruct (decide (e' = e)) as [->|]; [|left; congruence]. intros [= <- <-]. congruence.
    - intros e' k' z Ho _ Hz. split; [done|]. rewrite sc_heap. destruct (decide (e' = e)) as [->|]; [|done]. exfalso. by eapply cur_not_out.
  Qed.
End set_cell.

(* 2. the last touch on an entry nobody can reach any more *)
Section own_del.
  Context (c : core) (td : gmap K eid) (k : K) (e : eid) (v : V) (h : list kvmap) (m : kvmap).
  Hypothesis (HI : GI c td) (Ho : Out c e) (Hx : heap c !! e = Some (k, Val v)) (Ha : abs m c).
  Let c' := set_cell c e k Nil.
  Lemma od_quiet : quiet c c'.
  Proof. by eapply sc_quiet. Qed.
  Lemma od_abs : abs m c'.
  Proof.
    intros k'. rewrite (Ha k'). unfold absval. change (cur c' k') with (cur c k'). destruct (cur c k') as [e'|] eqn:E; [|done].
    unfold c'. rewrite sc_heap. destruct (decide (e' = e)) as [->|]; [|done]. exfalso. by eapply cur_not_out.
  Qed.
  Lemma od_GI : GI c' td.
  Proof.
    assert (Hne : forall k' e', readm c !! k' = Some e' -> e' <> e) by (intros k' e' Hk ->; by destruct (Ho k')).
    assert (Hnd : forall k' e', dirty_get c k' = Some e' -> e' <> e) by (intros k' e' Hk ->; by destruct (Ho k')).
    destruct HI as [i1 i2 i3 i4 i5 i6 i7 i8]. split; try done; cbn [c' set_cell readm amended dirty].
    - intros k' e' Hk. unfold c'. rewrite sc_heap, decide_False by (by eapply Hne). by apply i1.
    - intros k' e' Hk. unfold c'. rewrite sc_heap, decide_False by (by eapply Hnd). by apply i2.
    - intros Hd. destruct (i4 Hd) as [Hi ?]. split; [|done]. intros k' e' z Hk. unfold c'. rewrite sc_heap, decide_False by (by eapply Hne). by apply Hi.
    - intros k' e' z Hd Hk. unfold c'. rewrite sc_heap, decide_False by (by eapply Hne). by apply i5.
    - intros k' e' z Hd Hk. unfold c'. rewrite sc_heap, decide_False by (by eapply Hne). by apply i6.
    - intros k' e' Hk Hd. unfold c'. rewrite sc_heap, decide_False by (by eapply Hnd). by apply i7.
  Qed.
  Lemma od_Gu (own : eid -> Prop) : own e -> Gu own c h c' h.
  Proof.
    intros Hown. split; [by left| | | | | | ].
    - intros e' k' z Hz. unfold c'. rewrite sc_heap. destruct (decide (e' = e)) as [->|]; [|by exists z]. exists Nil. congruence.
    - intros k' e' z Hz. by left.
    - intros k' e' Hk Hz. unfold c'. rewrite sc_heap. destruct (decide (e' = e)) as [->|]; congruence.
    - intros k' e' z Hk Hz. by left.
    - intros k' e' z z' Hk Hz. unfold c'. rewrite sc_heap. destruct (decide (e' = e)) as [->|]; [|left; congruence]. intros [= <- <-]. by right.
    - intros e' k' z Ho' Hno Hz. split; [done|]. unfold c'. rewrite sc_heap. destruct (decide (e' = e)) as [->|]; done.
  Qed.
End own_del.

(* 3. unexpungeLocked *)
Section unexp.
  Context (c : core) (k : K) (e : eid) (d : gmap K eid) (h : list kvmap) (m : kvmap).
  Hypothesis (HI : GI c ∅) (Hr : readm c !! k = Some e) (Hx : heap c !! e = Some (k, Exp)) (Hd : dirty c = Some d) (Ha : abs m c).
  Let c' := set_dirty (set_cell c e k Nil) (Some (<[k := e]> d)).
  Lemma ux_heap e' : heap c' !! e' = if decide (e' = e) then Some (k, Nil) else heap c !! e'.
  Proof. apply (sc_heap c k e Nil). Qed.
  Lemma ux_dirty k' : dirty_get c' k' = if decide (k' = k) then Some e else dirty_get c k'.
  Proof. unfold dirty_get. rewrite Hd. unfold c'. cbn [set_dirty dirty]. destruct (decide (k' = k)) as [->|]; [apply lookup_insert|by apply lookup_insert_ne]. Qed.
  Lemma ux_cur k' : cur c' k' = cur c k'.
  Proof.
    unfold cur. change (readm c' !! k') with (readm c !! k'). change (amended c') with (amended c).
    destruct (readm c !! k') eqn:E; [done|]. destruct (amended c); [|done]. rewrite ux_dirty. destruct (decide (k' = k)); congruence.
  Qed.
  Lemma ux_abs : abs m c'.
  Proof.
    intros k'. rewrite (Ha k'). unfold absval. rewrite ux_cur. destruct (cur c k') as [e'|]; [|done]. rewrite ux_heap.
    destruct (decide (e' = e)) as [->|]; [|done]. by rewrite Hx.
  Qed.
  Lemma ux_GI : GI c' ∅.
  Proof.
    destruct HI as [i1 i2 i3 i4 i5 i6 i7 i8]. split.
    - intros k' e' Hk. destruct (i1 _ _ Hk) as [z Hz]. rewrite ux_heap. destruct (decide (e' = e)) as [->|]; [|by exists z]. exists Nil. congruence.
    - intros k' e'. rewrite ux_dirty, ux_heap. destruct (decide (k' = k)) as [->|].
      + intros [= <-]. rewrite decide_True by done. by exists Nil.
      + intros Hk. destruct (i2 _ _ Hk) as (z & Hz & Hne). destruct (decide (e' = e)) as [->|]; [|by exists z]. congruence.
    - intros _. by split.
    - done.
    - intros k' e' z _ Hk. rewrite ux_heap, ux_dirty. destruct (decide (e' = e)) as [->|].
      + intros [= <- <-] _. right. rewrite decide_True by done. done.
      + intros Hz Ht. change (readm c !! k' = Some e') in Hk. assert (k' <> k) by congruence. rewrite decide_False by done. eapply i5; try done; by rewrite Hd.
    - intros k' e' z _ _ _ Hn. by rewrite lookup_empty in Hn.
    - intros k' e' Hk. rewrite ux_dirty, ux_heap. change (readm c' !! k') with (readm c !! k') in Hk. assert (k' <> k) by congruence. rewrite decide_False by done.
      intros Hg. destruct (i7 _ _ Hk Hg) as [? [v Hv]]. split; [done|]. destruct (decide (e' = e)) as [->|]; [congruence|by exists v].
    - intros k' e'. by rewrite lookup_empty.
  Qed.
  Lemma ux_Gu own : Gu own c h c' h.
  Proof.
    split; [by left| | | | | | ].
    - intros e' k' z Hz. rewrite ux_heap. destruct (decide (e' = e)) as [->|]; [|by exists z]. exists Nil. congruence.
    - intros k' e' z Hz. by left.
    - intros k' e' Hk Hz. rewrite ux_heap. destruct (decide (e' = e)) as [->|]; congruence.
    - intros k' e' z Hk Hz. left. by rewrite ux_cur.
    - intros k' e' z z' Hk Hz. rewrite ux_heap. destruct (decide (e' = e)) as [->|]; [|left; congruence]. intros [= <- <-]. left. by assert (z = Exp) as -> by congruence.
    - intros e' k' z Ho _ Hz. assert (e' <> e) by (intros ->; by destruct (Ho k)). rewrite ux_heap, decide_False by done. split; [|done].
      intros k2. rewrite ux_dirty. change (readm c' !! k2) with (readm c !! k2). destruct (Ho k2). split; [done|]. destruct (decide (k2 = k)); [congruence|done].
  Qed.
End unexp.

(* 4. dirtyLocked starts *)
Section copy0.
  Context (c : core) (h : list kvmap) (m : kvmap).
  Hypothesis (HI : GI c ∅) (Hd : dirty c = None) (Hm : amended c = false) (Ha : abs m c).
  Let c' := set_dirty c (Some ∅).
  Lemma c0_cur k : cur c' k = cur c k.
  Proof. unfold cur. cbn. by rewrite Hm. Qed.
  Lemma c0_abs : abs m c'.
  Proof. intros k. rewrite (Ha k). unfold absval. by rewrite c0_cur. Qed.
  Lemma c0_GI : GI c' (readm c).
  Proof.
    assert (Hdg : forall k, dirty_get c' k = None) by (intros k; apply lookup_empty).
    destruct HI as [i1 i2 i3 i4 i5 i6 i7 i8]. split; try done.
    - cbn. by rewrite Hm.
    - intros k e x _ Hk Hx Hn. cbn in Hk. congruence.
    - intros k e x _ Hk Hx _. split; [apply Hdg|]. by eapply i4.
  Qed.
  Lemma c0_Gu own : Gu own c h c' h.
  Proof.
    split; [by left| | | | | | ].
    - intros e k x Hx. by exists x.
    - intros k e x Hk _. by left.
    - done.
    - intros k e x Hk _. left. by rewrite c0_cur.
    - intros k e x x' _ Hx Hx'. left. change (heap c' !! e) with (heap c !! e) in Hx'. congruence.
    - intros e k x Ho _ Hx. split; [|done]. intros k'. destruct (Ho k'). split; [done|]. change (dirty_get c' k') with ((∅ : gmap K eid) !! k'). by rewrite lookup_empty.
  Qed.
End copy0.

(* 5. one round of dirtyLocked *)
Section copy1.
  Context (c : core) (td : gmap K eid) (k : K) (e : eid) (h : list kvmap) (m : kvmap).
  Hypothesis (HI : GI c td) (Ht : td !! k = Some e) (Hm : last h = Some m) (Ha : abs m c).
  Lemma cp_facts : readm c !! k = Some e /\ amended c = false /\ is_Some (dirty c) /\ dirty_get c k = None /\
    (exists x, heap c !! e = Some (k, x) /\ x <> Exp) /\ cur c k = Some e.
  Proof.
    destruct HI as [i1 i2 i3 i4 i5 i6 i7 i8]. pose proof (i8 _ _ Ht) as Hr. destruct (i1 _ _ Hr) as [x Hx].
    assert (Hne : td <> ∅) by (intros ->; by rewrite lookup_empty in Ht).
    assert (Hd : is_Some (dirty c)) by (destruct (dirty c); [done|]; by destruct i4).
    destruct (i6 _ _ _ Hd Hr Hx) as [? ?]; [by rewrite Ht|].
    split; [done|]. split; [destruct (amended c); [|done]; by destruct i3|]. split; [done|]. split; [done|]. split; [by exists x|]. by apply cur_read.
  Qed.
  (* a deleted entry is expunged *)
  Let c1 := set_cell c e k Exp.
  Hypothesis (Hn : heap c !! e = Some (k, Nil)).
  Lemma ce_heap e' : heap c1 !! e' = if decide (e' = e) then Some (k, Exp) else heap c !! e'.
  Proof. apply (sc_heap c k e Exp). Qed.
  Lemma ce_abs : abs m c1.
  Proof.
    intros k'. rewrite (Ha k'). unfold absval. change (cur c1 k') with (cur c k'). destruct (cur c k') as [e'|]; [|done]. rewrite ce_heap.
    destruct (decide (e' = e)) as [->|]; [|done]. by rewrite Hn.
  Qed.
  Lemma ce_GI : GI c1 (delete k td).
  Proof.
    destruct cp_facts as (Hr & Hf & Hd & Hg & _ & _).
    destruct HI as [i1 i2 i3 i4 i5 i6 i7 i8]. split.
    - intros k' e' Hk. destruct (i1 _ _ Hk) as [z Hz]. rewrite ce_heap. destruct (decide (e' = e)) as [->|]; [|by exists z]. exists Exp. congruence.
    - intros k' e' Hk. destruct (i2 _ _ Hk) as (z & Hz & Hne). rewrite ce_heap. destruct (decide (e' = e)) as [->|]; [|by exists z].
      exfalso. assert (k' = k) as -> by congruence. change (dirty_get c1 k) with (dirty_get c k) in Hk. congruence.
    - change (amended c1) with (amended c). congruence.
    - intros Hd0. change (dirty c1) with (dirty c) in Hd0. rewrite Hd0 in Hd. by destruct Hd.
    - intros k' e' z Hd0 Hk. rewrite ce_heap. destruct (decide (e' = e)) as [->|].
      + intros [= <- <-] _. left. done.
      + intros Hz Ht'. assert (k' <> k) by (intros ->; cbn in Hk; congruence). rewrite lookup_delete_ne in Ht' by done. by eapply i5.
    - intros k' e' z Hd0 Hk. rewrite ce_heap. destruct (decide (e' = e)) as [->|].
      + intros [= <- <-] Ht'. by rewrite lookup_delete in Ht'.
      + intros Hz Ht'. assert (k' <> k) by (intros ->; cbn in Hk; congruence). rewrite lookup_delete_ne in Ht' by done. by eapply i6.
    - intros k' e' Hk Hd'. destruct (i7 _ _ Hk Hd') as [? [v Hv']]. split; [done|]. rewrite ce_heap. destruct (decide (e' = e)) as [->|]; [congruence|by exists v].
    - intros k' e' Hk. apply lookup_delete_Some in Hk. destruct Hk as [_ Hk]. by apply i8.
  Qed.
  Lemma ce_Gu own : Gu own c h c1 h.
  Proof.
    destruct cp_facts as (Hr & _ & _ & _ & _ & Hc).
    split; [by left| | | | | | ].
    - intros e' k' z Hz. rewrite ce_heap. destruct (decide (e' = e)) as [->|]; [|by exists z]. exists Exp. congruence.
    - intros k' e' z Hz. by left.
    - intros k' e' Hk Hz. rewrite ce_heap. destruct (decide (e' = e)) as [->|]; congruence.
    - intros k' e' z Hk Hz. by left.
    - intros k' e' z z' Hk Hz. rewrite ce_heap. destruct (decide (e' = e)) as [->|]; [|left; congruence]. intros [= <- <-]. by right.
    - intros e' k' z Ho _ Hz. split; [done|]. rewrite ce_heap. destruct (decide (e' = e)) as [->|]; [|done]. exfalso. by eapply cur_not_out.
  Qed.
End copy1.
Section copy2.
  Context (c : core) (td : gmap K eid) (k : K) (e : eid) (d : gmap K eid) (v : V) (h : list kvmap) (m : kvmap).
  Hypothesis (HI : GI c td) (Ht : td !! k = Some e) (Hm : last h = Some m) (Ha : abs m c).
  Hypothesis (Hd : dirty c = Some d).
  Let c' := set_dirty c (Some (<[k := e]> d)).
  Lemma cv_dirty k' : dirty_get c' k' = if decide (k' = k) then Some e else dirty_get c k'.
  Proof. unfold dirty_get. rewrite Hd. unfold c'. cbn [set_dirty dirty]. destruct (decide (k' = k)) as [->|]; [apply lookup_insert|by apply lookup_insert_ne]. Qed.
  Lemma cv_cur k' : cur c' k' = cur c k'.
  Proof.
    destruct (cp_facts _ _ _ _ HI Ht) as (Hr & Hf & _). unfold cur. change (readm c' !! k') with (readm c !! k').
    change (amended c') with (amended c). by rewrite Hf.
  Qed.
  Lemma cv_abs : abs m c'.
  Proof. intros k'. rewrite (Ha k'). unfold absval. by rewrite cv_cur. Qed.
  Lemma cv_GI : GI c' (delete k td).
  Proof.
    destruct (cp_facts _ _ _ _ HI Ht) as (Hr & Hf & _ & Hg & (x & Hx & Hxe) & _). assert (HS : is_Some (dirty c)) by (by rewrite Hd).
    destruct HI as [i1 i2 i3 i4 i5 i6 i7 i8]. split; try done.
    - intros k' e'. rewrite cv_dirty. destruct (decide (k' = k)) as [->|]; [|apply i2]. intros [= <-]. by exists x.
    - change (amended c') with (amended c). congruence.
    - intros k' e' z _ Hk Hz Ht'. rewrite cv_dirty. destruct (decide (k' = k)) as [->|].
      + right. change (readm c !! k = Some e') in Hk. split; [|congruence]. assert (e' = e) as -> by congruence. change (heap c !! e = Some (k, z)) in Hz. congruence.
      + rewrite lookup_delete_ne in Ht' by done. by eapply i5.
    - intros k' e' z _ Hk Hz Ht'. rewrite cv_dirty. destruct (decide (k' = k)) as [->|]; [by rewrite lookup_delete in Ht'|].
      rewrite lookup_delete_ne in Ht' by done. by eapply i6.
    - intros k' e' Hk. rewrite cv_dirty. change (readm c !! k' = None) in Hk. destruct (decide (k' = k)) as [->|]; [congruence|]. by apply i7.
    - intros k' e' Hk. apply lookup_delete_Some in Hk. destruct Hk as [_ Hk]. by apply i8.
  Qed.
  Lemma cv_Gu own : Gu own c h c' h.
  Proof.
    destruct (cp_facts _ _ _ _ HI Ht) as (Hr & Hf & _).
    split; [by left| | | | | | ].
    - intros e' k' z Hz. by exists z.
    - intros k' e' z Hz. by left.
    - done.
    - intros k' e' z Hk Hz. left. by rewrite cv_cur.
    - intros k' e' z z' Hk Hz Hz'. left. change (heap c !! e' = Some (k', z')) in Hz'. congruence.
    - intros e' k' z Ho _ Hz. split; [|done]. intros k2. destruct (Ho k2). split; [done|]. rewrite cv_dirty. destruct (decide (k2 = k)); [|done].
      intros [= ->]. by destruct (Ho k).
  Qed.
End copy2.
Lemma cx_GI c td k e : GI c td -> td !! k = Some e -> heap c !! e = Some (k, Exp) -> False.
Proof. intros HI Ht Hx. destruct (cp_facts _ _ _ _ HI Ht) as (_ & _ & _ & _ & (x & Hx' & Hne) & _). congruence. Qed.

(* 6. the read-only map is marked incomplete *)
Section amend.
  Context (c : core) (h : list kvmap) (m : kvmap).
  Hypothesis (HI : GI c ∅) (Hd : is_Some (dirty c)) (Hm : amended c = false) (Ha : abs m c).
  Let c' := mkC (heap c) (readm c) true (dirty c).
  Lemma am_cur k : cur c' k = cur c k.
  Proof.
    unfold cur. cbn. rewrite Hm. destruct (readm c !! k) eqn:E; [done|]. change (dirty_get c' k) with (dirty_get c k).
    destruct (dirty_get c k) eqn:E2; [|done]. destruct (gi_only _ _ HI _ _ E E2) as [? _]. congruence.
  Qed.
  Lemma am_abs : abs m c'.
  Proof. intros k'. rewrite (Ha k'). unfold absval. by rewrite am_cur. Qed.
  Lemma am_GI : GI c' ∅.
  Proof.
    destruct HI as [i1 i2 i3 i4 i5 i6 i7 i8]. split; try done.
    intros k e Hk Hg. split; [done|]. by destruct (i7 _ _ Hk Hg).
  Qed.
  Lemma am_Gu own : Gu own c h c' h.
  Proof.
    split; [by left| | | | | | ].
    - intros e' k' z Hz. by exists z.
    - intros k' e' z Hz. by left.
    - done.
    - intros k' e' z Hk Hz. left. by rewrite am_cur.
    - intros k' e' z z' Hk Hz Hz'. left. change (heap c !! e' = Some (k', z')) in Hz'. congruence.
    - intros e' k' z Ho _ Hz. done.
  Qed.
End amend.

(* 7. a new entry *)
Section fresh.
  Context (c : core) (k : K) (v : V) (e : eid) (d : gmap K eid) (h : list kvmap) (m : kvmap).
  Hypothesis (HI : GI c ∅) (Hab : absent c k true) (Hf : heap c !! e = None) (Hd : dirty c = Some d) (Ha : abs m c).
  Let c' := mkC (<[e := (k, Val v)]> (heap c)) (readm c) (amended c) (Some (<[k := e]> d)).
  Lemma fr_heap e' : heap c' !! e' = if decide (e' = e) then Some (k, Val v) else heap c !! e'.
  Proof. cbn. destruct (decide (e' = e)) as [->|]; [apply lookup_insert|by apply lookup_insert_ne]. Qed.
  Lemma fr_dirty k' : dirty_get c' k' = if decide (k' = k) then Some e else dirty_get c k'.
  Proof. unfold dirty_get. rewrite Hd. unfold c'. cbn [set_dirty dirty]. destruct (decide (k' = k)) as [->|]; [apply lookup_insert|by apply lookup_insert_ne]. Qed.
  Lemma fr_none : cur c k = None.
  Proof. destruct Hab as (H1 & H2 & _). unfold cur. rewrite H1. by destruct (amended c). Qed.
  Lemma fr_cur k' : cur c' k' = if decide (k' = k) then Some e else cur c k'.
  Proof.
    destruct Hab as (H1 & H2 & _ & H3). unfold cur. change (readm c' !! k') with (readm c !! k'). change (amended c') with (amended c).
    rewrite H3, fr_dirty. destruct (decide (k' = k)) as [->|]; [by rewrite H1|done].
  Qed.
  Lemma fr_abs : abs (<[k := v]> m) c'.
  Proof.
    intros k'. unfold absval. rewrite fr_cur. destruct (decide (k' = k)) as [->|].
    - rewrite fr_heap, decide_True by done. by rewrite lookup_insert.
    - rewrite lookup_insert_ne by done. rewrite (Ha k'). unfold absval. destruct (cur c k') as [e'|] eqn:E; [|done]. rewrite fr_heap.
      destruct (decide (e' = e)) as [->|]; [|done]. destruct (cur_tag _ _ _ _ HI E). congruence.
  Qed.
  Lemma fr_GI : GI c' ∅.
  Proof.
    destruct Hab as (H1 & H2 & HS & H3). destruct HI as [i1 i2 i3 i4 i5 i6 i7 i8]. split; try done.
    - intros k' e' Hk. destruct (i1 _ _ Hk) as [z Hz]. rewrite fr_heap. destruct (decide (e' = e)) as [->|]; [congruence|by exists z].
    - intros k' e'. rewrite fr_dirty, fr_heap. destruct (decide (k' = k)) as [->|].
      + intros [= <-]. rewrite decide_True by done. by exists (Val v).
      + intros Hk. destruct (i2 _ _ Hk) as (z & Hz & Hne). destruct (decide (e' = e)) as [->|]; [congruence|by exists z].
    - intros k' e' z _ Hk. rewrite fr_heap, fr_dirty. change (readm c !! k' = Some e') in Hk. assert (k' <> k) by congruence. rewrite (decide_False (P := k' = k)) by done.
      destruct (decide (e' = e)) as [->|]; [destruct (i1 _ _ Hk); congruence|]. by apply i5.
    - intros k' e' Hk. rewrite fr_dirty, fr_heap. destruct (decide (k' = k)) as [->|].
      + intros [= <-]. rewrite decide_True by done. split; [done|by exists v].
      + intros Hg. destruct (i7 _ _ Hk Hg) as [? [w Hw]]. split; [done|]. destruct (decide (e' = e)) as [->|]; [congruence|by exists w].
  Qed.
  Lemma fr_Gu own h' : h' = h \/ (exists m, h' = h ++ [m]) -> Gu own c h c' h'.
  Proof.
    intros Hh. destruct Hab as (H1 & H2 & HS & H3). split; [done| | | | | | ].
    - intros e' k' z Hz. rewrite fr_heap. destruct (decide (e' = e)) as [->|]; [congruence|by exists z].
    - intros k' e' z Hz. by left.
    - intros k' e' Hk Hz. rewrite fr_heap. destruct (decide (e' = e)) as [->|]; congruence.
    - intros k' e' z Hk Hz. left. rewrite fr_cur. destruct (decide (k' = k)) as [->|]; [|done]. by rewrite fr_none in Hk.
    - intros k' e' z z' Hk Hz. rewrite fr_heap. destruct (decide (e' = e)) as [->|]; [congruence|]. intros Hz'. left. congruence.
    - intros e' k' z Ho _ Hz. rewrite fr_heap. assert (e' <> e) by congruence. rewrite decide_False by done. split; [|done].
      intros k2. destruct (Ho k2). split; [done|]. rewrite fr_dirty. destruct (decide (k2 = k)); [congruence|done].
  Qed.
End fresh.

(* 8. the dirty map becomes the read-only map *)
Section promote.
  Context (c : core) (h : list kvmap) (m : kvmap).
  Hypothesis (HI : GI c ∅) (Hm : amended c = true) (Ha : abs m c) (Hl : last h = Some m).
  Let c' := promote c.
  Lemma pr_read k : readm c' !! k = dirty_get c k.
  Proof. unfold c', promote, readm, dirty_get. destruct (dirty c); [done|]. apply lookup_empty. Qed.
  Lemma pr_cur k : cur c' k = dirty_get c k.
  Proof. unfold cur. rewrite pr_read. destruct (dirty_get c k); done. Qed.
  (* the keys that vanish were deleted *)
  Lemma pr_lost k e : cur c k = Some e -> dirty_get c k <> Some e -> readm c !! k = Some e /\ dirty_get c k = None /\ heap c !! e = Some (k, Exp).
  Proof.
    intros Hc Hne. destruct (gi_amended _ _ HI Hm) as [Hd _]. unfold cur in Hc. rewrite Hm in Hc. destruct (readm c !! k) as [e'|] eqn:E; [|done].
    injection Hc as ->. destruct (gi_read _ _ HI _ _ E) as [x Hx].
    destruct (gi_done _ _ HI _ _ _ Hd E Hx) as [[-> ?]|[? ?]]; [apply lookup_empty|done|done].
  Qed.
  Lemma pr_abs : abs m c'.
  Proof.
    intros k. rewrite (Ha k). unfold absval. rewrite pr_cur. change (heap c') with (heap c). destruct (cur c k) as [e|] eqn:E.
    - destruct (decide (dirty_get c k = Some e)) as [->|Hne]; [done|]. destruct (pr_lost _ _ E Hne) as (_ & -> & ->). done.
    - unfold cur in E. rewrite Hm in E. destruct (readm c !! k); [done|]. by rewrite E.
  Qed.
  Lemma pr_GI : GI c' ∅.
  Proof.
    destruct HI as [i1 i2 i3 i4 i5 i6 i7 i8]. split; try done.
    - intros k e. rewrite pr_read. intros Hk. destruct (i2 _ _ Hk) as (x & Hx & _). by exists x.
    - intros _. split; [|done]. intros k e x. rewrite pr_read. intros Hk Hx. destruct (i2 _ _ Hk) as (x' & Hx' & Hne). change (heap c !! e = Some (k, x)) in Hx. congruence.
    - intros k e x [d Hd]. done.
  Qed.
  Lemma pr_Gu own : Gu own c h c' h.
  Proof.
    split; [by left| | | | | | ].
    - intros e' k' z Hz. by exists z.
    - intros k e x Hk Hx. change (heap c !! e = Some (k, x)) in Hx. rewrite pr_read. destruct (decide (dirty_get c k = Some e)) as [->|Hne]; [by left|right].
      destruct (pr_lost k e) as (_ & _ & HE); [by apply cur_read|done|]. rewrite Hx in HE. injection HE as ->. split; [done|].
      eapply lt_here; [by left|exact Hl|]. rewrite (Ha k). rewrite (absval_cur c k e Exp); [done|by apply cur_read|done].
    - done.
    - intros k e x Hk Hx. change (heap c !! e = Some (k, x)) in Hx. rewrite pr_cur. destruct (decide (dirty_get c k = Some e)) as [->|Hne]; [by left|right].
      destruct (pr_lost k e Hk Hne) as (_ & _ & HE). rewrite Hx in HE. injection HE as ->.
      split; (eapply lt_here; [by left|exact Hl|]; rewrite (Ha k); by rewrite (absval_cur c k e Exp)).
    - intros k' e' z z' Hk Hz Hz'. left. change (heap c !! e' = Some (k', z')) in Hz'. congruence.
    - intros e' k' z Ho _ Hz. split; [|done]. intros k2. destruct (Ho k2). rewrite pr_read. split; [done|]. done.
  Qed.
End promote.

(* 9. LoadAndDelete takes an entry out of the dirty map *)
Section ddel.
  Context (c : core) (k : K) (e : eid) (d : gmap K eid) (h : list kvmap) (m : kvmap).
  Hypothesis (HI : GI c ∅) (Hr : readm c !! k = None) (Hm : amended c = true) (Hd : dirty c = Some d) (Hk : d !! k = Some e).
  Hypothesis (Ha : abs m c) (Hl : last h = Some m).
  Let c' := set_dirty c (Some (delete k d)).
  Lemma dd_get : dirty_get c k = Some e.
  Proof. unfold dirty_get. by rewrite Hd. Qed.
  Lemma dd_dirty k' : dirty_get c' k' = if decide (k' = k) then None else dirty_get c k'.
  Proof. unfold dirty_get. rewrite Hd. unfold c'. cbn [set_dirty dirty]. destruct (decide (k' = k)) as [->|]; [apply lookup_delete|by apply lookup_delete_ne]. Qed.
  Lemma dd_cur k' : cur c' k' = if decide (k' = k) then None else cur c k'.
  Proof.
    unfold cur. change (readm c' !! k') with (readm c !! k'). change (amended c') with (amended c). rewrite Hm, dd_dirty.
    destruct (decide (k' = k)) as [->|]; [by rewrite Hr|done].
  Qed.
  Lemma dd_cur0 : cur c k = Some e.
  Proof. unfold cur. by rewrite Hr, Hm, dd_get. Qed.
  Lemma dd_abs : abs (delete k m) c'.
  Proof.
    intros k'. unfold absval. rewrite dd_cur. destruct (decide (k' = k)) as [->|]; [by rewrite lookup_delete|].
    rewrite lookup_delete_ne by done. apply (Ha k').
  Qed.
  Lemma dd_own : exists v, m !! k = Some v /\ owner c' k e (Some (ROpt (Some v))).
  Proof.
    destruct (gi_only _ _ HI _ _ Hr dd_get) as [_ [v Hv]]. exists v. split; [rewrite (Ha k); by rewrite (absval_cur c k e (Val v) dd_cur0 Hv)|].
    exists v. split; [done|]. split; [|done]. intros k'. rewrite dd_dirty. change (readm c' !! k') with (readm c !! k'). split.
    - intros Hk'. destruct (gi_read _ _ HI _ _ Hk') as [x Hx]. assert (k' = k) as -> by congruence. congruence.
    - destruct (decide (k' = k)) as [->|Hne]; [done|]. intros Hk'. destruct (gi_dirty _ _ HI _ _ Hk') as (x & Hx & _). congruence.
  Qed.
  Lemma dd_GI : GI c' ∅.
  Proof.
    destruct HI as [i1 i2 i3 i4 i5 i6 i7 i8]. split; try done.
    - intros k' e'. rewrite dd_dirty. destruct (decide (k' = k)); [done|]. apply i2.
    - intros k' e' x _ Hk' Hx Ht. rewrite dd_dirty. change (readm c !! k' = Some e') in Hk'. destruct (decide (k' = k)) as [->|]; [congruence|]. eapply i5; try done; by rewrite Hd.
    - intros k' e' Hk'. rewrite dd_dirty. destruct (decide (k' = k)); [done|]. by apply i7.
  Qed.
  Lemma dd_Gu own : Gu own c h c' (h ++ [delete k m]).
  Proof.
    assert (Hh : h ++ [delete k m] = h \/ (exists m0, h ++ [delete k m] = h ++ [m0])) by (right; by exists (delete k m)).
    split; [done| | | | | | ].
    - intros e' k' z Hz. by exists z.
    - intros k' e' x Hk' Hx. by left.
    - done.
    - intros k' e' x Hk' Hx. rewrite dd_cur. destruct (decide (k' = k)) as [->|]; [|by left]. right. split.
      + eapply lt_here; [done|exact Hl|]. rewrite (Ha k). by rewrite (absval_cur c k e' x).
      + eapply lt_last; [done|by rewrite last_snoc|]. apply lookup_delete.
    - intros k' e' z z' Hk' Hz Hz'. left. change (heap c !! e' = Some (k', z')) in Hz'. congruence.
    - intros e' k' z Ho _ Hz. split; [|done]. intros k2. destruct (Ho k2). split; [done|]. rewrite dd_dirty. by destruct (decide (k2 = k)).
  Qed.
End ddel.
