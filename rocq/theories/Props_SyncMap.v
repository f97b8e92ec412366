(* Props_SyncMap.v -- C37: the concurrent map of server/sync behaves like a map. *)
From Verif Require Import GoBase SyncMapSpec SyncMapModel SyncMapProofs SyncMapSim.
Local Open Scope N_scope.

(* ---- 1. any number of goroutines, any schedule: every history of calls and returns is one of the atomic map *)
Theorem C37_linearizable : linearizable cstep c_init.
Proof.
  intros es c Hr. destruct (sim_run _ _ Hr) as (s & Hs & _). by apply (device_linearizable es s).
Qed.

(* ---- 2. no panic (a write to a nil map, an expunged entry met with the lock held), and only the holder unlocks *)
Theorem C37_no_panic es c : run cstep c_init es c ->
  forall t, cthr c !! t <> Some PBad /\ (forall q, cthr c !! t = Some (PUnl q) -> cmu c = Some t).
Proof.
  intros Hr t. destruct (sim_run _ _ Hr) as (s & _ & HR). pose proof (r_th _ _ HR t) as Ht. unfold thread_ok in Ht. split.
  - intros E. rewrite E in Ht. destruct (os_pend s !! t) as [[o n cr d]|]; [|done]. by destruct Ht as (_ & ? & _).
  - intros q E. rewrite E in Ht. destruct (os_pend s !! t) as [[o n cr d]|]; [|done]. destruct Ht as (_ & _ & HL). by apply HL.
Qed.

(* ---- 3. no deadlock: while a call is under way, some goroutine inside a call can move *)
Lemma cell_of c td k e : GI c td -> cur c k = Some e -> exists x, cell_at c e x.
Proof. intros HI Hc. destruct (cur_tag _ _ _ _ HI Hc) as [x Hx]. by exists x, k. Qed.
#[local] Instance cell_eq : EqDecision cell.
Proof. solve_decision. Defined.
Lemma act_store a : (exists v, a = AStore v) \/ (forall v, a <> AStore v).
Proof. destruct a; [left; by eexists|right; done|right; done]. Qed.
Lemma lmod_at lk c k e : lmod lk c k e -> exists x, cell_at c e x.
Proof. destruct lk; [intros (_ & (x & Hx & _) & _)|intros (x & Hx & _)]; by exists x, k. Qed.
Lemma movable c mi mu th h p t q o n cr d : R (mkConf c mi mu th) (mkOS h p) -> th !! t = Some q -> p !! t = Some (mkOP o n cr d) ->
  (forall i, q <> PLock i) -> exists ev c', cstep (mkConf c mi mu th) ev c' /\ forall t o, ev <> Some (EvCall t o).
Proof.
  intros HR Hq Hp Hnl. destruct (st_facts _ _ _ _ _ _ _ _ _ _ _ _ HR Hq Hp) as (m & _ & _ & _ & HT & _ & HG & (td & HI)).
  assert (HL : (exists c' q', lstep c q c' q') -> exists ev c', cstep (mkConf c mi mu th) ev c' /\ forall t o, ev <> Some (EvCall t o)).
  { intros (c' & q' & Hs). exists None, (mkConf c' mi mu (<[t := q']> th)). split; [by eapply c_local|done]. }
  destruct q as [k|k e|k|k e|k e w|a k|lk a k e|v k e x0|lk k e|lk a k e v|lk a k e v|i|i|a k e|a k todo|a k|k|k v r|q|q| |todo acc|r|]; cbn [TI] in HT.
  - apply HL. destruct (readm c !! k) as [e|] eqn:E; [do 2 eexists; by eapply s_load_read|]. destruct (amended c) eqn:E2; do 2 eexists; [by eapply s_load_dirty|by eapply s_load_none].
  - apply HL. destruct HT as (_ & _ & (x & Hx & _)). do 2 eexists. eapply s_load_e. by exists k.
  - apply HL. destruct (readm c !! k) as [e|] eqn:E; [do 2 eexists; by eapply s_del_read|]. destruct (amended c) eqn:E2; do 2 eexists; [by eapply s_del_dirty|by eapply s_del_none].
  - apply HL. assert (HX : exists x, cell_at c e x) by (destruct HT as (_ & [[_ (x & Hx & _)]|(v & Hv & _)]); [by exists x, k|by exists (Val v), k]).
    destruct HX as [[| |w] HX]; do 2 eexists; [by eapply s_del_gone|by eapply s_del_gone|by eapply s_del_val].
  - apply HL. do 2 eexists. eapply s_del_casf.
  - apply HL. destruct (readm c !! k) as [e|] eqn:E; do 2 eexists; [by eapply s_put_read|by eapply s_put_lock].
  - apply HL. destruct HT as (_ & _ & Hm). destruct (lmod_at _ _ _ _ Hm) as [x Hx].
    destruct (act_store a) as [[v ->]|Ha].
    + destruct lk as [miss|].
      * destruct Hx as [k' Hx]. do 2 eexists. by eapply s_store_locked.
      * destruct (decide (x = Exp)) as [->|Hne]; do 2 eexists; [by eapply s_store_exp|by eapply s_store_ok].
    + destruct x as [| |w]; [|do 2 eexists; by eapply s_try_exp|do 2 eexists; by eapply s_try_val].
      destruct a as [v|v|]; [by destruct (Ha v)|do 2 eexists; by eapply s_try_nil_los|do 2 eexists; by eapply s_try_nil_loc].
  - apply HL. do 2 eexists. eapply s_store_casf.
  - exists (Some (EvCreate t 0)). eexists. split; [eapply c_create; [done|constructor]|done].
  - apply HL. destruct HT as (_ & _ & Hm & _). destruct (lmod_at _ _ _ _ Hm) as [x Hx]. destruct (decide (x = Nil)) as [->|Hne].
    + destruct Hx as [k' Hx]. do 2 eexists. by eapply s_cas. + do 2 eexists. by eapply s_casf.
  - apply HL. destruct HT as (_ & _ & Hm & _). destruct (lmod_at _ _ _ _ Hm) as [[| |w] Hx]; do 2 eexists; [by eapply s_re_nil|by eapply s_re_exp|by eapply s_re_val].
  - by destruct (Hnl i).
  - destruct i as [k|k|a k|].
    + apply HL. destruct (readm c !! k) as [e|] eqn:E; [do 2 eexists; by eapply s_load_in_read|]. destruct (amended c) eqn:E2; [|do 2 eexists; by eapply s_load_in_none].
      destruct (dirty_get c k) as [e|] eqn:E3; do 2 eexists; [by eapply s_load_in_dirty|by eapply s_load_in_nodirty].
    + apply HL. destruct (readm c !! k) as [e|] eqn:E; [do 2 eexists; by eapply s_del_in_read|]. destruct (amended c) eqn:E2; [|do 2 eexists; by eapply s_del_in_none].
      destruct (dirty_get c k) as [e|] eqn:E3; [|do 2 eexists; by eapply s_del_in_nodirty]. unfold dirty_get in E3. destruct (dirty c) as [d0|] eqn:E4; [|done].
      do 2 eexists. by eapply s_del_in_dirty.
    + apply HL. destruct (readm c !! k) as [e|] eqn:E; [do 2 eexists; by eapply s_in_read|]. destruct (dirty_get c k) as [e|] eqn:E3; [do 2 eexists; by eapply s_in_dirty|].
      destruct (amended c) eqn:E2; [do 2 eexists; by eapply s_in_new|]. destruct (dirty c) as [d0|] eqn:E4; do 2 eexists; [by eapply s_in_nocopy|by eapply s_in_copy].
    + destruct (amended c) eqn:E2.
      * exists None. eexists. split; [by eapply c_range_promote|done].
      * apply HL. do 2 eexists. by eapply s_range_in_clean.
  - apply HL. destruct HT as (_ & _ & Hr). destruct (gi_read _ _ HI _ _ Hr) as [x Hx]. destruct (decide (x = Exp)) as [->|Hne].
    + destruct (dirty c) as [d0|] eqn:E; do 2 eexists; [by eapply s_unexp|eapply s_unexp_panic; [by exists k|done]].
    + do 2 eexists. eapply s_unexp_no; [by exists k|done].
  - apply HL. specialize (HG eq_refl). cbn in HG. destruct (decide (todo = ∅)) as [->|Hne]; [do 2 eexists; eapply s_copy_end|].
    apply map_choose in Hne. destruct Hne as (k' & e & Hk). destruct (cp_facts _ _ _ _ HG Hk) as (_ & _ & [d0 Hd] & _ & ([| |w] & Hx & Hne) & _); [|done|].
    + do 2 eexists. by eapply s_copy_nil. + do 2 eexists. eapply s_copy_val; [done|by exists k'|done].
  - apply HL. do 2 eexists. eapply s_amend.
  - exists (Some (EvCreate t 0)). eexists. split; [eapply c_create; [done|constructor]|done].
  - apply HL. destruct (dirty c) as [d0|] eqn:E; do 2 eexists; [|by eapply s_ins_panic]. eapply (s_ins _ _ _ _ (fresh (dom (heap c)))); [|done].
    apply not_elem_of_dom. apply is_fresh.
  - exists None. destruct (decide (S mi < dirty_size c)%nat) as [Hlt|Hge]; eexists; (split; [|done]); [by eapply c_miss|eapply c_miss_promote; [done|lia]].
  - exists None. eexists. split; [by eapply c_unlock|done].
  - apply HL. destruct (amended c) eqn:E; do 2 eexists; [by eapply s_range_lock|by eapply s_range_clean].
  - apply HL. destruct HT as (_ & _ & HH & _). destruct (decide (todo = ∅)) as [->|Hne]; [do 2 eexists; eapply s_range_end|].
    apply map_choose in Hne. destruct Hne as (k' & e & Hk). destruct (HH _ _ Hk) as (x & Hx & _). destruct x as [| |w]; do 2 eexists.
    + eapply s_range_gone; [done|by exists k'|done]. + eapply s_range_gone; [done|by exists k'|done]. + eapply s_range_val; [done|by exists k'].
  - exists (Some (EvRet t r)). eexists. split; [by eapply c_ret|done].
  - done.
Qed.
Theorem C37_no_deadlock es c : run cstep c_init es c -> cthr c <> ∅ ->
  exists ev c', cstep c ev c' /\ forall t o, ev <> Some (EvCall t o).
Proof.
  intros Hr Hne. destruct (sim_run _ _ Hr) as ([h p] & _ & HR). destruct c as [c mi mu th]. cbn in Hne.
  assert (Hgo : forall t q, th !! t = Some q -> (forall i, q <> PLock i) -> exists ev c', cstep (mkConf c mi mu th) ev c' /\ forall t o, ev <> Some (EvCall t o)).
  { intros t q Hq Hnl. pose proof (r_th _ _ HR t) as Ht. cbn in Ht. rewrite Hq in Ht. destruct (p !! t) as [[o n cr d]|] eqn:EP; [|done]. by eapply movable. }
  destruct mu as [t|].
  - destruct (r_mu _ _ HR t eq_refl) as (q & Hq & Hl). eapply Hgo; [exact Hq|]. by intros i ->.
  - apply map_choose in Hne. destruct Hne as (t & q & Hq). destruct q as [| | | | | | | | | | |i| | | | | | | | | | | |]; try (by eapply Hgo).
    exists None, (mkConf c mi (Some t) (<[t := PIn i]> th)). split; [by apply c_lock|done].
Qed.

(* ---- 4. the calls one after the other: the plain map *)
Definition opencall (es : list event) : option (tid * op * list V) :=
  fold_left (fun x e => match e with
    | EvCall t o => Some (t, o, [])
    | EvCreate t v => match x with Some (t', o, cr) => Some (t', o, cr ++ [v]) | None => None end
    | EvRet _ _ => None end) es None.
(* no call before the one under way has returned *)
Definition serial (es : list event) : Prop := forall es1 t o es2, es = es1 ++ EvCall t o :: es2 -> opencall es1 = None.

Inductive plain : list event -> kvmap -> option (tid * op * list V) -> Prop :=
  | pl_nil : plain [] ∅ None
  | pl_call es m t o : plain es m None -> plain (es ++ [EvCall t o]) m (Some (t, o, []))
  | pl_create es m t o cr v : plain es m (Some (t, o, cr)) -> plain (es ++ [EvCreate t v]) m (Some (t, o, cr ++ [v]))
  | pl_ret es m t o cr r m' : plain es m (Some (t, o, cr)) -> sem o cr m r m' -> plain (es ++ [EvRet t r]) m' None
  | pl_range es m t cr l b : plain es m (Some (t, ORange, cr)) ->
      NoDup l.*1 -> (forall k v, (k, v) ∈ l -> m !! k = Some v) -> (b = true -> forall k v, m !! k = Some v -> (k, v) ∈ l) ->
      plain (es ++ [EvRet t (RRange l b)]) m None.

Lemma serial_prefix es es' : serial (es ++ es') -> serial es.
Proof. intros Hs es1 t o es2 ->. eapply (Hs es1 t o (es2 ++ es')). by rewrite <- app_assoc. Qed.
Lemma opencall_snoc es e : opencall (es ++ [e]) = match e with
    | EvCall t o => Some (t, o, [])
    | EvCreate t v => match opencall es with Some (t', o, cr) => Some (t', o, cr ++ [v]) | None => None end
    | EvRet _ _ => None end.
Proof. unfold opencall. by rewrite fold_left_app. Qed.

Definition pmatch (es : list event) (m : kvmap) (x : option (tid * op * list V)) (a : sstate) : Prop :=
  opencall es = x /\
  match x with
  | None => ss_pend a = ∅ /\ last (ss_hist a) = Some m
  | Some (t, o, cr) => exists n d, ss_pend a = {[t := mkSP o n cr d]} /\
      match d with
      | None => last (ss_hist a) = Some m /\ n = pred (length (ss_hist a))
      | Some r => exists m1, sem o cr m r m1 /\ last (ss_hist a) = Some m1
      end
  end.
Lemma drop_last (h : list kvmap) m : last h = Some m -> drop (pred (length h)) h = [m].
Proof.
  intros Hl. apply last_Some in Hl. destruct Hl as [l ->]. rewrite app_length. cbn. replace (pred (length l + 1)) with (length l) by lia. apply drop_app.
Qed.
Lemma plain_sound es a : run astep ss_init es a -> serial es -> exists m x, plain es m x /\ pmatch es m x a.
Proof.
  remember ss_init as a0. intros Hr. induction Hr as [a0|a0 es a1 ev a2 Hr IH Hs]; subst; intros Hser.
  { exists ∅, None. split; [constructor|]. by split. }
  destruct (IH eq_refl (serial_prefix _ _ Hser)) as (m & x & HP & HO & HM). clear IH.
  inversion Hs; subst; cbn [ss_pend ss_hist] in *; rewrite ?app_nil_r.
  - (* call *) assert (HN : opencall es = None) by (by eapply (Hser es t o [])). rewrite HN in *. destruct HM as [-> Hl].
    exists m, (Some (t, o, [])). split; [by apply pl_call|]. split; [by rewrite opencall_snoc|]. exists (pred (length h)), None. split; [by rewrite insert_empty|done].
  - (* create *) destruct (opencall es) as [[[t0 o0] cr0]|] eqn:EO; [|destruct HM as [-> _]; by rewrite lookup_empty in H].
    destruct HM as (n0 & d0 & -> & HM). apply lookup_singleton_Some in H. destruct H as [<- [= <- <- <- <-]].
    exists m, (Some (t0, o0, cr0 ++ [v])). split; [by apply pl_create|]. split; [by rewrite opencall_snoc, EO|].
    exists n0, d0. split; [by rewrite insert_singleton|]. destruct d0 as [r|]; [|done]. destruct HM as (m1 & Hsm & Hl). exists m1. split; [|done]. by apply sem_more.
  - (* write *) destruct (opencall es) as [[[t0 o0] cr0]|] eqn:EO; [|destruct HM as [-> _]; by rewrite lookup_empty in H].
    destruct HM as (n0 & d0 & -> & HM). apply lookup_singleton_Some in H. destruct H as [<- [= <- <- <- ->]]. destruct HM as [Hl ->].
    exists m, (Some (t0, o0, cr0)). split; [done|]. split; [done|]. exists (pred (length h)), (Some r). split; [by rewrite insert_singleton|].
    exists m'. assert (m0 = m) as -> by congruence. split; [done|apply last_snoc].
  - (* read *) destruct (opencall es) as [[[t0 o0] cr0]|] eqn:EO; [|destruct HM as [-> _]; by rewrite lookup_empty in H].
    destruct HM as (n0 & d0 & -> & HM). apply lookup_singleton_Some in H. destruct H as [<- [= <- <- <- ->]]. destruct HM as [Hl ->].
    exists m, (Some (t0, o0, cr0)). split; [done|]. split; [done|]. exists (pred (length h)), (Some r). split; [by rewrite insert_singleton|].
    exists m. assert (m0 = m) as -> by congruence. done.
  - (* ret *) destruct (opencall es) as [[[t0 o0] cr0]|] eqn:EO; [|destruct HM as [-> _]; by rewrite lookup_empty in H].
    destruct HM as (n0 & d0 & -> & HM). apply lookup_singleton_Some in H. destruct H as [<- [= <- <- <- ->]]. destruct HM as (m1 & Hsm & Hl).
    exists m1, None. split; [by eapply pl_ret|]. split; [by rewrite opencall_snoc|]. split; [by rewrite delete_singleton|done].
  - (* range *) destruct (opencall es) as [[[t0 o0] cr0]|] eqn:EO; [|destruct HM as [-> _]; by rewrite lookup_empty in H].
    destruct HM as (n0 & d0 & -> & HM). apply lookup_singleton_Some in H. destruct H as [<- [= -> <- <- ->]]. destruct HM as [Hl ->].
    rewrite (drop_last _ _ Hl) in H0. destruct H0 as (H1 & H2 & H3).
    assert (H2' : forall k v, (k, v) ∈ l -> m !! k = Some v).
    { intros k v Hk. destruct (H2 k v Hk) as (m0 & Hm0 & ?). apply elem_of_list_singleton in Hm0. by subst m0. }
    exists m, None. split.
    + eapply pl_range; try done. intros Hb k v Hk. assert (Hin : k ∈ l.*1).
      { apply H3; [done|]. intros m0 Hm0. apply elem_of_list_singleton in Hm0. subst m0. by rewrite Hk. }
      apply elem_of_list_fmap in Hin. destruct Hin as ([k' v'] & -> & Hin). cbn in *. pose proof (H2' _ _ Hin). assert (v' = v) as -> by congruence. done.
    + split; [by rewrite opencall_snoc|]. split; [by rewrite delete_singleton|done].
Qed.
Theorem C37_sequential es c : run cstep c_init es c -> serial es -> exists m x, plain es m x.
Proof.
  intros Hr Hs. destruct (C37_linearizable _ _ Hr) as [a Ha]. destruct (plain_sound _ _ Ha Hs) as (m & x & HP & _). by exists m, x.
Qed.

(* ---- 5. the constructor of LoadOrCreate *)
(* with no other goroutine about it runs just when the value is not there *)
Definition ranonce (cr : list V) (r : res) : Prop :=
  (exists w, r = RPair w true /\ cr = []) \/ (exists v, r = RPair v false /\ cr = [v]).
Definition SI (c : core) (q : pc) (cr : list V) : Prop :=
  match q with
  | PPut0 ALoc _ | PTry _ ALoc _ _ | PLock (IPut ALoc _) | PIn (IPut ALoc _) | PUnexp ALoc _ _ | PCopy ALoc _ _ | PAmend ALoc _ | PMkI _ => cr = []
  | PMk _ _ e => cell_at c e Nil /\ cr = []
  | PCasN _ ALoc _ e v => cell_at c e Nil /\ cr = [v]
  | PIns _ v r => r = RPair v false /\ cr = [v]
  | PMiss (PRet r) | PUnl (PRet r) | PRet r => ranonce cr r
  | PBad => True
  | _ => False
  end.
Lemma cell_fun c e x y : cell_at c e x -> cell_at c e y -> x = y.
Proof. intros [k Hk] [k' Hk']. congruence. Qed.
Lemma SI_fin c lk r cr : ranonce cr r -> SI c (fin lk r) cr.
Proof. by destruct lk as [[|]|]. Qed.
Lemma SI_local c q c' q' cr : lstep c q c' q' -> SI c q cr -> SI c' q' cr.
Proof.
  intros Hs HS. inversion Hs; subst; clear Hs; cbn [SI] in HS; try done; try (destruct a; done); try (by destruct a, lk).
  - destruct a; try done. apply SI_fin. subst. left. by exists w.
  - destruct a; try done. destruct HS as [_ ->]. apply SI_fin. right. by exists v.
  - exfalso. destruct a; try done. destruct HS as [HN _]. pose proof (cell_fun _ _ _ _ H HN). done.
  - cbn. destruct HS as [-> ->]. right. by exists v.
Qed.
Definition SQ (es : list event) (c : conf) : Prop :=
  match opencall es with
  | None => cthr c = ∅
  | Some (t, o, cr) => exists q, cthr c = {[t := q]} /\ forall k, o = OLoadOrCreate k -> SI (cco c) q cr
  end.
Lemma SQ_run es c : run cstep c_init es c -> serial es -> SQ es c.
Proof.
  remember c_init as c0. intros Hr. induction Hr as [c0|c0 es c1 ev c2 Hr IH Hs]; subst; intros Hser; [done|].
  pose proof (IH eq_refl (serial_prefix _ _ Hser)) as HQ. clear IH. unfold SQ in HQ.
  assert (HP : (exists t o, ev = Some (EvCall t o)) \/ forall t q, cthr c1 !! t = Some q -> exists o cr, opencall es = Some (t, o, cr) /\ cthr c1 = {[t := q]} /\ forall k, o = OLoadOrCreate k -> SI (cco c1) q cr).
  { right. intros t q Hq. destruct (opencall es) as [[[t0 o0] cr0]|]; [|rewrite HQ in Hq; by rewrite lookup_empty in Hq].
    destruct HQ as (q0 & E & HS). rewrite E in Hq. apply lookup_singleton_Some in Hq. destruct Hq as [<- <-]. by exists o0, cr0. }
  assert (HP' : forall t q, cthr c1 !! t = Some q -> exists o cr, opencall es = Some (t, o, cr) /\ cthr c1 = {[t := q]} /\ forall k, o = OLoadOrCreate k -> SI (cco c1) q cr).
  { intros t q Hq. destruct (opencall es) as [[[t0 o0] cr0]|]; [|rewrite HQ in Hq; by rewrite lookup_empty in Hq].
    destruct HQ as (q0 & E & HS). rewrite E in Hq. apply lookup_singleton_Some in Hq. destruct Hq as [<- <-]. by exists o0, cr0. }
  clear HP. unfold SQ. inversion Hs; subst; cbn [cthr cco] in *; rewrite ?app_nil_r, ?opencall_snoc.
  - (* call *) assert (HN : opencall es = None) by (by eapply (Hser es t o [])). rewrite HN in HQ. subst th. exists (start o). split; [by rewrite insert_empty|].
    intros k ->. done.
  - destruct (HP' _ _ H) as (o & cr & -> & -> & HS). exists q'. split; [by rewrite insert_singleton|]. intros k Hk. eapply SI_local; [done|]. by eapply HS.
  - destruct (HP' _ _ H) as (o & cr & -> & -> & HS). exists q'. split; [by rewrite insert_singleton|]. intros k Hk. specialize (HS k Hk).
    inversion H0; subst; cbn [SI] in HS |- *.
    + by destruct HS as [? ->]. + by subst cr.
  - destruct (HP' _ _ H) as (o & cr & -> & -> & HS). exists (PIn i). split; [by rewrite insert_singleton|]. intros k Hk. specialize (HS k Hk). cbn in HS. by destruct i as [| |[]|].
  - destruct (HP' _ _ H) as (o & cr & -> & -> & HS). exists q. split; [by rewrite insert_singleton|]. intros k Hk. specialize (HS k Hk). cbn in HS. by destruct q.
  - destruct (HP' _ _ H) as (o & cr & -> & -> & HS). exists (PUnl q). split; [by rewrite insert_singleton|]. intros k Hk. specialize (HS k Hk). cbn in HS. by destruct q.
  - destruct (HP' _ _ H) as (o & cr & -> & -> & HS). exists (PUnl q). split; [by rewrite insert_singleton|]. intros k Hk. specialize (HS k Hk). cbn in HS. by destruct q.
  - destruct (HP' _ _ H) as (o & cr & -> & -> & HS). eexists. split; [by rewrite insert_singleton|]. intros k Hk. by specialize (HS k Hk).
  - destruct (HP' _ _ H) as (o & cr & Ho & -> & HS). by rewrite delete_singleton.
Qed.
Theorem C37_constructor_sequential es c t k cr r : run cstep c_init (es ++ [EvRet t r]) c -> serial (es ++ [EvRet t r]) ->
  opencall es = Some (t, OLoadOrCreate k, cr) ->
  (exists w, r = RPair w true /\ cr = []) \/ (exists v, r = RPair v false /\ cr = [v]).
Proof.
  intros Hr Hser Ho. remember (es ++ [EvRet t r]) as es' eqn:E. remember c_init as c0. revert E.
  induction Hr as [c0|c0 es0 c1 ev c2 Hr IH Hs]; intros E; subst; [by destruct es|].
  destruct ev as [ev|]; [|rewrite app_nil_r in E, Hser; subst es0; by eapply IH].
  apply app_inj_tail in E. destruct E as [-> ->]. pose proof (SQ_run _ _ Hr (serial_prefix _ _ Hser)) as HQ. unfold SQ in HQ. rewrite Ho in HQ.
  destruct HQ as (q & Hq & HS). inversion Hs; subst. cbn in *. subst th. rewrite lookup_singleton in H3. injection H3 as ->. by apply (HS k).
Qed.

(* ... and in general at most twice in one call *)
Definition created_in (es : list event) (t : tid) : nat :=
  fold_left (fun n e => match e with
    | EvCall t' _ => if decide (t' = t) then 0%nat else n
    | EvCreate t' _ => if decide (t' = t) then S n else n
    | EvRet _ _ => n end) es 0%nat.
Fixpoint bound (q : pc) : nat :=
  match q with
  | PLoad0 _ | PDel0 _ | PR0 | PPut0 _ _ | PTry None _ _ _ | PCasS _ _ _ _ | PMk None _ _ => 0
  | PCasN None _ _ _ _ | PRe None _ _ _ _ | PLock _ | PIn _ | PTry (Some _) _ _ _ | PMk (Some _) _ _ | PUnexp _ _ _ | PCopy _ _ _ | PAmend _ _ | PMkI _ => 1
  | PMiss q | PUnl q => bound q
  | _ => 2
  end%nat.
Lemma created_snoc es e t : created_in (es ++ [e]) t = match e with
    | EvCall t' _ => if decide (t' = t) then 0%nat else created_in es t
    | EvCreate t' _ => if decide (t' = t) then S (created_in es t) else created_in es t
    | EvRet _ _ => created_in es t end.
Proof. unfold created_in. rewrite fold_left_app. by destruct e. Qed.
Lemma bound_local c q c' q' : lstep c q c' q' -> (bound q <= bound q')%nat.
Proof. intros Hs. inversion Hs; subst; cbn; try lia; repeat match goal with |- context [match ?x with _ => _ end] => destruct x; cbn; try lia end;
  try (destruct lk as [[|]|]; cbn; lia); try (destruct a; cbn; lia). Qed.
Lemma bound_le q : (bound q <= 2)%nat.
Proof. induction q; cbn; try lia; repeat match goal with |- context [match ?x with _ => _ end] => destruct x; cbn; try lia end. Qed.
Lemma bound_run es c : run cstep c_init es c -> forall t, (created_in es t <= 2)%nat /\ forall q, cthr c !! t = Some q -> (created_in es t <= bound q)%nat.
Proof.
  remember c_init as c0. intros Hr. induction Hr as [c0|c0 es c1 ev c2 Hr IH Hs]; subst; intros t; [split; [cbn; lia|]; cbn; intros q; by rewrite lookup_empty|].
  specialize (IH eq_refl).
  assert (Hgo : forall th t0 q q', cthr c1 = th -> th !! t0 = Some q -> (bound q <= bound q')%nat ->
    (created_in es t <= 2)%nat /\ forall q0, <[t0 := q']> th !! t = Some q0 -> (created_in es t <= bound q0)%nat).
  { intros th t0 q q' Eth Hq Hle. destruct (IH t) as [H1 H2]. split; [done|]. intros q0. destruct (decide (t0 = t)) as [->|Hne]; [rewrite lookup_insert|rewrite lookup_insert_ne by done].
    - intros [= <-]. rewrite Eth in H2. specialize (H2 _ Hq). lia. - rewrite <- Eth. apply H2. }
  inversion Hs; subst; cbn [cthr] in *; rewrite ?app_nil_r, ?created_snoc.
  - destruct (IH t) as [H1 H2]. destruct (decide (t0 = t)) as [->|Hne].
    + split; [lia|]. intros q _. lia. + split; [done|]. intros q. rewrite lookup_insert_ne by done. apply H2.
  - eapply Hgo; [done|exact H|by eapply bound_local].
  - destruct (IH t) as [H1 H2]. destruct (decide (t0 = t)) as [->|Hne].
    + rewrite lookup_insert. specialize (H2 _ H). assert (HB : (S (bound q) <= bound q')%nat) by (inversion H0; subst; cbn; [destruct lk; lia|lia]).
      pose proof (bound_le q'). split; [lia|]. intros q0 [= <-]. lia.
    + split; [done|]. intros q0. rewrite lookup_insert_ne by done. apply H2.
  - eapply Hgo; [done|exact H|done].
  - eapply Hgo; [done|exact H|done].
  - eapply Hgo; [done|exact H|done].
  - eapply Hgo; [done|exact H|done].
  - eapply Hgo; [done|exact H|]. cbn. lia.
  - destruct (IH t) as [H1 H2]. split; [done|]. intros q0 Hq0. apply lookup_delete_Some in Hq0. destruct Hq0 as [_ Hq0]. by apply H2.
Qed.
Theorem C37_constructor_at_most_twice es c t : run cstep c_init es c -> (created_in es t <= 2)%nat.
Proof. intros Hr. by destruct (bound_run _ _ Hr t). Qed.

(* a concrete history in which it runs although the call then reports that the value was there: the key was deleted, the
   call creates, and another goroutine stores first *)
Ltac go c := match goal with HR : run cstep _ _ _ |- _ => eapply (run_snoc cstep) in HR; [|c]; cbn [app] in HR end.
Ltac fact := try done; try (vm_compute; reflexivity); try (eexists; vm_compute; reflexivity).
Tactic Notation "loc" constr(t) uconstr(c) := go ltac:(eapply (c_local _ _ _ _ t); [vm_compute; reflexivity|eapply c; fact]).
Tactic Notation "stp" uconstr(c) := go ltac:(eapply c; fact).
Lemma s_range_end_eq c (todo : gmap K eid) acc : map_to_list todo = [] -> lstep c (PRIter todo acc) c (PRet (RRange acc true)).
Proof. intros E. apply map_to_list_empty_iff in E as ->. constructor. Qed.
Definition e37 : list event :=
  [EvCall 1 (OStore 5 10); EvRet 1 RUnit; EvCall 1 ORange; EvRet 1 (RRange [(5, 10)] true); EvCall 1 (OLoadAndDelete 5); EvRet 1 (ROpt (Some 10));
   EvCall 1 (OLoadOrCreate 5); EvCreate 1 77; EvCall 2 (OStore 5 42); EvRet 2 RUnit; EvRet 1 (RPair 42 true)].
Theorem C37_constructor_refuted : exists c, run cstep c_init e37 c.
Proof.
  pose proof (run_nil cstep c_init) as HR. unfold c_init in HR at 2.
  stp (c_call _ _ _ _ 1%nat (OStore 5 10)). loc 1%nat s_put_lock. stp (c_lock _ _ _ 1%nat). loc 1%nat s_in_copy. loc 1%nat s_copy_end. loc 1%nat s_amend.
  loc 1%nat (s_ins _ _ _ _ 0%nat). stp (c_unlock _ _ _ _ 1%nat). stp (c_ret _ _ _ _ 1%nat).
  stp (c_call _ _ _ _ 1%nat ORange). loc 1%nat s_range_lock. stp (c_lock _ _ _ 1%nat). stp (c_range_promote _ _ _ _ 1%nat). stp (c_unlock _ _ _ _ 1%nat).
  loc 1%nat (s_range_val _ _ _ 5). loc 1%nat s_range_end_eq. stp (c_ret _ _ _ _ 1%nat).
  stp (c_call _ _ _ _ 1%nat (OLoadAndDelete 5)). loc 1%nat s_del_read. loc 1%nat s_del_val. loc 1%nat s_del_cas. stp (c_ret _ _ _ _ 1%nat).
  stp (c_call _ _ _ _ 1%nat (OLoadOrCreate 5)). loc 1%nat s_put_read. loc 1%nat s_try_nil_loc. 
  go ltac:(eapply (c_create _ _ _ _ 1%nat _ _ 77); [vm_compute; reflexivity|constructor]).
  stp (c_call _ _ _ _ 2%nat (OStore 5 42)). loc 2%nat s_put_read. loc 2%nat (s_store_ok _ _ _ _ Nil). loc 2%nat s_store_cas. stp (c_ret _ _ _ _ 2%nat).
  loc 1%nat (s_casf _ _ _ _ _ _ (Val 42)). loc 1%nat s_re_val. stp (c_ret _ _ _ _ 1%nat).
  eexists. exact HR.
Qed.

(* ... and one in which it runs twice: meanwhile the entry was expunged because another goroutine added a key *)
Lemma s_copy_end_eq c a k (todo : gmap K eid) : map_to_list todo = [] -> lstep c (PCopy a k todo) c (PAmend a k).
Proof. intros E. apply map_to_list_empty_iff in E as ->. constructor. Qed.
Definition e37_twice : list event :=
  [EvCall 1 (OStore 5 10); EvRet 1 RUnit; EvCall 1 ORange; EvRet 1 (RRange [(5, 10)] true); EvCall 1 (OLoadAndDelete 5); EvRet 1 (ROpt (Some 10));
   EvCall 1 (OLoadOrCreate 5); EvCreate 1 77; EvCall 2 (OStore 6 42); EvRet 2 RUnit; EvCreate 1 78; EvRet 1 (RPair 78 false)].
Theorem C37_constructor_twice : exists c, run cstep c_init e37_twice c.
Proof.
  pose proof (run_nil cstep c_init) as HR. unfold c_init in HR at 2.
  stp (c_call _ _ _ _ 1%nat (OStore 5 10)). loc 1%nat s_put_lock. stp (c_lock _ _ _ 1%nat). loc 1%nat s_in_copy. loc 1%nat s_copy_end. loc 1%nat s_amend.
  loc 1%nat (s_ins _ _ _ _ 0%nat). stp (c_unlock _ _ _ _ 1%nat). stp (c_ret _ _ _ _ 1%nat).
  stp (c_call _ _ _ _ 1%nat ORange). loc 1%nat s_range_lock. stp (c_lock _ _ _ 1%nat). stp (c_range_promote _ _ _ _ 1%nat). stp (c_unlock _ _ _ _ 1%nat).
  loc 1%nat (s_range_val _ _ _ 5). loc 1%nat s_range_end_eq. stp (c_ret _ _ _ _ 1%nat).
  stp (c_call _ _ _ _ 1%nat (OLoadAndDelete 5)). loc 1%nat s_del_read. loc 1%nat s_del_val. loc 1%nat s_del_cas. stp (c_ret _ _ _ _ 1%nat).
  stp (c_call _ _ _ _ 1%nat (OLoadOrCreate 5)). loc 1%nat s_put_read. loc 1%nat s_try_nil_loc.
  go ltac:(eapply (c_create _ _ _ _ 1%nat _ _ 77); [vm_compute; reflexivity|constructor]).
  stp (c_call _ _ _ _ 2%nat (OStore 6 42)). loc 2%nat s_put_lock. stp (c_lock _ _ _ 2%nat). loc 2%nat s_in_copy. loc 2%nat (s_copy_nil _ _ _ _ 5). loc 2%nat s_copy_end_eq.
  loc 2%nat s_amend. loc 2%nat (s_ins _ _ _ _ 1%nat). stp (c_unlock _ _ _ _ 2%nat). stp (c_ret _ _ _ _ 2%nat).
  loc 1%nat (s_casf _ _ _ _ _ _ Exp). loc 1%nat s_re_exp. stp (c_lock _ _ _ 1%nat). loc 1%nat s_in_read. loc 1%nat s_unexp. loc 1%nat s_try_nil_loc.
  go ltac:(eapply (c_create _ _ _ _ 1%nat _ _ 78); [vm_compute; reflexivity|constructor]).
  loc 1%nat s_cas. stp (c_unlock _ _ _ _ 1%nat). stp (c_ret _ _ _ _ 1%nat).
  eexists. exact HR.
Qed.
