(* SyncMapSim.v -- each step of the concurrent map is a step of the device of SyncMapSpec. *)
From Verif Require Import GoBase SyncMapSpec SyncMapModel SyncMapProofs.
Local Open Scope N_scope.

Definition todopc (q : pc) : gmap K eid := match q with PCopy _ _ td => td | _ => ∅ end.
Definition todo_of (mu : option tid) (th : gmap tid pc) : gmap K eid :=
  match mu with Some t => match th !! t with Some q => todopc q | None => ∅ end | None => ∅ end.
Definition thread_ok (c : core) (mu : option tid) (h : list kvmap) (t : tid) (x : option pc) (y : option opend) : Prop :=
  match x, y with
  | None, None => True
  | Some q, Some (mkOP o n cr d) => (n < length h)%nat /\ TI c h q o n cr d /\ (locked q = true -> mu = Some t)
  | _, _ => False
  end.
Record R (c : conf) (s : ostate) : Prop := {
  r_m : exists m, last (os_hist s) = Some m /\ abs m (cco c);
  r_gi : GI (cco c) (todo_of (cmu c) (cthr c));
  r_th : forall t, thread_ok (cco c) (cmu c) (os_hist s) t (cthr c !! t) (os_pend s !! t);
  r_mu : forall t, cmu c = Some t -> exists q, cthr c !! t = Some q /\ locked q = true;
  r_own : forall t1 t2 q1 q2 P1 P2 e, cthr c !! t1 = Some q1 -> cthr c !! t2 = Some q2 -> os_pend s !! t1 = Some P1 -> os_pend s !! t2 = Some P2 ->
            owned q1 (op_eff P1) e -> owned q2 (op_eff P2) e -> t1 = t2
}.

Lemma owned_out c h q o n cr d e : TI c h q o n cr d -> owned q d e -> Out c e.
Proof.
  intros HT [Hd Ho]. destruct q as [| | |k e'|k e' w| |[|] | |[|] |[|] |[|] | | | | | | | |q|q| |todo acc|r|]; try done; try (destruct q; try done); cbn [TI] in HT; subst.
  - destruct HT as (_ & [[-> _]|(v & _ & ? & _)]); done.
  - destruct HT as (_ & [[-> _]|(v & _ & ? & _)]); done.
  - destruct HT as (_ & _ & _ & [[-> _]|(v & _ & ? & _)]); done.
  - destruct HT as (_ & _ & [[-> _]|(v & _ & ? & _)]); done.
Qed.

Section step.
  Context (c : core) (mi : nat) (mu : option tid) (th : gmap tid pc) (h : list kvmap) (p : gmap tid opend).
  Context (t : tid) (q : pc) (o : op) (n : nat) (cr : list V) (d : option res).
  Hypothesis (HR : R (mkConf c mi mu th) (mkOS h p)) (Hq : th !! t = Some q) (Hp : p !! t = Some (mkOP o n cr d)).

  Lemma st_facts : exists m, last h = Some m /\ abs m c /\ (n < length h)%nat /\ TI c h q o n cr d /\ (locked q = true -> mu = Some t) /\
    (locked q = true -> GI c (todopc q)) /\ exists td, GI c td.
  Proof.
    destruct HR as [(m & Hm & Ha) r2 r3 _ _]. cbn in *. exists m. specialize (r3 t). rewrite Hq, Hp in r3. destruct r3 as (Hn & HT & Hl).
    split; [done|]. split; [done|]. split; [done|]. split; [done|]. split; [done|]. split; [|eauto].
    intros E. specialize (Hl E). subst mu. cbn in r2. by rewrite Hq in r2.
  Qed.
  Lemma st_mu : locked q = false -> mu <> Some t.
  Proof. intros E ->. destruct (r_mu _ _ HR t eq_refl) as (q0 & H1 & H2). cbn in H1. congruence. Qed.

  Lemma R_step c' mi' mu' q' h' cr' d' m' :
    Gu (owned q d) c h c' h' -> last h' = Some m' -> abs m' c' ->
    TI c' h' q' o n cr' d' ->
    (locked q' = true <-> mu' = Some t) ->
    (mu = Some t \/ quiet c c') ->
    (mu' = mu \/ (mu = None /\ mu' = Some t) \/ (mu = Some t /\ mu' = None)) ->
    (forall e, owned q' d' e -> owned q d e \/ ~ Out c e) ->
    GI c' (todo_of mu' (<[t := q']> th)) ->
    R (mkConf c' mi' mu' (<[t := q']> th)) (mkOS h' (<[t := mkOP o n cr' d']> p)).
  Proof.
    intros HGu Hl Ha HT Hlk Hqt Hmu Hown HGI. pose proof st_facts as (m & Hm & _ & Hn & HTq & Hlq & _).
    assert (Hlen : (length h <= length h')%nat) by (destruct (gu_hist _ _ _ _ _ HGu) as [-> | [? ->]]; [done|rewrite app_length; lia]).
    destruct HR as [_ _ r3 r4 r5]. cbn in *. split; cbn.
    - by exists m'.
    - done.
    - intros t2. destruct (decide (t2 = t)) as [->|Hne].
      + rewrite !lookup_insert. cbn. split; [lia|]. split; [done|]. by apply Hlk.
      + rewrite !lookup_insert_ne by done. pose proof (r3 t2) as H2. destruct (th !! t2) as [q2|] eqn:E2, (p !! t2) as [[o2 n2 cr2 d2]|] eqn:E3; cbn in *; try done.
        destruct H2 as (Hn2 & HT2 & Hl2). split; [lia|].
        assert (HO : forall e, owned q2 d2 e -> ~ owned q d e).
        { intros e He1 He2. apply Hne. eapply (r5 t2 t q2 q (mkOP o2 n2 cr2 d2) (mkOP o n cr d)); eauto. }
        assert (Hmu2 : locked q2 = true -> mu' = Some t2).
        { intros E. specialize (Hl2 E). subst mu. destruct Hmu as [->|[[? ?]|[? ?]]]; [done|congruence|congruence]. }
        split; [|done]. destruct Hqt as [->|Hqt]; [|by eapply TI_quiet_st].
        assert (locked q2 = false) by (destruct (locked q2) eqn:E; [|done]; specialize (Hl2 eq_refl); congruence).
        eapply TI_free_st; [done|done| |done|done]. by destruct q2 as [| | |k2 e2|k2 e2 w| |[|] | |[|] |[|] |[|] | | | | | | | | | | |todo acc|r|].
    - intros t2 E. destruct (decide (t2 = t)) as [->|Hne].
      + exists q'. rewrite lookup_insert. split; [done|]. by apply Hlk.
      + rewrite lookup_insert_ne by done. destruct Hmu as [->|[[? ?]|[? ?]]]; [by apply r4|congruence|congruence].
    - assert (Hnew : forall t2 q2 P2 e, t2 <> t -> th !! t2 = Some q2 -> p !! t2 = Some P2 -> owned q' d' e -> owned q2 (op_eff P2) e -> False).
      { intros t2 q2 [o2 n2 cr2 d2] e Hne E2 E3 Ho1 Ho2. destruct (Hown e Ho1) as [Ho|Ho].
        - apply Hne. eapply (r5 t2 t q2 q (mkOP o2 n2 cr2 d2) (mkOP o n cr d)); eauto.
        - apply Ho. specialize (r3 t2). rewrite E2, E3 in r3. destruct r3 as (_ & HT2 & _). by eapply owned_out. }
      intros t1 t2 q1 q2 P1 P2 e. destruct (decide (t1 = t)) as [->|H1], (decide (t2 = t)) as [->|H2]; rewrite ?lookup_insert, ?lookup_insert_ne by done.
      + done.
      + intros [= <-] E2 [= <-] E3 Ho1 Ho2. exfalso. by eapply (Hnew t2).
      + intros E2 [= <-] E3 [= <-] Ho1 Ho2. exfalso. by eapply (Hnew t1).
      + by apply r5.
  Qed.

  Definition Sim (ev : option event) (s' : conf) : Prop := exists u, ostep (mkOS h p) ev u /\ R s' u.

  (* a step that changes nothing shared *)
  Lemma Sim_same q' : locked q' = locked q -> todopc q' = todopc q -> (forall e, owned q' d e -> owned q d e) ->
    (forall m td, last h = Some m -> abs m c -> GI c td -> (locked q = true -> td = todopc q) -> (n < length h)%nat -> TI c h q o n cr d -> TI c h q' o n cr d) ->
    Sim None (mkConf c mi mu (<[t := q']> th)).
  Proof.
    intros Hl Ht Ho HTI. pose proof st_facts as (m & Hm & Ha & Hn & HTq & Hlq & HG & (td & HG')). exists (mkOS h p). split; [constructor|].
    rewrite <- (insert_id p t (mkOP o n cr d)) by done. eapply R_step; try done; eauto.
    - apply Gu_refl.
    - destruct (locked q) eqn:E.
      + eapply (HTI _ (todopc q)); try done. by apply HG.
      + by eapply HTI.
    - rewrite Hl. split; [done|]. intros E. destruct (locked q) eqn:Eq; [done|]. by apply st_mu in E.
    - right. split; try done. intros e k x Hx. by exists x.
    - pose proof (r_gi _ _ HR) as HGI. cbn in HGI. destruct mu as [t2|]; cbn in *; [|done]. destruct (decide (t2 = t)) as [->|]; [|by rewrite lookup_insert_ne].
      rewrite lookup_insert, Ht. by rewrite Hq in HGI.
  Qed.

  (* a step made without the lock *)
  Lemma Sim_free c' q' : locked q = false -> locked q' = false ->
    (forall m td, last h = Some m -> abs m c -> GI c td -> (n < length h)%nat -> TI c h q o n cr d ->
       quiet c c' /\ (forall td, GI c td -> GI c' td) /\
       exists h' m' d', ((h' = h /\ d' = d) \/ (exists r, d = None /\ sem o cr m r m' /\ h' = h ++ [m'] /\ d' = Some r)) /\
       Gu (owned q d) c h c' h' /\ last h' = Some m' /\ abs m' c' /\ TI c' h' q' o n cr d' /\ (forall e, ~ owned q' d' e)) ->
    Sim None (mkConf c' mi mu (<[t := q']> th)).
  Proof.
    intros Hl Hl' HX. pose proof st_facts as (m & Hm & Ha & Hn & HTq & Hlq & HG & (td & HG')).
    destruct (HX _ _ Hm Ha HG' Hn HTq) as (HQ & HGG & h' & m' & d' & Hs & HGu & Hlast & Habs & HT & Ho).
    exists (mkOS h' (<[t := mkOP o n cr d']> p)). split.
    - destruct Hs as [[-> ->]|(r & -> & Hs & -> & ->)].
      + rewrite insert_id by done. constructor.
      + by eapply o_eff.
    - eapply R_step; try done.
      + rewrite Hl'. split; [done|]. by intros E%st_mu.
      + by right.
      + by left.
      + intros e He. by apply Ho in He.
      + pose proof (r_gi _ _ HR) as HGI. cbn in HGI. apply HGG. pose proof (st_mu Hl) as Hne. destruct mu as [t2|]; cbn in *; [|done].
        rewrite lookup_insert_ne by congruence. done.
  Qed.

  (* a step made with the lock held *)
  Lemma Sim_held c' mi' q' : locked q = true -> locked q' = true ->
    (forall m, last h = Some m -> abs m c -> GI c (todopc q) -> (n < length h)%nat -> TI c h q o n cr d ->
       GI c' (todopc q') /\
       exists h' m' d', ((h' = h /\ d' = d) \/ (exists r, d = None /\ sem o cr m r m' /\ h' = h ++ [m'] /\ d' = Some r)) /\
       Gu (owned q d) c h c' h' /\ last h' = Some m' /\ abs m' c' /\ TI c' h' q' o n cr d' /\ (forall e, owned q' d' e -> owned q d e \/ ~ Out c e)) ->
    Sim None (mkConf c' mi' mu (<[t := q']> th)).
  Proof.
    intros Hl Hl' HX. pose proof st_facts as (m & Hm & Ha & Hn & HTq & Hlq & HG & (td & HG')).
    destruct (HX _ Hm Ha (HG Hl) Hn HTq) as (HGG & h' & m' & d' & Hs & HGu & Hlast & Habs & HT & Ho).
    exists (mkOS h' (<[t := mkOP o n cr d']> p)). split.
    - destruct Hs as [[-> ->]|(r & -> & Hs & -> & ->)].
      + rewrite insert_id by done. constructor.
      + by eapply o_eff.
    - specialize (Hlq Hl). eapply R_step; try done.
      + by left.
      + by left.
      + rewrite Hlq. cbn. by rewrite lookup_insert.
  Qed.
End step.

(* ---- small facts used case by case *)
Lemma abs_none c k m : abs m c -> cur c k = None -> m !! k = None.
Proof. intros Ha Hc. rewrite (Ha k). unfold absval. by rewrite Hc. Qed.
Lemma cur_none_clean c k : readm c !! k = None -> amended c = false -> cur c k = None.
Proof. unfold cur. by intros -> ->. Qed.
Lemma cur_none_dirty c k : readm c !! k = None -> dirty_get c k = None -> cur c k = None.
Proof. unfold cur. intros -> ->. by destruct (amended c). Qed.
Lemma sem_load_at k cr m o : m !! k = o -> sem (OLoad k) cr m (ROpt o) m.
Proof. intros <-. constructor. Qed.
Lemma sem_del_none k cr m : m !! k = None -> sem (OLoadAndDelete k) cr m (ROpt None) m.
Proof. intros Hn. rewrite <- Hn. replace m with (delete k m) at 3 by (by apply delete_notin). constructor. Qed.
Lemma sem_del_some k cr m w : m !! k = Some w -> sem (OLoadAndDelete k) cr m (ROpt (Some w)) (delete k m).
Proof. intros Hn. rewrite <- Hn. constructor. Qed.
Lemma sem_hit a k cr m w : (forall v, a <> AStore v) -> m !! k = Some w -> sem (opof a k) cr m (RPair w true) m.
Proof. intros Hs Hk. destruct a; [by edestruct Hs| |]; by constructor. Qed.
Lemma sem_new a k cr m v : putv a v cr -> m !! k = None -> sem (opof a k) cr m (RPair v false) (<[k := v]> m).
Proof. intros Hs Hk. destruct a; cbn in *; [done| |]; subst; by constructor. Qed.
Lemma resok_saw h o n cr r m : (n < length h)%nat -> last h = Some m -> sem o cr m r m -> resok h o n cr None r.
Proof. intros Hn Hl Hs. right. left. split; [done|]. by eapply saw_last. Qed.

Lemma hold_cur c td h n k e : GI c td -> cur c k = Some e -> hold c h n k e.
Proof. intros HI Hc. destruct (cur_tag _ _ _ _ HI Hc) as [x Hx]. exists x. split; [done|by left]. Qed.
Lemma hold_sees c h n k e x m : (n < length h)%nat -> last h = Some m -> abs m c -> hold c h n k e -> heap c !! e = Some (k, x) -> sees h n k (val_of x).
Proof.
  intros Hn Hl Ha (x' & Hx' & Hc) Hx. assert (x' = x) as -> by congruence. destruct Hc as [Hc|[? _]]; [|done].
  eapply saw_last; [done..|]. rewrite (Ha k). by eapply absval_cur.
Qed.
Lemma hold_cell c h n k e x : hold c h n k e -> cell_at c e x -> heap c !! e = Some (k, x).
Proof. intros (x' & Hx' & _) [k' Hk']. congruence. Qed.
Lemma lmod_cell lk c k e x : lmod lk c k e -> cell_at c e x -> heap c !! e = Some (k, x).
Proof. destruct lk; [intros (_ & (x' & Hx' & _) & _)|intros (x' & Hx' & _)]; intros [k' Hk']; congruence. Qed.
Lemma lmod_cur lk c k e x : lmod lk c k e -> heap c !! e = Some (k, x) -> x <> Exp -> cur c k = Some e.
Proof. destruct lk; [by intros (? & _)|]. intros (x' & Hx' & [?| ->]) Hx Hne; [by apply cur_read|congruence]. Qed.
Lemma lmod_read lk c td k e : GI c td -> lmod lk c k e -> heap c !! e = Some (k, Nil) -> readm c !! k = Some e.
Proof.
  intros HI Hl Hx. assert (Hc : cur c k = Some e) by (by eapply lmod_cur). unfold cur in Hc. destruct (readm c !! k) eqn:E; [done|].
  destruct (amended c) eqn:E2; [|done]. destruct (gi_only _ _ HI _ _ E Hc) as [_ [v Hv]]. congruence.
Qed.
Lemma delmod_cell c h n k e x : delmod c h n k e -> cell_at c e x -> heap c !! e = Some (k, x).
Proof. intros (x' & Hx' & _) [k' Hk']. congruence. Qed.

Lemma fin_TI c h o n cr lk r k e : lmod lk c k e -> resok h o n cr None r -> TI c h (fin lk r) o n cr None.
Proof. intros Hl Hr. destruct lk as [[|]|]; cbn; [|done|done]. split; [done|]. split; [|done]. destruct Hl as (_ & _ & HA). by apply HA. Qed.
Lemma fin_TI_eff c h o n cr lk r : (lk = Some true -> amended c = true) -> TI c h (fin lk r) o n cr (Some r).
Proof.
  intros HA. assert (resok h o n cr (Some r) r) by (by left). destruct lk as [[|]|]; cbn; [|done|done]. split; [done|]. split; [|done]. by apply HA.
Qed.
Lemma fin_locked lk r : locked (fin lk r) = match lk with None => false | _ => true end.
Proof. by destruct lk as [[|]|]. Qed.
Lemma fin_owned lk r d e : ~ owned (fin lk r) d e.
Proof. destruct lk as [[|]|]; by intros [_ ?]. Qed.
Lemma fin_todo lk r : todopc (fin lk r) = ∅.
Proof. by destruct lk as [[|]|]. Qed.
Lemma ins_TI c h a k n cr : absent c k true -> TI c h (ins a k) (opof a k) n cr None.
Proof. intros Ha. destruct a; cbn; (split; [done|]); (split; [done|]); [|intros m Hm; by constructor|done]. intros m Hm. constructor. Qed.
Lemma ins_locked a k : locked (ins a k) = true.
Proof. by destruct a. Qed.
Lemma ins_owned a k d e : ~ owned (ins a k) d e.
Proof. destruct a; by intros [_ ?]. Qed.
Lemma ins_todo a k : todopc (ins a k) = ∅.
Proof. by destruct a. Qed.

(* the cell of the entry changes and the operation takes place *)
Lemma put_free c td h m k e x v o n cr r q d : GI c td -> last h = Some m -> abs m c -> cur c k = Some e -> heap c !! e = Some (k, x) -> x <> Exp ->
  sem o cr m r (<[k := v]> m) -> d = None ->
  quiet c (set_cell c e k (Val v)) /\ (forall td, GI c td -> GI (set_cell c e k (Val v)) td) /\
  exists h' m' d', ((h' = h /\ d' = d) \/ (exists r, d = None /\ sem o cr m r m' /\ h' = h ++ [m'] /\ d' = Some r)) /\
    Gu (owned q d) c h (set_cell c e k (Val v)) h' /\ last h' = Some m' /\ abs m' (set_cell c e k (Val v)) /\
    TI (set_cell c e k (Val v)) h' (PRet r) o n cr d' /\ (forall e', ~ owned (PRet r) d' e').
Proof.
  intros HI Hl Ha Hc Hx Hne Hs ->. split; [by eapply sc_quiet|]. split.
  { intros td' HI'. eapply sc_GI; try done. right. by exists v. }
  exists (h ++ [<[k := v]> m]), (<[k := v]> m), (Some r). split; [right; by exists r|]. split.
  { eapply sc_Gu; try done. right. by exists (<[k := v]> m). }
  split; [apply last_snoc|]. split.
  { eapply sc_abs; try done. - intros k' Hk'. by apply lookup_insert_ne. - apply lookup_insert. }
  split; [by left|]. by intros e' [_ ?].
Qed.
Lemma put_held c td h m k e x v o n cr r q d q' : GI c td -> last h = Some m -> abs m c -> cur c k = Some e -> heap c !! e = Some (k, x) -> x <> Exp ->
  sem o cr m r (<[k := v]> m) -> d = None -> todopc q' = td ->
  (forall h', TI (set_cell c e k (Val v)) h' q' o n cr (Some r)) -> (forall e', ~ owned q' (Some r) e') ->
  GI (set_cell c e k (Val v)) (todopc q') /\
  exists h' m' d', ((h' = h /\ d' = d) \/ (exists r, d = None /\ sem o cr m r m' /\ h' = h ++ [m'] /\ d' = Some r)) /\
    Gu (owned q d) c h (set_cell c e k (Val v)) h' /\ last h' = Some m' /\ abs m' (set_cell c e k (Val v)) /\
    TI (set_cell c e k (Val v)) h' q' o n cr d' /\ (forall e', owned q' d' e' -> owned q d e' \/ ~ Out c e').
Proof.
  intros HI Hl Ha Hc Hx Hne Hs -> <- HT Ho. split.
  { eapply sc_GI; try done. right. by exists v. }
  exists (h ++ [<[k := v]> m]), (<[k := v]> m), (Some r). split; [right; by exists r|]. split.
  { eapply sc_Gu; try done. right. by exists (<[k := v]> m). }
  split; [apply last_snoc|]. split.
  { eapply sc_abs; try done. - intros k' Hk'. by apply lookup_insert_ne. - apply lookup_insert. }
  split; [apply HT|]. intros e' He'. by apply Ho in He'.
Qed.

Section local.
  Context (c : core) (mi : nat) (mu : option tid) (th : gmap tid pc) (h : list kvmap) (p : gmap tid opend).
  Context (t : tid) (q : pc) (o : op) (n : nat) (cr : list V) (d : option res).
  Hypothesis (HR : R (mkConf c mi mu th) (mkOS h p)) (Hq : th !! t = Some q) (Hp : p !! t = Some (mkOP o n cr d)).

  Ltac same := eapply Sim_same; [exact HR|exact Hq|exact Hp|try done|try done|try (by intros ? [_ ?])|cbn [TI]].
  Lemma sim_local c' q' : lstep c q c' q' -> Sim h p None (mkConf c' mi mu (<[t := q']> th)).
  Proof.
    intros Hs. inversion Hs; subst; clear Hs.
    - (* load_read *) same. intros m td Hl Ha HI _ Hn (-> & ->). split; [done|]. split; [done|]. eapply hold_cur; [done|by apply cur_read].
    - (* load_dirty *) same. intros m td Hl Ha HI _ Hn (-> & ->). done.
    - (* load_none *) same. intros m td Hl Ha HI _ Hn (-> & ->). eapply resok_saw; [done..|]. apply sem_load_at. eapply abs_none; [done|]. by apply cur_none_clean.
    - (* load_in_read *) same. intros m td Hl Ha HI _ Hn (-> & ->). split; [done|]. split; [done|]. split; [done|]. eapply hold_cur; [done|by apply cur_read].
    - (* load_in_dirty *) same. intros m td Hl Ha HI _ Hn (-> & ->). split; [done|]. split; [done|]. split; [done|]. split; [done|].
      eapply hold_cur; [done|]. unfold cur. by rewrite H, H0.
    - same. intros m td Hl Ha HI _ Hn (-> & ->). split; [done|]. split; [done|]. eapply resok_saw; [done..|]. apply sem_load_at. eapply abs_none; [done|]. by apply cur_none_dirty.
    - same. intros m td Hl Ha HI _ Hn (-> & ->). split; [done|]. eapply resok_saw; [done..|]. apply sem_load_at. eapply abs_none; [done|]. by apply cur_none_clean.
    - (* load_e *) same. intros m td Hl Ha HI _ Hn (-> & -> & Hh). pose proof (hold_cell _ _ _ _ _ _ Hh H) as Hx.
      right. left. split; [done|]. pose proof (hold_sees _ _ _ _ _ _ _ Hn Hl Ha Hh Hx) as Hs. eapply saw_imp; [|exact Hs]. intros m0 Hm0. cbn in Hm0. rewrite <- Hm0. constructor.
    - (* del_read *) same. { intros e' [Hd ->]. exfalso. apply Hd. destruct (st_facts _ _ _ _ _ _ _ _ _ _ _ _ HR Hq Hp) as (m & _ & _ & _ & HT & _). cbn in HT. by destruct HT. }
      intros m td Hl Ha HI _ Hn (-> & ->). split; [done|]. left. split; [done|]. destruct (gi_read _ _ HI _ _ H) as [x Hx]. exists x. split; [done|by left].
    - same. intros m td Hl Ha HI _ Hn (-> & ->). done.
    - same. intros m td Hl Ha HI _ Hn (-> & ->). eapply resok_saw; [done..|]. apply sem_del_none. eapply abs_none; [done|]. by apply cur_none_clean.
    - (* del_in_read *) same. { intros e' [Hd ->]. exfalso. apply Hd. destruct (st_facts _ _ _ _ _ _ _ _ _ _ _ _ HR Hq Hp) as (m & _ & _ & _ & HT & _). cbn in HT. by destruct HT. }
      intros m td Hl Ha HI _ Hn (-> & ->). split; [done|]. split; [done|]. left. split; [done|]. destruct (gi_read _ _ HI _ _ H) as [x Hx]. exists x. split; [done|by left].
    - (* del_in_dirty *) eapply Sim_held; [exact HR|exact Hq|exact Hp|done|done|]. intros m Hl Ha HI Hn HT. cbn in HT. destruct HT as (-> & ->). cbn [todopc] in *.
      split; [by eapply dd_GI|]. destruct (dd_own c k e d0 m) as (v & Hv & How); try done.
      exists (h ++ [delete k m]), (delete k m), (Some (ROpt (Some v))). split; [right; exists (ROpt (Some v)); split; [done|]; split; [by apply sem_del_some|done]|].
      split; [by eapply dd_Gu|]. split; [apply last_snoc|]. split; [by eapply dd_abs|]. split.
      + cbn [TI]. split; [done|]. split; [done|]. split; [done|]. by right.
      + intros e' [_ <-]. right. intros Ho. destruct (Ho k) as [_ Hno]. apply Hno. unfold dirty_get. by rewrite H1.
    - same. intros m td Hl Ha HI _ Hn (-> & ->). split; [done|]. split; [done|]. eapply resok_saw; [done..|]. apply sem_del_none. eapply abs_none; [done|]. by apply cur_none_dirty.
    - same. intros m td Hl Ha HI _ Hn (-> & ->). split; [done|]. eapply resok_saw; [done..|]. apply sem_del_none. eapply abs_none; [done|]. by apply cur_none_clean.
    - (* del_gone *) same. intros m td Hl Ha HI _ Hn (-> & [[-> Hm]|(v & Hv & _)]).
      + pose proof (delmod_cell _ _ _ _ _ _ Hm H) as Hx. right. left. split; [done|]. eapply (saw_imp _ _ (fun m => m !! k = None)); [intros m0; apply sem_del_none|].
        destruct Hm as (x' & Hx' & [Hr|[_ Hss]]); [|done]. eapply saw_last; [done..|]. rewrite (Ha k), <- H0. eapply absval_cur; [by apply cur_read|done].
      + destruct H as [k' Hk']. rewrite Hv in Hk'. injection Hk' as <- <-. done.
    - (* del_val *) same; [done|]. intros m td Hl Ha HI _ Hn HT. done.
    - (* del_cas *) eapply Sim_free; [exact HR|exact Hq|exact Hp|done|done|]. intros m td Hl Ha HI Hn HT. cbn [TI] in HT. destruct HT as (-> & [[-> Hm]|(v & Hv & Ho & ->)]).
      + assert (Hx : heap c !! e = Some (k, Val w)) by (eapply delmod_cell; [exact Hm|by exists k']). assert (k' = k) as -> by congruence.
        assert (Hr : readm c !! k = Some e) by (destruct Hm as (x' & Hx' & [?|[-> _]]); [done|congruence]).
        pose proof (cur_read _ _ _ Hr) as Hc. assert (Hmk : m !! k = Some w) by (rewrite (Ha k); by rewrite (absval_cur _ _ _ _ Hc Hx)).
        split; [by eapply sc_quiet|]. split; [intros td' HI'; eapply sc_GI; try done; by left|].
        exists (h ++ [delete k m]), (delete k m), (Some (ROpt (Some w))). split; [right; exists (ROpt (Some w)); split; [done|]; split; [by apply sem_del_some|done]|].
        split; [eapply sc_Gu; try done; right; by exists (delete k m)|]. split; [apply last_snoc|].
        split; [eapply sc_abs; try done; [intros k' Hk'; by apply lookup_delete_ne|apply lookup_delete]|].
        split; [by left|]. by intros e' [_ ?].
      + assert (w = v) as -> by congruence. assert (k' = k) as -> by congruence. split; [by eapply od_quiet|]. split; [intros td' HI'; by eapply od_GI|].
        exists h, m, (Some (ROpt (Some v))). split; [by left|]. split; [by eapply od_Gu|]. split; [done|]. split; [by eapply od_abs|]. split; [by left|]. by intros e' [_ ?].
    - (* del_casf *) same; [done|]. intros m td Hl Ha HI _ Hn HT. done.
    - (* put_read *) same. intros m td Hl Ha HI _ Hn (-> & ->). split; [done|]. split; [done|]. destruct (gi_read _ _ HI _ _ H) as [x Hx]. exists x. split; [done|by left].
    - same. intros m td Hl Ha HI _ Hn (-> & ->). done.
    - (* store_exp *) same. intros m td Hl Ha HI _ Hn (-> & -> & _). done.
    - same. intros m td Hl Ha HI _ Hn (-> & -> & ?). done.
    - (* store_cas *) eapply Sim_free; [exact HR|exact Hq|exact Hp|done|done|]. intros m td Hl Ha HI Hn HT. cbn [TI] in HT. destruct HT as (-> & -> & Hm & Hne).
      assert (Hx : heap c !! e = Some (k, x)) by (eapply (lmod_cell None); [exact Hm|by exists k']). assert (k' = k) as -> by congruence.
      eapply put_free; try done; [by eapply (lmod_cur None)|]. constructor.
    - same. intros m td Hl Ha HI _ Hn (-> & -> & ? & ?). done.
    - (* store_locked *) eapply Sim_held; [exact HR|exact Hq|exact Hp|done|done|]. intros m Hl Ha HI Hn HT. cbn [TI lmod] in HT. destruct HT as (-> & -> & Hm).
      assert (Hx : heap c !! e = Some (k, x)) by (eapply (lmod_cell (Some miss)); [exact Hm|by exists k']). assert (k' = k) as -> by congruence.
      destruct Hm as (Hc & (x' & Hx' & Hne) & _). assert (x' = x) as -> by congruence.
      eapply put_held; try done. { constructor. } { intros h'. split; [done|by left]. } by intros e' [_ ?].
    - (* try_exp *) destruct lk as [miss|]; cbn [expunged_at].
      + exfalso. destruct (st_facts _ _ _ _ _ _ _ _ _ _ _ _ HR Hq Hp) as (m & _ & _ & _ & HT & _). cbn [TI lmod] in HT. destruct HT as (_ & _ & Hm).
        pose proof (lmod_cell (Some miss) _ _ _ _ Hm H0). destruct Hm as (_ & (x' & Hx' & Hne) & _). congruence.
      + same. intros m td Hl Ha HI _ Hn (-> & -> & _). done.
    - (* try_val *) same. { rewrite fin_locked. by destruct lk. } { by rewrite fin_todo. } { by intros e' ?%fin_owned. }
      intros m td Hl Ha HI _ Hn (-> & -> & Hm). pose proof (lmod_cell _ _ _ _ _ Hm H0) as Hx. eapply fin_TI; [exact Hm|].
      eapply resok_saw; [done..|]. apply sem_hit; [done|]. rewrite (Ha k). rewrite (absval_cur _ _ e (Val w)); [done| |done]. by eapply lmod_cur.
    - same. intros m td Hl Ha HI _ Hn (-> & -> & Hm). done.
    - same. intros m td Hl Ha HI _ Hn (-> & -> & Hm). done.
    - (* cas *) destruct lk as [miss|].
      + eapply Sim_held; [exact HR|exact Hq|exact Hp|done|by rewrite fin_locked|]. intros m Hl Ha HI Hn HT. cbn [TI] in HT. destruct HT as (-> & -> & Hm & Hv).
        assert (Hx : heap c !! e = Some (k, Nil)) by (eapply lmod_cell; [exact Hm|by exists k']). assert (k' = k) as -> by congruence.
        assert (Hc : cur c k = Some e) by (by eapply lmod_cur).
        eapply put_held; try done.
        * apply sem_new; [done|]. rewrite (Ha k). by rewrite (absval_cur _ _ e Nil).
        * by rewrite fin_todo.
        * intros h'. apply fin_TI_eff. intros [= ->]. destruct Hm as (_ & _ & HA). by apply HA.
        * intros e'. apply fin_owned.
      + eapply Sim_free; [exact HR|exact Hq|exact Hp|done|done|]. intros m td Hl Ha HI Hn HT. cbn [TI] in HT. destruct HT as (-> & -> & Hm & Hv).
        assert (Hx : heap c !! e = Some (k, Nil)) by (eapply (lmod_cell None); [exact Hm|by exists k']). assert (k' = k) as -> by congruence.
        assert (Hc : cur c k = Some e) by (by eapply (lmod_cur None)).
        eapply put_free; try done. apply sem_new; [done|]. rewrite (Ha k). by rewrite (absval_cur _ _ e Nil).
    - (* casf *) same. intros m td Hl Ha HI _ Hn HT. done.
    - (* re_exp *) destruct lk as [miss|]; cbn [expunged_at].
      + exfalso. destruct (st_facts _ _ _ _ _ _ _ _ _ _ _ _ HR Hq Hp) as (m & _ & _ & _ & HT & _). cbn [TI lmod] in HT. destruct HT as (_ & _ & Hm & _).
        pose proof (lmod_cell (Some miss) _ _ _ _ Hm H). destruct Hm as (_ & (x' & Hx' & Hne) & _). congruence.
      + same. intros m td Hl Ha HI _ Hn (-> & -> & _). done.
    - (* re_val *) same. { rewrite fin_locked. by destruct lk. } { by rewrite fin_todo. } { by intros e' ?%fin_owned. }
      intros m td Hl Ha HI _ Hn (-> & -> & Hm & Hv). pose proof (lmod_cell _ _ _ _ _ Hm H) as Hx. eapply fin_TI; [exact Hm|].
      eapply resok_saw; [done..|]. apply sem_hit; [by intros v' ->|]. rewrite (Ha k). rewrite (absval_cur _ _ e (Val w)); [done| |done]. by eapply lmod_cur.
    - same. intros m td Hl Ha HI _ Hn HT. done.
    - (* in_read *) same. intros m td Hl Ha HI _ Hn (-> & ->). done.
    - (* in_dirty *) same. intros m td Hl Ha HI Htd Hn (-> & ->). specialize (Htd eq_refl). cbn in Htd. subst td. split; [done|]. split; [done|].
      destruct (gi_only _ _ HI _ _ H H0) as [Hm [v Hv]]. cbn [lmod]. split; [|split]; [|by exists (Val v)|done]. unfold cur. by rewrite H, Hm.
    - (* in_new *) same. { by rewrite ins_locked. } { by rewrite ins_todo. } { by intros e' ?%ins_owned. }
      intros m td Hl Ha HI Htd Hn (-> & ->). apply ins_TI. split; [done|]. split; [done|]. split; [|done]. by destruct (gi_amended _ _ HI H1).
    - (* in_copy *) eapply Sim_held; [exact HR|exact Hq|exact Hp|done|done|]. intros m Hl Ha HI Hn HT. cbn [TI] in HT. destruct HT as (-> & ->). cbn [todopc] in *.
      split; [by apply c0_GI|]. exists h, m, None. split; [by left|]. split; [by apply c0_Gu|]. split; [done|]. split; [by apply c0_abs|]. split; [|by intros e' [? _]].
      cbn [TI]. split; [done|]. split; [done|]. split; [done|]. split; [apply lookup_empty|]. split; [by eexists|done].
    - (* in_nocopy *) same. intros m td Hl Ha HI _ Hn (-> & ->). split; [done|]. split; [done|]. split; [done|]. split; [done|]. split; [|done]. by rewrite H2.
    - (* unexp *) eapply Sim_held; [exact HR|exact Hq|exact Hp|done|done|]. intros m Hl Ha HI Hn HT. cbn [TI] in HT. destruct HT as (-> & -> & Hr). cbn [todopc] in *.
      destruct (gi_read _ _ HI _ _ Hr) as [x Hx]. assert (k' = k) as -> by congruence. split; [by apply ux_GI|].
      exists h, m, None. split; [by left|]. split; [by apply ux_Gu|]. split; [done|]. split; [by apply ux_abs|]. split; [|by intros e' [? _]].
      cbn [TI lmod]. split; [done|]. split; [done|]. split; [by apply cur_read|]. split; [|done]. exists Nil. split; [|done]. rewrite (ux_heap c k e). by rewrite decide_True.
    - (* unexp_panic *) exfalso. destruct (st_facts _ _ _ _ _ _ _ _ _ _ _ _ HR Hq Hp) as (m & _ & _ & _ & HT & _ & HG & _). cbn [TI] in HT. destruct HT as (_ & _ & Hr). specialize (HG eq_refl).
      destruct (gi_read _ _ HG _ _ Hr) as [x Hx]. destruct H as [k' Hk']. assert (x = Exp) as -> by congruence. destruct (gi_none _ _ HG H0) as [HN _]. by eapply HN.
    - (* unexp_no *) same. intros m td Hl Ha HI _ Hn (-> & -> & Hr). split; [done|]. split; [done|]. destruct (gi_read _ _ HI _ _ Hr) as [x' Hx]. destruct H as [k' Hk'].
      split; [by apply cur_read|]. split; [|done]. exists x'. split; [done|congruence].
    - (* copy_nil *) eapply Sim_held; [exact HR|exact Hq|exact Hp|done|done|]. intros m Hl Ha HI Hn HT. cbn [TI] in HT. destruct HT as (-> & -> & Hab). cbn [todopc] in *.
      destruct (cp_facts _ _ _ _ HI H) as (_ & _ & _ & _ & (x & Hx & _) & _). assert (k2 = k') as -> by congruence.
      split; [by apply ce_GI|]. exists h, m, None. split; [by left|]. split; [by eapply ce_Gu|]. split; [done|]. split; [by eapply ce_abs|]. split; [|by intros e' [? _]]. done.
    - (* copy_exp *) exfalso. destruct (st_facts _ _ _ _ _ _ _ _ _ _ _ _ HR Hq Hp) as (m & _ & _ & _ & _ & _ & HG & _). specialize (HG eq_refl). cbn [todopc] in HG.
      destruct (cp_facts _ _ _ _ HG H) as (_ & _ & _ & _ & (x & Hx & Hne) & _). destruct H0 as [k2 Hk2]. congruence.
    - (* copy_val *) eapply Sim_held; [exact HR|exact Hq|exact Hp|done|done|]. intros m Hl Ha HI Hn HT. cbn [TI] in HT. destruct HT as (-> & -> & Hab). cbn [todopc] in *.
      split; [by apply cv_GI|]. exists h, m, None. split; [by left|]. split; [by eapply cv_Gu|]. split; [done|]. split; [by eapply cv_abs|]. split; [|by intros e' [? _]].
      cbn [TI]. split; [done|]. split; [done|]. destruct Hab as (Ha1 & Ha2 & Ha3 & Ha4). split; [done|]. split; [|split; [by eexists|done]].
      rewrite (cv_dirty c k' e d0) by done. destruct (decide (k = k')) as [->|]; [|done]. destruct (cp_facts _ _ _ _ HI H) as (Hr & _). congruence.
    - (* copy_end *) same. intros m td Hl Ha HI _ Hn HT. done.
    - (* amend *) eapply Sim_held; [exact HR|exact Hq|exact Hp|done|by rewrite ins_locked|]. intros m Hl Ha HI Hn HT. cbn [TI] in HT. destruct HT as (-> & -> & (Ha1 & Ha2 & Ha3 & Ha4)).
      cbn [todopc] in HI. rewrite ins_todo. split; [by apply am_GI|]. exists h, m, None. split; [by left|]. split; [by apply am_Gu|]. split; [done|]. split; [by apply am_abs|].
      split; [|by intros e' ?%ins_owned]. by apply ins_TI.
    - (* ins *) eapply Sim_held; [exact HR|exact Hq|exact Hp|done|done|]. intros m Hl Ha HI Hn HT. cbn [TI] in HT. destruct HT as (-> & Hab & Hsem). cbn [todopc] in *.
      split; [by apply fr_GI|]. assert (Hmk : m !! k = None) by (eapply abs_none; [done|]; by eapply fr_none).
      exists (h ++ [<[k := v]> m]), (<[k := v]> m), (Some r). split; [right; exists r; split; [done|]; split; [by apply Hsem|done]|].
      split; [eapply fr_Gu; try done; right; by exists (<[k := v]> m)|]. split; [apply last_snoc|]. split; [by apply fr_abs|]. split; [|by intros e' [_ ?]]. cbn. split; [done|by left].
    - (* ins_panic *) exfalso. destruct (st_facts _ _ _ _ _ _ _ _ _ _ _ _ HR Hq Hp) as (m & _ & _ & _ & HT & _). cbn [TI] in HT. destruct HT as (_ & (_ & _ & Hd & _) & _). rewrite H in Hd. by destruct Hd.
    - (* range_clean *) same. intros m td Hl Ha HI _ Hn (-> & ->). split; [done|]. split; [done|].
      split; [intros k e Hk; eapply hold_cur; [done|by apply cur_read]|]. split; [constructor|]. split; [intros k Hk; by apply elem_of_nil in Hk|]. split; [intros k v Hk; by apply elem_of_nil in Hk|].
      intros k Hk _. eapply saw_last; [done..|]. eapply abs_none; [done|]. by apply cur_none_clean.
    - same. intros m td Hl Ha HI _ Hn (-> & ->). done.
    - (* range_in_clean *) same. intros m td Hl Ha HI _ Hn (-> & ->). split; [done|]. split; [done|]. split; [done|].
      split; [intros k e Hk; eapply hold_cur; [done|by apply cur_read]|]. split; [constructor|]. split; [intros k Hk; by apply elem_of_nil in Hk|]. split; [intros k v Hk; by apply elem_of_nil in Hk|].
      intros k Hk _. eapply saw_last; [done..|]. eapply abs_none; [done|]. by apply cur_none_clean.
    - (* range_gone *) same. intros m td Hl Ha HI _ Hn (-> & -> & H2 & H3 & H4 & H5 & H6). split; [done|]. split; [done|].
      split; [intros k2 e2 Hk2; apply lookup_delete_Some in Hk2; destruct Hk2 as [_ Hk2]; by apply H2|]. split; [done|].
      split; [intros k2 Hk2; apply lookup_delete_None; right; by apply H4|]. split; [done|].
      intros k2 Hk2 Hna. destruct (decide (k2 = k)) as [->|Hne]; [|rewrite lookup_delete_ne in Hk2 by done; by apply H6].
      rewrite <- H1. pose proof (H2 _ _ H) as Hh. eapply hold_sees; try done. by eapply hold_cell.
    - (* range_val *) same. intros m td Hl Ha HI _ Hn (-> & -> & H2 & H3 & H4 & H5 & H6). split; [done|]. split; [done|].
      pose proof (H2 _ _ H) as Hh. pose proof (hold_cell _ _ _ _ _ _ Hh H0) as Hx.
      split; [intros k2 e2 Hk2; apply lookup_delete_Some in Hk2; destruct Hk2 as [_ Hk2]; by apply H2|]. rewrite fmap_app. cbn.
      split. { apply NoDup_app. split; [done|]. split; [|apply NoDup_singleton]. intros k2 Hk2 Hk3. apply elem_of_list_singleton in Hk3. subst k2. apply H4 in Hk2. congruence. }
      split. { intros k2 Hk2. apply elem_of_app in Hk2. rewrite elem_of_list_singleton in Hk2. apply lookup_delete_None. destruct Hk2 as [Hk2|Hk2]; [right; by apply H4|by left]. }
      split. { intros k2 v2 Hk2. apply elem_of_app in Hk2. rewrite elem_of_list_singleton in Hk2. destruct Hk2 as [Hk2|[= -> ->]]; [by apply H5|]. by eapply (hold_sees _ _ _ _ _ (Val v)). }
      intros k2 Hk2 Hna. assert (Hne : k2 <> k) by (intros ->; apply Hna; apply elem_of_app; right; by apply elem_of_list_singleton). assert (Hna2 : k2 ∉ acc.*1) by (intros HX; apply Hna; apply elem_of_app; by left). rewrite lookup_delete_ne in Hk2 by done. by apply H6.
    - (* range_stop *) same. intros m td Hl Ha HI _ Hn (-> & -> & H2 & H3 & H4 & H5 & H6).
      pose proof (H2 _ _ H) as Hh. pose proof (hold_cell _ _ _ _ _ _ Hh H0) as Hx.
      right. right. split; [done|]. split; [done|]. exists (acc ++ [(k, v)]), false. split; [done|]. split; [|split; [|done]].
      + rewrite fmap_app. cbn. apply NoDup_app. split; [done|]. split; [|apply NoDup_singleton]. intros k2 Hk2 Hk3. apply elem_of_list_singleton in Hk3. subst k2. apply H4 in Hk2. congruence.
      + intros k2 v2 Hk2. apply elem_of_app in Hk2. rewrite elem_of_list_singleton in Hk2.
        assert (Hs : sees h n k2 (Some v2)) by (destruct Hk2 as [Hk2|[= -> ->]]; [by apply H5|by eapply (hold_sees _ _ _ _ _ (Val v))]).
        destruct Hs as (j & m0 & Hj & Hlk & Hm0). exists m0. split; [|done]. apply elem_of_list_lookup. exists (j - n)%nat. rewrite lookup_drop. by replace (n + (j - n))%nat with j by lia.
    - (* range_end *) same. intros m td Hl Ha HI _ Hn (-> & -> & H2 & H3 & H4 & H5 & H6).
      assert (Hin : forall k o, sees h n k o -> exists m0, m0 ∈ drop n h /\ m0 !! k = o).
      { intros k o (j & m0 & Hj & Hlk & Hm0). exists m0. split; [|done]. apply elem_of_list_lookup. exists (j - n)%nat. rewrite lookup_drop. by replace (n + (j - n))%nat with j by lia. }
      right. right. split; [done|]. split; [done|]. exists acc, true. split; [done|]. split; [done|]. split.
      + intros k v Hk. apply Hin. by apply H5.
      + intros _ k Hall. destruct (decide (k ∈ acc.*1)) as [|Hna]; [done|]. destruct (Hin k None) as (m0 & Hm0 & Hk0); [by apply H6, Hna|].
        destruct (Hall _ Hm0) as [v Hv]. congruence.
  Qed.
End local.

Lemma sim_step c s ev c' : R c s -> cstep c ev c' -> exists s', ostep s ev s' /\ R c' s'.
Proof.
  intros HR Hs. destruct s as [h p]. inversion Hs; subst; clear Hs.
  - (* call *)
    pose proof (r_th _ _ HR t) as Ht. cbn in Ht. rewrite H in Ht. destruct (p !! t) as [P|] eqn:EP; [done|].
    exists (mkOS h (<[t := mkOP o (pred (length h)) [] None]> p)). split; [by constructor|].
    destruct HR as [(m & Hm & Ha) r2 r3 r4 r5]. cbn in *.
    assert (Hlen : (0 < length h)%nat) by (destruct h; [done|cbn; lia]).
    split; cbn.
    + by exists m.
    + destruct mu as [t2|]; cbn in *; [|done]. rewrite lookup_insert_ne; [done|]. intros <-. destruct (r4 _ eq_refl) as (q & Hq & _). congruence.
    + intros t2. destruct (decide (t2 = t)) as [->|Hne]; [|rewrite !lookup_insert_ne by done; apply r3]. rewrite !lookup_insert. cbn. split; [lia|].
      split; [by destruct o|]. by destruct o.
    + intros t2 E. destruct (r4 _ E) as (q & Hq & Hl). exists q. split; [|done]. rewrite lookup_insert_ne; [done|]. congruence.
    + intros t1 t2 q1 q2 P1 P2 e. destruct (decide (t1 = t)) as [->|H1], (decide (t2 = t)) as [->|H2]; rewrite ?lookup_insert, ?lookup_insert_ne by done; [done| | |apply r5].
      * intros _ _ [= <-] _ [Hx _]. done.
      * intros _ _ _ [= <-] _ [Hx _]. done.
  - (* local *)
    pose proof (r_th _ _ HR t) as Ht. cbn in Ht. rewrite H in Ht. destruct (p !! t) as [[o n0 cr d]|] eqn:EP; [|done].
    by eapply sim_local.
  - (* create *)
    pose proof (r_th _ _ HR t) as Ht. cbn in Ht. rewrite H in Ht. destruct (p !! t) as [[o n0 cr d]|] eqn:EP; [|done].
    destruct Ht as (Hn & HT & Hl).
    assert (Hloc : exists k, o = OLoadOrCreate k) by (inversion H0; subst; cbn in HT; destruct HT as (-> & _); by eexists).
    exists (mkOS h (<[t := mkOP o n0 (cr ++ [v]) d]> p)). split; [by econstructor|].
    destruct (st_facts _ _ _ _ _ _ _ _ _ _ _ _ HR H EP) as (m & Hm & Ha & _ & _ & _ & HG & (td & HG')).
    eapply R_step; try done.
    + apply Gu_refl.
    + inversion H0; subst; cbn [TI] in HT |- *.
      * destruct HT as (-> & -> & HL). split; [done|]. split; [done|]. split; [done|]. cbn. apply elem_of_app. right. by apply elem_of_list_singleton.
      * destruct HT as (-> & -> & HL). split; [done|]. split; [done|]. intros m0 Hm0. constructor; [done|]. apply elem_of_app. right. by apply elem_of_list_singleton.
    + assert (Hlq : locked q' = locked q) by (inversion H0; subst; [by destruct lk|done]). rewrite Hlq. split; [done|]. intros ->.
      destruct (r_mu _ _ HR t eq_refl) as (q0 & Hq0 & ?). cbn in Hq0. congruence.
    + right. split; try done. intros e k x Hx. by exists x.
    + by left.
    + intros e [_ He]. inversion H0; subst; done.
    + pose proof (r_gi _ _ HR) as HGI. cbn in HGI. destruct mu as [t2|]; cbn in *; [|done]. destruct (decide (t2 = t)) as [->|]; [|by rewrite lookup_insert_ne].
      rewrite lookup_insert. rewrite H in HGI. by inversion H0; subst.
  - (* lock *)
    pose proof (r_th _ _ HR t) as Ht. cbn in Ht. rewrite H in Ht. destruct (p !! t) as [[o n0 cr d]|] eqn:EP; [|done].
    destruct Ht as (Hn & HT & Hl). exists (mkOS h p). split; [constructor|]. rewrite <- (insert_id p t (mkOP o n0 cr d)) by done.
    destruct (st_facts _ _ _ _ _ _ _ _ _ _ _ _ HR H EP) as (m & Hm & Ha & _). eapply R_step; try done.
    + apply Gu_refl.
    + right. split; try done. intros e k x Hx. by exists x.
    + right. by left.
    + intros e [_ ?]. done.
    + cbn. rewrite lookup_insert. cbn. apply (r_gi _ _ HR).
  - (* unlock *)
    pose proof (r_th _ _ HR t) as Ht. cbn in Ht. rewrite H in Ht. destruct (p !! t) as [[o n0 cr d]|] eqn:EP; [|done].
    destruct Ht as (Hn & HT & Hl). specialize (Hl eq_refl). subst mu. exists (mkOS h p). split; [constructor|]. rewrite <- (insert_id p t (mkOP o n0 cr d)) by done.
    destruct (st_facts _ _ _ _ _ _ _ _ _ _ _ _ HR H EP) as (m & Hm & Ha & _ & _ & _ & HG & _). specialize (HG eq_refl). cbn [TI] in HT. destruct HT as [Hu HT]. eapply R_step; try done.
    + apply Gu_refl.
    + by destruct q.
    + by left.
    + right. by right.
    + intros e [Hd He]. left. split; [done|]. by destruct q.
  - (* miss *)
    pose proof (r_th _ _ HR t) as Ht. cbn in Ht. rewrite H in Ht. destruct (p !! t) as [[o n0 cr d]|] eqn:EP; [|done].
    eapply Sim_held; [exact HR|exact H|exact EP|done|done|]. intros m Hl Ha HI Hn HT. cbn [TI todopc] in *. destruct HT as (Hu & Hm & HT).
    split; [done|]. exists h, m, d. split; [by left|]. split; [apply Gu_refl|]. split; [done|]. split; [done|]. split; [done|].
    intros e [Hd He]. left. split; [done|]. by destruct q.
  - (* miss, promote *)
    pose proof (r_th _ _ HR t) as Ht. cbn in Ht. rewrite H in Ht. destruct (p !! t) as [[o n0 cr d]|] eqn:EP; [|done].
    eapply Sim_held; [exact HR|exact H|exact EP|done|done|]. intros m Hl Ha HI Hn HT. cbn [TI todopc] in *. destruct HT as (Hu & Hm & HT).
    split; [by apply pr_GI|]. exists h, m, d. split; [by left|]. split; [by eapply pr_Gu|]. split; [done|]. split; [by apply pr_abs|]. split.
    + split; [done|]. eapply (TI_free_st (fun _ => False)); [by eapply pr_Gu|done|by destruct q|by intros ? _ []|done].
    + intros e [Hd He]. left. split; [done|]. by destruct q.
  - (* range, promote *)
    pose proof (r_th _ _ HR t) as Ht. cbn in Ht. rewrite H in Ht. destruct (p !! t) as [[o n0 cr d]|] eqn:EP; [|done].
    eapply Sim_held; [exact HR|exact H|exact EP|done|done|]. intros m Hl Ha HI Hn HT. cbn [TI todopc] in HT, HI |- *. destruct HT as (-> & ->).
    pose proof (pr_GI c0 HI) as HI'. pose proof (pr_abs c0 m HI H0 Ha) as Ha'.
    split; [done|]. exists h, m, None. split; [by left|]. split; [by eapply pr_Gu|]. split; [done|]. split; [done|]. split; [|by intros e [? _]].
    cbn [opin]. split; [done|]. split; [done|]. split; [done|].
    assert (Hrd : forall k, (default ∅ (dirty c0) : gmap K eid) !! k = readm (promote c0) !! k) by done.
    split; [intros k e; rewrite Hrd; intros Hk; eapply hold_cur; [done|by apply cur_read]|]. split; [constructor|].
    split; [intros k Hk; by apply elem_of_nil in Hk|]. split; [intros k v Hk; by apply elem_of_nil in Hk|].
    intros k Hk _. eapply saw_last; [done..|]. eapply abs_none; [done|]. by apply cur_none_clean.
  - (* return *)
    pose proof (r_th _ _ HR t) as Ht. cbn in Ht. rewrite H in Ht. destruct (p !! t) as [[o n0 cr d]|] eqn:EP; [|done].
    destruct Ht as (Hn & HT & Hl). cbn [TI] in HT. exists (mkOS h (delete t p)). split.
    { destruct HT as [->|[[-> Hs]|(-> & -> & l & b & -> & Hr)]].
      - eapply o_ret; [done|by left]. - eapply o_ret; [done|by right]. - by eapply o_range. }
    destruct HR as [(m & Hm & Ha) r2 r3 r4 r5]. cbn in *.
    assert (Hmu : forall t2, mu = Some t2 -> t2 <> t).
    { intros t2 E ->. destruct (r4 _ E) as (q & Hq & Hlq). assert (q = PRet r) as -> by congruence. done. }
    split; cbn.
    + by exists m.
    + destruct mu as [t2|]; cbn in *; [|done]. rewrite lookup_delete_ne; [done|]. intros <-. by eapply Hmu.
    + intros t2. destruct (decide (t2 = t)) as [->|Hne]; [by rewrite !lookup_delete|rewrite !lookup_delete_ne by done; apply r3].
    + intros t2 E. rewrite lookup_delete_ne; [by apply r4|]. intros <-. by eapply Hmu.
    + intros t1 t2 q1 q2 P1 P2 e E1 E2 E3 E4. apply lookup_delete_Some in E1, E2, E3, E4. destruct E1, E2, E3, E4. by apply (r5 t1 t2 q1 q2 P1 P2).
Qed.

Lemma R_init : R c_init os_init.
Proof.
  split; cbn.
  - exists ∅. split; [done|]. intros k. unfold absval, cur. cbn. by rewrite !lookup_empty.
  - split; try done; cbn; try (intros; by rewrite ?lookup_empty in * ).
  - intros t. by rewrite !lookup_empty.
  - done.
  - intros t1 t2 q1 q2 P1 P2 e. by rewrite lookup_empty.
Qed.

Lemma sim_run es c : run cstep c_init es c -> exists s, run ostep os_init es s /\ R c s.
Proof.
  remember c_init as c0. intros Hr. induction Hr as [c0|c0 es c1 ev c2 Hr IH Hs]; subst.
  - exists os_init. split; [constructor|apply R_init].
  - destruct (IH eq_refl) as (s & Hrs & HR). destruct (sim_step _ _ _ _ HR Hs) as (s' & Hs' & HR'). exists s'. split; [|done]. by econstructor.
Qed.
