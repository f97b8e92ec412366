(* SyncMapSpec.v -- what it means for a map used by many goroutines at once to behave like a map.

   The specification is an atomic map: between its call and its return every operation takes place at one instant, with
   the effect and the result it has on a plain map.  An implementation is right (linearizable) when each of its histories
   of calls and returns is a history of the atomic map. *)
From Verif Require Import GoBase.
Local Open Scope N_scope.

(* keys and values are opaque; only equality matters *)
Notation K := N. Notation V := N. Notation tid := nat. Notation kvmap := (gmap N N).

Inductive op :=
  | OLoad (k : K) | OStore (k : K) (v : V) | OLoadOrStore (k : K) (v : V) | OLoadOrCreate (k : K)
  | OLoadAndDelete (k : K) | ORange.
Inductive res :=
  | RUnit                                       (* Store *)
  | ROpt (o : option V)                         (* Load, LoadAndDelete: (value, ok) *)
  | RPair (v : V) (loaded : bool)               (* LoadOrStore, LoadOrCreate: (actual, loaded) *)
  | RRange (l : list (K * V)) (complete : bool).  (* the pairs Range passed to its function; whether it was run to the end *)

(* the operations on a plain map; [cr] = what the constructor of this LoadOrCreate has returned so far *)
Inductive sem : op -> list V -> kvmap -> res -> kvmap -> Prop :=
  | sem_load k cr m : sem (OLoad k) cr m (ROpt (m !! k)) m
  | sem_store k v cr m : sem (OStore k v) cr m RUnit (<[k := v]> m)
  | sem_los_hit k v cr m w : m !! k = Some w -> sem (OLoadOrStore k v) cr m (RPair w true) m
  | sem_los_miss k v cr m : m !! k = None -> sem (OLoadOrStore k v) cr m (RPair v false) (<[k := v]> m)
  | sem_loc_hit k cr m w : m !! k = Some w -> sem (OLoadOrCreate k) cr m (RPair w true) m
  | sem_loc_miss k cr m v : m !! k = None -> v ∈ cr -> sem (OLoadOrCreate k) cr m (RPair v false) (<[k := v]> m)
  | sem_del k cr m : sem (OLoadAndDelete k) cr m (ROpt (m !! k)) (delete k m).

(* Range is not atomic (map.go 308-318).  [ms]: the contents of the map from the call on.  No key comes twice, every pair was
   in the map at some moment of the call, and a key that was there all the time is not left out. *)
Definition range_ok (ms : list kvmap) (l : list (K * V)) (complete : bool) : Prop :=
  NoDup (fst <$> l) /\
  (forall k v, (k, v) ∈ l -> exists m, m ∈ ms /\ m !! k = Some v) /\
  (complete = true -> forall k, (forall m, m ∈ ms -> is_Some (m !! k)) -> k ∈ (fst <$> l)).

(* histories *)
Inductive event := EvCall (t : tid) (o : op) | EvCreate (t : tid) (v : V) | EvRet (t : tid) (r : res).

(* ---- the atomic map: the successive contents, and the calls under way; [sp_done] = the result, once it took place *)
Record spend := mkSP { sp_op : op; sp_start : nat; sp_created : list V; sp_done : option res }.
Record sstate := mkSS { ss_hist : list kvmap; ss_pend : gmap tid spend }.
Definition ss_init : sstate := mkSS [∅] ∅.
Inductive astep : sstate -> option event -> sstate -> Prop :=
  | a_call h p t o : p !! t = None ->
      astep (mkSS h p) (Some (EvCall t o)) (mkSS h (<[t := mkSP o (pred (length h)) [] None]> p))
  | a_create h p t o n cr d v : p !! t = Some (mkSP o n cr d) -> (exists k, o = OLoadOrCreate k) ->
      astep (mkSS h p) (Some (EvCreate t v)) (mkSS h (<[t := mkSP o n (cr ++ [v]) d]> p))
  (* the operation takes place; the contents are recorded when it changes them (or might) *)
  | a_write h p t o n cr m r m' : p !! t = Some (mkSP o n cr None) -> last h = Some m -> sem o cr m r m' ->
      astep (mkSS h p) None (mkSS (h ++ [m']) (<[t := mkSP o n cr (Some r)]> p))
  | a_read h p t o n cr m r : p !! t = Some (mkSP o n cr None) -> last h = Some m -> sem o cr m r m ->
      astep (mkSS h p) None (mkSS h (<[t := mkSP o n cr (Some r)]> p))
  | a_ret h p t o n cr r : p !! t = Some (mkSP o n cr (Some r)) ->
      astep (mkSS h p) (Some (EvRet t r)) (mkSS h (delete t p))
  | a_range h p t n cr l c : p !! t = Some (mkSP ORange n cr None) -> range_ok (drop n h) l c ->
      astep (mkSS h p) (Some (EvRet t (RRange l c))) (mkSS h (delete t p)).

(* runs of a machine, with the visible events *)
Inductive run {S} (step : S -> option event -> S -> Prop) : S -> list event -> S -> Prop :=
  | run_nil s : run step s [] s
  | run_snoc s es s1 ev s2 : run step s es s1 -> step s1 ev s2 -> run step s (es ++ match ev with Some e => [e] | None => [] end) s2.
Definition linearizable {S} (step : S -> option event -> S -> Prop) (init : S) : Prop :=
  forall es s, run step init es s -> exists a, run astep ss_init es a.

(* ---------------------------------------------------------------------------------------------------------------
   A proof device: the same machine in which an operation without effect need not say when it took place; on returning it
   points at a moment since its call at which the map would have given that result. *)
Record opend := mkOP { op_op : op; op_start : nat; op_created : list V; op_eff : option res }.
Record ostate := mkOS { os_hist : list kvmap; os_pend : gmap tid opend }.
Definition os_init : ostate := mkOS [∅] ∅.
Definition saw (h : list kvmap) (n : nat) (P : kvmap -> Prop) : Prop := exists j m, (n <= j)%nat /\ h !! j = Some m /\ P m.
Inductive ostep : ostate -> option event -> ostate -> Prop :=
  | o_call h p t o : p !! t = None ->
      ostep (mkOS h p) (Some (EvCall t o)) (mkOS h (<[t := mkOP o (pred (length h)) [] None]> p))
  | o_create h p t o n cr d v : p !! t = Some (mkOP o n cr d) -> (exists k, o = OLoadOrCreate k) ->
      ostep (mkOS h p) (Some (EvCreate t v)) (mkOS h (<[t := mkOP o n (cr ++ [v]) d]> p))
  | o_eff h p t o n cr m r m' : p !! t = Some (mkOP o n cr None) -> last h = Some m -> sem o cr m r m' ->
      ostep (mkOS h p) None (mkOS (h ++ [m']) (<[t := mkOP o n cr (Some r)]> p))
  | o_ret h p t o n cr d r : p !! t = Some (mkOP o n cr d) ->
      (d = Some r \/ (d = None /\ saw h n (fun m => sem o cr m r m))) ->
      ostep (mkOS h p) (Some (EvRet t r)) (mkOS h (delete t p))
  | o_range h p t n cr l c : p !! t = Some (mkOP ORange n cr None) -> range_ok (drop n h) l c ->
      ostep (mkOS h p) (Some (EvRet t (RRange l c))) (mkOS h (delete t p))
  | o_skip s : ostep s None s.

(* ---- every history of the device is a history of the atomic map *)
Lemma sem_more o cr v m r m' : sem o cr m r m' -> sem o (cr ++ [v]) m r m'.
Proof. intros Hs. inversion Hs; subst; constructor; try done. apply elem_of_app. by left. Qed.

Definition match_pend (h : list kvmap) (x : option opend) (y : option spend) : Prop :=
  match x, y with
  | None, None => True
  | Some (mkOP o n cr d), Some (mkSP o' n' cr' d') =>
      o = o' /\ n = n' /\ cr = cr' /\
      match d with
      | Some r => d' = Some r
      | None => match d' with None => True | Some r => saw h n (fun m => sem o cr m r m) end
      end
  | _, _ => False
  end.
Definition matches (s : ostate) (u : sstate) : Prop :=
  ss_hist u = os_hist s /\ forall t, match_pend (os_hist s) (os_pend s !! t) (ss_pend u !! t).

Lemma run_silent {S} (step : S -> option event -> S -> Prop) s es a b : run step s es a -> step a None b -> run step s es b.
Proof. intros Hr Hs. pose proof (run_snoc step s es a None b Hr Hs) as Hx. by rewrite app_nil_r in Hx. Qed.

(* operations that observe the present contents can take place one after the other *)
Lemma bulk_read es h m : last h = Some m ->
  forall (l : list tid) p p',
  run astep ss_init es (mkSS h p) ->
  (forall t, p' !! t = p !! t \/ (t ∈ l /\ exists o n cr r, p !! t = Some (mkSP o n cr None) /\ p' !! t = Some (mkSP o n cr (Some r)) /\ sem o cr m r m)) ->
  run astep ss_init es (mkSS h p').
Proof.
  intros Hm. induction l as [|t l IH]; intros p p' Hr HE.
  - replace p' with p; [done|]. apply map_eq. intros t. destruct (HE t) as [->|[Hn _]]; [done|]. by apply elem_of_nil in Hn.
  - destruct (HE t) as [Ht|(_ & o & n & cr & r & E1 & E2 & Hs)].
    + apply (IH p); [done|]. intros t'. destruct (decide (t' = t)) as [->|Hne]; [by left|].
      destruct (HE t') as [?|[Hin ?]]; [by left|right]. split; [|done]. apply elem_of_cons in Hin. by destruct Hin.
    + apply (IH (<[t := mkSP o n cr (Some r)]> p)).
      * eapply run_silent; [exact Hr|]. by eapply a_read.
      * intros t'. destruct (decide (t' = t)) as [->|Hne]; [left; by rewrite lookup_insert|]. rewrite lookup_insert_ne by done.
        destruct (HE t') as [?|[Hin ?]]; [by left|right]. split; [|done]. apply elem_of_cons in Hin. by destruct Hin.
Qed.

Lemma saw_app h n P m' : saw (h ++ [m']) n P -> saw h n P \/ P m'.
Proof.
  intros (j & m & Hj & Hl & HP). apply lookup_app_Some in Hl. destruct Hl as [Hl|[Hge Hl]].
  - left. by exists j, m.
  - right. apply list_lookup_singleton_Some in Hl. destruct Hl as [_ <-]. done.
Qed.
Lemma saw_mono h n P m' : saw h n P -> saw (h ++ [m']) n P.
Proof. intros (j & m & Hj & Hl & HP). exists j, m. split; [done|]. split; [|done]. by apply lookup_app_l_Some. Qed.

Definition sem_still (o : op) (m : kvmap) (r : res) : bool :=
  match o, r with
  | OLoad k, ROpt x => bool_decide (x = m !! k)
  | OStore k v, RUnit => bool_decide (<[k := v]> m = m)
  | OLoadOrStore k v, RPair w true => bool_decide (m !! k = Some w)
  | OLoadOrCreate k, RPair w true => bool_decide (m !! k = Some w)
  | OLoadAndDelete k, ROpt None => bool_decide (m !! k = None)
  | _, _ => false
  end.
Lemma sem_still_spec o cr m r : sem o cr m r m <-> sem_still o m r = true.
Proof.
  assert (HI : forall k v, m !! k = None -> <[k := v]> m <> m).
  { intros k v Hn E. assert (HX : <[k := v]> m !! k = None) by (by rewrite E). by rewrite lookup_insert in HX. }
  split.
  - intros Hs. inversion Hs; subst; cbn; try (apply bool_decide_true; done); try (exfalso; by eapply HI);
      try (exfalso; match goal with HX : <[?k:=_]> _ !! ?k = None |- _ => by rewrite lookup_insert in HX end).
    { apply bool_decide_true. apply insert_insert. }
    rewrite lookup_delete. by apply bool_decide_true.
  - destruct o, r as [|[x|]|w [|]|]; cbn; try done; intros Hb; apply bool_decide_eq_true in Hb.
    + rewrite Hb. constructor.
    + rewrite Hb. constructor.
    + rewrite <- Hb at 2. constructor.
    + by constructor.
    + by constructor.
    + rewrite <- Hb. replace m with (delete k m) at 3 by (by apply delete_notin). constructor.
Qed.

(* undo, in every call that took place, what can be redone at the contents [m'] *)
Definition undo (s : gmap tid opend) (t : tid) (m' : kvmap) (t' : tid) (y : spend) : option spend :=
  Some match y with
  | mkSP o n cr (Some r) =>
      match s !! t' with
      | Some (mkOP _ _ _ None) => if (t' =? t)%nat then mkSP o n cr None
                                  else if sem_still o m' r then mkSP o n cr None else y
      | _ => y
      end
  | _ => y
  end.

Lemma device_sound es s : run ostep os_init es s ->
  os_hist s <> [] /\ forall u, matches s u -> run astep ss_init es u.
Proof.
  remember os_init as s0. intros Hr. induction Hr as [s|s es s1 ev s2 Hr IH Hs]; subst.
  { split; [done|]. intros [h p] [E1 E2]. cbn in E1. subst h. replace p with (∅ : gmap tid spend); [constructor|].
    apply map_eq. intros t. specialize (E2 t). cbn in E2. rewrite lookup_empty in E2. cbn in E2. rewrite lookup_empty. by destruct (p !! t). }
  destruct (IH eq_refl) as [Hne HU]. clear IH.
  inversion Hs; subst; cbn [os_hist os_pend] in *.
  - (* call *) split; [done|]. intros [h' p'] [E1 E2]. cbn in E1, E2. subst h'.
    pose proof (E2 t) as Et. rewrite lookup_insert in Et. cbn in Et.
    destruct (p' !! t) as [[o' n' cr' d']|] eqn:EP; [|done]. destruct Et as (<- & <- & <- & Hd).
    assert (HR0 : run astep ss_init es (mkSS h (delete t p'))).
    { apply HU. split; [done|]. cbn. intros t'. destruct (decide (t' = t)) as [->|Hn].
      - rewrite lookup_delete, H. done.
      - rewrite lookup_delete_ne by done. specialize (E2 t'). by rewrite lookup_insert_ne in E2 by done. }
    assert (HR1 : run astep ss_init (es ++ [EvCall t o]) (mkSS h (<[t := mkSP o (pred (length h)) [] None]> p'))).
    { eapply (run_snoc _ _ _ _ (Some _)) in HR0; [|apply (a_call h _ t o), lookup_delete]. by rewrite insert_delete_insert in HR0. }
    destruct d' as [r|].
    + destruct Hd as (j & m & Hj & Hlk & Hsm).
      assert (Hlast : last h = Some m).
      { rewrite last_lookup. replace (pred (length h)) with j; [done|]. apply lookup_lt_Some in Hlk. lia. }
      eapply run_silent; [exact HR1|]. replace p' with (<[t := mkSP o (pred (length h)) [] (Some r)]> (<[t := mkSP o (pred (length h)) [] None]> p')) at 2.
      * eapply a_read; [apply lookup_insert|done|done].
      * rewrite insert_insert. by apply insert_id.
    + by rewrite insert_id in HR1 by done.
  - (* create *) split; [done|]. intros [h' p'] [E1 E2]. cbn in E1, E2. subst h'.
    pose proof (E2 t) as Et. rewrite lookup_insert in Et. cbn in Et.
    destruct (p' !! t) as [[o' n' cr' d']|] eqn:EP; [|done]. destruct Et as (<- & <- & <- & Hd).
    assert (HR0 : run astep ss_init es (mkSS h (<[t := mkSP o n cr d']> p'))).
    { apply HU. split; [done|]. cbn. intros t'. destruct (decide (t' = t)) as [->|Hn].
      - rewrite lookup_insert, H. cbn. do 3 (split; [done|]). destruct d; [done|]. destruct d'; [|done].
        destruct Hd as (j & m & Hj & Hlk & Hsm). exists j, m. split; [done|]. split; [done|].
        apply sem_still_spec. by apply sem_still_spec in Hsm.
      - rewrite lookup_insert_ne by done. specialize (E2 t'). by rewrite lookup_insert_ne in E2 by done. }
    eapply (run_snoc _ _ _ _ (Some _)) in HR0; [|eapply (a_create h _ t o); [apply lookup_insert|done]].
    rewrite insert_insert, insert_id in HR0 by done. exact HR0.
  - (* effect *) split; [by destruct h|]. intros [h' p'] [E1 E2]. cbn in E1, E2. subst h'. rewrite app_nil_r.
    pose proof (E2 t) as Et. rewrite lookup_insert in Et. cbn in Et.
    destruct (p' !! t) as [[o' n' cr' d']|] eqn:EP; [|done]. destruct Et as (<- & <- & <- & ->).
    set (p0 := map_imap (undo p t m') p').
    assert (Hp0 : forall t', p0 !! t' = p' !! t' ≫= undo p t m' t') by (intros t'; apply map_lookup_imap).
    assert (Hp0t : p0 !! t = Some (mkSP o n cr None)).
    { rewrite Hp0, EP. cbn [mbind option_bind]. unfold undo. rewrite H, Nat.eqb_refl. done. }
    assert (HR0 : run astep ss_init es (mkSS h p0)).
    { apply HU. split; [done|]. cbn. intros t'. destruct (decide (t' = t)) as [->|Hn].
      - rewrite Hp0t, H. done.
      - specialize (E2 t'). rewrite lookup_insert_ne in E2 by done. rewrite Hp0.
        destruct (p !! t') as [[o2 n2 cr2 d2]|] eqn:E3, (p' !! t') as [[o3 n3 cr3 d3]|] eqn:E4; cbn in E2; try done; cbn [mbind option_bind]; unfold undo.
        destruct E2 as (<- & <- & <- & E2). apply Nat.eqb_neq in Hn.
        destruct d3 as [r3|]; [|done]. rewrite E3. destruct d2 as [r2|]; [by rewrite E2|]. rewrite Hn.
        destruct (sem_still o2 m' r3) eqn:ES; [done|]. do 3 (split; [done|]).
        apply saw_app in E2. destruct E2 as [E2|E2]; [done|]. apply sem_still_spec in E2. congruence. }
    assert (HR1 : run astep ss_init es (mkSS (h ++ [m']) (<[t := mkSP o n cr (Some r)]> p0))).
    { eapply run_silent; [exact HR0|]. by eapply a_write. }
    eapply (bulk_read es (h ++ [m']) m' (last_snoc _ _) (fst <$> map_to_list p')); [exact HR1|].
    intros t'. destruct (decide (t' = t)) as [->|Hn]; [left; by rewrite lookup_insert|].
    rewrite lookup_insert_ne by done. rewrite Hp0. apply Nat.eqb_neq in Hn.
    destruct (p' !! t') as [[o3 n3 cr3 d3]|] eqn:E4; [|by left]. cbn [mbind option_bind]; unfold undo.
    destruct d3 as [r3|]; [|by left]. destruct (p !! t') as [[o2 n2 cr2 [r2|]]|]; [by left| |by left].
    rewrite Hn. destruct (sem_still o3 m' r3) eqn:ES; [|by left]. right. split.
    + apply elem_of_list_fmap. exists (t', mkSP o3 n3 cr3 (Some r3)). split; [done|]. by apply elem_of_map_to_list.
    + exists o3, n3, cr3, r3. split; [done|]. split; [done|]. by apply sem_still_spec.
  - (* ret *) split; [done|]. intros [h' p'] [E1 E2]. cbn in E1, E2. subst h'.
    pose proof (E2 t) as Et. rewrite lookup_delete in Et. cbn in Et.
    destruct (p' !! t) as [[o' n' cr' d']|] eqn:EP; [done|].
    assert (HR0 : run astep ss_init es (mkSS h (<[t := mkSP o n cr (Some r)]> p'))).
    { apply HU. split; [done|]. cbn. intros t'. destruct (decide (t' = t)) as [->|Hn].
      - rewrite lookup_insert, H. cbn. do 3 (split; [done|]). match goal with HH : _ \/ _ |- _ => destruct HH as [-> | [-> Hw]]; done end.
      - rewrite lookup_insert_ne by done. specialize (E2 t'). by rewrite lookup_delete_ne in E2 by done. }
    eapply (run_snoc _ _ _ _ (Some _)) in HR0; [|eapply (a_ret h _ t o); apply lookup_insert].
    by rewrite delete_insert in HR0 by done.
  - (* range *) split; [done|]. intros [h' p'] [E1 E2]. cbn in E1, E2. subst h'.
    pose proof (E2 t) as Et. rewrite lookup_delete in Et. cbn in Et.
    destruct (p' !! t) as [[o' n' cr' d']|] eqn:EP; [done|].
    assert (HR0 : run astep ss_init es (mkSS h (<[t := mkSP ORange n cr None]> p'))).
    { apply HU. split; [done|]. cbn. intros t'. destruct (decide (t' = t)) as [->|Hn].
      - rewrite lookup_insert, H. cbn. done.
      - rewrite lookup_insert_ne by done. specialize (E2 t'). by rewrite lookup_delete_ne in E2 by done. }
    eapply (run_snoc _ _ _ _ (Some _)) in HR0; [|eapply (a_range h _ t); [apply lookup_insert|done]].
    by rewrite delete_insert in HR0 by done.
  - rewrite app_nil_r. by split.
Qed.

(* the state of the device seen as one of the atomic map *)
Theorem device_linearizable : linearizable ostep os_init.
Proof.
  intros es s Hr. destruct (device_sound es s Hr) as [_ HU].
  exists (mkSS (os_hist s) ((fun x => mkSP (op_op x) (op_start x) (op_created x) (op_eff x)) <$> os_pend s)).
  apply HU. split; [done|]. intros t. cbn. rewrite lookup_fmap. destruct (os_pend s !! t) as [[o n cr d]|]; [|done]. cbn.
  do 3 (split; [done|]). by destruct d.
Qed.
