(* RegProofs.v -- the registry after each part of addTunnel / removeTunnel, key by key *)
From Verif Require Import GoBase GoBaseLemmas HandshakeModel TcpModel RegModel.
Local Open Scope N_scope.

Section S.
Context (shuf : nat -> forall A : Type, list A -> list A).
Hypothesis (shuf_perm : forall n (A : Type) (l : list A), Permutation (shuf n A l) l).

Lemma delete_many {K A} `{Countable K} (l : list K) (r : gmap K A) k :
  foldl (fun r k => delete k r) r l !! k = if decide (k ∈ l) then None else r !! k.
Proof.
  revert r; induction l as [|x l IH]; intros r; cbn [foldl]; [by rewrite decide_False by set_solver|]. rewrite IH.
  destruct (decide (k ∈ l)) as [Hl|Hl]; [by rewrite decide_True by set_solver|]. destruct (decide (k = x)) as [->|Hne].
  - rewrite decide_True by set_solver. apply lookup_delete.
  - rewrite decide_False by set_solver. by rewrite lookup_delete_ne.
Qed.

(* the first loop of processHostPrefixes: it succeeds iff no key is owned by somebody else, and then adds exactly the
   missing keys; if it fails the registry is as before *)
Definition others_own (c : N) (ids : hpopts) (reg : regmap) : Prop :=
  exists p si tls c' si', ids !! p = Some (si, tls) /\ reg !! (p, tls) = Some (c', si') /\ c' <> c.
Lemma hp_add_spec c l reg rb : NoDup (l.*1) ->
  (forall k, k ∈ rb -> fst k ∉ l.*1 /\ exists si, reg !! k = Some (c, si)) -> NoDup (rb.*1) ->
  match hp_add shuf c l reg rb with
  | (true, r) => (forall p si tls, (p, (si, tls)) ∈ l -> forall c' si', reg !! (p, tls) = Some (c', si') -> c' = c)
                 /\ forall k, r !! k = match reg !! k with
                                       | Some x => Some x
                                       | None => match list_to_map (M := hpopts) l !! fst k with
                                                 | Some (si, tls) => if Bool.eqb tls (snd k) then Some (c, si) else None
                                                 | None => None
                                                 end
                                       end
  | (false, r) => (exists p si tls c' si', (p, (si, tls)) ∈ l /\ reg !! (p, tls) = Some (c', si') /\ c' <> c)
                  /\ forall k, r !! k = if decide (k ∈ rb) then None else reg !! k
  end.
Proof.
  revert reg rb; induction l as [|[p [si tls]] l IH]; intros reg rb Hnd Hrb Hndr; cbn [hp_add].
  { split; [set_solver|]. intros k. cbn. rewrite lookup_empty. by destruct (reg !! k). }
  cbn in Hnd. apply NoDup_cons in Hnd as [Hp Hnd].
  assert (list_to_map (M := hpopts) l !! p = None) as Hlp by (by apply not_elem_of_list_to_map_1).
  assert (p ∉ rb.*1) as Hprb.
  { intros Hin. apply elem_of_list_fmap in Hin as (k & -> & Hin). apply Hrb in Hin as [Hin _]. cbn in Hin. set_solver. }
  destruct (reg !! (p, tls)) as [[c' si']|] eqn:Hr.
  - destruct (N.eqb_spec c' c) as [->|Hne].
    + specialize (IH reg rb Hnd). destruct (hp_add shuf c l reg rb) as [[] r].
      * destruct IH as [Ha Hb]; [|done|].
        { intros k Hk. destruct (Hrb k Hk) as [H1 H2]. split; [|done]. cbn in H1. set_solver. }
        split.
        -- intros p0 si0 tls0 [[= -> -> ->]|Hin]%elem_of_cons c0 si0' Hr0; [congruence|by eapply Ha].
        -- intros k. rewrite Hb. destruct (reg !! k) as [x|] eqn:Hk; [done|]. cbn. destruct (decide (p = fst k)) as [->|Hne].
           ++ rewrite lookup_insert, Hlp. destruct k as [kp kt]; cbn in *. destruct (Bool.eqb_spec tls kt) as [->|]; [congruence|done].
           ++ by rewrite lookup_insert_ne.
      * destruct IH as [(p0 & si0 & tls0 & c0 & si1 & Hin & H1 & H2) Hb]; [|done|].
        { intros k Hk. destruct (Hrb k Hk) as [H1 H2]. split; [|done]. cbn in H1. set_solver. }
        split; [|done]. exists p0, si0, tls0, c0, si1. split; [by right|done].
    + split; [exists p, si, tls, c', si'; split; [left|done]|]. intros k. rewrite delete_many.
      destruct (decide (k ∈ rb)) as [Hk|Hk]; [by rewrite decide_True by (by rewrite shuf_perm)|by rewrite decide_False by (by rewrite shuf_perm)].
  - assert (forall k, k ∈ (p, tls) :: rb -> fst k ∉ l.*1 /\ exists si0, <[(p, tls) := (c, si)]> reg !! k = Some (c, si0)) as Hrb'.
    { intros k [->|Hk]%elem_of_cons; [cbn; split; [done|]; exists si; apply lookup_insert|].
      destruct (Hrb k Hk) as [H1 [si0 H2]]. split; [cbn in H1; set_solver|]. exists si0. rewrite lookup_insert_ne; [done|]. intros <-. congruence. }
    assert (NoDup (((p, tls) :: rb).*1)) as Hndr' by (cbn; by apply NoDup_cons).
    specialize (IH _ ((p, tls) :: rb) Hnd Hrb' Hndr'). destruct (hp_add shuf c l _ _) as [[] r].
    + destruct IH as [Ha Hb]. split.
      * intros p0 si0 tls0 [[= -> -> ->]|Hin]%elem_of_cons c0 si0' Hr0; [congruence|]. eapply (Ha _ _ _ Hin _ si0').
        rewrite lookup_insert_ne; [done|]. intros [= <- <-]. apply Hp. apply elem_of_list_fmap. by exists (p, (si0, tls)).
      * intros k. rewrite Hb. cbn. destruct (decide (k = (p, tls))) as [->|Hne].
        -- rewrite !lookup_insert, Hr. by rewrite Bool.eqb_reflx.
        -- rewrite lookup_insert_ne by congruence. destruct (reg !! k) as [x|] eqn:Hk; [done|]. destruct (decide (p = fst k)) as [->|Hnp].
           ++ rewrite lookup_insert, Hlp. destruct k as [kp kt]; cbn in *. destruct (Bool.eqb_spec tls kt) as [->|]; [congruence|done].
           ++ by rewrite lookup_insert_ne.
    + destruct IH as [(p0 & si0 & tls0 & c0 & si1 & Hin & H1 & H2) Hb]. split.
      * exists p0, si0, tls0, c0, si1. split; [by right|]. split; [|done]. rewrite lookup_insert_ne in H1; [done|]. intros [= <- <-].
        apply Hp. apply elem_of_list_fmap. by exists (p, (si0, tls)).
      * intros k. rewrite Hb. destruct (decide (k ∈ rb)) as [Hk|Hk].
        -- by rewrite decide_True by set_solver.
        -- destruct (decide (k = (p, tls))) as [->|Hne]; [by rewrite decide_True, Hr by set_solver|].
           rewrite decide_False by set_solver. by rewrite lookup_insert_ne by congruence.
Qed.
Lemma hp_add_ids c ids reg :
  match hp_add shuf c (shuf 5%nat _ (map_to_list ids)) reg [] with
  | (true, r) => ~ others_own c ids reg
                 /\ forall p tls, r !! (p, tls) = match reg !! (p, tls) with
                                       | Some x => Some x
                                       | None => match ids !! p with
                                                 | Some (si, tls') => if Bool.eqb tls' tls then Some (c, si) else None
                                                 | None => None
                                                 end
                                       end
  | (false, r) => others_own c ids reg /\ r = reg
  end.
Proof.
  assert (NoDup ((shuf 5%nat _ (map_to_list ids)).*1)) as Hnd by (rewrite shuf_perm; apply NoDup_fst_map_to_list).
  assert (forall p, list_to_map (M := hpopts) (shuf 5%nat _ (map_to_list ids)) !! p = ids !! p) as Hm.
  { intros p. rewrite <- (list_to_map_to_list ids) at 2. f_equal. by apply list_to_map_proper. }
  pose proof (hp_add_spec c (shuf 5%nat _ (map_to_list ids)) reg [] Hnd) as H. specialize (H ltac:(set_solver) ltac:(constructor)).
  destruct (hp_add shuf c _ reg []) as [[] r].
  - destruct H as [Ha Hb]. split.
    + intros (p & si & tls & c' & si' & Hp & Hr & Hne). apply Hne. eapply Ha; [|done]. rewrite shuf_perm. by apply elem_of_map_to_list.
    + intros p tls. rewrite Hb. cbn. by rewrite Hm.
  - destruct H as [(p & si & tls & c' & si' & Hin & Hr & Hne) Hb]. split.
    + exists p, si, tls, c', si'. split; [|done]. rewrite shuf_perm in Hin. by apply elem_of_map_to_list.
    + apply map_eq. intros k. rewrite Hb. by rewrite decide_False by set_solver.
Qed.

(* how the old prefixes of a tunnel are changed to the new ones *)
Definition upd (c : N) (old new : hpopts) (reg : regmap) (p : bytes) (tls : bool) : option (N * N) :=
  match old !! p with
  | Some (osi, otls) =>
      if Bool.eqb otls tls then
        match new !! p with
        | None => None
        | Some (si, ntls) => if Bool.eqb ntls tls then (if osi =? si then reg !! (p, tls) else Some (c, si)) else None
        end
      else reg !! (p, tls)
  | None => reg !! (p, tls)
  end.
Lemma hp_old_spec c new l reg p tls : NoDup (l.*1) ->
  hp_old c new l reg !! (p, tls) = upd c (list_to_map l) new reg p tls.
Proof.
  revert reg; induction l as [|[q [osi otls]] l IH]; intros reg Hnd; cbn [hp_old].
  { unfold upd. cbn. by rewrite lookup_empty. }
  cbn in Hnd. apply NoDup_cons in Hnd as [Hq Hnd]. rewrite IH by done. unfold upd. cbn [list_to_map foldr]. cbn.
  destruct (decide (q = p)) as [->|Hne].
  - rewrite lookup_insert. rewrite (not_elem_of_list_to_map_1 (M := gmap (list N))) by done.
    destruct (Bool.eqb_spec otls tls) as [->|Ht].
    + destruct (new !! p) as [[si ntls]|]; [|by rewrite lookup_delete]. destruct (Bool.eqb_spec tls ntls) as [->|Hnt]; cbn [negb].
      * rewrite Bool.eqb_reflx. destruct (N.eqb_spec osi si); cbn [negb]; [done|by rewrite lookup_insert].
      * rewrite lookup_delete. destruct (Bool.eqb_spec ntls tls); [congruence|done].
    + destruct (new !! p) as [[si ntls]|]; [|by rewrite lookup_delete_ne by congruence]. destruct (Bool.eqb otls ntls); cbn [negb].
      * destruct (osi =? si); cbn [negb]; [done|by rewrite lookup_insert_ne by congruence].
      * by rewrite lookup_delete_ne by congruence.
  - rewrite lookup_insert_ne by done.
    assert (forall r' : regmap, r' !! (p, tls) = reg !! (p, tls) -> 
      match list_to_map (M := hpopts) l !! p with
      | Some (osi0, otls0) => if Bool.eqb otls0 tls then match new !! p with
           | Some (si, ntls) => if Bool.eqb ntls tls then (if osi0 =? si then r' !! (p, tls) else Some (c, si)) else None | None => None end
           else r' !! (p, tls)
      | None => r' !! (p, tls) end =
      match list_to_map (M := hpopts) l !! p with
      | Some (osi0, otls0) => if Bool.eqb otls0 tls then match new !! p with
           | Some (si, ntls) => if Bool.eqb ntls tls then (if osi0 =? si then reg !! (p, tls) else Some (c, si)) else None | None => None end
           else reg !! (p, tls)
      | None => reg !! (p, tls) end) as HH by (intros r' ->; done).
    apply HH. destruct (new !! q) as [[si ntls]|]; [|by rewrite lookup_delete_ne by congruence].
    destruct (Bool.eqb otls ntls); cbn [negb]; [|by rewrite lookup_delete_ne by congruence]. destruct (osi =? si); cbn [negb]; [done|by rewrite lookup_insert_ne by congruence].
Qed.
Lemma hp_old_ids n c new old reg p tls : hp_old c new (shuf n _ (map_to_list old)) reg !! (p, tls) = upd c old new reg p tls.
Proof.
  rewrite hp_old_spec by (rewrite shuf_perm; apply NoDup_fst_map_to_list). f_equal.
  rewrite <- (list_to_map_to_list old) at 2. apply list_to_map_proper; [|apply shuf_perm]. rewrite shuf_perm. apply NoDup_fst_map_to_list.
Qed.

(* the same through the old tunnels of addTunnel, when they all have the same configuration *)
Lemma tun_changes_spec new l m p : NoDup (l.*1) ->
  tun_changes new l m !! p =
  match list_to_map (M := hpopts) l !! p with
  | Some osi => match new !! p with
                | None => Some (osi, None)
                | Some si => if decide (osi = si) then m !! p else Some (osi, Some si)
                end
  | None => m !! p
  end.
Proof.
  revert m; induction l as [|[q osi] l IH]; intros m Hnd; cbn [tun_changes]; [cbn; by rewrite lookup_empty|].
  cbn in Hnd. apply NoDup_cons in Hnd as [Hq Hnd]. rewrite IH by done. cbn. destruct (decide (q = p)) as [->|Hne].
  - rewrite lookup_insert, (not_elem_of_list_to_map_1 (M := gmap (list N))) by done. destruct (new !! p) as [si|]; [|by rewrite lookup_insert].
    destruct (decide (osi = si)); [done|by rewrite lookup_insert].
  - rewrite lookup_insert_ne by done. destruct (new !! q) as [si|]; [|by rewrite lookup_insert_ne].
    destruct (decide (osi = si)); [done|by rewrite lookup_insert_ne].
Qed.
Definition changes_of (new old : hpopts) (m : gmap (list N) ((N * bool) * option (N * bool))) : Prop :=
  forall p, m !! p = match old !! p with
                     | Some osi => match new !! p with
                                   | None => Some (osi, None)
                                   | Some si => if decide (osi = si) then None else Some (osi, Some si)
                                   end
                     | None => None
                     end.
Lemma old_changes_same new old chk ts m : (m = ∅ \/ exists m0, m = {[ chk := m0 ]} /\ changes_of new old m0) ->
  Forall (fun t => tIds t = old /\ tChk t = chk) ts -> (ts = [] -> m <> ∅) ->
  exists m0, old_changes shuf new ts m = {[ chk := m0 ]} /\ changes_of new old m0.
Proof.
  revert m; induction ts as [|t ts IH]; intros m Hm Hf Hne; cbn [old_changes].
  { destruct Hm as [->|(m0 & -> & H)]; [by destruct Hne|by exists m0]. }
  apply Forall_cons_1 in Hf as [[Hi Hc] Hf]. apply IH; [|done|].
  - right. rewrite Hi, Hc. set (m0 := default ∅ (m !! chk)).
    exists (tun_changes new (shuf 4%nat _ (map_to_list old)) m0). split.
    + destruct Hm as [->|(m1 & -> & H)]; [done|]. by rewrite insert_singleton.
    + intros p. rewrite tun_changes_spec by (rewrite shuf_perm; apply NoDup_fst_map_to_list).
      assert (list_to_map (M := hpopts) (shuf 4%nat _ (map_to_list old)) !! p = old !! p) as ->.
      { rewrite <- (list_to_map_to_list old) at 2. f_equal. apply list_to_map_proper; [|apply shuf_perm]. rewrite shuf_perm. apply NoDup_fst_map_to_list. }
      assert (m0 = ∅ \/ changes_of new old m0) as Hm0.
      { subst m0. destruct Hm as [->|(m1 & -> & H)]; [left; done|]. right. by rewrite lookup_singleton. }
      destruct (old !! p) as [osi|] eqn:Ho.
      * destruct (new !! p) as [si|] eqn:Hn; [|done]. destruct (decide (osi = si)) as [->|]; [|done].
        destruct Hm0 as [->|Hm0]; [apply lookup_empty|]. rewrite Hm0, Ho, Hn. by rewrite decide_True.
      * destruct Hm0 as [->|Hm0]; [apply lookup_empty|]. by rewrite Hm0, Ho.
  - intros _. apply insert_non_empty.
Qed.
Lemma apply_changes_spec c l reg p tls : NoDup (l.*1) ->
  apply_changes c l reg !! (p, tls) =
  match list_to_map (M := gmap (list N) ((N * bool) * option (N * bool))) l !! p with
  | Some ((osi, otls), new) =>
      match new with
      | None => if Bool.eqb otls tls then None else reg !! (p, tls)
      | Some (si, ntls) => if negb (Bool.eqb otls ntls) then (if Bool.eqb otls tls then None else reg !! (p, tls))
                           else if Bool.eqb ntls tls then Some (c, si) else reg !! (p, tls)
      end
  | None => reg !! (p, tls)
  end.
Proof.
  revert reg; induction l as [|[q [[osi otls] ch]] l IH]; intros reg Hnd; cbn [apply_changes]; [cbn; by rewrite lookup_empty|].
  cbn in Hnd. apply NoDup_cons in Hnd as [Hq Hnd]. rewrite IH by done. cbn. destruct (decide (q = p)) as [->|Hne].
  - rewrite lookup_insert, not_elem_of_list_to_map_1 by done. destruct ch as [[si ntls]|].
    + destruct (Bool.eqb_spec otls ntls) as [->|Hn]; cbn [negb].
      * destruct (Bool.eqb_spec ntls tls) as [->|]; [apply lookup_insert|by rewrite lookup_insert_ne by congruence].
      * destruct (Bool.eqb_spec otls tls) as [->|]; [apply lookup_delete|by rewrite lookup_delete_ne by congruence].
    + destruct (Bool.eqb_spec otls tls) as [->|]; [apply lookup_delete|by rewrite lookup_delete_ne by congruence].
  - rewrite lookup_insert_ne by done.
    assert ((match ch with
         | None => delete (q, otls) reg
         | Some (si, ntls) => if negb (Bool.eqb otls ntls) then delete (q, otls) reg else <[(q, ntls) := (c, si)]> reg
         end) !! (p, tls) = reg !! (p, tls)) as ->; [|done].
    destruct ch as [[si ntls]|]; [|by rewrite lookup_delete_ne by congruence].
    destruct (Bool.eqb otls ntls); cbn [negb]; [by rewrite lookup_insert_ne by congruence|by rewrite lookup_delete_ne by congruence].
Qed.
Lemma old_tunnels_spec new old chk ts c reg p tls : ts <> [] -> Forall (fun t => tIds t = old /\ tChk t = chk) ts ->
  foldl (fun r cm => apply_changes c (shuf 9%nat _ (map_to_list (snd cm))) r) reg
        (shuf 8%nat _ (map_to_list (old_changes shuf new ts ∅))) !! (p, tls) = upd c old new reg p tls.
Proof.
  intros Hne Hf. destruct (old_changes_same new old chk ts ∅) as (m0 & -> & Hm0); [by left|done|done|].
  rewrite map_to_list_singleton. assert (shuf 8%nat _ [(chk, m0)] = [(chk, m0)]) as ->.
  { apply Permutation_singleton_r. apply shuf_perm. }
  cbn [foldl snd]. rewrite apply_changes_spec by (rewrite shuf_perm; apply NoDup_fst_map_to_list).
  assert (list_to_map (shuf 9%nat _ (map_to_list m0)) !! p = m0 !! p) as ->.
  { rewrite <- (list_to_map_to_list m0) at 2. f_equal. apply list_to_map_proper; [|apply shuf_perm]. rewrite shuf_perm. apply NoDup_fst_map_to_list. }
  rewrite Hm0. unfold upd. destruct (old !! p) as [[osi otls]|]; [|done]. destruct (new !! p) as [[si ntls]|].
  - destruct (decide ((osi, otls) = (si, ntls))) as [[= -> ->]|Hd].
    + destruct (Bool.eqb ntls tls); [by rewrite N.eqb_refl|done].
    + destruct (Bool.eqb_spec otls ntls) as [->|Hn]; cbn [negb].
      * destruct (N.eqb_spec osi si) as [->|]; [done|]. by destruct (Bool.eqb ntls tls).
      * destruct (Bool.eqb_spec otls tls) as [->|]; [|done]. by destruct (Bool.eqb_spec ntls tls) as [->|].
  - done.
Qed.
(* what one registration does to the registry when the entries of the client are exactly its old configuration *)
Definition routes (c : N) (ids : hpopts) (reg : regmap) : Prop :=
  forall p tls si, reg !! (p, tls) = Some (c, si) <-> ids !! p = Some (si, tls).
Lemma upd_routes c old new reg r1 r2 : routes c old reg -> ~ others_own c new reg ->
  (forall p tls, r1 !! (p, tls) = match reg !! (p, tls) with
                                       | Some x => Some x
                                       | None => match new !! p with
                                                 | Some (si, tls') => if Bool.eqb tls' tls then Some (c, si) else None
                                                 | None => None
                                                 end
                                       end) ->
  (forall p tls, r2 !! (p, tls) = upd c old new r1 p tls) ->
  routes c new r2 /\ (forall c' p tls si, c' <> c -> r2 !! (p, tls) = Some (c', si) <-> reg !! (p, tls) = Some (c', si)).
Proof.
  intros Hold Hno H1 H2.
  assert (forall p tls, r2 !! (p, tls) =
    match reg !! (p, tls) with
    | Some (c', si') => if decide (c' = c) then (match new !! p with Some (si, ntls) => if Bool.eqb ntls tls then Some (c, si) else None | None => None end)
                        else Some (c', si')
    | None => match new !! p with Some (si, ntls) => if Bool.eqb ntls tls then Some (c, si) else None | None => None end
    end) as HH.
  { intros p tls. rewrite H2. unfold upd. rewrite H1. destruct (reg !! (p, tls)) as [[c' si']|] eqn:Hr.
    - destruct (decide (c' = c)) as [->|Hne].
      + pose proof (proj1 (Hold p tls si') Hr) as Ho. rewrite Ho, Bool.eqb_reflx. destruct (new !! p) as [[si ntls]|]; [|done].
        destruct (Bool.eqb ntls tls); [|done]. destruct (N.eqb_spec si' si) as [->|]; done.
      + destruct (old !! p) as [[osi otls]|] eqn:Ho; [|done]. destruct (Bool.eqb_spec otls tls) as [->|]; [|done].
        apply Hold in Ho. congruence.
    - destruct (old !! p) as [[osi otls]|] eqn:Ho; [|done]. destruct (Bool.eqb_spec otls tls) as [->|]; [|done].
      apply Hold in Ho. congruence. }
  split.
  - intros p tls si. rewrite HH. destruct (reg !! (p, tls)) as [[c' si']|] eqn:Hr.
    + destruct (decide (c' = c)) as [->|Hne].
      * destruct (new !! p) as [[si0 ntls]|]; [|done]. destruct (Bool.eqb_spec ntls tls) as [->|]; split; congruence.
      * split; [congruence|]. intros Hn. destruct Hno. by exists p, si, tls, c', si'.
    + destruct (new !! p) as [[si0 ntls]|]; [|done]. destruct (Bool.eqb_spec ntls tls) as [->|]; split; congruence.
  - intros c' p tls si Hne. rewrite HH. destruct (reg !! (p, tls)) as [[c0 si0]|] eqn:Hr.
    + destruct (decide (c0 = c)) as [->|Hne'].
      * split; [|congruence]. destruct (new !! p) as [[? ntls]|]; [|done]. destruct (Bool.eqb ntls tls); congruence.
      * done.
    + split; [|done]. destruct (new !! p) as [[? ntls]|]; [|done]. destruct (Bool.eqb ntls tls); congruence.
Qed.
(* removing a client's last tunnel *)
Lemma remove_routes n c ids reg : routes c ids reg ->
  let r := foldl (fun r (e : bytes * (N * bool)) => delete (fst e, snd (snd e)) r) reg (shuf n _ (map_to_list ids)) in
  (forall p tls si, r !! (p, tls) <> Some (c, si)) /\ (forall c' p tls si, c' <> c -> r !! (p, tls) = Some (c', si) <-> reg !! (p, tls) = Some (c', si)).
Proof.
  intros Hr r. assert (forall k, r !! k = if decide (k ∈ map (fun e : bytes * (N * bool) => (fst e, snd (snd e))) (shuf n _ (map_to_list ids))) then None else reg !! k) as HH.
  { intros k. rewrite <- (delete_many (A := N * N)). f_equal. subst r. generalize reg. clear Hr.
    induction (shuf n _ (map_to_list ids)) as [|e l IH]; intros reg0; [done|]. cbn. apply IH. }
  assert (forall p tls, (p, tls) ∈ map (fun e : bytes * (N * bool) => (fst e, snd (snd e))) (shuf n _ (map_to_list ids)) <-> exists si, ids !! p = Some (si, tls)) as Hin.
  { intros p tls. rewrite elem_of_list_fmap. split.
    - intros ([q [si t]] & [= -> ->] & H). rewrite shuf_perm in H. apply elem_of_map_to_list in H. by exists si.
    - intros [si H]. exists (p, (si, tls)). split; [done|]. rewrite shuf_perm. by apply elem_of_map_to_list. }
  split.
  - intros p tls si. rewrite HH. destruct (decide _) as [|Hn]; [done|]. intros H. apply Hn, Hin. exists si. by apply Hr.
  - intros c' p tls si Hne. rewrite HH. destruct (decide _) as [Hi|Hn]; [|done]. apply Hin in Hi as [si0 H]. apply Hr in H. split; congruence.
Qed.
End S.
