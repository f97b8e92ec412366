(* Props_Checksum.v -- C29: does the checksum of a configuration identify it *)
From stdpp Require Import sorting.
From Verif Require Import GoBase GoBaseLemmas BufioModel HandshakeModel ChecksumModel TcpModel RegModel RegProofs RegInv Props_Reg.
Local Open Scope N_scope.

(* ---- specification: the configurations for which it does ---- *)
(* the service index of each entry is its own (this is so for what parseOptions makes) *)
Definition own_index (ids : hpopts) (ports : tcpopts) : Prop :=
  (forall p1 p2 si t1 t2, ids !! p1 = Some (si, t1) -> ids !! p2 = Some (si, t2) -> p1 = p2) /\
  (forall p si t, ids !! p = Some (si, t) -> ports !! si = None).
(* at most 256 services; prefixes are non-empty, made of characters >= ' ' and do not end in "-tls" *)
Definition plain (ids : hpopts) (ports : tcpopts) : Prop :=
  (forall p si t, ids !! p = Some (si, t) -> si < 256 /\ p <> [] /\ Forall (fun b => 32 <= b /\ b < 256) p /\ ~ ([45; 116; 108; 115] `suffix_of` p)) /\
  (forall si port r, ports !! si = Some (port, r) -> si < 256 /\ port < 65536).

(* ---- the tree ---- *)
Section T.
Context (shuf : nat -> forall A : Type, list A -> list A).
Hypothesis (shuf_perm : perm shuf).
Definition str_of (p : bytes) (t : bool) : bytes := if t then p ++ tls_suffix else p.
Lemma tree_ids l (m : gmap N cval) si v : NoDup (map (fun e : bytes * (N * bool) => fst (snd e)) l) ->
  foldl (fun m (e : bytes * (N * bool)) => <[fst (snd e) := CStr (if snd (snd e) then fst e ++ tls_suffix else fst e)]> m) m l !! si = Some v <->
  (exists p t, (p, (si, t)) ∈ l /\ v = CStr (str_of p t)) \/ (~ (exists p t, (p, (si, t)) ∈ l) /\ m !! si = Some v).
Proof.
  revert m; induction l as [|[p [s t]] l IH]; intros m Hnd; cbn [foldl].
  { split; [intros Hm; right; split; [intros (? & ? & H); by apply elem_of_nil in H|done]|]. intros [(? & ? & H & _)|[_ H]]; [by apply elem_of_nil in H|done]. }
  cbn [map fst snd] in Hnd. apply NoDup_cons in Hnd as [Hs Hnd]. rewrite IH by done. cbn [fst snd].
  assert (forall q t', (q, (s, t')) ∉ l) as Hs'. { intros q t' H. apply Hs. apply elem_of_list_fmap. by exists (q, (s, t')). }
  destruct (decide (si = s)) as [->|Hne].
  - rewrite lookup_insert. split.
    + intros [(q & t' & H & _)|[_ [= <-]]]; [by apply Hs' in H|]. left. exists p, t. split; [left|by destruct t].
    + intros [(q & t' & [[= -> ->]|H]%elem_of_cons & ->)|[H _]]; [|by apply Hs' in H|].
      * right. split; [intros (? & ? & H); by apply Hs' in H|]. by destruct t.
      * exfalso. apply H. exists p, t. left.
  - rewrite lookup_insert_ne by congruence. split.
    + intros [(q & t' & H & ->)|[H1 H2]]; [left; exists q, t'; split; [by right|done]|]. right. split; [|done].
      intros (q & t' & [[= -> -> ->]|H]%elem_of_cons); [done|]. apply H1. by exists q, t'.
    + intros [(q & t' & [[= -> -> ->]|H]%elem_of_cons & ->)|[H1 H2]]; [done|left; by exists q, t'|]. right. split; [|done].
      intros (q & t' & H). apply H1. exists q, t'. by right.
Qed.
Lemma tree_ports l (m : gmap N cval) si v : NoDup (l.*1) ->
  foldl (fun m (e : N * (N * bool)) => <[fst e := CPort (fst (snd e)) (snd (snd e))]> m) m l !! si = Some v <->
  (exists port r, (si, (port, r)) ∈ l /\ v = CPort port r) \/ (si ∉ l.*1 /\ m !! si = Some v).
Proof.
  revert m; induction l as [|[s [port r]] l IH]; intros m Hnd; cbn [foldl].
  { split; [intros Hm; right; split; [cbn; apply not_elem_of_nil|done]|]. intros [(? & ? & H & _)|[_ H]]; [by apply elem_of_nil in H|done]. }
  cbn in Hnd. apply NoDup_cons in Hnd as [Hs Hnd]. rewrite IH by done. cbn [fst snd].
  assert (forall q, (s, q) ∉ l) as Hs'. { intros q H. apply Hs. apply elem_of_list_fmap. by exists (s, q). }
  destruct (decide (si = s)) as [->|Hne].
  - rewrite lookup_insert. cbn. split.
    + intros [(q & t' & H & _)|[_ [= <-]]]; [by apply Hs' in H|]. left. exists port, r. split; [left|done].
    + intros [(q & t' & [[= -> ->]|H]%elem_of_cons & ->)|[H _]]; [right; done|by apply Hs' in H|]. exfalso. apply H. left.
  - rewrite lookup_insert_ne by congruence. cbn. split.
    + intros [(q & t' & H & ->)|[H1 H2]]; [left; exists q, t'; split; [by right|done]|]. right. split; [|done]. intros [->|H]%elem_of_cons; done.
    + intros [(q & t' & [[= -> -> ->]|H]%elem_of_cons & ->)|[H1 H2]]; [done|left; by exists q, t'|]. right. split; [|done]. intros H. apply H1. by right.
Qed.
Lemma tree_spec ids ports si v : own_index ids ports -> cs_tree shuf ids ports !! si = Some v <->
  (exists p t, ids !! p = Some (si, t) /\ v = CStr (str_of p t)) \/ (exists port r, ports !! si = Some (port, r) /\ v = CPort port r).
Proof.
  intros [H1 H2]. unfold cs_tree. rewrite tree_ports by (rewrite (shuf_perm 1%nat); apply NoDup_fst_map_to_list). rewrite tree_ids.
  2: { rewrite (shuf_perm 0%nat).
       assert (forall l : list (bytes * (N * bool)), NoDup l -> (forall p1 p2 si t1 t2, (p1, (si, t1)) ∈ l -> (p2, (si, t2)) ∈ l -> (p1, t1) = (p2, t2)) ->
          NoDup (map (fun e : bytes * (N * bool) => fst (snd e)) l)) as Haux.
       { clear. induction l as [|[p [s t]] l IH]; intros Hnd Hinj; [constructor|]. apply NoDup_cons in Hnd as [Hn Hnd]. cbn. apply NoDup_cons. split.
         - intros H. apply elem_of_list_fmap in H as ([p' [s' t']] & Hs & H). cbn in Hs. subst s'. apply Hn.
           assert ((p, t) = (p', t')) as [= -> ->]; [|done]. eapply Hinj; [left|by right].
         - apply IH; [done|]. intros. eapply Hinj; by right. }
       apply Haux; [apply NoDup_map_to_list|]. intros p1 p2 s t1 t2 E1%elem_of_map_to_list E2%elem_of_map_to_list.
       assert (p1 = p2) as -> by (by eapply H1). congruence. }
  assert (si ∉ (shuf 1%nat _ (map_to_list ports)).*1 <-> ports !! si = None) as Hp.
  { rewrite (shuf_perm 1%nat). split.
    - intros H. apply eq_None_not_Some. intros [x Hx]. apply H. apply elem_of_list_fmap. exists (si, x). split; [done|]. by apply elem_of_map_to_list.
    - intros H ([s x] & -> & Hx%elem_of_map_to_list)%elem_of_list_fmap. cbn in H. congruence. }
  assert (forall port r, (si, (port, r)) ∈ shuf 1%nat _ (map_to_list ports) <-> ports !! si = Some (port, r)) as Hq.
  { intros. rewrite (shuf_perm 1%nat). apply elem_of_map_to_list. }
  assert (forall p t, (p, (si, t)) ∈ shuf 0%nat _ (map_to_list ids) <-> ids !! p = Some (si, t)) as Hi.
  { intros. rewrite (shuf_perm 0%nat). apply elem_of_map_to_list. }
  rewrite Hp. split.
  - intros [(port & r & H & ->)|[Hn [(p & t & H & ->)|[_ H]]]].
    + right. exists port, r. split; [by apply Hq|done].
    + left. exists p, t. split; [by apply Hi|done].
    + by rewrite lookup_empty in H.
  - intros [(p & t & H & ->)|(port & r & H & ->)].
    + right. split; [by eapply H2|]. left. exists p, t. split; [by apply Hi|done].
    + left. exists port, r. split; [by apply Hq|done].
Qed.
End T.

(* the checksum of a configuration does not depend on the order in which the maps are visited *)
Theorem C29_deterministic shuf1 shuf2 ids ports : perm shuf1 -> perm shuf2 -> own_index ids ports ->
  preimage shuf1 ids ports = preimage shuf2 ids ports.
Proof.
  intros H1 H2 Ho. unfold preimage. f_equal. apply map_eq. intros si. apply option_eq. intros v. by rewrite !tree_spec.
Qed.

(* ---- reading the bytes back ---- *)
Definition val_ok (v : cval) : Prop :=
  match v with
  | CStr s => s <> [] /\ Forall (fun b => 32 <= b) s
  | CPort p _ => p < 65536
  end.
Definition key_lt (a b : N * cval) : Prop := fst a < fst b.
Definition enc (l : list (N * cval)) : bytes := concat (map cs_entry l).
Lemma be16_small k : k < 256 -> be16 k = [0; k].
Proof. intros H. unfold be16, u8. rewrite N.shiftr_div_pow2. change (2 ^ 8) with 256. rewrite (N.div_small k), (N.mod_small k) by done. done. Qed.
Lemma enc_head l k v l' : l = (k, v) :: l' -> k < 256 -> enc l = 0 :: k :: cs_val v ++ enc l'.
Proof. intros -> Hk. unfold enc. cbn [map concat]. unfold cs_entry. cbn [fst snd]. rewrite be16_small by done. done. Qed.
Lemma printable_split (s1 s2 r1 r2 : bytes) : Forall (fun b => 32 <= b) s1 -> Forall (fun b => 32 <= b) s2 ->
  (r1 = [] \/ exists x, r1 = 0 :: x) -> (r2 = [] \/ exists x, r2 = 0 :: x) -> s1 ++ r1 = s2 ++ r2 -> s1 = s2 /\ r1 = r2.
Proof.
  revert s2; induction s1 as [|b s1 IH]; intros [|b2 s2] F1 F2 H1 H2 E; cbn in E.
  - done.
  - subst r1. apply Forall_cons_1 in F2 as [F _]. destruct H1 as [?|[x [= -> _]]]; [done|lia].
  - subst r2. apply Forall_cons_1 in F1 as [F _]. destruct H2 as [?|[x [= -> _]]]; [done|lia].
  - injection E as -> E. apply Forall_cons_1 in F1 as [_ F1], F2 as [_ F2]. destruct (IH _ F1 F2 H1 H2 E) as [-> ->]. done.
Qed.
Lemma enc_rest l k0 : Forall (fun e => fst e < 256 /\ val_ok (snd e)) l -> Forall (fun e => k0 < fst e) l ->
  l = [] \/ exists k v l', l = (k, v) :: l' /\ k0 < k < 256 /\ val_ok v /\ enc l = 0 :: k :: cs_val v ++ enc l'.
Proof.
  destruct l as [|[k v] l']; [by left|]. intros F1 F2. apply Forall_cons_1 in F1 as [[Hk Hv] _], F2 as [Hk0 _]. right. exists k, v, l'. split_and!; try done.
  by apply enc_head.
Qed.
Lemma port_bytes_inj p1 p2 : p1 < 65536 -> p2 < 65536 -> be16 p1 = be16 p2 -> p1 = p2.
Proof.
  unfold be16, u8. rewrite !N.shiftr_div_pow2. change (2 ^ 8) with 256. intros H1 H2 [= E1 E2].
  rewrite (N.mod_small (p1 / 256)), (N.mod_small (p2 / 256)) in E1 by (apply N.div_lt_upper_bound; lia). rewrite (N.div_mod p1 256), (N.div_mod p2 256) by lia. congruence.
Qed.
(* a string and a port after the same key cannot be told to be the same bytes *)
Lemma str_not_port s port r l1 l2 k : s <> [] -> Forall (fun b => 32 <= b) s -> k < 256 ->
  Forall (fun e => fst e < 256 /\ val_ok (snd e)) l1 -> Forall (fun e => fst e < 256 /\ val_ok (snd e)) l2 ->
  StronglySorted key_lt l1 -> StronglySorted key_lt l2 -> Forall (fun e => k < fst e) l1 -> Forall (fun e => k < fst e) l2 ->
  s ++ enc l1 <> cs_val (CPort port r) ++ enc l2.
Proof.
  intros Hs Fs Hk F1 F2 S1 S2 G1 G2 E. cbn in E. set (b0 := u8 (N.shiftr port 8)) in *. set (b1 := u8 port) in *. set (rb := if r then 1 else 0) in *.
  assert (rb = 0 \/ rb = 1) as Hrb by (subst rb; destruct r; auto).
  destruct s as [|c0 [|c1 [|c2 s]]]; [done| | |].
  - (* one character *)
    cbn in E. injection E as Ec E. destruct (enc_rest l1 k F1 G1) as [->|(k1 & v1 & l1' & -> & Hk1 & Hv1 & Ee)]; [done|]. rewrite Ee in E. injection E as Eb1 Erb E.
    assert (k1 = 1 /\ k = 0) as [-> ->] by lia.
    destruct (enc_rest l2 0 F2 G2) as [->|(k2 & v2 & l2' & -> & Hk2 & Hv2 & Ee2)].
    { cbn in E. apply app_eq_nil in E as [E _]. destruct v1 as [s1|p1 r1]; [by destruct Hv1|done]. }
    rewrite Ee2 in E. destruct v1 as [s1|p1 r1].
    { destruct Hv1 as [Hne1 Fs1]. destruct s1 as [|d s1]; [done|]. injection E as -> _. apply Forall_cons_1 in Fs1 as [? _]. lia. }
    cbn in E. injection E as E0 E1 E. set (rb1 := if r1 then 1 else 0) in *. assert (rb1 = 0 \/ rb1 = 1) as Hrb1 by (subst rb1; destruct r1; auto).
    destruct v2 as [s2|p2 r2].
    { destruct Hv2 as [Hne2 Fs2]. destruct s2 as [|d s2]; [done|]. injection E as Ed _. apply Forall_cons_1 in Fs2 as [? _]. lia. }
    cbn in E. injection E as Ed E. apply StronglySorted_inv in S1 as [S1' G1']. apply Forall_cons_1 in F1 as [_ F1'].
    destruct (enc_rest l1' 1 F1') as [->|(k3 & v3 & l3' & -> & Hk3 & Hv3 & Ee3)]; [done|done|]. rewrite Ee3 in E. injection E as E4 E5 _. destruct r2; lia.
  - cbn in E. injection E as Ec0 Ec1 E. destruct (enc_rest l1 k F1 G1) as [->|(k1 & v1 & l1' & -> & Hk1 & Hv1 & Ee)]; [done|]. rewrite Ee in E. injection E as Erb E.
    destruct (enc_rest l2 k F2 G2) as [->|(k2 & v2 & l2' & -> & Hk2 & Hv2 & Ee2)]; [done|]. rewrite Ee2 in E. injection E as E _. lia.
  - cbn in E. injection E as _ _ E _. apply Forall_cons_1 in Fs as [_ Fs]. apply Forall_cons_1 in Fs as [_ Fs]. apply Forall_cons_1 in Fs as [Fs _]. lia.
Qed.
Lemma enc_inj l1 l2 : Forall (fun e => fst e < 256 /\ val_ok (snd e)) l1 -> Forall (fun e => fst e < 256 /\ val_ok (snd e)) l2 ->
  StronglySorted key_lt l1 -> StronglySorted key_lt l2 -> enc l1 = enc l2 -> l1 = l2.
Proof.
  revert l2; induction l1 as [|[k v] l1 IH]; intros [|[k2 v2] l2] F1 F2 S1 S2 E; [done| | |].
  { apply Forall_cons_1 in F2 as [[? _] _]. rewrite (enc_head ((k2, v2) :: l2) k2 v2 l2 eq_refl) in E by done. discriminate E. }
  { apply Forall_cons_1 in F1 as [[? _] _]. rewrite (enc_head ((k, v) :: l1) k v l1 eq_refl) in E by done. discriminate E. }
  apply Forall_cons_1 in F1 as [[Hk Hv] F1], F2 as [[Hk2 Hv2] F2]. cbn [fst snd] in *. apply StronglySorted_inv in S1 as [S1 G1], S2 as [S2 G2].
  rewrite (enc_head ((k, v) :: l1) k v l1 eq_refl), (enc_head ((k2, v2) :: l2) k2 v2 l2 eq_refl) in E by done. injection E as <- E.
  assert (forall l, Forall (key_lt (k, v)) l -> Forall (fun e => k < fst e) l) as HF by (intros l HH; eapply Forall_impl; [exact HH|done]).
  assert (forall l, Forall (key_lt (k, v2)) l -> Forall (fun e => k < fst e) l) as HF2 by (intros l HH; eapply Forall_impl; [exact HH|done]).
  assert (forall l k0, Forall (fun e => fst e < 256 /\ val_ok (snd e)) l -> Forall (fun e => k0 < fst e) l -> enc l = [] \/ exists x, enc l = 0 :: x) as Hst.
  { intros l k0 H1 H2. destruct (enc_rest l k0 H1 H2) as [->|(? & ? & ? & _ & _ & _ & ->)]; [by left|right; by eexists]. }
  assert (v = v2 /\ enc l1 = enc l2) as [-> E'].
  { destruct v as [s|p r], v2 as [s2|p2 r2].
    - destruct Hv, Hv2. destruct (printable_split s s2 (enc l1) (enc l2)) as [-> ->]; eauto.
    - exfalso. destruct Hv. by eapply (str_not_port s p2 r2 l1 l2 k); eauto.
    - exfalso. destruct Hv2. symmetry in E. by eapply (str_not_port s2 p r l2 l1 k); eauto.
    - cbn [cs_val] in E. rewrite <- !app_assoc in E. apply app_inj_1 in E as [E1 E2]; [|done]. apply app_inj_1 in E2 as [E2 E3]; [|done]. split; [|done].
      f_equal; [by apply port_bytes_inj|]. by destruct r, r2. }
  f_equal. by apply IH.
Qed.
Lemma sorted_list (m : gmap N cval) : StronglySorted key_lt (merge_sort key_le (map_to_list m)) /\ merge_sort key_le (map_to_list m) ≡ₚ map_to_list m.
Proof.
  assert (Total key_le) as Ht by (intros a b; unfold key_le; lia). assert (Transitive key_le) as Htr by (intros a b c; unfold key_le; lia).
  pose proof (merge_sort_Permutation key_le (map_to_list m)) as Hp. split; [|done]. pose proof (StronglySorted_merge_sort key_le (map_to_list m)) as Hs.
  assert (NoDup ((merge_sort key_le (map_to_list m)).*1)) as Hnd by (rewrite Hp; apply NoDup_fst_map_to_list). revert Hs Hnd. generalize (merge_sort key_le (map_to_list m)). clear.
  induction l as [|[k v] l IH]; intros Hs Hnd; [constructor|]. apply StronglySorted_inv in Hs as [Hs Hf]. cbn in Hnd. apply NoDup_cons in Hnd as [Hn Hnd]. constructor; [by apply IH|].
  apply Forall_forall. intros [k' v'] Hin. rewrite Forall_forall in Hf. specialize (Hf _ Hin). unfold key_le, key_lt in *. cbn in *. assert (k <> k'); [|lia]. intros ->. apply Hn.
  apply elem_of_list_fmap. by exists (k', v').
Qed.
Lemma cs_bytes_inj m1 m2 : map_Forall (fun k v => k < 256 /\ val_ok v) m1 -> map_Forall (fun k v => k < 256 /\ val_ok v) m2 -> cs_bytes m1 = cs_bytes m2 -> m1 = m2.
Proof.
  intros F1 F2 E. destruct (sorted_list m1) as [S1 P1], (sorted_list m2) as [S2 P2].
  assert (forall m, map_Forall (fun k v => k < 256 /\ val_ok v) m -> Forall (fun e => fst e < 256 /\ val_ok (snd e)) (merge_sort key_le (map_to_list m))) as HF.
  { intros m H. destruct (sorted_list m) as [_ P]. rewrite P. apply Forall_forall. intros [k v] Hin%elem_of_map_to_list. by apply H in Hin. }
  pose proof (enc_inj _ _ (HF _ F1) (HF _ F2) S1 S2 E) as El. apply map_to_list_inj. rewrite <- P1, <- P2. by rewrite El.
Qed.
Lemma str_of_inj p q t u : ~ (tls_suffix `suffix_of` p) -> ~ (tls_suffix `suffix_of` q) -> str_of p t = str_of q u -> p = q /\ t = u.
Proof.
  intros Hp Hq E. destruct t, u; cbn in E.
  - by apply app_inj_tail_iff in E || by apply (inj (.++ tls_suffix)) in E.
  - exfalso. apply Hq. by exists p.
  - exfalso. apply Hp. by exists q.
  - done.
Qed.
(* C29, where it holds *)
Theorem C29_injective_partial shuf1 shuf2 ids1 ports1 ids2 ports2 : perm shuf1 -> perm shuf2 ->
  own_index ids1 ports1 -> own_index ids2 ports2 -> plain ids1 ports1 -> plain ids2 ports2 ->
  preimage shuf1 ids1 ports1 = preimage shuf2 ids2 ports2 -> ids1 = ids2 /\ ports1 = ports2.
Proof.
  intros H1 H2 O1 O2 P1 P2 E.
  assert (forall shuf ids ports, perm shuf -> own_index ids ports -> plain ids ports -> map_Forall (fun k v => k < 256 /\ val_ok v) (cs_tree shuf ids ports)) as Hok.
  { intros shuf ids ports Hp Ho [Pa Pb] k v Hl. apply tree_spec in Hl; [|done|done]. destruct Hl as [(p & t & Hi & ->)|(port & r & Hi & ->)].
    - destruct (Pa _ _ _ Hi) as (A & B & C & _). split; [done|]. cbn. assert (Forall (fun b => 32 <= b) p) as C' by (eapply Forall_impl; [exact C|intros x [? _]; done]).
      destruct t; cbn; [|done]. split; [by destruct p|]. apply Forall_app. split; [done|]. repeat constructor; by vm_compute.
    - destruct (Pb _ _ _ Hi) as (A & B). done. }
  apply cs_bytes_inj in E; [|by apply Hok..].
  assert (forall si v, cs_tree shuf1 ids1 ports1 !! si = Some v <-> cs_tree shuf2 ids2 ports2 !! si = Some v) as Hiff by (intros; by rewrite E).
  setoid_rewrite (tree_spec shuf1 H1) in Hiff; [|done]. setoid_rewrite (tree_spec shuf2 H2) in Hiff; [|done].
  split.
  - apply map_eq. intros p. apply option_eq. intros [si t]. split; intros Hi.
    + destruct (proj1 (Hiff si (CStr (str_of p t)))) as [(q & u & Hq & [= Es])|(? & ? & _ & ?)]; [left; by exists p, t| |done].
      apply str_of_inj in Es as [-> ->]; [done|by eapply P1|by eapply P2].
    + destruct (proj2 (Hiff si (CStr (str_of p t)))) as [(q & u & Hq & [= Es])|(? & ? & _ & ?)]; [left; by exists p, t| |done].
      apply str_of_inj in Es as [-> ->]; [done|by eapply P2|by eapply P1].
  - apply map_eq. intros si. apply option_eq. intros [port r]. split; intros Hi.
    + destruct (proj1 (Hiff si (CPort port r))) as [(? & ? & _ & ?)|(port' & r' & Hq & [= -> ->])]; [right; by exists port, r|done|done].
    + destruct (proj2 (Hiff si (CPort port r))) as [(? & ? & _ & ?)|(port' & r' & Hq & [= -> ->])]; [right; by exists port, r|done|done].
Qed.

(* ---- where it does not hold, whatever the hash function ---- *)
Definition pre ids ports := preimage noshuf ids ports.
(* "a" through TLS and "a-tls" without *)
Definition dA := ids_ [([97], (0, true))].
Definition dB := ids_ [([97] ++ [45; 116; 108; 115], (0, false))].
(* one prefix that contains the bytes of a key, and two prefixes *)
Definition dC := ids_ [([97; 0; 1; 98], (0, false))].
Definition dD := ids_ [([97], (0, false)); ([98], (1, false))].
(* a prefix and a TCP port *)
Definition dE := ids_ [([97; 98; 1], (0, false))].
Theorem C29_collisions : dA <> dB /\ pre dA ∅ = pre dB ∅ /\ dC <> dD /\ pre dC ∅ = pre dD ∅ /\ pre dE ∅ = pre ∅ {[ 0 := (24930, true) ]}.
Proof. split_and!; try by vm_compute. all: by intros H%(f_equal (fun m => m !! [97])). Qed.
(* the effect: whatever a reload asks for, if its checksum is that of the configuration registered last it is accepted and
   nothing is registered *)
Theorem C29_same_checksum_skips shuf listen t o c st k T : sCli st !! c = Some k -> kTunnels k = Some T -> t ∈ T ->
  N.of_nat (size T) < kLimit k -> soChk o ∉ kBlack k -> kLast k = soChk o ->
  exists st', add_tunnel shuf listen t true o c st = (AOk, st') /\ sReg st' = sReg st.
Proof.
  intros Hc HT Ht Hl Hb He. unfold add_tunnel. rewrite Hc, HT. cbn [default from_option id]. destruct (N.leb_spec (kLimit k) (N.of_nat (size T))); [lia|].
  rewrite bool_decide_eq_false_2 by done. cbn [andb]. rewrite decide_True by done. by eexists.
Qed.
(* so a client that reloads from dA to dB is told that it was accepted, and its prefix is not registered (here with the
   bytes themselves as the checksum; any function of them does the same) *)
Definition o1 := mkSo dA ∅ (pre dA ∅). Definition o2 := mkSo dB ∅ (pre dB ∅).
Definition v1 := snd (hnd 1 false X o1 srv0). Definition v2 := snd (hnd 1 true X o2 v1).
Theorem C29_reload_ignored_refuted : fst (hnd 1 false X o1 srv0) = AOk /\ fst (hnd 1 true X o2 v1) = AOk
    /\ visitor v2 ([97] ++ [45; 116; 108; 115]) false = None /\ visitor v2 [97] true = Some (X, 0).
Proof. split_and!; by vm_compute. Qed.
(* with authentication by the API the prefixes that are not granted are removed after the checksum was taken
   (server/conn.go 440-483), so the grant is not part of it: a tunnel whose grant has changed keeps the old routes *)
Theorem C29_grant_not_covered_refuted : let ids := ids_ [([97], (0, false)); ([98], (1, false))] in
  let o g := mkSo (api_filter X g ids) ∅ (pre ids ∅) in let st := snd (hnd 1 false X (o [[97]]) srv0) in let st' := snd (hnd 1 true X (o [[97]; [98]]) st) in
  fst (hnd 1 false X (o [[97]]) srv0) = AOk /\ fst (hnd 1 true X (o [[97]; [98]]) st) = AOk /\ visitor st' [98] false = None /\ api_filter X [[97]; [98]] ids !! [98] = Some (1, false).
Proof. split_and!; by vm_compute. Qed.
(* the hypotheses of C29_injective_partial are met by two prefixes, one of them through TLS, and a port *)
Lemma C29_case : let ids := ids_ [([97], (0, true)); ([98], (1, false))] in let ports : tcpopts := {[ 2 := (22, true) ]} in
  own_index ids ports /\ plain ids ports.
Proof.
  cbv zeta. assert (forall (p : bytes) si t, ids_ [([97], (0, true)); ([98], (1, false))] !! p = Some (si, t) -> (p = [97] /\ si = 0 /\ t = true) \/ (p = [98] /\ si = 1 /\ t = false)) as Hi.
  { intros p si t H. apply elem_of_list_to_map_2 in H. apply elem_of_cons in H as [[= -> -> ->]|H]; [by left|]. apply elem_of_list_singleton in H as [= -> -> ->]. by right. }
  assert (forall si port r, ({[ 2 := (22, true) ]} : tcpopts) !! si = Some (port, r) -> si = 2 /\ port = 22) as Hp by (intros si port r [<- [= <- <-]]%lookup_singleton_Some; done).
  split; split.
  - intros p1 p2 si t1 t2 H1 H2. apply Hi in H1, H2. destruct H1 as [(-> & -> & _)|(-> & -> & _)], H2 as [(-> & ? & _)|(-> & ? & _)]; done.
  - intros p si t H. apply Hi in H. apply lookup_singleton_None. destruct H as [(_ & -> & _)|(_ & -> & _)]; done.
  - intros p si t H. apply Hi in H. destruct H as [(-> & -> & _)|(-> & -> & _)]; (split; [done|split; [done|split; [repeat constructor; by vm_compute|]]]); intros [x Hx]; by destruct x as [|? [|? ?]].
  - intros si port r H. apply Hp in H as [-> ->]. done.
Qed.

(* ---- what parseOptions makes has own_index, for every input and every limit below 65535 ---- *)
Fixpoint leaves {A} (P : A -> Prop) (m : prog A) : Prop :=
  match m with
  | PRet a => P a
  | PByte k => forall r, leaves P (k r)
  | PPeek _ k => forall r, leaves P (k r)
  | PDiscard _ k => forall r, leaves P (k r)
  | PCopy _ _ k => forall r, leaves P (k r)
  end.
Lemma leaves_run {A} cap (P : A -> Prop) m b a b' : leaves P m -> run cap m b = Some (a, b') -> P a.
Proof.
  revert b; induction m as [a0|k IH|n k IH|n k IH|n w k IH]; intros b; cbn [run leaves].
  - by intros H [= <- _].
  - intros H. destruct (readbyte cap b) as [[r b1]|]; [|done]. by apply IH.
  - intros H. destruct (peek cap n b) as [[[d e] b1]|]; [|done]. by apply IH.
  - intros H. destruct (discard cap n b) as [[[d e] b1]|]; [|done]. by apply IH.
  - intros H. destruct (writeTo cap w n b) as [[[[[o n'] e] b1] w1]|]; [|done]. by apply IH.
Qed.
Definition below (si : N) (ids : hpopts) (ports : tcpopts) : Prop :=
  (forall p x t, ids !! p = Some (x, t) -> x < si) /\ (forall x port r, ports !! x = Some (port, r) -> x < si).
Lemma own_ids p si t ids ports : own_index ids ports -> below si ids ports -> own_index (<[p := (si, t)]> ids) ports /\ below (si + 1) (<[p := (si, t)]> ids) ports.
Proof.
  intros [O1 O2] [B1 B2]. assert (forall q x u, <[p := (si, t)]> ids !! q = Some (x, u) -> (q = p /\ x = si /\ u = t) \/ (q <> p /\ ids !! q = Some (x, u) /\ x < si)) as H.
  { intros q x u [[<- [= <- <-]]|[Hn Hq]]%lookup_insert_Some; [by left|]. right. split; [done|]. split; [done|by eapply B1]. }
  split; split.
  - intros p1 p2 x t1 t2 H1 H2. apply H in H1, H2. destruct H1 as [(-> & -> & _)|(N1 & H1 & L1)], H2 as [(-> & E2 & _)|(N2 & H2 & L2)]; try done; try lia. by eapply O1.
  - intros q x u Hq. apply H in Hq. destruct Hq as [(_ & -> & _)|(_ & Hq & _)]; [|by eapply O2]. destruct (ports !! si) as [[port r]|] eqn:E; [|done]. apply B2 in E. lia.
  - intros q x u Hq. apply H in Hq. destruct Hq as [(_ & -> & _)|(_ & _ & ?)]; lia.
  - intros x port r Hx. apply B2 in Hx. lia.
Qed.
Lemma own_ports si v ids ports : own_index ids ports -> below si ids ports -> own_index ids (<[si := v]> ports) /\ below (si + 1) ids (<[si := v]> ports).
Proof.
  intros [O1 O2] [B1 B2]. split; split.
  - done.
  - intros q x u Hq. pose proof (B1 _ _ _ Hq). rewrite lookup_insert_ne by lia. by eapply O2.
  - intros q x u Hq. apply B1 in Hq. lia.
  - intros x port r [[<- _]|[_ Hx]]%lookup_insert_Some; [lia|]. apply B2 in Hx. lia.
Qed.
Lemma parse_own maxOptions idStr u fuel left cnt si ids ports : maxOptions < 65535 -> si <= cnt -> cnt <= maxOptions -> own_index ids ports -> below si ids ports ->
  leaves (fun r => match r with inl o => own_index (oIds o) (oPorts o) | inr _ => True end) (parse_options maxOptions idStr u fuel left cnt si ids ports).
Proof.
  intros Hmax. revert left cnt si ids ports; induction fuel as [|fuel IH]; intros [|left] cnt si ids ports Hsi Hcnt Ho Hb; cbn [parse_options]; try done.
  destruct (maxOptions <? u16 (cnt + 1)) eqn:E; [done|]. apply N.ltb_ge in E. set (cnt' := u16 (cnt + 1)) in *.
  assert (cnt' = cnt + 1) as Hc by (unfold cnt', u16; apply N.mod_small; lia). assert (u16 (si + 1) = si + 1) as Hs by (unfold u16; apply N.mod_small; lia).
  assert (forall p tls lf, leaves (fun r => match r with inl o => own_index (oIds o) (oPorts o) | inr _ => True end)
     (parse_options maxOptions idStr u fuel lf cnt' (u16 (si + 1)) (<[p := (si, tls)]> ids) ports)) as Hids.
  { intros p tls lf. destruct (own_ids p si tls ids ports Ho Hb). apply IH; [lia|lia|done|by rewrite Hs]. }
  assert (forall v lf, leaves (fun r => match r with inl o => own_index (oIds o) (oPorts o) | inr _ => True end)
     (parse_options maxOptions idStr u fuel lf cnt' (u16 (si + 1)) ids (<[si := v]> ports))) as Hports.
  { intros v lf. destruct (own_ports si v ids ports Ho Hb). apply IH; [lia|lia|done|by rewrite Hs]. }
  cbn [rbyte leaves]. intros [first|e]; [|done]. cbn [peekd leaves]. intros [more [e|]]; [done|]. cbn [leaves]. intros [n0 [e|]]; [done|].
  cbv zeta.
  destruct (decide _); [destruct (host_full u ids); [done|apply Hids]|].
  destruct (decide _); [destruct (host_full u ids); [done|apply Hids]|].
  destruct (decide _).
  { destruct (tcp_full u ports); [done|]. cbn [rbyte leaves]. intros [random|e']; [|done]. cbn [peekd leaves]. intros [pb [e'|]]; [done|]. cbn [leaves]. intros [m1 [e'|]]; [done|].
    destruct pb as [|p0 [|p1 [|]]]; try done. }
  destruct (decide _). { apply IH; [lia|lia|done|done]. }
  assert (forall tls, leaves (fun r => match r with inl o => own_index (oIds o) (oPorts o) | inr _ => True end)
    (if host_full u ids then PRet (inr PeHostNumber) else
       rbyte (fun e => PRet (inr (PeRead e))) (fun n => peekd n (fun e => PRet (inr (PeRead e))) (fun p => if regex_ok u p
          then parse_options maxOptions idStr u fuel left cnt' (u16 (si + 1)) (<[full_prefix idStr u p := (si, tls)]> ids) ports else PRet (inr PeRegex))))) as Hopen.
  { intros tls. destruct (host_full u ids); [done|]. cbn [rbyte leaves]. intros [m0|e']; [|done]. cbn [peekd leaves]. intros [p [e'|]]; [done|]. cbn [leaves]. intros [m2 [e'|]]; [done|].
    destruct (regex_ok u p); [apply Hids|done]. }
  destruct (decide _); [apply Hopen|]. destruct (decide _); [apply Hopen|done].
Qed.
Theorem C29_parsed_own_index cap maxOptions idStr u fuel b o b' : maxOptions < 65535 ->
  run cap (parse_options maxOptions idStr u fuel 1 0 0 ∅ ∅) b = Some (inl o, b') -> own_index (oIds o) (oPorts o).
Proof.
  intros Hmax H. eapply (leaves_run cap (fun r => match r with inl o => own_index (oIds o) (oPorts o) | inr _ => True end) _ _ (inl o)); [|exact H].
  apply parse_own; [done|lia|lia| |].
  - split; intros *; rewrite lookup_empty; done.
  - split; intros *; rewrite lookup_empty; done.
Qed.
