(* Props_Reg.v -- C24, C25, C26, C27: the host-prefix registry and the tunnels of a client *)
From stdpp Require Import functions.
From Verif Require Import GoBase GoBaseLemmas HandshakeModel TcpModel RegModel RegProofs RegInv.
Local Open Scope N_scope.

(* ---- specification ---- *)
(* the client and the service index that a visitor of the host prefix [p] (through TLS or not) is forwarded to:
   server/conn.go 230-325 looks the prefix up and uses what is stored there *)
Definition visitor (st : srv) (p : bytes) (tls : bool) : option (bytes * N) :=
  match sReg st !! (p, tls) with
  | Some (c, si) => match sCli st !! c with Some k => Some (kId k, si) | None => None end
  | None => None
  end.
(* a client is connected when it has a tunnel *)
Definition connected (st : srv) (id : bytes) : Prop :=
  exists c k T, sIds st !! id = Some c /\ sCli st !! c = Some k /\ kTunnels k = Some T /\ T <> ∅.
Definition perm (shuf : nat -> forall A : Type, list A -> list A) : Prop := forall n (A : Type) (l : list A), Permutation (shuf n A l) l.
(* the checksum determines the prefixes (see C29 for when it does not) *)
Definition good_opts (F : bytes -> hpopts) (o : sopts) : Prop := soIds o = F (soChk o) /\ soChk o <> zero_chk.

(* When may connection [t] make a handshake as [id] with options [o]: either it is a new connection, or it is a
   registered tunnel of this client that reloads.  If the configuration is not the one this client registered last, then
   (new connection) all the tunnels of the client still have the one registered last, or (reload) this tunnel has. *)
Definition may_hand (t : N) (reload : bool) (id : bytes) (o : sopts) (st : srv) : Prop :=
  match sIds st !! id with
  | None => reload = false /\ sTun st !! t = None /\ forall c, ~ in_client st t c
  | Some c => exists k T, sCli st !! c = Some k /\ kTunnels k = Some T /\ may_add t reload o k T st
  end.
(* When may connection [t] end: if it is the last tunnel of its client then it has the configuration registered last *)
Definition may_go (t : N) (st : srv) : Prop :=
  forall c k, sCli st !! c = Some k -> kTunnels k = Some {[ t ]} -> tChk (tun_of st t) = kLast k.

(* The histories the positive theorems are about, with the configuration each connected client registered last
   (accepted).  A handshake refused because of the TCP ports is only here if it is the client's only tunnel, and then the
   connection ends (server/conn.go 495-498 returns, 345 ends the loop). *)
Inductive hist (F : bytes -> hpopts) (listen : N -> N -> bool -> bool) : srv -> gmap (list N) hpopts -> Prop :=
| h_init : hist F listen srv0 ∅
| h_ok shuf st G t reload id limit pool o st' : hist F listen st G -> perm shuf -> good_opts F o -> may_hand t reload id o st ->
    hand shuf listen t reload id limit pool o st = (AOk, st') -> hist F listen st' (<[id := soIds o]> G)
| h_err shuf st G t reload id limit pool o e st' : hist F listen st G -> perm shuf -> good_opts F o -> may_hand t reload id o st ->
    hand shuf listen t reload id limit pool o st = (AErr e, st') -> e <> ETcp -> hist F listen st' G
| h_tcp shuf st G t reload id limit pool o st' : hist F listen st G -> perm shuf -> good_opts F o -> may_hand t reload id o st ->
    (forall t' c, sIds st !! id = Some c -> in_client st t' c -> t' = t) ->
    hand shuf listen t reload id limit pool o st = (AErr ETcp, st') -> hist F listen (gone shuf t st') (delete id G)
| h_gone shuf st G G' t : hist F listen st G -> perm shuf -> may_go t st ->
    (forall id ids, G' !! id = Some ids <-> G !! id = Some ids /\ connected (gone shuf t st) id) ->
    hist F listen (gone shuf t st) G'
| h_timer st G c : hist F listen st G -> hist F listen (black_timer c st) G.

Section P.
Context (F : bytes -> hpopts) (F_zero : F zero_chk = ∅) (listen : N -> N -> bool -> bool).

Definition agree (st : srv) (G : gmap (list N) hpopts) (L : N -> bytes) : Prop :=
  (forall id c, sIds st !! id = Some c -> (L c = zero_chk /\ G !! id = None) \/ (L c <> zero_chk /\ G !! id = Some (F (L c)))) /\
  (forall id, sIds st !! id = None -> G !! id = None).
Definition Good (st : srv) (G : gmap (list N) hpopts) : Prop := exists L, Inv F L st /\ synced L st /\ agree st G L.

(* getOrCreateClient followed by init *)
Lemma create_inv L st id limit pool : Inv F L st -> synced L st -> sIds st !! id = None ->
  let c := fresh (dom (sCli st)) in let k := mkCli id (Some ∅) limit [] zero_chk pool in
  let st' := init_client c id limit pool (snd (get_or_create id st)) in
  Inv F (<[c := zero_chk]> L) st' /\ synced (<[c := zero_chk]> L) st' /\ sIds st' = <[id := c]> (sIds st) /\ sCli st' !! c = Some k
  /\ sTun st' = sTun st /\ sReg st' = sReg st /\ (forall t c', in_client st' t c' -> in_client st t c')
  /\ (forall id' c', sIds st !! id' = Some c' -> c' <> c).
Proof.
  intros I Hsy Hid c k st'. assert (sCli st !! c = None) as Hc. { apply not_elem_of_dom. apply is_fresh. }
  assert (forall id' c', sIds st !! id' = Some c' -> c' <> c) as Hne'. { intros id' c' H ->. destruct (iLive _ _ _ I _ _ H) as (k1 & T1 & H1 & _). congruence. }
  assert (sIds st' = <[id := c]> (sIds st)) as Ei. { unfold st', get_or_create. by rewrite Hid. }
  assert (sCli st' = <[c := k]> (sCli st)) as Ec. { unfold st', get_or_create. rewrite Hid. cbn. rewrite insert_insert. done. }
  assert (sReg st' = sReg st) as Er. { unfold st', get_or_create. by rewrite Hid. }
  assert (sTun st' = sTun st) as Et. { unfold st', get_or_create. by rewrite Hid. }
  assert (forall t, tun_of st' t = tun_of st t) as Htun by (intros; unfold tun_of; by rewrite Et).
  assert (forall t c', in_client st' t c' -> in_client st t c') as Hin.
  { intros t c' (k1 & T1 & H1 & H2 & H3). rewrite Ec in H1. destruct (decide (c' = c)) as [->|]; [rewrite lookup_insert in H1|rewrite lookup_insert_ne in H1 by done].
    - injection H1 as <-. cbn in H2. injection H2 as <-. set_solver.
    - by exists k1, T1. }
  split_and!; try done.
  - split.
    + intros c' p tls si H. rewrite Er in H. destruct (iOwn _ _ _ I _ _ _ _ H) as (k1 & H1 & H2). exists k1. rewrite Ec, Ei.
      rewrite !lookup_insert_ne; [done|intros ->; congruence|intros <-; congruence].
    + intros id' c' H. rewrite Ei in H. destruct (decide (id' = id)) as [->|Hni].
      * rewrite lookup_insert in H. injection H as <-. exists k, ∅. rewrite Ec, lookup_insert, fn_lookup_insert. split; [done|split; [done|split; [done|split; [done|split; [set_solver|]]]]].
        rewrite F_zero, Er. intros p tls si. rewrite lookup_empty. split; [|done]. intros H. destruct (iOwn _ _ _ I _ _ _ _ H) as (k1 & H1 & _). congruence.
      * rewrite lookup_insert_ne in H by done. destruct (iLive _ _ _ I _ _ H) as (k1 & T1 & H1 & H2 & H3 & H4 & H5 & H6).
        assert (c' <> c) by (intros ->; congruence). exists k1, T1. rewrite Ec, lookup_insert_ne, fn_lookup_insert_ne, Er by congruence. split_and!; try done.
        intros t Ht. rewrite Htun. by apply H5.
    + intros c' k1 T1 H1 H2. rewrite Ec in H1. rewrite Ei. destruct (decide (c' = c)) as [->|Hne].
      * rewrite lookup_insert in H1. injection H1 as <-. cbn. apply lookup_insert.
      * rewrite lookup_insert_ne in H1 by done. pose proof (iDead _ _ _ I _ _ _ H1 H2) as H3. rewrite lookup_insert_ne; [done|]. intros ->. congruence.
    + intros t c1 c2 H1 H2. eapply (iOne _ _ _ I); by apply Hin.
  - intros id' c' k1 H1 H2. rewrite Ei in H1. rewrite Ec in H2. destruct (decide (c' = c)) as [->|Hne].
    + rewrite lookup_insert in H2. injection H2 as <-. by rewrite fn_lookup_insert.
    + rewrite lookup_insert_ne in H2 by done. rewrite fn_lookup_insert_ne by done. destruct (decide (id' = id)) as [->|Hni]; [rewrite lookup_insert in H1; congruence|].
      rewrite lookup_insert_ne in H1 by done. by eapply Hsy.
  - by rewrite Ec, lookup_insert.
Qed.

Lemma hand_loop_S n shuf t reload id limit pool o st : hand_loop shuf listen (S n) t reload id limit pool o st =
  let '(c, exists_, st) := get_or_create id st in
  let st := if exists_ : bool then st else init_client c id limit pool st in
  match add_tunnel shuf listen t reload o c st with
  | (ARetry, st) => hand_loop shuf listen n t reload id limit pool o st
  | r => r
  end.
Proof. done. Qed.
(* a handshake: the client object it is about, created if necessary *)
Lemma hand_unfold shuf L st t reload id limit pool o r st' : perm shuf -> Inv F L st -> synced L st -> good_opts F o -> may_hand t reload id o st ->
  hand shuf listen t reload id limit pool o st = (r, st') ->
  exists L1 st1 c k T, Inv F L1 st1 /\ synced L1 st1 /\ sIds st1 !! id = Some c /\ sCli st1 !! c = Some k /\ kId k = id /\ kTunnels k = Some T
    /\ may_add t reload o k T st1 /\ add_tunnel shuf listen t reload o c st1 = (r, st')
    /\ sReg st1 = sReg st /\ (forall t' c', in_client st1 t' c' -> in_client st t' c')
    /\ ((st1 = st /\ L1 = L) \/ (sIds st !! id = None /\ T = ∅ /\ sIds st1 = <[id := c]> (sIds st) /\ L1 = <[c := zero_chk]> L /\ (forall id' c', sIds st !! id' = Some c' -> c' <> c))).
Proof.
  intros Hp I Hsy [Ho Hnz] Hmay Hr. unfold hand in Hr. rewrite (hand_loop_S 4) in Hr. unfold may_hand in Hmay. destruct (sIds st !! id) as [c|] eqn:Hid.
  - assert (get_or_create id st = (c, true, st)) as Hg by (unfold get_or_create; by rewrite Hid). rewrite Hg in Hr. cbv zeta in Hr. destruct Hmay as (k & T & Hc & HT & Hmay).
    assert (kId k = id) as Hkid. { destruct (iLive _ _ _ I _ _ Hid) as (k1 & ? & ? & ? & _). congruence. }
    destruct (add_tunnel shuf listen t reload o c st) as [r1 st1] eqn:Hadd; rewrite ?Hadd in *.
    pose proof (fun H => add_tunnel_inv shuf Hp listen F F_zero L st t reload o c k T r1 st1 I Hsy H Hc HT Ho Hnz Hmay Hadd) as H.
    rewrite Hkid in H. specialize (H Hid) as [Hnr _]. exists L, st, c, k, T. split_and!; try done; [|by left]. destruct r1; done || congruence.
  - destruct Hmay as (-> & Hnt & Hfr). destruct (create_inv L st id limit pool I Hsy Hid) as (I1 & Hsy1 & Ei & Hc & Et & Er & Hin & Hne).
    set (c := fresh (dom (sCli st))) in *. 
    assert (exists s0, get_or_create id st = (c, false, s0)) as [s0 Hg]. { unfold get_or_create. rewrite Hid. by eexists. }
    rewrite Hg in *. cbn [snd] in *. cbv zeta in Hr. set (st1 := init_client c id limit pool s0) in *. set (k := mkCli id (Some ∅) limit [] zero_chk pool) in *.
    assert (may_add t false o k ∅ st1) as Hmay. { left. split_and!; [done|by rewrite Et|intros c' H; by apply (Hfr c'), Hin|]. intros _ t' Ht'. set_solver. }
    destruct (add_tunnel shuf listen t false o c st1) as [r1 st2] eqn:Hadd.
    assert (sIds st1 !! id = Some c) as Hid1 by (rewrite Ei; apply lookup_insert).
    pose proof (add_tunnel_inv shuf Hp listen F F_zero _ st1 t false o c k ∅ r1 st2 I1 Hsy1 Hid1 Hc eq_refl Ho Hnz Hmay Hadd) as [Hnr _].
    exists (<[c := zero_chk]> L), st1, c, k, ∅. split_and!; try done; [|right; done]. destruct r1; done || congruence.
Qed.
Lemma agree_create L st st1 G id c : agree st G L -> sIds st !! id = None -> sIds st1 = <[id := c]> (sIds st) ->
  (forall id' c', sIds st !! id' = Some c' -> c' <> c) -> agree st1 G (<[c := zero_chk]> L).
Proof.
  intros [H1 H2] Hid Ei Hne. split; intros id'; rewrite Ei; destruct (decide (id' = id)) as [->|Hni]; rewrite ?lookup_insert, ?lookup_insert_ne by done.
  - intros c' [= <-]. left. rewrite fn_lookup_insert. split; [done|by apply H2].
  - intros c' H. rewrite fn_lookup_insert_ne by (intros ->; by eapply Hne). by apply H1.
  - done.
  - apply H2.
Qed.
Lemma agree_same st st' G L L' : sIds st' = sIds st -> (forall id c, sIds st !! id = Some c -> L' c = L c) -> agree st G L -> agree st' G L'.
Proof. intros Ei HL [H1 H2]. split; intros id; rewrite Ei; [|apply H2]. intros c H. rewrite (HL _ _ H). by apply H1. Qed.
Lemma agree_set st st' G L id c chk : Inv F L st -> sIds st' = sIds st -> sIds st !! id = Some c -> chk <> zero_chk -> agree st G L ->
  agree st' (<[id := F chk]> G) (<[c := chk]> L).
Proof.
  intros I Ei Hid Hnz [H1 H2]. split; intros id'; rewrite Ei; destruct (decide (id' = id)) as [->|Hni].
  - intros c' H. assert (c' = c) as -> by congruence. right. rewrite fn_lookup_insert, lookup_insert. done.
  - intros c' H. assert (c' <> c). { intros ->. destruct (iLive _ _ _ I _ _ H) as (? & ? & ? & ? & _), (iLive _ _ _ I _ _ Hid) as (? & ? & ? & ? & _). congruence. }
    rewrite fn_lookup_insert_ne, lookup_insert_ne by congruence. by apply H1.
  - congruence.
  - rewrite lookup_insert_ne by congruence. apply H2.
Qed.

Lemma good_hand shuf st G t reload id limit pool o r st' : perm shuf -> Good st G -> good_opts F o -> may_hand t reload id o st ->
  hand shuf listen t reload id limit pool o st = (r, st') ->
  match r with
  | AOk => Good st' (<[id := soIds o]> G) /\ sIds st' !! id <> None
  | AErr ETcp => (forall t' c, sIds st !! id = Some c -> in_client st t' c -> t' = t) -> Good (gone shuf t st') (delete id G)
  | AErr _ => Good st' G /\ sReg st' = sReg st
  | ARetry => False
  end.
Proof.
  intros Hp (L & I & Hsy & Hag) Hgo Hmay Hh.
  destruct (hand_unfold shuf L st t reload id limit pool o r st' Hp I Hsy Hgo Hmay Hh) as (L1 & st1 & c & k & T & I1 & Hsy1 & Hid & Hc & Hkid & HT & Hma & Hadd & Er & Hin & Hcase).
  assert (agree st1 G L1) as Hag1. { destruct Hcase as [[-> ->]|(Hn & _ & Ei & -> & Hne)]; [done|]. by eapply agree_create. }
  destruct Hgo as [Ho Hnz]. rewrite <- Hkid in Hid.
  pose proof (add_tunnel_inv shuf Hp listen F F_zero L1 st1 t reload o c k T r st' I1 Hsy1 Hid Hc HT Ho Hnz Hma Hadd) as [Hnr H]. rewrite Hkid in Hid.
  destruct r as [| |[]]; try done.
  - destruct H as (I' & Hsy' & _ & Ei). split; [|rewrite Ei; congruence]. exists (<[c := soChk o]> L1). split_and!; [done|done|]. rewrite Ho. by eapply agree_set.
  - destruct H as (I' & Hsy' & Er' & Ei). split; [|congruence]. exists L1. split_and!; [done|done|]. by eapply agree_same.
  - destruct H as (I' & Hsy' & Er' & Ei). split; [|congruence]. exists L1. split_and!; [done|done|]. by eapply agree_same.
  - destruct H as (I' & Hsy' & Er' & Ei). split; [|congruence]. exists L1. split_and!; [done|done|]. by eapply agree_same.
  - intros Honly. destruct H as (I' & Ei & Htun & Ec). set (L2 := <[c := soChk o]> L1).
    assert (T ⊆ {[ t ]}) as HTt.
    { intros x Hx. apply elem_of_singleton. destruct Hcase as [[-> ->]|(_ & -> & _)]; [|set_solver]. eapply Honly; [done|]. by exists k, T. }
    specialize (I' HTt). fold L2 in I'. set (k' := with_tunnels k (Some ({[t]} ∪ T))) in *.
    assert ({[t]} ∪ T = {[ t ]}) as ET by set_solver. assert (kTunnels k' = Some {[ t ]}) as Hk' by (cbn; by rewrite ET).
    assert (sCli st' !! c = Some k') as Hc' by (by rewrite Ec, lookup_insert).
    destruct (gone_cases shuf Hp listen F F_zero L2 st' t I') as [[_ Hno]|(c1 & k1 & T1 & Hc1 & HT1 & Ht1 & ->)].
    { exfalso. apply (Hno c). exists k', {[ t ]}. split_and!; [done|done|set_solver]. }
    assert (c1 = c) as ->. { eapply (iOne _ _ _ I' t); [by exists k1, T1|]. exists k', {[ t ]}. split_and!; [done|done|set_solver]. }
    assert (k1 = k') as -> by congruence. assert (T1 = {[ t ]}) as -> by congruence.
    destruct (remove_inv shuf Hp listen F F_zero L2 st' t c k' {[ t ]} I' Hc' Hk' Ht1) as (I2 & Hids & Hcli & Hgone & _).
    { intros _. rewrite Htun. cbn. unfold L2. by rewrite fn_lookup_insert. }
    specialize (Hgone eq_refl). set (stf := remove_tunnel shuf t c st') in *.
    assert (forall id' c', sIds stf !! id' = Some c' -> c' <> c /\ sIds st1 !! id' = Some c' /\ id' <> id) as Hf.
    { intros id' c' H. assert (c' <> c) by (intros ->; by eapply Hgone). split; [done|]. apply Hids in H; [|done]. rewrite Ei in H. split; [done|]. intros ->. congruence. }
    exists L2. split_and!; [done| |].
    + intros id' c' k0 H1 H2. destruct (Hf _ _ H1) as (Hne & H3 & Hni). rewrite Hcli, Ec, lookup_insert_ne in H2 by done. unfold L2. rewrite fn_lookup_insert_ne by congruence. by eapply Hsy1.
    + split.
      * intros id' c' H. destruct (Hf _ _ H) as (Hne & H3 & Hni). unfold L2. rewrite fn_lookup_insert_ne, lookup_delete_ne by congruence. by apply Hag1.
      * intros id' H. destruct (decide (id' = id)) as [->|Hni]; [apply lookup_delete|]. rewrite lookup_delete_ne by done.
        destruct (sIds st1 !! id') as [c'|] eqn:Hs; [|by apply Hag1]. exfalso.
        destruct (iLive _ _ _ I1 _ _ Hs) as (k0 & T0 & H1 & H2 & H3 & _). assert (c' <> c) by (intros ->; congruence).
        assert (sIds stf !! kId k0 = Some c') as HX; [|congruence]. eapply (iDead _ _ _ I2 c' k0 T0); [|done]. rewrite Hcli, Ec, lookup_insert_ne by done. done.
Qed.
Lemma good_gone shuf st G G' t : perm shuf -> Good st G -> may_go t st ->
  (forall id ids, G' !! id = Some ids <-> G !! id = Some ids /\ connected (gone shuf t st) id) -> Good (gone shuf t st) G'.
Proof.
  intros Hp (L & I & Hsy & Hag) Hgo HG'.
  assert (forall id ids, G !! id = Some ids -> connected st id) as Hconn.
  { intros id ids Hg. destruct (sIds st !! id) as [c|] eqn:Hid; [|apply Hag in Hid; congruence].
    destruct (iLive _ _ _ I _ _ Hid) as (k & T & H1 & H2 & H3 & H4 & _). exists c, k, T. split_and!; try done. intros ->.
    destruct (proj1 Hag _ _ Hid) as [[_ H]|[H _]]; [congruence|]. by apply H, H4. }
  destruct (gone_cases shuf Hp listen F F_zero L st t I) as [[E _]|(c & k & T & Hc & HT & Ht & E)].
  - rewrite E in *. assert (G' = G) as ->. { apply map_eq. intros id. apply option_eq. intros ids. rewrite HG'. split; [by intros []|]. intros H. split; [done|by eapply Hconn]. }
    by exists L.
  - pose proof (iDead _ _ _ I _ _ _ Hc HT) as Hid.
    destruct (remove_inv shuf Hp listen F F_zero L st t c k T I Hc HT Ht) as (I2 & Hids & Hcli & Hgone & Hkeep).
    { intros ->. rewrite (Hgo c k Hc HT). by eapply Hsy. }
    rewrite <- E in *. set (stf := gone shuf t st) in *. exists L. split; [done|].
    assert (forall c' k' T', sCli st !! c' = Some k' -> kTunnels k' = Some T' -> c' <> c -> sIds stf !! kId k' = Some c') as Hstay.
    { intros c' k' T' H1 H2 Hne. eapply (iDead _ _ _ I2); [|done]. by rewrite Hcli. }
    assert (forall id c', sIds stf !! id = Some c' -> sIds st !! id = Some c') as Hback.
    { intros id c' H. destruct (decide (c' = c)) as [->|Hne]; [|by eapply Hids]. destruct (decide (T = {[ t ]})) as [->|HnT]; [exfalso; by eapply Hgone|].
      destruct (iLive _ _ _ I2 _ _ H) as (k2 & T2 & H1 & H2 & _). revert H1. rewrite E. unfold remove_tunnel. rewrite Hc, HT, decide_True by done.
      destruct (decide (T ∖ {[ t ]} = ∅)) as [He|He].
      - exfalso. apply HnT. apply set_eq. intros x. split; [|set_solver]. intros Hx. destruct (decide (x = t)) as [->|]; [set_solver|].
        assert (x ∈ (T ∖ {[t]})) as Hx' by set_solver. rewrite He in Hx'. set_solver.
      - cbn. rewrite lookup_insert. intros [= <-]. cbn in H2. by rewrite <- H2. }
    split.
    + intros id c' k' H1 H2. pose proof (Hback _ _ H1) as H1'. destruct (decide (c' = c)) as [->|Hne].
      * destruct (decide (T = {[ t ]})) as [->|HnT]; [exfalso; by eapply Hgone|]. rewrite (Hkeep HnT _ H2). by eapply Hsy.
      * rewrite Hcli in H2 by done. by eapply Hsy.
    + split.
      * intros id c' H. pose proof (Hback _ _ H) as H'. destruct (iLive _ _ _ I2 _ _ H) as (k2 & T2 & G1 & G2 & G3 & G4 & _).
        destruct (proj1 Hag _ _ H') as [[Hz Hg]|[Hz Hg]].
        -- left. split; [done|]. destruct (G' !! id) as [ids|] eqn:E'; [|done]. apply HG' in E' as [E' _]. congruence.
        -- right. split; [done|]. apply HG'. split; [done|]. exists c', k2, T2. split_and!; try done. intros ->. by apply Hz, G4.
      * intros id H. destruct (G' !! id) as [ids|] eqn:E'; [|done]. apply HG' in E' as [_ (c0 & _ & _ & H0 & _)]. congruence.
Qed.
Lemma good_hist st G : hist F listen st G -> Good st G.
Proof.
  induction 1 as [|shuf st G t reload id limit pool o st' Hh IH Hp Hgo Hm Hhd|shuf st G t reload id limit pool o e st' Hh IH Hp Hgo Hm Hhd He
                 |shuf st G t reload id limit pool o st' Hh IH Hp Hgo Hm Ho Hhd|shuf st G G' t Hh IH Hp Hmg HG|st G c Hh IH].
  - exists (fun _ => zero_chk). split_and!.
    + split.
      * intros c p tls si H. cbn in H. by rewrite lookup_empty in H.
      * intros id c H. cbn in H. by rewrite lookup_empty in H.
      * intros c k T H. cbn in H. by rewrite lookup_empty in H.
      * intros t c1 c2 (k & T & H & _). cbn in H. by rewrite lookup_empty in H.
    + intros id c k H. cbn in H. by rewrite lookup_empty in H.
    + split; [intros id c H; cbn in H; by rewrite lookup_empty in H|]. intros; apply lookup_empty.
  - apply (good_hand shuf st G t reload id limit pool o AOk st' Hp IH Hgo Hm Hhd).
  - pose proof (good_hand shuf st G t reload id limit pool o (AErr e) st' Hp IH Hgo Hm Hhd) as H. destruct e; try done; apply H.
  - by apply (good_hand shuf st G t reload id limit pool o (AErr ETcp) st' Hp IH Hgo Hm Hhd).
  - by eapply good_gone.
  - destruct IH as (L & I & Hsy & Hag). unfold black_timer. destruct (sCli st !! c) as [k|] eqn:Hc; [|by exists L].
    set (k' := mkCli _ _ _ _ _ _).
    destruct (kTunnels k) as [T|] eqn:HT.
    + exists L. split_and!; [| |by eapply agree_same].
      * pose proof (iDead _ _ _ I _ _ _ Hc HT) as Hid. destruct (iLive _ _ _ I _ _ Hid) as (k0 & T0 & E1 & E2 & E3 & E4 & E5 & E6).
        assert (k0 = k) as -> by congruence. assert (T0 = T) as -> by congruence.
        eapply (inv_change F L L st _ c k k' T T); try done; by left.
      * intros id c' k0 H1 H2. cbn in H1, H2. destruct (decide (c' = c)) as [->|Hne]; [rewrite lookup_insert in H2; injection H2 as <-; cbn; by eapply Hsy|].
        rewrite lookup_insert_ne in H2 by done. by eapply Hsy.
    + (* the client object is not in use any more *)
      assert (forall id, sIds st !! id <> Some c) as Hdead. { intros id H. destruct (iLive _ _ _ I _ _ H) as (k0 & T0 & E1 & E2 & E3 & _). congruence. }
      assert (forall t c', in_client (set_cli st c k') t c' -> in_client st t c') as Hin.
      { intros t c' (k0 & T0 & H1 & H2 & H3). cbn in H1. destruct (decide (c' = c)) as [->|Hne]; [rewrite lookup_insert in H1; injection H1 as <-; cbn in H2; congruence|].
        rewrite lookup_insert_ne in H1 by done. by exists k0, T0. }
      exists L. split_and!; [| |by eapply agree_same].
      * split.
        -- intros c' p tls si H. destruct (iOwn _ _ _ I _ _ _ _ H) as (k0 & H1 & H2). exists k0. cbn. rewrite lookup_insert_ne; [done|]. intros <-. by eapply Hdead.
        -- intros id c' H. destruct (iLive _ _ _ I _ _ H) as (k0 & T0 & H1 & H2). exists k0, T0. cbn. rewrite lookup_insert_ne; [done|]. intros <-. by eapply Hdead.
        -- intros c' k0 T0 H1 H2. cbn in H1. destruct (decide (c' = c)) as [->|Hne]; [rewrite lookup_insert in H1; injection H1 as <-; cbn in H2; congruence|].
           rewrite lookup_insert_ne in H1 by done. by eapply (iDead _ _ _ I).
        -- intros t c1 c2 H1 H2. eapply (iOne _ _ _ I); by apply Hin.
      * intros id c' k0 H1 H2. cbn in H1, H2. rewrite lookup_insert_ne in H2; [by eapply Hsy|]. intros <-. by eapply Hdead.
Qed.
Lemma good_visitor st G p tls id si : Good st G ->
  visitor st p tls = Some (id, si) <-> exists ids, G !! id = Some ids /\ ids !! p = Some (si, tls).
Proof.
  intros (L & I & Hsy & Hag). unfold visitor. split.
  - destruct (sReg st !! (p, tls)) as [[c si']|] eqn:Hr; [|done]. destruct (iOwn _ _ _ I _ _ _ _ Hr) as (k & Hc & Hid). rewrite Hc. intros [= <- <-].
    destruct (iLive _ _ _ I _ _ Hid) as (k0 & T & _ & _ & _ & _ & _ & H). apply H in Hr.
    destruct (proj1 Hag _ _ Hid) as [[Hz _]|[_ Hg]]; [rewrite Hz, F_zero in Hr; by rewrite lookup_empty in Hr|]. by exists (F (L c)).
  - intros (ids & Hg & Hp). destruct (sIds st !! id) as [c|] eqn:Hid; [|apply Hag in Hid; congruence].
    destruct (proj1 Hag _ _ Hid) as [[_ H]|[_ H]]; [congruence|]. assert (ids = F (L c)) as -> by congruence.
    destruct (iLive _ _ _ I _ _ Hid) as (k & T & Hc & Hk & _ & _ & _ & Hr). apply Hr in Hp. rewrite Hp, Hc. by rewrite Hk.
Qed.
End P.

(* ---- C24: after any such history the visitors of a prefix reach a client if and only if this is in the configuration
   which that client registered last, with the service index of that configuration *)
Theorem C24_visitors_partial F listen st G p tls id si : F zero_chk = ∅ -> hist F listen st G ->
  visitor st p tls = Some (id, si) <-> exists ids, G !! id = Some ids /\ ids !! p = Some (si, tls).
Proof. intros Hz Hh. apply (good_visitor F); [done|]. by apply (good_hist F Hz listen). Qed.
(* two clients cannot both have it *)
Theorem C24_one_owner F listen st G p tls id1 id2 ids1 ids2 si1 si2 : F zero_chk = ∅ -> hist F listen st G ->
  G !! id1 = Some ids1 -> G !! id2 = Some ids2 -> ids1 !! p = Some (si1, tls) -> ids2 !! p = Some (si2, tls) -> id1 = id2.
Proof.
  intros Hz Hh H1 H2 P1 P2. pose proof (proj2 (C24_visitors_partial F listen st G p tls id1 si1 Hz Hh)) as E1.
  pose proof (proj2 (C24_visitors_partial F listen st G p tls id2 si2 Hz Hh)) as E2. rewrite E1 in E2 by eauto. specialize (E2 ltac:(eauto)). congruence.
Qed.
(* a refusal because of a conflict changes nothing for visitors, in any state whatsoever and for any iteration order;
   and it is given exactly when somebody else owns one of the prefixes *)
Theorem C24_conflict_unchanged shuf listen t reload o c st st' : perm shuf ->
  add_tunnel shuf listen t reload o c st = (AErr EHostConflict, st') ->
  sReg st' = sReg st /\ exists p si tls c' si', soIds o !! p = Some (si, tls) /\ sReg st !! (p, tls) = Some (c', si') /\ c' <> c.
Proof.
  intros Hp. unfold add_tunnel. destruct (sCli st !! c) as [k|]; [|done]. destruct (kLimit k <=? _); [done|]. destruct (kTunnels k) as [T|]; [|done].
  destruct (_ && _); [done|]. destruct (decide _); [done|]. pose proof (hp_add_ids shuf Hp c (soIds o) (sReg st)) as H.
  cbn [sReg set_cli]. destruct (hp_add _ _ _ _ _) as [[] r].
  - destruct (add_tcp _ _ _ _ _ _) as [[] st2]; [by destruct reload|done].
  - intros [= <-]. destruct H as [H ->]. done.
Qed.
Theorem C24_conflict_refused shuf listen t reload o c st r st' k T : perm shuf ->
  sCli st !! c = Some k -> kTunnels k = Some T -> kLast k <> soChk o ->
  (exists p si tls c' si', soIds o !! p = Some (si, tls) /\ sReg st !! (p, tls) = Some (c', si') /\ c' <> c) ->
  add_tunnel shuf listen t reload o c st = (r, st') -> r <> AOk /\ sReg st' = sReg st.
Proof.
  intros Hp Hc HT Hl Hown. unfold add_tunnel. rewrite Hc, HT. destruct (kLimit k <=? _); [by intros [= <- <-]|].
  destruct (_ && _); [by intros [= <- <-]|]. rewrite decide_False by done. pose proof (hp_add_ids shuf Hp c (soIds o) (sReg st)) as H.
  cbn [sReg set_cli]. destruct (hp_add _ _ _ _ _) as [[] r0]; [by destruct H|]. destruct H as [_ ->]. by intros [= <- <-].
Qed.

(* ---- C25: every prefix that is routed anywhere is routed to a client that has a tunnel *)
Theorem C25_no_leak_partial F listen st G p tls c si : F zero_chk = ∅ -> hist F listen st G -> sReg st !! (p, tls) = Some (c, si) ->
  exists k, sCli st !! c = Some k /\ sIds st !! kId k = Some c /\ connected st (kId k).
Proof.
  intros Hz Hh Hr. destruct (good_hist F Hz listen _ _ Hh) as (L & I & Hsy & Hag). destruct (iOwn _ _ _ I _ _ _ _ Hr) as (k & Hc & Hid). exists k. split_and!; try done.
  destruct (iLive _ _ _ I _ _ Hid) as (k0 & T & H1 & H2 & H3 & H4 & _ & H6). exists c, k0, T. split_and!; try done. intros ->. apply H6 in Hr.
  rewrite H4, Hz in Hr by done. by rewrite lookup_empty in Hr.
Qed.
(* so when the last tunnel of a client has gone, any other client may take the prefix: no conflict with it *)
Theorem C25_free_again_partial F listen st G p tls id : F zero_chk = ∅ -> hist F listen st G -> ~ connected st id ->
  forall si, visitor st p tls <> Some (id, si).
Proof.
  intros Hz Hh Hn si. unfold visitor. destruct (sReg st !! (p, tls)) as [[c si']|] eqn:Hr; [|done]. 
  destruct (C25_no_leak_partial F listen st G p tls c si' Hz Hh Hr) as (k & Hc & _ & Hco). rewrite Hc. intros [= <- _]. done.
Qed.

(* ---- C26: any sequence of the operations, in any order and by anybody, also when they interleave inside a handshake *)
Inductive ustep (st : srv) : srv -> Prop :=
| u_get id : ustep st (snd (get_or_create id st))
| u_init c id limit pool : ustep st (init_client c id limit pool st)
| u_add shuf listen t reload o c : ustep st (snd (add_tunnel shuf listen t reload o c st))
| u_hand shuf listen t reload id limit pool o : ustep st (snd (hand shuf listen t reload id limit pool o st))
| u_remove shuf t c : ustep st (remove_tunnel shuf t c st)
| u_gone shuf t : ustep st (gone shuf t st)
| u_timer c : ustep st (black_timer c st).
Definition within (st : srv) : Prop := forall c k T, sCli st !! c = Some k -> kTunnels k = Some T -> (N.of_nat (size T) <= kLimit k)%N.
Lemma within_set st c k st' : within st -> sCli st' = <[c := k]> (sCli st) -> (forall T, kTunnels k = Some T -> N.of_nat (size T) <= kLimit k) -> within st'.
Proof.
  intros W E H c' k' T' H1 H2. rewrite E in H1. destruct (decide (c' = c)) as [->|Hne]; [rewrite lookup_insert in H1; injection H1 as <-; by apply H|].
  rewrite lookup_insert_ne in H1 by done. by eapply W.
Qed.
Lemma within_get id st : within st -> within (snd (get_or_create id st)).
Proof. intros W. unfold get_or_create. destruct (sIds st !! id); [done|]. cbn. by eapply within_set. Qed.
Lemma within_init c id limit pool st : within st -> within (init_client c id limit pool st).
Proof. intros W. eapply within_set; [done|done|]. cbn. intros T [= <-]. rewrite size_empty. lia. Qed.
Lemma within_add shuf listen t reload o c st : within st -> within (snd (add_tunnel shuf listen t reload o c st)).
Proof.
  intros W. unfold add_tunnel. destruct (sCli st !! c) as [k|] eqn:Hc; [|done]. destruct (kLimit k <=? _) eqn:Hl; [done|]. destruct (kTunnels k) as [T|] eqn:HT; [|done].
  cbn in Hl. apply N.leb_gt in Hl.
  assert (size ({[t]} ∪ T) <= S (size T))%nat as Hs by (rewrite size_union_alt, size_singleton; pose proof (subseteq_size (T ∖ {[t]}) T ltac:(set_solver)); lia).
  destruct (_ && _); [done|]. destruct (decide _).
  { cbn. eapply within_set; [done|done|]. cbn. intros T' [= <-]. lia. }
  destruct (hp_add _ _ _ _ _) as [[] r].
  2: { cbn. eapply within_set; [done|done|]. cbn. intros T' [= <-]. lia. }
  destruct (add_tcp _ _ _ _ _ _) as [b st2] eqn:Ht. apply add_tcp_frame in Ht as (_ & _ & Ec & _).
  destruct b.
  2: { cbn. eapply within_set; [done|exact Ec|]. cbn. intros T' [= <-]. lia. }
  destruct reload; cbn.
  - eapply (within_set st c); [done| |]. { cbn. rewrite Ec. cbn. by rewrite insert_insert. } cbn. intros T' [= <-]. lia.
  - eapply (within_set st c); [done| |]. { cbn. rewrite Ec. cbn. by rewrite insert_insert. } cbn [kTunnels kLimit]. intros T' [= <-].
    match goal with |- context [size (?A ∖ ?B)] => pose proof (subseteq_size (A ∖ B) A ltac:(set_solver)) end. lia.
Qed.
Lemma within_remove shuf t c st : within st -> within (remove_tunnel shuf t c st).
Proof.
  intros W. unfold remove_tunnel. destruct (sCli st !! c) as [k|] eqn:Hc; [|done]. destruct (kTunnels k) as [T|] eqn:HT; [|done]. destruct (decide (t ∈ T)); [|done].
  destruct (decide _).
  - set (st1 := mkSrv _ _ _ _ _). assert (within st1) as W1 by (by eapply (within_set st c)).
    destruct (kPool k) as [p|]; [|done]. destruct (sTcp st1 !! p); [|done]. exact W1.
  - eapply within_set; [done|done|]. cbn. intros T' [= <-]. pose proof (subseteq_size (T ∖ {[t]}) T ltac:(set_solver)). specialize (W _ _ _ Hc HT). lia.
Qed.
Lemma within_hand_loop n shuf listen t reload id limit pool o st : within st -> within (snd (hand_loop shuf listen n t reload id limit pool o st)).
Proof.
  revert st; induction n as [|n IH]; intros st W; cbn [hand_loop]; [done|]. pose proof (within_get id st W) as W1.
  destruct (get_or_create id st) as [[c ex] st1]. cbn in W1. set (st2 := if ex then _ else _).
  assert (within st2) as W2 by (subst st2; destruct ex; [done|by apply within_init]).
  pose proof (within_add shuf listen t reload o c st2 W2) as W3. destruct (add_tunnel _ _ _ _ _ _ _) as [r st3]. cbn in W3. destruct r; [done|by apply IH|done].
Qed.
Theorem C26_limit st : rtc ustep srv0 st -> forall c k T, sCli st !! c = Some k -> kTunnels k = Some T -> N.of_nat (size T) <= kLimit k.
Proof.
  intros H. change (within st). assert (within srv0) as W0 by (intros c k T H0; cbn in H0; by rewrite lookup_empty in H0). revert W0.
  induction H as [|x y z Hs _ IH]; [done|]. intros W. apply IH. destruct Hs.
  - by apply within_get.
  - by apply within_init.
  - by apply within_add.
  - by apply within_hand_loop.
  - by apply within_remove.
  - clear IH. unfold gone. generalize (shuf 11%nat N (elements (dom (filter (fun ck : N * client => t ∈ default ∅ (kTunnels ck.2)) (sCli x))))). intros l. revert x W.
    induction l as [|c l IHl]; intros x W; [done|]. cbn [foldl]. apply IHl. by apply within_remove.
  - unfold black_timer. destruct (sCli x !! c) as [k|] eqn:Hc; [|done]. eapply within_set; [done|done|]. cbn. intros T HT. by eapply W.
Qed.

(* The limit is the configured one: with a server whose users have the limits [conf], in any interleaving. *)
Inductive cstep (conf : bytes -> N) (st : srv) : srv -> Prop :=
| c_get id : cstep conf st (snd (get_or_create id st))
| c_init c id pool : cstep conf st (init_client c id (conf id) pool st)
| c_add shuf listen t reload o c : cstep conf st (snd (add_tunnel shuf listen t reload o c st))
| c_hand shuf listen t reload id pool o : cstep conf st (snd (hand shuf listen t reload id (conf id) pool o st))
| c_remove shuf t c : cstep conf st (remove_tunnel shuf t c st)
| c_gone shuf t : cstep conf st (gone shuf t st)
| c_timer c : cstep conf st (black_timer c st).
Definition keeps (st st' : srv) : Prop := forall c k', sCli st' !! c = Some k' ->
  exists k, sCli st !! c = Some k /\ kId k' = kId k /\ kLimit k' = kLimit k /\ (kTunnels k' <> None -> kTunnels k <> None).
Lemma keeps_refl st : keeps st st.
Proof. intros c k H. by exists k. Qed.
Lemma keeps_trans a b c : keeps a b -> keeps b c -> keeps a c.
Proof. intros H1 H2 x k H. destruct (H2 x k H) as (k1 & E1 & A1 & A2 & A3). destruct (H1 x k1 E1) as (k2 & E2 & B1 & B2 & B3). exists k2. split; [done|]. split; [congruence|]. split; [congruence|auto]. Qed.
Lemma keeps_set st st' c k k' : sCli st !! c = Some k -> sCli st' = <[c := k']> (sCli st) -> kId k' = kId k -> kLimit k' = kLimit k -> (kTunnels k' <> None -> kTunnels k <> None) -> keeps st st'.
Proof.
  intros Hc E H1 H2 H3 x kx Hx. rewrite E in Hx. destruct (decide (x = c)) as [->|Hne].
  - rewrite lookup_insert in Hx. injection Hx as <-. by exists k.
  - rewrite lookup_insert_ne in Hx by done. by exists kx.
Qed.
Lemma keeps_same st st' : sCli st' = sCli st -> keeps st st'.
Proof. intros E c k H. rewrite E in H. by exists k. Qed.
Lemma keeps_add shuf listen t reload o c st : keeps st (snd (add_tunnel shuf listen t reload o c st)).
Proof.
  unfold add_tunnel. destruct (sCli st !! c) as [k|] eqn:Hc; [|apply keeps_refl]. destruct (kLimit k <=? _); [apply keeps_refl|].
  destruct (kTunnels k) as [T|] eqn:HT; [|apply keeps_refl]. destruct (_ && _); [apply keeps_refl|].
  destruct (decide _).
  { cbn. eapply keeps_set; [done|done|done|done|]. by rewrite HT. }
  destruct (hp_add _ _ _ _ _) as [[] r].
  2: { cbn. eapply keeps_set; [done|done|done|done|]. by rewrite HT. }
  destruct (add_tcp _ _ _ _ _ _) as [b st2] eqn:Ht. apply add_tcp_frame in Ht as (_ & _ & Ec & _).
  destruct b.
  2: { cbn. eapply keeps_set; [done|exact Ec|done|done|]. by rewrite HT. }
  destruct reload; cbn.
  - eapply (keeps_set st _ c k); [done|cbn; rewrite Ec; cbn; by rewrite insert_insert|done|done|by rewrite HT].
  - eapply (keeps_set st _ c k); [done|cbn; rewrite Ec; cbn; by rewrite insert_insert|done|done|by rewrite HT].
Qed.
Lemma keeps_remove shuf t c st : keeps st (remove_tunnel shuf t c st).
Proof.
  unfold remove_tunnel. destruct (sCli st !! c) as [k|] eqn:Hc; [|apply keeps_refl]. destruct (kTunnels k) as [T|] eqn:HT; [|apply keeps_refl]. destruct (decide (t ∈ T)); [|apply keeps_refl].
  destruct (decide _).
  - set (st1 := mkSrv _ _ _ _ _). assert (keeps st st1) as W1 by (eapply (keeps_set st _ c k); [done|done|done|done|by rewrite HT]).
    destruct (kPool k) as [p|]; [|done]. destruct (sTcp st1 !! p); [|done]. exact W1.
  - eapply keeps_set; [done|done|done|done|by rewrite HT].
Qed.
Definition limits_ok (conf : bytes -> N) (st : srv) : Prop := forall c k, sCli st !! c = Some k -> kTunnels k <> None -> kLimit k = conf (kId k).
Lemma limits_keeps conf st st' : keeps st st' -> limits_ok conf st -> limits_ok conf st'.
Proof. intros HK H c k' Hc HT. destruct (HK c k' Hc) as (k & E & -> & -> & H3). apply (H c k E). auto. Qed.
Lemma limits_get conf id st : limits_ok conf st -> limits_ok conf (snd (get_or_create id st)).
Proof.
  intros H. unfold get_or_create. destruct (sIds st !! id); [done|]. cbn. intros c k Hc HT.
  destruct (decide (c = fresh (dom (sCli st)))) as [->|Hne]; [cbn in Hc; rewrite lookup_insert in Hc; injection Hc as <-; done|].
  cbn in Hc. rewrite lookup_insert_ne in Hc by done. by apply (H c).
Qed.
Lemma limits_init conf c id pool st : limits_ok conf st -> limits_ok conf (init_client c id (conf id) pool st).
Proof.
  intros H x k Hx HT. unfold init_client in Hx. cbn in Hx. destruct (decide (x = c)) as [->|Hne]; [rewrite lookup_insert in Hx; by injection Hx as <-|].
  rewrite lookup_insert_ne in Hx by done. by apply (H x).
Qed.
Lemma limits_hand conf n shuf listen t reload id pool o st : limits_ok conf st -> limits_ok conf (snd (hand_loop shuf listen n t reload id (conf id) pool o st)).
Proof.
  revert st; induction n as [|n IH]; intros st W; cbn [hand_loop]; [done|]. pose proof (limits_get conf id st W) as W1.
  destruct (get_or_create id st) as [[c ex] st1]. cbn in W1. set (st2 := if ex then _ else _).
  assert (limits_ok conf st2) as W2 by (subst st2; destruct ex; [done|by apply limits_init]).
  pose proof (limits_keeps conf _ _ (keeps_add shuf listen t reload o c st2) W2) as W3. destruct (add_tunnel _ _ _ _ _ _ _) as [r st3]. cbn in W3. destruct r; [done|by apply IH|done].
Qed.
Lemma keeps_gone_loop shuf t l st : keeps st (foldl (fun st c => remove_tunnel shuf t c st) st l).
Proof. revert st. induction l as [|c l IH]; intros st; [apply keeps_refl|]. cbn [foldl]. eapply keeps_trans; [apply keeps_remove|apply IH]. Qed.
Theorem C26_limit_configured conf st : rtc (cstep conf) srv0 st ->
  forall c k T, sCli st !! c = Some k -> kTunnels k = Some T -> N.of_nat (size T) <= conf (kId k).
Proof.
  intros H. assert (rtc ustep srv0 st) as HU.
  { clear -H. induction H as [|x y z Hs _ IH]; [apply rtc_refl|]. eapply rtc_l; [|exact IH]. destruct Hs; constructor. }
  assert (limits_ok conf st) as HL.
  { assert (limits_ok conf srv0) as W0 by (intros c k H0; cbn in H0; by rewrite lookup_empty in H0). revert W0. clear HU.
    induction H as [|x y z Hs _ IH]; [done|]. intros W. apply IH. destruct Hs.
    - by apply limits_get.
    - by apply limits_init.
    - by eapply limits_keeps; [apply keeps_add|].
    - by apply limits_hand.
    - by eapply limits_keeps; [apply keeps_remove|].
    - eapply limits_keeps; [|done]. unfold gone. apply keeps_gone_loop.
    - eapply limits_keeps; [|done]. unfold black_timer. destruct (sCli x !! c) as [k|] eqn:Hc; [|apply keeps_refl]. by eapply keeps_set. }
  intros c k T Hc HT. rewrite <- (HL c k Hc); [|by rewrite HT]. by eapply C26_limit.
Qed.
(* and a tunnel of an initialised client that has fewer is not refused for the limit, nor told to start again *)
Theorem C26_below_limit_admitted conf shuf listen t reload o c st k T : rtc (cstep conf) srv0 st -> sCli st !! c = Some k -> kTunnels k = Some T ->
  N.of_nat (size T) < conf (kId k) ->
  (add_tunnel shuf listen t reload o c st).1 <> AErr EMaxConnections /\ (add_tunnel shuf listen t reload o c st).1 <> ARetry.
Proof.
  intros H Hc HT Hlt. assert (limits_ok conf st) as HL.
  { assert (limits_ok conf srv0) as W0 by (intros c' k' H0; cbn in H0; by rewrite lookup_empty in H0). revert W0. clear -H.
    induction H as [|x y z Hs _ IH]; [done|]. intros W. apply IH. destruct Hs.
    - by apply limits_get.
    - by apply limits_init.
    - by eapply limits_keeps; [apply keeps_add|].
    - by apply limits_hand.
    - by eapply limits_keeps; [apply keeps_remove|].
    - eapply limits_keeps; [|done]. unfold gone. apply keeps_gone_loop.
    - eapply limits_keeps; [|done]. unfold black_timer. destruct (sCli x !! c) as [k|] eqn:Hc; [|apply keeps_refl]. by eapply keeps_set. }
  assert (kLimit k = conf (kId k)) as EL by (apply (HL c k Hc); by rewrite HT).
  destruct (add_tunnel shuf listen t reload o c st) as [r st'] eqn:E. cbn [fst]. revert E. unfold add_tunnel. rewrite Hc, HT. cbn [default from_option id].
  destruct (N.leb_spec (kLimit k) (N.of_nat (size T))) as [Hle|Hle]; [lia|].
  destruct (_ && _); [by intros [= <- _]|]. destruct (decide _); [by intros [= <- _]|].
  destruct (hp_add _ _ _ _ _) as [[] r1]; [|by intros [= <- _]]. destruct (add_tcp _ _ _ _ _ _) as [[] st2]; [|by intros [= <- _]].
  destruct reload; by intros [= <- _].
Qed.

(* ---- C27: a reload is accepted ... *)
Theorem C27_reload_accepted_partial shuf listen t o c st k T : perm shuf -> sCli st !! c = Some k -> kTunnels k = Some T -> t ∈ T ->
  N.of_nat (size T) < kLimit k ->                                        (* ... if the pool is not full *)
  (soChk o ∈ kBlack k -> forall t', t' ∈ T -> tChk (tun_of st t') = soChk o) ->    (* and the configuration is not a recently replaced one *)
  (forall p si tls c' si', soIds o !! p = Some (si, tls) -> sReg st !! (p, tls) = Some (c', si') -> c' = c) ->
  soPorts o = ∅ -> exists st', add_tunnel shuf listen t true o c st = (AOk, st').
Proof.
  intros Hp Hc HT Ht Hl Hb Hno Hports. unfold add_tunnel. rewrite Hc, HT. cbn [default from_option id].
  destruct (kLimit k <=? N.of_nat (size T)) eqn:E; [apply N.leb_le in E; lia|].
  destruct (bool_decide (soChk o ∈ kBlack k) && bool_decide (Exists (fun t' => soChk o <> tChk (tun_of st t')) (elements T))) eqn:E2.
  { apply andb_true_iff in E2 as [B1 B2]. apply bool_decide_eq_true in B1, B2. apply Exists_exists in B2 as (t' & Hin & Hne). apply elem_of_elements in Hin.
    exfalso. apply Hne. symmetry. by apply Hb. }
  destruct (decide _); [by eexists|]. cbn [sReg set_cli]. pose proof (hp_add_ids shuf Hp c (soIds o) (sReg st)) as H. destruct (hp_add _ _ _ _ _) as [[] r].
  - unfold add_tcp. destruct (kPool k) as [p|].
    + unfold process_tcp. rewrite Hports, map_to_list_empty.
      assert (shuf 1%nat _ (@nil (N * (N * bool))) = []) as -> by (apply Permutation_nil_r, Hp). cbn [tcp_loop]. by eexists.
    + rewrite Hports. rewrite bool_decide_eq_true_2 by done. by eexists.
  - exfalso. destruct H as [(p & si & tls & c' & si' & H1 & H2 & H3) _]. apply H3. by eapply Hno.
Qed.
(* with TCP ports the only other reason to refuse it is that a port cannot be had *)
Theorem C27_reload_refusals shuf listen t o c st k T r st' : perm shuf -> sCli st !! c = Some k -> kTunnels k = Some T ->
  add_tunnel shuf listen t true o c st = (r, st') ->
  match r with
  | AOk => True
  | ARetry => False
  | AErr EMaxConnections => kLimit k <= N.of_nat (size T)
  | AErr EDifferentConfig => soChk o ∈ kBlack k /\ exists t', t' ∈ T /\ tChk (tun_of st t') <> soChk o
  | AErr EHostConflict => exists p si tls c' si', soIds o !! p = Some (si, tls) /\ sReg st !! (p, tls) = Some (c', si') /\ c' <> c
  | AErr ETcp => soPorts o <> ∅
  end.
Proof.
  intros Hp Hc HT. unfold add_tunnel. rewrite Hc, HT. cbn [default from_option id].
  destruct (kLimit k <=? N.of_nat (size T)) eqn:E; [intros [= <- <-]; by apply N.leb_le in E|].
  destruct (bool_decide (soChk o ∈ kBlack k) && bool_decide (Exists (fun t' => soChk o <> tChk (tun_of st t')) (elements T))) eqn:E2.
  { apply andb_true_iff in E2 as [B1 B2]. apply bool_decide_eq_true in B1, B2. apply Exists_exists in B2 as (t' & Hin & Hne). apply elem_of_elements in Hin.
    intros [= <- <-]. split; [done|]. exists t'. done. }
  destruct (decide _); [by intros [= <- <-]|]. cbn [sReg set_cli]. pose proof (hp_add_ids shuf Hp c (soIds o) (sReg st)) as H. destruct (hp_add _ _ _ _ _) as [[] r1].
  - destruct (add_tcp _ _ _ _ _ _) as [[] st2] eqn:Ht; [by intros [= <- <-]|]. intros [= <- <-] Hports. revert Ht. unfold add_tcp. destruct (kPool k) as [p|].
    + unfold process_tcp. rewrite Hports, map_to_list_empty.
      assert (shuf 1%nat _ (@nil (N * (N * bool))) = []) as -> by (apply Permutation_nil_r, Hp). cbn [tcp_loop]. done.
    + rewrite Hports. by rewrite bool_decide_eq_true_2 by done.
  - intros [= <- <-]. by destruct H.
Qed.
(* ... but every reload is refused, whatever it asks for, when the client has as many tunnels as it may have: the limit is
   checked although no tunnel is added *)
Theorem C27_full_pool_refuted shuf listen t o c st k T : sCli st !! c = Some k -> kTunnels k = Some T -> t ∈ T ->
  N.of_nat (size T) = kLimit k -> add_tunnel shuf listen t true o c st = (AErr EMaxConnections, st).
Proof.
  intros Hc HT Ht Hl. unfold add_tunnel. rewrite Hc, HT. cbn [default from_option id]. destruct (kLimit k <=? N.of_nat (size T)) eqn:E; [done|]. apply N.leb_gt in E. lia.
Qed.

(* ---- concrete cases ---- *)
Definition ids_ (l : list (bytes * (N * bool))) : hpopts := list_to_map l.
Definition oA := mkSo (ids_ [([97], (0, false)); ([98], (1, false))]) ∅ [1].       (* "a" -> 0, "b" -> 1 *)
Definition oB := mkSo (ids_ [([98], (0, false)); ([99], (1, true))]) ∅ [2].        (* "b" -> 0, "c" (TLS) -> 1 *)
Definition oY := mkSo (ids_ [([97], (7, false))]) ∅ [3].                            (* "a" -> 7 *)
Definition oT := mkSo (ids_ [([100], (0, false))]) {[ 0 := (22, false) ]} [4].      (* "d" -> 0 and a TCP port *)
Definition Fc (chk : bytes) : hpopts :=
  if decide (chk = [1]) then soIds oA else if decide (chk = [2]) then soIds oB else if decide (chk = [3]) then soIds oY else if decide (chk = [4]) then soIds oT else ∅.
Definition noshuf (n : nat) (A : Type) (l : list A) := l.
Definition ok3 (_ _ : N) (_ : bool) := true.
Lemma noshuf_perm : perm noshuf.
Proof. by intros n A l. Qed.
Definition X : bytes := [120]. Definition Y : bytes := [121]. Definition Z : bytes := [122].
Definition hnd t r id o st := hand noshuf ok3 t r id 5 None o st.
Definition s1 := snd (hnd 1 false X oA srv0).
Definition s2 := snd (hnd 2 false X oB s1).        (* another process of X with another configuration *)
Definition s3 := snd (hnd 3 false Y oA s2).        (* conflict on "b" *)
Definition s4' := gone noshuf 3 s3.
Definition s4 := black_timer (default 0 (sIds s4' !! X)) s4'.   (* 60 s later *)
Definition s5 := snd (hnd 2 true X oA s4).         (* reload back *)
Definition s6 := gone noshuf 2 s5.
(* checkers for concrete states *)
Definition nobody_b t st : bool := bool_decide (map_Forall (fun (_ : N) k => t ∉ default ∅ (kTunnels k)) (sCli st)).
Definition may_hand_b (t : N) (reload : bool) (id : bytes) (o : sopts) (st : srv) : bool :=
  match sIds st !! id with
  | None => negb reload && bool_decide (sTun st !! t = None) && nobody_b t st
  | Some c => match sCli st !! c with
              | Some k => match kTunnels k with
                          | Some T => if reload then bool_decide (t ∈ T) && (bool_decide (kLast k = soChk o) || bool_decide (tChk (tun_of st t) = kLast k))
                                      else bool_decide (sTun st !! t = None) && nobody_b t st
                                           && (bool_decide (kLast k = soChk o) || bool_decide (set_Forall (fun t' => tChk (tun_of st t') = kLast k) T))
                          | None => false
                          end
              | None => false
              end
  end.
Lemma nobody_ok t st : nobody_b t st = true -> forall c, ~ in_client st t c.
Proof. intros H%bool_decide_eq_true c (k & T & H1 & H2 & H3). apply (H c k H1). by rewrite H2. Qed.
Lemma may_hand_ok t reload id o st : may_hand_b t reload id o st = true -> may_hand t reload id o st.
Proof.
  unfold may_hand_b, may_hand. destruct (sIds st !! id) as [c|].
  - destruct (sCli st !! c) as [k|]; [|done]. destruct (kTunnels k) as [T|] eqn:HT; [|done]. intros H. exists k, T. split; [done|split; [done|]]. destruct reload.
    + right. apply andb_true_iff in H as [H1%bool_decide_eq_true H2]. split_and!; [done|done|]. intros Hn. apply orb_true_iff in H2 as [H2%bool_decide_eq_true|H2%bool_decide_eq_true]; done.
    + left. apply andb_true_iff in H as [[H1%bool_decide_eq_true H3]%andb_true_iff H2]. split_and!; [done|done|by apply nobody_ok|]. intros Hn t' Ht'.
      apply orb_true_iff in H2 as [H2%bool_decide_eq_true|H2%bool_decide_eq_true]; [done|by apply H2].
  - intros H. apply andb_true_iff in H as [[H1%negb_true_iff H2%bool_decide_eq_true]%andb_true_iff H3]. split_and!; [done|done|by apply nobody_ok].
Qed.
Definition may_go_b (t : N) (st : srv) : bool := bool_decide (map_Forall (fun (_ : N) k => kTunnels k <> Some {[ t ]} \/ tChk (tun_of st t) = kLast k) (sCli st)).
Lemma may_go_ok t st : may_go_b t st = true -> may_go t st.
Proof. intros H%bool_decide_eq_true c k Hc HT. by destruct (H c k Hc) as [?|?]. Qed.
Definition connected_b (st : srv) (id : bytes) : bool :=
  match sIds st !! id with Some c => match sCli st !! c with Some k => bool_decide (default ∅ (kTunnels k) <> ∅) | None => false end | None => false end.
Lemma connected_ok st id : connected_b st id = true <-> connected st id.
Proof.
  unfold connected_b, connected. destruct (sIds st !! id) as [c|]; [|split; [done|intros (? & ? & ? & ? & _); done]].
  destruct (sCli st !! c) as [k|] eqn:Hc; [|split; [done|intros (? & ? & ? & [= <-] & ? & _); congruence]]. rewrite bool_decide_eq_true. split.
  - intros H. destruct (kTunnels k) as [T|] eqn:HT; [|done]. by exists c, k, T.
  - intros (? & ? & T & [= <-] & H1 & H2 & H3). assert (x0 = k) as -> by congruence. by rewrite H2.
Qed.
Lemma h_gone_b F listen shuf st G t : hist F listen st G -> perm shuf -> may_go_b t st = true ->
  hist F listen (gone shuf t st) (filter (fun kv : list N * hpopts => connected_b (gone shuf t st) kv.1 = true) G).
Proof.
  intros Hh Hp Hg%may_go_ok. eapply h_gone; [done|done|done|]. intros id ids. rewrite map_filter_lookup_Some. cbn. by rewrite connected_ok.
Qed.
(* the hypotheses of the theorems are met by the run: X registers A, another process of X replaces it by B, Y is refused
   because of "b" and goes, 60 s pass, X reloads A, X goes *)
Lemma C24_case : exists G5 G6, hist Fc ok3 s5 G5 /\ G5 !! X = Some (soIds oA) /\ hist Fc ok3 s6 G6.
Proof.
  assert (forall o, o = oA \/ o = oB -> good_opts Fc o) as Hgo by (intros o [E|E]; subst o; split; by vm_compute).
  assert (hist Fc ok3 s1 (<[X := soIds oA]> ∅)) as H1.
  { eapply (h_ok _ _ noshuf srv0 _ 1 false X 5 None oA); [apply h_init|apply noshuf_perm|auto|apply may_hand_ok; by vm_compute|by vm_compute]. }
  assert (hist Fc ok3 s2 (<[X := soIds oB]> (<[X := soIds oA]> ∅))) as H2.
  { eapply (h_ok _ _ noshuf s1 _ 2 false X 5 None oB); [done|apply noshuf_perm|auto|apply may_hand_ok; by vm_compute|by vm_compute]. }
  assert (hist Fc ok3 s3 (<[X := soIds oB]> (<[X := soIds oA]> ∅))) as H3.
  { eapply (h_err _ _ noshuf s2 _ 3 false Y 5 None oA EHostConflict); [done|apply noshuf_perm|auto|apply may_hand_ok; by vm_compute|by vm_compute|done]. }
  pose proof (h_gone_b Fc ok3 noshuf s3 _ 3 H3 noshuf_perm ltac:(by vm_compute)) as H4. change (gone noshuf 3 s3) with s4' in H4. set (G4 := filter _ _) in H4.
  pose proof (h_timer Fc ok3 s4' G4 (default 0 (sIds s4' !! X)) H4) as H4b. change (black_timer _ s4') with s4 in H4b.
  assert (hist Fc ok3 s5 (<[X := soIds oA]> G4)) as H5.
  { eapply (h_ok _ _ noshuf s4 _ 2 true X 5 None oA); [done|apply noshuf_perm|auto|apply may_hand_ok; by vm_compute|by vm_compute]. }
  pose proof (h_gone_b Fc ok3 noshuf s5 _ 2 H5 noshuf_perm ltac:(by vm_compute)) as H6. eexists _, _. split; [exact H5|]. split; [apply lookup_insert|exact H6].
Qed.
(* a non-trivial run of the same kind: replaced by a new process, a conflict, a reload, and the end *)
Lemma C24_run : visitor s2 [98] false = Some (X, 0) /\ visitor s2 [99] true = Some (X, 1) /\ visitor s2 [97] false = None
  /\ fst (hnd 3 false Y oA s2) = AErr EHostConflict /\ sReg s3 = sReg s2
  /\ fst (hnd 2 true X oA s4) = AOk /\ visitor s5 [97] false = Some (X, 0) /\ visitor s5 [99] true = None
  /\ sReg s6 = ∅ /\ sIds s6 = ∅.
Proof. split_and!; first [by vm_compute | apply (bool_decide_unpack _); by vm_compute]. Qed.

(* ---- what is false without the restrictions ---- *)
(* a reload that one tunnel has made and the other has not: then "a" may be taken by Y, and when X's tunnels go, the one
   with the old configuration last, Y's prefix is removed although Y is connected, and "c" stays with nobody behind it *)
Definition oA1 := mkSo (ids_ [([97], (0, false))]) ∅ [1].
Definition oB1 := mkSo (ids_ [([99], (0, false))]) ∅ [2].
Definition z1 := snd (hnd 1 false X oA1 srv0).
Definition z2 := snd (hnd 2 false X oA1 z1).
Definition z3 := snd (hnd 1 true X oB1 z2).
Definition z4 := snd (hnd 3 false Y oY z3).
Definition z5 := gone noshuf 2 (gone noshuf 1 z4).
Theorem C24_C25_stale_tunnel_refuted :
  fst (hnd 3 false Y oY z3) = AOk /\ visitor z4 [97] false = Some (Y, 7)       (* Y has "a" *)
  /\ visitor z5 [97] false = None /\ sIds z5 !! Y <> None                       (* lost, although Y is still connected *)
  /\ sIds z5 !! X = None /\ visitor z5 [99] false = Some (X, 0)                 (* "c" is still routed to X, which is gone *)
  /\ fst (hnd 4 false Z oB1 z5) = AErr EHostConflict.                           (* so nobody can take it *)
Proof. split_and!; by vm_compute. Qed.
(* a reload refused because of its TCP ports has replaced the prefixes of the client already *)
Definition w2 := snd (hnd 2 false X oA1 z1).
Definition w3 := snd (hnd 1 true X oT w2).
Definition w4 := gone noshuf 1 w3.
Theorem C24_tcp_refusal_refuted :
  fst (hnd 1 true X oT w2) = AErr ETcp /\ visitor w2 [97] false = Some (X, 0)
  /\ visitor w4 [97] false = None                                               (* tunnel 2 still serves configuration A *)
  /\ visitor w4 [100] false = Some (X, 0)                                       (* the refused prefix is routed *)
  /\ visitor (gone noshuf 2 w4) [100] false = Some (X, 0) /\ sIds (gone noshuf 2 w4) !! X = None.   (* for ever *)
Proof. split_and!; by vm_compute. Qed.
(* C27: a user who goes back to the previous configuration within 60 s of replacing it is refused, with one tunnel only
   and nobody else involved: the old checksum is on the blacklist *)
Theorem C27_back_refuted : fst (hnd 2 true X oA s4') = AErr EDifferentConfig /\ fst (hnd 2 true X oA s4) = AOk.
Proof. split_and!; by vm_compute. Qed.
(* C27: two tunnels, limit two: no reload is possible *)
Lemma C27_full_case : let st := snd (hand noshuf ok3 2 false X 2 None oA1 (snd (hand noshuf ok3 1 false X 2 None oA1 srv0))) in
  fst (hand noshuf ok3 1 true X 2 None oA1 st) = AErr EMaxConnections.
Proof. by vm_compute. Qed.
Lemma C27_case : fst (hnd 1 true X oB1 z2) = AOk.
Proof. by vm_compute. Qed.
Lemma C26_case : fst (hand noshuf ok3 2 false X 1 None oA1 (snd (hand noshuf ok3 1 false X 1 None oA1 srv0))) = AErr EMaxConnections.
Proof. by vm_compute. Qed.
(* C26, the other side: a second connection of a client that arrives while the first one is between getOrCreateClient and
   init is refused as over the limit although the limit is 5 and there is no tunnel at all *)
Theorem C26_init_race_refuted :
  let '(c, _, st) := get_or_create X srv0 in
  fst (add_tunnel noshuf ok3 2 false oA1 c st) = AErr EMaxConnections
  /\ fst (add_tunnel noshuf ok3 2 false oA1 c (init_client c X 5 None st)) = AOk.
Proof. by vm_compute. Qed.
