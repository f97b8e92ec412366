(* RegInv.v -- the invariant of the registry over histories of handshakes, disconnections and timers *)
From stdpp Require Import functions.
From Verif Require Import GoBase GoBaseLemmas HandshakeModel TcpModel RegModel RegProofs.
Local Open Scope N_scope.

Section S.
Context (shuf : nat -> forall A : Type, list A -> list A).
Hypothesis (shuf_perm : forall n (A : Type) (l : list A), Permutation (shuf n A l) l).
Context (listen : N -> N -> bool -> bool).
Context (F : bytes -> hpopts).
Hypothesis (F_zero : F zero_chk = ∅).

Definition in_client (st : srv) (t c : N) : Prop := exists k T, sCli st !! c = Some k /\ kTunnels k = Some T /\ t ∈ T.
Record Inv (L : N -> bytes) (st : srv) : Prop := mkInv {
  iOwn : forall c p tls si, sReg st !! (p, tls) = Some (c, si) -> exists k, sCli st !! c = Some k /\ sIds st !! kId k = Some c;
  iLive : forall id c, sIds st !! id = Some c -> exists k T, sCli st !! c = Some k /\ kId k = id /\ kTunnels k = Some T
            /\ (T = ∅ -> L c = zero_chk) /\ (forall t, t ∈ T -> tIds (tun_of st t) = F (tChk (tun_of st t)))
            /\ routes c (F (L c)) (sReg st);
  iDead : forall c k T, sCli st !! c = Some k -> kTunnels k = Some T -> sIds st !! kId k = Some c;
  iOne : forall t c1 c2, in_client st t c1 -> in_client st t c2 -> c1 = c2 }.
Definition synced (L : N -> bytes) (st : srv) : Prop := forall id c k, sIds st !! id = Some c -> sCli st !! c = Some k -> kLast k = L c.

(* a state that differs only in the record and the routes of one live client *)
Lemma inv_change L L' st st' c k k' T T' :
  Inv L st -> sIds st !! kId k = Some c -> sCli st !! c = Some k -> kTunnels k = Some T ->
  sIds st' = sIds st -> sCli st' = <[c := k']> (sCli st) -> kId k' = kId k -> kTunnels k' = Some T' ->
  (forall t, t ∈ T' -> t ∈ T \/ forall c', ~ in_client st t c') ->
  (forall t, tun_of st' t = tun_of st t \/ t ∈ T' \/ forall c', ~ in_client st t c') ->
  (T' = ∅ -> L' c = zero_chk) -> (forall t, t ∈ T' -> tIds (tun_of st' t) = F (tChk (tun_of st' t))) ->
  routes c (F (L' c)) (sReg st') ->
  (forall c' p tls si, c' <> c -> sReg st' !! (p, tls) = Some (c', si) <-> sReg st !! (p, tls) = Some (c', si)) ->
  (forall c', c' <> c -> L' c' = L c') ->
  Inv L' st'.
Proof.
  intros I Hid Hc HT Ei Ec Hkid HT' Hsub Htun Hemp Hids Hr Hoth HL.
  assert (forall t c', c' <> c -> in_client st' t c' <-> in_client st t c') as Hin.
  { intros t c' Hne. unfold in_client. rewrite Ec. by rewrite lookup_insert_ne by done. }
  assert (forall t, in_client st' t c <-> t ∈ T') as Hinc.
  { intros t. unfold in_client. rewrite Ec, lookup_insert. split; [intros (? & ? & [= <-] & ? & ?); congruence|]. intros; eexists _, _; eauto. }
  assert (forall t, t ∈ T -> in_client st t c) as HTin by (intros t Ht; exists k, T; done).
  split.
  - intros c' p tls si H. destruct (decide (c' = c)) as [->|Hne].
    + exists k'. rewrite Ec, lookup_insert, Ei, Hkid. done.
    + apply Hoth in H; [|done]. destruct (iOwn _ _ I _ _ _ _ H) as (k0 & H1 & H2). exists k0. rewrite Ec, lookup_insert_ne, Ei by done. done.
  - intros id c' H. rewrite Ei in H. destruct (decide (c' = c)) as [->|Hne].
    + destruct (iLive _ _ I _ _ H) as (k0 & T0 & H1 & H2 & _). exists k', T'. rewrite Ec, lookup_insert. split_and!; try done. congruence.
    + destruct (iLive _ _ I _ _ H) as (k0 & T0 & H1 & H2 & H3 & H4 & H5 & H6). exists k0, T0. rewrite Ec, lookup_insert_ne by done. split_and!; try done.
      * rewrite HL by done. done.
      * intros t Ht. assert (in_client st t c') as Hit by (by exists k0, T0). destruct (Htun t) as [->|[Ht'|Hf]]; [by apply H5| |by destruct (Hf c')].
        exfalso. destruct (Hsub t Ht') as [Htt|Hf]; [|by destruct (Hf c')]. apply Hne. eapply (iOne _ _ I); [done|by apply HTin].
      * rewrite HL by done. intros p tls si. rewrite Hoth by done. apply H6.
  - intros c' k0 T0 H1 H2. rewrite Ec in H1. rewrite Ei. destruct (decide (c' = c)) as [->|Hne].
    + rewrite lookup_insert in H1. injection H1 as <-. by rewrite Hkid.
    + rewrite lookup_insert_ne in H1 by done. by eapply (iDead _ _ I).
  - assert (forall t c', in_client st' t c' -> c' <> c -> ~ in_client st' t c) as Hx.
    { intros t c' H Hne Ht. apply Hinc in Ht. apply Hin in H; [|done]. destruct (Hsub t Ht) as [Htt|Hf]; [|by destruct (Hf c')].
      apply Hne. eapply (iOne _ _ I); [done|by apply HTin]. }
    intros t c1 c2 H1 H2. destruct (decide (c1 = c)) as [->|N1].
    + destruct (decide (c2 = c)) as [->|N2]; [done|]. exfalso. exact (Hx t c2 H2 N2 H1).
    + destruct (decide (c2 = c)) as [->|N2]; [exfalso; exact (Hx t c1 H1 N1 H2)|]. apply Hin in H1, H2; try done. by eapply (iOne _ _ I).
Qed.

Lemma add_tcp_frame c k o st b st' : add_tcp shuf listen c k o st = (b, st') ->
  sReg st' = sReg st /\ sIds st' = sIds st /\ sCli st' = sCli st /\ sTun st' = sTun st.
Proof.
  unfold add_tcp. destruct (kPool k) as [p|].
  - destruct (process_tcp _ _ _ _ _) as [[b0 x] e]. by intros [= <- <-].
  - by intros [= <- <-].
Qed.
Lemma tun_of_set st t v t' : tun_of (set_tun st t v) t' = if decide (t' = t) then v else tun_of st t'.
Proof.
  unfold tun_of, set_tun; cbn. destruct (decide (t' = t)) as [->|]; [by rewrite lookup_insert|by rewrite lookup_insert_ne by congruence].
Qed.

(* the conditions of a clean handshake: the connection is new, or it belongs to this client already and its
   configuration is the one last registered; a new connection with a new configuration comes when all the client's
   tunnels have the configuration last registered *)
Definition may_add (t : N) (reload : bool) (o : sopts) (k : client) (T : gset N) (st : srv) : Prop :=
  (reload = false /\ sTun st !! t = None /\ (forall c', ~ in_client st t c')
     /\ (kLast k <> soChk o -> forall t', t' ∈ T -> tChk (tun_of st t') = kLast k)) \/
  (reload = true /\ t ∈ T /\ (kLast k <> soChk o -> tChk (tun_of st t) = kLast k)).

Lemma add_tunnel_inv L st t reload o c k T r st' :
  Inv L st -> synced L st -> sIds st !! kId k = Some c -> sCli st !! c = Some k -> kTunnels k = Some T ->
  soIds o = F (soChk o) -> soChk o <> zero_chk -> may_add t reload o k T st ->
  add_tunnel shuf listen t reload o c st = (r, st') ->
  r <> ARetry /\
  match r with
  | AOk => Inv (<[c := soChk o]> L) st' /\ synced (<[c := soChk o]> L) st' /\ in_client st' t c /\ sIds st' = sIds st
  | AErr ETcp => (T ⊆ {[ t ]} -> Inv (<[c := soChk o]> L) st') /\ sIds st' = sIds st /\ tun_of st' t = mkTun (soIds o) (soChk o)
                 /\ sCli st' = <[c := with_tunnels k (Some ({[ t ]} ∪ T))]> (sCli st)
  | _ => Inv L st' /\ synced L st' /\ sReg st' = sReg st /\ sIds st' = sIds st
  end.
Proof.
  intros I Hsy Hid Hc HT Ho Hnz Hmay. pose proof (Hsy _ _ _ Hid Hc) as HLc.
  destruct (iLive _ _ I _ _ Hid) as (k0 & T0 & Hc0 & _ & HT0 & Hemp & Htids & Hroutes).
  assert (k0 = k) as -> by congruence. assert (T0 = T) as -> by congruence. clear Hc0 HT0.
  assert (forall t', t' ∈ {[ t ]} ∪ T -> t' ∈ T \/ forall c', ~ in_client st t' c') as Hsub.
  { intros t' [->%elem_of_singleton|H]%elem_of_union; [|by left]. destruct Hmay as [(_ & _ & H & _)|(_ & H & _)]; [by right|by left]. }
  assert (tIds (tun_of st t) = F (tChk (tun_of st t))) as Htt.
  { destruct Hmay as [(_ & H & _)|(_ & H & _)]; [|by apply Htids]. unfold tun_of; rewrite H. cbn [default from_option id tIds tChk]. by rewrite F_zero. }
  assert (forall t', t' ∈ {[ t ]} ∪ T -> tIds (tun_of st t') = F (tChk (tun_of st t'))) as Htids'.
  { intros t' [->%elem_of_singleton|H]%elem_of_union; [done|by apply Htids]. }
  unfold add_tunnel. rewrite Hc, HT. cbn [default from_option id].
  destruct (kLimit k <=? N.of_nat (size T)) eqn:Hmax; [intros [= <- <-]; done|].
  destruct (bool_decide (soChk o ∈ kBlack k) && _); [intros [= <- <-]; done|].
  destruct (decide (kLast k = soChk o)) as [Heq|Hneq].
  { intros [= <- <-]. split; [done|]. set (k' := with_tunnels k (Some ({[ t ]} ∪ T))).
    assert (forall c', <[c:=soChk o]> L c' = L c') as HLL.
    { intros c'. destruct (decide (c' = c)) as [->|]; [by rewrite fn_lookup_insert; congruence|by rewrite fn_lookup_insert_ne by congruence]. }
    split; [|split; [|split; [|done]]].
    - eapply (inv_change L _ st _ c k k' T ({[ t ]} ∪ T)); try done; cbn.
      + intros t'. rewrite tun_of_set. destruct (decide (t' = t)) as [->|]; [right; left; set_solver|left; done].
      + intros H. exfalso. set_solver.
      + intros t' Ht'. rewrite tun_of_set. destruct (decide (t' = t)) as [->|]; [done|]. apply Htids'. done.
      + rewrite HLL. done.
    - intros id' c' k1 H1 H2. cbn in H1, H2. rewrite HLL. destruct (decide (c' = c)) as [->|Hne].
      + rewrite lookup_insert in H2. injection H2 as <-. cbn. congruence.
      + rewrite lookup_insert_ne in H2 by done. by eapply Hsy.
    - exists k', ({[ t ]} ∪ T). cbn. rewrite lookup_insert. split_and!; [done|done|set_solver]. }
  set (k' := with_tunnels k (Some ({[ t ]} ∪ T))). set (st1 := set_cli st c k').
  pose proof (hp_add_ids shuf shuf_perm c (soIds o) (sReg st)) as Hadd.
  change (sReg st1) with (sReg st). destruct (hp_add shuf c _ (sReg st) []) as [[] r1].
  2: { destruct Hadd as [_ ->]. intros [= <- <-]. split; [done|]. split; [|split; [|done]].
       - eapply (inv_change L _ st _ c k k' T ({[ t ]} ∪ T)); try done; [by intros; left|]. intros H; set_solver.
       - intros id' c' k1 H1 H2. cbn in H1, H2. destruct (decide (c' = c)) as [->|Hne].
         + rewrite lookup_insert in H2. injection H2 as <-. cbn. done.
         + rewrite lookup_insert_ne in H2 by done. by eapply Hsy. }
  destruct Hadd as [Hno Hr1]. change (tun_of st1 t) with (tun_of st t).
  set (r2 := hp_old c (soIds o) _ r1).
  assert (forall p tls, r2 !! (p, tls) = upd c (tIds (tun_of st t)) (soIds o) r1 p tls) as Hr2 by (intros; by apply hp_old_ids).
  set (st2 := set_tun (set_reg st1 r2) t (mkTun (soIds o) (soChk o))).
  destruct (add_tcp shuf listen c k o st2) as [b st3] eqn:Htcp. apply add_tcp_frame in Htcp as (Er & Ei & Ec & Et).
  assert (forall t', tun_of st3 t' = if decide (t' = t) then mkTun (soIds o) (soChk o) else tun_of st t') as Htun3.
  { intros t'. transitivity (tun_of st2 t'); [unfold tun_of; by rewrite Et|]. subst st2. rewrite tun_of_set. done. }
  assert (<[c:=soChk o]> L c = soChk o) as HLcc by apply fn_lookup_insert.
  assert (forall c', c' <> c -> <[c:=soChk o]> L c' = L c') as HLo by (intros; by rewrite fn_lookup_insert_ne by congruence).
  (* what the registry is when this connection's old prefixes were the registered ones *)
  assert ((tIds (tun_of st t) = F (kLast k) -> routes c (soIds o) r2 /\
     (forall c' p tls si, c' <> c -> r2 !! (p, tls) = Some (c', si) <-> sReg st !! (p, tls) = Some (c', si)))) as Hreg1.
  { intros E. eapply (upd_routes c (F (kLast k)) (soIds o) (sReg st) r1 r2); [by rewrite HLc|done|done|]. intros. rewrite Hr2. by rewrite E. }
  (* the intermediate state, before the old tunnels are removed *)
  assert (tIds (tun_of st t) = F (kLast k) -> forall st' kk, kId kk = kId k -> kTunnels kk = Some ({[t]} ∪ T) ->
     sReg st' = sReg st3 -> sIds st' = sIds st3 -> sCli st' = <[c := kk]> (sCli st) -> sTun st' = sTun st3 -> Inv (<[c := soChk o]> L) st') as Hmid.
  { intros E stq kk Hkk1 Hkk2 Er' Ei' Ec' Et'. destruct (Hreg1 E) as [Ha Hb].
    assert (forall t', tun_of stq t' = tun_of st3 t') as Htt' by (intros; unfold tun_of; by rewrite Et').
    eapply (inv_change L _ st stq c k kk T ({[ t ]} ∪ T)); try done.
    - rewrite Ei', Ei. done.
    - intros t'. rewrite Htt', Htun3. destruct (decide (t' = t)) as [->|]; [right; left; set_solver|by left].
    - intros H. exfalso. set_solver.
    - intros t' Ht'. rewrite Htt', Htun3. destruct (decide (t' = t)) as [->|]; [done|]. by apply Htids'.
    - rewrite HLcc, <- Ho, Er', Er. exact Ha.
    - rewrite Er', Er. exact Hb. }
  assert (T ⊆ {[ t ]} -> tIds (tun_of st t) = F (kLast k)) as Honly.
  { intros HTt. destruct Hmay as [(Hrl & Hnone & Hfr & Hall)|(Hrl & Hin & Hall)].
    - assert (T = ∅) as HT0. { apply elem_of_equiv_empty_L. intros x Hx. assert (x = t) as -> by set_solver. apply (Hfr c). by exists k, T. }
      rewrite HLc, (Hemp HT0), F_zero. unfold tun_of. by rewrite Hnone.
    - rewrite Htt. f_equal. by apply Hall. }
  destruct b.
  2: { intros [= <- <-]. split; [done|]. split; [|split; [by rewrite Ei|split]].
       - intros HTt. eapply (Hmid (Honly HTt) _ k'); try done. 
       - rewrite Htun3. by rewrite decide_True.
       - by rewrite Ec. }
  assert (forall kk, kLast kk = soChk o -> forall st', sIds st' = sIds st3 -> sCli st' = <[c := kk]> (sCli st) -> synced (<[c := soChk o]> L) st') as Hsync.
  { intros kk Hkk stq Ei' Ec' id' c' k1 H1 H2. rewrite Ei', Ei in H1. cbn in H1. rewrite Ec' in H2. destruct (decide (c' = c)) as [->|Hne].
    - rewrite lookup_insert in H2. injection H2 as <-. by rewrite HLcc.
    - rewrite lookup_insert_ne in H2 by done. rewrite HLo by done. by eapply Hsy. }
  destruct reload.
  { destruct Hmay as [(? & _)|(_ & Hin & Hall)]; [done|]. intros [= <- <-]. split; [done|].
    set (kk := mkCli _ _ _ _ _ _).
    assert (sCli (set_cli st3 c kk) = <[c := kk]> (sCli st)) as Ec'. { cbn. rewrite Ec. cbn. by rewrite insert_insert. }
    split; [|split; [|split]].
    - assert (tIds (tun_of st t) = F (kLast k)) as E by (rewrite Htt; f_equal; by apply Hall). by eapply (Hmid E _ kk).
    - eapply (Hsync kk); done.
    - exists kk, ({[ t ]} ∪ T). rewrite Ec', lookup_insert. split_and!; [done|done|set_solver].
    - cbn. by rewrite Ei. }
  destruct Hmay as [(_ & Hnone & Hfr & Hall)|(? & _)]; [|done]. specialize (Hall Hneq).
  intros [= <- <-]. split; [done|].
  set (old := filter _ (shuf 7%nat _ _)). set (oldIds := old_changes _ _ _ _). set (kk := mkCli _ _ _ _ _ _).
  set (rf := foldl _ (sReg st3) _).
  assert (t ∉ T) as HtT. { intros H. apply (Hfr c). by exists k, T. }
  assert (forall x, x ∈ old <-> x ∈ T) as Hold.
  { intros x. subst old. rewrite elem_of_list_filter, (shuf_perm 7%nat), elem_of_elements, Htun3. destruct (decide (x = t)) as [->|Hne].
    - cbn. split; [intros [? _]; done|intros ?; done].
    - split; [intros [_ H]; set_solver|]. intros H. split; [|set_solver]. rewrite Hall by done. congruence. }
  assert (({[t]} ∪ T) ∖ list_to_set old = {[ t ]}) as HTk.
  { apply set_eq. intros x. rewrite elem_of_difference, elem_of_list_to_set, Hold. set_solver. }
  assert (forall p tls, r2 !! (p, tls) = r1 !! (p, tls)) as Hr21.
  { intros p tls. rewrite Hr2. unfold upd, tun_of. rewrite Hnone. cbn. by rewrite lookup_empty. }
  assert (routes c (soIds o) rf /\ (forall c' p tls si, c' <> c -> rf !! (p, tls) = Some (c', si) <-> sReg st !! (p, tls) = Some (c', si))) as [Ha Hb].
  { destruct (decide (T = ∅)) as [->|HTne].
    - assert (old = []) as Hnil. { apply elem_of_nil_inv. intros x Hx. apply Hold in Hx. set_solver. }
      assert (rf = r2) as ->. { subst rf oldIds. rewrite Hnil. cbn [map old_changes]. rewrite map_to_list_empty.
        assert (shuf 8%nat _ (@nil (list N * gmap (list N) ((N * bool) * option (N * bool)))) = []) as ->.
        { apply Permutation_nil_r. apply shuf_perm. } cbn. by rewrite Er. }
      apply Hreg1, Honly. set_solver.
    - eapply (upd_routes c (F (kLast k)) (soIds o) (sReg st) r1 rf); [by rewrite HLc|done|done|].
      intros p tls. subst rf oldIds. rewrite Er. cbn [sReg st2 set_tun set_reg].
      etransitivity; [eapply (old_tunnels_spec shuf shuf_perm (soIds o) (F (kLast k)) (kLast k) (map (tun_of st3) old) c)|].
      + intros E. apply HTne. apply map_eq_nil in E. apply elem_of_equiv_empty_L. intros x Hx. apply Hold in Hx. rewrite E in Hx. by apply elem_of_nil in Hx.
      + apply Forall_fmap. apply Forall_forall. intros x Hx. apply Hold in Hx. cbn. rewrite Htun3. rewrite decide_False by (by intros ->).
        rewrite <- (Hall x Hx). split; [|done]. by apply Htids.
      + unfold upd. by rewrite Hr21. }
  assert (sCli (set_cli (set_reg st3 rf) c kk) = <[c := kk]> (sCli st)) as Ec'. { cbn. rewrite Ec. cbn. by rewrite insert_insert. }
  assert (kTunnels kk = Some {[ t ]}) as Hkt by (subst kk; cbn; by rewrite HTk).
  split; [|split; [|split]].
  - eapply (inv_change L _ st _ c k kk T {[ t ]}); try done; cbn.
    + intros t' ->%elem_of_singleton. by right.
    + intros t'. change (tun_of _ t') with (tun_of st3 t') at 1. rewrite Htun3. destruct (decide (t' = t)) as [->|]; [right; left; set_solver|by left].
    + intros H. exfalso. set_solver.
    + intros t' ->%elem_of_singleton. change (tun_of _ t) with (tun_of st3 t). rewrite Htun3, decide_True by done. done.
    + rewrite HLcc, <- Ho. exact Ha.
  - eapply (Hsync kk); done.
  - exists kk, {[ t ]}. rewrite Ec', lookup_insert. split_and!; [done|done|set_solver].
  - cbn. by rewrite Ei.
Qed.

(* a client's connection ends *)
Lemma remove_inv L st t c k T : Inv L st -> sCli st !! c = Some k -> kTunnels k = Some T -> t ∈ T ->
  (T = {[ t ]} -> tChk (tun_of st t) = L c) ->
  Inv L (remove_tunnel shuf t c st) /\ (forall id c', c' <> c -> sIds (remove_tunnel shuf t c st) !! id = Some c' -> sIds st !! id = Some c')
  /\ (forall c', c' <> c -> sCli (remove_tunnel shuf t c st) !! c' = sCli st !! c')
  /\ (T = {[ t ]} -> forall id, sIds (remove_tunnel shuf t c st) !! id <> Some c)
  /\ (T <> {[ t ]} -> forall k', sCli (remove_tunnel shuf t c st) !! c = Some k' -> kLast k' = kLast k).
Proof.
  intros I Hc HT Ht Hlast. pose proof (iDead _ _ I _ _ _ Hc HT) as Hid.
  destruct (iLive _ _ I _ _ Hid) as (k0 & T0 & Hc0 & _ & HT0 & Hemp & Htids & Hroutes).
  assert (k0 = k) as -> by congruence. assert (T0 = T) as -> by congruence. clear Hc0 HT0.
  unfold remove_tunnel. rewrite Hc, HT. rewrite decide_True by done. destruct (decide (T ∖ {[ t ]} = ∅)) as [He|He].
  - assert (T = {[ t ]}) as ->. { apply set_eq. intros x. split; [|set_solver]. intros Hx. destruct (decide (x = t)) as [->|]; [set_solver|]. assert (x ∈ (T ∖ {[t]})) as Hx' by set_solver. rewrite He in Hx'. set_solver. }
    specialize (Hlast eq_refl). set (r := foldl _ (sReg st) _).
    assert (routes c (tIds (tun_of st t)) (sReg st)) as Hro. { rewrite (Htids t), Hlast by set_solver. done. }
    destruct (remove_routes shuf shuf_perm 10%nat c _ _ Hro) as [Hr1 Hr2]. fold r in Hr1, Hr2.
    set (st1 := mkSrv r (delete (kId k) (sIds st)) (<[c := with_tunnels k None]> (sCli st)) (sTun st) (sTcp st)).
    set (stf := match kPool k with Some p => match sTcp st1 !! p with Some x => set_tcp st1 p (drop_client c (close_listeners c x)) | None => st1 end | None => st1 end).
    assert (sReg stf = r /\ sIds stf = sIds st1 /\ sCli stf = sCli st1 /\ sTun stf = sTun st) as (E1 & E2 & E3 & E4).
    { subst stf. destruct (kPool k) as [p|]; [|done]. by destruct (sTcp st1 !! p). }
    change (Inv L stf /\ (forall id c', c' <> c -> sIds stf !! id = Some c' -> sIds st !! id = Some c') /\ (forall c', c' <> c -> sCli stf !! c' = sCli st !! c')
      /\ (({[t]} : gset N) = {[t]} -> forall id, sIds stf !! id <> Some c) /\ (({[t]} : gset N) <> {[t]} -> forall k', sCli stf !! c = Some k' -> kLast k' = kLast k)).
    assert (forall t', tun_of stf t' = tun_of st t') as Etun by (intros; unfold tun_of; by rewrite E4).
    assert (forall t' c', in_client stf t' c' -> in_client st t' c' /\ c' <> c) as Hin.
    { intros t' c' (k1 & T1 & H1 & H2 & H3). rewrite E3 in H1. cbn in H1. destruct (decide (c' = c)) as [->|Hne].
      - rewrite lookup_insert in H1. injection H1 as <-. done.
      - rewrite lookup_insert_ne in H1 by done. split; [by exists k1, T1|done]. }
    assert (forall id, sIds stf !! id <> Some c) as Hgone.
    { intros id. rewrite E2. cbn. destruct (decide (id = kId k)) as [->|Hne]; [by rewrite lookup_delete|]. rewrite lookup_delete_ne by done.
      intros H. destruct (iLive _ _ I _ _ H) as (k1 & T1 & H1 & H2 & _). congruence. }
    split; [|split; [|split; [|split; [done|done]]]].
    + split.
      * intros c' p tls si H. rewrite E1 in H. destruct (decide (c' = c)) as [->|Hne]; [by apply Hr1 in H|].
        apply Hr2 in H; [|done]. destruct (iOwn _ _ I _ _ _ _ H) as (k1 & H1 & H2). exists k1. rewrite E3, E2. cbn. rewrite lookup_insert_ne by done.
        split; [done|]. rewrite lookup_delete_ne; [done|]. intros E. rewrite <- E in H2. congruence.
      * intros id c' H. destruct (decide (c' = c)) as [->|Hne]; [by apply Hgone in H|]. rewrite E2 in H. cbn in H. apply lookup_delete_Some in H as [Hn H].
        destruct (iLive _ _ I _ _ H) as (k1 & T1 & H1 & H2 & H3 & H4 & H5 & H6). exists k1, T1. rewrite E3. cbn. rewrite lookup_insert_ne by done.
        split_and!; try done. { intros t' Ht'. rewrite Etun. by apply H5. } intros p tls si. rewrite E1, Hr2 by done. apply H6.
      * intros c' k1 T1 H1 H2. rewrite E3 in H1. cbn in H1. destruct (decide (c' = c)) as [->|Hne].
        { rewrite lookup_insert in H1. injection H1 as <-. done. }
        rewrite lookup_insert_ne in H1 by done. rewrite E2. cbn. pose proof (iDead _ _ I _ _ _ H1 H2) as H3. rewrite lookup_delete_ne; [done|]. intros E. rewrite <- E in H3. congruence.
      * intros t' c1 c2 H1 H2. apply Hin in H1 as [H1 _], H2 as [H2 _]. by eapply (iOne _ _ I).
    + intros id c' Hne H. rewrite E2 in H. cbn in H. by apply lookup_delete_Some in H as [_ H].
    + intros c' Hne. rewrite E3. cbn. by rewrite lookup_insert_ne by done.
  - assert (T <> {[ t ]}) as Hns by (intros ->; apply He; set_solver).
    split; [|split; [|split; [|split]]]; try done.
    + eapply (inv_change L L st _ c k (with_tunnels k (Some (T ∖ {[ t ]}))) T (T ∖ {[ t ]})); try done.
      * intros t' Ht'. left. set_solver.
      * by left.
      * intros t' Ht'. apply Htids. set_solver.
    + intros c' Hne. cbn. by rewrite lookup_insert_ne by done.
    + intros _ k' H. cbn in H. rewrite lookup_insert in H. by injection H as <-.
Qed.
Lemma gone_cases L st t : Inv L st ->
  (gone shuf t st = st /\ forall c, ~ in_client st t c) \/ (exists c k T, sCli st !! c = Some k /\ kTunnels k = Some T /\ t ∈ T /\ gone shuf t st = remove_tunnel shuf t c st).
Proof.
  intros I. unfold gone. set (X := dom _).
  assert (forall c, c ∈ X <-> in_client st t c) as HX.
  { intros c. subst X. rewrite elem_of_dom. split.
    - intros [k Hk]. apply map_filter_lookup_Some in Hk as [Hk1 Hk2]. cbn in Hk2. destruct (kTunnels k) as [T|] eqn:HT; [|cbn in Hk2; set_solver]. by exists k, T.
    - intros (k & T & H1 & H2 & H3). exists k. apply map_filter_lookup_Some. split; [done|]. cbn. by rewrite H2. }
  destruct (decide (X = ∅)) as [E|E].
  - left. split; [|intros c Hc; apply HX in Hc; set_solver]. rewrite E, elements_empty.
    assert (shuf 11%nat N [] = []) as -> by (apply Permutation_nil_r, shuf_perm). done.
  - right. apply set_choose_L in E as [c Hc]. assert (X = {[ c ]}) as ->.
    { apply set_eq. intros x. rewrite elem_of_singleton. split; [|by intros ->]. intros Hx. apply HX in Hx, Hc. by eapply (iOne _ _ I). }
    apply HX in Hc as (k & T & H1 & H2 & H3). exists c, k, T. split_and!; try done. rewrite elements_singleton.
    assert (shuf 11%nat N [c] = [c]) as -> by (apply Permutation_singleton_r, shuf_perm). done.
Qed.
End S.
