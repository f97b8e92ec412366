(* Props_Qobj.v -- C96: what QUIC connections with -bbr hold is released, once, and not used afterwards (QobjModel) *)
From Verif Require Import GoBase QobjModel.
Local Open Scope N_scope.

(* ---- dialling ---- *)
Definition succeeds (f : fate) : bool := fSplit f && fPort f && fStart f && fConnected f && fStream f && fStarted f.
(* what a dial that fails leaves behind *)
Definition left_behind (f : fate) : nat :=
  if succeeds f then 0
  else if fSplit f && fPort f && fStart f then (if fConnected f then (if fStream f then 4 else 3) else 2) else 1.
Definition left_all (es : list wev) : nat := sum_list ((fun e => match e with WDial f => left_behind f | _ => 0%nat end) <$> es).
Definition ids (l : list (N * N * N * N)) : list N := concat ((fun '(a, b, c, d) => [a; b; c; d]) <$> l).
Record winv (w : world) : Prop := { wi_dup : NoDup (ids (wConns w)); wi_in : forall x, x ∈ ids (wConns w) -> is_Some (wLive w !! x); wi_lt : forall x, is_Some (wLive w !! x) -> x < wNext w }.
Lemma put_eq w o : put w o = (wNext w, mkW (<[wNext w := o]> (wLive w)) (wNext w + 1) (wConns w)). Proof. done. Qed.
Lemma put_ok w o : winv w -> winv (snd (put w o)) /\ size (wLive (snd (put w o))) = S (size (wLive w)).
Proof.
  intros [H1 H2 H3]. unfold put. cbn. assert (Hn : wLive w !! wNext w = None) by (apply eq_None_not_Some; intros H; apply H3 in H; lia). split.
  - constructor; cbn; [done| |].
    + intros x Hx. specialize (H2 _ Hx). destruct (decide (wNext w = x)) as [->|]; [by rewrite lookup_insert|by rewrite lookup_insert_ne].
    + intros x Hx. destruct (decide (wNext w = x)) as [->|]; [lia|]. rewrite lookup_insert_ne in Hx by done. apply H3 in Hx. lia.
  - by apply map_size_insert_None.
Qed.
Lemma dial_ok f w : winv w -> winv (snd (dial f w)) /\ length (wConns (snd (dial f w))) = (length (wConns w) + (if succeeds f then 1 else 0))%nat /\
  size (wLive (snd (dial f w))) = (size (wLive w) + (if succeeds f then 4 else left_behind f))%nat.
Proof.
  intros H0. unfold dial, left_behind, succeeds. destruct f as [sp po st co sm sd]. cbn [fSplit fPort fStart fConnected fStream fStarted].
  destruct (put_ok w PtrConn H0) as [I1 S1]. destruct (put w PtrConn) as [a w1] eqn:E1. cbn [snd] in I1, S1. assert (C1 : wConns w1 = wConns w) by (rewrite put_eq in E1; by simplify_eq).
  destruct sp; cbn [negb andb snd]; [|rewrite C1, S1; split_and!; [done|lia|lia]]. destruct po; cbn [negb andb snd]; [|rewrite C1, S1; split_and!; [done|lia|lia]]. destruct st; cbn [negb andb snd]; [|rewrite C1, S1; split_and!; [done|lia|lia]].
  destruct (put_ok w1 CppConn I1) as [I2 S2]. destruct (put w1 CppConn) as [b w2] eqn:E2. cbn [snd] in I2, S2. assert (C2 : wConns w2 = wConns w) by (rewrite put_eq in E2; by simplify_eq).
  destruct co; cbn [negb andb snd]; [|rewrite C2, S2, S1; split_and!; [done|lia|lia]].
  destruct (put_ok w2 PtrStream I2) as [I3 S3]. destruct (put w2 PtrStream) as [c w3] eqn:E3. cbn [snd] in I3, S3. assert (C3 : wConns w3 = wConns w) by (rewrite put_eq in E3; by simplify_eq).
  destruct sm; cbn [negb andb snd]; [|rewrite C3, S3, S2, S1; split_and!; [done|lia|lia]].
  destruct (put_ok w3 CppStream I3) as [I4 S4]. destruct (put w3 CppStream) as [d w4] eqn:E4. cbn [snd] in I4, S4. assert (C4 : wConns w4 = wConns w) by (rewrite put_eq in E4; by simplify_eq).
  destruct sd; cbn [negb andb snd wConns wLive wNext]; [|rewrite C4, S4, S3, S2, S1; split_and!; [done|lia|lia]].
  rewrite C4, app_length. split_and!; [|cbn; lia|lia].
  rewrite put_eq in E1, E2, E3, E4. injection E1 as <- <-. injection E2 as <- <-. injection E3 as <- <-. injection E4 as <- <-. cbn in *.
  destruct H0 as [H1 H2 H3]. destruct I4 as [J1 J2 J3]. cbn in *. constructor; cbn.
  - unfold ids. rewrite fmap_app, concat_app. apply NoDup_app. split; [exact H1|]. split.
    + intros x Hx Hn. apply H2, H3 in Hx. cbn in Hn. rewrite !elem_of_cons, elem_of_nil in Hn. destruct_or!; lia.
    + cbn. rewrite !NoDup_cons, !elem_of_cons, !elem_of_nil. split_and!; try apply NoDup_nil_2; intros ?; destruct_or!; lia.
  - intros x Hx. unfold ids in Hx. rewrite fmap_app, concat_app, elem_of_app in Hx. destruct Hx as [Hx|Hx]; [by apply J2|]. cbn in Hx. rewrite !elem_of_cons, elem_of_nil in Hx.
    destruct_or!; subst; rewrite ?lookup_insert, ?lookup_insert_ne by lia; rewrite ?lookup_insert, ?lookup_insert_ne by lia; rewrite ?lookup_insert, ?lookup_insert_ne by lia; rewrite ?lookup_insert; eauto; done.
  - exact J3.
Qed.
Lemma hang_up_ok i w : winv w -> winv (hang_up i w) /\ (size (wLive (hang_up i w)) + 4 * length (wConns w) = size (wLive w) + 4 * length (wConns (hang_up i w)))%nat.
Proof.
  intros [H1 H2 H3]. unfold hang_up. destruct (wConns w !! i) as [[[[a b] c] d]|] eqn:E; [|split; [done|lia]].
  pose proof (take_drop_middle _ _ _ E) as Hs. rewrite delete_take_drop. set (l1 := take i (wConns w)) in *. set (l2 := drop (S i) (wConns w)) in *.
  rewrite <- Hs in H1, H2. unfold ids in H1, H2. rewrite fmap_app, concat_app in H1, H2. cbn in H1, H2. change (concat ((fun '(a, b, c, d) => [a; b; c; d]) <$> l1)) with (ids l1) in H1, H2. change (concat ((fun '(a, b, c, d) => [a; b; c; d]) <$> l2)) with (ids l2) in H1, H2.
  rewrite NoDup_app in H1. destruct H1 as (D1 & D12 & D2).
  rewrite !NoDup_cons, !elem_of_cons in D2. destruct D2 as (Na & Nb & Nc & Nd & D2).
  assert (Hin : forall x, x ∈ [a; b; c; d] -> is_Some (wLive w !! x)) by (intros x Hx; apply H2; rewrite elem_of_app; right; rewrite !elem_of_cons in *; rewrite elem_of_nil in Hx; tauto).
  split; cbn.
  - assert (Hid : ids (l1 ++ l2) = ids l1 ++ ids l2) by (unfold ids; by rewrite fmap_app, concat_app). constructor; cbn [wConns wLive wNext].
    + rewrite Hid. apply NoDup_app. split; [exact D1|]. split; [|exact D2]. intros x Hx Hy. apply (D12 x Hx). rewrite !elem_of_cons. tauto.
    + intros x. rewrite Hid, elem_of_app. intros Hx. assert (Hl : is_Some (wLive w !! x)) by (apply H2; rewrite elem_of_app, !elem_of_cons; tauto).
      assert (Hne : x ∉ [a; b; c; d]).
      { rewrite !elem_of_cons, elem_of_nil. intros Hy. destruct Hx as [Hx|Hx]; [apply (D12 x Hx); rewrite !elem_of_cons; tauto|]. destruct_or!; subst; try tauto. }
      rewrite !not_elem_of_cons in Hne. destruct Hne as (? & ? & ? & ? & _). by rewrite !lookup_delete_ne by done.
    + intros x Hx. apply H3. destruct Hx as [o Hx]. rewrite !lookup_delete_Some in Hx. exists o. tauto.
  - assert (Hd : forall (m : gmap N obj) x, is_Some (m !! x) -> S (size (delete x m)) = size m).
    { intros m x [o Ho]. rewrite <- (insert_delete m x o Ho) at 2. by rewrite map_size_insert_None by apply lookup_delete. }
    assert (S1 : size (wLive w) = (4 + size (delete a (delete b (delete c (delete d (wLive w))))))%nat).
    { rewrite <- (Hd (wLive w) d), <- (Hd (delete d (wLive w)) c), <- (Hd (delete c (delete d (wLive w))) b), <- (Hd (delete b (delete c (delete d (wLive w)))) a); [done|..].
      - rewrite !lookup_delete_ne by (intros Hq; symmetry in Hq; tauto). apply Hin. rewrite !elem_of_cons. tauto.
      - rewrite !lookup_delete_ne by (intros Hq; symmetry in Hq; tauto). apply Hin. rewrite !elem_of_cons. tauto.
      - rewrite !lookup_delete_ne by (intros Hq; symmetry in Hq; tauto). apply Hin. rewrite !elem_of_cons. tauto.
      - apply Hin. rewrite !elem_of_cons. tauto. }
    rewrite S1, <- Hs, !app_length. cbn. lia.
Qed.
Lemma left_all_snoc es e : left_all (es ++ [e]) = (left_all es + match e with WDial f => left_behind f | _ => 0 end)%nat.
Proof. unfold left_all. induction es as [|x es IH]; cbn in *; lia. Qed.
(* The account: four objects for each open connection, and what failed dials left behind -- which nothing ever takes away. *)
Theorem C96_account : forall es, size (wLive (wrun es)) = (4 * length (wConns (wrun es)) + left_all es)%nat.
Proof.
  intros es. assert (G : winv (wrun es) /\ size (wLive (wrun es)) = (4 * length (wConns (wrun es)) + left_all es)%nat); [|apply G].
  unfold wrun. assert (I0 : winv w0). { constructor; cbn; [constructor|by intros x Hx%elem_of_nil|]. intros x [? Hx]. by rewrite lookup_empty in Hx. }
  induction es as [|e es IH] using rev_ind; [split; [done|]; cbn; by rewrite map_size_empty|]. destruct IH as [I S]. rewrite foldl_app, left_all_snoc. cbn [foldl]. destruct e as [f|i]; cbn [wstep].
  - destruct (dial_ok f _ I) as (I' & L & S'). split; [done|]. rewrite S', L. assert (succeeds f = true -> left_behind f = 0%nat) by (intros Hf; unfold left_behind; by rewrite Hf). destruct (succeeds f); lia.
  - destruct (hang_up_ok i _ I) as (I' & S'). split; [done|]. lia.
Qed.
(* Connections that were made leave nothing when they are closed, *)
Theorem C96_clean_partial : forall es, (forall f, WDial f ∈ es -> succeeds f = true) -> wConns (wrun es) = [] -> wLive (wrun es) = ∅.
Proof.
  intros es Hf Hc. pose proof (C96_account es) as H. rewrite Hc in H. cbn in H. apply map_size_empty_inv. rewrite H. unfold left_all. clear - Hf.
  induction es as [|e es IH]; [done|]. cbn. rewrite IH by (intros f Hx; apply Hf; by right). destruct e as [f|]; [|done]. unfold left_behind. rewrite Hf by (by left). done.
Qed.
(* but every dial that fails leaves something for ever, so a client that cannot reach its server (it goes on trying, C79) holds ever more. *)
Definition failed (e : wev) : bool := match e with WDial f => negb (succeeds f) | WClose _ => false end.
Theorem C96_failed_dial_refuted : forall es, (length (filter (fun e => failed e = true) es) <= size (wLive (wrun es)))%nat.
Proof.
  intros es. rewrite C96_account. assert (length (filter (fun e => failed e = true) es) <= left_all es)%nat; [|lia].
  unfold left_all. induction es as [|e es IH]; [cbn; lia|]. rewrite filter_cons. rewrite fmap_cons. cbn [sum_list sum_list_with foldr].
  assert (Hx : failed e = true -> (1 <= match e with WDial f => left_behind f | _ => 0 end)%nat).
  { destruct e as [f|]; cbn; [|done]. intros Hs%negb_true_iff. unfold left_behind. rewrite Hs. repeat case_match; lia. }
  case_decide as Hf; [specialize (Hx Hf)|]; cbn [length] in *; cbn in *; lia.
Qed.

(* ---- using and closing ---- *)
Definition gone (b : bool) : nat := if b then 0 else 1.
Lemma urun_inv (I : ust -> Prop) : (forall u e u', I u -> ustep u e = Some u' -> I u') -> forall es u u', I u -> urun u es = Some u' -> I u'.
Proof. intros HI. induction es as [|e es IH]; intros u u' H0 H; cbn in H; [by simplify_eq|]. apply bind_Some in H as (u1 & E & H). eauto. Qed.
(* However many goroutines call Close, the stream and the connection are deleted once each. *)
Theorem C96_freed_once : forall es u, urun ust0 es = Some u -> uFreed u = (gone (uStream u) + gone (uConn u))%nat /\ (uClose u = CGone -> uFreed u = 2%nat).
Proof.
  intros es u H. set (I := fun u => match uClose u with CNot | CWon | CTold => uStream u = true /\ uConn u = true /\ uFreed u = 0%nat | CStreamGone => uStream u = false /\ uConn u = true /\ uFreed u = 1%nat
    | CGone => uStream u = false /\ uConn u = false /\ uFreed u = 2%nat end).
  assert (G : I u).
  { refine (urun_inv I _ es ust0 u _ H); [|by split_and!]. clear. intros [ops c st co fr fa] e u' HI H. unfold I in *. cbn in HI. destruct e; cbn in H; repeat (case_match; simplify_eq; try done); cbn; destruct_and?; simplify_eq; try done; cbn in *; destruct_and?; by subst. }
  unfold I in G. destruct (uClose u); destruct G as (-> & -> & ->); split; done.
Qed.
(* But a Write after Close -- a visitor's goroutine whose tunnel has ended: Connection.Write does not look -- uses memory that was freed, *)
Theorem C96_write_after_close_refuted : forall es u g t, urun ust0 es = Some u -> uClose u = CGone -> uOps u !! g = None -> exists u', urun u [UWrite g t; UGo g] = Some u' /\ uFault u' = true.
Proof.
  intros es u g t H Hc Hg. destruct (C96_freed_once _ _ H) as [E Hf]. rewrite (Hf Hc) in E. destruct u as [ops c st co fr fa]. cbn in *. subst c.
  assert (st = false /\ co = false) as [-> ->] by (destruct st, co; cbn in E; try done; lia). rewrite Hg. cbn. rewrite lookup_insert. destruct t; cbn; eexists; (split; [done|]); cbn; by rewrite orb_true_r.
Qed.
(* and so do a Write and a Read that are under way. *)
Theorem C96_in_flight_refuted : (exists u, urun ust0 [UWrite 1 true; UGo 1; UClose; UCloseGo; UCloseGo; UGo 1] = Some u /\ uFault u = true) /\
  (exists u, urun ust0 [URead 1; UData 1; UClose; UCloseGo; UCloseGo; UGo 1] = Some u /\ uFault u = true) /\ (exists u, urun ust0 [URead 1; UClose; UCloseGo; UCloseGo; UData 1; UGo 1] = Some u /\ uFault u = true).
Proof. split_and!; eexists; (split; [vm_compute; reflexivity|done]). Qed.
(* If every Write has come to its wait and no Read is under way when Close is called, and nothing is called afterwards, no freed memory is used. *)
Definition calls (e : uev) : bool := match e with UWrite _ _ | URead _ => true | _ => false end.
Lemma no_fault_before es u : urun ust0 es = Some u -> uStream u = true -> uConn u = true -> uFault u = false.
Proof.
  intros H. set (I := fun u => (uClose u <> CGone -> uConn u = true) /\ (uStream u = true -> uConn u = true /\ uFault u = false) /\ (uClose u = CNot \/ uClose u = CWon \/ uClose u = CTold -> uStream u = true)).
  assert (G : I u); [|intros; by apply G].
  refine (urun_inv I _ es ust0 u _ H); [|split_and!; done]. clear. intros [ops c st co fr fa] e u' HI H. unfold I in *. cbn in HI. destruct HI as (H1 & H2 & H3).
  destruct e; cbn in H; repeat (case_match; simplify_eq; try done); unfold with_ops; cbn in *; split_and!; try done; intros; try tauto; try (destruct (H2 ltac:(done)) as [-> ->]; try subst st; done); try (by destruct_or!); try (apply H1; by destruct_or!); try (apply H3; tauto).
Qed.
Theorem C96_safe_partial : forall es1 u1 es2 u2, urun ust0 es1 = Some u1 -> uClose u1 = CNot -> map_Forall (fun _ p => p = WWait) (uOps u1) -> Forall (fun e => calls e = false) es2 ->
  urun u1 es2 = Some u2 -> uFault u2 = false.
Proof.
  intros es1 u1 es2 u2 H1 Hc Hw Hn H2. destruct (C96_freed_once _ _ H1) as [_ _].
  assert (Hok : uStream u1 = true /\ uConn u1 = true).
  { set (J := fun u => match uClose u with CNot | CWon | CTold => uStream u = true /\ uConn u = true | _ => True end).
    assert (G : J u1); [|unfold J in G; rewrite Hc in G; exact G]. refine (urun_inv J _ es1 ust0 u1 _ H1); [|done]. clear. intros [ops c st co fr fa] e u' HI H. unfold J in *. cbn in HI.
    destruct e; cbn in H; repeat (case_match; simplify_eq; try done). }
  set (K := fun u => uFault u = false /\ map_Forall (fun _ p => p = WWait) (uOps u) /\ match uClose u with CNot | CWon | CTold => uStream u = true /\ uConn u = true | CStreamGone => uConn u = true | CGone => True end).
  assert (K0 : K u1) by (split; [by eapply no_fault_before; [| |]; eauto; apply Hok|]; split; [done|]; by rewrite Hc).
  assert (G : K u2); [|apply G]. clear - K0 Hn H2. revert u1 K0 H2. induction es2 as [|e es IH]; intros u1 K0 H2; cbn in H2; [by simplify_eq|]. apply bind_Some in H2 as (um & E & H2).
  inversion Hn as [|? ? He Hn']; subst. refine (IH Hn' um _ H2). clear - K0 He E. destruct u1 as [ops c st co fr fa]. unfold K in *. cbn in K0. destruct K0 as (-> & Hw & Hc).
  destruct e as [g t|g|g|g|g| |]; cbn in E; try done.
  - destruct (ops !! g) as [p|] eqn:Eg; [|done]. pose proof (Hw _ _ Eg). cbn in *. by subst p.
  - destruct (ops !! g) as [p|] eqn:Eg; [|done]. pose proof (Hw _ _ Eg). cbn in *. subst p. simplify_eq. cbn. split; [done|]. split; [by apply map_Forall_delete|done].
  - destruct (ops !! g) as [p|] eqn:Eg; [|done]. pose proof (Hw _ _ Eg). cbn in *. subst p. destruct (told c); [|done]. simplify_eq. cbn. split; [done|]. split; [by apply map_Forall_delete|done].
  - simplify_eq. destruct c; cbn; destruct_and?; by split_and!.
  - destruct c; simplify_eq; cbn; [destruct_and?; by split_and!|destruct Hc as [-> ->]; by split_and!|by split_and!].
Qed.

(* ---- a client's streams ---- *)
Definition is_open (e : sev) : bool := match e with SOpen _ => true | _ => false end.
Definition opens (es : list sev) : nat := length (filter (fun e => is_open e = true) es).
(* A client that opens three streams on one connection: the thread that serves it is stuck until gt closes the connection, and neither the tunnel's data nor the end of the
   connection gets through, so gt has no reason to close it. *)
Theorem C96_third_stream_refuted : forall a b c, exists s, srun sst0 [SOpen a; SAccept; SOpen b; SOpen c] = Some s /\
  forall es s', srun s es = Some s' -> SClose ∉ es -> sBlocked s' = Some c /\ sData s' = [] /\ sEnded s' = false.
Proof.
  intros a b c. eexists. split; [reflexivity|]. intros es. assert (G : forall es s', srun (mkS [b] (Some c) [a] false []) es = Some s' -> SClose ∉ es -> s' = mkS [b] (Some c) [a] false []).
  { clear. induction es as [|e es IH]; intros s' H Hn; cbn in H; [by simplify_eq|]. apply not_elem_of_cons in Hn as [Hne Hn]. destruct e; cbn in H; done. }
  intros s' H Hn. rewrite (G es s' H Hn). done.
Qed.
(* With two it is not: once the connection has been accepted the thread goes on. *)
Theorem C96_two_streams_partial : forall es s c, srun sst0 es = Some s -> (opens es <= 2)%nat -> sBlocked s = Some c ->
  exists tr s', tr ⊆ [SAccept; SFree] /\ srun s tr = Some s' /\ sBlocked s' = None.
Proof.
  intros es s c H Ho Hb. set (tot := fun s => (length (sQueue s) + length (sServed s) + (match sBlocked s with Some _ => 1 | None => 0 end))%nat).
  assert (G1 : forall e s0 s, sstep s0 e = Some s -> (tot s <= tot s0 + (if is_open e then 1 else 0))%nat).
  { clear. intros e [q b sv en d] s E. unfold tot. destruct e, b, q as [|? [|]], sv, en; cbn in E; simplify_eq; cbn; lia. }
  assert (G : forall es s0 s, srun s0 es = Some s -> (tot s <= tot s0 + opens es)%nat).
  { clear - G1. induction es as [|e es IH]; intros s0 s H; cbn in H; [simplify_eq; unfold opens; cbn; lia|]. apply bind_Some in H as (s1 & E & H). pose proof (IH _ _ H) as I1.
    pose proof (G1 _ _ _ E) as I2. assert (opens (e :: es) = ((if is_open e then 1 else 0) + opens es)%nat) as ->; [|lia]. unfold opens. rewrite filter_cons. destruct (is_open e); done. }
  pose proof (G es sst0 s H) as T. unfold tot in T. cbn in T. destruct s as [q b sv en d]. cbn in *. subst b.
  destruct q as [|x [|]]; [| |cbn in T; lia].
  - exists [SFree]. eexists. split; [|by cbn]. intros x. rewrite !elem_of_cons. tauto.
  - destruct sv as [|]; [|cbn in T; lia]. exists [SAccept; SFree]. eexists. split; [done|]. by cbn.
Qed.

(* a client that failed to dial twice, dialled, and hung up; a connection used, closed while a Write waits for its acknowledgement, and not used afterwards *)
Definition ok_fate : fate := mkF true true true true true true.
Theorem C96_witness : (size (wLive (wrun [WDial (mkF true true true false true true); WDial ok_fate; WDial (mkF false true true true true true); WClose 0])) = 3)%nat /\
  wLive (wrun [WDial ok_fate; WDial ok_fate; WClose 1; WClose 0]) = ∅ /\ succeeds ok_fate = true /\
  (exists u, urun ust0 [UWrite 1 true; UGo 1; UGo 1; UClose; UClose; UCloseGo; UCloseGo; UEnd 1; UCloseGo] = Some u /\ uClose u = CGone /\ uFault u = false) /\
  (exists s, srun sst0 [SOpen 1; SOpen 2; SAccept] = Some s /\ sBlocked s = Some 2 /\ sServed s = [1]).
Proof. split_and!; [apply (bool_decide_unpack _); vm_compute; exact I|apply (bool_decide_unpack _); vm_compute; exact I|done| |]; eexists; (split; [vm_compute; reflexivity|done]). Qed.
