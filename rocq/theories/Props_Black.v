(* Props_Black.v -- C57: a configuration that was replaced is kept out for a minute *)
From Verif Require Import GoBase HandshakeModel TcpModel RegModel RegProofs Props_Reg BlackModel.
Local Open Scope N_scope.

(* ================= the take-over ================= *)
Lemma black_add_split x l : exists l', black_add x l = x :: l' /\ l' = take 2 (filter (fun y => y <> x) l).
Proof. by eexists. Qed.
Lemma black_fold (xs : list bytes) : forall l, NoDup xs -> (length xs <= 3)%nat ->
  forall x, x ∈ xs -> x ∈ foldl (fun b y => black_add y b) l xs.
Proof.
  intros l Hn Hl. destruct xs as [|a [|b [|c [|? ?]]]]; cbn [length] in Hl; [set_solver|..|lia]; cbn [foldl].
  - unfold black_add at 1. cbn [take]. set_solver.
  - apply NoDup_cons in Hn as [Hab _]. assert (a <> b) by set_solver. unfold black_add. cbn [take]. rewrite filter_cons_True by done. cbn [take]. set_solver.
  - apply NoDup_cons in Hn as [Hab Hn]. apply NoDup_cons in Hn as [Hbc _]. assert (a <> b) by set_solver. assert (a <> c) by set_solver. assert (b <> c) by set_solver.
    unfold black_add. cbn [take]. rewrite !filter_cons_True by done. cbn [take]. rewrite filter_cons_True by done. cbn [take].
    cbn [take]. set_solver.
Qed.
Lemma old_changes_dom shuf new ts : forall m, dom (old_changes shuf new ts m) = list_to_set (map tChk ts) ∪ dom m.
Proof. induction ts as [|t ts IH]; intros m; cbn; [set_solver|]. rewrite IH, dom_insert_L. set_solver. Qed.

(* the configurations of a client's tunnels other than the new one *)
Definition other_configs (st : srv) (T : gset N) (chk : bytes) : gset bytes :=
  list_to_set (filter (fun c => c <> chk) (map (fun t => tChk (tun_of st t)) (elements T))).

(* A connection with a new configuration (not the one processed last) that is accepted: all tunnels of the client that
   are left have it, and the configurations of the others -- at most three -- are remembered. *)
Theorem C57_taken_over : forall shuf listen t o c st st' k T, perm shuf -> sCli st !! c = Some k -> kTunnels k = Some T -> t ∉ T ->
  kLast k <> soChk o -> add_tunnel shuf listen t false o c st = (AOk, st') ->
  exists k' T', sCli st' !! c = Some k' /\ kTunnels k' = Some T' /\ t ∈ T' /\
    (forall t', t' ∈ T' -> tChk (tun_of st' t') = soChk o) /\
    (size (other_configs st T (soChk o)) <= 3 -> forall x, x ∈ other_configs st T (soChk o) -> x ∈ kBlack k')%nat.
Proof.
  intros shuf listen t o c st st' k T Hp Hc HT Ht Hl. unfold add_tunnel. rewrite Hc, HT. cbn [default from_option id].
  destruct (kLimit k <=? _); [done|]. destruct (_ && _); [done|]. rewrite decide_False by done. cbn [sReg set_cli].
  destruct (hp_add _ _ _ _ _) as [[] r]; [|done].
  destruct (add_tcp _ _ _ _ _ _) as [[] st2] eqn:Etcp; [|done].
  assert (Hsame : sTun st2 = <[t := mkTun (soIds o) (soChk o)]> (sTun st) /\ sCli st2 = <[c := with_tunnels k (Some ({[t]} ∪ T))]> (sCli st)).
  { revert Etcp. unfold add_tcp. destruct (kPool k) as [p|].
    - destruct (process_tcp _ _ _ _ _) as [[b x] y]. intros [= -> <-]. done.
    - intros [= _ <-]. done. }
  destruct Hsame as [HsT HsC].
  intros [= <-]. eexists _, _. cbn [sCli set_cli set_reg]. rewrite lookup_insert. split; [reflexivity|]. cbn [kTunnels kBlack]. split; [reflexivity|].
  assert (Htun : forall t', t' <> t -> tun_of st2 t' = tun_of st t').
  { intros t' Hne. unfold tun_of. by rewrite HsT, lookup_insert_ne. }
  assert (Htt : tun_of st2 t = mkTun (soIds o) (soChk o)) by (unfold tun_of; by rewrite HsT, lookup_insert).
  assert (Hold : forall t', t' ∈ filter (fun t' => soChk o <> tChk (tun_of st2 t')) (shuf 7%nat _ (elements ({[t]} ∪ T))) <->
                  soChk o <> tChk (tun_of st2 t') /\ t' ∈ {[t]} ∪ T).
  { intros t'. rewrite elem_of_list_filter, (Hp 7%nat), elem_of_elements. done. }
  split; [|split].
  - apply elem_of_difference. split; [set_solver|]. rewrite elem_of_list_to_set, Hold, Htt. intros [Hx _]. done.
  - intros t' Hin. apply elem_of_difference in Hin as [Hin Hn]. rewrite elem_of_list_to_set, Hold in Hn.
    change (tChk (tun_of st2 t') = soChk o). destruct (decide (soChk o = tChk (tun_of st2 t'))); [done|]. by destruct Hn.
  - intros Hsz x Hx. set (old := filter _ (shuf 7%nat _ _)) in *.
    set (m := old_changes shuf (soIds o) (map (tun_of st2) old) ∅).
    assert (Hdom : forall y, y ∈ dom m <-> y ∈ other_configs st T (soChk o)).
    { intros y. unfold m, other_configs. rewrite old_changes_dom, dom_empty_L, elem_of_union, !elem_of_list_to_set, elem_of_list_filter.
      rewrite map_map. split.
      - intros [Hy|Hy]; [|set_solver]. apply elem_of_list_fmap in Hy as (t' & -> & Hy). apply Hold in Hy as [H1 H2].
        assert (t' <> t) by (intros ->; rewrite Htt in H1; done). rewrite Htun in * by done. split; [done|].
        apply elem_of_list_fmap. exists t'. split; [done|]. apply elem_of_elements. set_solver.
      - intros [Hne Hy]. apply elem_of_list_fmap in Hy as (t' & -> & Hy). apply elem_of_elements in Hy. left.
        assert (t' <> t) by (intros ->; done). apply elem_of_list_fmap. exists t'. split; [by rewrite Htun|]. apply Hold. rewrite Htun by done. split; [done|set_solver]. }
    set (order := shuf 8%nat _ (map_to_list m)).
    assert (Hfold : foldl (fun b cm => black_add (fst cm) b) (kBlack k) order = foldl (fun b y => black_add y b) (kBlack k) (order.*1)).
    { generalize (kBlack k). induction order as [|z order IH]; intros b0; [done|]. cbn. apply IH. }
    change (x ∈ foldl (fun b cm => black_add (fst cm) b) (kBlack k) order). rewrite Hfold.
    assert (Hperm : Permutation (order.*1) ((map_to_list m).*1)) by (apply fmap_Permutation, Hp).
    apply black_fold.
    + rewrite Hperm. apply NoDup_fst_map_to_list.
    + rewrite Hperm. rewrite fmap_length. change (length (map_to_list m)) with (size m). rewrite <- size_dom.
      assert (dom m = other_configs st T (soChk o)) as -> by (apply set_eq; exact Hdom). done.
    + rewrite Hperm. apply Hdom in Hx. apply elem_of_dom in Hx as [v Hx]. apply elem_of_list_fmap. exists (x, v). split; [done|]. by apply elem_of_map_to_list.
Qed.

(* While a configuration is remembered and a tunnel with another one is there, it is refused, and nothing changes. *)
Theorem C57_kept_out : forall shuf listen t reload o c st k T t', sCli st !! c = Some k -> kTunnels k = Some T ->
  soChk o ∈ kBlack k -> t' ∈ T -> tChk (tun_of st t') <> soChk o ->
  exists e, add_tunnel shuf listen t reload o c st = (AErr e, st) /\ (e = EDifferentConfig \/ e = EMaxConnections).
Proof.
  intros shuf listen t reload o c st k T t' Hc HT Hb Ht Hne. unfold add_tunnel. rewrite Hc, HT.
  destruct (kLimit k <=? _); [eauto|]. rewrite bool_decide_true by done.
  rewrite bool_decide_true; [cbn; eauto|]. apply Exists_exists. exists t'. split; [by apply elem_of_elements|done].
Qed.

(* ================= for how long ================= *)
(* every replaced configuration is forgotten again: nothing is remembered once no timer is pending *)
Lemma removelast_length {A} (l : list A) : length (removelast l) = (length l - 1)%nat.
Proof. induction l as [|x [|y l] IH]; [done..|]. cbn [length] in *. change (removelast (x :: y :: l)) with (x :: removelast (y :: l)). cbn [length]. lia. Qed.
Theorem C57_forgotten : forall h s, blexec h s -> (length (bList s) <= length (bTimers s))%nat /\ (bTimers s = [] -> bList s = []).
Proof.
  intros h s H. assert (G : (length (bList s) <= length (bTimers s))%nat).
  { induction H as [|h s e s' _ IH Hs]; [done|]. inversion Hs; subst; cbn [bList bTimers] in *.
    - rewrite app_length. cbn [length]. unfold black_add. rewrite take_length. cbn [length].
      pose proof (filter_length (fun y => y <> x) l). lia.
    - rewrite removelast_length, !app_length in *. cbn [length] in IH. lia.
    - done. }
  split; [done|]. intros E. rewrite E in G. destruct (bList s); [done|]. cbn in G. lia.
Qed.

(* calm: whenever a configuration is replaced, at most two others are remembered and it is not one of them *)
Definition adds (h : list (N * blevt)) : list (N * bytes) := omap (fun e => match snd e with BlAdd x => Some (fst e, x) | _ => None end) h.
Definition fires (h : list (N * blevt)) : nat := length (omap (fun e => match snd e with BlFire => Some tt | _ => None end) h).
(* those replaced, less one for each timer that has fired *)
Definition recent (h : list (N * blevt)) : list (N * bytes) := drop (fires h) (adds h).
Definition calm (h : list (N * blevt)) : Prop :=
  forall h1 n x h2, h = h1 ++ (n, BlAdd x) :: h2 -> (length (recent h1) <= 2)%nat /\ x ∉ map snd (recent h1).
Lemma adds_app a b : adds (a ++ b) = adds a ++ adds b.
Proof. apply omap_app. Qed.
Lemma fires_app a b : fires (a ++ b) = (fires a + fires b)%nat.
Proof. unfold fires. by rewrite omap_app, app_length. Qed.

Lemma list_filter_ne (x : bytes) (l : list bytes) : x ∉ l -> filter (fun y => y <> x) l = l.
Proof. induction l as [|y l IH]; intros H; [done|]. rewrite filter_cons_True by set_solver. f_equal. apply IH. set_solver. Qed.
Lemma filter_all_le n (l : list N) : Forall (fun d => d <= n) l -> filter (fun d => d <= n) l = l.
Proof. induction 1; [done|]. rewrite filter_cons_True by done. by f_equal. Qed.
Lemma filter_none_le n (l : list N) : Forall (fun d => ~ d <= n) l -> filter (fun d => d <= n) l = [].
Proof. induction 1; [done|]. by rewrite filter_cons_False. Qed.
Lemma filter_sub n (l : list N) : filter (fun d => d <= n) l ⊆+ l.
Proof. induction l as [|x l IH]; [done|]. rewrite filter_cons. destruct (decide _); [by apply submseteq_skip|by apply submseteq_cons]. Qed.
Definition due (a : N * bytes) : N := fst a + 60.
Record binv (h : list (N * blevt)) (s : blst) (F : list N) : Prop := {
  bi_list : reverse (bList s) = map snd (recent h);
  bi_perm : Permutation (F ++ bTimers s) (map due (adds h));
  bi_fired : Forall (fun d => d <= bNow s) F;
  bi_fires : length F = fires h;
  bi_sorted : forall i j a b, (i < j)%nat -> adds h !! i = Some a -> adds h !! j = Some b -> fst a <= fst b;
  bi_past : forall a, a ∈ adds h -> fst a <= bNow s }.
Lemma fires_le h s F : binv h s F -> (fires h <= length (adds h))%nat.
Proof. intros [_ Hp _ Hf _ _]. apply Permutation_length in Hp. rewrite app_length, map_length in Hp. lia. Qed.
Lemma calm_snoc h e : calm (h ++ [e]) -> calm h.
Proof. intros Hc h1 n x h2 ->. apply (Hc h1 n x (h2 ++ [e])). by rewrite <- app_assoc. Qed.
Lemma binv_exec h s : blexec h s -> calm h -> exists F, binv h s F.
Proof.
  induction 1 as [|h s e s' H IH Hs]; intros Hc.
  { exists []. split; cbn; try done. set_solver. }
  destruct (IH (calm_snoc _ _ Hc)) as [F HI]. pose proof (fires_le _ _ _ HI) as Hfl. destruct HI as [Hl Hp Hf Hn Hso Hpa].
  inversion Hs; subst; cbn [bNow bList bTimers] in *.
  - destruct (Hc h now x []) as [Hc1 Hc2]; [done|].
    assert (Ea : adds (h ++ [(now, BlAdd x)]) = adds h ++ [(now, x)]) by (by rewrite adds_app).
    assert (Ef : fires (h ++ [(now, BlAdd x)]) = fires h) by (rewrite fires_app; cbn; lia).
    exists F. split; cbn [bNow bList bTimers]; rewrite ?Ea, ?Ef; try done.
    + unfold recent. rewrite Ea, Ef. rewrite drop_app_le by done. rewrite map_app. cbn [map snd]. fold (recent h). rewrite <- Hl.
      assert (Hlen : (length l <= 2)%nat) by (rewrite <- reverse_length, Hl, map_length; done).
      assert (Hx : x ∉ l) by (rewrite <- Hl in Hc2; by rewrite elem_of_reverse in Hc2).
      unfold black_add. rewrite list_filter_ne by done. rewrite take_ge by (cbn; lia). by rewrite reverse_cons.
    + rewrite map_app. cbn [map]. unfold due at 2. cbn [fst]. rewrite app_assoc. by rewrite Hp.
    + intros i j a b Hij Ha Hb. apply lookup_app_Some in Hb as [Hb|[Hlen Hb]].
      * apply lookup_app_Some in Ha as [Ha|[Hla Ha]]; [by eapply Hso|]. apply lookup_lt_Some in Hb. lia.
      * apply lookup_app_Some in Ha as [Ha|[Hla Ha]].
        -- apply list_lookup_singleton_Some in Hb as [_ <-]. cbn. apply Hpa. by eapply elem_of_list_lookup_2.
        -- apply list_lookup_singleton_Some in Hb as [? _]. apply list_lookup_singleton_Some in Ha as [? _]. lia.
    + intros a Ha. apply elem_of_app in Ha as [Ha|Ha]; [auto|]. apply elem_of_list_singleton in Ha as ->. cbn. lia.
  - assert (Ea : adds (h ++ [(now, BlFire)]) = adds h) by (rewrite adds_app; cbn; apply app_nil_r).
    assert (Ef : fires (h ++ [(now, BlFire)]) = S (fires h)) by (rewrite fires_app; cbn; lia).
    exists (d :: F). split; cbn [bNow bList bTimers]; rewrite ?Ea, ?Ef; try done.
    + unfold recent. rewrite Ea, Ef.
      replace (drop (S (fires h)) (adds h)) with (drop 1 (recent h)) by (unfold recent; rewrite drop_drop; f_equal; lia).
      rewrite fmap_drop. change (snd <$> recent h) with (map snd (recent h)). rewrite <- Hl. clear. induction l as [|x [|y l] IH]; [done..|].
      change (removelast (x :: y :: l)) with (x :: removelast (y :: l)). rewrite !reverse_cons in *. rewrite IH.
      destruct (reverse l ++ [y]) eqn:E; [by destruct (reverse l)|]. done.
    + rewrite <- Hp. cbn [app]. rewrite <- Permutation_middle. rewrite app_assoc. rewrite <- Permutation_middle. by rewrite <- app_assoc.
    + constructor; done.
    + cbn. lia.
  - assert (Ea : adds (h ++ [(now, BlTick)]) = adds h) by (rewrite adds_app; cbn; apply app_nil_r).
    assert (Ef : fires (h ++ [(now, BlTick)]) = fires h) by (rewrite fires_app; cbn; lia).
    exists F. split; cbn [bNow bList bTimers]; rewrite ?Ea, ?Ef; try done.
    + unfold recent. by rewrite Ea, Ef.
    + eapply Forall_impl; [exact Hf|]. cbn. lia.
    + intros a Ha. apply Hpa in Ha. lia.
Qed.
(* If at most three configurations are remembered at a time and none is replaced again meanwhile, then each is
   remembered for the full 60 s at least. *)
Theorem C57_minute_partial : forall h s n x, blexec h s -> calm h -> (n, BlAdd x) ∈ h -> bNow s < n + 60 -> x ∈ bList s.
Proof.
  intros h s n x H Hc Hin Hlt. destruct (binv_exec h s H Hc) as [F [Hl Hp Hf Hn Hso Hpa]].
  assert (Ha : (n, x) ∈ adds h) by (unfold adds; apply elem_of_list_omap; by exists (n, BlAdd x)).
  apply elem_of_list_lookup in Ha as [i Hi].
  assert (Hfi : (fires h <= i)%nat).
  { rewrite <- Hn. assert (Hsub : F ⊆+ map due (take i (adds h))).
    { assert (Hsp : map due (adds h) = map due (take i (adds h)) ++ map due (drop i (adds h))) by (by rewrite <- map_app, take_drop).
      assert (HF : F ⊆+ filter (fun d => d <= bNow s) (map due (adds h))).
      { rewrite <- Hp. rewrite filter_app. rewrite (filter_all_le _ F); [|done]. apply submseteq_inserts_r. done. }
      rewrite Hsp, filter_app in HF.
      rewrite (filter_none_le _ (map due (drop i (adds h)))) in HF.
      - rewrite app_nil_r in HF. etrans; [exact HF|]. apply filter_sub.
      - apply Forall_forall. intros d Hd. apply elem_of_list_fmap in Hd as (a & -> & Hd). apply elem_of_list_lookup in Hd as [j Hj].
        rewrite lookup_drop in Hj. unfold due. destruct j as [|j].
        + rewrite Nat.add_0_r in Hj. assert (a = (n, x)) as -> by congruence. cbn. lia.
        + pose proof (Hso i (i + S j)%nat _ _ ltac:(lia) Hi Hj) as Hle. cbn in Hle. lia. }
    apply submseteq_length in Hsub. rewrite map_length, take_length in Hsub. lia. }
  assert (Hr : (n, x) ∈ recent h).
  { unfold recent. apply elem_of_list_lookup. exists (i - fires h)%nat. rewrite lookup_drop. by replace (fires h + (i - fires h))%nat with i by lia. }
  rewrite <- elem_of_reverse, Hl. apply elem_of_list_fmap. by exists (n, x).
Qed.

(* ---- where it fails: four replacements within a minute.  The timer of the first, which the fourth has pushed out,
   removes the second after 10 s. ---- *)
Definition evs (h : list (N * blevt)) (x : bytes) (n : N) : Prop := (n, BlAdd x) ∈ h.
Lemma bl_ticks k : forall h now l ts, blexec h (mkBl now l ts) -> exists h', blexec (h ++ h') (mkBl (now + N.of_nat k) l ts) /\ adds h' = [].
Proof.
  induction k as [|k IH]; intros h now l ts H.
  - exists []. rewrite app_nil_r, N.add_0_r. done.
  - destruct (IH h now l ts H) as (h' & H' & Ha). exists (h' ++ [(now + N.of_nat k, BlTick)]). split; [|rewrite adds_app, Ha; done].
    rewrite app_assoc. eapply (ble_snoc _ _ BlTick) in H'; [|constructor]. cbn [bNow] in H'. by replace (now + N.of_nat (S k)) with (now + N.of_nat k + 1) by lia.
Qed.
Theorem C57_too_soon_refuted : exists h s, blexec h s /\ (50, BlAdd [2]) ∈ h /\ bNow s = 60 /\ [2] ∉ bList s.
Proof.
  assert (H1 : blexec ([] ++ [(0, BlAdd [1])]) (mkBl 0 [[1]] [60])) by (apply (ble_snoc [] blst0); [constructor|apply (bl_add 0 [] [])]).
  destruct (bl_ticks 50 _ _ _ _ H1) as (h1 & H2 & _). set (s1 := mkBl _ _ _) in H2.
  assert (H3 : blexec (((([] ++ [(0, BlAdd [1])]) ++ h1) ++ [(50, BlAdd [2])]) ++ [(50, BlAdd [3])]) (mkBl 50 [[3]; [2]; [1]] [60; 110; 110])).
  { apply (ble_snoc _ (mkBl 50 [[2]; [1]] [60; 110])); [|apply (bl_add 50 [[2]; [1]] [60; 110])].
    apply (ble_snoc _ s1); [done|apply (bl_add 50 [[1]] [60])]. }
  apply (ble_snoc _ _ (BlAdd [4]) (mkBl 50 [[4]; [3]; [2]] [60; 110; 110; 110])) in H3; [|apply (bl_add 50 [[3]; [2]; [1]] [60; 110; 110])].
  destruct (bl_ticks 10 _ _ _ _ H3) as (h2 & H4 & _). change (50 + N.of_nat 10) with 60 in H4.
  eapply (ble_snoc _ _ BlFire) in H4; [|apply (bl_fire 60 [[4]; [3]; [2]] [] 60 [110; 110; 110]); lia].
  eexists _, _. split; [exact H4|]. split; [set_solver|]. split; [done|]. cbn. set_solver.
Qed.
(* ---- a calm history ---- *)
Theorem C57_witness : exists h s, blexec h s /\ calm h /\ (0, BlAdd [1]) ∈ h /\ (30, BlAdd [2]) ∈ h /\ bNow s = 59 /\ [1] ∈ bList s.
Proof.
  assert (H1 : blexec ([] ++ [(0, BlAdd [1])]) (mkBl 0 [[1]] [60])) by (apply (ble_snoc [] blst0); [constructor|apply (bl_add 0 [] [])]).
  destruct (bl_ticks 30 _ _ _ _ H1) as (h1 & H2 & A1). set (s1 := mkBl _ _ _) in H2.
  apply (ble_snoc _ s1 (BlAdd [2]) (mkBl 30 [[2]; [1]] [60; 90])) in H2; [|apply (bl_add 30 [[1]] [60])].
  destruct (bl_ticks 29 _ _ _ _ H2) as (h2 & H3 & A2). set (h := (_ ++ _) ++ h2) in H3. exists h, (mkBl 59 [[2]; [1]] [60; 90]).
  split; [exact H3|]. assert (Ha : adds h = [(0, [1]); (30, [2])]) by (unfold h; rewrite !adds_app, A1, A2; done).
  split; [|split; [unfold h; set_solver|split; [unfold h; set_solver|split; [done|cbn; set_solver]]]].
  intros p n x q Hpq. assert (Hap : adds p ++ (n, x) :: adds q = [(0, [1]); (30, [2])]) by (rewrite <- Ha, Hpq, adds_app; done).
  assert (Hrec : forall y, y ∈ recent p -> y ∈ adds p) by (intros y Hy; unfold recent in Hy; rewrite <- (take_drop (fires p) (adds p)); set_solver).
  assert (Hlr : (length (recent p) <= length (adds p))%nat) by (unfold recent; rewrite drop_length; lia).
  destruct (adds p) as [|a [|b [|? ?]]]; cbn in Hap, Hlr.
  - split; [lia|]. intros Hx. apply elem_of_list_fmap in Hx as (y & _ & Hy). apply Hrec in Hy. set_solver.
  - injection Hap as -> -> -> _. split; [lia|]. intros Hx. apply elem_of_list_fmap in Hx as (y & E & Hy). apply Hrec in Hy. apply elem_of_list_singleton in Hy as ->. done.
  - injection Hap as _ _ Hap. done.
  - injection Hap as _ _ Hap. by destruct l.
Qed.
