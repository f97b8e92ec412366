(* Props_Token.v -- C40 *)
From Verif Require Import GoBase TokenModel.
Local Open Scope Z_scope.

(* ---- the specification: what may be read off the list of operations and their results alone ---- *)
(* the number of times [key] was accepted *)
Fixpoint accepted (key : bytes) (tr : list (top * option bytes)) : Z :=
  match tr with
  | [] => 0
  | (Use _ k, Some _) :: tr => (if decide (k = key) then 1 else 0) + accepted key tr
  | _ :: tr => accepted key tr
  end.
Definition no_gen (key : bytes) (tr : list (top * option bytes)) : Prop := forall t tok r, (Gen t key tok, r) ∉ tr.

Lemma accepted_app key a b : accepted key (a ++ b) = accepted key a + accepted key b.
Proof. induction a as [|[[]  [|]] a IH]; cbn [app accepted]; lia. Qed.
Lemma accepted_nonneg key a : 0 <= accepted key a.
Proof. induction a as [|[[]  [|]] a IH]; cbn [accepted]; try lia. case_decide; lia. Qed.

(* the state after a trace: what the map holds for a key *)
Definition reflects (c : tmConfig) (done : list (top * option bytes)) (m : tm) : Prop :=
  forall key d, m !! key = Some d ->
    exists p1 p2 tg, done = p1 ++ (Gen tg key (kToken d), None) :: p2 /\ no_gen key p2 /\ kExpireAt d = tg + cExpire c /\ kMaxUse d = cMaxUse c /\
      kUseCount d = accepted key p2.
Lemma no_gen_snoc_use key p t k r : no_gen key p -> no_gen key (p ++ [(Use t k, r)]).
Proof. intros H t' tok r' [Hin|Hin%elem_of_list_singleton]%elem_of_app; [by eapply H|done]. Qed.
Lemma no_gen_snoc_gen key p t k tok r : k <> key -> no_gen key p -> no_gen key (p ++ [(Gen t k tok, r)]).
Proof. intros Hk H t' tok' r' [Hin|Hin%elem_of_list_singleton]%elem_of_app; [by eapply H|congruence]. Qed.
Lemma reflects_gen c done m now key tok : reflects c done m -> reflects c (done ++ [(Gen now key tok, None)]) (generate c now key tok m).
Proof.
  intros H k d. unfold generate. destruct (decide (k = key)) as [->|Hk].
  - rewrite lookup_insert. intros [= <-]. exists done, [], now. split_and!; [done| |done..]. intros ????. set_solver.
  - rewrite lookup_insert_ne by done. intros (p1 & p2 & tg & -> & Hn & He & Hm & Hu)%H. exists p1, (p2 ++ [(Gen now key tok, None)]), tg.
    split_and!; [by rewrite <- app_assoc|by apply no_gen_snoc_gen|done|done|]. rewrite accepted_app. cbn. lia.
Qed.
Lemma reflects_use c done m now key r m' : reflects c done m -> get_token now key m = (r, m') -> reflects c (done ++ [(Use now key, r)]) m'.
Proof.
  intros H Hg k d Hd. unfold get_token in Hg.
  assert (forall d0, m !! k = Some d0 -> k <> key \/ r = None -> exists p1 p2 tg, done ++ [(Use now key, r)] = p1 ++ (Gen tg k (kToken d0), None) :: p2 /\ no_gen k p2 /\
    kExpireAt d0 = tg + cExpire c /\ kMaxUse d0 = cMaxUse c /\ kUseCount d0 = accepted k p2) as Hsame.
  { intros d0 Hd0 Hor. destruct (H k d0 Hd0) as (p1 & p2 & tg & -> & Hn & He & Hm & Hu). exists p1, (p2 ++ [(Use now key, r)]), tg.
    split_and!; [by rewrite <- app_assoc|by apply no_gen_snoc_use|done|done|]. rewrite accepted_app. cbn.
    destruct Hor as [Hne| ->]; [|lia]. destruct r; [|lia]. case_decide; [congruence|lia]. }
  destruct (m !! key) as [dk|] eqn:Ek.
  - destruct (kExpireAt dk <? now) eqn:E1; [injection Hg as <- <-; apply lookup_delete_Some in Hd as [? ?]; eapply Hsame; eauto|].
    destruct (kUseCount dk >=? kMaxUse dk) eqn:E2; injection Hg as <- <-; [apply lookup_delete_Some in Hd as [? ?]; eapply Hsame; eauto|].
    destruct (decide (k = key)) as [->|Hk].
    + rewrite lookup_insert in Hd. injection Hd as <-. cbn. destruct (H key dk Ek) as (p1 & p2 & tg & -> & Hn & He & Hm & Hu).
      exists p1, (p2 ++ [(Use now key, Some (kToken dk))]), tg. split_and!; [by rewrite <- app_assoc|by apply no_gen_snoc_use|done|done|].
      rewrite accepted_app. cbn. rewrite decide_True by done. lia.
    + rewrite lookup_insert_ne in Hd by done. eauto.
  - injection Hg as <- <-. eauto.
Qed.
Lemma trun_app c m a b : exists m', trun c m (a ++ b) = trun c m a ++ trun c m' b /\ forall done, reflects c done m -> reflects c (done ++ trun c m a) m'.
Proof.
  revert m. induction a as [|[now key tok|now key] a IH]; intros m; cbn [app trun].
  - exists m. split; [done|]. intros. by rewrite app_nil_r.
  - destruct (IH (generate c now key tok m)) as (m' & -> & Hr). exists m'. split; [done|]. intros done Hd.
    rewrite cons_middle, app_assoc. apply Hr. by apply reflects_gen.
  - destruct (get_token now key m) as [r m1] eqn:Eg. destruct (IH m1) as (m' & -> & Hr). exists m'. split; [done|]. intros done Hd.
    rewrite cons_middle, app_assoc. apply Hr. by eapply reflects_use.
Qed.
Lemma reflects_empty c : reflects c [] ∅.
Proof. intros k d. by rewrite lookup_empty. Qed.

Lemma trace_ops c m ops : map fst (trun c m ops) = ops.
Proof. revert m. induction ops as [|[|] ops IH]; intros m; cbn; [done|by rewrite IH|]. destruct (get_token _ _ _). cbn. by rewrite IH. Qed.

(* every acceptance goes back to a generation of that key with that token, not more than the lifetime ago, and fewer
   than MaxUse acceptances lie between *)
Theorem C40_accepted_only_if c ops pre t key tok post :
  trun c ∅ ops = pre ++ (Use t key, Some tok) :: post ->
  exists p1 tg p2, pre = p1 ++ (Gen tg key tok, None) :: p2 /\ no_gen key p2 /\ t <= tg + cExpire c /\ accepted key p2 < cMaxUse c.
Proof.
  intros H. pose proof (trace_ops c ∅ ops) as Ho. rewrite H, map_app in Ho. cbn in Ho.
  destruct (trun_app c ∅ (map fst pre) (Use t key :: map fst post)) as (m' & E & Hr). rewrite Ho, H in E.
  apply app_inj_1 in E as [E1 E2]; [|rewrite <- (map_length fst (trun c ∅ (map fst pre))), trace_ops; by rewrite map_length].
  specialize (Hr [] (reflects_empty c)). cbn [app] in Hr. rewrite <- E1 in Hr. clear Ho E1.
  cbn [trun] in E2. destruct (get_token t key m') as [r m1] eqn:Eg. injection E2 as E2 _. subst r. unfold get_token in Eg.
  destruct (m' !! key) as [d|] eqn:Ek; [|done].
  destruct (kExpireAt d <? t) eqn:E1; [done|]. destruct (kUseCount d >=? kMaxUse d) eqn:E3; [done|]. injection Eg as <- _.
  destruct (Hr key d Ek) as (p1 & p2 & tg & -> & Hn & He & Hm & Hu). exists p1, tg, p2. split_and!; [done|done|lia|lia].
Qed.
(* so between two generations of a key it is accepted at most MaxUse times *)
Theorem C40_at_most_max_use c ops pre mid post key : trun c ∅ ops = pre ++ mid ++ post -> no_gen key mid -> 0 <= cMaxUse c -> accepted key mid <= cMaxUse c.
Proof.
  intros H Hn H0. revert post H. induction mid as [|e mid IH] using rev_ind; intros post H; [cbn; lia|].
  assert (no_gen key mid) as Hn' by (intros t tok r Hin; apply (Hn t tok r), elem_of_app; by left).
  specialize (IH Hn' (e :: post)). rewrite <- app_assoc in H. cbn in H. specialize (IH H). rewrite accepted_app.
  destruct e as [[t k tok|t k] [tok'|]]; cbn; try lia. case_decide as Hk; [|lia]. subst k.
  rewrite app_assoc in H. apply C40_accepted_only_if in H as (p1 & tg & p2 & E & Hn2 & _ & Hlt).
  assert (accepted key mid <= accepted key p2); [|lia].
  clear -E Hn' . revert mid E Hn'. induction p2 as [|x p2 IH] using rev_ind; intros mid E Hn'.
  - destruct mid as [|y mid _] using rev_ind; [cbn; lia|]. rewrite app_assoc in E. apply app_inj_tail in E as [_ ->].
    exfalso. eapply Hn'. apply elem_of_app. right. by apply elem_of_list_singleton.
  - destruct mid as [|y mid _] using rev_ind; [apply accepted_nonneg|]. rewrite app_comm_cons, !app_assoc in E. apply app_inj_tail in E as [E ->].
    assert (accepted key mid <= accepted key p2). { apply IH; [done|]. intros t tok r Hin. apply (Hn' t tok r), elem_of_app; by left. } rewrite !accepted_app. lia.
Qed.
(* the token handed out for a key is the one it was generated for: [tok] in C40_accepted_only_if.  A key that was never
   generated is never accepted. *)
Theorem C40_unknown_never c ops t key tok : (forall tg tk, Gen tg key tk ∉ ops) -> (Use t key, Some tok) ∉ trun c ∅ ops.
Proof.
  intros Hn Hin. apply elem_of_list_split in Hin as (pre & post & E). pose proof (trace_ops c ∅ ops) as Ho.
  apply C40_accepted_only_if in E as H. destruct H as (p1 & tg & p2 & -> & _). apply (Hn tg tok). rewrite <- Ho, E, map_app, map_app. set_solver.
Qed.
(* and the key does work: used in time (the clock not going back) and not yet MaxUse times, it is accepted *)
Definition op_time (o : top) : Z := match o with Gen t _ _ => t | Use t _ => t end.
Lemma trun_keep c m tr m0 key tg tok t :
  forall ops, trun c m ops = tr -> m !! key = Some m0 -> (forall t' tk r, (Gen t' key tk, r) ∉ tr) -> Forall (fun e => op_time (fst e) <= t) tr ->
  t <= tg + cExpire c -> kExpireAt m0 = tg + cExpire c -> kToken m0 = tok -> kMaxUse m0 = cMaxUse c -> kUseCount m0 + accepted key tr < cMaxUse c ->
  exists m', trun c m (ops ++ [Use t key]) = tr ++ [(Use t key, Some tok)] /\ m' = m.
Proof.
  revert m m0. induction tr as [|e tr IH]; intros m m0 ops Ho Hm Hn Ht Hte He Htk Hmx Hu.
  - destruct ops as [|[|] ops]; [|done|cbn in Ho; destruct (get_token _ _ _); done]. exists m. split; [|done]. cbn. unfold get_token. rewrite Hm.
    destruct (Z.ltb_spec (kExpireAt m0) t); [lia|]. rewrite Z.geb_leb. cbn in Hu. destruct (Z.leb_spec (kMaxUse m0) (kUseCount m0)); [lia|]. by subst.
  - apply Forall_cons in Ht as [Ht1 Ht]. pose proof (accepted_nonneg key tr) as Hnn. exists m. split; [|done].
    assert (forall t' tk r, (Gen t' key tk, r) ∉ tr) as Hn' by (intros ??? Hin; eapply Hn; right; eauto).
    destruct ops as [|[now k tk|now k] ops]; [done| |]; cbn [trun app] in *.
    + injection Ho as <- Ho. destruct (decide (k = key)) as [->|Hk]. { exfalso. eapply Hn. left. }
      destruct (IH (generate c now k tk m) m0 ops) as (? & -> & _); try done. unfold generate. by rewrite lookup_insert_ne.
    + destruct (get_token now k m) as [r m1] eqn:Eg. injection Ho as <- Ho. cbn in Ht1. unfold get_token in Eg. destruct (decide (k = key)) as [->|Hk].
      * rewrite Hm in Eg. destruct (Z.ltb_spec (kExpireAt m0) now) as [?|E1]; [lia|]. rewrite Z.geb_leb in Eg.
        destruct (Z.leb_spec (kMaxUse m0) (kUseCount m0)) as [?|E2].
        { cbn in Hu. destruct r; [case_decide|]; lia. } injection Eg as <- <-. cbn in Hu. rewrite decide_True in Hu by done.
        destruct (IH _ (mkKey (kExpireAt m0) (kUseCount m0 + 1) (kMaxUse m0) (kToken m0)) ops Ho) as (? & -> & _); try done; [by rewrite lookup_insert|cbn; lia].
      * assert (m1 !! key = Some m0 /\ accepted key ((Use now k, r) :: tr) = accepted key tr) as [Hm1 Ha].
        { split; [|cbn; destruct r; [case_decide; [congruence|lia]|done]]. 
          destruct (m !! k) as [dk|] eqn:Ek; [|by injection Eg as <- <-]. destruct (kExpireAt dk <? now); [injection Eg as <- <-; by rewrite lookup_delete_ne|].
          destruct (kUseCount dk >=? kMaxUse dk); injection Eg as <- <-; [by rewrite lookup_delete_ne|by rewrite lookup_insert_ne]. }
        rewrite Ha in Hu. destruct (IH m1 m0 ops Ho) as (? & -> & _); done.
Qed.
Theorem C40_works c ops1 tg key tok ops2 t : (forall t' tk, Gen t' key tk ∉ ops2) -> Forall (fun o => op_time o <= t) ops2 -> t <= tg + cExpire c ->
  (forall a b, trun c ∅ (ops1 ++ Gen tg key tok :: ops2) = a ++ (Gen tg key tok, None) :: b -> length a = length ops1 -> accepted key b < cMaxUse c) ->
  exists a, trun c ∅ (ops1 ++ Gen tg key tok :: ops2 ++ [Use t key]) = a ++ [(Use t key, Some tok)].
Proof.
  intros Hn Ht Hte Hu. 
  assert (forall m rest, exists a m', trun c m (ops1 ++ rest) = a ++ trun c m' rest /\ length a = length ops1) as Happ.
  { clear. induction ops1 as [|[now k tk|now k] ops1 IH]; intros m rest; cbn [app trun].
    - by exists [], m.
    - destruct (IH (generate c now k tk m) rest) as (a & m' & -> & Hl). exists ((Gen now k tk, None) :: a), m'. split; [done|]. cbn. by rewrite Hl.
    - destruct (get_token now k m) as [r m1]. destruct (IH m1 rest) as (a & m' & -> & Hl). exists ((Use now k, r) :: a), m'. split; [done|]. cbn. by rewrite Hl. }
  assert (exists a m', length a = length ops1 /\ forall rest, trun c ∅ (ops1 ++ rest) = a ++ trun c m' rest) as (a & m' & Hla & Ha).
  { clear -c. generalize (∅ : tm). induction ops1 as [|[now k tk|now k] ops1 IH]; intros m; cbn [app trun].
    - by exists [], m.
    - destruct (IH (generate c now k tk m)) as (a & m' & Hl & Ha). exists ((Gen now k tk, None) :: a), m'. split; [cbn; by rewrite Hl|]. intros. cbn. by rewrite Ha.
    - destruct (get_token now k m) as [r m1]. destruct (IH m1) as (a & m' & Hl & Ha). exists ((Use now k, r) :: a), m'. split; [cbn; by rewrite Hl|]. intros. cbn. by rewrite Ha. }
  clear Happ. specialize (Hu a (trun c (generate c tg key tok m') ops2)). rewrite Ha in Hu. specialize (Hu eq_refl Hla).
  edestruct (trun_keep c (generate c tg key tok m') _ (mkKey (tg + cExpire c) 0 (cMaxUse c) tok) key tg tok t ops2 eq_refl) as (? & E & _); try done.
  - unfold generate. by rewrite lookup_insert.
  - intros t' tk r Hin. apply (Hn t' tk). apply (elem_of_list_fmap_1 fst) in Hin. cbn in Hin. by setoid_rewrite trace_ops in Hin.
  - apply Forall_forall. intros e Hin. apply (elem_of_list_fmap_1 fst) in Hin. setoid_rewrite trace_ops in Hin. rewrite Forall_forall in Ht. by apply Ht.
  - exists (a ++ (Gen tg key tok, None) :: trun c (generate c tg key tok m') ops2). rewrite Ha. cbn [trun]. rewrite E, <- app_assoc. done.
Qed.
(* the default configuration (44-46): three uses, three minutes *)
Definition default_cfg : tmConfig := mkTmConfig 3 180000000000.
Lemma C40_case : map snd (trun default_cfg ∅ [Gen 0 [1%N] [9%N]; Use 1 [1%N]; Use 2 [1%N]; Use 3 [2%N]; Use 180000000000 [1%N]; Use 180000000000 [1%N]; Gen 5 [2%N] [8%N]; Use 180000000006 [2%N]])
  = [None; Some [9%N]; Some [9%N]; None; Some [9%N]; None; None; None].
Proof. by vm_compute. Qed.
