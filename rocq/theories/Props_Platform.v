(* Props_Platform.v -- C93: with -authAPI the platform decides who is admitted and which prefixes are served *)
From Coq Require Import Strings.String.
From Verif Require Import GoBase GoBaseLemmas FlagsModel BufioModel BufioProofs HandshakeModel HandshakeProofs TcpModel RegModel AuthModel ConnectModel PlatformModel Props_Reg Props_Auth.
Local Open Scope N_scope.

(* ---- specification ---- *)
(* what the platform's answer says: admit, with these prefixes; do not admit; or nothing that can be understood *)
Definition says_yes (r : reply) (l : list bytes) : Prop := r = Reply 200 (Some true) TNone /\ l = [] \/ r = Reply 200 (Some true) (TArray l true).
Definition says_no (r : reply) : Prop := exists t, r = Reply 200 (Some false) t.
Definition present (id secret : bytes) : Prop := id <> [] /\ secret <> [].

Lemma yes_iff id r g : auth_with_api id r = VYes g <-> exists l, says_yes r l /\ g = id :: l.
Proof.
  unfold auth_with_api, says_yes. split.
  - destruct r as [ |st res t]; [done|]; destruct res as [b| ]; [destruct b|]; cbn [negb]; (destruct (N.eqb_spec st 200) as [-> |]; [cbn [negb]|done]); [|done|done].
    destruct t as [ |l w| ]; [|destruct w|]; intros E; simplify_eq; [exists []; auto|exists l; auto].
  - intros (l & [[-> ->]| ->] & ->); done.
Qed.
Lemma no_iff id r : auth_with_api id r = VNo <-> says_no r.
Proof.
  unfold auth_with_api, says_no. split.
  - destruct r as [ |st res t]; [done|]; destruct res as [b| ]; [destruct b|]; cbn [negb]; (destruct (N.eqb_spec st 200) as [-> |]; [cbn [negb]|done]); [|by eexists|done]. destruct t as [ |l w| ]; [done|by destruct w|done].
  - intros (t & ->). done.
Qed.
Lemma present_iff id secret : (blen id <? 1) || (blen secret <? 1) = false <-> present id secret.
Proof. unfold present, blen. rewrite orb_false_iff, !N.ltb_ge. destruct id, secret; cbn [length]; (split; intros [? ?]; split; try done; lia). Qed.
(* Admitted exactly when the platform says yes, or says no and these are the credentials of the server's own self-test; the prefixes are the ID and those listed. *)
Theorem C93_admitted_iff a platform id secret prefixes g : auth_user_api a platform id secret prefixes = Some g <->
  present id secret /\ ((exists l, says_yes (platform (question id secret prefixes)) l /\ g = id :: l)
                        \/ says_no (platform (question id secret prefixes)) /\ api_auth a id secret = true /\ g = []).
Proof.
  unfold auth_user_api. rewrite <- present_iff. destruct (_ || _); [split; [done|by intros [? _]]|].
  setoid_rewrite <- (yes_iff id). rewrite <- (no_iff id).
  destruct (auth_with_api id _) as [| |g'] eqn:E.
  - split; [done|]. intros [_ [H|H]]; [done|by destruct H].
  - destruct (api_auth a id secret).
    + split; [intros [= <-]; split; [done|by right]|]. intros [_ [H|(_ & _ & ->)]]; done.
    + split; [done|]. intros [_ [H|(_ & H & _)]]; done.
  - split; [intros [= <-]; split; [done|by left]|]. intros [_ [H|(H & _)]]; [congruence|done].
Qed.

(* ---- what the platform is asked ---- *)
Lemma to_valid_ok s : utf8 s = true -> to_valid s = s.
Proof.
  revert s. apply (well_founded_induction (Wf_nat.well_founded_ltof _ (@length N)) (fun s => utf8 s = true -> to_valid s = s)). unfold Wf_nat.ltof.
  intros [|a s1] IH; [done|]. cbn [utf8 to_valid]. destruct (a <? 128); [intros; f_equal; apply IH; [cbn [length]; lia|done]|].
  destruct s1 as [|b s2]; [done|]. destruct ((194 <=? a) && _ && _); [intros; do 2 f_equal; apply IH; [cbn [length]; lia|done]|].
  destruct s2 as [|c s3]; [done|]. match goal with |- context [if ?x then utf8 s3 else _] => destruct x end; [intros; do 3 f_equal; apply IH; [cbn [length]; lia|done]|].
  destruct s3 as [|d s4]; [done|]. match goal with |- context [if ?x then utf8 s4 else _] => destruct x end; [intros; do 4 f_equal; apply IH; [cbn [length]; lia|done]|done].
Qed.
Lemma utf8_repl s : utf8 (REPLACEMENT ++ s) = utf8 s. Proof. done. Qed.
Lemma to_valid_utf8 s : utf8 (to_valid s) = true.
Proof.
  revert s. apply (well_founded_induction (Wf_nat.well_founded_ltof _ (@length N)) (fun s => utf8 (to_valid s) = true)). unfold Wf_nat.ltof.
  intros [|a s1] IH; [done|]. cbn [to_valid]. destruct (a <? 128) eqn:E1; [cbn [utf8]; rewrite E1; apply IH; cbn [length]; lia|].
  destruct s1 as [|b s2]; [done|]. destruct ((194 <=? a) && _ && _) eqn:E2; [cbn [utf8]; rewrite E1, E2; apply IH; cbn [length]; lia|].
  destruct s2 as [|c s3]; [rewrite utf8_repl; apply IH; cbn [length]; lia|].
  match goal with |- context [if ?x then a :: b :: c :: to_valid s3 else _] => destruct x eqn:E3 end; [cbn [utf8]; rewrite E1, E2, E3; apply IH; cbn [length]; lia|].
  destruct s3 as [|d s4]; [rewrite utf8_repl; apply IH; cbn [length]; lia|].
  match goal with |- context [if ?x then a :: b :: c :: d :: to_valid s4 else _] => destruct x eqn:E4 end; [cbn [utf8]; rewrite E1, E2, E3, E4; apply IH; cbn [length]; lia|].
  rewrite utf8_repl. apply IH. cbn [length]. lia.
Qed.
(* The platform is asked about exactly what the client presented, if that is text. *)
Theorem C93_asked_partial id secret prefixes : utf8 id = true -> utf8 secret = true -> Forall (fun p => utf8 p = true) prefixes ->
  question id secret prefixes = mkAsked id secret prefixes.
Proof.
  intros H1 H2 H3. unfold question. rewrite !to_valid_ok by done. f_equal. induction H3 as [|p l Hp _ IH]; [done|]. cbn [fmap list_fmap]. by rewrite to_valid_ok, IH.
Qed.
(* An ID that is not text is asked about under another name, one that can belong to somebody else. *)
Theorem C93_asked_refuted a platform id secret prefixes l : utf8 id = false -> present id secret ->
  says_yes (platform (question (to_valid id) secret prefixes)) l -> id <> to_valid id /\ auth_user_api a platform id secret prefixes = Some (id :: l).
Proof.
  intros Hu Hp Hy. split; [intros E; rewrite E, to_valid_utf8 in Hu; done|]. apply C93_admitted_iff. split; [done|]. left. exists l. split; [|done].
  unfold question in *. by rewrite (to_valid_ok (to_valid id)) in Hy by apply to_valid_utf8.
Qed.

(* ---- from the bytes of a connection ---- *)
(* Whoever gets a tunnel was admitted by the platform for what he asked for, and has of the prefixes he asked for those that are his ID or in the answer. *)
Theorem C93_tunnel a platform maxOptions dflt fuel s id secret o s' :
  s_run (handle_tunnel fuel maxOptions (AuthAPI dflt (auth_user_api a platform))) s = (HsOk id secret o, s') ->
  exists o0 s1 l, s_run (parse_options maxOptions id dflt fuel 1 0 0 ∅ ∅) s1 = (inl o0, s') /\ present id secret /\ oPorts o = oPorts o0
    /\ (let r := platform (question id secret (map fst (map_to_list (oIds o0)))) in says_yes r l \/ says_no r /\ api_auth a id secret = true /\ l = [])
    /\ forall p v, oIds o !! p = Some v <-> oIds o0 !! p = Some v /\ (p = id \/ p ∈ l).
Proof.
  intros H. apply handle_tunnel_api_inv in H as (o0 & g & s1 & Hp & _ & Hf & ->). apply C93_admitted_iff in Hf as [Hpr Hf]. exists o0, s1. cbn [oPorts oIds].
  destruct Hf as [(l & Hl & ->)|(Hn & Ha & ->)].
  - exists l. split_and!; [done|done|done|by left|]. intros p v. unfold api_filter. rewrite map_filter_lookup_Some. cbn [fst]. by rewrite elem_of_cons.
  - exists []. split_and!; [done|done|done|by right|]. intros p v. unfold api_filter. rewrite map_filter_lookup_Some. cbn [fst].
    split; [intros [? ->]; auto|]. intros [? [-> |?%elem_of_nil]]; done.
Qed.

(* ---- the registry ---- *)
(* one handshake that the platform admitted: who, what was asked for, what the platform answered *)
Record event := mkEvent { eId : bytes; eSecret : bytes; eIds : hpopts; eReply : reply }.
Definition grants (x : event) (p : bytes) : Prop := p ∈ dom (eIds x) /\ (p = eId x \/ exists l, says_yes (eReply x) l /\ p ∈ l).
(* every history of a server with -authAPI: handshakes of any connections, first ones and reloads, connections that end, and the blacklist's timers *)
Inductive past (a : apisrv) : srv -> list event -> Prop :=
  | p_init : past a srv0 []
  | p_hand shuf listen platform st xs t reload id secret limit pool ids ports chk g res st' : past a st xs -> perm shuf ->
      auth_user_api a platform id secret (map fst (map_to_list ids)) = Some g ->
      hand shuf listen t reload id limit pool (mkSo (api_filter id g ids) ports chk) st = (res, st') ->
      past a st' (mkEvent id secret ids (platform (question id secret (map fst (map_to_list ids)))) :: xs)
  | p_gone shuf st xs t : past a st xs -> perm shuf -> past a (gone shuf t st) xs
  | p_timer st xs c : past a st xs -> past a (black_timer c st) xs.

Section inv.
Context (G : bytes -> bytes -> Prop).       (* ID, prefix *)
Definition owners (st : srv) : Prop := forall id c, sIds st !! id = Some c -> exists k, sCli st !! c = Some k /\ kId k = id.
Definition reg_ok (cl : gmap N client) (r : regmap) : Prop := forall p tls c si, r !! (p, tls) = Some (c, si) -> exists k, cl !! c = Some k /\ G (kId k) p.
Definition Pinv (st : srv) : Prop := owners st /\ reg_ok (sCli st) (sReg st).
Definition same_ids (st st' : srv) : Prop := forall c, kId <$> (sCli st !! c) = kId <$> (sCli st' !! c).

Lemma reg_ok_same cl cl' r : (forall c, kId <$> (cl !! c) = kId <$> (cl' !! c)) -> reg_ok cl r -> reg_ok cl' r.
Proof.
  intros H Hr p tls c si Hp. destruct (Hr _ _ _ _ Hp) as (k & Hk & Hg). pose proof (H c) as E. rewrite Hk in E. cbn in E.
  destruct (cl' !! c) as [k'|] eqn:Ek; [|done]. injection E as E. exists k'. split; [done|]. by rewrite <- E.
Qed.
Lemma reg_ok_delete cl r k : reg_ok cl r -> reg_ok cl (delete k r).
Proof. intros H p tls c si [_ Hp]%lookup_delete_Some. by eapply H. Qed.
Lemma reg_ok_insert cl r p tls c si k : reg_ok cl r -> cl !! c = Some k -> G (kId k) p -> reg_ok cl (<[(p, tls) := (c, si)]> r).
Proof. intros H Hk Hg p' tls' c' si' [[[= <- <-] [= <- <-]]|[_ Hp]]%lookup_insert_Some; [by exists k|by eapply H]. Qed.
Lemma reg_ok_fold {A} cl (f : A -> bytes * bool) l r : reg_ok cl r -> reg_ok cl (foldl (fun r x => delete (f x) r) r l).
Proof. revert r. induction l as [|x l IH]; intros r H; [done|]. cbn [foldl]. by apply IH, reg_ok_delete. Qed.

Lemma hp_add_ok shuf cl c k l : cl !! c = Some k -> Forall (fun e : bytes * (N * bool) => G (kId k) (fst e)) l -> forall r rb b r',
  hp_add shuf c l r rb = (b, r') -> reg_ok cl r -> reg_ok cl r'.
Proof.
  intros Hk. induction 1 as [|[p [si tls]] l Hp _ IH]; intros r rb b r'; cbn [hp_add]; [by intros [= _ <-]|].
  destruct (r !! (p, tls)) as [[c' ?]|].
  - destruct (c' =? c); [by apply IH|]. intros [= _ <-] H. by apply (reg_ok_fold cl (fun k => k)).
  - intros H Hr. eapply IH; [exact H|]. by eapply reg_ok_insert.
Qed.
Lemma hp_old_ok cl c k new l r : cl !! c = Some k -> (forall p v, new !! p = Some v -> G (kId k) p) -> reg_ok cl r -> reg_ok cl (hp_old c new l r).
Proof.
  intros Hk Hn. revert r. induction l as [|[p [osi otls]] l IH]; intros r H; cbn [hp_old]; [done|]. apply IH.
  destruct (new !! p) as [[si tls]|] eqn:E; [|by apply reg_ok_delete].
  destruct (negb _); [by apply reg_ok_delete|]. destruct (negb _); [|done]. eapply reg_ok_insert; [done|done|by eapply Hn].
Qed.
Definition change_ok (k : client) (m : gmap (list N) ((N * bool) * option (N * bool))) : Prop := forall p o s, m !! p = Some (o, Some s) -> G (kId k) p.
Lemma tun_changes_ok k new l m : (forall p v, new !! p = Some v -> G (kId k) p) -> change_ok k m -> change_ok k (tun_changes new l m).
Proof.
  intros Hn. revert m. induction l as [|[p osi] l IH]; intros m H; cbn [tun_changes]; [done|]. apply IH.
  destruct (new !! p) as [si|] eqn:E.
  - destruct (decide (osi = si)); [done|]. intros q o s [[<- [= <- <-]]|[_ Hq]]%lookup_insert_Some; [by eapply Hn|by eapply H].
  - intros q o s [[<- [= <-]]|[_ Hq]]%lookup_insert_Some; by eapply H.
Qed.
Lemma old_changes_ok shuf k new ts m : (forall p v, new !! p = Some v -> G (kId k) p) -> map_Forall (fun _ => change_ok k) m ->
  map_Forall (fun _ => change_ok k) (old_changes shuf new ts m).
Proof.
  intros Hn. revert m. induction ts as [|t ts IH]; intros m H; cbn [old_changes]; [done|]. apply IH. apply map_Forall_insert_2; [|done].
  apply tun_changes_ok; [done|]. destruct (m !! tChk t) as [x|] eqn:E; cbn [default]; [by apply (H _ _ E)|]. by intros p o s ?%lookup_empty_Some.
Qed.
Lemma apply_changes_ok cl c k l r : cl !! c = Some k -> Forall (fun e : bytes * ((N * bool) * option (N * bool)) => snd (snd e) <> None -> G (kId k) (fst e)) l ->
  reg_ok cl r -> reg_ok cl (apply_changes c l r).
Proof.
  intros Hk Hl. revert r. induction Hl as [|[p [[osi otls] new]] l Hp _ IH]; intros r H; cbn [apply_changes]; [done|]. apply IH.
  destruct new as [[si tls]|]; [|by apply reg_ok_delete]. destruct (negb _); [by apply reg_ok_delete|]. eapply reg_ok_insert; [done|done|by apply Hp].
Qed.
Lemma same_kid st c k k' : sCli st !! c = Some k -> kId k' = kId k -> forall x, kId <$> (sCli st !! x) = kId <$> (<[c := k']> (sCli st) !! x).
Proof. intros H E x. destruct (decide (x = c)) as [-> |]; [rewrite H, lookup_insert; cbn; by rewrite E|by rewrite lookup_insert_ne]. Qed.
Lemma owners_same st st' : sIds st' = sIds st -> same_ids st st' -> owners st -> owners st'.
Proof.
  intros Hi H Ho id c Hc. rewrite Hi in Hc. destruct (Ho _ _ Hc) as (k & Hk & <-). pose proof (H c) as E. rewrite Hk in E. cbn in E.
  destruct (sCli st' !! c) as [k'|]; [|done]. injection E as E. by exists k'.
Qed.
Lemma add_tcp_rest shuf listen c k o st b st' : add_tcp shuf listen c k o st = (b, st') -> sReg st' = sReg st /\ sIds st' = sIds st /\ sCli st' = sCli st /\ sTun st' = sTun st.
Proof.
  unfold add_tcp. destruct (kPool k) as [p|]; [|intros [= _ <-]; done]. destruct (process_tcp _ _ _ _ _) as [[b' x] y]. intros [= _ <-]. done.
Qed.
Lemma add_tunnel_ok shuf listen t reload o c st res st' : perm shuf -> (forall k p v, sCli st !! c = Some k -> soIds o !! p = Some v -> G (kId k) p) ->
  add_tunnel shuf listen t reload o c st = (res, st') -> Pinv st -> Pinv st'.
Proof.
  intros Hs HG. unfold add_tunnel. destruct (sCli st !! c) as [k|] eqn:Ek; [|intros [= _ <-]; done]. specialize (HG k).
  destruct (kLimit k <=? _); [intros [= _ <-]; done|]. destruct (kTunnels k) as [ts|] eqn:Et; [|intros [= _ <-]; done].
  destruct (_ && _); [intros [= _ <-]; done|].
  assert (forall st1 k', sIds st1 = sIds st -> sCli st1 = sCli st -> kId k' = kId k -> owners st -> owners (set_cli st1 c k')) as Hown.
  { intros st1 k' H1 H2 H3 Ho. eapply owners_same; [|intros x|exact Ho]; cbn [set_cli sIds sCli]; [done|]. rewrite H2. by apply same_kid with k. }
  destruct (decide (kLast k = soChk o)).
  { intros [= _ <-] [Ho Hr]. split; [eapply owners_same with (st := set_cli st c (with_tunnels k (Some ({[ t ]} ∪ ts)))); [done|intros x; done|by apply Hown]|].
    cbn [set_tun set_cli sCli sReg]. eapply reg_ok_same; [|exact Hr]. by apply same_kid with k. }
  cbv zeta. set (st1 := set_cli st c (with_tunnels k (Some ({[ t ]} ∪ ts)))).
  assert (Hk1 : sCli st1 !! c = Some (with_tunnels k (Some ({[ t ]} ∪ ts)))) by apply lookup_insert.
  assert (HG' : forall p v, soIds o !! p = Some v -> G (kId k) p) by (intros; by eapply HG).
  destruct (hp_add shuf c _ (sReg st1) []) as [b r] eqn:Ea. intros H [Ho Hr].
  assert (Pinv st1) as [Ho1 Hr1].
  { split; [by apply Hown|]. cbn [st1 set_cli sCli sReg]. eapply reg_ok_same; [|exact Hr]. by apply same_kid with k. }
  assert (reg_ok (sCli st1) r) as Hr2.
  { eapply hp_add_ok; [exact Hk1| |exact Ea|exact Hr1]. apply Forall_forall. intros [p v] Hp. rewrite (Hs 5%nat _ _) in Hp. apply elem_of_map_to_list in Hp. cbn [kId with_tunnels fst]. by eapply HG'. }
  destruct b; [|injection H as <- <-; split; [exact Ho1|exact Hr2]].
  set (r2 := hp_old c (soIds o) _ r) in H. assert (reg_ok (sCli st1) r2) as Hr3 by (eapply hp_old_ok; [exact Hk1|exact HG'|exact Hr2]).
  destruct (add_tcp _ _ _ _ _ _) as [b st2] eqn:Et2. apply add_tcp_rest in Et2 as (E1 & E2 & E3 & E4). cbn [set_tun set_reg sReg sIds sCli] in E1, E2, E3.
  assert (Pinv st2) as [Ho2 Hr4].
  { split; [|by rewrite E3, E1]. eapply owners_same; [exact E2|intros x; by rewrite E3|exact Ho1]. }
  assert (Hk2 : sCli st2 !! c = Some (with_tunnels k (Some ({[ t ]} ∪ ts)))) by by rewrite E3.
  destruct b; [|injection H as <- <-; done].
  assert (forall st3 k' r3, sIds st3 = sIds st2 -> sCli st3 = sCli st2 -> sReg st3 = r3 -> kId k' = kId k -> reg_ok (sCli st2) r3 -> Pinv (set_cli st3 c k')) as Hfin.
  { intros st3 k' r3 F1 F2 F3 F4 F5. split.
    - eapply owners_same; [|intros x|exact Ho2]; cbn [set_cli sIds sCli]; [done|]. rewrite F2. eapply same_kid; [exact Hk2|exact F4].
    - cbn [set_cli sCli sReg]. rewrite F3, F2. eapply reg_ok_same; [|exact F5]. eapply same_kid; [exact Hk2|exact F4]. }
  destruct reload; [injection H as <- <-; apply (Hfin st2 _ (sReg st2)); done|]. injection H as <- <-. eapply Hfin; [done|done|reflexivity|done|].
  cbn [set_reg sReg]. set (order := shuf 8%nat _ _).
  assert (Forall (fun cm : bytes * gmap (list N) ((N * bool) * option (N * bool)) => change_ok k (snd cm)) order) as Hord.
  { apply Forall_forall. intros [x m] Hx. unfold order in Hx. rewrite (Hs 8%nat _ _) in Hx. apply elem_of_map_to_list in Hx.
    eapply (old_changes_ok shuf k (soIds o)); [exact HG'| |exact Hx]. by intros ? ? ?%lookup_empty_Some. }
  clearbody order. revert Hr4. generalize (sReg st2). induction Hord as [|[x m] l Hm _ IH]; intros r0 Hr0; cbn [foldl]; [done|]. apply IH.
  eapply apply_changes_ok; [exact Hk2| |exact Hr0]. apply Forall_forall. intros [p [os ns]] Hp Hns. rewrite (Hs 9%nat _ _) in Hp. apply elem_of_map_to_list in Hp.
  cbn [snd fst kId with_tunnels] in *. destruct ns as [s|]; [|done]. by eapply Hm.
Qed.
Lemma hand_ok shuf listen t reload id limit pool o : perm shuf -> (forall p v, soIds o !! p = Some v -> G id p) -> forall n st res st',
  hand_loop shuf listen n t reload id limit pool o st = (res, st') -> Pinv st -> Pinv st'.
Proof.
  intros Hs HG. induction n as [|n IH]; intros st res st'; cbn [hand_loop]; [intros [= _ <-]; done|].
  destruct (get_or_create id st) as [[c ex] st1] eqn:Eg. intros H [Ho Hr].
  assert (Pinv (if ex then st1 else init_client c id limit pool st1) /\ exists k, sCli (if ex then st1 else init_client c id limit pool st1) !! c = Some k /\ kId k = id) as [HP (k & Hk & Hid)].
  { unfold get_or_create in Eg. destruct (sIds st !! id) as [c'|] eqn:Ei; injection Eg as <- <- <-.
    - split; [done|]. by apply Ho.
    - set (c' := fresh (dom (sCli st))) in *. assert (sCli st !! c' = None) as Hf by (apply not_elem_of_dom, is_fresh).
      split; [|exists (mkCli id (Some ∅) limit [] zero_chk pool); split; [cbn; apply lookup_insert|done]].
      split.
      + intros id' x. cbn [init_client set_cli sIds sCli]. intros [[<- <-]|[Hne Hx]]%lookup_insert_Some; [eexists; split; [apply lookup_insert|done]|].
        destruct (Ho _ _ Hx) as (k' & Hk' & <-). exists k'. split; [|done]. rewrite !lookup_insert_ne; [done|intros ->; congruence..].
      + intros p tls x si Hx. cbn [init_client set_cli sReg sCli] in *. destruct (Hr _ _ _ _ Hx) as (k' & Hk' & Hg). exists k'. split; [|done].
        rewrite !lookup_insert_ne; [done|intros ->; congruence..]. }
  destruct (add_tunnel _ _ _ _ _ _ _) as [r2 st2] eqn:Ea. apply add_tunnel_ok in Ea; [|done|intros k' p v Hk'; rewrite Hk in Hk'; injection Hk' as <-; rewrite Hid; apply HG|done].
  destruct r2; [by injection H as <- <-|by eapply IH|by injection H as <- <-].
Qed.
Lemma remove_tunnel_ok shuf t c st : Pinv st -> Pinv (remove_tunnel shuf t c st).
Proof.
  intros [Ho Hr]. unfold remove_tunnel. destruct (sCli st !! c) as [k|] eqn:Ek; [|done]. destruct (kTunnels k) as [ts|]; [|done].
  destruct (decide (t ∈ ts)); [|done]. destruct (decide (ts ∖ {[ t ]} = ∅)).
  - match goal with |- Pinv (match kPool k with Some _ => _ | None => ?s end) => assert (Pinv s) as HP end.
    { split.
      - intros id x. cbn [sIds sCli]. intros [_ Hx]%lookup_delete_Some. destruct (Ho _ _ Hx) as (k' & Hk' & <-).
        destruct (decide (x = c)) as [-> |]; [exists (with_tunnels k None); rewrite lookup_insert; split; [done|]; cbn; congruence|exists k'; by rewrite lookup_insert_ne].
      - cbn [sCli sReg]. eapply reg_ok_same; [by apply same_kid with k|]. by apply (reg_ok_fold (sCli st) (fun e : bytes * (N * bool) => (fst e, snd (snd e)))). }
    destruct (kPool k) as [p|]; [|exact HP]. cbn [sTcp]. destruct (sTcp st !! p); exact HP.
  - split; [apply (owners_same st); [done|intros x; by apply same_kid with k|done]|]. cbn [set_cli sCli sReg]. eapply reg_ok_same; [|exact Hr]. by apply same_kid with k.
Qed.
Lemma gone_ok shuf t st : Pinv st -> Pinv (gone shuf t st).
Proof. unfold gone. generalize (shuf 11%nat _ (elements (dom (filter (fun ck : N * client => t ∈ default ∅ (kTunnels (snd ck))) (sCli st))))). intros l. revert st. induction l as [|c l IH]; intros st H; cbn [foldl]; [done|]. by apply IH, remove_tunnel_ok. Qed.
Lemma timer_ok c st : Pinv st -> Pinv (black_timer c st).
Proof.
  intros [Ho Hr]. unfold black_timer. destruct (sCli st !! c) as [k|] eqn:Ek; [|done].
  split; [apply (owners_same st); [done|intros x; by apply same_kid with k|done]|]. cbn [set_cli sCli sReg]. eapply reg_ok_same; [|exact Hr]. by apply same_kid with k.
Qed.
End inv.
Lemma Pinv_mono (G G' : bytes -> bytes -> Prop) st : (forall i p, G i p -> G' i p) -> Pinv G st -> Pinv G' st.
Proof. intros H [Ho Hr]. split; [done|]. intros p tls c si Hp. destruct (Hr _ _ _ _ Hp) as (k & ? & ?). exists k. auto. Qed.

(* In every history: whoever a visitor of a prefix reaches had asked for that prefix in a handshake the platform admitted, and it was his ID or the platform's answer
   listed it. *)
Theorem C93_only_granted a st xs p tls id si : past a st xs -> visitor st p tls = Some (id, si) -> exists x, x ∈ xs /\ eId x = id /\ grants x p.
Proof.
  intros H. assert (Pinv (fun id p => exists x, x ∈ xs /\ eId x = id /\ grants x p) st) as [_ Hr].
  { induction H as [|shuf listen platform st xs t reload i secret limit pool ids ports chk g res st' Hpast IH Hs Hg Hh|shuf st xs t Hpast IH Hs|st xs c Hpast IH].
    - split; [by intros ? ? [=]|by intros ? ? ? ? [=]].
    - eapply (hand_ok _ shuf listen t reload i limit pool); [done| |exact Hh|eapply Pinv_mono; [|exact IH]].
      + cbn [soIds]. intros q v Hq. eexists. split; [apply elem_of_list_here|]. split; [done|]. unfold grants. cbn [eId eIds eReply].
        apply C93_admitted_iff in Hg as [_ [(l & Hl & ->)|(_ & _ & ->)]]; unfold api_filter in Hq; apply map_filter_lookup_Some in Hq as [Hq Hin]; cbn [fst] in Hin.
        * split; [by eapply elem_of_dom_2|]. apply elem_of_cons in Hin as [-> |Hin]; [by left|right; by exists l].
        * split; [by eapply elem_of_dom_2|]. by left.
      + intros j q (x & Hx & ? & ?). exists x. split; [by apply elem_of_list_further|done].
    - by apply gone_ok.
    - by apply timer_ok. }
  unfold visitor. destruct (sReg st !! (p, tls)) as [[c s]|] eqn:E; [|done]. destruct (Hr _ _ _ _ E) as (k & -> & Hx). intros [= <- <-]. done.
Qed.

(* ---- an answer without an answer ---- *)
Definition unanswered (r : reply) : Prop := forall l, ~ says_yes r l /\ ~ says_no r.
(* how handshakes from one address appear to the limiter *)
Definition failures (ip : N) (rs : list hs_result) : list lev := (fun _ => LFail ip) <$> filter (fun r => counted r = true) rs.
(* While the platform cannot be reached nobody is admitted, whatever the credentials, and every attempt counts as a wrong password: after [times] of them the
   address is shut out. *)
Theorem C93_outage_refuted a platform maxOptions dflt fuel id secret o0 s1 s2 ip :
  (forall q, unanswered (platform q)) -> s_run (parse_options maxOptions id dflt fuel 1 0 0 ∅ ∅) s1 = (inl o0, s2) ->
  let r := fst (s_run (handle_tunnel fuel maxOptions (AuthAPI dflt (auth_user_api a platform))) (B (blen id) :: map B id ++ B (blen secret) :: map B secret ++ s1)) in
  r = HsAuthFailed id secret /\
  forall times release es st k, lreach times release (es ++ failures ip (replicate k r)) st -> times < N.of_nat k -> fails_since ip es 0 + N.of_nat k < 4294967296 ->
    limited times st ip = true.
Proof.
  intros Hu Hp r. assert (r = HsAuthFailed id secret) as Hr.
  { unfold r, handle_tunnel. rewrite s_run_rbyte_B. destruct ((blen id <? 1) && (200 <? blen id)) eqn:E; [apply andb_true_iff in E; lia|].
    rewrite s_run_peekd_B by done. rewrite s_run_rbyte_B. destruct ((blen secret <? 1) && (200 <? blen secret)) eqn:E2; [apply andb_true_iff in E2; lia|].
    rewrite s_run_peekd_B by done. rewrite s_run_bind, Hp.
    destruct (auth_user_api a platform id secret _) as [g|] eqn:Eg; [|done].
    apply C93_admitted_iff in Eg as [_ [(l & Hl & _)|(Hn & _)]]; exfalso; [by eapply (proj1 (Hu _ l))|by eapply (proj2 (Hu _ []))]. }
  split; [done|]. intros times release es st k Hl Ht Hb. rewrite Hr in Hl.
  assert (failures ip (replicate k (HsAuthFailed id secret)) = replicate k (LFail ip)) as E.
  { unfold failures. clear. induction k as [|k IH]; [done|]. cbn [replicate]. rewrite filter_cons_True by done. cbn [fmap list_fmap]. by rewrite IH. }
  rewrite E in Hl.
  assert (forall acc, fails_since ip (es ++ replicate k (LFail ip)) acc = fails_since ip es acc + N.of_nat k) as F.
  { clear. induction k as [|k IH]; intros acc; [cbn; by rewrite app_nil_r, N.add_0_r|]. replace (S k) with (k + 1)%nat by lia. rewrite replicate_add, app_assoc. cbn [replicate].
    rewrite fails_since_snoc, N.eqb_refl, IH. lia. }
  apply (C09_exact times release _ st ip Hl); rewrite F; lia.
Qed.
(* An answer that says yes and has null (or anything but an array) for its list is such an answer. *)
Theorem C93_null_refuted id secret a platform prefixes : platform (question id secret prefixes) = Reply 200 (Some true) TOther -> auth_user_api a platform id secret prefixes = None.
Proof. intros H. unfold auth_user_api. rewrite H. by destruct (_ || _). Qed.

(* ---- a grant that is withdrawn ---- *)
(* A client serves [p] over its one tunnel; the platform withdraws [p], and the client asks for its services again (a reload with the same services has the same
   checksum).  It is accepted, [p] still reaches the client, and when its connection has ended [p] still belongs to it: no other client can have it. *)
Theorem C93_withdrawn_refuted shuf listen t id limit pool o c k si p tls st : perm shuf ->
  sIds st !! id = Some c -> sCli st !! c = Some k -> kId k = id -> kTunnels k = Some {[ t ]} -> 1 < kLimit k -> kBlack k = [] -> kLast k = soChk o -> kPool k = None ->
  (forall c' k', sCli st !! c' = Some k' -> t ∈ default ∅ (kTunnels k') -> c' = c) ->
  sReg st !! (p, tls) = Some (c, si) -> soIds o !! p = None ->
  exists st', hand shuf listen t true id limit pool o st = (AOk, st') /\ visitor st' p tls = Some (id, si)
    /\ ~ connected (gone shuf t st') id /\ sReg (gone shuf t st') !! (p, tls) = Some (c, si).
Proof.
  intros Hs Hi Hk Hid Ht Hl Hb Hc Hpool Hu Hr Ho.
  set (st' := set_tun (set_cli st c (with_tunnels k (Some ({[ t ]} ∪ {[ t ]})))) t (mkTun (soIds o) (soChk o))).
  assert (add_tunnel shuf listen t true o c st = (AOk, st')) as Ea.
  { unfold add_tunnel. rewrite Hk, Ht, Hb, Hc. unfold default, from_option, Datatypes.id. rewrite size_singleton. destruct (N.leb_spec (kLimit k) (N.of_nat 1)) as [H|_]; [lia|].
    rewrite (bool_decide_eq_false_2 (soChk o ∈ [])) by apply not_elem_of_nil. cbn [andb]. by rewrite decide_True by done. }
  exists st'. split.
  { unfold hand. generalize 4%nat as n. intros n. cbn [hand_loop]. unfold get_or_create. rewrite Hi, Ea. done. }
  assert (Hk' : sCli st' !! c = Some (with_tunnels k (Some ({[ t ]} ∪ {[ t ]})))) by (cbn; apply lookup_insert).
  split; [unfold visitor; change (sReg st') with (sReg st); rewrite Hr, Hk'; cbn [with_tunnels kId]; by rewrite Hid|].
  assert (elements (dom (filter (fun ck : N * client => t ∈ default ∅ (kTunnels (snd ck))) (sCli st'))) = [c]) as El.
  { assert (dom (filter (fun ck : N * client => t ∈ default ∅ (kTunnels (snd ck))) (sCli st')) = ({[ c ]} : gset N)) as ->; [|apply elements_singleton].
    apply set_eq. intros x. rewrite elem_of_singleton, elem_of_dom. split.
    - intros [y [Hy Hty]%map_filter_lookup_Some]. cbn [snd] in Hty. cbn [st' set_tun set_cli sCli] in Hy. destruct (decide (x = c)) as [|Hne]; [done|].
      rewrite lookup_insert_ne in Hy by done. by eapply Hu.
    - intros ->. exists (with_tunnels k (Some ({[ t ]} ∪ {[ t ]}))). apply map_filter_lookup_Some. split; [done|]. cbn. set_solver. }
  unfold gone. rewrite El.
  assert (shuf 11%nat N [c] = [c]) as -> by (apply Permutation_length_1_inv; symmetry; apply Hs).
  cbn [foldl]. unfold remove_tunnel. rewrite Hk'. cbn [with_tunnels kTunnels kPool kId]. rewrite decide_True by set_solver. rewrite decide_True by set_solver. rewrite Hpool.
  split.
  - intros (c' & k' & T & H & _). cbn [sIds] in H. rewrite Hid, lookup_delete in H. done.
  - cbn [sReg]. assert (tun_of st' t = mkTun (soIds o) (soChk o)) as -> by (unfold tun_of; cbn [st' set_tun sTun]; by rewrite lookup_insert). cbn [tIds].
    cbn [st' set_tun set_cli sReg].
    assert (Forall (fun e : bytes * (N * bool) => fst e <> p) (shuf 10%nat _ (map_to_list (soIds o)))) as Hf.
    { apply Forall_forall. intros [q v] Hq. rewrite (Hs 10%nat _ _) in Hq. apply elem_of_map_to_list in Hq. cbn. intros ->. congruence. }
    revert Hf Hr. generalize (sReg st). induction (shuf 10%nat _ (map_to_list (soIds o))) as [|e l IH]; intros r Hf Hr; cbn [foldl]; [done|].
    apply Forall_cons in Hf as [He Hf]. apply IH; [done|]. rewrite lookup_delete_ne; [done|]. intros [= E _]. done.
Qed.

(* ---- a case: the platform knows "x" and grants it "a", not "b"; "x" asks for both, and again after "a" was withdrawn *)
Definition plat (l : list bytes) (q : asked) : reply :=
  if bool_decide (qId q = X) && bool_decide (qSecret q = [115]) then Reply 200 (Some true) (TArray l true) else Reply 200 (Some false) TNone.
Definition wants : hpopts := ids_ [([97], (0, false)); ([98], (1, false))].
Definition opts_for (l : list bytes) : sopts := mkSo (api_filter X (X :: l) wants) ∅ [1].
Definition q1 := snd (hnd 1 false X (opts_for [[97]]) srv0).
Definition q2 := snd (hnd 1 true X (opts_for []) q1).
Definition names : list bytes := map fst (map_to_list wants).
Theorem C93_witness : auth_user_api None (plat [[97]]) X [115] names = Some [X; [97]] /\ auth_user_api None (plat [[97]]) X [116] names = None
  /\ fst (hnd 1 false X (opts_for [[97]]) srv0) = AOk /\ visitor q1 [97] false = Some (X, 0) /\ visitor q1 [98] false = None
  /\ fst (hnd 1 true X (opts_for []) q1) = AOk /\ visitor q2 [97] false = Some (X, 0) /\ visitor (gone noshuf 1 q2) [97] false = Some (X, 0)
  /\ fst (hnd 2 false Y (mkSo (ids_ [([97], (0, false))]) ∅ [2]) (gone noshuf 1 q2)) = AErr EHostConflict
  /\ question [255] [97] [] = mkAsked REPLACEMENT [97] [] /\ utf8 (bs "caf" ++ [195; 169]) = true.
Proof. split_and!; by vm_compute. Qed.
Theorem C93_past_witness : exists xs, past None q1 xs /\ xs <> [].
Proof.
  eexists. split; [|shelve]. eapply (p_hand None noshuf ok3 (plat [[97]]) srv0 [] 1 false X [115] 5 None wants ∅ [1]); [apply p_init|by intros ? ? ?|by vm_compute|].
  unfold q1, hnd, opts_for. apply surjective_pairing. Unshelve. done.
Qed.
(* the hypotheses of C93_withdrawn_refuted, in that case *)
Theorem C93_withdrawn_witness : exists c k, sIds q1 !! X = Some c /\ sCli q1 !! c = Some k /\ kId k = X /\ kTunnels k = Some {[ 1 ]} /\ 1 < kLimit k /\ kBlack k = []
  /\ kLast k = soChk (opts_for []) /\ kPool k = None /\ (forall c' k', sCli q1 !! c' = Some k' -> 1 ∈ default ∅ (kTunnels k') -> c' = c)
  /\ sReg q1 !! ([97], false) = Some (c, 0) /\ soIds (opts_for []) !! [97] = None.
Proof.
  destruct (sIds q1 !! X) as [c|] eqn:E1; [|by vm_compute in E1]. destruct (sCli q1 !! c) as [k|] eqn:E2; [|vm_compute in E1; injection E1 as <-; by vm_compute in E2].
  assert (c = 0) as -> by (vm_compute in E1; congruence).
  assert (Hk : Some k = sCli q1 !! 0) by done. exists 0, k.
  assert (bool_decide ((fun k => (kId k, kTunnels k, kBlack k, kLast k, kPool k, kLimit k)) <$> (sCli q1 !! 0) = Some (X, Some {[ 1 ]}, [], [1], None, 5)) = true) as H by by vm_compute.
  apply bool_decide_eq_true in H. rewrite E2 in H. cbn in H. injection H as -> -> -> -> -> ->. split_and!; try done.
  - intros c' k' Hc _. assert (map_Forall (fun c' (_ : client) => c' = 0) (sCli q1)) as Hf by (apply (bool_decide_unpack _); by vm_compute). by apply (Hf _ _ Hc).
Qed.
