(* Props_Dialer.v -- C78: which servers a client connects to *)
From Coq Require Import Strings.String.
From Verif Require Import GoBase GoBaseLemmas FlagsModel DialerModel.
Local Open Scope N_scope.

(* ---- specification ---- *)
Definition has_colon (h : bytes) : bool := existsb (N.eqb 58) h.
(* the host part of a remote that names a host, as a user writes it: name, name:port, [ipv6]:port *)
Definition host_text (name : bytes) (port : option bytes) : bytes :=
  (if has_colon name then bs "[" ++ name ++ bs "]" else name) ++ match port with Some p => bs ":" ++ p | None => [] end.
Definition of_scheme (s : scheme) (us : list url) : list url := filter (fun u => uScheme u = s) us.
(* what to do for the remotes of one host: TLS before QUIC before TCP, the last one given of each *)
Definition chosen (c : dconf) (us : list url) : way :=
  match last (of_scheme STls us), last (of_scheme SQuic us), last (of_scheme STcp us) with
  | Some u, _, _ => WTls (with_port (uHost u) (bs "443")) (tls_of c)
  | None, Some u, _ => WQuic (with_port (uHost u) (bs "443")) (tls_of c)
  | None, None, Some u => WTcp (with_port (uHost u) (bs "80"))
  | None, None, None => WNone
  end.
Definition secure (u : url) : bool := match uScheme u with STls | SQuic => true | _ => false end.

(* ---- addresses ---- *)
Lemma split_last_none l : has_colon l = false -> split_last l = None.
Proof. induction l as [|b l IH]; [done|]. cbn [has_colon existsb split_last]. intros [H1 H2]%orb_false_iff. rewrite N.eqb_sym, H1. by rewrite IH. Qed.
Lemma split_last_app l p : has_colon p = false -> split_last (l ++ 58 :: p) = Some (l, p).
Proof. intros Hp. induction l as [|b l IH]; cbn [app split_last]; [by rewrite split_last_none|by rewrite IH]. Qed.
Lemma digits_no_colon p : forallb digit p = true -> has_colon p = false.
Proof. induction p as [|b p IH]; [done|]. cbn [forallb has_colon existsb]. intros [Hd Hp]%andb_true_iff. fold (has_colon p). rewrite IH by done. unfold digit in Hd. destruct (N.eqb_spec 58 b) as [<-|]; done. Qed.
Lemma host_port_with l p : forallb digit p = true -> host_port (l ++ 58 :: p) = (l, p).
Proof. intros Hp. unfold host_port. rewrite split_last_app by (by apply digits_no_colon). by rewrite Hp. Qed.
Lemma with_port_ne h d : with_port h d <> [].
Proof.
  unfold with_port. destruct (port_of h) eqn:E.
  - unfold join. destruct (existsb _ h); [done|]. by destruct h.
  - intros ->. done.
Qed.
Theorem C78_address_partial : forall name port dflt, name <> [] -> hd_error name <> Some 91 ->
  (forall p, port = Some p -> p <> [] /\ forallb digit p = true) -> (has_colon name = true -> port <> None) ->
  with_port (host_text name port) dflt = join name (default dflt port) /\ hostname (host_text name port) = name.
Proof.
  intros name port dflt Hn Hb Hp Hc. unfold host_text. change (bs "[") with [91]. change (bs "]") with [93]. change (bs ":") with [58]. destruct port as [p|].
  - destruct (Hp p eq_refl) as [Np Dp]. cbn [default].
    assert (E : forall a, with_port (a ++ [58] ++ p) dflt = a ++ [58] ++ p /\ hostname (a ++ [58] ++ p) = unbracket a).
    { intros a. unfold with_port, port_of, hostname. change ([58] ++ p) with (58 :: p). rewrite host_port_with by done. cbn. by destruct p. }
    destruct (E (if has_colon name then [91] ++ name ++ [93] else name)) as [E1 E2]. rewrite E1, E2. unfold join. fold (has_colon name). change (bs "[") with [91]. change (bs "]:") with [93; 58]. change (bs ":") with [58]. destruct (has_colon name).
    + split; [by rewrite <- !app_assoc|]. cbn [app unbracket]. rewrite rev_app_distr. cbn. by rewrite rev_involutive.
    + split; [done|]. destruct name as [|b n]; [done|]. unfold unbracket. destruct (decide (b = 91)) as [->|]; [by destruct Hb|]. repeat (case_match; try done).
  - destruct (has_colon name) eqn:E; [by destruct (Hc eq_refl)|]. rewrite app_nil_r. cbn [default]. unfold with_port, port_of, hostname, host_port. rewrite split_last_none by done. cbn [fst snd]. split; [done|].
    destruct name as [|b n]; [done|]. unfold unbracket. destruct (decide (b = 91)) as [->|]; [by destruct Hb|]. repeat (case_match; try done).
Qed.
(* An IPv6 address without a port is put in brackets twice: no such address exists *)
Theorem C78_ipv6_refuted : forall name dflt, has_colon name = true -> split_last (host_text name None) <> None ->
  (forall a p, split_last (host_text name None) = Some (a, p) -> forallb digit p = false) -> with_port (host_text name None) dflt = bs "[[" ++ name ++ bs "]]:" ++ dflt.
Proof.
  intros name dflt Hc Hs Hd. unfold host_text in *. rewrite Hc in *. rewrite app_nil_r in *. unfold with_port, port_of, host_port. destruct (split_last _) as [[a p]|] eqn:E; [|done]. rewrite (Hd _ _ eq_refl). cbn [snd].
  unfold join. assert (X : existsb (N.eqb 58) (bs "[" ++ name ++ bs "]") = true) by (rewrite !existsb_app; unfold has_colon in Hc; rewrite Hc; by rewrite orb_true_r). rewrite X.
  change (bs "[") with [91]. change (bs "]") with [93]. change (bs "[[") with [91; 91]. change (bs "]]:") with [93; 93; 58]. change (bs "]:") with [93; 58]. by rewrite <- !app_assoc.
Qed.
Theorem C78_ipv6_witness : with_port (host_text (bs "::1") None) (bs "443") = bs "[[::1]]:443".
Proof. apply (bool_decide_unpack _). vm_compute. exact I. Qed.

(* ---- the remotes of one host ---- *)
Lemma last_default {A B} (u : A) l (x : B) (f : A -> B) : match last (u :: l) with Some u => f u | None => x end = match last l with Some u => f u | None => f u end.
Proof. destruct l as [|a l]; [done|]. change (last (u :: a :: l)) with (last (a :: l)). destruct (last (a :: l)) eqn:E; [done|]. by apply last_None in E. Qed.
Lemma init_way parse c : forall rs d err d' err', init parse c d err rs = Some (d', err') ->
  let us := omap parse rs in
  dTls d' = match last (of_scheme STls us) with Some u => with_port (uHost u) (bs "443") | None => dTls d end /\
  dQuic d' = match last (of_scheme SQuic us) with Some u => with_port (uHost u) (bs "443") | None => dQuic d end /\
  dTcp d' = match last (of_scheme STcp us) with Some u => with_port (uHost u) (bs "80") | None => dTcp d end /\
  (dConf d' = if existsb secure us then tls_of c else dConf d) /\
  (existsb secure us = true -> is_Some (tls_of c)) /\ Forall (fun r => is_Some (parse r)) rs /\
  err' = match last us with Some u => bool_decide (uScheme u = SOther) | None => err end.
Proof.
  assert (L : forall (u : url) l (x y : bytes) (f : url -> bytes), match last (u :: l) with Some u => f u | None => x end = match last l with Some u => f u | None => f u end) by (intros; apply last_default).
  induction rs as [|r rs IH]; intros d err d' err' H; cbn [init] in H.
  - injection H as <- <-. cbn. repeat split; try done.
  - destruct (parse r) as [u|] eqn:Ep; [|done]. cbn [mbind option_bind] in H. cbn [omap list_omap]. rewrite Ep.
    assert (Le : match last (u :: omap parse rs) with Some u => bool_decide (uScheme u = SOther) | None => err end = match last (omap parse rs) with Some u => bool_decide (uScheme u = SOther) | None => bool_decide (uScheme u = SOther) end) by exact (last_default u _ err (fun u => bool_decide (uScheme u = SOther))).
    unfold of_scheme. destruct (uScheme u) eqn:Es.
    + destruct (tls_of c) as [t|] eqn:Et; [|done]. cbn [mbind option_bind] in H. apply IH in H as (H1 & H2 & H3 & H4 & H5 & H6 & H7). rewrite filter_cons_True by done. rewrite !(filter_cons_False (fun x => uScheme x = _)) by congruence.
      rewrite (L _ _ (dTls d) [] (fun u => with_port (uHost u) (bs "443"))). unfold of_scheme in H1, H2, H3. cbn [dTls dQuic dTcp dConf existsb] in *. assert (Sc : secure u = true) by (unfold secure; by rewrite Es). rewrite Sc. cbn [orb].
      split; [done|]. split; [done|]. split; [done|]. split; [by destruct (existsb secure (omap parse rs))|]. split; [eauto|]. split; [constructor; eauto|]. rewrite Le, H7. rewrite bool_decide_false by congruence. done.
    + apply IH in H as (H1 & H2 & H3 & H4 & H5 & H6 & H7). rewrite (filter_cons_True (fun x => uScheme x = STcp)) by done. rewrite !(filter_cons_False (fun x => uScheme x = _)) by congruence.
      rewrite (L _ _ (dTcp d) [] (fun u => with_port (uHost u) (bs "80"))). unfold of_scheme in H1, H2, H3. cbn [dTls dQuic dTcp dConf existsb] in *. assert (Sc : secure u = false) by (unfold secure; by rewrite Es). rewrite Sc. cbn [orb].
      split; [done|]. split; [done|]. split; [done|]. split; [done|]. split; [done|]. split; [constructor; eauto|]. rewrite Le, H7. rewrite bool_decide_false by congruence. done.
    + destruct (tls_of c) as [t|] eqn:Et; [|done]. cbn [mbind option_bind] in H. apply IH in H as (H1 & H2 & H3 & H4 & H5 & H6 & H7). rewrite (filter_cons_True (fun x => uScheme x = SQuic)) by done. rewrite !(filter_cons_False (fun x => uScheme x = _)) by congruence.
      rewrite (L _ _ (dQuic d) [] (fun u => with_port (uHost u) (bs "443"))). unfold of_scheme in H1, H2, H3. cbn [dTls dQuic dTcp dConf existsb] in *. assert (Sc : secure u = true) by (unfold secure; by rewrite Es). rewrite Sc. cbn [orb].
      split; [done|]. split; [done|]. split; [done|]. split; [by destruct (existsb secure (omap parse rs))|]. split; [eauto|]. split; [constructor; eauto|]. rewrite Le, H7. rewrite bool_decide_false by congruence. done.
    + apply IH in H as (H1 & H2 & H3 & H4 & H5 & H6 & H7). rewrite !(filter_cons_False (fun x => uScheme x = _)) by congruence. unfold of_scheme in H1, H2, H3. cbn [existsb]. assert (Sc : secure u = false) by (unfold secure; by rewrite Es). rewrite Sc. cbn [orb].
      split; [done|]. split; [done|]. split; [done|]. split; [done|]. split; [done|]. split; [constructor; eauto|]. rewrite Le, H7. rewrite bool_decide_true by done. done.
Qed.
(* A host is reached by the last TLS remote given for it, else the last QUIC one, else the last TCP one *)
Theorem C78_way : forall parse c rs d, dinit parse c rs = Some d -> dial d = chosen c (omap parse rs).
Proof.
  intros parse c rs d H. unfold dinit in H. destruct (init parse c dialer0 false rs) as [[d' []]|] eqn:E; [done| |done]. injection H as ->. apply init_way in E as (H1 & H2 & H3 & H4 & H5 & _).
  unfold dial, chosen. rewrite H1, H2, H3, H4. cbn [dialer0 dTls dQuic dTcp dConf]. set (us := omap parse rs) in *.
  assert (Sx : forall s u, (s = STls \/ s = SQuic) -> last (of_scheme s us) = Some u -> existsb secure us = true).
  { intros s u Hs Hl. apply existsb_exists. exists u. apply last_Some_elem_of in Hl. unfold of_scheme in Hl. apply elem_of_list_filter in Hl as [Hu Hi]. split; [by apply elem_of_list_In|]. unfold secure. rewrite Hu. by destruct Hs as [-> | ->]. }
  destruct (last (of_scheme STls us)) as [u|] eqn:E1.
  - destruct (with_port (uHost u) (bs "443")) eqn:Ew; [by apply with_port_ne in Ew|]. by rewrite (Sx _ _ (or_introl eq_refl) E1).
  - destruct (last (of_scheme SQuic us)) as [u|] eqn:E2.
    + destruct (with_port (uHost u) (bs "443")) eqn:Ew; [by apply with_port_ne in Ew|]. by rewrite (Sx _ _ (or_intror eq_refl) E2).
    + destruct (last (of_scheme STcp us)) as [u|] eqn:E3; [|done]. destruct (with_port (uHost u) (bs "80")) eqn:Ew; [by apply with_port_ne in Ew|]. done.
Qed.
(* Never without encryption if an encrypted remote was given for the host *)
Theorem C78_never_plain : forall parse c rs d a, dinit parse c rs = Some d -> dial d = WTcp a -> forall r u, r ∈ rs -> parse r = Some u -> secure u = false.
Proof.
  intros parse c rs d a H Hd r u Hr Hu. rewrite (C78_way _ _ _ _ H) in Hd. destruct (secure u) eqn:Hs; [|done]. exfalso. unfold chosen in Hd.
  assert (Hi : u ∈ omap parse rs) by (apply elem_of_list_omap; eauto).
  assert (G : forall s, uScheme u = s -> last (of_scheme s (omap parse rs)) <> None).
  { intros s Es. unfold of_scheme. intros X%last_None. assert (Y : u ∈ filter (fun u => uScheme u = s) (omap parse rs)) by (by apply elem_of_list_filter). rewrite X in Y. by apply elem_of_nil in Y. }
  unfold secure in Hs. destruct (uScheme u) eqn:Es; try done; specialize (G _ eq_refl); repeat (case_match; try done).
Qed.
(* The certificate given is the one trusted, and verification is off only if that was asked for *)
Theorem C78_certificate : forall parse c rs d a t, dinit parse c rs = Some d -> dial d = WTls a t \/ dial d = WQuic a t ->
  cCert c <> CBad /\ t = Some (mkTC (match cCert c with CGood x => Some x | _ => None end) (cInsecure c)).
Proof.
  intros parse c rs d a t H Hd. pose proof (C78_way _ _ _ _ H) as Hw. unfold dinit in H. destruct (init parse c dialer0 false rs) as [[d' []]|] eqn:E; [done| |done]. injection H as ->. apply init_way in E as (_ & _ & _ & _ & H5 & _).
  assert (Ht : t = tls_of c /\ existsb secure (omap parse rs) = true).
  { rewrite Hw in Hd. unfold chosen in Hd.
    assert (Sx : forall s u, (s = STls \/ s = SQuic) -> last (of_scheme s (omap parse rs)) = Some u -> existsb secure (omap parse rs) = true).
    { intros s u Hs Hl. apply existsb_exists. exists u. apply last_Some_elem_of in Hl. unfold of_scheme in Hl. apply elem_of_list_filter in Hl as [Hu Hi]. split; [by apply elem_of_list_In|]. unfold secure. rewrite Hu. by destruct Hs as [-> | ->]. }
    destruct (last (of_scheme STls (omap parse rs))) eqn:E1; [split; [naive_solver|by eapply (Sx STls); eauto]|].
    destruct (last (of_scheme SQuic (omap parse rs))) eqn:E2; [split; [naive_solver|by eapply (Sx SQuic); eauto]|].
    destruct (last (of_scheme STcp (omap parse rs))) eqn:E3; naive_solver. }
  destruct Ht as [-> Hs]. destruct (H5 Hs) as [x Hx]. rewrite Hx. unfold tls_of in Hx. destruct (cCert c); [split; [done|congruence]|done|split; [done|congruence]].
Qed.
(* Exactly which lists are accepted *)
Theorem C78_accepted : forall parse c rs, is_Some (dinit parse c rs) <->
  Forall (fun r => is_Some (parse r)) rs /\ (existsb secure (omap parse rs) = true -> cCert c <> CBad) /\ (forall u, last (omap parse rs) = Some u -> uScheme u <> SOther).
Proof.
  intros parse c rs. split.
  - intros [d H]. unfold dinit in H. destruct (init parse c dialer0 false rs) as [[d' []]|] eqn:E; [done| |done]. apply init_way in E as (_ & _ & _ & _ & H5 & H6 & H7). split; [done|]. split.
    + intros Hs X. destruct (H5 Hs) as [x Hx]. unfold tls_of in Hx. by rewrite X in Hx.
    + intros u Hu. rewrite Hu in H7. by apply (bool_decide_eq_false_1 (uScheme u = SOther)).
  - intros (H1 & H2 & H3). assert (G : forall d err, (err = true -> rs <> []) -> exists d', init parse c d err rs = Some (d', match last (omap parse rs) with Some u => bool_decide (uScheme u = SOther) | None => err end)).
    { clear H3. induction rs as [|r rs IH]; intros d err He; [eauto|]. apply Forall_cons in H1 as [[u Hu] H1]. cbn [init omap list_omap existsb] in *. rewrite Hu in *. cbn [mbind option_bind existsb] in *.
      assert (Le : forall e, e = bool_decide (uScheme u = SOther) -> match last (u :: omap parse rs) with Some u => bool_decide (uScheme u = SOther) | None => err end = match last (omap parse rs) with Some u => bool_decide (uScheme u = SOther) | None => e end) by (intros e ->; exact (last_default u _ err (fun u => bool_decide (uScheme u = SOther)))).
      assert (IH' : forall d e, e = bool_decide (uScheme u = SOther) -> exists d', init parse c d e rs = Some (d', match last (u :: omap parse rs) with Some u => bool_decide (uScheme u = SOther) | None => err end)).
      { intros d1 e Ee. rewrite (Le e Ee). destruct rs as [|r2 rs]; [eauto|]. apply IH; [done| |done]. intros X. apply H2. rewrite X. by rewrite orb_true_r. }
      assert (Ht : secure u = true -> is_Some (tls_of c)). { intros X. rewrite X in H2. specialize (H2 eq_refl). unfold tls_of. destruct (cCert c); [eauto|done|eauto]. }
      unfold secure in Ht. destruct (uScheme u) eqn:Es; try (destruct (Ht eq_refl) as [t ->]); cbn [mbind option_bind]; apply IH'; reflexivity. }
    destruct (G dialer0 false) as [d' E]; [done|]. unfold dinit. rewrite E. destruct (last (omap parse rs)) as [u|] eqn:El; [|eauto]. rewrite bool_decide_false by (by apply H3). eauto.
Qed.
(* A remote with an unknown scheme is ignored if a good one for the same host follows it *)
Theorem C78_unknown_scheme_refuted : forall parse c r1 r2 h1 h2, parse r1 = Some (mkUrl SOther h1) -> parse r2 = Some (mkUrl STcp h2) -> exists d, dinit parse c [r1; r2] = Some d /\ dinit parse c [r2] = Some d.
Proof. intros parse c r1 r2 h1 h2 H1 H2. unfold dinit. cbn [init]. rewrite H1, H2. cbn. eauto. Qed.

(* ---- all remotes ---- *)
Definition host_of (parse : bytes -> option url) (r : bytes) : option bytes := (fun u => hostname (uHost u)) <$> parse (full r).
Definition given_for (parse : bytes -> option url) (rs : list bytes) (h : bytes) : list bytes := full <$> filter (fun r => host_of parse r = Some h) rs.
Lemma group_spec parse : forall rs m m', group parse rs m = Some m' -> Forall (fun r => is_Some (parse (full r))) rs /\
  forall h, m' !! h = match given_for parse rs h with [] => m !! h | l => Some (default [] (m !! h) ++ l) end.
Proof.
  induction rs as [|r rs IH]; intros m m' H; cbn [group] in H; [injection H as <-; done|]. destruct (parse (full r)) as [u|] eqn:Ep; [|done]. cbn [mbind option_bind] in H. apply IH in H as [F H]. split; [constructor; eauto|].
  intros h. rewrite H. unfold given_for in *. assert (Eh : host_of parse r = Some (hostname (uHost u))) by (unfold host_of; by rewrite Ep). destruct (decide (hostname (uHost u) = h)) as [<-|N].
  - rewrite (filter_cons_True _ r) by done. rewrite lookup_insert. cbn [fmap list_fmap default]. destruct (full <$> filter _ rs); [done|]. f_equal. unfold id. by rewrite <- app_assoc.
  - rewrite (filter_cons_False _ r) by congruence. rewrite lookup_insert_ne by done. done.
Qed.
(* One dialer for each host name given, made from the remotes given for it, whatever the order of the map *)
Theorem C78_every_host : forall parse c rs order ds, (forall m, order m ≡ₚ map_to_list m) -> process_remotes parse c rs order = Some ds ->
  exists hs, NoDup hs /\ (forall h, h ∈ hs <-> exists r, r ∈ rs /\ host_of parse r = Some h) /\ Forall (fun r => is_Some (host_of parse r)) rs /\
    Forall2 (fun h d => dinit parse c (given_for parse rs h) = Some d) hs ds.
Proof.
  intros parse c rs order ds Ho H. unfold process_remotes in H. destruct (group parse rs ∅) as [m|] eqn:Eg; [|done]. cbn [mbind option_bind] in H. apply group_spec in Eg as [F G].
  assert (G' : forall h l, m !! h = Some l <-> given_for parse rs h <> [] /\ l = given_for parse rs h).
  { intros h l. rewrite G, lookup_empty. destruct (given_for parse rs h); naive_solver. }
  exists (order m).*1. split; [rewrite Ho; apply NoDup_fst_map_to_list|]. split; [|split].
  - intros h. rewrite Ho. rewrite elem_of_list_fmap. split.
    + intros ([h' l] & -> & Hi). apply elem_of_map_to_list in Hi. apply G' in Hi as [Ne _]. cbn [fst]. unfold given_for in Ne. destruct (filter (fun r => host_of parse r = Some h') rs) as [|r l'] eqn:Ef; [done|].
      assert (Hi : r ∈ filter (fun r => host_of parse r = Some h') rs) by (rewrite Ef; by left). apply elem_of_list_filter in Hi as [? ?]. eauto.
    + intros (r & Hr & Hh). exists (h, given_for parse rs h). split; [done|]. apply elem_of_map_to_list, G'. split; [|done]. unfold given_for. intros X%fmap_nil_inv. assert (Hi : r ∈ filter (fun r => host_of parse r = Some h) rs) by (by apply elem_of_list_filter). rewrite X in Hi. by apply elem_of_nil in Hi.
  - eapply Forall_impl; [exact F|]. intros r [u Hu]. unfold host_of. rewrite Hu. eauto.
  - apply mapM_Some in H. assert (Hm : Forall (fun e => m !! e.1 = Some e.2) (order m)) by (apply Forall_forall; intros [h l] Hi; rewrite Ho in Hi; by apply elem_of_map_to_list in Hi).
    clear -H Hm G'. induction H as [|[h l] d es ds Hd H IH]; [constructor|]. apply Forall_cons in Hm as [Hl Hm]. cbn [fmap list_fmap fst]. constructor; [|by apply IH]. cbn in Hl, Hd. apply G' in Hl as [_ ->]. done.
Qed.
(* Of several remotes of one kind for the same host only the last is used *)
Theorem C78_same_host_refuted : forall parse c a b ha hb, parse a = Some (mkUrl STcp ha) -> parse b = Some (mkUrl STcp hb) -> exists d, dinit parse c [a; b] = Some d /\ dial d = WTcp (with_port hb (bs "80")).
Proof.
  intros parse c a b ha hb Ha Hb. destruct (proj2 (C78_accepted parse c [a; b])) as [d Hd].
  - split; [repeat constructor; eauto|]. cbn. rewrite Ha, Hb. cbn. split; [done|]. by intros u [= <-].
  - exists d. split; [done|]. rewrite (C78_way _ _ _ _ Hd). cbn. rewrite Ha, Hb. done.
Qed.

(* ---- numbers of connections ---- *)
Theorem C78_connections : forall {A} configured (ds : list A),
  (connections configured ds).*2 = (fun i => N.of_nat i) <$> seq 1 (length ds * N.to_nat (clamp configured 10)) /\
  (connections configured ds).*1 = concat ((fun d => replicate (N.to_nat (clamp configured 10)) d) <$> ds) /\ 1 <= clamp configured 10 <= 10.
Proof.
  intros A configured ds. split; [|split].
  - unfold connections. set (k := N.to_nat (clamp configured 10)). assert (G : forall next, (spawn k ds next).*2 = (fun i => next + N.of_nat i) <$> seq 1 (length ds * k)).
    { induction ds as [|d ds IH]; intros next; [done|]. cbn [spawn length Nat.mul]. rewrite fmap_app, IH, <- list_fmap_compose. rewrite seq_app, fmap_app. f_equal. rewrite <- (fmap_add_seq k 1 (length ds * k)) at 1 || idtac.
      replace (1 + k)%nat with (k + 1)%nat by lia. rewrite <- fmap_add_seq, <- list_fmap_compose. apply list_fmap_ext. intros i x _. cbn. lia. }
    rewrite G. apply list_fmap_ext. intros i x _. cbn. lia.
  - unfold connections. generalize 0. induction ds as [|d ds IH]; intros n; [done|]. cbn [spawn fmap list_fmap concat]. rewrite fmap_app, IH. f_equal. rewrite <- list_fmap_compose. cbn. generalize 1%nat. generalize (N.to_nat (clamp configured 10)). intros k. induction k as [|k IHk]; intros s; [done|]. cbn. f_equal. apply IHk.
  - unfold clamp. destruct (N.ltb_spec configured 1); [lia|]. destruct (N.ltb_spec 10 configured); lia.
Qed.

(* a parser for the witness: tls://x, tcp://x, quic://x *)
Definition toy (r : bytes) : option url :=
  if bool_decide (take 6 r = bs "tls://") then Some (mkUrl STls (drop 6 r))
  else if bool_decide (take 6 r = bs "tcp://") then Some (mkUrl STcp (drop 6 r))
  else if bool_decide (take 7 r = bs "quic://") then Some (mkUrl SQuic (drop 7 r)) else if has_scheme r then Some (mkUrl SOther r) else None.
Theorem C78_witness : (exists ds, process_remotes toy (mkDC (CGood [7]) false) [bs "a:8080"; bs "tls://b"; bs "tcp://b:80"; bs "quic://c:4"] map_to_list = Some ds /\
   (dial <$> ds) ≡ₚ [WTcp (bs "a:8080"); WTls (bs "b:443") (Some (mkTC (Some [7]) false)); WQuic (bs "c:4") (Some (mkTC (Some [7]) false))]) /\
  hostname (bs "[::1]:80") = bs "::1" /\ with_port (bs "[::1]:80") (bs "443") = bs "[::1]:80".
Proof.
  split; [|split; apply (bool_decide_unpack _); vm_compute; exact I]. eexists. split; [vm_compute; reflexivity|]. apply (bool_decide_unpack _). vm_compute. exact I.
Qed.
