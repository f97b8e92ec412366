(* Props_Start.v -- C69: what a server listens on, whom it admits, and what Close closes. *)
From Coq Require Import Strings.String.
From Verif Require Import GoBase FlagsModel StartModel.
Local Open Scope N_scope.

(* ---- specification ---- *)
(* an address option: a port alone means all interfaces; QUIC: of IPv4 *)
Inductive listens_at : lkind -> bytes -> bytes -> Prop :=
  | at_full k a : 58 ∈ a -> (k = LQUIC -> forall p, a <> 58 :: p) -> listens_at k a a
  | at_port k a : k <> LQUIC -> 58 ∉ a -> listens_at k a (bs ":" ++ a)
  | at_quic_port a : 58 ∉ a -> listens_at LQUIC a (bs "0.0.0.0:" ++ a)
  | at_quic_colon p : listens_at LQUIC (58 :: p) (bs "0.0.0.0:" ++ p).
(* the option for a kind of listener, [] if there is none; TLS is only offered with a certificate *)
Definition option_of (c : scfg) (k : lkind) : bytes :=
  match k with
  | LTCP => oAddr c | LQUIC => oQuic c | LSNI => oSNI c | LSTUN => oSTUN c | LAPI => oAPI c
  | LTLS => if decide (oCert c <> [] /\ oKey c <> []) then oTLSAddr c else []
  end.
Definition wants (c : scfg) (k : lkind) (a : bytes) : Prop := option_of c k <> [] /\ listens_at k (option_of c k) a.
(* the certificate the kind uses, if both files are given, can be loaded *)
Definition cert_ok (c : scfg) (w : world) (k : lkind) : Prop :=
  match k with
  | LTLS | LQUIC => oCert c <> [] -> oKey c <> [] -> wCert w (oCert c) (oKey c) = true
  | LAPI => oAPICert c <> [] -> oAPIKey c <> [] -> wCert w (oAPICert c) (oAPIKey c) = true
  | _ => True
  end.

(* ---- lemmas ---- *)
Lemma ne_true a : ne a = true <-> a <> [].
Proof. unfold ne. rewrite negb_true_iff, bool_decide_eq_false. done. Qed.
Lemma ne_false a : ne a = false <-> a = [].
Proof. unfold ne. rewrite negb_false_iff, bool_decide_eq_true. done. Qed.
Lemma norm_spec k a : k <> LQUIC -> forall r, listens_at k a r <-> r = norm a.
Proof.
  intros Hk r. unfold norm, has_colon. case_bool_decide as Hc; split.
  - intros H; inversion H; subst; try done.
  - intros ->. by constructor.
  - intros H; inversion H; subst; done.
  - intros ->. by constructor.
Qed.
Lemma quic_spec a r : listens_at LQUIC a r <-> r = norm_quic a.
Proof.
  unfold norm_quic, has_colon. case_bool_decide as Hh.
  - destruct a as [|x a]; [done|]. injection Hh as ->. split.
    + intros H; inversion H as [? ? ? Hq| |? Hi|]; subst; [by destruct (Hq eq_refl a)|done|by destruct Hi; left|done].
    + intros ->. apply at_quic_colon.
  - case_bool_decide as Hc; split.
    + intros H; inversion H; subst; done.
    + intros ->. constructor; [done|]. by intros _ p ->.
    + intros H; inversion H; subst; done.
    + intros ->. by apply at_quic_port.
Qed.
Definition addr_of (c : scfg) (k : lkind) : bytes := match k with LQUIC => norm_quic (oQuic c) | _ => norm (option_of c k) end.
Lemma wants_spec c k a : wants c k a <-> option_of c k <> [] /\ a = addr_of c k.
Proof. unfold wants, addr_of. destruct k; rewrite ?norm_spec by done; rewrite ?quic_spec; done. Qed.

#[global] Instance cert_ok_dec c w k : Decision (cert_ok c w k). Proof. destruct k; cbn [cert_ok]; apply _. Defined.
(* one step of Start *)
Definition stage (c : scfg) (w : world) (k : lkind) (r : opened * bool) : opened * bool :=
  if_on (bool_decide (option_of c k <> [])) (fun o => if bool_decide (cert_ok c w k) then open w k (addr_of c k) o else (o, false)) r.
Lemma if_on_ext b b' f f' r : b = b' -> (forall o, b = true -> f o = f' o) -> if_on b f r = if_on b' f' r.
Proof. intros -> H. destruct r as [o []]; [|done]. cbn. destruct b'; [by apply H|done]. Qed.
Lemma ne_bd a : ne a = bool_decide (a <> []).
Proof. destruct (ne a) eqn:E; symmetry; [apply bool_decide_eq_true; by apply ne_true|apply bool_decide_eq_false; intros H; apply H; by apply ne_false]. Qed.
Lemma start_stages c w : start c w =
  if negb (wUsersOk w) then ([], false) else if negb (ne (oMux c)) then ([], false) else
  match stage c w LSNI (stage c w LTCP (stage c w LQUIC (stage c w LTLS ([], true)))) with
  | ([], true) => ([], false)
  | r => stage c w LAPI (stage c w LSTUN r)
  end.
Proof.
  unfold start. destruct (negb (wUsersOk w)); [done|]. destruct (negb (ne (oMux c))); [done|].
  assert (E1 : forall r, if_on (ne (oTLSAddr c) && ne (oCert c) && ne (oKey c)) (fun o => if wCert w (oCert c) (oKey c) then open w LTLS (norm (oTLSAddr c)) o else (o, false)) r = stage c w LTLS r).
  { intros r. apply if_on_ext.
    - rewrite !ne_bd. cbn [option_of]. destruct (decide (oCert c <> [] /\ oKey c <> [])) as [[H1 H2]|H].
      + rewrite (bool_decide_true (oCert c <> [])), (bool_decide_true (oKey c <> [])) by done. by rewrite !andb_true_r.
      + rewrite (bool_decide_false ([] <> [])) by (by intros []). apply andb_false_iff. destruct (decide (oCert c <> [])); [right|left; apply andb_false_iff; right]; apply bool_decide_eq_false; tauto.
    - intros o H. apply andb_true_iff in H as [H H2]. apply andb_true_iff in H as [_ H1]. apply ne_true in H1, H2. cbn [addr_of option_of]. rewrite decide_True by done.
      destruct (decide (cert_ok c w LTLS)) as [Hc|Hc]; [rewrite bool_decide_true by done; by rewrite (Hc H1 H2)|]. rewrite bool_decide_false by done.
      destruct (wCert w (oCert c) (oKey c)) eqn:E; [|done]. destruct Hc. intros _ _. done. }
  assert (E2 : forall cert key k o a, (cert_ok c w k <-> (cert <> [] -> key <> [] -> wCert w cert key = true)) -> addr_of c k = a ->
     (if ne cert && ne key && negb (wCert w cert key) then (o, false) else open w k a o) = if bool_decide (cert_ok c w k) then open w k (addr_of c k) o else (o, false)).
  { intros cert key k o a Hk Ha. rewrite Ha. destruct (decide (cert_ok c w k)) as [Hc|Hc].
    - rewrite bool_decide_true by done. pose proof (proj1 Hk Hc) as Hc'. destruct (ne cert) eqn:N1; [|done]. destruct (ne key) eqn:N2; [|done]. apply ne_true in N1, N2. by rewrite Hc'.
    - rewrite bool_decide_false by done. destruct (wCert w cert key) eqn:E; [destruct Hc; by apply (proj2 Hk)|]. destruct (ne cert) eqn:N1; [|destruct Hc; apply (proj2 Hk); apply ne_false in N1; by intros].
      destruct (ne key) eqn:N2; [done|destruct Hc; apply (proj2 Hk); apply ne_false in N2; by intros]. }
  assert (E3 : forall k r, option_of c k = option_of c k -> (k = LTCP \/ k = LSNI \/ k = LSTUN) -> if_on (ne (option_of c k)) (open w k (norm (option_of c k))) r = stage c w k r).
  { intros k r _ Hk. apply if_on_ext; [apply ne_bd|]. intros o _. rewrite bool_decide_true by (by destruct Hk as [-> |[-> | ->]]). by destruct Hk as [-> |[-> | ->]]. }
  cbv zeta. rewrite E1.
  assert (E4 : forall r, if_on (ne (oQuic c)) (fun o => if ne (oCert c) && ne (oKey c) && negb (wCert w (oCert c) (oKey c)) then (o, false) else open w LQUIC (norm_quic (oQuic c)) o) r = stage c w LQUIC r).
  { intros r. apply if_on_ext; [apply ne_bd|]. intros o _. by apply E2. }
  rewrite E4. rewrite (E3 LTCP), (E3 LSNI) by auto.
  assert (E5 : forall r, if_on (ne (oAPI c)) (fun o => if ne (oAPICert c) && ne (oAPIKey c) && negb (wCert w (oAPICert c) (oAPIKey c)) then (o, false) else open w LAPI (norm (oAPI c)) o) r = stage c w LAPI r).
  { intros r. apply if_on_ext; [apply ne_bd|]. intros o _. by apply E2. }
  destruct (stage c w LSNI _) as [[|x o] []]; [done| | |]; rewrite E5, (E3 LSTUN) by auto; done.
Qed.
Definition startable (c : scfg) (w : world) (k : lkind) : Prop := forall a, wants c k a -> cert_ok c w k /\ wListen w k a = true.
Lemma stage_true c w k r o : stage c w k r = (o, true) -> exists o0, r = (o0, true) /\ startable c w k /\
  ((option_of c k = [] /\ o = o0) \/ (option_of c k <> [] /\ o = o0 ++ [(k, addr_of c k)])).
Proof.
  destruct r as [o0 []]; [|done]. unfold stage. cbn [if_on]. case_bool_decide as H1.
  - case_bool_decide as H2; [|done]. unfold open. destruct (wListen w k (addr_of c k)) eqn:E; [|done]. intros [= <-]. exists o0. split; [done|]. split; [|by right].
    intros a Ha. apply wants_spec in Ha as [_ ->]. done.
  - intros [= <-]. assert (option_of c k = []) by (destruct (option_of c k); [done|by destruct H1]). exists o0. split; [done|]. split; [|by left]. intros a Ha. by apply wants_spec in Ha as [? _].
Qed.
Lemma stage_ok c w k o0 : startable c w k -> exists o, stage c w k (o0, true) = (o, true).
Proof.
  intros H. unfold stage. cbn [if_on]. case_bool_decide as H1; [|by eexists]. destruct (H (addr_of c k)) as [Hc Hl]; [by apply wants_spec|]. rewrite bool_decide_true by done. unfold open. rewrite Hl. by eexists.
Qed.
Lemma stage_mono c w k o b : exists o', (stage c w k (o, b)).1 = o ++ o'.
Proof.
  unfold stage. destruct b; cbn [if_on]; [|exists []; by rewrite app_nil_r]. case_bool_decide; [|exists []; by rewrite app_nil_r].
  case_bool_decide; [|exists []; by rewrite app_nil_r]. unfold open. destruct (wListen _ _ _); [by eexists|exists []; by rewrite app_nil_r].
Qed.

(* ---- C69 ---- *)
Definition serving (k : lkind) : Prop := k = LTCP \/ k = LTLS \/ k = LQUIC \/ k = LSNI.
Lemma start_true c w o : start c w = (o, true) -> wUsersOk w = true /\ oMux c <> [] /\ (forall k, startable c w k) /\ (exists k, serving k /\ option_of c k <> []) /\
  (forall k a, (k, a) ∈ o <-> option_of c k <> [] /\ a = addr_of c k) /\ NoDup o.*1.
Proof.
  rewrite start_stages. destruct (wUsersOk w); cbn [negb]; [|done]. destruct (ne (oMux c)) eqn:Em; cbn [negb]; [|done]. apply ne_true in Em. intros H. split; [done|]. split; [done|].
  destruct (stage c w LSNI (stage c w LTCP (stage c w LQUIC (stage c w LTLS ([], true))))) as [o4 b4] eqn:E4.
  assert (H' : o4 <> [] /\ b4 = true /\ stage c w LAPI (stage c w LSTUN (o4, true)) = (o, true)).
  { destruct o4 as [|x o4], b4; try done. }
  clear H. destruct H' as (Hne & -> & H). apply stage_true in H as (o5 & E5 & S6 & C6). apply stage_true in E5 as (o5' & [= <-] & S5 & C5).
  apply stage_true in E4 as (o3 & E3 & S4 & C4). apply stage_true in E3 as (o2 & E2 & S3 & C3). apply stage_true in E2 as (o1 & E1 & S2 & C2). apply stage_true in E1 as (o0 & [= <-] & S1 & C1).
  split; [by intros []|]. split.
  { destruct C1 as [[N1 ->]|[N1 _]]; [|exists LTLS; unfold serving; auto]. destruct C2 as [[N2 ->]|[N2 _]]; [|exists LQUIC; unfold serving; auto].
    destruct C3 as [[N3 ->]|[N3 _]]; [|exists LTCP; unfold serving; auto]. destruct C4 as [[N4 ->]|[N4 _]]; [done|exists LSNI; unfold serving; auto]. }
  set (G := fun k (o : opened) => if decide (option_of c k = []) then o else o ++ [(k, addr_of c k)]).
  assert (EG : o = G LAPI (G LSTUN (G LSNI (G LTCP (G LQUIC (G LTLS [])))))).
  { assert (CG : forall k o' o0, (option_of c k = [] /\ o' = o0) \/ (option_of c k <> [] /\ o' = o0 ++ [(k, addr_of c k)]) -> o' = G k o0).
    { intros k o' o0 [[E ->]|[E ->]]; unfold G; [by rewrite decide_True|by rewrite decide_False]. }
    apply CG in C1, C2, C3, C4, C5, C6. congruence. }
  assert (MG : forall k o k' a, (k', a) ∈ G k o <-> (k', a) ∈ o \/ (k' = k /\ option_of c k <> [] /\ a = addr_of c k)).
  { intros k o' k' a. unfold G. destruct (decide (option_of c k = [])) as [E|E]; [naive_solver|]. rewrite elem_of_app, elem_of_list_singleton. naive_solver. }
  rewrite EG. split.
  - intros k a. rewrite !MG. rewrite elem_of_nil. destruct k; naive_solver.
  - assert (NG : forall k o, NoDup o.*1 -> (forall a, (k, a) ∉ o) -> NoDup (G k o).*1).
    { intros k o' ND Hn. unfold G. destruct (decide _); [done|]. rewrite fmap_app. apply NoDup_app. split; [done|]. split; [|apply NoDup_singleton]. intros x Hx Hy. apply elem_of_list_fmap in Hx as ([k' a] & -> & Hx). apply elem_of_list_singleton in Hy. cbn in Hy. subst. by eapply Hn. }
    repeat (apply NG; [|intros a; rewrite ?MG, ?elem_of_nil; naive_solver]). constructor.
Qed.
(* Start succeeds exactly if the users and the header option are valid, something is to be served, and every listener asked for can be opened
   (with its certificate). *)
Theorem C69_start_iff : forall c w, (start c w).2 = true <->
  wUsersOk w = true /\ oMux c <> [] /\ (exists k, serving k /\ option_of c k <> []) /\ (forall k a, wants c k a -> cert_ok c w k /\ wListen w k a = true).
Proof.
  intros c w. split.
  - destruct (start c w) as [o []] eqn:E; [|done]. intros _. apply start_true in E as (H1 & H2 & H3 & H4 & _). split; [done|]. split; [done|]. split; [done|]. intros k. apply (H3 k).
  - intros (H1 & H2 & (k0 & Hk & Hk') & H4). assert (S : forall k, startable c w k) by (intros k a; apply H4). rewrite start_stages, H1. apply ne_true in H2. rewrite H2. cbn [negb].
    destruct (stage_ok c w LTLS [] (S _)) as [o1 E1]. rewrite E1. destruct (stage_ok c w LQUIC o1 (S _)) as [o2 E2]. rewrite E2. destruct (stage_ok c w LTCP o2 (S _)) as [o3 E3]. rewrite E3.
    destruct (stage_ok c w LSNI o3 (S _)) as [o4 E4]. rewrite E4. destruct (stage_ok c w LSTUN o4 (S _)) as [o5 E5]. destruct (stage_ok c w LAPI o5 (S _)) as [o6 E6].
    destruct o4 as [|x o4]; [|by rewrite E5, E6]. exfalso.
    apply stage_true in E4 as (? & [= <-] & _ & [[N4 Eo]|[_ Eo]]); [|by destruct o3]. subst o3. apply stage_true in E3 as (? & [= <-] & _ & [[N3 Eo]|[_ Eo]]); [|by destruct o2]. subst o2.
    apply stage_true in E2 as (? & [= <-] & _ & [[N2 Eo]|[_ Eo]]); [|by destruct o1]. subst o1. apply stage_true in E1 as (? & [= <-] & _ & [[N1 Eo]|[_ Eo]]); [|done].
    unfold serving in Hk. destruct Hk as [-> |[-> |[-> | ->]]]; done.
Qed.
(* and then it listens on exactly the addresses asked for, once each *)
Theorem C69_listening : forall c w o, start c w = (o, true) -> (forall k a, (k, a) ∈ o <-> wants c k a) /\ NoDup o.*1.
Proof. intros c w o H. apply start_true in H as (_ & _ & _ & _ & H & ND). split; [|done]. intros k a. by rewrite H, wants_spec. Qed.
(* Whom it admits *)
Theorem C69_mode : forall c w, match mode_of c w with
  | MAuthAPI => oAuthAPI c <> []
  | MAnyNoUsers => oAuthAPI c = [] /\ wNoUsers w = true
  | MConfigured => oAuthAPI c = [] /\ wNoUsers w = false /\ oAllowAny c = false
  | MAnyAndConfigured => oAuthAPI c = [] /\ wNoUsers w = false /\ oAllowAny c = true
  end.
Proof.
  intros c w. unfold mode_of. destruct (ne (oAuthAPI c)) eqn:E; [by apply ne_true|]. apply ne_false in E. destruct (wNoUsers w); [done|]. by destruct (oAllowAny c).
Qed.
(* TLS 1.1 only if asked for; otherwise at least TLS 1.2, 1.3 if asked for *)
Theorem C69_tls_version : forall v, (tls_min v = 770 <-> map lower v = bs "tls1.1") /\ (tls_min v = 772 <-> map lower v = bs "tls1.3") /\ 770 <= tls_min v <= 772.
Proof. intros v. unfold tls_min. destruct (decide (map lower v = bs "tls1.1")) as [E|E]; [rewrite E; done|]. destruct (decide (map lower v = bs "tls1.3")) as [E'|E']; repeat split; try done; by intros ?. Qed.

(* Close closes all but the QUIC listener *)
Theorem C69_close_partial : forall o k a, (k, a) ∈ close_listeners o -> k = LQUIC /\ (k, a) ∈ o.
Proof. intros o k a H. unfold close_listeners in H. apply elem_of_list_filter in H as [H1 H2]. done. Qed.
Definition cfg0 : scfg := mkSC (bs "80") [] [] [] [] [] [] [] [] [] (bs "Host") [] false.
Definition world0 : world := mkW true true (fun _ _ => true) (fun _ _ => true).
Definition with_quic (c : scfg) (q : bytes) : scfg := mkSC (oAddr c) (oTLSAddr c) (oCert c) (oKey c) q (oSNI c) (oSTUN c) (oAPI c) (oAPICert c) (oAPIKey c) (oMux c) (oAuthAPI c) (oAllowAny c).
Definition with_tls (c : scfg) (t : bytes) : scfg := mkSC (oAddr c) t (oCert c) (oKey c) (oQuic c) (oSNI c) (oSTUN c) (oAPI c) (oAPICert c) (oAPIKey c) (oMux c) (oAuthAPI c) (oAllowAny c).
Theorem C69_quic_stays_refuted : exists o, start (with_quic cfg0 (bs "443")) world0 = (o, true) /\ close_listeners o = [(LQUIC, bs "0.0.0.0:443")].
Proof. eexists. split; vm_compute; reflexivity. Qed.
(* A TLS address without a certificate is passed over in silence *)
Theorem C69_tls_ignored_refuted : exists o, start (with_tls cfg0 (bs "443")) world0 = (o, true) /\ Forall (fun ka => ka.1 <> LTLS) o.
Proof. eexists. split; [vm_compute; reflexivity|]. by repeat constructor. Qed.
(* A Start that fails leaves open what it has opened: the visitors of these ports are accepted and served *)
Theorem C69_failed_start_refuted : exists w o, start (with_quic cfg0 (bs "443")) w = (o, false) /\ o <> [].
Proof. exists (mkW true true (fun _ _ => true) (fun k _ => bool_decide (k = LQUIC))). eexists. split; vm_compute; [reflexivity|done]. Qed.
Theorem C69_witness : start (with_quic cfg0 (bs ":443")) world0 = ([(LQUIC, bs "0.0.0.0:443"); (LTCP, bs ":80")], true) /\ mode_of cfg0 world0 = MAnyNoUsers.
Proof. split; vm_compute; reflexivity. Qed.

(* ---- Close and tunnels ---- *)
Lemma crun_snoc tr e : crun (tr ++ [e]) = crun tr ≫= fun s => cstep s e.
Proof. unfold crun. by rewrite fold_left_app. Qed.
(* every tunnel registered before Close begins is closed when it returns *)
Theorem C69_tunnels_closed_partial : forall tr1 s1 tr2 s i, crun tr1 = Some s1 -> cPh s1 = CRun -> cTuns s1 !! i = Some TRegistered ->
  crun (tr1 ++ tr2) = Some s -> cPh s = CDone -> cTuns s !! i = Some TClosed.
Proof.
  intros tr1 s1 tr2 s i H1 Hp Hi. 
  assert (G : forall tr2 s, crun (tr1 ++ tr2) = Some s -> (cTuns s !! i = Some TClosed) \/ (cTuns s !! i = Some TRegistered /\ match cPh s with CRun | CListeners => True | CRange => i ∈ cSeen s | CDone => False end)).
  { clear tr2 s. induction tr2 as [|e tr2 IH] using rev_ind; intros s H.
    - rewrite app_nil_r, H1 in H. injection H as <-. right. by rewrite Hp.
    - rewrite app_assoc, crun_snoc in H. destruct (crun (tr1 ++ tr2)) as [s0|]; cbn [mbind option_bind] in H; [|done]. specialize (IH s0 eq_refl). destruct s0 as [ts ph seen]. cbn [cTuns cPh cSeen] in *.
      assert (App : forall x t, ts !! i = Some t -> (ts ++ [x]) !! i = Some t) by (intros x t Ht; rewrite lookup_app_l; [done|by eapply lookup_lt_Some]).
      destruct e as [|j| | |j| |j]; cbn [cstep] in H.
      + destruct ph; try done. injection H as <-. cbn. destruct IH as [IH|[IH _]]; [left|right]; [by apply App|split; [by apply App|done]].
      + destruct (ts !! j) as [[]|] eqn:Ej; try done. injection H as <-. cbn. assert (j <> i) by (intros ->; destruct IH as [IH|[IH _]]; congruence). rewrite list_lookup_insert_ne by done. exact IH.
      + destruct ph; try done. injection H as <-. cbn. destruct IH as [IH|[IH _]]; [by left|by right].
      + destruct ph; try done. injection H as <-. cbn. destruct IH as [IH|[IH _]]; [by left|right]. split; [done|]. apply elem_of_list_to_set, elem_of_list_filter. split; [done|]. apply elem_of_seq. apply lookup_lt_Some in IH. lia.
      + destruct ph; try done. destruct (ts !! j) as [[]|] eqn:Ej; try done. injection H as <-. cbn. destruct (decide (j = i)) as [-> |Hn]; [left; rewrite list_lookup_insert; [done|by eapply lookup_lt_Some]|].
        rewrite list_lookup_insert_ne by done. destruct IH as [IH|[IH IH2]]; [by left|right]. split; [done|]. set_solver.
      + destruct ph; try done. case_bool_decide as Hd; [|done]. injection H as <-. cbn. destruct IH as [IH|[IH IH2]]; [by left|]. exfalso. rewrite Forall_forall in Hd. eapply (Hd i); [by apply elem_of_elements|done].
      + destruct (ts !! j) as [t|] eqn:Ej; [|done]. injection H as <-. cbn. destruct (decide (j = i)) as [-> |Hn]; [left; rewrite list_lookup_insert; [done|by eapply lookup_lt_Some]|]. rewrite list_lookup_insert_ne by done. exact IH. }
  intros H Hd. destruct (G tr2 s H) as [?|[_ F]]; [done|]. by rewrite Hd in F.
Qed.
(* one whose handshake ends after the range has passed is not *)
Theorem C69_late_tunnel_refuted : exists s, crun [CAccept; CClose; CRangeStart; CEnd; CRegister 0] = Some s /\ cPh s = CDone /\ cTuns s = [TRegistered].
Proof. eexists. split; vm_compute; [reflexivity|done]. Qed.
Theorem C69_close_witness : exists s1 s, crun [CAccept; CRegister 0] = Some s1 /\ cPh s1 = CRun /\ cTuns s1 !! 0%nat = Some TRegistered /\
  crun ([CAccept; CRegister 0] ++ [CClose; CRangeStart; CVisit 0; CEnd]) = Some s /\ cPh s = CDone.
Proof. eexists. eexists. split; [vm_compute; reflexivity|]. split; [done|]. split; [done|]. split; [vm_compute; reflexivity|done]. Qed.
