(* Props_Local.v -- C104: visitors reach the local address of their service, whichever way they come (LocalModel) *)
From Coq Require Import Strings.String.
From Verif Require Import GoBase ServicesModel Props_Services FlagsModel WebStartModel PageRulesModel PortsSpec Props_PageRules Props_WebStart LocalModel.
Local Open Scope N_scope.

(* RFC 3986 3.2: the authority host[:port] of a URL, with a host, names the host h and the port p; without a port, or with an empty one, the port is the scheme's *)
Definition scheme_port (sch : bytes) (p : N) : Prop := (sch = bs "http" /\ p = 80) \/ (sch = bs "https" /\ p = 443).
Definition host_text (x h : bytes) : Prop :=
  (x = h /\ h <> [] /\ Forall (fun c => c <> 58 /\ c <> 91 /\ c <> 93) h) \/ (x = [91] ++ h ++ [93] /\ 58 ∈ h /\ Forall (fun c => c <> 91 /\ c <> 93) h).      (* a name or an IPv4 address; an IPv6 address in brackets *)
Definition names (sch a h : bytes) (p : N) : Prop :=
  exists x, host_text x h /\ ((a = x /\ scheme_port sch p) \/ (a = x ++ [58] /\ scheme_port sch p) \/ (exists d, a = x ++ [58] ++ d /\ decimal d p /\ p <= 65535)).

Lemma all_not (P : N -> Prop) c l : Forall P l -> ~ P c -> c ∉ l.
Proof. intros H Hc Hi. rewrite Forall_forall in H. by apply Hc, H. Qed.
Lemma cut_at_absent c l : c ∉ l -> cut_at c l = None.
Proof. induction l as [|d l IH]; intros H; [done|]. apply not_elem_of_cons in H as [H1 H2]. cbn. destruct (N.eqb_spec d c); [congruence|]. by rewrite (IH H2). Qed.
Lemma dec_host_ne d p : decimal d p -> d <> [].
Proof. by intros [? _]. Qed.
Lemma scheme_known sch p : scheme_port sch p -> known_port sch = p.
Proof. intros [[-> ->]|[-> ->]]; reflexivity. Qed.
(* the peer process: always what the URL names, with the port of the scheme in place of none *)
Lemma peer_port_dec sch d p : decimal d p -> p <= 65535 -> peer_port sch d = Some p.
Proof. intros Hd Hp. unfold peer_port. destruct d; [by destruct (dec_host_ne _ _ Hd)|]. rewrite (port_digits_decimal _ _ Hd). cbn [mbind option_bind]. unfold PageRulesModel.in_range. destruct (N.leb_spec p 65535); [reflexivity|lia]. Qed.
Lemma peer_none sch a h r : host_text a h -> peer_target (mkUrl sch a r) = Some (h, known_port sch).
Proof.
  intros [(-> & Hn & HF)|(-> & HC & HF)]; unfold peer_target; cbn [uHost uScheme].
  - destruct h as [|c h]; [done|]. inversion HF as [|? ? Hc _]; subst. destruct (N.eqb_spec c LBRK) as [->|]; [by destruct Hc as (_ & ? & _)|].
    rewrite cut_at_absent; [done|]. eapply all_not; [exact HF|]. unfold COLON. naive_solver.
  - cbn [app]. rewrite cut_at_app; [done|]. eapply all_not; [exact HF|]. unfold RBRK. naive_solver.
Qed.
Lemma peer_colon sch x d h r n : host_text x h -> peer_port sch d = Some n -> peer_target (mkUrl sch (x ++ COLON :: d) r) = Some (h, n).
Proof.
  intros [(-> & Hn & HF)|(-> & HC & HF)] E; unfold peer_target; cbn [uHost uScheme].
  - destruct h as [|c h]; [done|]. cbn [app]. inversion HF as [|? ? Hc _]; subst. destruct (N.eqb_spec c LBRK) as [->|]; [by destruct Hc as (_ & ? & _)|].
    change (c :: h ++ COLON :: d) with ((c :: h) ++ COLON :: d). rewrite cut_at_app; [cbn iota beta; by rewrite E|]. eapply all_not; [exact HF|]. unfold COLON. naive_solver.
  - cbn [app]. rewrite <- app_assoc. cbn [app]. rewrite cut_at_app; [cbn [mbind option_bind]; rewrite N.eqb_refl; by rewrite E|]. eapply all_not; [exact HF|]. unfold RBRK. naive_solver.
Qed.
(* the client *)
Lemma client_colon svc x d h n : host_text x h -> COLON ∉ d -> LBRK ∉ d -> RBRK ∉ d -> look_up_port svc d = Some n -> net_listen svc (x ++ COLON :: d) = Some (h, n).
Proof.
  intros Hx C1 C2 C3 E. assert (S : split_host_port (x ++ COLON :: d) = Some h).
  { destruct Hx as [(-> & Hn & HF)|(-> & HC & HF)].
    - apply no_colon_split; [eapply all_not; [exact HF|]; unfold COLON, LBRK, RBRK; naive_solver..|done|done|done].
    - assert (L : LBRK ∉ h) by (eapply all_not; [exact HF|]; unfold LBRK; naive_solver). assert (R : RBRK ∉ h) by (eapply all_not; [exact HF|]; unfold RBRK; naive_solver).
      unfold split_host_port. rewrite last_colon_app by done. cbn [mbind option_bind app]. change (91 =? LBRK) with true. cbn [mbind option_bind].
      rewrite <- app_assoc. cbn [app]. change 93 with RBRK. rewrite cut_at_app by done. cbn [mbind option_bind]. rewrite N.eqb_refl, bool_decide_eq_true_2 by done. cbn [andb].
      rewrite !bool_decide_eq_false_2; [done|..]; rewrite ?elem_of_app, ?elem_of_cons; intros H; unfold COLON, LBRK, RBRK in *; naive_solver. }
  unfold net_listen. rewrite S. cbn [mbind option_bind]. rewrite last_colon_app by done. cbn [mbind option_bind]. by rewrite E.
Qed.
Lemma client_six svc h : Forall (fun c => c <> 91 /\ c <> 93) h -> net_listen svc ([91] ++ h ++ [93]) = None.
Proof.
  intros HF. assert (L : LBRK ∉ h) by (eapply all_not; [exact HF|]; unfold LBRK; naive_solver). assert (R : RBRK ∉ h) by (eapply all_not; [exact HF|]; unfold RBRK; naive_solver).
  unfold net_listen, split_host_port. cbn [app]. destruct (last_colon (91 :: h ++ [93])) as [[a b]|]; [|done]. cbn [mbind option_bind]. change (91 =? LBRK) with true. cbn iota. change [93] with [RBRK]. by rewrite cut_at_app.
Qed.

(* Over every list of options and every file that are accepted: the visitors who come through the peer process reach what the local URL names, always;
   those who come through the tunnel reach it, too, if the URL does not end in a colon or in a bracket, and do not reach it if it does. *)
Definition like (P : service -> service -> Prop) (parse : bytes -> option url) (toks : list opt) (file r : list service) : Prop :=
  exists vs, Forall2 (described parse (random_rule toks)) (services_of toks) vs /\ Forall2 P (vs ++ file) r.
Definition reaches (svc : bytes -> option N) (s t : service) : Prop := forall u h p, sURL s = Some u -> names (uScheme u) (uHost u) h p -> exists u', sURL t = Some u' /\ peer_target u' = Some (h, p) /\
  (dial_target svc u' = Some (h, p) <-> last (uHost u) <> Some 58 /\ last (uHost u) <> Some 93).
Lemma finalized_reaches svc id s t : finalized id s t -> valid t -> reaches svc s t.
Proof.
  intros (u & a & F1 & F2 & F3 & F4 & F5 & F6 & _) [_ HV] u' h p E N. rewrite F1 in E. injection E as <-. rewrite F2. eexists. split; [done|]. unfold dial_target. cbn [uHost]. destruct N as (x & Hx & N).
  assert (D80 : decimal (bs "80") 80) by (split_and!; [done|repeat constructor; done|reflexivity]). assert (D443 : decimal (bs "443") 443) by (split_and!; [done|repeat constructor; done|reflexivity]).
  assert (No : forall d q, decimal d q -> COLON ∉ d /\ LBRK ∉ d /\ RBRK ∉ d) by (intros d q Hd; split_and!; eapply decimal_no; try exact Hd; reflexivity).
  assert (G : forall d q, decimal d q -> q <= 65535 -> net_listen svc (x ++ COLON :: d) = Some (h, q)).
  { intros d q Hd Hq. destruct (No _ _ Hd) as (? & ? & ?). apply client_colon; try done. by apply look_up_digits. }
  destruct N as [[Ea Hs]|[[Ea Hs]|(d & Ea & Hd & Hp)]]; rewrite Ea in *.
  - destruct Hx as [Hx|Hx]; [|destruct Hx as (-> & HC & HF)].
    + pose proof (or_introl Hx : host_text x h) as Hx'. destruct Hx as (-> & Hn & HF). assert (C : 58 ∉ h) by (eapply all_not; [exact HF|]; naive_solver).
      assert (L : last h <> Some 58 /\ last h <> Some 93). { destruct (last h) as [c|] eqn:El; [|done]. apply last_Some_elem_of in El. rewrite Forall_forall in HF. destruct (HF _ El) as (? & _ & ?). split; congruence. }
      destruct Hs as [[Hs ->]|[Hs ->]].
      * rewrite (F5 C Hs), Hs. change [58; 56; 48] with (COLON :: bs "80"). split; [apply peer_colon; [done|reflexivity]|]. split; [done|]. intros _. by apply G.
      * rewrite (F6 C Hs), Hs. change [58; 52; 52; 51] with (COLON :: bs "443"). split; [apply peer_colon; [done|reflexivity]|]. split; [done|]. intros _. by apply G.
    + assert (El : last ([91] ++ h ++ [93]) = Some 93) by (rewrite app_assoc; apply last_snoc). rewrite El.
      rewrite F4 by (left; rewrite !elem_of_app; auto). split; [rewrite <- (scheme_known _ _ Hs); apply peer_none; right; done|]. rewrite client_six by done. naive_solver.
  - assert (El : last (x ++ [58]) = Some 58) by apply last_snoc. rewrite El. rewrite F4 by (left; rewrite elem_of_app; right; by left). split.
    + change [58] with (COLON :: []). rewrite (peer_colon _ _ _ h _ p); [done|done|]. cbn. by rewrite (scheme_known _ _ Hs).
    + change [58] with (COLON :: []). rewrite (client_colon svc x [] h 0); [|done|apply not_elem_of_nil..|done]. split; [|naive_solver]. intros [= <-]. by destruct Hs as [[_ ?]|[_ ?]].
  - rewrite F4 by (left; rewrite elem_of_app; right; by left). change ([58] ++ d) with (COLON :: d) in *. split; [apply peer_colon; [done|by apply peer_port_dec]|]. rewrite (G d p) by done. split; [|done]. intros _.
    rewrite last_app_cons. destruct (No _ _ Hd) as (C1 & _ & C3). assert (Hn := dec_host_ne _ _ Hd). destruct d as [|c d]; [done|]. rewrite last_cons_cons. 
    destruct (last (c :: d)) as [e|] eqn:Ee; [|done]. apply last_Some_elem_of in Ee. split; intros [= ->]; [by apply C1|by apply C3].
Qed.
Theorem C104_exactly svc parse id file base toks r : parseServices parse (cmdline id file base toks) = Accepted r -> like (reaches svc) parse toks file r.
Proof.
  intros H. apply C41_exactly in H as (vs & H1 & H2 & H3 & _). exists vs. split; [exact H1|]. apply Forall2_same_length_lookup_2; [by eapply Forall2_length|].
  intros i s t Hs Ht. eapply finalized_reaches; [by eapply (Forall2_lookup_lr _ _ _ _ _ _ H2)|by eapply (Forall_lookup_1 _ _ _ _ H3)].
Qed.
(* For whatever URL, named or not: if visitors of both kinds reach something, it is the same, unless the URL ends in a colon. *)
Lemma last_colon_split s : forall a b, last_colon s = Some (a, b) -> s = a ++ COLON :: b /\ COLON ∉ b.
Proof.
  induction s as [|c s IH]; intros a b H; [done|]. cbn in H. destruct (last_colon s) as [[a' b']|] eqn:E.
  - injection H as <- <-. destruct (IH _ _ eq_refl) as [-> ?]. done.
  - destruct (N.eqb_spec c COLON) as [->|]; [|done]. injection H as <- <-. split; [done|]. clear IH. induction s as [|d s IH]; [apply not_elem_of_nil|]. cbn in E. destruct (last_colon s) as [[]|]; [done|]. destruct (N.eqb_spec d COLON); [done|]. apply not_elem_of_cons. split; [done|by apply IH].
Qed.
Lemma same_port svc sch d n m : d <> [] -> look_up_port svc d = Some n -> peer_port sch d = Some m -> n = m.
Proof.
  intros Hd H1 H2. destruct d as [|c d]; [done|]. unfold peer_port in H2. apply bind_Some in H2 as (k & H2 & H3). pose proof H2 as H2'. unfold port_digits in H2'. cbn in H2'. unfold look_up_port in H1. rewrite H2 in H1.
  destruct (N.eqb_spec c 43) as [->|]; [done|]. destruct (N.eqb_spec c DASH) as [->|]; [done|]. congruence.
Qed.
Theorem C104_same_partial svc u a b : last (uHost u) <> Some 58 -> dial_target svc u = Some a -> peer_target u = Some b -> a = b.
Proof.
  intros Hl H1 H2. unfold dial_target, net_listen in H1. apply bind_Some in H1 as (h & S & H1). apply bind_Some in H1 as ([x d] & C & H1). apply bind_Some in H1 as (n & L & [= <-]).
  pose proof (last_colon_split _ _ _ C) as [Eu Nd]. assert (Hd : d <> []) by (intros ->; apply Hl; rewrite Eu; apply last_snoc).
  unfold split_host_port in S. rewrite C in S. cbn [mbind option_bind] in S. unfold peer_target in H2. destruct (uHost u) as [|c s] eqn:E; [done|]. destruct (N.eqb_spec c LBRK) as [->|Hc].
  - apply bind_Some in S as ([h' rest] & Ec & S). rewrite Ec in H2. cbn [mbind option_bind] in H2. destruct rest as [|e p]; [done|]. destruct (N.eqb_spec e COLON) as [->|]; [|done]. cbn [andb] in S. case_bool_decide as Hp; [|done]. subst p.
    destruct (_ || _) in S; [done|]. injection S as ->. apply bind_Some in H2 as (m & Em & [= <-]). by rewrite (same_port _ _ _ _ _ Hd L Em).
  - case_bool_decide as Hx; [done|]. destruct (_ || _) in S; [done|]. injection S as ->. rewrite Eu, cut_at_app in H2 by done. destruct h as [|y h]; [done|]. apply bind_Some in H2 as (m & Em & [= <-]). by rewrite (same_port _ _ _ _ _ Hd L Em).
Qed.
Definition tcp_opts (u : bytes) : list opt := [OLocal u; OPort 2222].
(* What a URL may be and be accepted. *)
(* an IPv6 address without a port: no visitor of the tunnel is served; those of the peer process are *)
Theorem C104_ipv6_refuted : exists r t u, forall svc, parseServices go_parse (cmdline my_id [] 0 [OLocal (bs "http://[::1]")]) = Accepted r /\ r = [t] /\ sURL t = Some u /\
  names (bs "http") (bs "[::1]") (bs "::1") 80 /\ peer_target u = Some (bs "::1", 80) /\ dial_target svc u = None /\ forall ks, serve svc t ks = (false, 0%nat).
Proof.
  do 3 eexists. intros svc. split; [vm_compute; reflexivity|]. split; [reflexivity|]. split; [reflexivity|]. split_and!; [|reflexivity..].
  exists (bs "[::1]"). split; [right; split; [done|split; [by left|repeat constructor; done]]|]. left. split; [done|by left].
Qed.
(* an empty port: the visitors of the tunnel are sent to port 0 *)
Theorem C104_empty_port_refuted : exists r t u, forall svc, parseServices go_parse (cmdline my_id [] 0 [OLocal (bs "https://cam:")]) = Accepted r /\ r = [t] /\ sURL t = Some u /\
  names (bs "https") (bs "cam:") (bs "cam") 443 /\ peer_target u = Some (bs "cam", 443) /\ dial_target svc u = Some (bs "cam", 0).
Proof.
  do 3 eexists. intros svc. split; [vm_compute; reflexivity|]. split; [reflexivity|]. split; [reflexivity|]. split_and!; [|reflexivity..].
  exists (bs "cam"). split; [left; split_and!; [done|done|repeat constructor; done]|]. right. left. split; [done|by right].
Qed.
(* ports that there are not, and two of them: accepted, and nobody is served *)
Theorem C104_no_such_address_refuted u : u = bs "tcp://a:65536" \/ u = bs "tcp://a:1:22" -> exists t u', parseServices go_parse (cmdline my_id [] 0 (tcp_opts u)) = Accepted [t] /\ sURL t = Some u' /\
  peer_target u' = None /\ forall svc, dial_target svc u' = None.
Proof. intros [-> | ->]; do 2 eexists; (split; [vm_compute; reflexivity|]); (split; [reflexivity|]); split; reflexivity. Qed.

(* ---- the tries ---- *)
(* With an address that can be dialled, and unless useLocalAsHTTPHost meets a host of more than 200 bytes, a visitor is served if one of three tries goes well, and no connection is left over. *)
Theorem C104_served_partial svc s u a ks : sURL s = Some u -> dial_target svc u = Some a -> sUseLocal s = false \/ blen (uHost u) <= 200 ->
  serve svc s ks = (bool_decide (true ∈ take 3 ks), 0%nat).
Proof.
  intros Hu Hd Hl. unfold serve. rewrite Hu, Hd. assert (sUseLocal s && (200 <? blen (uHost u)) = false) as ->.
  { destruct Hl as [-> | Hl]; [done|]. destruct (N.ltb_spec 200 (blen (uHost u))); [lia|]. apply andb_false_r. }
  generalize 3%nat. clear. intros n. revert ks. induction n as [|n IH]; intros [|[] ks]; cbn [attempts take]; try (rewrite bool_decide_eq_false_2 by apply not_elem_of_nil; reflexivity).
  - rewrite bool_decide_eq_true_2 by (by left); reflexivity.
  - rewrite IH. f_equal. apply bool_decide_ext. rewrite elem_of_cons. naive_solver.
Qed.
(* With such a host no visitor is ever served, although the service takes every connection, and each visitor leaves three connections. *)
Definition long_name : bytes := replicate 201 97.
Theorem C104_left_open_refuted : exists t u, parseServices go_parse (cmdline my_id [] 0 [OLocal (bs "http://" ++ long_name); OUseLocal true]) = Accepted [t] /\ sURL t = Some u /\
  forall svc, dial_target svc u = Some (long_name, 80) /\ peer_target u = Some (long_name, 80) /\
  forall ks, serve svc t ks = (false, length (filter (fun k => k = true) (take 3 ks))).
Proof.
  do 2 eexists. split; [vm_compute; reflexivity|]. split; [reflexivity|]. intros svc. split; [vm_compute; reflexivity|]. split; [vm_compute; reflexivity|]. intros ks. unfold serve. cbn [sURL].
  match goal with |- match ?d with _ => _ end = _ => assert (Hd : is_Some d) by (vm_compute; eauto); destruct Hd as [x ->] end. cbn [sUseLocal]. match goal with |- attempts _ ?b _ = _ => change b with true end.
  generalize 3%nat. intros n. revert ks. induction n as [|n IH]; intros [|[] ks]; cbn [attempts take]; try done.
  - rewrite IH. by rewrite filter_cons_True by done.
  - rewrite IH. by rewrite filter_cons_False by done.
Qed.
(* ordinary URLs *)
Theorem C104_witness : exists r, parseServices go_parse (cmdline my_id [] 0 [OLocal (bs "http://cam/x"); OLocal (bs "tcp://[::1]:22"); OPort 2222; OLocal (bs "https://10.0.0.2:8443"); OPrefix (bs "nas")]) = Accepted r /\
  names (bs "http") (bs "cam") (bs "cam") 80 /\ names (bs "tcp") (bs "[::1]:22") (bs "::1") 22 /\
  (fun t => sURL t ≫= dial_target (fun _ => None)) <$> r = [Some (bs "cam", 80); Some (bs "::1", 22); Some (bs "10.0.0.2", 8443)] /\
  (fun t => sURL t ≫= peer_target) <$> r = [Some (bs "cam", 80); Some (bs "::1", 22); Some (bs "10.0.0.2", 8443)] /\
  (fun t => serve (fun _ => None) t [false; true]) <$> r = replicate 3 (true, 0%nat).
Proof.
  eexists. split; [vm_compute; reflexivity|]. split_and!; try (vm_compute; reflexivity).
  - exists (bs "cam"). split; [left; split_and!; [done|done|repeat constructor; done]|]. left. split; [done|by left].
  - exists (bs "[::1]"). split; [right; split; [done|split; [by left|repeat constructor; done]]|]. right. right. exists (bs "22"). split_and!; [done| |done]. split_and!; [done|repeat constructor; done|reflexivity].
Qed.
