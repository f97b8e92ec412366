(* Props_WebStart.v -- C89: the web interface is where and how it is configured. *)
From Coq Require Import Strings.String.
From Verif Require Import GoBase FlagsModel WebStartModel.
Local Open Scope N_scope.

(* ---------- specification *)
(* the address meant by the option: a port alone means all interfaces *)
Definition meant (opt addr : bytes) : Prop := (COLON ∈ opt /\ addr = opt) \/ (COLON ∉ opt /\ addr = COLON :: opt).
Definition scheme (tls : bool) : bytes := if tls then bs "https://" else bs "http://".
(* a page at this address: no host means this machine *)
Definition page (tls : bool) (addr url : bytes) : Prop :=
  (exists p, addr = COLON :: p /\ url = scheme tls ++ bs "localhost:" ++ p) \/ (~ (exists p, addr = COLON :: p) /\ url = scheme tls ++ addr).
Definition no_scheme (addr : bytes) : Prop := ~ bs "http://" `prefix_of` addr /\ ~ bs "https://" `prefix_of` addr.
(* certificates: none wanted; made by gt; given as two files *)
Definition no_certs (w : wopts) : Prop := wCert w = [] /\ wKey w = [].
Definition auto_certs (w : wopts) : Prop := wCert w = AUTO /\ wKey w = AUTO.
(* a pair that loads is on the disk *)
Definition sane (m : machine) : Prop := forall c k, mLoad m c k = true -> mStat m c = true /\ mStat m k = true.

Lemma meant_of opt : meant opt (if bool_decide (COLON ∈ opt) then opt else COLON :: opt).
Proof. unfold meant. case_bool_decide; auto. Qed.
Lemma meant_fun opt a b : meant opt a -> meant opt b -> a = b.
Proof. intros [[? ->]|[? ->]] [[? ->]|[? ->]]; done. Qed.
Lemma page_of addr tls : COLON ∈ addr -> no_scheme addr -> page tls addr (web_url addr tls).
Proof.
  intros Hc [H1 H2]. unfold web_url, page. rewrite (bool_decide_true (COLON ∈ addr)) by done.
  destruct addr as [|c p]; [by apply elem_of_nil in Hc|].
  destruct (N.eqb_spec c COLON) as [-> | Hne].
  - left. exists p. split; [done|]. rewrite !bool_decide_false; [destruct tls; done|..]; intros [x Hx]; cbn in Hx; discriminate.
  - right. split; [intros (q & E); injection E as -> _; done|]. rewrite !bool_decide_false by done. cbn [negb andb]. by destruct tls.
Qed.

(* ---------- refused exactly when the certificates cannot be had *)
Theorem C89_refused_exactly m w na key rs : sane m -> wAddr w <> [] ->
  (start_web m w na key rs = Refused <-> ~ no_certs w /\ ~ auto_certs w /\ mLoad m (wCert w) (wKey w) = false).
Proof.
  intros Hs Ha. unfold start_web, check_config, get_server, no_certs, auto_certs. rewrite (bool_decide_false (wAddr w = [])) by done.
  assert (forall (o : outcome), (match o with Refused => False | _ => True end) -> o <> Refused) as Hno by (intros []; done).
  assert (forall addr tls, (if na then match listen_loop rs addr with Ended => NotServed | Looping => StillTrying
            | Listening a sh => Serves a false sh (ready_url w addr tls key) end
          else match rs with [] => StillTrying | r :: _ => match listen addr r with LFree => Serves addr tls false (ready_url w addr tls key)
                           | LShared => Serves addr tls true (ready_url w addr tls key) | _ => NotServed end end) <> Refused) as Hr.
  { intros addr tls. apply Hno. destruct na; [destruct (listen_loop rs addr); done|]. destruct rs as [|r ?]; [done|]. destruct (listen addr r); done. }
  destruct (decide (wCert w = [])) as [Ec|Ec], (decide (wKey w = [])) as [Ek|Ek];
    rewrite ?(bool_decide_true (wCert w = [])), ?(bool_decide_true (wKey w = [])), ?(bool_decide_false (wCert w = [])), ?(bool_decide_false (wKey w = [])) by done; cbn [negb andb].
  - split; [intros H; by apply Hr in H|]. intros (H & _); exfalso; auto.
  - rewrite (bool_decide_false (wCert w = AUTO)) by (rewrite Ec; done). cbn [andb].
    destruct (mLoad m (wCert w) (wKey w)); [split; [intros H; by apply Hr in H|by intros (_ & _ & ?)]|].
    split; [|done]. intros _. split; [naive_solver|]. split; [rewrite Ec; intros [? _]; discriminate|done].
  - rewrite (bool_decide_false (wKey w = AUTO)) by (rewrite Ek; done). rewrite andb_false_r.
    destruct (mLoad m (wCert w) (wKey w)); [split; [intros H; by apply Hr in H|by intros (_ & _ & ?)]|].
    split; [|done]. intros _. split; [naive_solver|]. split; [rewrite Ek; intros [_ ?]; discriminate|done].
  - destruct (decide (wCert w = AUTO)) as [Ac|Ac], (decide (wKey w = AUTO)) as [Ak|Ak];
      rewrite ?(bool_decide_true (wCert w = AUTO)), ?(bool_decide_true (wKey w = AUTO)), ?(bool_decide_false (wCert w = AUTO)), ?(bool_decide_false (wKey w = AUTO)) by done; cbn [negb andb].
    + split; [intros H; by apply Hr in H|]. intros (_ & H & _); exfalso; auto.
    + destruct (mLoad m (wCert w) (wKey w)); [split; [intros H; by apply Hr in H|by intros (_ & _ & ?)]|]. split; [|done]. intros _. naive_solver.
    + destruct (mLoad m (wCert w) (wKey w)); [split; [intros H; by apply Hr in H|by intros (_ & _ & ?)]|]. split; [|done]. intros _. naive_solver.
    + destruct (mLoad m (wCert w) (wKey w)) eqn:El.
      * destruct (Hs _ _ El) as [-> ->]. cbn [andb]. split; [intros H; by apply Hr in H|by intros (_ & _ & ?)].
      * destruct (_ && _); (split; [|done]); intros _; naive_solver.
Qed.

Lemma not_refused m w : wAddr w <> [] -> sane m -> (no_certs w \/ auto_certs w \/ mLoad m (wCert w) (wKey w) = true) ->
  exists addr tls, meant (wAddr w) addr /\ check_config m w = Some addr /\ get_server m w = Some tls /\ (tls = false <-> no_certs w).
Proof.
  intros Ha Hs Hc. unfold check_config, get_server. rewrite (bool_decide_false (wAddr w = [])) by done.
  exists (if bool_decide (COLON ∈ wAddr w) then wAddr w else COLON :: wAddr w). unfold no_certs.
  destruct Hc as [[Ec Ek]|[[Ec Ek]|El]].
  - exists false. rewrite Ec, Ek. split; [apply meant_of|]. done.
  - exists true. rewrite Ec, Ek. split; [apply meant_of|]. split; [done|]. split; [done|]. split; [done|intros [? _]; discriminate].
  - destruct (Hs _ _ El) as [E1 E2]. rewrite E1, E2, El. cbn [andb]. destruct (decide (wCert w = [] /\ wKey w = [])) as [[Ec Ek]|Hn].
    + exists false. rewrite Ec, Ek. split; [apply meant_of|]. done.
    + exists true. split; [apply meant_of|]. split; [by repeat case_bool_decide|]. split; [|split; [done|intros ?; exfalso; auto]].
      destruct (bool_decide (wCert w = []) && bool_decide (wKey w = [])) eqn:E; [|by case_match].
      apply andb_true_iff in E as [?%bool_decide_eq_true ?%bool_decide_eq_true]. exfalso; auto.
Qed.
Lemma meant_colon opt addr : meant opt addr -> COLON ∈ addr.
Proof. intros [[? ->]|[? ->]]; [done|left]. Qed.

(* Started with options: if the certificates can be had and the address can be listened on, the interface is at the address that was meant, with TLS exactly
   if certificates were asked for, and the URL shown is that of the page, with the key behind it exactly at the first start. *)
Theorem C89_as_configured_partial m w key r rs addr : sane m -> wAddr w <> [] -> (no_certs w \/ auto_certs w \/ mLoad m (wCert w) (wKey w) = true) ->
  meant (wAddr w) addr -> no_scheme addr -> split_host_port addr <> None -> r = LFree \/ r = LShared ->
  exists tls url, page tls addr url /\ (tls = true <-> ~ no_certs w) /\
    start_web m w false (Some key) (r :: rs) =
    Serves addr tls (match r with LShared => true | _ => false end)
      (if bool_decide (wAdmin w = [] \/ wPass w = []) then url ++ bs "/#/verify?key=" ++ key else url).
Proof.
  intros Hs Ha Hc Hm Hn Hp Hr. destruct (not_refused m w Ha Hs Hc) as (a & tls & Hma & E1 & E2 & Ht). assert (a = addr) as -> by (eapply meant_fun; eauto).
  exists tls, (web_url addr tls). split; [apply page_of; [by eapply meant_colon|done]|]. split; [destruct tls; naive_solver|].
  unfold start_web. rewrite (bool_decide_false (wAddr w = [])) by done. rewrite E1, E2. unfold listen. destruct (split_host_port addr) as [h|]; [|done].
  assert (forall b, Serves addr tls b (ready_url w addr tls (Some key)) = Serves addr tls b (if bool_decide (wAdmin w = [] \/ wPass w = []) then web_url addr tls ++ bs "/#/verify?key=" ++ key else web_url addr tls)) as H.
  { intros b. f_equal. unfold ready_url, first_start, url_with_key. destruct (decide (wAdmin w = [])) as [E|E], (decide (wPass w = [])) as [F|F];
      rewrite ?(bool_decide_true (wAdmin w = [])), ?(bool_decide_true (wPass w = [])), ?(bool_decide_false (wAdmin w = [])), ?(bool_decide_false (wPass w = [])) by done; cbn [orb];
      try (rewrite bool_decide_true by auto; done). rewrite bool_decide_false by tauto. done. }
  destruct Hr as [-> | ->]; apply H.
Qed.
(* Started with options it is never served in the clear, or anywhere else, if certificates were asked for. *)
Theorem C89_never_plain_partial m w key rs addr tls sh url : start_web m w false key rs = Serves addr tls sh url ->
  meant (wAddr w) addr /\ (tls = false <-> no_certs w).
Proof.
  unfold start_web, no_certs. case_bool_decide as Ha; [done|].
  pose proof (meant_of (wAddr w)) as Hm.
  assert (check_config m w = Some (if bool_decide (COLON ∈ wAddr w) then wAddr w else COLON :: wAddr w) \/ check_config m w = None) as Hcc.
  { unfold check_config. rewrite (bool_decide_false (wAddr w = [])) by done. destruct (negb _ && negb _); [|by left]. destruct (negb _ && negb _); [|by left]. destruct (_ && _); auto. }
  remember (if bool_decide (COLON ∈ wAddr w) then wAddr w else COLON :: wAddr w) as a eqn:Eqa. clear Eqa.
  destruct Hcc as [-> | ->]; [|done]. destruct (get_server m w) as [t|] eqn:Eg; [|done]. intros H.
  assert (addr = a /\ tls = t) as [-> ->].
  { destruct rs as [|r ?]; [done|]. destruct (listen a r); simplify_eq; done. }
  split; [done|]. unfold get_server in Eg. destruct (bool_decide (wCert w = []) && bool_decide (wKey w = [])) eqn:E.
  - injection Eg as <-. apply andb_true_iff in E as [?%bool_decide_eq_true ?%bool_decide_eq_true]. done.
  - apply andb_false_iff in E. assert (t = true) as ->. { destruct (bool_decide (wCert w = AUTO) && bool_decide (wKey w = AUTO)); [by injection Eg|]. destruct (mLoad _ _ _); [by injection Eg|done]. } split; [done|]. intros [E1 E2]. rewrite E1, E2 in E. by destruct E.
Qed.

(* ---------- what the code does otherwise *)
(* Started without options, certificates in the configuration file are not used: the page is served in the clear, the URL says https. *)
Theorem C89_plain_refuted m w key r rs addr : sane m -> wAddr w <> [] -> auto_certs w \/ (~ no_certs w /\ mLoad m (wCert w) (wKey w) = true) ->
  meant (wAddr w) addr -> no_scheme addr -> split_host_port addr <> None -> r = LFree \/ r = LShared ->
  exists sh url rest, page true addr url /\ start_web m w true key (r :: rs) = Serves addr false sh (url ++ rest).
Proof.
  intros Hs Ha Hc Hm Hn Hp Hr. assert (no_certs w \/ auto_certs w \/ mLoad m (wCert w) (wKey w) = true) as Hc' by tauto.
  destruct (not_refused m w Ha Hs Hc') as (a & tls & Hma & E1 & E2 & Ht). assert (a = addr) as -> by (eapply meant_fun; eauto).
  assert (tls = true) as ->. { destruct tls; [done|]. destruct Ht as [Ht _]. specialize (Ht eq_refl). destruct Hc as [[Hc _]|[Hc _]]; [|done]. destruct Ht as [Ht _]. rewrite Ht in Hc. done. }
  assert (exists rest, ready_url w addr true key = web_url addr true ++ rest) as [rest Er].
  { unfold ready_url, url_with_key. destruct (first_start w); [destruct key|]; eexists; [reflexivity|..]; by rewrite app_nil_r. }
  exists (match r with LShared => true | _ => false end), (web_url addr true), rest. split; [apply page_of; [by eapply meant_colon|done]|].
  unfold start_web. rewrite (bool_decide_false (wAddr w = [])) by done. rewrite E1, E2. cbn [listen_loop]. unfold listen. destruct (split_host_port addr); [|done].
  destruct Hr as [-> | ->]; by rewrite Er.
Qed.

(* Started without options while another program has the address: gt serves on some other port of that host (":0", chosen by the kernel), but the URL it
   shows and opens, and at the first start the key that logs in as administrator, is the other program's. *)
Lemma no_colon_split h p : COLON ∉ h -> LBRK ∉ h -> RBRK ∉ h -> COLON ∉ p -> LBRK ∉ p -> RBRK ∉ p -> split_host_port (h ++ COLON :: p) = Some h.
Proof.
  intros H1 H2 H3 H4 H5 H6. unfold split_host_port.
  assert (last_colon p = None) as Ep. { clear -H4. induction p as [|c p IH]; [done|]. cbn. rewrite IH by (intros ?; apply H4; by right). destruct (N.eqb_spec c COLON) as [-> |]; [|done]. exfalso. apply H4. left. }
  assert (last_colon (h ++ COLON :: p) = Some (h, p)) as ->. { clear -Ep. induction h as [|c h IH]; cbn; [by rewrite Ep|]. by rewrite IH. }
  cbn [mbind option_bind].
  assert (LBRK ∉ h ++ COLON :: p /\ RBRK ∉ h ++ COLON :: p) as [Hl Hr].
  { rewrite !elem_of_app, !elem_of_cons. split; intros [?|[?|?]]; done. }
  destruct h as [|c h]; cbn [app].
  - cbn [app] in Hl, Hr. rewrite (bool_decide_false (COLON ∈ [])) by apply not_elem_of_nil. rewrite !bool_decide_false by done. done.
  - destruct (N.eqb_spec c LBRK) as [-> |]; [exfalso; apply H2; left|]. rewrite (bool_decide_false (COLON ∈ c :: h)) by done. cbn [app] in Hl, Hr. rewrite !bool_decide_false by done. done.
Qed.
Theorem C89_other_address_refuted m w key r rs h p : sane m -> no_certs w -> COLON ∉ h -> LBRK ∉ h -> RBRK ∉ h -> COLON ∉ p -> LBRK ∉ p -> RBRK ∉ p ->
  wAddr w = h ++ COLON :: p -> no_scheme (wAddr w) -> r = LFree \/ r = LShared ->
  exists sh url rest, page false (wAddr w) url /\ start_web m w true (Some key) (LInUse :: r :: rs) = Serves (h ++ bs ":0") false sh (url ++ rest) /\
    (wAdmin w = [] \/ wPass w = [] -> rest = bs "/#/verify?key=" ++ key).
Proof.
  intros Hs Hc H1 H2 H3 H4 H5 H6 Ha Hn Hr. assert (wAddr w <> []) as Hne by (rewrite Ha; by destruct h).
  destruct (not_refused m w Hne Hs (or_introl Hc)) as (a & tls & Hma & E1 & E2 & Ht).
  assert (COLON ∈ wAddr w) as Hcol by (rewrite Ha; apply elem_of_app; right; left).
  assert (a = wAddr w) as -> by (destruct Hma as [[_ ->]|[? _]]; done). assert (tls = false) as -> by tauto.
  exists (match r with LShared => true | _ => false end), (web_url (wAddr w) false), (if first_start w then bs "/#/verify?key=" ++ key else []).
  split; [by apply page_of|]. split.
  - unfold start_web. rewrite (bool_decide_false (wAddr w = [])) by done. rewrite E1, E2. cbn [listen_loop]. unfold listen at 1.
    assert (split_host_port (wAddr w) = Some h) as -> by (rewrite Ha; by apply no_colon_split). unfold listen.
    assert (split_host_port (h ++ bs ":0") = Some h) as ->. { apply (no_colon_split h [48]); try done; by rewrite elem_of_list_singleton. }
    assert (ready_url w (wAddr w) false (Some key) = web_url (wAddr w) false ++ (if first_start w then bs "/#/verify?key=" ++ key else [])) as ->.
    { unfold ready_url, url_with_key. destruct (first_start w); [done|by rewrite app_nil_r]. }
    destruct Hr as [-> | ->]; done.
  - unfold first_start. intros [-> | ->]; [done|]. by rewrite orb_comm.
Qed.
(* The same with an IPv6 address: the brackets are lost, the second attempt fails, and nothing is served, without an error. *)
Lemma last_colon_app h p : COLON ∉ p -> last_colon (h ++ COLON :: p) = Some (h, p).
Proof.
  intros H4. assert (last_colon p = None) as Ep. { induction p as [|c p IH]; [done|]. cbn. rewrite IH by (intros ?; apply H4; by right). destruct (N.eqb_spec c COLON) as [-> |]; [|done]. exfalso. apply H4. left. }
  clear -Ep. induction h as [|c h IH]; cbn; [by rewrite Ep|]. by rewrite IH.
Qed.
Lemma cut_at_app x h r : x ∉ h -> cut_at x (h ++ x :: r) = Some (h, r).
Proof.
  induction h as [|c h IH]; intros Hx; cbn; [by rewrite N.eqb_refl|]. destruct (N.eqb_spec c x) as [-> |]; [exfalso; apply Hx; left|].
  rewrite IH by (intros ?; apply Hx; by right). done.
Qed.
Lemma bracket_split h p : LBRK ∉ h -> RBRK ∉ h -> COLON ∉ p -> LBRK ∉ p -> RBRK ∉ p -> split_host_port (LBRK :: h ++ RBRK :: COLON :: p) = Some h.
Proof.
  intros H2 H3 H4 H5 H6. unfold split_host_port.
  replace (LBRK :: h ++ RBRK :: COLON :: p) with ((LBRK :: h ++ [RBRK]) ++ COLON :: p) at 1 by (cbn; by rewrite <- app_assoc).
  rewrite last_colon_app by done. cbn [mbind option_bind]. rewrite N.eqb_refl, cut_at_app by done. cbn [mbind option_bind].
  rewrite N.eqb_refl, (bool_decide_true (p = p)) by done. cbn [andb].
  rewrite !bool_decide_false; [done|rewrite elem_of_cons; by intros [?|?]|]. rewrite elem_of_app, !elem_of_cons. by intros [?|[?|[?|?]]].
Qed.
Theorem C89_ipv6_refuted m w key r rs h p : sane m -> no_certs w -> COLON ∈ h -> LBRK ∉ h -> RBRK ∉ h -> COLON ∉ p -> LBRK ∉ p -> RBRK ∉ p ->
  wAddr w = LBRK :: h ++ RBRK :: COLON :: p -> start_web m w true key (LInUse :: r :: rs) = NotServed.
Proof.
  intros Hs Hc H1 H2 H3 H4 H5 H6 Ha. assert (wAddr w <> []) as Hne by (by rewrite Ha).
  destruct (not_refused m w Hne Hs (or_introl Hc)) as (a & tls & Hma & E1 & E2 & Ht).
  assert (a = wAddr w) as ->. { destruct Hma as [[_ ->]|[Hx _]]; [done|]. exfalso. apply Hx. rewrite Ha. right. apply elem_of_app. right. right. left. }
  unfold start_web. rewrite (bool_decide_false (wAddr w = [])) by done. rewrite E1, E2. cbn [listen_loop]. unfold listen at 1.
  assert (split_host_port (wAddr w) = Some h) as -> by (rewrite Ha; by apply bracket_split).
  unfold listen. assert (split_host_port (h ++ bs ":0") = None) as ->; [|done].
  unfold split_host_port. change (bs ":0") with (COLON :: [48]). rewrite last_colon_app by (rewrite elem_of_list_singleton; done). cbn [mbind option_bind].
  destruct h as [|c h]; [by apply elem_of_nil in H1|]. cbn [app]. destruct (N.eqb_spec c LBRK) as [-> |]; [exfalso; apply H2; left|]. by rewrite (bool_decide_true (COLON ∈ c :: h)).
Qed.
(* Started with options while the address cannot be listened on: no error; gt goes on without its web interface. *)
Theorem C89_silent_refuted m w key r rs : sane m -> wAddr w <> [] -> no_certs w \/ auto_certs w \/ mLoad m (wCert w) (wKey w) = true -> r = LInUse \/ r = LFail ->
  start_web m w false key (r :: rs) = NotServed.
Proof.
  intros Hs Ha Hc Hr. destruct (not_refused m w Ha Hs Hc) as (a & tls & _ & E1 & E2 & _). unfold start_web. rewrite (bool_decide_false (wAddr w = [])) by done. rewrite E1, E2.
  unfold listen. destruct (split_host_port a); [|done]. by destruct Hr as [-> | ->].
Qed.

(* ---------- a machine and configurations *)
Definition m1 : machine := mkM (fun f => bool_decide (f = bs "c.pem" \/ f = bs "k.pem")) (fun c k => bool_decide (c = bs "c.pem" /\ k = bs "k.pem")).
Lemma sane_m1 : sane m1.
Proof. intros c k H. cbn in *. apply bool_decide_eq_true in H as [-> ->]. split; by vm_compute. Qed.
Definition w1 : wopts := mkW (bs "8000") (bs "c.pem") (bs "k.pem") (bs "admin") (bs "pw").
Definition w2 : wopts := mkW (bs "127.0.0.1:8000") [] [] [] [].
Theorem C89_witness :
  (meant (wAddr w1) (bs ":8000") /\ no_scheme (bs ":8000") /\ split_host_port (bs ":8000") <> None /\ ~ no_certs w1 /\ mLoad m1 (wCert w1) (wKey w1) = true) /\
  start_web m1 w1 false (Some (bs "key")) [LFree] = Serves (bs ":8000") true false (bs "https://localhost:8000") /\
  start_web m1 w1 true (Some (bs "key")) [LFree] = Serves (bs ":8000") false false (bs "https://localhost:8000") /\
  start_web m1 w1 false (Some (bs "key")) [LInUse] = NotServed /\
  start_web m1 (mkW (bs "8000") (bs "c.pem") (bs "auto") [] []) false (Some (bs "key")) [LFree] = Refused /\
  start_web m1 w2 false (Some (bs "key")) [LShared] = Serves (bs "127.0.0.1:8000") false true (bs "http://127.0.0.1:8000/#/verify?key=key") /\
  start_web m1 w2 true (Some (bs "key")) [LInUse; LFree] = Serves (bs "127.0.0.1:0") false false (bs "http://127.0.0.1:8000/#/verify?key=key") /\
  start_web m1 (mkW (bs "[::1]:8000") [] [] [] []) true (Some (bs "key")) [LInUse; LFree] = NotServed.
Proof.
  split; [split; [right; split; [apply (bool_decide_unpack _); vm_compute; exact I|done]|];
    split; [split; intros [x Hx]; vm_compute in Hx; discriminate|]; split; [by vm_compute|]; split; [intros [? _]; discriminate|by vm_compute]|].
  repeat (split; [vm_compute; reflexivity|]). vm_compute. reflexivity.
Qed.
