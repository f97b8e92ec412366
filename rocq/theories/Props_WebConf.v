(* Props_WebConf.v -- C60: what is saved on the web page is what the next start uses. *)
From Coq Require Import Strings.String.
From Verif Require Import GoBase FlagsModel FlagsProofs Props_Flags WebConfModel.
Local Open Scope N_scope.

(* ---- specification ---- *)
(* one of gt's two programs, with the fields its web page may not set *)
Definition program (version : bytes) (sch : list odecl) (hidden : list bytes) : Prop :=
  (sch = server_options version /\ hidden = server_hidden) \/ (sch = client_options version /\ hidden = client_hidden).
(* the web page runs in a process with options [running]: it has the path of a config file (checkConfig, web.go 86-104) *)
Definition web_runs (sch : list odecl) (running : odecl -> val) (p : bytes) : Prop := config_of sch running = p /\ p <> [].
(* the value the user asked for: the field of the request, else (credentials, addresses of the web page) what was there *)
Definition asked (sch : list odecl) (hidden : list bytes) (disk : bytes -> file) (running : odecl -> val) (req : bytes -> option val) (o : odecl) (c : val) : Prop :=
  if decide (oName o ∈ hidden) then oName o ∈ kept /\ c = inherit sch disk running o
  else match req (oName o) with Some x => c = x | None => oName o ∈ kept /\ c = inherit sch disk running o end.

Lemma program_facts version sch hidden : program version sch hidden ->
  good_schema sch /\ has_config sch /\ B_config ∈ hidden /\
  Forall (fun o => (oName o = bs "webAddr" -> oDefault o = One (AStr [])) /\ (oName o = B_config -> oFile o = false) /\
                   (oFile o = true -> oShape o <> SPlaced) /\ (oShape o = SMany -> oDefault o = Many []) /\
                   (oShape o = SOne -> exists a, oDefault o = One a)) sch.
Proof.
  destruct (C58_schemas version) as (G1 & H1 & G2 & H2).
  intros [[-> ->]|[-> ->]]; (split; [done|]); (split; [done|]); (split; [by apply (bool_decide_unpack _)|]);
    unfold server_options, client_options; repeat (apply Forall_cons; split; [repeat split; cbn; intros; try discriminate; try done; by eexists|]); by apply Forall_nil.
Qed.
Lemma zero_val_spec v : zero_val v = true <-> is_zero v.
Proof.
  unfold is_zero. destruct v as [a|l|l]; cbn [zero_val]; [|split; [done|]; by intros [|[|[|[|[|]]]]]..].
  destruct a as [s|n|z|b|d|n]; cbn [zero_atom].
  - rewrite bool_decide_eq_true. split; [intros ->; by left|]. by intros [[= ->]|[|[|[|[|]]]]].
  - rewrite N.eqb_eq. split; [intros ->; by right; left|]. by intros [|[[= ->]|[|[|[|]]]]].
  - rewrite Z.eqb_eq. split; [intros ->; by do 2 right; left|]. by intros [|[|[[= ->]|[|[|]]]]].
  - destruct b; cbn; [split; [done|]; by intros [|[|[|[|[|]]]]]|split; [|done]]. intros _. by do 3 right; left.
  - rewrite Z.eqb_eq. split; [intros ->; by do 4 right; left|]. by intros [|[|[|[|[[= ->]|]]]]].
  - rewrite N.eqb_eq. split; [intros ->; by do 5 right|]. by intros [|[|[|[|[|[= ->]]]]]].
Qed.
Definition of_shape (o : odecl) (c : val) : Prop :=
  match oShape o with SOne => exists a, c = One a | SMany => exists l, c = Many l | SPlaced => exists l, c = Placed l end.

(* where the file goes *)
Lemma config_decl sch : has_config sch -> good_schema sch -> exists oc, oc ∈ sch /\ find_opt sch B_config = Some oc /\ oName oc = B_config /\ oShape oc = SOne /\
  zero_of oc = One (AStr []) /\ oDefault oc = One (AStr []).
Proof.
  intros (oc & Hin & En & Es & Eb & Ed) [ND _]. exists oc. split; [done|]. split; [unfold B_config; rewrite <- En; by apply find_opt_in|].
  split; [done|]. split; [done|]. split; [|done]. unfold zero_of. by rewrite Es, Eb.
Qed.
Lemma inherit_path version sch hidden disk running p : program version sch hidden -> web_runs sch running p ->
  config_of sch (inherit sch disk running) = match disk p with Fine _ => [] | _ => p end.
Proof.
  intros HP [E1 E2]. destruct (program_facts _ _ _ HP) as (GS & HC & _ & HF). destruct (config_decl sch HC GS) as (oc & Hin & Ef & En & Es & Ez & Ed).
  rewrite Forall_forall in HF. destruct (HF oc Hin) as (_ & HO & _). specialize (HO En). unfold config_of. rewrite Ef. unfold inherit. rewrite E1.
  destruct p as [|b p]; [done|]. unfold config_of in E1. rewrite Ef in E1. destruct (disk (b :: p)); [done..|].
  unfold merged, with_file. rewrite HO, Es, Ez, Ed. done.
Qed.
Lemma sep_config sch cfg inh : good_schema sch -> has_config sch -> (forall o, oName o = B_config -> cfg o = inh o) ->
  config_of sch (separate cfg) = config_of sch inh.
Proof.
  intros GS HC H. destruct (config_decl sch HC GS) as (oc & Hin & Ef & En & Es & Ez & Ed). unfold config_of. rewrite Ef. unfold separate. rewrite Es, (H oc En), Ez, Ed.
  case_bool_decide as E; [by rewrite E|done].
Qed.
Lemma save_goes_to version sch hidden disk dpath running req p : program version sch hidden -> web_runs sch running p ->
  save_path sch dpath (separate (save_config sch hidden disk running req)) = match disk p with Fine _ => dpath | _ => p end.
Proof.
  intros HP HW. destruct (program_facts _ _ _ HP) as (GS & HC & Hh & _). unfold save_path.
  rewrite (sep_config sch _ (inherit sch disk running)); [| done | done |].
  - rewrite (inherit_path _ _ _ _ _ _ HP HW). destruct HW as [_ Hne]. destruct p as [|b p]; [done|]. by destruct (disk (b :: p)).
  - intros o E. unfold save_config. rewrite E. rewrite (bool_decide_eq_true_2 (B_config ∈ hidden)) by done.
    by rewrite (bool_decide_eq_true_2 (B_config ∈ kept)) by by apply (bool_decide_unpack _).
Qed.
Lemma change_goes_to version sch hidden disk dpath running user pw pp p : program version sch hidden -> web_runs sch running p ->
  save_path sch dpath (separate (user_config sch disk running user pw pp)) = match disk p with Fine _ => dpath | _ => p end.
Proof.
  intros HP HW. destruct (program_facts _ _ _ HP) as (GS & HC & Hh & _). unfold save_path.
  rewrite (sep_config sch _ (inherit sch disk running)); [| done | done |].
  - rewrite (inherit_path _ _ _ _ _ _ HP HW). destruct HW as [_ Hne]. destruct p as [|b p]; [done|]. by destruct (disk (b :: p)).
  - intros o E. unfold user_config. rewrite E. by rewrite !bool_decide_eq_false_2 by done.
Qed.

(* a start with the file that was written from [cfg] *)
Lemma start_with P version sch hidden disk dpath web noargs prog l ws rest p cfg o : program version sch hidden -> typed P ->
  blen (ws ++ rest) < 4294967296 -> command sch l ws -> ends rest -> Forall (takes P) l ->
  let args := prog :: ws ++ rest in
  config_path l (if noargs || has_arg args B_webAddr then dpath else []) = p -> p <> [] ->
  exists v, let disk' := upd disk p (Fine (encode sch (separate cfg))) in
    server_new P sch disk' dpath web noargs args = Options v /\ client_new P sch disk' dpath web noargs args = Options v /\
    (o ∈ sch -> oFile o = true -> texts (oName o) l = [] -> of_shape o (cfg o) ->
     (~ is_zero (cfg o) -> v o = cfg o) /\ (is_zero (cfg o) -> oName o <> bs "webAddr" -> v o = oDefault o)).
Proof.
  intros HP HTy HN HC HE HT args Hpath Hne. destruct (program_facts _ _ _ HP) as (GS & HCF & Hh & HF).
  set (f := encode sch (separate cfg)). set (disk' := upd disk p (Fine f)).
  destruct (C58_values P sch disk' dpath web noargs prog l ws rest f GS HCF HTy HN HC HE HT) as (v & E1 & E2 & HV).
  { fold args. rewrite Hpath. right. split; [done|]. unfold disk', upd. by rewrite bool_decide_eq_true_2. }
  exists v. split; [done|]. split; [done|]. intros Ho HO Hl Hs. destruct (HV o Ho) as (c & Hc & H1 & H2).
  rewrite Forall_forall in HF. destruct (HF o Ho) as (F1 & F2 & F3 & F4 & F5). destruct GS as [ND _].
  unfold called_for, stated in Hc. rewrite Hl, HO in Hc. unfold f, encode in Hc. rewrite (find_opt_in sch o ND Ho), HO in Hc. cbn [andb] in Hc.
  assert (oName o <> B_config) as Hnc by (intros E; by rewrite (F2 E) in HO).
  assert (oName o <> bs "webAddr" -> start_defaults dpath web noargs args o = oDefault o) as Hstart.
  { intros Hw. unfold start_defaults. rewrite bool_decide_eq_false_2 by done. cbn [andb]. rewrite bool_decide_eq_false_2 by done. done. }
  unfold separate, of_shape in *. destruct (oShape o) eqn:Es.
  - destruct Hs as [a Ea]. destruct (F5 eq_refl) as [d Ed]. case_bool_decide as Eq.
    + assert (empty_val (zero_of o) = true) as Z. { unfold zero_of. rewrite Es. by destruct (oBase o). } rewrite Z in Hc. cbn [negb] in Hc.
      split.
      * intros Hz. destruct (decide (oName o = bs "webAddr")) as [Ew|Ew].
        { exfalso. apply Hz. rewrite Eq, (F1 Ew). by left. }
        fold args in Hc. rewrite (Hstart Ew), <- Eq in Hc. subst c. by apply H2.
      * intros Hz Hw. fold args in Hc. rewrite (Hstart Hw), <- Eq in Hc. subst c. by apply H1.
    + destruct (empty_val (cfg o)) eqn:Ez; cbn [negb] in Hc.
      * rewrite Ea in Ez. assert (zero_val (cfg o) = true) as Z by by rewrite Ea. apply zero_val_spec in Z. split; [done|].
        intros _ Hw. fold args in Hc. rewrite (Hstart Hw) in Hc. subst c. destruct (zero_val (oDefault o)) eqn:Y.
        { apply zero_val_spec in Y. by apply H1. } { apply H2. intros Q. apply zero_val_spec in Q. congruence. }
      * assert (~ is_zero (cfg o)) as Z. { intros Q. apply zero_val_spec in Q. rewrite Ea in Q, Ez. cbn in Q, Ez. congruence. }
        split; [|done]. intros _. subst c. by apply H2.
  - destruct Hs as [k Ek]. split; [|intros Q; apply zero_val_spec in Q; by rewrite Ek in Q]. intros _.
    assert (oName o <> bs "webAddr") as Hw by (intros Ew; specialize (F1 Ew); by rewrite (F4 eq_refl) in F1).
    rewrite Ek in *. cbn [empty_val] in Hc. case_bool_decide as Eq; cbn [negb] in Hc.
    + subst k. fold args in Hc. rewrite (Hstart Hw), (F4 eq_refl) in Hc. subst c. apply H2. intros Q. by apply zero_val_spec in Q.
    + subst c. apply H2. intros Q. by apply zero_val_spec in Q.
  - by destruct (F3 HO).
Qed.

(* ---- the promise, where it holds: gt runs with its default config file, or its config file was not readable so far ---- *)
Theorem C60_next_start_partial P version sch hidden disk dpath web noargs prog l ws rest running req p o c disk' :
  program version sch hidden -> typed P -> web_runs sch running p -> (p = dpath \/ forall f, disk p <> Fine f) ->
  In disk' (web_save sch hidden dpath disk running req) -> last (web_save sch hidden dpath disk running req) = Some disk' ->
  blen (ws ++ rest) < 4294967296 -> command sch l ws -> ends rest -> Forall (takes P) l ->
  let args := prog :: ws ++ rest in
  config_path l (if noargs || has_arg args B_webAddr then dpath else []) = p ->       (* the same config file is used again *)
  o ∈ sch -> oFile o = true -> texts (oName o) l = [] ->                              (* the command line does not set o *)
  asked sch hidden disk running req o c -> of_shape o c ->
  exists v, server_new P sch disk' dpath web noargs args = Options v /\ client_new P sch disk' dpath web noargs args = Options v /\
    (~ is_zero c -> v o = c) /\ (is_zero c -> oName o <> bs "webAddr" -> v o = oDefault o).
Proof.
  intros HP HTy HW Hp _ Hlast HN HC HE HT args Hpath Ho HO Hl Ha Hs.
  unfold web_save, write_states in Hlast. rewrite (save_goes_to _ _ _ _ _ _ _ _ HP HW) in Hlast. cbn [last] in Hlast. injection Hlast as <-.
  assert (match disk p with Fine _ => dpath | _ => p end = p) as -> by (destruct Hp as [-> | Hp]; [by destruct (disk dpath)|destruct (disk p) eqn:E; [done..|by destruct (Hp fields)]]).
  set (cfg := save_config sch hidden disk running req).
  destruct (start_with P version sch hidden disk dpath web noargs prog l ws rest p cfg o HP HTy HN HC HE HT Hpath (proj2 HW)) as (v & E1 & E2 & H).
  exists v. split; [done|]. split; [done|].
  assert (cfg o = c) as E.
  { unfold cfg, save_config. unfold asked in Ha. destruct (decide (oName o ∈ hidden)) as [Hh|Hh].
    - rewrite (bool_decide_eq_true_2 (oName o ∈ hidden)) by done. destruct Ha as [Hk ->]. by rewrite bool_decide_eq_true_2.
    - rewrite (bool_decide_eq_false_2 (oName o ∈ hidden)) by done. destruct (req (oName o)); [done|]. destruct Ha as [Hk ->]. cbn. by rewrite bool_decide_eq_true_2. }
  rewrite E in H. by apply H.
Qed.
(* a new user name and password are those of the next start *)
Theorem C60_credentials_partial P version sch hidden disk dpath web noargs prog l ws rest running user pw pp p disk' :
  program version sch hidden -> typed P -> web_runs sch running p -> (p = dpath \/ forall f, disk p <> Fine f) ->
  last (web_change_user sch dpath disk running user pw pp) = Some disk' ->
  blen (ws ++ rest) < 4294967296 -> command sch l ws -> ends rest -> Forall (takes P) l ->
  let args := prog :: ws ++ rest in
  config_path l (if noargs || has_arg args B_webAddr then dpath else []) = p ->
  texts (bs "admin") l = [] -> texts (bs "password") l = [] -> user <> [] -> pw <> [] ->
  exists v, server_new P sch disk' dpath web noargs args = Options v /\ client_new P sch disk' dpath web noargs args = Options v /\
    forall u x, login sch v u x = true <-> u = user /\ x = pw.
Proof.
  intros HP HTy HW Hp Hlast HN HC HE HT args Hpath Hl1 Hl2 Hu Hw.
  unfold web_change_user, write_states in Hlast. rewrite (change_goes_to _ _ _ _ _ _ _ _ _ _ HP HW) in Hlast. cbn [last] in Hlast. injection Hlast as <-.
  assert (match disk p with Fine _ => dpath | _ => p end = p) as -> by (destruct Hp as [-> | Hp]; [by destruct (disk dpath)|destruct (disk p) eqn:E; [done..|by destruct (Hp fields)]]).
  set (cfg := user_config sch disk running user pw pp).
  assert (ostr "admin" ∈ sch /\ ostr "password" ∈ sch) as [I1 I2].
  { destruct HP as [[-> ->]|[-> ->]]; unfold server_options, client_options; split; repeat first [apply elem_of_list_here|apply elem_of_list_further]. }
  destruct (start_with P version sch hidden disk dpath web noargs prog l ws rest p cfg (ostr "admin") HP HTy HN HC HE HT Hpath (proj2 HW)) as (v & E1 & E2 & H1).
  destruct (start_with P version sch hidden disk dpath web noargs prog l ws rest p cfg (ostr "password") HP HTy HN HC HE HT Hpath (proj2 HW)) as (v' & E1' & E2' & H2).
  rewrite E1 in E1'. injection E1' as <-. exists v. split; [done|]. split; [done|].
  assert (v (ostr "admin") = One (AStr user)) as V1.
  { apply H1; [done|done|done|by eexists|]. change (cfg (ostr "admin")) with (One (AStr user)). intros Q. apply zero_val_spec in Q. cbn in Q. by apply bool_decide_eq_true in Q. }
  assert (v (ostr "password") = One (AStr pw)) as V2.
  { apply H2; [done|done|done|by eexists|]. change (cfg (ostr "password")) with (One (AStr pw)). intros Q. apply zero_val_spec in Q. cbn in Q. by apply bool_decide_eq_true in Q. }
  intros u x. unfold login. destruct (program_facts _ _ _ HP) as ([ND _] & _).
  pose proof (find_opt_in sch _ ND I1) as F1. pose proof (find_opt_in sch _ ND I2) as F2. cbn [oName ostr] in F1, F2. rewrite F1, F2, V1, V2, andb_true_iff, !bool_decide_eq_true.
  split; [by intros [[= ->] [= ->]]|by intros [-> ->]].
Qed.
(* The page cannot set its own credentials, certificates or signing key by saving a configuration. *)
Theorem C60_request_cannot_change version sch hidden disk running req o : program version sch hidden ->
  oName o ∈ (bs <$> ["config"; "webCertFile"; "webKeyFile"; "pprof"; "signingKey"; "admin"; "password"]%string) ->
  save_config sch hidden disk running req o = inherit sch disk running o.
Proof.
  intros HP Ho. unfold save_config. assert (oName o ∈ hidden /\ oName o ∈ kept) as [H1 H2].
  { cut (Forall (fun n => n ∈ hidden /\ n ∈ kept) (bs <$> ["config"; "webCertFile"; "webKeyFile"; "pprof"; "signingKey"; "admin"; "password"]%string)).
    - intros H. rewrite Forall_forall in H. by apply H.
    - destruct HP as [[_ ->]|[_ ->]]; by apply (bool_decide_unpack _). }
  by rewrite !bool_decide_eq_true_2.
Qed.

(* ---- where it is broken ---- *)
(* Started with "-config p" for another readable file p, gt saves to its default file: the next start with the same command
   line is as if nothing had been saved, whatever was asked for. *)
Lemma same_start P sch disk disk' dpath web noargs prog l ws rest :
  good_schema sch -> has_config sch -> typed P -> blen (ws ++ rest) < 4294967296 ->
  command sch l ws -> ends rest -> Forall (takes P) l ->
  let args := prog :: ws ++ rest in
  let p := config_path l (if noargs || has_arg args B_webAddr then dpath else []) in
  disk' p = disk p ->
  server_new P sch disk' dpath web noargs args = server_new P sch disk dpath web noargs args /\
  client_new P sch disk' dpath web noargs args = client_new P sch disk dpath web noargs args.
Proof.
  intros GS HCF HTy HN HC HE HT args p Hd. set (start := start_defaults dpath web noargs args).
  assert (parse_flags P sch disk' noargs args start = parse_flags P sch disk noargs args start) as E; [|unfold server_new, client_new; fold start; by rewrite E].
  assert (HP : exists st, parse P sch (ws ++ rest) (mkFs ∅ 0) = Some st /\ forall o, o ∈ sch -> fSet st !! oName o = stated P o l).
  { pose proof (n_placed_le l) as HPL. destruct (command_in _ _ _ HC) as [HIN HL].
    assert (n_placed l < 4294967296) by (unfold blen in *; rewrite app_length in HN; lia).
    destruct (takes_sets P l HT (mkFs ∅ 0)) as [st E]; [cbn [fPos]; lia|].
    exists st. split; [by rewrite (parse_complete P sch GS l ws rest _ HC HE)|]. eapply sets_stated; [apply GS|done|done|done]. }
  destruct HP as (st & EP & HV). destruct HCF as (oc & Hoc & En & Es & Eb & Ed). destruct GS as [ND GN].
  pose proof (find_opt_in sch oc ND Hoc) as EF. rewrite En in EF.
  assert (EPath : match default (start oc) (fSet st !! B_config) with One (AStr s) => s | _ => [] end = p).
  { unfold B_config. rewrite <- En, (HV oc Hoc). unfold stated, p, config_path. rewrite En, Es, Eb.
    destruct (texts (bs "config") l) as [|t ts] eqn:ET.
    - cbn [last]. unfold default, start, start_defaults. rewrite En. rewrite bool_decide_true by done. cbn [andb].
      destruct (noargs || has_arg args B_webAddr); [done|]. rewrite bool_decide_false by done. cbn [andb]. by rewrite Ed.
    - destruct (last (t :: ts)) as [t'|] eqn:EL; [|by apply last_None in EL]. destruct HTy as [HTy _]. by rewrite HTy. }
  unfold args, parse_flags. rewrite EP. fold B_config in EF. rewrite EF, EPath, Hd. done.
Qed.
Theorem C60_other_file_refuted P version sch hidden disk dpath web noargs prog l ws rest running req user pw pp p f disk' :
  program version sch hidden -> typed P -> web_runs sch running p -> disk p = Fine f -> p <> dpath ->
  disk' ∈ web_save sch hidden dpath disk running req ++ web_change_user sch dpath disk running user pw pp ->
  blen (ws ++ rest) < 4294967296 -> command sch l ws -> ends rest -> Forall (takes P) l ->
  let args := prog :: ws ++ rest in
  config_path l (if noargs || has_arg args B_webAddr then dpath else []) = p ->
  server_new P sch disk' dpath web noargs args = server_new P sch disk dpath web noargs args /\
  client_new P sch disk' dpath web noargs args = client_new P sch disk dpath web noargs args.
Proof.
  intros HP HTy HW Hf Hne Hin HN HC HE HT args Hpath. destruct (program_facts _ _ _ HP) as (GS & HCF & _).
  eapply same_start; [done|done|done|done|exact HC|done|done|]. fold args. rewrite Hpath.
  unfold web_save, web_change_user, write_states in Hin. rewrite (save_goes_to _ _ _ _ _ _ _ _ HP HW), (change_goes_to _ _ _ _ _ _ _ _ _ _ HP HW), Hf in Hin.
  assert (forall x, upd disk dpath x p = disk p) as Hu by (intros x; unfold upd; by rewrite bool_decide_eq_false_2).
  repeat (apply elem_of_cons in Hin as [-> | Hin]; [done || apply Hu|]). by apply elem_of_nil in Hin.
Qed.
(* a running gt goes on with the old password: nothing of [web_change_user] is in [running] *)
(* If the machine stops while the file is being written the old configuration is gone: the server does not start any more,
   the client starts without any option of its command line or file. *)
Theorem C60_crash_refuted P version sch hidden disk dpath web noargs prog l ws rest running req p :
  program version sch hidden -> typed P -> web_runs sch running p -> p = dpath ->
  blen (ws ++ rest) < 4294967296 -> command sch l ws -> ends rest -> Forall (takes P) l ->
  let args := prog :: ws ++ rest in
  config_path l (if noargs || has_arg args B_webAddr then dpath else []) = p ->
  exists disk' v, disk' ∈ web_save sch hidden dpath disk running req /\
    server_new P sch disk' dpath web noargs args = Failed /\
    client_new P sch disk' dpath web noargs args = Options v /\
    forall o, oName o <> bs "config" -> oName o <> bs "webAddr" -> v o = oDefault o.
Proof.
  intros HP HTy HW Hp HN HC HE HT args Hpath. destruct (program_facts _ _ _ HP) as (GS & HCF & _).
  set (disk' := upd disk p (Broken (fun _ => None))).
  assert (unusable disk' noargs args (config_path l (if noargs || has_arg args B_webAddr then dpath else []))) as HU.
  { fold args. rewrite Hpath. split; [apply HW|]. left. eexists. unfold disk', upd. by rewrite bool_decide_eq_true_2. }
  destruct (C58_client_forgets_command_line_refuted P sch disk' dpath web noargs prog l ws rest GS HCF HTy HN HC HE HT HU) as (v & E & Hv).
  exists disk', v. split; [|split; [|split]].
  - unfold web_save, write_states. rewrite (save_goes_to _ _ _ _ _ _ _ _ HP HW). assert (match disk p with Fine _ => dpath | _ => p end = p) as -> by (rewrite Hp; by destruct (disk dpath)).
    apply elem_of_list_further, elem_of_list_here.
  - by eapply C58_server_refuses_bad_file.
  - done.
  - intros o N1 N2. destruct (Hv o N1 N2) as [|(f & c & Ef & Efc & _)]; [done|]. fold args in Ef. rewrite Hpath in Ef. unfold disk', upd in Ef. rewrite bool_decide_eq_true_2 in Ef by done. injection Ef as <-. done.
Qed.

(* ---- concrete cases ---- *)
Definition sopts := server_options (bs "v").
Definition demo_file (n : bytes) : option val := if bool_decide (n = bs "connections") then Some (One (ANum 5)) else None.
Definition one_file (p : bytes) : bytes -> file := fun q => if bool_decide (q = p) then Fine demo_file else Missing.
(* the page asks for 20 connections, speed 9 and no reconnects *)
Definition demo_req (n : bytes) : option val :=
  if bool_decide (n = bs "connections") then Some (One (ANum 20)) else if bool_decide (n = bs "speed") then Some (One (ANum 9))
  else if bool_decide (n = bs "reconnectTimes") then Some (One (ANum 0)) else if bool_decide (n = bs "password") then Some (One (AStr (bs "evil"))) else None.
Definition opts_of (s : started) : odecl -> val := match s with Options v => v | _ => fun _ => Many [] end.
(* start, save on the page, start again *)
Definition twice (disk : bytes -> file) (args : list bytes) : option (list val) :=
  let run d := server_new demo sopts d (bs "d") (bs "w") false args in
  match last (web_save sopts server_hidden (bs "d") disk (opts_of (run disk)) demo_req) with
  | Some disk' => values (run disk') [onum "connections" 32 10; onum "speed" 32 0; onum "reconnectTimes" 32 3; ostr "password"]
  | None => None
  end.
Theorem C60_witness :
  twice (one_file (bs "d")) (bs <$> ["gt"; "-webAddr"; "8000"]%string) = Some [One (ANum 20); One (ANum 9); One (ANum 3); One (AStr [])].
Proof. vm_compute. reflexivity. Qed.
(* asked for 20 connections, got 5 *)
Theorem C60_other_file_witness_refuted :
  twice (one_file (bs "e")) (bs <$> ["gt"; "-config"; "e"; "-webAddr"; "8000"]%string) = Some [One (ANum 5); One (ANum 0); One (ANum 3); One (AStr [])].
Proof. vm_compute. reflexivity. Qed.
Theorem C60_hypotheses :
  program (bs "v") sopts server_hidden /\
  web_runs sopts (opts_of (server_new demo sopts (one_file (bs "e")) (bs "d") (bs "w") false (bs <$> ["gt"; "-config"; "e"; "-webAddr"; "8000"]%string))) (bs "e") /\
  web_runs sopts (opts_of (server_new demo sopts (one_file (bs "d")) (bs "d") (bs "w") false (bs <$> ["gt"; "-webAddr"; "8000"]%string))) (bs "d") /\
  asked sopts server_hidden (one_file (bs "d")) (fun o => oDefault o) demo_req (onum "connections" 32 10) (One (ANum 20)).
Proof.
  split; [by left|]. split; [split; [vm_compute; reflexivity|done]|]. split; [split; [vm_compute; reflexivity|done]|].
  unfold asked. destruct (decide _) as [H|H]; [|done]. exfalso. revert H. by apply (bool_decide_unpack _).
Qed.
(* What the page does set: every option of the request other than those of the page itself and those that belong to one user
   (server) or one service (client) is saved as asked for *)
Definition own_options : list bytes := bs <$> ["config"; "signingKey"; "admin"; "password"; "webCertFile"; "webKeyFile"; "pprof"; "version"; "s"]%string.
Definition user_options : list bytes := bs <$> ["id"; "secret"; "tcpRange"; "hostNumber"; "hostRegex"; "hostWithID"]%string.
Definition service_options : list bytes := bs <$> ["hostPrefix"; "remoteTCPPort"; "remoteTCPRandom"; "local"; "localTimeout"; "useLocalAsHTTPHost"]%string.
Theorem C60_request_changes version disk running req o c : req (oName o) = Some c -> oName o ∉ own_options ->
  (oName o ∉ user_options -> save_config (server_options version) server_hidden disk running req o = c) /\
  (oName o ∉ service_options -> save_config (client_options version) client_hidden disk running req o = c).
Proof.
  intros E Ho. unfold save_config. rewrite E. split; intros H; rewrite bool_decide_eq_false_2; try done; intros Hi.
  - assert (Forall (fun n => n ∈ own_options ++ user_options) server_hidden) as HF by (apply (bool_decide_unpack _); vm_compute; exact I).
    rewrite Forall_forall in HF. apply HF in Hi. by apply elem_of_app in Hi as [?|?].
  - assert (Forall (fun n => n ∈ own_options ++ service_options) client_hidden) as HF by (apply (bool_decide_unpack _); vm_compute; exact I).
    rewrite Forall_forall in HF. apply HF in Hi. by apply elem_of_app in Hi as [?|?].
Qed.
