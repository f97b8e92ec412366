(* Props_Flags.v -- C58: the options a process runs with are the ones its command line and its config file state. *)
From Coq Require Import Strings.String.
From Verif Require Import GoBase FlagsModel FlagsProofs ServicesModel.
Local Open Scope N_scope.

(* ---- specification ---- *)
(* an integer option keeps what fits its field *)
Definition narrow (o : odecl) (v : val) : val :=
  match oBase o, v with BNum w, One (ANum n) => One (ANum (n mod 2 ^ w)) | _, _ => v end.
(* 0, "", false, 0s *)
Definition is_zero (v : val) : Prop :=
  v = One (AStr []) \/ v = One (ANum 0) \/ v = One (AInt 0) \/ v = One (ABool false) \/ v = One (ADur 0) \/ v = One (AFloat 0).
(* the value of o that command line [l], file [f] and starting value [start] call for *)
Definition called_for (P : parsers) (l : list (odecl * bytes)) (f : bytes -> option val) (start : val) (o : odecl) (v : val) : Prop :=
  match stated P o l with
  | Some c => v = narrow o c
  | None => match (if oFile o then f (oName o) else None) with Some c => v = c | None => v = start end
  end.
(* the path of the config file *)
Definition config_path (l : list (odecl * bytes)) (start : bytes) : bytes := default start (last (texts (bs "config") l)).
(* the file is there and readable, or no file is asked for *)
Definition file_says (disk : bytes -> file) (path : bytes) (f : bytes -> option val) : Prop :=
  (path = [] /\ f = fun _ => None) \/ (path <> [] /\ disk path = Fine f).
(* "config" is a plain string option, empty by default; the text of a string option is its value *)
Definition has_config (sch : list odecl) : Prop :=
  exists o, o ∈ sch /\ oName o = bs "config" /\ oShape o = SOne /\ oBase o = BStr /\ oDefault o = One (AStr []).
Definition typed (P : parsers) : Prop :=
  (forall t, strict P BStr t = Some (AStr t)) /\
  (forall t, exists s, scan P BStr t = AStr s) /\ (forall w t, exists n, scan P (BNum w) t = ANum n) /\
  (forall t, exists b, scan P BBool t = ABool b) /\ (forall t a, strict P BDur t = Some a -> exists d, a = ADur d).

(* ---- which command lines are accepted ---- *)
Lemma C58_parse_flags P sch disk noargs prog args cur : good_schema sch -> blen args < 4294967296 ->
  (parse_flags P sch disk noargs (prog :: args) cur <> None <->
   exists l ws rest, args = ws ++ rest /\ command sch l ws /\ ends rest /\ Forall (takes P) l).
Proof.
  intros GS HN. unfold parse_flags. split.
  - intros H. destruct (parse P sch args (mkFs ∅ 0)) as [st|] eqn:E; [|done]. apply parse_sound in E.
    destruct E as (l & ws & rest & E1 & E2 & E3 & E4). exists l, ws, rest. repeat (split; [done|]). by eapply sets_takes.
  - intros (l & ws & rest & -> & HC & HE & HT). rewrite (parse_complete P sch GS l ws rest _ HC HE).
    destruct (takes_sets P l HT (mkFs ∅ 0)) as [st ->]; [|by repeat case_match].
    cbn [fPos]. pose proof (n_placed_le l). destruct (command_in _ _ _ HC) as [_ HL].
    unfold blen in *. rewrite app_length in HN. lia.
Qed.
Theorem C58_accepted_exactly P sch disk dpath web noargs prog args : good_schema sch -> blen args < 4294967296 ->
  let accepted := exists l ws rest, args = ws ++ rest /\ command sch l ws /\ ends rest /\ Forall (takes P) l in
  (server_new P sch disk dpath web noargs (prog :: args) <> Exited <-> accepted) /\
  (client_new P sch disk dpath web noargs (prog :: args) <> Exited <-> accepted).
Proof.
  intros GS HN accepted. unfold accepted.
  rewrite <- !(C58_parse_flags P sch disk noargs prog args (start_defaults dpath web noargs (prog :: args)) GS HN).
  unfold server_new, client_new. split.
  - destruct (parse_flags _ _ _ _ _ _) as [[cur []]|]; done.
  - destruct (parse_flags _ _ _ _ _ _) as [[cur b]|]; done.
Qed.

(* ---- what the options are ---- *)
Lemma merge_spec cur o v : cur o = v -> (is_zero v -> merge cur o = oDefault o) /\ (~ is_zero v -> merge cur o = v).
Proof.
  unfold merge, is_zero. intros ->. destruct v as [a|l|l]; cbn [zero_val]; [|split; [|done]; by intros [|[|[|[|[|]]]]]..].
  destruct a as [s|n|z|b|d|n]; cbn [zero_atom].
  - case_bool_decide; [subst; split; [done|]; intros G; by destruct G; left|]. split; [|done]. intros [[= ->]|[|[|[|[|]]]]]; done.
  - destruct (n =? 0) eqn:E; [apply N.eqb_eq in E; subst; split; [done|]; intros G; destruct G; by right; left|].
    apply N.eqb_neq in E. split; [|done]. intros [|[[= ->]|[|[|[|]]]]]; done.
  - destruct (z =? 0)%Z eqn:E; [apply Z.eqb_eq in E; subst; split; [done|]; intros G; destruct G; by right; right; left|].
    apply Z.eqb_neq in E. split; [|done]. intros [|[|[[= ->]|[|[|]]]]]; done.
  - destruct b; cbn [negb]; [split; [|done]; by intros [|[|[|[|[|]]]]]|split; [done|]; intros G; destruct G; by do 3 right; left].
  - destruct (d =? 0)%Z eqn:E; [apply Z.eqb_eq in E; subst; split; [done|]; intros G; destruct G; by do 4 right; left|].
    apply Z.eqb_neq in E. split; [|done]. intros [|[|[|[|[[= ->]|]]]]]; done.
  - destruct (n =? 0) eqn:E; [apply N.eqb_eq in E; subst; split; [done|]; intros G; destruct G; by do 5 right|].
    apply N.eqb_neq in E. split; [|done]. intros [|[|[|[|[|[= ->]]]]]]; done.
Qed.

(* Every accepted command line with a readable config file: the command line wins over the file, the file over the
   starting value; then a zero is replaced by the default. *)
Theorem C58_values P sch disk dpath web noargs prog l ws rest f :
  good_schema sch -> has_config sch -> typed P -> blen (ws ++ rest) < 4294967296 ->
  command sch l ws -> ends rest -> Forall (takes P) l ->
  let args := prog :: ws ++ rest in
  let start := start_defaults dpath web noargs args in
  file_says disk (config_path l (if noargs || has_arg args B_webAddr then dpath else [])) f ->
  exists v, server_new P sch disk dpath web noargs args = Options v /\ client_new P sch disk dpath web noargs args = Options v /\
    forall o, o ∈ sch -> exists c, called_for P l f (start o) o c /\
      (is_zero c -> v o = oDefault o) /\ (~ is_zero c -> v o = c).
Proof.
  intros GS HCF HTy HN HC HE HT args start HF.
  assert (HP : exists st, sets P l (mkFs ∅ 0) = Some st /\ parse P sch (ws ++ rest) (mkFs ∅ 0) = Some st /\
    forall o, o ∈ sch -> fSet st !! oName o = stated P o l).
  { pose proof (n_placed_le l) as HPL. destruct (command_in _ _ _ HC) as [HIN HL].
    assert (n_placed l < 4294967296) by (unfold blen in *; rewrite app_length in HN; lia).
    destruct (takes_sets P l HT (mkFs ∅ 0)) as [st E]; [cbn [fPos]; lia|].
    exists st. split; [done|]. split; [by rewrite (parse_complete P sch GS l ws rest _ HC HE)|].
    eapply sets_stated; [apply GS|done|done|done]. }
  destruct HP as (st & _ & EP & HV).
  destruct HCF as (oc & Hoc & En & Es & Eb & Ed). destruct GS as [ND GN].
  pose proof (find_opt_in sch oc ND Hoc) as EF. rewrite En in EF.
  assert (EPath : match default (start oc) (fSet st !! B_config) with One (AStr s) => s | _ => [] end =
                  config_path l (if noargs || has_arg args B_webAddr then dpath else [])).
  { unfold B_config. rewrite <- En, (HV oc Hoc). unfold stated, config_path. rewrite En, Es, Eb.
    destruct (texts (bs "config") l) as [|t ts] eqn:ET.
    - cbn [last]. unfold default, start, start_defaults. rewrite En. rewrite bool_decide_true by done. cbn [andb].
      destruct (noargs || has_arg args B_webAddr); [done|]. rewrite bool_decide_false by done. cbn [andb]. by rewrite Ed.
    - destruct (last (t :: ts)) as [t'|] eqn:EL; [|by apply last_None in EL]. destruct HTy as [HTy _]. by rewrite HTy. }
  set (copied := fun cur => fun o => match fSet st !! oName o with Some v => convert o v | None => cur o end : val).
  assert (EPF : exists cur, parse_flags P sch disk noargs args start = Some (cur, false) /\
    forall o, cur o = copied (with_file f start) o).
  { unfold args, parse_flags. rewrite EP. fold B_config in EF. rewrite EF. rewrite EPath. fold args.
    destruct HF as [[EZ ->]|[Hne HF]].
    - rewrite EZ. eexists. split; [reflexivity|]. intros o. unfold copied, with_file. destruct (fSet st !! oName o); [done|].
      by destruct (oFile o).
    - rewrite HF. destruct (config_path _ _); [done|]. eexists. split; [reflexivity|]. done. }
  destruct EPF as (cur & EPF & Hcur).
  exists (merge cur). unfold server_new, client_new. fold start. rewrite EPF. split; [done|]. split; [done|].
  intros o Ho. exists (cur o). split; [|by apply merge_spec].
  unfold called_for. rewrite Hcur. unfold copied. rewrite (HV o Ho). destruct (stated P o l) as [v|].
  - unfold convert, narrow. done.
  - unfold with_file. destruct (oFile o); [|done]. by destruct (f (oName o)).
Qed.

(* The promise, for values that are not zero and that fit the field. *)
Theorem C58_command_line_wins P sch disk dpath web noargs prog l ws rest f o c :
  good_schema sch -> has_config sch -> typed P -> blen (ws ++ rest) < 4294967296 ->
  command sch l ws -> ends rest -> Forall (takes P) l ->
  let args := prog :: ws ++ rest in
  file_says disk (config_path l (if noargs || has_arg args B_webAddr then dpath else [])) f ->
  o ∈ sch -> stated P o l = Some c -> narrow o c = c -> ~ is_zero c ->
  exists v, server_new P sch disk dpath web noargs args = Options v /\ client_new P sch disk dpath web noargs args = Options v /\ v o = c.
Proof.
  intros GS HCF HTy HN HC HE HT args HF Ho HS HW HZ.
  destruct (C58_values P sch disk dpath web noargs prog l ws rest f GS HCF HTy HN HC HE HT HF) as (v & E1 & E2 & HV).
  exists v. split; [done|]. split; [done|]. destruct (HV o Ho) as (c' & HC' & _ & HNZ). unfold called_for in HC'.
  rewrite HS, HW in HC'. subst c'. by apply HNZ.
Qed.
Theorem C58_file_next P sch disk dpath web noargs prog l ws rest f o c :
  good_schema sch -> has_config sch -> typed P -> blen (ws ++ rest) < 4294967296 ->
  command sch l ws -> ends rest -> Forall (takes P) l ->
  let args := prog :: ws ++ rest in
  file_says disk (config_path l (if noargs || has_arg args B_webAddr then dpath else [])) f ->
  o ∈ sch -> texts (oName o) l = [] -> oFile o = true -> f (oName o) = Some c -> ~ is_zero c ->
  exists v, server_new P sch disk dpath web noargs args = Options v /\ client_new P sch disk dpath web noargs args = Options v /\ v o = c.
Proof.
  intros GS HCF HTy HN HC HE HT args HF Ho HS HO HW HZ.
  destruct (C58_values P sch disk dpath web noargs prog l ws rest f GS HCF HTy HN HC HE HT HF) as (v & E1 & E2 & HV).
  exists v. split; [done|]. split; [done|]. destruct (HV o Ho) as (c' & HC' & _ & HNZ). unfold called_for, stated in HC'.
  rewrite HS, HO, HW in HC'. subst c'. by apply HNZ.
Qed.
(* said nowhere: the documented default, but for the two options whose default depends on the way gt was started *)
Theorem C58_default_last P sch disk dpath web noargs prog l ws rest f o :
  good_schema sch -> has_config sch -> typed P -> blen (ws ++ rest) < 4294967296 ->
  command sch l ws -> ends rest -> Forall (takes P) l ->
  let args := prog :: ws ++ rest in
  file_says disk (config_path l (if noargs || has_arg args B_webAddr then dpath else [])) f ->
  o ∈ sch -> texts (oName o) l = [] -> f (oName o) = None -> oName o <> bs "config" -> oName o <> bs "webAddr" ->
  exists v, server_new P sch disk dpath web noargs args = Options v /\ client_new P sch disk dpath web noargs args = Options v /\ v o = oDefault o.
Proof.
  intros GS HCF HTy HN HC HE HT args HF Ho HS HW H1 H2.
  destruct (C58_values P sch disk dpath web noargs prog l ws rest f GS HCF HTy HN HC HE HT HF) as (v & E1 & E2 & HV).
  exists v. split; [done|]. split; [done|]. destruct (HV o Ho) as (c' & HC' & HZ & HNZ). unfold called_for, stated in HC'.
  rewrite HS, HW in HC'. assert (c' = oDefault o) as ->.
  { transitivity (start_defaults dpath web noargs args o); [by destruct (oFile o)|].
    unfold start_defaults. rewrite bool_decide_false by done. by rewrite bool_decide_false. }
  assert (HD : Decision (is_zero (oDefault o))) by (unfold is_zero; apply _).
  destruct HD as [HD|HD]; [by apply HZ|by apply HNZ].
Qed.

(* ---- the service options keep their order: what C41 starts from is what the command line says ---- *)
Definition a_str (a : atom) : bytes := match a with AStr s => s | _ => [] end.
Definition a_num (a : atom) : N := match a with ANum n => n | _ => 0 end.
Definition a_bool (a : atom) : bool := match a with ABool b => b | _ => false end.
Definition a_dur (a : atom) : Z := match a with ADur d => d | _ => 0%Z end.
(* the service options of a command line, in the order they are written *)
Definition service_opt (P : parsers) (a : odecl * bytes) : option opt :=
  let n := oName a.1 in
  if bool_decide (n = bs "local") then Some (OLocal (a_str (scan P BStr a.2)))
  else if bool_decide (n = bs "remoteTCPPort") then Some (OPort (a_num (scan P (BNum 16) a.2)))
  else if bool_decide (n = bs "remoteTCPRandom") then Some (ORandom (a_bool (scan P BBool a.2)))
  else if bool_decide (n = bs "localTimeout") then Some (OTimeout (a_dur (default (ADur 0) (strict P BDur a.2))))
  else if bool_decide (n = bs "useLocalAsHTTPHost") then Some (OUseLocal (a_bool (scan P BBool a.2)))
  else if bool_decide (n = bs "hostPrefix") then Some (OPrefix (a_str (scan P BStr a.2)))
  else None.
Definition as_placed {A} (mk : A -> atom) (l : list (position A)) : val := Placed ((fun p => (mk (pValue p), pPos p)) <$> l).
Definition service_options : list odecl :=
  [ oplaced "hostPrefix" BStr; oplaced "remoteTCPPort" (BNum 16); oplaced "remoteTCPRandom" BBool;
    oplaced "local" BStr; oplaced "localTimeout" BDur; oplaced "useLocalAsHTTPHost" BBool ].
Lemma client_split version :
  Forall (fun o => (oShape o = SPlaced /\ o ∈ service_options) \/ (oShape o <> SPlaced /\ oName o ∉ (oName <$> service_options)))
    (client_options version).
Proof.
  unfold client_options.
  repeat (apply Forall_cons; split; [first [left; split; [reflexivity|]; unfold service_options; repeat first [apply elem_of_list_here|apply elem_of_list_further]
    | right; split; [by cbn|]; apply (bool_decide_unpack _); vm_compute; reflexivity]|]).
  constructor.
Qed.

Lemma service_opt_client P version a : a.1 ∈ client_options version ->
  (is_placed a = true -> a.1 ∈ service_options) /\ (is_placed a = false -> service_opt P a = None).
Proof.
  intros Ha. pose proof (client_split version) as HF. rewrite Forall_forall in HF. destruct (HF _ Ha) as [[E H]|[E H]]; unfold is_placed.
  - rewrite E. done.
  - split; [by destruct (oShape a.1)|]. intros _. unfold service_opt.
    change (oName <$> service_options) with [bs "hostPrefix"; bs "remoteTCPPort"; bs "remoteTCPRandom"; bs "local"; bs "localTimeout"; bs "useLocalAsHTTPHost"] in H.
    rewrite !not_elem_of_cons in H. destruct H as (H1 & H2 & H3 & H4 & H5 & H6 & _).
    by repeat rewrite bool_decide_false by done.
Qed.
Lemma collect_numbered {A} P (f : opt -> option A) (mk : A -> atom) n b l :
  (forall a, a ∈ l -> is_placed a = false -> service_opt P a = None) ->
  (forall a, a ∈ l -> is_placed a = true -> exists t, service_opt P a = Some t /\
     (oName a.1 = n -> exists x, f t = Some x /\ mk x = means P b a.2) /\ (oName a.1 <> n -> f t = None)) ->
  forall k, (fun x => (means P b x.1, x.2)) <$> numbered k n l =
       (fun p => (mk (pValue p), pPos p)) <$> collect f k (omap (service_opt P) l).
Proof.
  induction l as [|a l IH]; intros H1 H2 k; [done|]. cbn [numbered].
  assert (IH' := IH (fun a Ha => H1 a (elem_of_list_further _ _ _ Ha)) (fun a Ha => H2 a (elem_of_list_further _ _ _ Ha))). clear IH.
  change (omap (service_opt P) (a :: l)) with (match service_opt P a with Some y => y :: omap (service_opt P) l | None => omap (service_opt P) l end).
  destruct (is_placed a) eqn:E.
  - destruct (H2 a (elem_of_list_here _ _) E) as (t & Et & G1 & G2). rewrite Et. cbn [collect].
    destruct (decide (oName a.1 = n)) as [En|En].
    + rewrite bool_decide_true by done. destruct (G1 En) as (x & -> & Hm). cbn [app]. rewrite fmap_cons, fmap_cons. cbn [fst snd pValue pPos].
      by rewrite Hm, IH'.
    + rewrite bool_decide_false by done. rewrite (G2 En). cbn [app]. apply IH'.
  - rewrite (H1 a (elem_of_list_here _ _) E). apply IH'.
Qed.

Lemma placed_value P l o v start f c : oShape o = SPlaced -> oFile o = false -> start = Placed [] ->
  called_for P l f start o c -> (is_zero c -> v = oDefault o) /\ (~ is_zero c -> v = c) ->
  v = Placed ((fun x => (means P (oBase o) x.1, x.2)) <$> numbered 0 (oName o) l).
Proof.
  intros Hs Hf -> HC [_ HV]. unfold called_for, stated in HC. rewrite Hs, Hf in HC.
  assert (HN : forall k, texts (oName o) l = [] -> numbered k (oName o) l = []).
  { clear. induction l as [|x l IH]; intros k; [done|]. rewrite texts_cons. cbn [numbered].
    destruct (decide (oName x.1 = oName o)); [done|]. intros H. rewrite bool_decide_false by done.
    destruct (is_placed x); by rewrite IH. }
  assert (EC : c = Placed ((fun x => (means P (oBase o) x.1, x.2)) <$> numbered 0 (oName o) l)).
  { destruct (texts (oName o) l) eqn:ET; [by rewrite HN|]. rewrite HC. unfold narrow. by destruct (oBase o). }
  rewrite <- EC. apply HV. rewrite EC. unfold is_zero. by intros [|[|[|[|[|]]]]].
Qed.

Theorem C58_services P version disk dpath web noargs prog l ws rest f :
  good_schema (client_options version) -> typed P -> blen (ws ++ rest) < 4294967296 ->
  command (client_options version) l ws -> ends rest -> Forall (takes P) l ->
  let args := prog :: ws ++ rest in
  file_says disk (config_path l (if noargs || has_arg args B_webAddr then dpath else [])) f ->
  exists v, client_new P (client_options version) disk dpath web noargs args = Options v /\
    let toks := omap (service_opt P) l in
    v (oplaced "local" BStr) = as_placed AStr (collect as_local 0 toks) /\
    v (oplaced "remoteTCPPort" (BNum 16)) = as_placed ANum (collect as_port 0 toks) /\
    v (oplaced "remoteTCPRandom" BBool) = as_placed ABool (collect as_random 0 toks) /\
    v (oplaced "localTimeout" BDur) = as_placed ADur (collect as_timeout 0 toks) /\
    v (oplaced "useLocalAsHTTPHost" BBool) = as_placed ABool (collect as_uselocal 0 toks) /\
    v (oplaced "hostPrefix" BStr) = as_placed AStr (collect as_prefix 0 toks).
Proof.
  intros GS HTy HN HC HE HT args HF.
  assert (HCF : has_config (client_options version)).
  { exists (nofile (ostr "config")). split; [apply elem_of_list_here|]. done. }
  destruct (C58_values P _ disk dpath web noargs prog l ws rest f GS HCF HTy HN HC HE HT HF) as (v & _ & E2 & HV).
  exists v. split; [done|]. cbv zeta.
  destruct (command_in _ _ _ HC) as [HIN _]. rewrite Forall_forall in HIN.
  destruct HTy as (_ & T1 & T2 & T3 & T4).
  assert (HNone : forall a, a ∈ l -> is_placed a = false -> service_opt P a = None).
  { intros a Ha. by apply (service_opt_client P version a (HIN a Ha)). }
  assert (HG : forall n b, oplaced n b ∈ client_options version -> bs n <> bs "config" -> bs n <> bs "webAddr" ->
     v (oplaced n b) = Placed ((fun x => (means P b x.1, x.2)) <$> numbered 0 (bs n) l)).
  { intros n b Ho N1 N2. destruct (HV _ Ho) as (c & G1 & G2). change b with (oBase (oplaced n b)) at 2. change (bs n) with (oName (oplaced n b)).
    eapply placed_value; [done|done| |exact G1|exact G2]. unfold start_defaults. cbn [oName oplaced].
    rewrite bool_decide_false by done. rewrite bool_decide_false by done. done. }
  assert (HIn : forall o, o ∈ service_options -> o ∈ client_options version).
  { intros o Ho. unfold client_options. do 12 apply elem_of_list_further. unfold service_options in Ho.
    change (o ∈ service_options ++ drop 18 (client_options version)). apply elem_of_app. by left. }
  unfold as_placed.
  assert (S1 : forall t, service_opt P (oplaced "local" BStr, t) = Some (OLocal (a_str (scan P BStr t)))) by reflexivity.
  assert (S2 : forall t, service_opt P (oplaced "remoteTCPPort" (BNum 16), t) = Some (OPort (a_num (scan P (BNum 16) t)))) by reflexivity.
  assert (S3 : forall t, service_opt P (oplaced "remoteTCPRandom" BBool, t) = Some (ORandom (a_bool (scan P BBool t)))) by reflexivity.
  assert (S4 : forall t, service_opt P (oplaced "localTimeout" BDur, t) = Some (OTimeout (a_dur (default (ADur 0) (strict P BDur t))))) by reflexivity.
  assert (S5 : forall t, service_opt P (oplaced "useLocalAsHTTPHost" BBool, t) = Some (OUseLocal (a_bool (scan P BBool t)))) by reflexivity.
  assert (S6 : forall t, service_opt P (oplaced "hostPrefix" BStr, t) = Some (OPrefix (a_str (scan P BStr t)))) by reflexivity.
  repeat split.
  all: rewrite HG; [|apply HIn; unfold service_options; repeat first [apply elem_of_list_here|apply elem_of_list_further]|done|done];
    f_equal; apply collect_numbered; [exact HNone|];
    intros a Ha HP; pose proof (proj1 (service_opt_client P version a (HIN a Ha)) HP) as Hin;
    unfold service_options in Hin; rewrite !elem_of_cons in Hin;
    destruct a as [ao t]; cbn [fst snd] in *;
    destruct Hin as [-> |[-> |[-> |[-> |[-> |[-> |Hin]]]]]]; [..|by apply elem_of_nil in Hin];
    (eexists; split; [first [apply S1|apply S2|apply S3|apply S4|apply S5|apply S6]|split; [|done]]);
    cbn [oName oplaced]; intros Eq; first [discriminate Eq|idtac].
  all: clear Eq; eexists; split; [reflexivity|]; unfold means.
  - destruct (T1 t) as [x ->]. done.
  - destruct (T2 16 t) as [x ->]. done.
  - destruct (T3 t) as [x ->]. done.
  - destruct (strict P BDur t) as [x|] eqn:E; [|done]. destruct (T4 _ _ E) as [d ->]. done.
  - destruct (T3 t) as [x ->]. done.
  - destruct (T1 t) as [x ->]. done.
Qed.

(* ---- a config file that cannot be used ---- *)
Definition unusable (disk : bytes -> file) (noargs : bool) (args : list bytes) (path : bytes) : Prop :=
  path <> [] /\ ((exists f, disk path = Broken f) \/ (disk path = Missing /\ noargs = false /\ B_webAddr ∉ args)).
Lemma config_path_spec P sch l st (cur : odecl -> val) start : typed P -> has_config sch -> NoDup (oName <$> sch) ->
  (forall o, o ∈ sch -> fSet st !! oName o = stated P o l) -> (forall o, oName o = bs "config" -> cur o = One (AStr start) \/ (cur o = oDefault o /\ start = [])) ->
  exists oc, find_opt sch B_config = Some oc /\
  match default (cur oc) (fSet st !! B_config) with One (AStr s) => s | _ => [] end = config_path l start.
Proof.
  intros [HTy _] (oc & Hoc & En & Es & Eb & Ed) ND HV Hcur. exists oc.
  pose proof (find_opt_in sch oc ND Hoc) as EF. rewrite En in EF. split; [done|].
  unfold B_config. rewrite <- En, (HV oc Hoc). unfold stated, config_path. rewrite En, Es, Eb.
  destruct (texts (bs "config") l) as [|t ts] eqn:ET.
  - cbn [last]. unfold default. destruct (Hcur oc En) as [-> |[-> ->]]; [done|]. by rewrite Ed.
  - destruct (last (t :: ts)) as [t'|] eqn:EL; [|by apply last_None in EL]. by rewrite HTy.
Qed.
Lemma has_arg_spec args a : has_arg args a = true <-> a ∈ args.
Proof.
  unfold has_arg. rewrite existsb_exists. split.
  - intros (x & H1 & H2). apply bool_decide_eq_true in H2. subst. by apply elem_of_list_In.
  - intros H. exists a. split; [by apply elem_of_list_In|by apply bool_decide_eq_true].
Qed.
Lemma parse_flags_unusable P sch disk dpath web noargs prog l ws rest :
  good_schema sch -> has_config sch -> typed P -> blen (ws ++ rest) < 4294967296 ->
  command sch l ws -> ends rest -> Forall (takes P) l ->
  let args := prog :: ws ++ rest in
  let path := config_path l (if noargs || has_arg args B_webAddr then dpath else []) in
  unusable disk noargs args path ->
  exists cur, parse_flags P sch disk noargs args (start_defaults dpath web noargs args) = Some (cur, true) /\
    forall o, cur o = start_defaults dpath web noargs args o \/
         (exists f c, disk path = Broken f /\ oFile o = true /\ f (oName o) = Some c /\ cur o = c).
Proof.
  intros GS HCF HTy HN HC HE HT args path [HP HU].
  pose proof (n_placed_le l) as HPL. destruct (command_in _ _ _ HC) as [HIN HL].
  assert (HN2 : n_placed l < 4294967296) by (unfold blen in *; rewrite app_length in HN; lia).
  destruct (takes_sets P l HT (mkFs ∅ 0)) as [st E]; [cbn [fPos]; lia|].
  destruct (sets_stated P sch l st (proj1 GS) HIN HN2 E) as [_ HV].
  destruct (config_path_spec P sch l st (start_defaults dpath web noargs args) (if noargs || has_arg args B_webAddr then dpath else [])
     HTy HCF (proj1 GS) HV) as (oc & EF & EP).
  { intros o En. unfold start_defaults. rewrite En, bool_decide_true by done. cbn [andb].
    destruct (noargs || has_arg args B_webAddr); [by left|right]. by rewrite bool_decide_false. }
  unfold args, parse_flags. rewrite (parse_complete P sch GS l ws rest _ HC HE), E, EF. fold args. rewrite EP. fold path.
  destruct path as [|c0 path'] eqn:EPA; [done|]. rewrite <- EPA in *. destruct HU as [[f EB]|(EM & En & Ha)].
  - rewrite EB. eexists. split; [reflexivity|]. intros o. unfold with_file. destruct (oFile o) eqn:EO; [|by left].
    destruct (f (oName o)) as [c|] eqn:Ef; [|by left]. right. exists f, c. done.
  - rewrite EM, En. destruct (has_arg args B_webAddr) eqn:EH; [by apply has_arg_spec in EH|]. cbn [orb].
    eexists. split; [reflexivity|]. by left.
Qed.
(* the server refuses to start *)
Theorem C58_server_refuses_bad_file P sch disk dpath web noargs prog l ws rest :
  good_schema sch -> has_config sch -> typed P -> blen (ws ++ rest) < 4294967296 ->
  command sch l ws -> ends rest -> Forall (takes P) l ->
  let args := prog :: ws ++ rest in
  unusable disk noargs args (config_path l (if noargs || has_arg args B_webAddr then dpath else [])) ->
  server_new P sch disk dpath web noargs args = Failed.
Proof.
  intros GS HCF HTy HN HC HE HT args HU.
  destruct (parse_flags_unusable P sch disk dpath web noargs prog l ws rest GS HCF HTy HN HC HE HT HU) as (cur & EF & _).
  unfold server_new. fold args in EF. by rewrite EF.
Qed.
(* the client starts all the same, and without anything its command line says: every option is the default or what could
   be read of the file *)
Theorem C58_client_forgets_command_line_refuted P sch disk dpath web noargs prog l ws rest :
  good_schema sch -> has_config sch -> typed P -> blen (ws ++ rest) < 4294967296 ->
  command sch l ws -> ends rest -> Forall (takes P) l ->
  let args := prog :: ws ++ rest in
  let path := config_path l (if noargs || has_arg args B_webAddr then dpath else []) in
  unusable disk noargs args path ->
  exists v, client_new P sch disk dpath web noargs args = Options v /\
    forall o, oName o <> bs "config" -> oName o <> bs "webAddr" ->
      v o = oDefault o \/ (exists f c, disk path = Broken f /\ f (oName o) = Some c /\ v o = c).
Proof.
  intros GS HCF HTy HN HC HE HT args path HU.
  destruct (parse_flags_unusable P sch disk dpath web noargs prog l ws rest GS HCF HTy HN HC HE HT HU) as (cur & EF & HO).
  unfold client_new. fold args in EF. rewrite EF. eexists. split; [reflexivity|]. intros o N1 N2.
  unfold merge. destruct (zero_val (cur o)); [by left|]. destruct (HO o) as [E|(f & c & E1 & E2 & E3 & E4)].
  - left. rewrite E. unfold start_defaults. rewrite bool_decide_false by done. by rewrite bool_decide_false.
  - right. exists f, c. done.
Qed.

(* ---- concrete parsers: decimal numbers, "true"/"false", seconds; and the way fmt.Sscanf reads a word *)
Fixpoint dec (acc : N) (t : bytes) : option N :=
  match t with
  | [] => Some acc
  | c :: t => if is_digit c then dec (acc * 10 + (c - 48)) t else None
  end.
Fixpoint digits (t : bytes) : bytes := match t with c :: t => if is_digit c then c :: digits t else [] | [] => [] end.
Fixpoint word (t : bytes) : bytes := match t with c :: t => if c =? 32 then [] else c :: word t | [] => [] end.
Fixpoint skip (t : bytes) : bytes := match t with c :: t' => if c =? 32 then skip t' else t | [] => [] end.
Definition demo_strict (b : base) (t : bytes) : option atom :=
  match b with
  | BStr => Some (AStr t)
  | BNum _ => match t with [] => None | _ => ANum <$> dec 0 t end
  | BBool => if bool_decide (t = bs "true") then Some (ABool true) else if bool_decide (t = bs "false") then Some (ABool false) else None
  | BDur => match t with [] => None | _ => (fun n => ADur (Z.of_N n * sec)) <$> dec 0 (removelast t) end
  | _ => None
  end.
Definition demo_scan (b : base) (t : bytes) : atom :=
  match b with
  | BStr => AStr (word (skip t))
  | BNum w => ANum (match digits (skip t) with [] => 0 | ds => match dec 0 ds with Some n => if n <? 2 ^ w then n else 0 | None => 0 end end)
  | BBool => ABool (bool_decide (word (skip t) = bs "true"))
  | BDur => ADur 0
  | BInt => AInt 0
  | BFloat => AFloat 0
  end.
Definition demo := mkParsers demo_strict demo_scan.
Lemma demo_typed : typed demo.
Proof.
  split; [done|]. split; [by eexists|]. split; [by eexists|]. split; [by eexists|].
  intros t a. cbn. destruct t; [done|]. destruct (dec 0 _); [|done]. cbn. intros [= <-]. by eexists.
Qed.
Theorem C58_schemas version :
  good_schema (client_options version) /\ has_config (client_options version) /\
  good_schema (server_options version) /\ has_config (server_options version).
Proof.
  assert (HG : forall sch, bool_decide (NoDup (oName <$> sch)) = true ->
     forallb (fun n => bool_decide (n <> []) && bool_decide (head n <> Some 45) && bool_decide (61 ∉ n)) (oName <$> sch) = true -> good_schema sch).
  { intros sch H1 H2. split; [by apply bool_decide_eq_true in H1|]. apply Forall_forall. intros o Ho.
    rewrite forallb_forall in H2. specialize (H2 (oName o)).
    assert (HI : In (oName o) (oName <$> sch)) by (apply elem_of_list_In; by apply elem_of_list_fmap_1).
    specialize (H2 HI). apply andb_prop in H2. destruct H2 as [H2 H3]. apply andb_prop in H2. destruct H2 as [H2 H4].
    apply bool_decide_eq_true in H2, H3, H4. done. }
  split; [apply HG; vm_compute; reflexivity|]. split; [exists (nofile (ostr "config")); split; [apply elem_of_list_here|done]|].
  split; [apply HG; vm_compute; reflexivity|]. exists (nofile (ostr "config")); split; [apply elem_of_list_here|done].
Qed.

(* gt-server -config c.yaml --connections=20 -id a -secret b -id c -hostWithID -speed 9 -- rest, with a file that says
   "connections: 5" and "addr: x": the two ids in order, connections from the command line, addr from the file, the
   others by default *)
Definition demo_disk (p : bytes) : file :=
  if bool_decide (p = bs "c.yaml") then
    Fine (fun n => if bool_decide (n = bs "connections") then Some (One (ANum 5))
                   else if bool_decide (n = bs "addr") then Some (One (AStr (bs "x"))) else None)
  else if bool_decide (p = bs "bad.yaml") then Broken (fun n => None)
  else Missing.
Definition values (s : started) (os : list odecl) : option (list val) :=
  match s with Options v => Some (v <$> os) | _ => None end.
Theorem C58_witness :
  values (server_new demo (server_options (bs "v")) demo_disk (bs "d") (bs "w") false
    (bs <$> ["gt"; "-config"; "c.yaml"; "--connections=20"; "-id"; "a"; "-secret"; "b"; "-id"; "c"; "-hostWithID"; "-speed"; "9"; "--"; "-id"; "e"]%string))
    [onum "connections" 32 10; nofile (ostrs "id"); nofile (oflag "hostWithID"); onum "speed" 32 0; ostr "addr"; onum "reconnectTimes" 32 3] =
  Some [One (ANum 20); Many [AStr (bs "a"); AStr (bs "c")]; One (ABool true); One (ANum 9); One (AStr (bs "x")); One (ANum 3)].
Proof. vm_compute. reflexivity. Qed.
Theorem C58_witness_command :
  exists l, command (server_options (bs "v")) l (bs <$> ["-config"; "c.yaml"; "--connections=20"; "-hostWithID"]%string) /\
    Forall (takes demo) l /\ ends [bs "--"; bs "x"].
Proof.
  exists [(nofile (ostr "config"), bs "c.yaml"); (onum "connections" 32 10, bs "20"); (nofile (oflag "hostWithID"), bs "true")].
  split; [|split; [|by left]].
  - change (bs <$> ["-config"; "c.yaml"; "--connections=20"; "-hostWithID"]%string) with
      ([bs "-" ++ bs "config"; bs "c.yaml"] ++ [bs "--" ++ bs "connections" ++ bs "=" ++ bs "20"] ++ [bs "-" ++ bs "hostWithID"] ++ []).
    constructor; [unfold server_options; repeat first [apply elem_of_list_here|apply elem_of_list_further]|apply (W_next (nofile (ostr "config"))); [by left|done]|].
    constructor; [unfold server_options; repeat first [apply elem_of_list_here|apply elem_of_list_further]|apply (W_equals (onum "connections" 32 10)); by right|].
    constructor; [unfold server_options; repeat first [apply elem_of_list_here|apply elem_of_list_further]|apply (W_switch (nofile (oflag "hostWithID"))); [by left|done]|].
    constructor.
  - repeat constructor; cbn; by eexists.
Qed.

(* ---- where the promise is broken ---- *)
(* "-remoteIdleConnections 0" is the default 1 *)
Theorem C58_zero_refuted :
  let o := onum "remoteIdleConnections" 64 1 in
  values (client_new demo (client_options (bs "v")) demo_disk (bs "d") (bs "w") false
    (bs <$> ["gt"; "-remoteIdleConnections"; "0"]%string)) [o] = Some [One (ANum 1)].
Proof. vm_compute. reflexivity. Qed.
(* "-webrtcMinPort 65537" is accepted and means 1 *)
Theorem C58_truncated_refuted :
  let o := onum "webrtcMinPort" 16 0 in
  values (client_new demo (client_options (bs "v")) demo_disk (bs "d") (bs "w") false
    (bs <$> ["gt"; "-webrtcMinPort"; "65537"]%string)) [o] = Some [One (ANum 1)].
Proof. vm_compute. reflexivity. Qed.
(* "-allowAnyClient false -id u -secret s" allows any client and drops the user *)
Theorem C58_operand_refuted :
  values (server_new demo (server_options (bs "v")) demo_disk (bs "d") (bs "w") false
    (bs <$> ["gt"; "-allowAnyClient"; "false"; "-id"; "u"; "-secret"; "s"]%string)) [oflag "allowAnyClient"; nofile (ostrs "id")] =
  Some [One (ABool true); Many []].
Proof. vm_compute. reflexivity. Qed.
(* "-remoteTCPPort http" and "-remoteTCPPort 70000" are accepted and mean 0 *)
Theorem C58_garbage_refuted :
  values (client_new demo (client_options (bs "v")) demo_disk (bs "d") (bs "w") false
    (bs <$> ["gt"; "-remoteTCPPort"; "http"; "-remoteTCPPort"; "70000"]%string)) [oplaced "remoteTCPPort" (BNum 16)] =
  Some [Placed [(ANum 0, 1); (ANum 0, 2)]].
Proof. vm_compute. reflexivity. Qed.
(* "-config bad.yaml -id me": the client starts with an empty id *)
Theorem C58_bad_file_witness :
  values (client_new demo (client_options (bs "v")) demo_disk (bs "d") (bs "w") false
    (bs <$> ["gt"; "-config"; "bad.yaml"; "-id"; "me"]%string)) [ostr "id"] = Some [One (AStr [])] /\
  server_new demo (server_options (bs "v")) demo_disk (bs "d") (bs "w") false
    (bs <$> ["gt"; "-config"; "bad.yaml"; "-id"; "me"]%string) = Failed.
Proof. split; vm_compute; reflexivity. Qed.
