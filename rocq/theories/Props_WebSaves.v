(* Props_WebSaves.v -- C97: changes made on the web pages do not undo each other (WebSavesModel) *)
From Coq Require Import Strings.String.
From Verif Require Import GoBase FlagsModel FlagsProofs Props_Flags WebConfModel Props_WebConf WebSavesModel.
Local Open Scope N_scope.

(* the value with which gt starts when [c] was saved: a zero stands for the default *)
Definition carried (o : odecl) (c : val) : val := if zero_val c then oDefault o else c.
Lemma default_zero version sch hidden o : program version sch hidden -> o ∈ sch -> oShape o = SOne -> zero_val (oDefault o) = true -> oDefault o = zero_of o.
Proof.
  intros HP Ho. assert (HF : Forall (fun o => oShape o = SOne -> zero_val (oDefault o) = true -> oDefault o = zero_of o) sch).
  { destruct HP as [[-> ->]|[-> ->]]; unfold server_options, client_options; repeat (apply Forall_cons; split;
      [cbn; intros; try discriminate; try done; try (match goal with H : bool_decide _ = true |- _ => apply bool_decide_eq_true in H; by rewrite H end)|]); by apply Forall_nil. }
  rewrite Forall_forall in HF. by apply HF.
Qed.
(* what is saved is read back *)
Lemma merged_separate version sch hidden o cfg : program version sch hidden -> o ∈ sch -> oFile o = true -> of_shape o (cfg o) -> merged (encode sch (separate cfg)) o = carried o (cfg o).
Proof.
  intros HP Ho HO Hs. destruct (program_facts _ _ _ HP) as ([ND _] & _ & _ & HF). rewrite Forall_forall in HF. destruct (HF o Ho) as (F1 & F2 & F3 & F4 & F5).
  unfold merged, with_file, encode, carried. rewrite HO, (find_opt_in sch o ND Ho), HO. cbn [andb]. pose proof (default_zero _ _ _ _ HP Ho) as DZ. unfold separate, of_shape in *. destruct (oShape o) eqn:Es.
  - destruct Hs as [a Ea]. specialize (DZ eq_refl). assert (Zz : zero_val (zero_of o) = true /\ empty_val (zero_of o) = true) by (unfold zero_of; rewrite Es; by destruct (oBase o)). destruct Zz as [Zz Ze].
    case_bool_decide as Eq.
    + rewrite Ze. cbn [negb from_option default]. rewrite Zz. cbn [andb]. rewrite Eq. destruct (zero_val (oDefault o)) eqn:Zd; cbn; [by rewrite DZ|done].
    + rewrite Ea. cbn [empty_val zero_val]. destruct (zero_atom a) eqn:Za; cbn [negb from_option default].
      * rewrite Zz. cbn [andb]. destruct (zero_val (oDefault o)) eqn:Zd; cbn; [by rewrite DZ|done].
      * cbn. by rewrite Za.
  - destruct Hs as [k Ek]. rewrite Ek. cbn [empty_val zero_val]. case_bool_decide as Eq; cbn; [|done]. subst k. unfold zero_of. by rewrite Es.
  - by destruct (F3 HO).
Qed.
Lemma in_program version sch hidden : program version sch hidden -> (ostr "admin" ∈ sch /\ ostr "password" ∈ sch /\ oflag "pprof" ∈ sch) /\
  Forall (fun n => n ∈ hidden /\ n ∈ kept) (bs <$> ["admin"; "password"; "pprof"]%string).
Proof.
  intros HP. destruct HP as [[-> ->]|[-> ->]]; (split; [unfold server_options, client_options; split_and!; repeat first [apply elem_of_list_here|apply elem_of_list_further]|by apply (bool_decide_unpack _)]).
Qed.

(* ---- what one save says of an option: the value it is to have from now on, or nothing ---- *)
(* The settings page says everything but the options of the web pages themselves; what its request leaves out is to be zero.  The account page says three things. *)
Definition says (hidden : list bytes) (s : save) (o : odecl) : option val :=
  match s with
  | Account u p b => if bool_decide (oName o = bs "admin") then Some (One (AStr u)) else if bool_decide (oName o = bs "password") then Some (One (AStr p))
                     else if bool_decide (oName o = bs "pprof") then Some (One (ABool b)) else None
  | Settings req => match (if bool_decide (oName o ∈ hidden) then None else req (oName o)) with
                    | Some c => Some c
                    | None => if bool_decide (oName o ∈ kept) then None else Some (zero_of o)
                    end
  end.
Lemma built_says sch hidden disk running s o : built sch hidden disk running s o = match says hidden s o with Some c => c | None => inherit sch disk running o end.
Proof. destruct s as [req|u p b]; cbn [built says]; unfold save_config, user_config; repeat case_bool_decide; try done; by destruct (req (oName o)). Qed.

(* ---- one after the other: gt runs with its default config file ---- *)
Section seq.
Context (version : bytes) (sch : list odecl) (hidden : list bytes) (dpath : bytes) (running : odecl -> val) (HP : program version sch hidden) (HW : web_runs sch running dpath).
Lemma after_one disk s : after sch hidden dpath running disk s = upd disk dpath (Fine (encode sch (separate (built sch hidden disk running s)))).
Proof using HP HW.
  unfold after, states. assert (X : match disk dpath with Fine _ => dpath | _ => dpath end = dpath) by by destruct (disk dpath). destruct s as [req|u p b]; unfold web_save, web_change_user, write_states; cbn [last default built].
  - cbn zeta. by rewrite (save_goes_to _ _ _ _ _ _ _ _ HP HW), X.
  - cbn zeta. by rewrite (change_goes_to _ _ _ _ _ _ _ _ _ _ HP HW), X.
Qed.
Lemma inherit_after disk s o : o ∈ sch -> oFile o = true -> of_shape o (built sch hidden disk running s o) ->
  inherit sch (after sch hidden dpath running disk s) running o = carried o (built sch hidden disk running s o).
Proof using HP HW.
  intros Ho HO Hs. rewrite after_one. unfold inherit. destruct HW as [E1 E2]. rewrite E1. destruct dpath as [|b l] eqn:Ed; [done|]. rewrite <- Ed in *. unfold upd. rewrite bool_decide_eq_true_2 by done. by eapply merged_separate.
Qed.
Lemma carried_shape o c : o ∈ sch -> of_shape o c -> of_shape o (carried o c).
Proof using HP.
  intros Ho Hs. unfold carried. destruct (zero_val c) eqn:Z; [|done]. destruct (program_facts _ _ _ HP) as (_ & _ & _ & HF). rewrite Forall_forall in HF. destruct (HF o Ho) as (_ & _ & _ & _ & F5).
  unfold of_shape in *. destruct (oShape o); [by apply F5| |]; destruct Hs as [? ->]; done.
Qed.
Lemma carried_twice o c : carried o (carried o c) = carried o c.
Proof. unfold carried. destruct (zero_val c) eqn:Z; [|by rewrite Z]. by destruct (zero_val (oDefault o)). Qed.
Lemma history h1 s h2 disk o c : o ∈ sch -> oFile o = true -> of_shape o c -> says hidden s o = Some c -> Forall (fun s => says hidden s o = None) h2 ->
  exists d cfg, after_all sch hidden dpath running disk (h1 ++ s :: h2) = upd d dpath (Fine (encode sch (separate cfg))) /\ (cfg o = c \/ cfg o = carried o c) /\
    inherit sch (after_all sch hidden dpath running disk (h1 ++ s :: h2)) running o = carried o c.
Proof using HP HW.
  intros Ho HO Hs Hsay Hq. unfold after_all. rewrite foldl_app. cbn [foldl]. set (d0 := foldl _ disk h1). clearbody d0. induction h2 as [|s2 h2 IH] using rev_ind.
  - cbn [foldl]. pose proof (built_says sch hidden d0 running s o) as B. rewrite Hsay in B. exists d0, (built sch hidden d0 running s). split; [apply after_one|]. split; [by left|].
    rewrite inherit_after by (try done; by rewrite B). by rewrite B.
  - apply Forall_app in Hq as [Hq Hq2]. apply Forall_cons_1 in Hq2 as [Hq2 _]. destruct (IH Hq) as (d & cfg & _ & _ & I). clear IH. rewrite foldl_app. cbn [foldl]. set (d1 := foldl _ _ h2) in *. clearbody d1.
    pose proof (built_says sch hidden d1 running s2 o) as B. rewrite Hq2, I in B. exists d1, (built sch hidden d1 running s2). split; [apply after_one|]. split; [by right|].
    rewrite inherit_after by (try done; rewrite B; by apply carried_shape). rewrite B. apply carried_twice.
Qed.
End seq.

(* Whatever is saved on the two pages in whatever order, one at a time: at the next start every option has the value that the last save that says something of it gave it. *)
Theorem C97_last_change_partial P version sch hidden disk dpath web noargs prog l ws rest running h1 s h2 o c :
  program version sch hidden -> typed P -> web_runs sch running dpath ->
  blen (ws ++ rest) < 4294967296 -> command sch l ws -> ends rest -> Forall (takes P) l ->
  let args := prog :: ws ++ rest in
  let disk' := after_all sch hidden dpath running disk (h1 ++ s :: h2) in
  config_path l (if noargs || has_arg args B_webAddr then dpath else []) = dpath ->
  o ∈ sch -> oFile o = true -> texts (oName o) l = [] -> of_shape o c ->
  says hidden s o = Some c -> Forall (fun s => says hidden s o = None) h2 ->
  exists v, server_new P sch disk' dpath web noargs args = Options v /\ client_new P sch disk' dpath web noargs args = Options v /\
    (~ is_zero c -> v o = c) /\ (is_zero c -> oName o <> bs "webAddr" -> v o = oDefault o).
Proof.
  intros HP HTy HW HN HC HE HT args disk' Hpath Ho HO Hl Hs Hsay Hq.
  destruct (history version sch hidden dpath running HP HW h1 s h2 disk o c Ho HO Hs Hsay Hq) as (d & cfg & E & Hc & _). unfold disk'. rewrite E.
  destruct (start_with P version sch hidden d dpath web noargs prog l ws rest dpath cfg o HP HTy HN HC HE HT Hpath (proj2 HW)) as (v & E1 & E2 & H).
  exists v. split; [done|]. split; [done|]. specialize (H Ho HO Hl). destruct Hc as [Hc|Hc]; rewrite Hc in H; [by apply H|].
  specialize (H ltac:(by eapply carried_shape)). destruct H as [H1 H2]. unfold carried in *. destruct (zero_val c) eqn:Z.
  - apply zero_val_spec in Z. split; [done|]. intros _ Hw. destruct (zero_val (oDefault o)) eqn:Zd; [apply zero_val_spec in Zd; by apply H2|]. apply H1. intros Q. apply zero_val_spec in Q. congruence.
  - split; [done|]. intros Q. apply zero_val_spec in Q. congruence.
Qed.
(* A new password is not undone by saving settings: the last change on the account page counts. *)
Theorem C97_credentials_partial P version sch hidden disk dpath web noargs prog l ws rest running h1 u p b reqs :
  program version sch hidden -> typed P -> web_runs sch running dpath ->
  blen (ws ++ rest) < 4294967296 -> command sch l ws -> ends rest -> Forall (takes P) l ->
  let args := prog :: ws ++ rest in
  let disk' := after_all sch hidden dpath running disk (h1 ++ Account u p b :: (Settings <$> reqs)) in
  config_path l (if noargs || has_arg args B_webAddr then dpath else []) = dpath ->
  texts (bs "admin") l = [] -> texts (bs "password") l = [] -> u <> [] -> p <> [] ->
  exists v, server_new P sch disk' dpath web noargs args = Options v /\ client_new P sch disk' dpath web noargs args = Options v /\
    forall x y, login sch v x y = true <-> x = u /\ y = p.
Proof.
  intros HP HTy HW HN HC HE HT args disk' Hpath Hl1 Hl2 Hu Hp. destruct (in_program _ _ _ HP) as ((I1 & I2 & _) & HF). rewrite Forall_forall in HF.
  assert (Hq : forall n o, n ∈ (bs <$> ["admin"; "password"; "pprof"]%string) -> oName o = n -> Forall (fun s => says hidden s o = None) (Settings <$> reqs)).
  { intros n o Hn <-. destruct (HF _ Hn) as [Hh Hk]. apply Forall_fmap, Forall_true. intros req. cbn. by rewrite !bool_decide_eq_true_2. }
  destruct (C97_last_change_partial P version sch hidden disk dpath web noargs prog l ws rest running h1 (Account u p b) (Settings <$> reqs) (ostr "admin") (One (AStr u)) HP HTy HW HN HC HE HT Hpath I1 eq_refl Hl1) as (v & E1 & E2 & V1 & _).
  { by eexists. } { done. } { apply (Hq (bs "admin")); [by apply (bool_decide_unpack _)|done]. }
  destruct (C97_last_change_partial P version sch hidden disk dpath web noargs prog l ws rest running h1 (Account u p b) (Settings <$> reqs) (ostr "password") (One (AStr p)) HP HTy HW HN HC HE HT Hpath I2 eq_refl Hl2) as (v' & E1' & _ & V2 & _).
  { by eexists. } { done. } { apply (Hq (bs "password")); [by apply (bool_decide_unpack _)|done]. }
  fold args disk' in E1, E2, E1'. rewrite E1 in E1'. injection E1' as <-. exists v. split; [done|]. split; [done|].
  assert (W1 : v (ostr "admin") = One (AStr u)) by (apply V1; intros Q; apply zero_val_spec in Q; cbn in Q; by apply bool_decide_eq_true in Q).
  assert (W2 : v (ostr "password") = One (AStr p)) by (apply V2; intros Q; apply zero_val_spec in Q; cbn in Q; by apply bool_decide_eq_true in Q).
  intros x y. unfold login. destruct (program_facts _ _ _ HP) as ([ND _] & _).
  pose proof (find_opt_in sch _ ND I1) as F1. pose proof (find_opt_in sch _ ND I2) as F2. cbn [oName ostr] in F1, F2. rewrite F1, F2, W1, W2, andb_true_iff, !bool_decide_eq_true.
  split; [by intros [[= ->] [= ->]]|by intros [-> ->]].
Qed.
(* But the account page shows the values gt runs with, not the saved ones: whoever saves a new password, and then opens the page again to change nothing but pprof,
   has saved the old password. *)
Theorem C97_page_undoes_refuted P version sch hidden disk dpath web noargs prog l ws rest running h u0 p0 p b :
  program version sch hidden -> typed P -> web_runs sch running dpath ->
  blen (ws ++ rest) < 4294967296 -> command sch l ws -> ends rest -> Forall (takes P) l ->
  let args := prog :: ws ++ rest in
  let disk' := after_all sch hidden dpath running disk (h ++ [account_page sch running None (Some p) None; account_page sch running None None (Some b)]) in
  config_path l (if noargs || has_arg args B_webAddr then dpath else []) = dpath ->
  texts (bs "admin") l = [] -> texts (bs "password") l = [] ->
  running_value sch running (bs "admin") = One (AStr u0) -> running_value sch running (bs "password") = One (AStr p0) -> u0 <> [] -> p0 <> [] -> p <> p0 ->
  exists v, server_new P sch disk' dpath web noargs args = Options v /\ client_new P sch disk' dpath web noargs args = Options v /\ login sch v u0 p = false /\ login sch v u0 p0 = true.
Proof.
  intros HP HTy HW HN HC HE HT args disk' Hpath Hl1 Hl2 Hr1 Hr2 Hu Hp Hne.
  assert (E : account_page sch running None None (Some b) = Account u0 p0 b) by (unfold account_page, shown; by rewrite Hr1, Hr2).
  destruct (C97_credentials_partial P version sch hidden disk dpath web noargs prog l ws rest running (h ++ [account_page sch running None (Some p) None]) u0 p0 b [] HP HTy HW HN HC HE HT Hpath Hl1 Hl2 Hu Hp) as (v & E1 & E2 & H).
  rewrite <- app_assoc in E1, E2. cbn [app fmap list_fmap] in E1, E2. rewrite <- E in E1, E2. exists v. split; [done|]. split; [done|]. split; [|by apply H].
  apply not_true_is_false. intros Q. apply H in Q. by destruct Q.
Qed.
(* With another config file, which could not be read at first, the second save goes astray, whatever the two are: the file in use stays as the first one left it. *)
Theorem C97_second_save_refuted version sch hidden dpath running disk p s1 s2 : program version sch hidden -> web_runs sch running p -> p <> dpath -> (forall f, disk p <> Fine f) ->
  (exists f, after_all sch hidden dpath running disk [s1] p = Fine f /\ after_all sch hidden dpath running disk [s1; s2] p = Fine f) /\
  (exists f, after_all sch hidden dpath running disk [s1; s2] dpath = Fine f).
Proof.
  intros HP HW Hne Hnf. assert (G : forall d s, after sch hidden dpath running d s = upd d (match d p with Fine _ => dpath | _ => p end) (Fine (encode sch (separate (built sch hidden d running s))))).
  { intros d [req|u q b]; unfold after, states, web_save, web_change_user, write_states; cbn [last default built]; cbn zeta; [by rewrite (save_goes_to _ _ _ _ _ _ _ _ HP HW)|by rewrite (change_goes_to _ _ _ _ _ _ _ _ _ _ HP HW)]. }
  unfold after_all. cbn [foldl]. rewrite !G. assert (X : match disk p with Fine _ => dpath | _ => p end = p) by (destruct (disk p) eqn:E; [done..|by destruct (Hnf fields)]). rewrite X.
  assert (Y : upd disk p (Fine (encode sch (separate (built sch hidden disk running s1)))) p = Fine (encode sch (separate (built sch hidden disk running s1)))) by (unfold upd; by rewrite bool_decide_eq_true_2).
  rewrite Y. split; eexists; [split; [done|]|]; unfold upd; [rewrite (bool_decide_eq_false_2 (p = dpath)) by done; by rewrite bool_decide_eq_true_2|by rewrite bool_decide_eq_true_2].
Qed.

(* ---- handlers that overlap ---- *)
Lemma built_same sch hidden d1 d2 running s : d1 (config_of sch running) = d2 (config_of sch running) -> built sch hidden d1 running s = built sch hidden d2 running s.
Proof.
  intros H. assert (I : inherit sch d1 running = inherit sch d2 running) by (unfold inherit; destruct (config_of sch running); [done|by rewrite H]).
  destruct s; cbn [built]; unfold save_config, user_config; by rewrite I.
Qed.
Section overlap.
Context (version : bytes) (sch : list odecl) (hidden : list bytes) (dpath : bytes) (running : odecl -> val) (HP : program version sch hidden) (HW : web_runs sch running dpath).
Lemma path_of_built d s : save_path sch dpath (separate (built sch hidden d running s)) = dpath.
Proof using HP HW.
  assert (X : match d dpath with Fine _ => dpath | _ => dpath end = dpath) by by destruct (d dpath).
  destruct s as [req|u p b]; cbn [built]; [by rewrite (save_goes_to _ _ _ _ _ _ _ _ HP HW), X|by rewrite (change_goes_to _ _ _ _ _ _ _ _ _ _ HP HW), X].
Qed.
End overlap.
(* Handlers that do not overlap do what the saves do one after the other. *)
Theorem C97_alone_partial version sch hidden dpath running disk l : program version sch hidden -> web_runs sch running dpath ->
  exists w, hrun sch hidden dpath running (mkH disk ∅) (mjoin ((fun s => [HBegin 0 s; HCreate 0; HWrite 0]) <$> l)) = Some w /\ hReqs w = ∅ /\ forall q, hDisk w q = after_all sch hidden dpath running disk l q.
Proof.
  intros HP HW. assert (G : forall l d1 d2, (forall q, d1 q = d2 q) -> exists w, hrun sch hidden dpath running (mkH d1 ∅) (mjoin ((fun s => [HBegin 0 s; HCreate 0; HWrite 0]) <$> l)) = Some w /\ hReqs w = ∅ /\ forall q, hDisk w q = after_all sch hidden dpath running d2 l q).
  { clear l. induction l as [|s l IH]; intros d1 d2 Hd; [by exists (mkH d1 ∅)|]. cbn [fmap list_fmap mjoin list_join app hrun]. cbn [hstep hReqs hDisk]. rewrite lookup_empty. cbn [mbind option_bind].
    cbn [hstep hReqs hDisk]. rewrite lookup_insert. cbn [mbind option_bind]. cbn [hstep hReqs hDisk]. rewrite lookup_insert. cbn [mbind option_bind]. rewrite !(path_of_built version) by done.
    rewrite insert_insert, delete_insert by by rewrite lookup_empty. unfold after_all. cbn [foldl]. apply IH. intros q. rewrite (after_one version) by done. rewrite (built_same sch hidden d1 d2) by done.
    unfold upd. case_bool_decide; [done|]. apply Hd. }
  by apply G.
Qed.
(* Those that overlap lose a change: the account page's change is as if it had never been made. *)
Theorem C97_overlap_refuted version sch hidden dpath running disk req u p b : program version sch hidden -> web_runs sch running dpath ->
  exists w, hrun sch hidden dpath running (mkH disk ∅) [HBegin 1 (Settings req); HBegin 2 (Account u p b); HCreate 2; HWrite 2; HCreate 1; HWrite 1] = Some w /\
    forall q, hDisk w q = after_all sch hidden dpath running disk [Settings req] q.
Proof.
  intros HP HW. cbn [hrun]. cbn [hstep hReqs hDisk mbind option_bind]. rewrite lookup_empty. cbn [hstep hReqs hDisk mbind option_bind]. rewrite lookup_insert_ne, lookup_empty by done.
  cbn [hstep hReqs hDisk mbind option_bind]. rewrite lookup_insert. cbn [hstep hReqs hDisk mbind option_bind]. rewrite lookup_insert. cbn [hstep hReqs hDisk mbind option_bind].
  rewrite insert_insert, delete_insert by by rewrite lookup_insert_ne, lookup_empty. rewrite lookup_insert. cbn [hstep hReqs hDisk mbind option_bind]. rewrite lookup_insert. cbn [hstep hReqs hDisk mbind option_bind].
  eexists. split; [done|]. intros q. cbn [hDisk]. rewrite !(path_of_built version) by done. unfold after_all. cbn [foldl]. rewrite (after_one version) by done. unfold upd. by case_bool_decide.
Qed.
(* And one that reads while another has emptied the file takes the options gt runs with for the saved ones: everything saved since the start is lost. *)
Theorem C97_window_refuted version sch hidden dpath running disk s s' : program version sch hidden -> web_runs sch running dpath ->
  exists w, hrun sch hidden dpath running (mkH disk ∅) [HBegin 1 s; HCreate 1; HBegin 2 s'; HWrite 1; HCreate 2; HWrite 2] = Some w /\
    forall q, hDisk w q = after_all sch hidden dpath running (upd disk dpath Missing) [s'] q.
Proof.
  intros HP HW. cbn [hrun]. cbn [hstep hReqs hDisk mbind option_bind]. rewrite lookup_empty. cbn [hstep hReqs hDisk mbind option_bind]. rewrite lookup_insert.
  cbn [hstep hReqs hDisk mbind option_bind]. rewrite !lookup_insert_ne, lookup_empty by done. cbn [hstep hReqs hDisk mbind option_bind]. rewrite lookup_insert_ne, lookup_insert by done. cbn [hstep hReqs hDisk mbind option_bind].
  rewrite lookup_delete_ne, lookup_insert by done. cbn [hstep hReqs hDisk mbind option_bind]. rewrite lookup_insert. cbn [hstep hReqs hDisk mbind option_bind].
  eexists. split; [done|]. intros q. cbn [hDisk]. rewrite !(path_of_built version) by done. unfold after_all. cbn [foldl]. rewrite (after_one version) by done.
  assert (B : built sch hidden (upd disk dpath (Broken (fun _ => None))) running s' = built sch hidden (upd disk dpath Missing) running s').
  { assert (I : inherit sch (upd disk dpath (Broken (fun _ => None))) running = inherit sch (upd disk dpath Missing) running).
    { unfold inherit. destruct HW as [-> Hn]. destruct dpath as [|x y] eqn:E; [done|]. rewrite <- E. unfold upd. by rewrite !bool_decide_eq_true_2. }
    destruct s'; cbn [built]; unfold save_config, user_config; by rewrite I. }
  rewrite B. unfold upd. by case_bool_decide.
Qed.

(* gt started with a config file; a new password, then the settings page; then the account page again, for pprof only *)
Definition cred_file (n : bytes) : option val := if bool_decide (n = bs "admin") then Some (One (AStr (bs "ann"))) else if bool_decide (n = bs "password") then Some (One (AStr (bs "old"))) else demo_file n.
Definition disk0 : bytes -> file := fun q => if bool_decide (q = bs "d") then Fine cred_file else Missing.
Definition args0 : list bytes := bs <$> ["gt"; "-webAddr"; "8000"]%string.
Definition runs (d : bytes -> file) : odecl -> val := opts_of (server_new demo sopts d (bs "d") (bs "w") false args0).
Definition next (l : list save) : list val := (fun o => runs (after_all sopts server_hidden (bs "d") (runs disk0) disk0 l) o) <$> [ostr "admin"; ostr "password"; oflag "pprof"; onum "connections" 32 10; onum "speed" 32 0].
Theorem C97_witness : web_runs sopts (runs disk0) (bs "d") /\ running_value sopts (runs disk0) (bs "admin") = One (AStr (bs "ann")) /\ running_value sopts (runs disk0) (bs "password") = One (AStr (bs "old")) /\
  next [account_page sopts (runs disk0) None (Some (bs "new")) None; Settings demo_req] = [One (AStr (bs "ann")); One (AStr (bs "new")); One (ABool false); One (ANum 20); One (ANum 9)] /\
  next [account_page sopts (runs disk0) None (Some (bs "new")) None; account_page sopts (runs disk0) None None (Some true)] = [One (AStr (bs "ann")); One (AStr (bs "old")); One (ABool true); One (ANum 5); One (ANum 0)] /\
  says server_hidden (Settings demo_req) (onum "speed" 32 0) = Some (One (ANum 9)) /\ says server_hidden (Account (bs "x") (bs "y") true) (onum "speed" 32 0) = None.
Proof. split; [split; [vm_compute; reflexivity|done]|]. split_and!; vm_compute; reflexivity. Qed.
