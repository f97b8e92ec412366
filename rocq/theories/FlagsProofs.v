(* FlagsProofs.v -- lemmas about FlagsModel.v and the specification of a command line. *)
From Coq Require Import Strings.String.
From Verif Require Import GoBase FlagsModel.
Local Open Scope N_scope.

(* ---- specification ---- *)
(* -x or --x *)
Definition dash (d : bytes) : Prop := d = bs "-" \/ d = bs "--".
(* option [o] with the text [t], the ways to write it *)
Inductive written (o : odecl) : bytes -> list bytes -> Prop :=
  | W_equals d t : dash d -> written o t [d ++ oName o ++ bs "=" ++ t]
  | W_next d t : dash d -> oBase o <> BBool -> written o t [d ++ oName o; t]
  | W_switch d : dash d -> oBase o = BBool -> written o (bs "true") [d ++ oName o].
(* a list of options, in order, and the arguments that say it *)
Inductive command (sch : list odecl) : list (odecl * bytes) -> list bytes -> Prop :=
  | C_nil : command sch [] []
  | C_cons o t w l ws : o ∈ sch -> written o t w -> command sch l ws -> command sch ((o, t) :: l) (w ++ ws).
(* nothing left, or an argument that is not an option: the rest is not looked at *)
Definition ends (rest : list bytes) : Prop :=
  match rest with
  | [] => True
  | s :: _ => s = bs "--" \/ blen s < 2 \/ head s <> Some 45
  end.
(* the option can take this text *)
Definition takes (P : parsers) (a : odecl * bytes) : Prop :=
  match oShape a.1, oBase a.1 with
  | SOne, b => is_Some (strict P b a.2)
  | _, BDur => is_Some (strict P BDur a.2)
  | _, _ => True
  end.
(* the names are usable and different *)
Definition good_name (n : bytes) : Prop := n <> [] /\ head n <> Some 45 /\ 61 ∉ n.
Definition good_schema (sch : list odecl) : Prop := NoDup (oName <$> sch) /\ Forall (fun o => good_name (oName o)) sch.

(* the texts given for the option named n, in order *)
Definition texts (n : bytes) (l : list (odecl * bytes)) : list bytes :=
  snd <$> filter (fun a => oName a.1 = n) l.
(* number the options that have a position, and keep those named n *)
Definition is_placed (a : odecl * bytes) : bool := match oShape a.1 with SPlaced => true | _ => false end.
Fixpoint numbered (k : N) (n : bytes) (l : list (odecl * bytes)) : list (bytes * N) :=
  match l with
  | [] => []
  | a :: l => if is_placed a then
                (if bool_decide (oName a.1 = n) then [(a.2, k + 1)] else []) ++ numbered (k + 1) n l
              else numbered k n l
  end.
(* what text means as an element *)
Definition means (P : parsers) (b : base) (t : bytes) : atom :=
  match b with BDur => default (ADur 0) (strict P BDur t) | _ => scan P b t end.
(* what the command line says about option o, None = nothing *)
Definition stated (P : parsers) (o : odecl) (l : list (odecl * bytes)) : option val :=
  match texts (oName o) l with
  | [] => None
  | ts => match oShape o with
          | SOne => match last ts with Some t => One <$> strict P (oBase o) t | None => None end
          | SMany => Some (Many (means P (oBase o) <$> ts))
          | SPlaced => Some (Placed ((fun x => (means P (oBase o) x.1, x.2)) <$> numbered 0 (oName o) l))
          end
  end.

(* ---- lemmas ---- *)
Lemma find_opt_in sch o : NoDup (oName <$> sch) -> o ∈ sch -> find_opt sch (oName o) = Some o.
Proof.
  unfold find_opt. induction sch as [|x sch IH]; intros ND Hin; [by apply elem_of_nil in Hin|].
  cbn [find]. rewrite fmap_cons in ND. apply NoDup_cons in ND. destruct ND as [Hx ND].
  apply elem_of_cons in Hin. destruct Hin as [->|Hin].
  - by rewrite bool_decide_true.
  - rewrite bool_decide_false; [by apply IH|]. intros E. apply Hx. rewrite E. by apply elem_of_list_fmap_1.
Qed.
Lemma find_opt_some sch n o : find_opt sch n = Some o -> o ∈ sch /\ oName o = n.
Proof.
  unfold find_opt. intros E. apply find_some in E. destruct E as [E1 E2]. apply elem_of_list_In in E1.
  by apply bool_decide_eq_true in E2.
Qed.

Lemma split_eq_app n t : 61 ∉ n -> split_eq (n ++ 61 :: t) = (n, Some t).
Proof.
  induction n as [|c n IH]; intros H; [done|]. cbn [app split_eq]. apply not_elem_of_cons in H. destruct H as [H1 H2].
  rewrite (proj2 (N.eqb_neq c 61)) by done. by rewrite IH.
Qed.
Lemma split_eq_none n : 61 ∉ n -> split_eq n = (n, None).
Proof.
  induction n as [|c n IH]; intros H; [done|]. cbn [split_eq]. apply not_elem_of_cons in H. destruct H as [H1 H2].
  rewrite (proj2 (N.eqb_neq c 61)) by done. by rewrite IH.
Qed.
Lemma split_eq_inv l n v : split_eq l = (n, v) -> 61 ∉ n /\ l = match v with Some t => n ++ 61 :: t | None => n end.
Proof.
  revert n v. induction l as [|c l IH]; intros n v; cbn [split_eq].
  - intros [= <- <-]. split; [apply not_elem_of_nil|done].
  - destruct (c =? 61) eqn:E; [intros [= <- <-]; apply N.eqb_eq in E; subst; split; [apply not_elem_of_nil|done]|].
    destruct (split_eq l) as [n' v'] eqn:ES. intros [= <- <-]. destruct (IH _ _ eq_refl) as [H1 H2]. apply N.eqb_neq in E.
    split; [apply not_elem_of_cons; split; [done|done]|]. destruct v'; by rewrite H2.
Qed.

(* reading back what was written *)
Lemma read_written d n v : dash d -> good_name n ->
  read_token (d ++ n ++ match v with Some t => bs "=" ++ t | None => [] end) = IsFlag n v.
Proof.
  intros Hd (H1 & H2 & H3). destruct n as [|c n]; [done|]. cbn [head] in H2.
  change (bs "=") with [61]. unfold dash in Hd. change (bs "-") with [45] in Hd. change (bs "--") with [45;45] in Hd.
  assert (c <> 45) by congruence. apply not_elem_of_cons in H3. destruct H3 as [H3 H4].
  assert (E : flag_body ((c :: n) ++ match v with Some t => [61] ++ t | None => [] end) = IsFlag (c :: n) v).
  { cbn [app flag_body]. rewrite (proj2 (N.eqb_neq c 45)), (proj2 (N.eqb_neq c 61)) by done. cbn [orb].
    destruct v as [t|]; cbn [app].
    - by rewrite split_eq_app.
    - rewrite app_nil_r. by rewrite split_eq_none. }
  destruct Hd as [-> | ->]; cbn [app].
  - cbn [app] in *. unfold read_token.
    rewrite (proj2 (N.eqb_neq c 45)) by done. exact E.
  - cbn [app] in *. unfold read_token. exact E.
Qed.
Lemma read_flag_inv s n v : read_token s = IsFlag n v ->
  exists d, dash d /\ good_name n /\ s = d ++ n ++ match v with Some t => bs "=" ++ t | None => [] end.
Proof.
  assert (HB : forall b, flag_body b = IsFlag n v -> good_name n /\ b = n ++ match v with Some t => bs "=" ++ t | None => [] end).
  { intros b. destruct b as [|c b]; cbn [flag_body]; [done|].
    destruct (c =? 45) eqn:E1; [done|]. destruct (c =? 61) eqn:E2; [done|]. cbn [orb].
    destruct (split_eq b) as [n' v'] eqn:ES. intros [= <- <-]. apply split_eq_inv in ES. destruct ES as [H1 H2].
    apply N.eqb_neq in E1, E2. split.
    - split; [done|]. split; [cbn; congruence|]. apply not_elem_of_cons. split; [done|done].
    - rewrite H2. destruct v'; cbn [bs app]; [done|]. by rewrite app_nil_r. }
  unfold read_token. destruct s as [|c0 [|c1 s]]; [done|done|]. destruct (c0 =? 45) eqn:E0; [|done]. apply N.eqb_eq in E0. cbn [negb].
  destruct (c1 =? 45) eqn:E1.
  - apply N.eqb_eq in E1. destruct s as [|c2 s]; [done|]. intros H. apply HB in H. destruct H as [H1 H2].
    exists (bs "--"). split; [by right|]. split; [done|]. subst. rewrite H2. done.
  - intros H. apply HB in H. destruct H as [H1 H2]. exists (bs "-"). split; [by left|]. split; [done|]. subst. rewrite H2. done.
Qed.
Lemma read_ends s rest : (read_token s = Operand \/ read_token s = Terminator) <-> ends (s :: rest).
Proof.
  unfold read_token, ends, blen. destruct s as [|c0 [|c1 s]]; cbn [length head].
  - split; [intros _; right; left; lia|intros _; by left].
  - split; [intros _; right; left; lia|intros _; by left].
  - destruct (c0 =? 45) eqn:E0; cbn [negb]; [apply N.eqb_eq in E0|apply N.eqb_neq in E0].
    + subst c0. assert (HB : forall b, flag_body b <> Operand /\ flag_body b <> Terminator).
      { intros b. destruct b as [|c b]; cbn; [done|]. destruct (_ || _); [done|]. destruct (split_eq b). done. }
      destruct (c1 =? 45) eqn:E1; [apply N.eqb_eq in E1; subst c1|apply N.eqb_neq in E1].
      * destruct s as [|c2 s].
        -- split; [intros _; by left|intros _; by right].
        -- split; [intros [G|G]; [by apply (proj1 (HB _)) in G|by apply (proj2 (HB _)) in G]|]. intros [?|[?|?]]; [done|lia|done].
      * split; [intros [G|G]; [by apply (proj1 (HB _)) in G|by apply (proj2 (HB _)) in G]|]. intros [H|[?|?]]; [|lia|done]. injection H as -> ->. done.
    + split; [intros _; right; right; by intros [= ?]|intros _; by left].
Qed.

(* the options in order *)
Fixpoint sets (P : parsers) (l : list (odecl * bytes)) (st : fs) : option fs :=
  match l with
  | [] => Some st
  | a :: l => match set1 P a.1 st a.2 with None => None | Some st => sets P l st end
  end.

Lemma is_bool_spec o : is_bool o = true <-> oBase o = BBool.
Proof. unfold is_bool. by destruct (oBase o). Qed.

Lemma parse_complete P sch : good_schema sch -> forall l ws rest st,
  command sch l ws -> ends rest -> parse P sch (ws ++ rest) st = sets P l st.
Proof.
  intros [ND GN] l ws rest st HC. revert rest st. induction HC as [|o t w l ws Ho HW HC IH]; intros rest st HE.
  - cbn [app sets]. destruct rest as [|s rest]; [done|]. cbn [parse]. by destruct (proj2 (read_ends s rest) HE) as [-> | ->].
  - assert (HG : good_name (oName o)) by (rewrite Forall_forall in GN; by apply GN).
    assert (HF : find_opt sch (oName o) = Some o) by by apply find_opt_in.
    cbn [sets fst snd]. destruct HW as [d t Hd|d t Hd Hb|d Hd Hb]; cbn [app parse].
    + rewrite (read_written d (oName o) (Some t) Hd HG), HF.
      change (default (bs "true") (Some t)) with t. destruct (is_bool o); destruct (set1 P o st t); try done; by apply IH.
    + pose proof (read_written d (oName o) None Hd HG) as HR. rewrite app_nil_r in HR. rewrite HR, HF.
      destruct (is_bool o) eqn:E; [by apply is_bool_spec in E|]. destruct (set1 P o st t); try done; by apply IH.
    + pose proof (read_written d (oName o) None Hd HG) as HR. rewrite app_nil_r in HR. rewrite HR, HF.
      rewrite (proj2 (is_bool_spec o) Hb). change (default (bs "true") None) with (bs "true"). destruct (set1 P o st _); try done; by apply IH.
Qed.
Lemma parse_sound P sch : forall args st st', parse P sch args st = Some st' ->
  exists l ws rest, args = ws ++ rest /\ command sch l ws /\ ends rest /\ sets P l st = Some st'.
Proof.
  intros args. induction args as [args IH] using (induction_ltof1 _ length); unfold ltof in IH. intros st st'.
  destruct args as [|s args]; cbn [parse].
  - intros [= <-]. exists [], [], []. split; [done|]. split; [constructor|done].
  - destruct (read_token s) as [| | |n v] eqn:ER; [| |done|].
    + intros [= <-]. exists [], [], (s :: args). split; [done|]. split; [constructor|]. split; [apply (read_ends s args); by left|done].
    + intros [= <-]. exists [], [], (s :: args). split; [done|]. split; [constructor|]. split; [apply (read_ends s args); by right|done].
    + destruct (find_opt sch n) as [o|] eqn:EF; [|done]. apply find_opt_some in EF. destruct EF as [Ho En].
      apply read_flag_inv in ER. destruct ER as (d & Hd & HG & Es). subst n.
      destruct (is_bool o) eqn:EB.
      * destruct (set1 P o st _) as [st1|] eqn:E1; [|done]. intros HP. apply IH in HP; [|cbn; lia].
        destruct HP as (l & ws & rest & -> & HC & HE & HS). apply is_bool_spec in EB.
        exists ((o, default (bs "true") v) :: l), ([s] ++ ws), rest.
        split; [done|]. split.
        { constructor; [done| |done]. subst s. destruct v as [t|]; [by apply W_equals|].
          rewrite app_nil_r. by apply W_switch. }
        split; [done|]. cbn [sets fst snd]. by rewrite E1.
      * assert (oBase o <> BBool) by (intros E; apply is_bool_spec in E; congruence).
        destruct v as [t|].
        -- destruct (set1 P o st t) as [st1|] eqn:E1; [|by destruct args]. intros HP.
           assert (HP' : parse P sch args st1 = Some st') by (by destruct args). clear HP. apply IH in HP'; [|cbn; lia].
           destruct HP' as (l & ws & rest & -> & HC & HE & HS).
           exists ((o, t) :: l), ([s] ++ ws), rest. split; [done|]. split; [constructor; [done| |done]; subst s; by constructor|].
           split; [done|]. cbn [sets fst snd]. by rewrite E1.
        -- destruct args as [|t args]; [done|]. destruct (set1 P o st t) as [st1|] eqn:E1; [|done]. intros HP.
           apply IH in HP; [|cbn; lia]. destruct HP as (l & ws & rest & -> & HC & HE & HS).
           exists ((o, t) :: l), ([s; t] ++ ws), rest. split; [done|].
           split; [constructor; [done| |done]; subst s; rewrite app_nil_r; by constructor|].
           split; [done|]. cbn [sets fst snd]. by rewrite E1.
Qed.

(* ---- what the flags hold afterwards ---- *)
Lemma filter_cons_dec {A} (Q : A -> Prop) `{!forall x, Decision (Q x)} x (l : list A) :
  filter Q (x :: l) = if decide (Q x) then x :: filter Q l else filter Q l.
Proof. destruct (decide (Q x)); [by rewrite filter_cons_True|by rewrite filter_cons_False]. Qed.
Lemma texts_cons n a l : texts n (a :: l) = if decide (oName a.1 = n) then a.2 :: texts n l else texts n l.
Proof. unfold texts. rewrite filter_cons_dec. by destruct (decide _). Qed.
Lemma texts_app n l k : texts n (l ++ k) = texts n l ++ texts n k.
Proof. unfold texts. by rewrite filter_app, fmap_app. Qed.

Definition n_placed (l : list (odecl * bytes)) : N := blen (filter is_placed l).
Lemma numbered_app n l : forall k m, numbered k n (l ++ m) = numbered k n l ++ numbered (k + n_placed l) n m.
Proof.
  unfold n_placed, blen. induction l as [|a l IH]; intros k m; cbn [app numbered].
  - cbn. by rewrite N.add_0_r.
  - rewrite filter_cons_dec. destruct (is_placed a) eqn:E; cbn [Is_true].
    + destruct (decide True); [|done]. rewrite IH, app_assoc. f_equal. f_equal. cbn [length]. lia.
    + destruct (decide False); [done|]. by rewrite IH.
Qed.
Lemma n_placed_app l k : n_placed (l ++ k) = n_placed l + n_placed k.
Proof. unfold n_placed, blen. rewrite filter_app, app_length. lia. Qed.

Lemma n_placed_one a : n_placed [a] = if is_placed a then 1 else 0.
Proof.
  unfold n_placed, blen. rewrite filter_cons_dec. destruct (is_placed a); cbn [Is_true].
  - destruct (decide True); done.
  - destruct (decide False); done.
Qed.

Lemma sets_app P l k st : sets P (l ++ k) st = match sets P l st with None => None | Some st => sets P k st end.
Proof. revert st. induction l as [|a l IH]; intros st; cbn; [done|]. destruct (set1 P a.1 st a.2); [apply IH|done]. Qed.

Lemma element_means P b t a : element P b t = Some a -> means P b t = a.
Proof. unfold element, means. destruct b; try (by intros [= <-]). intros ->. done. Qed.
Lemma set1_takes P a st st' : set1 P a.1 st a.2 = Some st' -> takes P a.
Proof. unfold set1, takes, element. destruct (oShape a.1), (oBase a.1); try done; case_match; try done; by eexists. Qed.

(* every state reached holds exactly what was stated so far *)
Lemma sets_stated P sch l st : NoDup (oName <$> sch) -> Forall (fun a => a.1 ∈ sch) l -> n_placed l < 4294967296 ->
  sets P l (mkFs ∅ 0) = Some st ->
  fPos st = n_placed l /\ forall o, o ∈ sch -> fSet st !! oName o = stated P o l.
Proof.
  intros ND. revert st. induction l as [|a l IH] using rev_ind; intros st HF HN.
  - cbn [sets]. intros [= <-]. split; [done|]. intros o Ho. cbn. by rewrite lookup_empty.
  - rewrite sets_app. cbn [sets]. apply Forall_app in HF. destruct HF as [HF Ha]. apply Forall_cons in Ha. destruct Ha as [Ha _].
    rewrite n_placed_app in HN |- *. destruct (sets P l (mkFs ∅ 0)) as [s0|] eqn:E0; [|done].
    destruct (IH s0 HF ltac:(lia) eq_refl) as [Hp Hv]. clear IH.
    destruct (set1 P a.1 s0 a.2) as [s1|] eqn:E1; [|done]. intros [= <-].
    assert (Hsame : forall o, o ∈ sch -> oName a.1 = oName o -> o = a.1).
    { intros o Ho E. pose proof (find_opt_in sch o ND Ho) as G1. pose proof (find_opt_in sch a.1 ND Ha) as G2. congruence. }
    assert (Hst : forall o, oName a.1 <> oName o -> stated P o (l ++ [a]) = stated P o l).
    { intros o Hne. unfold stated. rewrite texts_app, texts_cons, decide_False by done. rewrite app_nil_r.
      rewrite numbered_app. cbn [numbered]. rewrite bool_decide_false by done. destruct (is_placed a); rewrite app_nil_r; done. }
    assert (Ha1 := Hv a.1 Ha).
    assert (HT : texts (oName a.1) (l ++ [a]) = texts (oName a.1) l ++ [a.2]).
    { by rewrite texts_app, texts_cons, decide_True. }
    destruct (oShape a.1) eqn:ES; unfold set1 in E1; rewrite ES in E1.
    + destruct (strict P (oBase a.1) a.2) as [v|] eqn:EV; [|done]. injection E1 as <-. cbn [fSet fPos].
      split; [rewrite Hp, n_placed_one; unfold is_placed; rewrite ES; lia|].
      intros o Ho. destruct (decide (oName a.1 = oName o)) as [E|E].
      * apply Hsame in E; [|done]. subst o. rewrite lookup_insert. unfold stated. rewrite HT, ES.
        destruct (texts (oName a.1) l) eqn:ET; cbn [app]; [cbn; by rewrite EV|].
        rewrite app_comm_cons, last_snoc. by rewrite EV.
      * rewrite lookup_insert_ne by done. rewrite Hst by done. by apply Hv.
    + destruct (element P (oBase a.1) a.2) as [v|] eqn:EV; [|done]. injection E1 as <-. cbn [fSet fPos].
      split; [rewrite Hp, n_placed_one; unfold is_placed; rewrite ES; lia|].
      intros o Ho. destruct (decide (oName a.1 = oName o)) as [E|E].
      * apply Hsame in E; [|done]. subst o. rewrite lookup_insert. unfold stated, so_far. rewrite Ha1. unfold stated.
        rewrite HT, ES. apply element_means in EV. subst v.
        destruct (texts (oName a.1) l) eqn:ET; cbn [app]; [done|]. rewrite app_comm_cons, fmap_app. done.
      * rewrite lookup_insert_ne by done. rewrite Hst by done. by apply Hv.
    + destruct (element P (oBase a.1) a.2) as [v|] eqn:EV; [|done].
      assert (HP1 : n_placed [a] = 1) by (rewrite n_placed_one; unfold is_placed; by rewrite ES).
      rewrite HP1 in HN |- *. assert (HU : u32 (fPos s0 + 1) = n_placed l + 1) by (unfold u32; rewrite Hp, N.mod_small by lia; done).
      rewrite HU in E1. destruct (n_placed l + 1 =? 0) eqn:EZ; [done|]. injection E1 as <-. cbn [fSet fPos].
      split; [done|]. intros o Ho. destruct (decide (oName a.1 = oName o)) as [E|E].
      * apply Hsame in E; [|done]. subst o. rewrite lookup_insert. unfold stated, placed_so_far. rewrite Ha1. unfold stated.
        rewrite HT, ES. apply element_means in EV. subst v.
        rewrite numbered_app. cbn [numbered].
        assert (is_placed a = true) as -> by (unfold is_placed; by rewrite ES). rewrite bool_decide_true by done.
        rewrite fmap_app. cbn [app fmap list_fmap fst snd]. rewrite N.add_0_l.
        assert (HN0 : texts (oName a.1) l = [] -> numbered 0 (oName a.1) l = []).
        { clear -l. generalize 0. induction l as [|x l IH]; intros k; [done|]. rewrite texts_cons. cbn [numbered].
          destruct (decide (oName x.1 = oName a.1)); [done|]. intros H. rewrite bool_decide_false by done.
          destruct (is_placed x); by rewrite IH. }
        destruct (texts (oName a.1) l) eqn:ET; cbn [app]; [|done].
        by rewrite HN0.
      * rewrite lookup_insert_ne by done. rewrite Hst by done. by apply Hv.
Qed.
Lemma sets_takes P l st st' : sets P l st = Some st' -> Forall (takes P) l.
Proof.
  revert st. induction l as [|a l IH]; intros st; cbn [sets]; [by constructor|].
  destruct (set1 P a.1 st a.2) as [s1|] eqn:E; [|done]. intros H. constructor; [by eapply set1_takes|by eapply IH].
Qed.
Lemma takes_sets P l : Forall (takes P) l -> forall st, fPos st + n_placed l < 4294967296 -> exists st', sets P l st = Some st'.
Proof.
  induction 1 as [|a l Ha HF IH]; intros st HN; cbn [sets]; [by eexists|].
  assert (HN' : n_placed (a :: l) = (if is_placed a then 1 else 0) + n_placed l).
  { unfold n_placed, blen. rewrite filter_cons_dec. destruct (is_placed a); cbn [Is_true].
    - destruct (decide True); [|done]. cbn [length]. lia.
    - destruct (decide False); [done|]. lia. }
  rewrite HN' in HN. unfold takes in Ha. unfold set1.
  destruct (oShape a.1) eqn:ES.
  - destruct Ha as [v ->]. apply IH. cbn [fPos]. lia.
  - assert (exists v, element P (oBase a.1) a.2 = Some v) as [v ->] by (unfold element; destruct (oBase a.1); eauto).
    apply IH. cbn [fPos]. lia.
  - assert (exists v, element P (oBase a.1) a.2 = Some v) as [v ->] by (unfold element; destruct (oBase a.1); eauto).
    assert (is_placed a = true) as EP by (unfold is_placed; by rewrite ES). rewrite EP in HN.
    assert (HU : u32 (fPos st + 1) = fPos st + 1) by (unfold u32; rewrite N.mod_small by lia; done). rewrite HU.
    destruct (fPos st + 1 =? 0) eqn:EZ; [lia|]. apply IH. cbn [fPos]. lia.
Qed.
Lemma command_in sch l ws : command sch l ws -> Forall (fun a => a.1 ∈ sch) l /\ (length l <= length ws)%nat.
Proof.
  induction 1 as [|o t w l ws Ho HW HC [IH1 IH2]]; [done|]. split; [by constructor|].
  rewrite app_length. cbn [length]. destruct HW; cbn [length]; lia.
Qed.
Lemma n_placed_le l : n_placed l <= blen l.
Proof. unfold n_placed, blen. pose proof (filter_length is_placed l). lia. Qed.
