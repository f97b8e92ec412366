(* Props_Log.v -- C63: the log keeps what was written last. *)
From Coq Require Import Strings.String.
From stdpp Require Import sorting.
From Verif Require Import GoBase FlagsModel LogModel LogProofs.
Local Open Scope N_scope.

(* ---- specification ---- *)
(* all that was logged, in order *)
Definition logged (tr : list levt) : bytes := concat ((fun e => match e with LWrite _ p => p | _ => [] end) <$> tr).
(* the day of the last line *)
Definition last_day (tr : list levt) : N := fold_left (fun x e => match e with LWrite d _ => d | _ => x end) tr 0.
(* the files in the directory, in the order of their names, and what is in them *)
Definition files (s : lst) : list bytes := merge_sort ordered (map_to_list (lDir s)).*1.
Definition in_files (s : lst) : bytes := concat ((fun n => lData s !!! (lDir s !!! n)) <$> files s).
(* a history from an empty directory *)
Inductive lexec (c : lcfg) : list levt -> lst -> Prop :=
  | lx_nil : lexec c [] (lst0 ∅ [])
  | lx_snoc tr s e s' : lexec c tr s -> lstep c s e s' -> lexec c (tr ++ [e]) s'.
(* ... in which the clock does not go back, no day has more than nine rotations for size, and the program is not restarted
   on a day that had one (unless nothing is logged on that day any more) *)
Inductive calm (c : lcfg) : list levt -> lst -> Prop :=
  | ca_nil : calm c [] (lst0 ∅ [])
  | ca_write tr s d p s' : calm c tr s -> lstep c s (LWrite d p) s' -> last_day tr <= d < 100000000 -> (lGen s' <= 9)%nat ->
      (lHandle s = None -> forall g, lDir s !! gname (bname (lPath c) d) (S g) = None) -> calm c (tr ++ [LWrite d p]) s'
  | ca_other tr s e s' : calm c tr s -> lstep c s e s' -> e = LUnlink \/ e = LRestart -> calm c (tr ++ [e]) s'.
Lemma calm_lexec c tr s : calm c tr s -> lexec c tr s.
Proof. induction 1; [constructor|by econstructor|by econstructor]. Qed.

(* ---- proofs ---- *)
Lemma logged_app a b : logged (a ++ b) = logged a ++ logged b.
Proof. unfold logged. by rewrite fmap_app, concat_app. Qed.
Lemma last_day_write tr d p : last_day (tr ++ [LWrite d p]) = d.
Proof. unfold last_day. by rewrite fold_left_app. Qed.
Lemma last_day_other tr e : e = LUnlink \/ e = LRestart -> last_day (tr ++ [e]) = last_day tr.
Proof. unfold last_day. rewrite fold_left_app. by intros [-> | ->]. Qed.
Lemma concat_alter_last (l : list bytes) p i : S i = length l -> concat (alter (fun x => x ++ p) i l) = concat l ++ p.
Proof.
  revert i. induction l as [|x l IH]; intros [|i] H; try done.
  - destruct l; [|done]. change (alter (fun x => x ++ p) 0%nat [x]) with [x ++ p]. cbn. by rewrite !app_nil_r.
  - change (alter (fun x => x ++ p) (S i) (x :: l)) with (x :: alter (fun x => x ++ p) i l). cbn [concat]. rewrite IH by (cbn in H; lia). by rewrite app_assoc.
Qed.

Lemma alter_new (l : list bytes) p : alter (fun x => x ++ p) (length l) (l ++ [[]]) = l ++ [p].
Proof. induction l as [|x l IH]; [done|]. cbn [length app]. change (alter (fun x => x ++ p) (S (length l)) (x :: l ++ [[]])) with (x :: alter (fun x => x ++ p) (length l) (l ++ [[]])). by rewrite IH. Qed.

Lemma free_gen_ge fuel dir b : forall x y, free_gen fuel dir b x = Some y -> (x <= y)%nat.
Proof. induction fuel as [|fuel IH]; intros x y H; [done|]. cbn [free_gen] in H. destruct (dir !! gname b x); [apply IH in H; lia|injection H as <-; lia]. Qed.

Definition piece (path : bytes) (fs : list (N * nat)) (iv : nat * nat) : list bytes := take (iv.2 - iv.1) (drop iv.1 (name path <$> fs)).
Record linv (c : lcfg) (tr : list levt) (s : lst) (fs : list (N * nat)) (k : nat) (ivs : list (nat * nat)) : Prop := {
  li_len : length (lData s) = length fs;
  li_dir : dir_of (lPath c) fs k (lDir s);
  li_sort : StronglySorted earlier fs;
  li_good : Forall good fs;
  li_logged : concat (lData s) = logged tr;
  li_k : (k <= length fs - lCount c)%nat;
  li_pend : lPend s = piece (lPath c) fs <$> ivs;
  li_ivs : Forall (fun iv => iv.1 <= k /\ iv.2 <= length fs - lCount c)%nat ivs;
  li_day : forall a, last fs = Some a -> a.1 = last_day tr;
  li_cur : (lHandle s = None /\ lBase s = [] /\ lCur s = [] /\ ivs = []) \/
           (exists a, last fs = Some a /\ lHandle s = Some (length fs - 1)%nat /\ lBase s = bname (lPath c) a.1 /\ lCur s = name (lPath c) a /\ lGen s = a.2 /\
              (length fs - lCount c <= k \/ exists x, (x, length fs - lCount c) ∈ ivs)%nat) }.

Lemma last_len {A} (l : list A) a : last l = Some a -> (0 < length l)%nat /\ l !! (length l - 1)%nat = Some a.
Proof. intros H. rewrite last_lookup in H. split; [|by replace (length l - 1)%nat with (pred (length l)) by lia]. destruct l; [done|cbn; lia]. Qed.
Lemma piece_snoc path fs a iv : (iv.2 <= length fs)%nat -> piece path (fs ++ [a]) iv = piece path fs iv.
Proof.
  intros H. destruct iv as [x y]. unfold piece. cbn [fst snd] in *. rewrite fmap_app. destruct (decide (x <= y)%nat) as [L|L].
  - rewrite drop_app_le by (rewrite fmap_length; lia). rewrite take_app_le; [done|]. rewrite drop_length, fmap_length. lia.
  - replace (y - x)%nat with 0%nat by lia. done.
Qed.
Lemma absent c fs k dir a : dir_of (lPath c) fs k dir -> Forall good fs -> good a -> Forall (fun x => earlier x a) fs -> dir !! name (lPath c) a = None.
Proof.
  intros HD HG Ga HF. destruct (dir !! name (lPath c) a) as [i|] eqn:E; [|done]. apply HD in E as [_ E]. rewrite list_lookup_fmap in E. apply fmap_Some in E as (b & Hb & E).
  apply elem_of_list_lookup_2 in Hb. rewrite Forall_forall in HF, HG. destruct (before_ne _ _ (name_before (lPath c) b a (HG b Hb) Ga (HF b Hb))). by rewrite E.
Qed.
Lemma dir_snoc c fs k dir a : dir_of (lPath c) fs k dir -> Forall good fs -> good a -> Forall (fun x => earlier x a) fs -> (k <= length fs)%nat ->
  dir_of (lPath c) (fs ++ [a]) k (<[name (lPath c) a := length fs]> dir).
Proof.
  intros HD HG Ga HF Hk n i. pose proof (absent c fs k dir a HD HG Ga HF) as HA. rewrite fmap_app. split.
  - intros H. apply lookup_insert_Some in H as [[<- <-]|[Hne H]].
    + split; [done|]. rewrite lookup_app_r by (rewrite fmap_length; lia). by rewrite fmap_length, Nat.sub_diag.
    + apply HD in H as [? H]. split; [done|]. by apply lookup_app_l_Some.
  - intros [H1 H2]. apply lookup_app_Some in H2 as [H2|[H2 H3]].
    + rewrite lookup_insert_ne; [by apply HD|]. intros E. assert (dir !! n = Some i) by by apply HD. congruence.
    + rewrite fmap_length in *. apply list_lookup_singleton_Some in H3 as [H3 <-]. replace i with (length fs) by lia. apply lookup_insert.
Qed.

(* a new file *)
Lemma linv_new c tr s fs k ivs d p g b a data : (0 < lCount c)%nat -> linv c tr s fs k ivs -> good a -> Forall (fun x => earlier x a) fs -> a.1 = d -> b = bname (lPath c) d -> g = a.2 ->
  data = lData s ++ [p] ->
  let dir := <[name (lPath c) a := length (lData s)]> (lDir s) in let m := matches (lPath c) dir in
  let pend := if (length m <=? lCount c)%nat then lPend s else lPend s ++ [take (length m - lCount c) m] in
  exists ivs', linv c (tr ++ [LWrite d p]) (mkL dir data b (name (lPath c) a) g (Some (length (lData s))) pend) (fs ++ [a]) k ivs'.
Proof.
  intros Hc [Hlen Hdir Hs Hg Hlog Hk Hp Hi Hd Hcur] Ga HF E1 -> -> -> dir m pend.
  assert (HD : dir_of (lPath c) (fs ++ [a]) k dir) by (unfold dir; rewrite Hlen; apply dir_snoc; try done; lia).
  assert (HS : StronglySorted earlier (fs ++ [a])) by by apply sorted_snoc.
  assert (HG : Forall good (fs ++ [a])) by (apply Forall_app; split; [done|by apply Forall_singleton]).
  assert (Em : m = drop k (name (lPath c) <$> (fs ++ [a]))) by (by apply dir_matches).
  assert (Lm : length m = (S (length fs) - k)%nat) by (rewrite Em, drop_length, fmap_length, app_length; cbn; lia).
  assert (Eo : piece (lPath c) (fs ++ [a]) <$> ivs = piece (lPath c) fs <$> ivs).
  { apply list_fmap_ext. intros i iv Hin. apply piece_snoc. apply elem_of_list_lookup_2 in Hin. rewrite Forall_forall in Hi. destruct (Hi _ Hin). lia. }
  assert (Ll : length (fs ++ [a]) = S (length fs)) by (rewrite app_length; cbn; lia).
  assert (B1 : length (lData s ++ [p]) = length (fs ++ [a])) by (rewrite !app_length; cbn; lia).
  assert (B2 : concat (lData s ++ [p]) = logged (tr ++ [LWrite d p])).
  { rewrite concat_app, logged_app, Hlog. unfold logged. cbn. done. }
  assert (B3 : forall z, last (fs ++ [a]) = Some z -> z.1 = last_day (tr ++ [LWrite d p])).
  { intros z Hz. rewrite last_snoc in Hz. injection Hz as <-. by rewrite last_day_write. }
  assert (B4 : (length (lData s) = length (fs ++ [a]) - 1)%nat) by lia.
  destruct (Nat.leb_spec (length m) (lCount c)) as [L|L]; unfold pend.
  - exists ivs. split; cbn [lData lDir lPend lHandle lBase lCur lGen]; try done; try lia.
    + by rewrite Eo.
    + eapply Forall_impl; [exact Hi|]. intros iv [? ?]. lia.
    + right. exists a. rewrite last_snoc. split; [done|]. split; [by rewrite B4|]. split; [by rewrite E1|]. split; [done|]. split; [done|]. left. lia.
  - exists (ivs ++ [(k, length (fs ++ [a]) - lCount c)%nat]). split; cbn [lData lDir lPend lHandle lBase lCur lGen]; try done; try lia.
    + rewrite fmap_app, Eo, Hp. cbn. do 2 f_equal. unfold piece. cbn [fst snd]. rewrite Em. f_equal. rewrite <- Em, Lm. lia.
    + apply Forall_app. split; [|apply Forall_singleton; cbn; lia]. eapply Forall_impl; [exact Hi|]. intros iv [? ?]. lia.
    + right. exists a. rewrite last_snoc. split; [done|]. split; [by rewrite B4|]. split; [by rewrite E1|]. split; [done|]. split; [done|]. right. exists k. set_solver.
Qed.

Lemma linv_write c tr s fs k ivs d p s' : (0 < lCount c)%nat -> linv c tr s fs k ivs -> lwrite c d p s = Some s' ->
  last_day tr <= d < 100000000 -> (lGen s' <= 9)%nat -> (lHandle s = None -> forall g, lDir s !! gname (bname (lPath c) d) (S g) = None) ->
  exists fs' ivs', linv c (tr ++ [LWrite d p]) s' fs' k ivs'.
Proof.
  intros Hc HI Hw Hday Hgen Hre. pose proof HI as [Hlen Hdir Hs Hg Hlog Hk Hp Hi Hd Hcur]. unfold lwrite in Hw.
  set (big := match lDir s !! lCur s with Some i => (0 <? lLimit c) && (lLimit c <=? blen (lData s !!! i)) | None => false end) in *.
  assert (Gd : good (d, 0%nat)) by (split; cbn; lia).
  assert (NewDay : Forall (fun x => earlier x (d, 0%nat)) fs ->
            (let dir := <[bname (lPath c) d := length (lData s)]> (lDir s) in let m := matches (lPath c) dir in
             let pend := if (length m <=? lCount c)%nat then lPend s else lPend s ++ [take (length m - lCount c) m] in
             s' = mkL dir (alter (fun x => x ++ p) (length (lData s)) (lData s ++ [[]])) (bname (lPath c) d) (bname (lPath c) d) 0 (Some (length (lData s))) pend) ->
            exists fs' ivs', linv c (tr ++ [LWrite d p]) s' fs' k ivs').
  { intros HF ->. rewrite (base_name (lPath c) d).
    destruct (linv_new c tr s fs k ivs d p 0%nat (bname (lPath c) d) (d, 0%nat) (lData s ++ [p]) Hc HI Gd HF eq_refl eq_refl eq_refl eq_refl) as [ivs' H'].
    exists (fs ++ [(d, 0%nat)]), ivs'. replace (alter (fun x => x ++ p) (length (lData s)) (lData s ++ [[]])) with (lData s ++ [p]); [exact H'|].
    by rewrite alter_new. }
  destruct Hcur as [(Eh & Eb & Ec & ->)|([d0 g0] & El & Eh & Eb & Ec & Egn & Ecase)].
  - (* first write of a process *)
    assert (big = false) as Ebig.
    { unfold big. rewrite Ec. destruct (lDir s !! []) as [i|] eqn:E; [|done]. apply Hdir in E as [_ E]. rewrite list_lookup_fmap in E. apply fmap_Some in E as (b & Hb & E).
      destruct (name_nonempty (lPath c) b); [|done]. rewrite Forall_forall in Hg. apply Hg. by eapply elem_of_list_lookup_2. }
    assert (bname (lPath c) d <> lBase s) as Hne by (rewrite Eb; by destruct (lPath c)).
    rewrite bool_decide_eq_false_2 in Hw by done. rewrite Ebig in Hw. cbn [andb negb mbind option_bind] in Hw.
    destruct (last fs) as [[d0 g0]|] eqn:El.
    + pose proof (Hd _ eq_refl) as Ed. cbn [fst] in Ed. destruct (decide (d0 = d)) as [->|Hne2].
      * (* today's file is there *)
        destruct (last_len _ _ El) as [Hl1 Hl2].
        assert (g0 = 0%nat) as ->.
        { destruct g0 as [|g0]; [done|]. exfalso. specialize (Hre Eh g0). assert (lDir s !! gname (bname (lPath c) d) (S g0) = Some (length fs - 1)%nat); [|congruence].
          apply Hdir. split; [lia|]. rewrite list_lookup_fmap, Hl2. done. }
        assert (lDir s !! bname (lPath c) d = Some (length fs - 1)%nat) as Ef by (apply Hdir; split; [lia|]; rewrite list_lookup_fmap, Hl2; done).
        rewrite Ef in Hw. injection Hw as <-. rewrite (dir_matches _ _ _ _ Hs Hg Hdir). set (m := drop k (name (lPath c) <$> fs)).
        assert (Lm : length m = (length fs - k)%nat) by (unfold m; rewrite drop_length, fmap_length; lia).
        assert (B2 : concat (alter (fun x => x ++ p) (length fs - 1)%nat (lData s)) = logged (tr ++ [LWrite d p])).
        { rewrite concat_alter_last by lia. rewrite logged_app, Hlog. unfold logged. cbn. by rewrite app_nil_r. }
        exists fs. destruct (Nat.leb_spec (length m) (lCount c)) as [L|L].
        -- exists []. split; cbn [lData lDir lPend lHandle lBase lCur lGen]; try done; try lia.
           ++ by rewrite alter_length.
           ++ intros a Ha. rewrite last_day_write. rewrite El in Ha. injection Ha as <-. done.
           ++ right. exists (d, 0%nat). repeat split; try done. left. lia.
        -- exists [(k, length fs - lCount c)%nat]. split; cbn [lData lDir lPend lHandle lBase lCur lGen]; try done; try lia.
           ++ by rewrite alter_length.
           ++ rewrite Hp. cbn. do 2 f_equal. lia.
           ++ apply Forall_singleton. cbn. lia.
           ++ intros a Ha. rewrite last_day_write. rewrite El in Ha. injection Ha as <-. done.
           ++ right. exists (d, 0%nat). repeat split; try done. right. exists k. set_solver.
      * assert (Forall (fun x => earlier x (d, 0%nat)) fs) as HF by (eapply sorted_last; [done|exact El|]; left; cbn; lia).
        apply NewDay; [done|]. pose proof (absent c fs k (lDir s) _ Hdir Hg Gd HF) as HA. rewrite <- base_name in HA. rewrite HA in Hw. by injection Hw as <-.
    + apply last_None in El. subst fs. assert (Forall (fun x => earlier x (d, 0%nat)) []) as HF by constructor.
      apply NewDay; [done|]. pose proof (absent c [] k (lDir s) _ Hdir Hg Gd HF) as HA. rewrite <- base_name in HA. rewrite HA in Hw. by injection Hw as <-.
  - pose proof (Hd _ El) as Ed. cbn [fst snd] in *. destruct (last_len _ _ El) as [Hl1 Hl2].
    assert (Ga : good (d0, g0)) by (rewrite Forall_forall in Hg; apply Hg; by eapply elem_of_list_lookup_2).
    assert (Hbase : bname (lPath c) d = lBase s <-> d = d0).
    { rewrite Eb, !base_name. split; [|by intros ->]. intros E. apply name_inj in E; [by injection E|done|]. split; cbn; [apply Ga|lia]. }
    destruct (decide (d = d0)) as [E0|Hne].
    + (* the same day *)
      rewrite (bool_decide_eq_true_2 _ (proj2 Hbase E0)) in Hw. cbn [andb] in Hw. rewrite <- E0 in *. clear E0 d0. destruct big eqn:Ebig; cbn [negb] in Hw.
      * (* too large *)
        assert (S g0 <= 9)%nat as Lg.
        { destruct (free_gen (S (size (lDir s))) (lDir s) (bname (lPath c) d) (S (lGen s))) as [g|] eqn:Ef; cbn [mbind option_bind] in Hw; [|done].
          apply free_gen_ge in Ef. rewrite Egn in Ef. assert (lGen s' = g) as <- by (destruct (lDir s !! gname (bname (lPath c) d) g); by injection Hw as <-). lia. }
        assert (Ga2 : good (d, S g0)) by (split; cbn; lia).
        assert (HF : Forall (fun x => earlier x (d, S g0)) fs) by (eapply sorted_last; [done|exact El|]; right; cbn; lia).
        pose proof (absent c fs k (lDir s) _ Hdir Hg Ga2 HF) as HA. change (name (lPath c) (d, S g0)) with (gname (bname (lPath c) d) (S g0)) in HA.
        cbn [free_gen] in Hw. rewrite Egn, HA in Hw. cbn [mbind option_bind] in Hw. rewrite HA in Hw. injection Hw as <-.
        destruct (linv_new c tr s fs k ivs d p (S g0) (bname (lPath c) d) (d, S g0) (lData s ++ [p]) Hc HI Ga2 HF eq_refl eq_refl eq_refl eq_refl) as [ivs' H'].
        exists (fs ++ [(d, S g0)]), ivs'. replace (alter (fun x => x ++ p) (length (lData s)) (lData s ++ [[]])) with (lData s ++ [p]); [exact H'|].
        by rewrite alter_new.
      * rewrite Eh in Hw. cbn [mbind option_bind] in Hw. injection Hw as <-. exists fs, ivs.
        split; cbn [lData lDir lPend lHandle lBase lCur lGen]; try done.
        -- by rewrite alter_length.
        -- rewrite concat_alter_last by lia. rewrite logged_app, Hlog. unfold logged. cbn. by rewrite app_nil_r.
        -- intros a Ha. rewrite last_day_write. rewrite El in Ha. injection Ha as <-. done.
        -- right. exists (d, g0). repeat split; done.
    + (* another day *)
      rewrite bool_decide_eq_false_2 in Hw by (rewrite Hbase; done). cbn [andb] in Hw.
      assert (Forall (fun x => earlier x (d, 0%nat)) fs) as HF by (eapply sorted_last; [done|exact El|]; left; cbn; lia).
      pose proof (absent c fs k (lDir s) _ Hdir Hg Gd HF) as HA. rewrite <- base_name in HA.
      apply NewDay; [done|]. destruct big; cbn [free_gen gname] in Hw; rewrite ?HA in Hw; cbn [mbind option_bind gname] in Hw; rewrite ?HA in Hw; by injection Hw as <-.
Qed.

Lemma linv_other c tr s fs k ivs e s' : (0 < lCount c)%nat -> linv c tr s fs k ivs -> lstep c s e s' -> e = LUnlink \/ e = LRestart ->
  exists k' ivs', linv c (tr ++ [e]) s' fs k' ivs'.
Proof.
  intros Hc HI Hst He. pose proof HI as [Hlen Hdir Hs Hg Hlog Hk Hp Hi Hd Hcur].
  assert (Elog : logged (tr ++ [e]) = logged tr) by (rewrite logged_app; unfold logged; destruct He as [-> | ->]; cbn; by rewrite !app_nil_r).
  assert (Eday : last_day (tr ++ [e]) = last_day tr) by by apply last_day_other.
  destruct Hst as [s d p s' Hw|dir data b u g h p1 n r p2|dir data b u g h pd]; [by destruct He| |]; cbn [lData lDir lPend lHandle lBase lCur lGen] in *.
  - (* unlink *)
    symmetry in Hp. apply fmap_app_inv in Hp as (i1 & i2 & E1 & E2 & ->). symmetry in E2. destruct i2 as [|[x y] i2]; [done|]. cbn in E2. injection E2 as E2 E3.
    apply Forall_app in Hi as [Hi1 Hi2]. apply Forall_cons in Hi2 as [[Hx Hy] Hi2]. cbn [fst snd] in *.
    assert (x < y)%nat as Lxy by (unfold piece in E2; cbn [fst snd] in E2; destruct (decide (x < y)%nat); [done|]; replace (y - x)%nat with 0%nat in E2 by lia; done).
    assert ((name (lPath c) <$> fs) !! x = Some n /\ piece (lPath c) fs (S x, y) = r) as [Hn Hr].
    { unfold piece in *. cbn [fst snd] in *. destruct (drop x (name (lPath c) <$> fs)) as [|z l] eqn:Edr.
      - by rewrite take_nil in E2.
      - replace (y - x)%nat with (S (y - S x))%nat in E2 by lia. cbn in E2. injection E2 as -> Er. split.
        + replace x with (x + 0)%nat by lia. rewrite <- lookup_drop, Edr. done.
        + rewrite <- Er. f_equal. replace (S x) with (x + 1)%nat by lia. rewrite <- drop_drop, Edr. done. }
    pose proof (sorted_nodup (lPath c) fs Hs Hg) as ND.
    destruct (decide (x < k)%nat) as [L|L].
    + exists k, (i1 ++ (S x, y) :: i2).
      assert (dir !! n = None) as HA.
      { destruct (dir !! n) as [i|] eqn:E; [|done]. apply Hdir in E as [E E']. assert (i = x) by (by eapply NoDup_lookup). lia. }
      rewrite delete_notin by done. split; cbn [lData lDir lPend lHandle lBase lCur lGen]; try done; try congruence.
      * rewrite fmap_app, fmap_cons. rewrite Hr. congruence.
      * apply Forall_app. split; [done|]. apply Forall_cons. split; [cbn; lia|done].
      * intros a Ha. rewrite Eday. auto.
      * destruct Hcur as [(? & ? & ? & E)|(a & ? & ? & ? & ? & ? & Hcase)]; [by destruct i1|]. right. exists a. repeat split; try done.
        destruct Hcase as [?|[z Hz]]; [by left|]. right. apply elem_of_app in Hz as [Hz|Hz]; [exists z; set_solver|]. apply elem_of_cons in Hz as [[= -> <-]|Hz]; [exists (S x); set_solver|exists z; set_solver].
    + assert (x = k) as -> by lia. exists (S k), (i1 ++ (S k, y) :: i2). split; cbn [lData lDir lPend lHandle lBase lCur lGen]; try done; try congruence; try lia.
      * intros m i. split.
        -- intros H. apply lookup_delete_Some in H as [Hne H]. apply Hdir in H as [? H]. split; [|done]. assert (i <> k); [|lia]. intros ->. congruence.
        -- intros [? H]. rewrite lookup_delete_ne; [apply Hdir; split; [lia|done]|]. intros ->. assert (i = k) by (by eapply NoDup_lookup). lia.
      * rewrite fmap_app, fmap_cons. rewrite Hr. congruence.
      * apply Forall_app. split; [eapply Forall_impl; [exact Hi1|]; intros iv [? ?]; lia|]. apply Forall_cons. split; [cbn; lia|]. eapply Forall_impl; [exact Hi2|]. intros iv [? ?]. lia.
      * intros a Ha. rewrite Eday. auto.
      * destruct Hcur as [(? & ? & ? & E)|(a & ? & ? & ? & ? & ? & Hcase)]; [by destruct i1|]. right. exists a. repeat split; try done.
        destruct Hcase as [?|[z Hz]]; [left; lia|]. right. apply elem_of_app in Hz as [Hz|Hz]; [exists z; set_solver|]. apply elem_of_cons in Hz as [[= -> <-]|Hz]; [exists (S k); set_solver|exists z; set_solver].
  - exists k, []. split; cbn [lData lDir lPend lHandle lBase lCur lGen]; try done; try congruence.
    + intros a Ha. rewrite Eday. auto.
    + left. done.
Qed.
Lemma linv_calm c tr s : (0 < lCount c)%nat -> calm c tr s -> exists fs k ivs, linv c tr s fs k ivs.
Proof.
  intros Hc. induction 1 as [|tr s d p s' H IH Hs Hd Hg Hr|tr s e s' H IH Hs He].
  - exists [], 0%nat, []. split; cbn; try done; try lia.
    + intros n i. rewrite lookup_empty. split; [done|]. by intros [_ ?].
    + constructor.
    + by left.
  - destruct IH as (fs & k & ivs & HI). inversion Hs; subst. destruct (linv_write c tr s fs k ivs d p s' Hc HI) as (fs' & ivs' & ?); try done. by exists fs', k, ivs'.
  - destruct IH as (fs & k & ivs & HI). destruct (linv_other _ _ _ _ _ _ _ _ Hc HI Hs He) as (k' & ivs' & ?). by exists fs, k', ivs'.
Qed.

Lemma linv_files c tr s fs k ivs : linv c tr s fs k ivs -> files s = drop k (name (lPath c) <$> fs) /\ in_files s = concat (drop k (lData s)).
Proof.
  intros [Hlen Hdir Hs Hg Hlog Hk Hp Hi Hd Hcur].
  assert (E : files s = drop k (name (lPath c) <$> fs)).
  { unfold files. eapply (StronglySorted_unique ordered).
    - apply Sorted_StronglySorted; [apply _|]. apply (Sorted_merge_sort ordered).
    - apply sorted_drop. by apply sorted_names.
    - rewrite merge_sort_Permutation. by apply dir_names. }
  split; [done|]. unfold in_files. rewrite E. f_equal. apply list_eq. intros i. rewrite list_lookup_fmap, !lookup_drop.
  destruct ((name (lPath c) <$> fs) !! (k + i)%nat) as [n|] eqn:En; cbn.
  - assert (lDir s !! n = Some (k + i)%nat) as Ed by (apply Hdir; split; [lia|done]). rewrite (lookup_total_correct _ _ _ Ed).
    apply lookup_lt_Some in En. rewrite fmap_length in En. destruct (lookup_lt_is_Some_2 (lData s) (k + i)%nat) as [x Hx]; [lia|]. by rewrite Hx, (list_lookup_total_correct _ _ _ Hx).
  - apply lookup_ge_None in En. rewrite fmap_length in En. symmetry. apply lookup_ge_None. lia.
Qed.

(* What is in the files, read in the order of their names, is all that was logged except a part at the beginning; and
   something is missing there only while at least the configured number of files is kept. *)
Theorem C63_only_the_oldest_goes_partial : forall c tr s, (0 < lCount c)%nat -> calm c tr s ->
  exists gone, logged tr = gone ++ in_files s /\ (gone <> [] -> (lCount c <= length (files s))%nat).
Proof.
  intros c tr s Hc H. destruct (linv_calm _ _ _ Hc H) as (fs & k & ivs & HI). destruct (linv_files _ _ _ _ _ _ HI) as [E1 E2]. destruct HI.
  exists (concat (take k (lData s))). split.
  - by rewrite E2, <- concat_app, take_drop.
  - intros Hne. rewrite E1, drop_length, fmap_length. assert (k <> 0%nat) by (by intros ->). lia.
Qed.
(* Once the unlinking goroutines are done, no more than the configured number of files is left. *)
Theorem C63_bounded_partial : forall c tr s, (0 < lCount c)%nat -> calm c tr s -> lHandle s <> None -> Forall (fun l => l = []) (lPend s) ->
  (length (files s) <= lCount c)%nat.
Proof.
  intros c tr s Hc H Hh Hp. destruct (linv_calm _ _ _ Hc H) as (fs & k & ivs & HI). destruct (linv_files _ _ _ _ _ _ HI) as [E1 _]. destruct HI as [? ? ? ? ? Hk Hpe Hi ? Hcur].
  rewrite E1, drop_length, fmap_length. destruct Hcur as [[? _]|(a & _ & _ & _ & _ & _ & [?|[x Hx]])]; [done|lia|].
  rewrite Hpe in Hp. rewrite Forall_fmap, Forall_forall in Hp. specialize (Hp _ Hx). cbn in Hp. rewrite Forall_forall in Hi. destruct (Hi _ Hx) as [Hxk _]. cbn in Hxk.
  apply (f_equal length) in Hp. unfold piece in Hp. cbn [fst snd] in Hp. rewrite take_length, drop_length, fmap_length in Hp. cbn in Hp. lia.
Qed.
(* The file being written is always there. *)
Theorem C63_current_kept_partial : forall c tr s i, (0 < lCount c)%nat -> calm c tr s -> lHandle s = Some i -> lDir s !! lCur s = Some i.
Proof.
  intros c tr s i Hc H Hh. destruct (linv_calm _ _ _ Hc H) as (fs & k & ivs & HI). destruct HI as [? Hdir ? ? ? Hk ? ? ? Hcur].
  destruct Hcur as [[? _]|(a & El & Eh & _ & Ec & _)]; [congruence|]. rewrite Eh in Hh. injection Hh as <-. apply last_len in El as [? El]. apply Hdir. split; [lia|].
  by rewrite list_lookup_fmap, El, Ec.
Qed.
(* A file that has reached the configured size gets nothing more. *)
Lemma free_gen_none fuel dir b : forall x y, free_gen fuel dir b x = Some y -> dir !! gname b y = None.
Proof. induction fuel as [|fuel IH]; intros x y H; [done|]. cbn [free_gen] in H. destruct (dir !! gname b x) eqn:E; [by apply IH in H|by injection H as <-]. Qed.
Theorem C63_full_is_full_partial : forall c tr s d p s' j, (0 < lCount c)%nat -> calm c tr s -> lHandle s <> None -> lwrite c d p s = Some s' -> last_day tr <= d < 100000000 ->
  (j < length (lData s))%nat -> 0 < lLimit c <= blen (lData s !!! j) -> lData s' !! j = lData s !! j.
Proof.
  intros c tr s d p s' j Hc H Hh Hw Hday Hj Hfull. destruct (lHandle s) as [i|] eqn:Eh; [|done].
  pose proof (C63_current_kept_partial c tr s i Hc H Eh) as Hcur. destruct (linv_calm _ _ _ Hc H) as (fs & k & ivs & HI).
  unfold lwrite in Hw. rewrite Hcur, Eh in Hw. set (big := (0 <? lLimit c) && (lLimit c <=? blen (lData s !!! i))) in *.
  assert (New : forall fn dir' g b pd, lDir s !! fn = None -> s' = mkL dir' (alter (fun x => x ++ p) (length (lData s)) (lData s ++ [[]])) b fn g (Some (length (lData s))) pd -> lData s' !! j = lData s !! j).
  { intros fn dir' g b pd _ ->. cbn [lData]. rewrite alter_new. by apply lookup_app_l. }
  destruct big eqn:Ebig.
  - rewrite andb_false_r in Hw. destruct (free_gen _ _ _ _) as [g|] eqn:Ef; cbn [mbind option_bind] in Hw; [|done]. apply free_gen_none in Ef. rewrite Ef in Hw.
    injection Hw as <-. by eapply New.
  - rewrite andb_true_r in Hw. case_bool_decide as Eb.
    + cbn [mbind option_bind] in Hw. injection Hw as <-. cbn [lData]. apply list_lookup_alter_ne. intros ->. unfold big in Ebig.
      apply andb_false_iff in Ebig as [E|E]; [apply N.ltb_ge in E; lia|apply N.leb_gt in E; lia].
    + cbn [mbind option_bind] in Hw. destruct HI as [Hlen Hdir Hs Hg Hlog Hk Hp Hi Hd Hcu]. destruct Hcu as [[? _]|(a & El & _ & Ebase & _)]; [congruence|].
      assert (Hne : a.1 <> d) by (intros E; apply Eb; by rewrite Ebase, E). pose proof (Hd _ El) as Ed.
      assert (Forall (fun x => earlier x (d, 0%nat)) fs) as HF by (eapply sorted_last; [done|exact El|]; left; cbn; lia).
      assert (Gd : good (d, 0%nat)) by (split; cbn; lia).
      pose proof (absent c fs k (lDir s) _ Hdir Hg Gd HF) as HA. rewrite <- base_name in HA. rewrite HA in Hw. injection Hw as <-. by eapply New.
Qed.

(* ---- runs ---- *)
Fixpoint pop (pd : list (list bytes)) : option (bytes * list (list bytes)) :=
  match pd with [] => None | (n :: r) :: pd => Some (n, r :: pd) | [] :: pd => '(n, q) ← pop pd; Some (n, [] :: q) end.
Lemma pop_spec pd n q : pop pd = Some (n, q) -> exists p1 r p2, pd = p1 ++ (n :: r) :: p2 /\ q = p1 ++ r :: p2.
Proof.
  revert n q. induction pd as [|[|m r] pd IH]; intros n q H; [done| |].
  - cbn in H. destruct (pop pd) as [[m q']|]; cbn in H; [|done]. injection H as -> <-. destruct (IH _ _ eq_refl) as (p1 & r & p2 & -> & ->). by exists ([] :: p1), r, p2.
  - injection H as -> <-. by exists [], r, pd.
Qed.
Definition run1 (c : lcfg) (e : levt) (s : lst) : option lst :=
  match e with
  | LWrite d p => lwrite c d p s
  | LUnlink => '(n, q) ← pop (lPend s); Some (mkL (delete n (lDir s)) (lData s) (lBase s) (lCur s) (lGen s) (lHandle s) q)
  | LRestart => Some (mkL (lDir s) (lData s) [] [] 0 None [])
  end.
Lemma run1_step c e s s' : run1 c e s = Some s' -> lstep c s e s'.
Proof.
  destruct e as [d p| |]; cbn.
  - by constructor.
  - destruct (pop (lPend s)) as [[n q]|] eqn:E; cbn; [|done]. intros [= <-]. apply pop_spec in E as (p1 & r & p2 & E & ->). destruct s as [a b u v w x y]. cbn in *. subst y. apply l_unlink.
  - intros [= <-]. destruct s. apply l_restart.
Qed.
Definition run (c : lcfg) (tr : list levt) (s : lst) : option lst := fold_left (fun o e => s ← o; run1 c e s) tr (Some s).
Lemma run_app c a b s : run c (a ++ b) s = s' ← run c a s; run c b s'.
Proof.
  unfold run. rewrite fold_left_app. destruct (fold_left _ a (Some s)) as [s'|]; [done|]. cbn. induction b as [|e b IH]; [done|]. cbn. apply IH.
Qed.
Lemma run_exec c tr0 s0 tr s : lexec c tr0 s0 -> run c tr s0 = Some s -> lexec c (tr0 ++ tr) s.
Proof.
  revert tr0 s0. induction tr as [|e tr IH]; intros tr0 s0 H0 H.
  - cbn in H. injection H as <-. by rewrite app_nil_r.
  - change (e :: tr) with ([e] ++ tr) in H. rewrite run_app in H. cbn in H. destruct (run1 c e s0) as [s1|] eqn:E; cbn in H; [|done].
    change (e :: tr) with ([e] ++ tr). rewrite app_assoc. eapply IH; [|exact H]. econstructor; [exact H0|by apply run1_step].
Qed.
(* one line a file: with the last file reached, whatever is done with the clean-up *)
Definition demo (n : nat) : lcfg := mkLCfg (bs "gt.log") 1 n.
Notation lines l := ((fun x : N => LWrite 20260101 [x]) <$> l).

(* The current file is gone: from then on nothing that is logged on that day can be found in any file. *)
Lemma lost_for_the_day c s d i : lBase s = bname (lPath c) d -> lHandle s = Some i -> lDir s !! lCur s = None -> (forall n j, lDir s !! n = Some j -> j <> i) ->
  forall ps, exists s', run c (LWrite d <$> ps) s = Some s' /\ lDir s' = lDir s /\ (forall n j, lDir s !! n = Some j -> lData s' !! j = lData s !! j).
Proof.
  intros Hb Hh Hc Hi ps.
  assert (G : exists s', run c (LWrite d <$> ps) s = Some s' /\ lDir s' = lDir s /\ lBase s' = lBase s /\ lHandle s' = lHandle s /\ lCur s' = lCur s /\ (forall n j, lDir s !! n = Some j -> lData s' !! j = lData s !! j)).
  2:{ destruct G as (s' & ? & ? & _ & _ & _ & ?). by exists s'. }
  induction ps as [|p ps IH] using rev_ind; [by exists s|]. destruct IH as (s' & E1 & E2 & E3 & E4 & E5 & E6).
  rewrite fmap_app, run_app, E1. cbn. unfold run. cbn [fmap list_fmap fold_left mbind option_bind run1]. unfold lwrite. rewrite E5, E2, Hc, E3, Hb, E4, Hh.
  rewrite bool_decide_eq_true_2 by done. cbn [andb negb mbind option_bind]. eexists. split; [done|]. cbn [lDir lBase lHandle lCur lData]. repeat split; try congruence.
  intros n j Hn. rewrite list_lookup_alter_ne; [by eapply E6|]. intros ->. by eapply Hi.
Qed.

(* Ten rotations in a day, with the default of seven files: "gt.log.20260101.10" is taken for older than
   "gt.log.20260101.3" and is removed while it is being written; the rest of the day is lost *)
Definition ten : list levt := lines [1; 2; 3; 4; 5; 6; 7; 8] ++ [LUnlink] ++ lines [9] ++ [LUnlink] ++ lines [10] ++ [LUnlink] ++ lines [11] ++ [LUnlink].
Theorem C63_ten_rotations_refuted : exists s, lexec (demo 7) ten s /\ in_files s = [4; 5; 6; 7; 8; 9; 10] /\ logged ten = [1; 2; 3; 4; 5; 6; 7; 8; 9; 10; 11] /\
  forall ps, exists s', lexec (demo 7) (ten ++ (LWrite 20260101 <$> ps)) s' /\ in_files s' = in_files s.
Proof.
  destruct (run (demo 7) ten (lst0 ∅ [])) as [s|] eqn:E; [|by vm_compute in E].
  assert (X : lexec (demo 7) ten s) by (apply (run_exec _ [] _ _ _ (lx_nil _) E)).
  vm_compute in E. injection E as E. exists s. split; [done|]. split; [by rewrite <- E; vm_compute|]. split; [by vm_compute|].
  intros ps. destruct (lost_for_the_day (demo 7) s 20260101 10%nat) with (ps := ps) as (s' & E1 & E2 & E3).
  - by rewrite <- E; vm_compute.
  - by rewrite <- E.
  - by rewrite <- E; vm_compute.
  - intros n j Hn ->. rewrite <- E in Hn. cbn [lDir] in Hn. apply elem_of_map_to_list in Hn.
    match type of Hn with (n, 10%nat) ∈ ?l => let l' := eval vm_compute in l in change l with l' in Hn end.
    repeat (apply elem_of_cons in Hn as [Hn|Hn]; [done|]). by apply elem_of_nil in Hn.
  - exists s'. split; [by eapply run_exec|]. unfold in_files, files. rewrite E2. f_equal. apply list_fmap_ext. intros q n Hn. apply elem_of_list_lookup_2 in Hn.
    rewrite merge_sort_Permutation in Hn. apply elem_of_list_fmap in Hn as ([m j] & -> & Hm). apply elem_of_map_to_list in Hm. cbn. rewrite (lookup_total_correct _ _ _ Hm).
    rewrite !list_lookup_total_alt. by rewrite (E3 _ _ Hm).
Qed.
(* A restart on a day that had more rotations than files are kept: the new process starts again with the first name of the
   day, which is the first to be removed *)
Definition again : list levt := lines [1; 2; 3] ++ [LUnlink; LRestart] ++ lines [4; 5] ++ [LUnlink] ++ lines [6].
Theorem C63_restart_refuted : exists s, lexec (demo 2) again s /\ logged again = [1; 2; 3; 4; 5; 6] /\ 4 ∉ in_files s /\ 2 ∈ in_files s.
Proof.
  destruct (run (demo 2) again (lst0 ∅ [])) as [s|] eqn:E; [|by vm_compute in E].
  assert (X : lexec (demo 2) again s) by (apply (run_exec _ [] _ _ _ (lx_nil _) E)).
  vm_compute in E. injection E as E. exists s. split; [done|]. split; [by vm_compute|]. rewrite <- E. split; by apply (bool_decide_unpack _).
Qed.
(* Somebody else's file whose name begins like the log's is removed as well *)
Theorem C63_foreign_refuted : exists s, run (demo 1) (lines [7] ++ [LUnlink]) (lst0 {[ bs "gt.log.1" := 0%nat ]} [[42]]) = Some s /\ lDir s !! bs "gt.log.1" = None.
Proof. eexists. split; [vm_compute; reflexivity|by vm_compute]. Qed.

(* ---- a calm history in which something is removed ---- *)
Theorem C63_witness : exists tr s, calm (demo 2) tr s /\ logged tr = [1; 2; 3; 4] /\ in_files s = [3; 4] /\ lHandle s <> None /\ Forall (fun l => l = []) (lPend s).
Proof.
  assert (W : forall c tr s d p s', calm c tr s -> lwrite c d p s = Some s' -> (last_day tr <=? d) && (d <? 100000000) && (lGen s' <=? 9)%nat && (match lHandle s with None => bool_decide (lDir s = ∅) | _ => true end) = true ->
            calm c (tr ++ [LWrite d p]) s').
  { intros c tr s d p s' H Hw B. apply andb_true_iff in B as [B B4]. apply andb_true_iff in B as [B B3]. apply andb_true_iff in B as [B1 B2].
    apply N.leb_le in B1. apply N.ltb_lt in B2. apply Nat.leb_le in B3. eapply ca_write; [done|by constructor|done|done|]. intros E g. rewrite E in B4.
    apply bool_decide_eq_true in B4. by rewrite B4, lookup_empty. }
  assert (U : forall c tr s s', calm c tr s -> run1 c LUnlink s = Some s' -> calm c (tr ++ [LUnlink]) s').
  { intros c tr s s' H E. eapply ca_other; [done|by apply run1_step|by left]. }
  pose proof (ca_nil (demo 2)) as H.
  Local Ltac wr W H d p := match type of H with calm ?c ?tr ?s => let r := eval vm_compute in (lwrite c d p s) in match r with Some ?s' => apply (W c tr s d p s') in H; [|vm_compute; reflexivity|vm_compute; reflexivity] end end.
  Local Ltac un U H := match type of H with calm ?c ?tr ?s => let r := eval vm_compute in (run1 c LUnlink s) in match r with Some ?s' => apply (U c tr s s') in H; [|vm_compute; reflexivity] end end.
  wr W H 20260101 [1]. wr W H 20260101 [2]. wr W H 20260101 [3]. un U H. wr W H 20260102 [4]. un U H.
  eexists _, _. split; [exact H|]. split; [by vm_compute|]. split; [by vm_compute|]. split; [done|]. by repeat constructor.
Qed.
