(* LogProofs.v -- lemmas for C63: the order of the file names, and what the model does to the list of files ever made *)
From Coq Require Import Strings.String.
From stdpp Require Import sorting.
From Verif Require Import GoBase FlagsModel LogModel.
Local Open Scope N_scope.

(* ---- the order of names ---- *)
Lemma lexle_app p a b : lexle (p ++ a) (p ++ b) = lexle a b.
Proof. induction p as [|x p IH]; [done|]. cbn. by rewrite N.ltb_irrefl. Qed.
Lemma lexle_total a b : lexle a b = true \/ lexle b a = true.
Proof.
  revert b. induction a as [|x a IH]; intros [|y b]; cbn; auto. destruct (N.ltb_spec x y); [auto|]. destruct (N.ltb_spec y x); [auto|]. apply IH.
Qed.
Lemma lexle_antisym a b : lexle a b = true -> lexle b a = true -> a = b.
Proof.
  revert b. induction a as [|x a IH]; intros [|y b]; cbn; try done.
  destruct (N.ltb_spec x y) as [L|L], (N.ltb_spec y x) as [L'|L']; try done; try lia. intros H1 H2. f_equal; [lia|by apply IH].
Qed.
Lemma lexle_trans a b c : lexle a b = true -> lexle b c = true -> lexle a c = true.
Proof.
  revert b c. induction a as [|x a IH]; intros [|y b] [|z c]; cbn; try done.
  destruct (N.ltb_spec x y) as [L|L], (N.ltb_spec y z) as [M|M], (N.ltb_spec x z) as [K|K]; try done; try lia;
    destruct (N.ltb_spec y x) as [L'|L'], (N.ltb_spec z y) as [M'|M'], (N.ltb_spec z x) as [K'|K']; try done; try lia.
  apply IH.
Qed.
#[global] Instance ordered_trans : Transitive ordered. Proof. intros a b c. apply lexle_trans. Qed.
#[global] Instance ordered_total : Total ordered. Proof. intros a b. apply lexle_total. Qed.
#[global] Instance ordered_antisym : AntiSymm (=) ordered. Proof. intros a b. apply lexle_antisym. Qed.
Definition before (a b : bytes) : Prop := lexle a b = true /\ lexle b a = false.
Lemma before_ne a b : before a b -> a <> b.
Proof. intros [H1 H2] ->. congruence. Qed.
Lemma before_app p a b : before a b -> before (p ++ a) (p ++ b).
Proof. unfold before. by rewrite !lexle_app. Qed.

Fixpoint digits (m : nat) (d : N) : bytes := match m with O => [] | S m => (48 + d / 10 ^ N.of_nat m mod 10) :: digits m d end.
Lemma dec8_digits d : dec8 d = digits 8 d.
Proof. reflexivity. Qed.
Lemma digits_before m d d' x y : d mod 10 ^ N.of_nat m < d' mod 10 ^ N.of_nat m -> before (digits m d ++ x) (digits m d' ++ y).
Proof.
  induction m as [|m IH]; [change (10 ^ N.of_nat 0) with 1; rewrite !N.mod_1_r; lia|]. intros H.
  assert (Hp : 10 ^ N.of_nat m <> 0) by (apply N.pow_nonzero; done).
  assert (E : forall z, z mod 10 ^ N.of_nat (S m) = z mod 10 ^ N.of_nat m + 10 ^ N.of_nat m * (z / 10 ^ N.of_nat m mod 10)).
  { intros z. rewrite Nat2N.inj_succ, N.pow_succ_r'. rewrite (N.mul_comm 10). by rewrite N.mod_mul_r. }
  rewrite !E in H. cbn [digits app]. set (q := d / 10 ^ N.of_nat m mod 10) in *. set (q' := d' / 10 ^ N.of_nat m mod 10) in *.
  pose proof (N.mod_upper_bound d (10 ^ N.of_nat m) Hp). pose proof (N.mod_upper_bound d' (10 ^ N.of_nat m) Hp).
  set (P := 10 ^ N.of_nat m) in *. clearbody P q q'. clear E.
  destruct (N.lt_trichotomy q q') as [L|[->|L]].
  - unfold before. cbn. replace (48 + q <? 48 + q') with true by (symmetry; apply N.ltb_lt; lia).
    replace (48 + q' <? 48 + q) with false by (symmetry; apply N.ltb_ge; lia). done.
  - assert (B : before (digits m d ++ x) (digits m d' ++ y)) by (apply IH; lia). destruct B as [B1 B2]. unfold before. cbn. rewrite N.ltb_irrefl. done.
  - exfalso. nia.
Qed.
Definition earlier (a b : N * nat) : Prop := a.1 < b.1 \/ (a.1 = b.1 /\ (a.2 < b.2)%nat).
Definition good (a : N * nat) : Prop := a.1 < 100000000 /\ (a.2 <= 9)%nat.
Definition name (path : bytes) (a : N * nat) : bytes := gname (bname path a.1) a.2.
Lemma dec_digit g : (g <= 9)%nat -> dec (N.of_nat g) = [48 + N.of_nat g].
Proof. intros H. do 10 (destruct g as [|g]; [reflexivity|]). lia. Qed.
Lemma name_tail path a : good a -> name path a = path ++ bs "." ++ digits 8 a.1 ++ match a.2 with O => [] | _ => [46; 48 + N.of_nat a.2] end.
Proof.
  destruct a as [d g]. intros [_ Hg]. cbn [fst snd] in *. unfold name, gname, bname. cbn [fst snd]. rewrite dec8_digits. destruct g as [|g].
  - by rewrite app_nil_r.
  - rewrite dec_digit by done. rewrite <- !app_assoc. reflexivity.
Qed.
Lemma name_before path a b : good a -> good b -> earlier a b -> before (name path a) (name path b).
Proof.
  intros Ga Gb H. rewrite !name_tail by done. do 2 apply before_app. destruct a as [d g], b as [d' g']. destruct Ga, Gb. unfold earlier in H. cbn [fst snd] in *.
  destruct H as [H|[<- H]].
  - apply digits_before. change (10 ^ N.of_nat 8) with 100000000. rewrite !N.mod_small by done. done.
  - apply before_app. destruct g as [|g], g' as [|g']; try lia; [done|]. unfold before. cbn. rewrite (proj2 (N.ltb_lt _ _)) by lia. rewrite (proj2 (N.ltb_ge _ _)) by lia. done.
Qed.
Lemma name_inj path a b : good a -> good b -> name path a = name path b -> a = b.
Proof.
  intros Ga Gb H. destruct a as [d g], b as [d' g'].
  destruct (N.lt_trichotomy d d') as [L|[->|L]].
  - by destruct (before_ne _ _ (name_before path _ _ Ga Gb (or_introl L))).
  - destruct (Nat.lt_trichotomy g g') as [L|[->|L]]; [|done|].
    + by destruct (before_ne _ _ (name_before path (d', g) (d', g') Ga Gb (or_intror (conj eq_refl L)))).
    + by destruct (before_ne _ _ (name_before path (d', g') (d', g) Gb Ga (or_intror (conj eq_refl L)))).
  - by destruct (before_ne _ _ (name_before path (d', g') (d, g) Gb Ga (or_introl L))).
Qed.
Lemma ends_with_last s n x y : ends_with s n = true -> last s = Some x -> last n = Some y -> x = y.
Proof.
  unfold ends_with. intros H Hs Hn. apply bool_decide_eq_true in H. rewrite <- H in Hs. rewrite <- (take_drop (length n - length s) n), last_app, Hs in Hn. congruence.
Qed.
Lemma name_is_log path a : good a -> is_log path (name path a) = true.
Proof.
  intros Ga. rewrite name_tail by done. unfold is_log. apply andb_true_iff. split.
  - apply bool_decide_eq_true. rewrite take_app_ge by lia. replace (length path + 1 - length path)%nat with 1%nat by lia. reflexivity.
  - set (n := path ++ _). assert (exists y, last n = Some y /\ y <= 57) as (y & Hy & Hb).
    { unfold n. rewrite !last_app. destruct a as [d g]. destruct Ga as [_ Gg]. cbn [fst snd] in *. destruct g as [|g].
      - cbn [last]. exists (48 + d / 10 ^ N.of_nat 0 mod 10). split; [reflexivity|]. assert (d / 10 ^ N.of_nat 0 mod 10 < 10) by (by apply N.mod_upper_bound). lia.
      - cbn [last]. exists (48 + N.of_nat (S g)). split; [done|]. lia. }
    destruct (ends_with (bs "_lock") n) eqn:E1.
    { assert (107 = y) by (eapply ends_with_last; [exact E1|reflexivity|exact Hy]). lia. }
    destruct (ends_with (bs "_symlink") n) eqn:E2; [|done].
    assert (107 = y) by (eapply ends_with_last; [exact E2|reflexivity|exact Hy]). lia.
Qed.
Lemma name_nonempty path a : good a -> name path a <> [].
Proof. intros Ga. rewrite name_tail by done. by destruct path. Qed.
Lemma base_name path d : bname path d = name path (d, 0%nat).
Proof. reflexivity. Qed.

(* ---- lists ---- *)
Lemma sorted_names path fs : StronglySorted earlier fs -> Forall good fs -> StronglySorted ordered (name path <$> fs).
Proof.
  induction 1 as [|a fs H IH HF]; intros G; [constructor|]. apply Forall_cons in G as [Ga G]. cbn. constructor; [by apply IH|].
  apply Forall_fmap. eapply Forall_impl; [apply Forall_and; split; [exact HF|exact G]|]. intros b [Hb Gb]. by apply name_before.
Qed.
Lemma sorted_nodup path fs : StronglySorted earlier fs -> Forall good fs -> NoDup (name path <$> fs).
Proof.
  induction 1 as [|a fs H IH HF]; intros G; [constructor|]. apply Forall_cons in G as [Ga G]. cbn. constructor; [|by apply IH].
  intros Hin. apply elem_of_list_fmap in Hin as (b & E & Hb). rewrite Forall_forall in HF, G. by eapply before_ne; [apply name_before; [exact Ga|by apply G|by apply HF]|].
Qed.
Lemma sorted_drop {A} (R : A -> A -> Prop) k l : StronglySorted R l -> StronglySorted R (drop k l).
Proof. revert k; induction l as [|x l IH]; intros [|k] H; try done. cbn. apply IH. by inversion H. Qed.
Lemma sorted_snoc fs a : StronglySorted earlier fs -> Forall (fun b => earlier b a) fs -> StronglySorted earlier (fs ++ [a]).
Proof.
  induction 1 as [|x fs H IH HF]; intros G; cbn; [by repeat constructor|]. apply Forall_cons in G as [Ga G]. constructor; [by apply IH|]. apply Forall_app. split; [done|]. by apply Forall_singleton.
Qed.
Lemma earlier_trans a b c : earlier a b -> earlier b c -> earlier a c.
Proof. destruct a, b, c. unfold earlier. cbn. intros [?|[? ?]] [?|[? ?]]; [left|left|left|right]; lia. Qed.
Lemma sorted_last fs a b : StronglySorted earlier fs -> last fs = Some a -> earlier a b -> Forall (fun x => earlier x b) fs.
Proof.
  intros H. revert a. induction H as [|x fs H IH HF]; intros a Hl Hab; [done|]. destruct fs as [|y fs].
  - cbn in Hl. injection Hl as ->. by apply Forall_singleton.
  - constructor; [|by eapply IH]. assert (last (y :: fs) = Some a) as Hl2 by done. assert (a ∈ y :: fs) as Hin by (rewrite last_lookup in Hl2; by eapply elem_of_list_lookup_2).
    rewrite Forall_forall in HF. eapply earlier_trans; [by apply HF|done].
Qed.

Lemma filter_all {A} (P : A -> Prop) `{!forall x, Decision (P x)} l : Forall P l -> filter P l = l.
Proof. induction 1 as [|x l Hx _ IH]; [done|]. rewrite filter_cons, decide_True by done. by rewrite IH. Qed.

(* ---- Glob ---- *)
Definition dir_of (path : bytes) (fs : list (N * nat)) (k : nat) (dir : gmap bytes nat) : Prop :=
  forall n i, dir !! n = Some i <-> (k <= i)%nat /\ (name path <$> fs) !! i = Some n.
Lemma dir_names path fs k dir : StronglySorted earlier fs -> Forall good fs -> dir_of path fs k dir -> (map_to_list dir).*1 ≡ₚ drop k (name path <$> fs).
Proof.
  intros HS HG HD. apply NoDup_Permutation.
  - apply NoDup_fst_map_to_list.
  - pose proof (sorted_nodup path fs HS HG) as ND. rewrite <- (take_drop k (name path <$> fs)) in ND. by apply NoDup_app in ND as (_ & _ & ?).
  - intros n. split.
    + intros Hn. apply elem_of_list_fmap in Hn as ([m i] & -> & Hi). apply elem_of_map_to_list in Hi. apply HD in Hi as [Hk Hi]. cbn.
      apply elem_of_list_lookup. exists (i - k)%nat. rewrite lookup_drop. by replace (k + (i - k))%nat with i by lia.
    + intros Hn. apply elem_of_list_lookup in Hn as [j Hj]. rewrite lookup_drop in Hj. apply elem_of_list_fmap. exists (n, (k + j)%nat). split; [done|].
      apply elem_of_map_to_list. apply HD. split; [lia|done].
Qed.
Lemma dir_matches path fs k dir : StronglySorted earlier fs -> Forall good fs -> dir_of path fs k dir -> matches path dir = drop k (name path <$> fs).
Proof.
  intros HS HG HD. unfold matches. pose proof (dir_names path fs k dir HS HG HD) as HP.
  assert (filter (fun n => is_log path n = true) (map_to_list dir).*1 = (map_to_list dir).*1) as ->.
  { apply filter_all. apply Forall_forall. intros n Hn. rewrite HP in Hn. apply elem_of_list_lookup in Hn as [j Hj]. rewrite lookup_drop in Hj.
    rewrite list_lookup_fmap in Hj. apply fmap_Some in Hj as (a & Ha & ->). apply name_is_log. rewrite Forall_forall in HG. apply HG. by eapply elem_of_list_lookup_2. }
  eapply (StronglySorted_unique ordered).
  - apply Sorted_StronglySorted; [apply _|]. apply (Sorted_merge_sort ordered).
  - apply sorted_drop. by apply sorted_names.
  - rewrite merge_sort_Permutation. done.
Qed.
