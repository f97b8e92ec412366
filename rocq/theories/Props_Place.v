(* Props_Place.v -- C105: a peer-to-peer visitor that leaves does not keep its place (PlaceModel) *)
From Verif Require Import GoBase PlaceModel.
Local Open Scope N_scope.

Lemma plrun_app s a b : plrun s (a ++ b) = (s' ← plrun s a; plrun s' b).
Proof. revert s. induction a as [|e a IH]; intros s; cbn [plrun app]; [done|]. destruct (plstep s e); cbn [mbind option_bind]; [apply IH|done]. Qed.
Definition place_of (s : plst) (id : N) (p : place) : Prop := p ∈ lPl s /\ pId p = id.
Lemma in_upd f id l p : p ∈ upd f id l -> exists q, q ∈ l /\ ((pId q = id /\ p = f q) \/ (pId q <> id /\ p = q)).
Proof. unfold upd. intros H. apply elem_of_list_In, in_map_iff in H as (q & <- & Hq). exists q. split; [by apply elem_of_list_In|]. unfold is. destruct (N.eqb_spec (pId q) id); [by left|by right]. Qed.
Lemma in_drop id l p : p ∈ drop_place id l <-> p ∈ l /\ pId p <> id.
Proof. unfold drop_place. rewrite !elem_of_list_In, filter_In. unfold is. rewrite negb_true_iff, N.eqb_neq. done. Qed.
Lemma existsb_no {A} (f : A -> bool) l x : existsb f l = false -> x ∈ l -> f x = false.
Proof. intros H Hx. apply not_true_is_false. intros E. assert (existsb f l = true); [|congruence]. apply existsb_exists. exists x. split; [by apply elem_of_list_In|done]. Qed.

(* A place whose connection has not been made, and whose process has not been started, is given back within two minutes, whether or not its visitor is still there. *)
Definition quiet (id : N) (proc : bool) (e : plev) : Prop := e <> LConn id /\ (proc = true -> e <> LStart id).
Definition timed (id : N) (s : plst) : Prop := forall p, p ∈ lPl s -> pId p = id -> pTimed p = true /\ lNow s <= pBorn p + minutes2.
Lemma timed_step id s e s' : quiet id (lProc s) e -> timed id s -> plstep s e = Some s' -> timed id s' /\ lProc s' = lProc s.
Proof.
  intros [Q1 Q2] T E. destruct e as [i|i|i|i|i|i|]; cbn [plstep] in E.
  - destruct (existsb _ _); [discriminate E|]. destruct (_ <=? _)%nat; injection E as <-; (split; [|done]); [exact T|]. intros p Hp Hi. cbn [lPl lNow] in *. apply elem_of_app in Hp as [Hp|Hp]; [by apply T|]. apply elem_of_list_singleton in Hp as ->. cbn. split; [done|lia].
  - injection E as <-. split; [|done]. intros p Hp Hi. cbn [set_pl lPl lNow] in *. apply in_upd in Hp as (q & Hq & [[Eq ->]|[Eq ->]]); cbn in *; by apply T.
  - injection E as <-. split; [|done]. intros p Hp Hi. cbn [set_pl lPl lNow] in *. destruct (lProc s); [|by apply T]. apply in_upd in Hp as (q & Hq & [[Eq ->]|[Eq ->]]); cbn in *; [|by apply T]. destruct Q2; [done|congruence].
  - injection E as <-. split; [|done]. intros p Hp Hi. cbn [set_pl lPl lNow] in *. apply in_upd in Hp as (q & Hq & [[Eq ->]|[Eq ->]]); cbn in *; [|by apply T]. destruct Q1; congruence.
  - injection E as <-. split; [|done]. intros p Hp Hi. cbn [set_pl lPl lNow] in *. apply in_drop in Hp as [Hp _]. by apply T.
  - destruct (existsb _ _); [|discriminate E]. injection E as <-. split; [|done]. intros p Hp Hi. cbn [set_pl lPl lNow] in *. apply in_drop in Hp as [Hp _]. by apply T.
  - destruct (existsb _ _) eqn:Ex; [discriminate E|]. injection E as <-. split; [|done]. intros p Hp Hi. cbn [lPl lNow] in *. destruct (T p Hp Hi) as [T1 T2]. split; [done|]. pose proof (existsb_no _ _ _ Ex Hp) as F. cbn beta in F. rewrite T1 in F. cbn [andb] in F. apply N.leb_gt in F. lia.
Qed.
Theorem C105_two_minutes_partial limit proc tr s id : plrun (plst0 limit proc) tr = Some s -> Forall (quiet id proc) tr ->
  forall p, place_of s id p -> lNow s <= pBorn p + 120.
Proof.
  assert (G : forall tr s0 s, plrun s0 tr = Some s -> timed id s0 -> Forall (quiet id (lProc s0)) tr -> timed id s).
  { clear. induction tr as [|e tr IH]; intros s0 s H T Q; cbn [plrun] in H; [by injection H as <-|]. apply bind_Some in H as (s1 & E & H). apply Forall_cons_1 in Q as [Q1 Q]. destruct (timed_step _ _ _ _ Q1 T E) as [T1 E1]. eapply IH; [exact H|exact T1|by rewrite E1]. }
  intros H Q p [Hp Hi]. eapply (G tr (plst0 limit proc)); [done|intros q Hq; by apply elem_of_nil in Hq|done|done|done].
Qed.
(* A client has no more places taken than its limit, and a visitor is refused only when all are taken. *)
Theorem C105_limit limit proc tr s : plrun (plst0 limit proc) tr = Some s -> (length (lPl s) <= limit)%nat /\
  forall id s', plstep s (LVisit id) = Some s' -> id ∈ lTaken s' \/ (length (lPl s) = limit /\ id ∈ lRefused s').
Proof.
  assert (G : forall tr s0 s, plrun s0 tr = Some s -> (length (lPl s0) <= lLimit s0)%nat -> (length (lPl s) <= lLimit s)%nat /\ lLimit s = lLimit s0).
  { clear. assert (L : forall id l, (length (drop_place id l) <= length l)%nat) by (intros id l; unfold drop_place; induction l as [|p l IH]; [done|]; cbn [List.filter length]; destruct (negb _); cbn [length]; lia).
    induction tr as [|e tr IH]; intros s0 s H T; cbn [plrun] in H; [by injection H as <-|]. apply bind_Some in H as (s1 & E & H). assert (K : (length (lPl s1) <= lLimit s1)%nat /\ lLimit s1 = lLimit s0).
    { destruct e as [i|i|i|i|i|i|]; cbn [plstep] in E.
      - destruct (existsb _ _); [discriminate E|]. destruct (Nat.leb_spec (lLimit s0) (length (lPl s0))); injection E as <-; cbn; [done|]. rewrite app_length. cbn. lia.
      - injection E as <-. cbn. unfold upd. by rewrite map_length.
      - injection E as <-. cbn. destruct (lProc s0); [|done]. unfold upd. by rewrite map_length.
      - injection E as <-. cbn. unfold upd. by rewrite map_length.
      - injection E as <-. cbn. specialize (L i (lPl s0)). lia.
      - destruct (existsb _ _); [|discriminate E]. injection E as <-. cbn. specialize (L i (lPl s0)). lia.
      - destruct (existsb _ _); [discriminate E|]. by injection E as <-. }
    destruct K as [K1 K2]. destruct (IH _ _ H K1) as [K3 K4]. split; [done|congruence]. }
  intros H. destruct (G _ _ _ H) as [G1 G2]; [cbn; lia|]. cbn in G2. rewrite G2 in G1. split; [done|]. intros id s' E. cbn [plstep] in E. destruct (existsb _ _); [discriminate E|].
  destruct (Nat.leb_spec (lLimit s) (length (lPl s))); injection E as <-; [right; split; [lia|cbn; rewrite elem_of_app; right; by left]|left; cbn; rewrite elem_of_app; right; by left].
Qed.

(* As many visitors as there are places come and leave at once: for two minutes every other visitor is refused, whatever happens except that a connection or a process ends; there are none. *)
Definition full (s : plst) : Prop := length (lPl s) = lLimit s.
Lemma full_step s e s' : (forall id, e <> LGone id) -> Forall (fun p => pTimed p = true -> lNow s < pBorn p + minutes2) (lPl s) -> full s -> plstep s e = Some s' ->
  full s' /\ (e <> LTick -> lNow s' = lNow s) /\ lLimit s' = lLimit s /\ lTaken s' = lTaken s /\ (forall b, Forall (fun p => b <= pBorn p) (lPl s) -> Forall (fun p => b <= pBorn p) (lPl s')) /\ (forall id, e = LVisit id -> id ∈ lRefused s') /\ (forall id, id ∈ lRefused s -> id ∈ lRefused s').
Proof.
  intros Hg Ht Hf E. unfold full in *. assert (U : forall f i b, (forall p, pBorn (f p) = pBorn p) -> Forall (fun p => b <= pBorn p) (lPl s) -> Forall (fun p => b <= pBorn p) (upd f i (lPl s))).
  { intros f i b Hb HF. apply Forall_forall. intros p (q & Hq & [[_ ->]|[_ ->]])%in_upd; rewrite ?Hb; rewrite Forall_forall in HF; by apply HF. }
  destruct e as [i|i|i|i|i|i|]; cbn [plstep] in E.
  - destruct (existsb _ _); [discriminate E|]. rewrite Hf, Nat.leb_refl in E. injection E as <-. cbn. split_and!; try done; [intros id [= <-]; rewrite elem_of_app; right; by left|intros id Hi; rewrite elem_of_app; by left].
  - injection E as <-. cbn. split_and!; try done; [unfold upd; by rewrite map_length|intros b; by apply U].
  - injection E as <-. cbn. split_and!; try done; destruct (lProc s); try done; [unfold upd; by rewrite map_length|intros b; by apply U].
  - injection E as <-. cbn. split_and!; try done; [unfold upd; by rewrite map_length|intros b; by apply U].
  - by destruct (Hg i).
  - destruct (existsb _ _) eqn:Ex; [|discriminate E]. apply existsb_exists in Ex as (p & Hp & Eb). apply andb_true_iff in Eb as [Eb E1]. apply andb_true_iff in Eb as [_ E2]. rewrite Forall_forall in Ht. apply elem_of_list_In in Hp. specialize (Ht _ Hp E2). apply N.leb_le in E1. lia.
  - destruct (existsb _ _); [discriminate E|]. injection E as <-. done.
Qed.
Lemma visits proc n : exists tr s, plrun (plst0 n proc) tr = Some s /\ lNow s = 0 /\ lLimit s = n /\ full s /\ Forall (fun p => pLeft p = true) (lPl s) /\ lProc s = proc /\ Forall (fun e => exists id, e = LVisit id \/ e = LLeave id) tr.
Proof.
  assert (G : forall k, (k <= n)%nat -> exists tr l, plrun (plst0 n proc) tr = Some (mkL n proc 0 l (N.of_nat <$> seq 0 k) []) /\ length l = k /\ Forall (fun p => pLeft p = true /\ (pId p < N.of_nat k)) l /\ Forall (fun e => exists id, e = LVisit id \/ e = LLeave id) tr).
  { induction k as [|k IH]; intros Hk; [by exists [], []|]. destruct IH as (tr & l & H & Hl & HF & Ht); [lia|]. exists (tr ++ [LVisit (N.of_nat k); LLeave (N.of_nat k)]), (l ++ [mkP (N.of_nat k) 0 true true]).
    rewrite plrun_app, H. cbn [mbind option_bind plrun plstep lTaken lRefused lLimit lPl lNow lProc]. rewrite app_nil_r.
    assert (existsb (N.eqb (N.of_nat k)) (N.of_nat <$> seq 0 k) = false) as ->.
    { apply not_true_is_false. intros (x & Hx & Ex)%existsb_exists. apply N.eqb_eq in Ex as <-. apply elem_of_list_In, elem_of_list_fmap in Hx as (y & Ey & Hy). apply elem_of_seq in Hy. lia. }
    destruct (Nat.leb_spec n (length l)); [lia|]. cbn [mbind option_bind plrun plstep set_pl lTaken lRefused lLimit lPl lNow lProc]. split_and!.
    - assert (Hu : forall f, upd f (N.of_nat k) l = l).
      { intros f. clear -HF. unfold upd. induction l as [|p l IH]; [done|]. apply Forall_cons_1 in HF as [[_ Hp] HF]. cbn [map]. rewrite (IH HF). unfold is. destruct (N.eqb_spec (pId p) (N.of_nat k)); [lia|done]. }
      assert (Ha : forall f q, pId q = N.of_nat k -> upd f (N.of_nat k) (l ++ [q]) = l ++ [f q]).
      { intros f q Hq. rewrite <- (Hu f) at 2. unfold upd. rewrite map_app. cbn [map]. unfold is at 2. by rewrite Hq, N.eqb_refl. }
      rewrite Ha by done. cbn [pId pBorn pTimed]. rewrite seq_S, fmap_app. reflexivity.
    - rewrite app_length. cbn. lia.
    - apply Forall_app. split; [|repeat constructor; cbn; lia]. eapply Forall_impl; [exact HF|]. cbn. intros p [? ?]. split; [done|lia].
    - apply Forall_app. split; [done|]. repeat constructor; eauto. }
  destruct (G n (le_n _)) as (tr & l & H & Hl & HF & Ht). exists tr. eexists. split; [exact H|]. split_and!; try done. eapply Forall_impl; [exact HF|]. by intros p [? _].
Qed.
Definition visits_in (tr : list plev) : list N := omap (fun e => match e with LVisit id => Some id | _ => None end) tr.
Theorem C105_all_taken_refuted limit proc : exists tr s, plrun (plst0 limit proc) tr = Some s /\ lNow s = 0 /\ length (lPl s) = limit /\ Forall (fun p => pLeft p = true) (lPl s) /\
  forall tr' s', plrun s tr' = Some s' -> (forall id, LGone id ∉ tr') -> lNow s' < 120 -> Forall (fun id => id ∈ lRefused s') (visits_in tr').
Proof.
  destruct (visits proc limit) as (tr & s & H & H0 & Hlim & Hf & Hl & _). exists tr, s. split_and!; try done; [by rewrite <- Hlim|]. clear H Hl.
  assert (M : forall tr s s', plrun s tr = Some s' -> lNow s <= lNow s' /\ forall id, id ∈ lRefused s -> id ∈ lRefused s').
  { clear. induction tr as [|e tr IH]; intros s s' H; cbn [plrun] in H; [injection H as <-; split; [lia|done]|]. apply bind_Some in H as (s1 & E & H). destruct (IH _ _ H) as [M1 M2].
    assert (K : lNow s <= lNow s1 /\ forall id, id ∈ lRefused s -> id ∈ lRefused s1).
    { destruct e; cbn [plstep] in E; repeat (destruct (existsb _ _) in E; try discriminate E); try (destruct (_ <=? _)%nat in E); injection E as <-; cbn; (split; [lia|]); try done. intros j Hj. rewrite elem_of_app. by left. }
    destruct K as [K1 K2]. split; [lia|auto]. }
  assert (HB : Forall (fun p => 0 <= pBorn p) (lPl s)) by (apply Forall_true; intros; lia). clear H0 Hlim.
  intros tr'. revert s Hf HB. induction tr' as [|e tr' IH]; intros s Hf HB s' H Hg Hn; cbn [visits_in omap list_omap]; [constructor|]. cbn [plrun] in H. apply bind_Some in H as (s1 & E & H). destruct (M _ _ _ H) as [M1 M2].
  assert (M0 : lNow s <= lNow s1) by (apply (M [e]); cbn [plrun]; by rewrite E).
  assert (Ht : Forall (fun p => pTimed p = true -> lNow s < pBorn p + minutes2) (lPl s)) by (eapply Forall_impl; [exact HB|]; cbn; unfold minutes2; intros; lia).
  assert (Hge : forall id, e <> LGone id) by (intros id ->; apply (Hg id); by left). destruct (full_step _ _ _ Hge Ht Hf E) as (F1 & _ & _ & _ & F2 & F3 & _).
  assert (Hg' : forall id, LGone id ∉ tr') by (intros id Hi; apply (Hg id); by right). specialize (IH s1 F1 (F2 0 HB) s' H Hg' Hn). destruct e as [i|i|i|i|i|i|]; try exact IH. constructor; [|exact IH]. apply M2. by apply F3.
Qed.
(* With a process for each visitor (no -webrtcThread), whose offers have arrived, the places are never given back, unless a process ends. *)
Theorem C105_never_refuted limit : exists tr s, plrun (plst0 limit true) tr = Some s /\ Forall (fun p => pLeft p = true) (lPl s) /\ length (lPl s) = limit /\
  (forall tr' s', plrun s tr' = Some s' -> (forall id, LGone id ∉ tr') -> Forall (fun id => id ∈ lRefused s') (visits_in tr')) /\ forall n, exists s', plrun s (replicate n LTick) = Some s'.
Proof.
  destruct (visits true limit) as (tr & s & H & _ & Hlim & Hf & Hl & Hp & _).
  assert (St : forall ids s, lProc s = true -> exists s', plrun s (LStart <$> ids) = Some s' /\ full s' = full s /\ lLimit s' = lLimit s /\ lProc s' = true /\ (Forall (fun p => pLeft p = true) (lPl s) -> Forall (fun p => pLeft p = true) (lPl s')) /\
     forall p, p ∈ lPl s' -> (exists q, q ∈ lPl s /\ pId q = pId p /\ (pTimed p = true -> pTimed q = true)) /\ (pId p ∈ ids -> pTimed p = false)).
  { clear. induction ids as [|i ids IH]; intros s Hp.
    - exists s. split; [done|]. split_and!; try done. intros p Hi. split; [by exists p|]. intros Hx. by apply elem_of_nil in Hx.
    - cbn [fmap list_fmap plrun plstep]. rewrite Hp. cbn [mbind option_bind]. destruct (IH (set_pl s (upd (fun p => mkP (pId p) (pBorn p) false (pLeft p)) i (lPl s))) Hp) as (s' & H & E1 & E2 & E3 & E4 & E5). exists s'. split; [done|]. split_and!; try done.
      + rewrite E1. unfold full. cbn. unfold upd. by rewrite map_length.
      + intros HF. apply E4. cbn. apply Forall_forall. intros p (q & Hq & [[_ ->]|[_ ->]])%in_upd; rewrite Forall_forall in HF; cbn; by apply (HF q).
      + intros p Hi. destruct (E5 p Hi) as [(q & Hq & Eq & Et) E6]. cbn in Hq. apply in_upd in Hq as (r & Hr & [[Er ->]|[Er ->]]); cbn in Eq, Et.
        * split; [exists r; split_and!; try done; intros X; by apply Et in X|]. intros _. destruct (pTimed p); [by specialize (Et eq_refl)|done].
        * split; [by exists r|]. intros [Hx|Hx]%elem_of_cons; [congruence|auto]. }
  destruct (St (pId <$> lPl s) s Hp) as (s1 & H1 & E1 & E2 & E3 & E4 & E5). exists (tr ++ (LStart <$> (pId <$> lPl s))), s1. rewrite plrun_app, H. cbn [mbind option_bind]. assert (F1 : full s1) by by rewrite E1.
  assert (T1 : Forall (fun p => pTimed p = false) (lPl s1)).
  { apply Forall_forall. intros p Hi. destruct (E5 p Hi) as [(q & Hq & Eq & _) E6]. apply E6. rewrite <- Eq. by apply elem_of_list_fmap_1. }
  split_and!; [done|auto|unfold full in F1; congruence| |].
  - assert (M : forall tr s s', plrun s tr = Some s' -> forall id, id ∈ lRefused s -> id ∈ lRefused s').
    { clear. induction tr as [|e tr IH]; intros s s' H; cbn [plrun] in H; [by injection H as <-|]. apply bind_Some in H as (s1 & E & H). intros id Hi. apply (IH _ _ H).
      destruct e; cbn [plstep] in E; repeat (destruct (existsb _ _) in E; try discriminate E); try (destruct (_ <=? _)%nat in E); injection E as <-; cbn; try done. rewrite elem_of_app. by left. }
    intros tr'. clear -F1 T1 M. revert s1 F1 T1. induction tr' as [|e tr' IH]; intros s Hf HT s' H Hg; cbn [visits_in omap list_omap]; [constructor|]. cbn [plrun] in H. apply bind_Some in H as (s1 & E & H).
    assert (Ht : Forall (fun p => pTimed p = true -> lNow s < pBorn p + minutes2) (lPl s)) by (eapply Forall_impl; [exact HT|]; cbn; intros p ->; done).
    assert (Hge : forall id, e <> LGone id) by (intros id ->; apply (Hg id); by left). destruct (full_step _ _ _ Hge Ht Hf E) as (F1 & _ & _ & _ & _ & F3 & _).
    assert (T1 : Forall (fun p => pTimed p = false) (lPl s1)).
    { assert (U : forall f i, (forall p, pTimed p = false -> pTimed (f p) = false) -> Forall (fun p => pTimed p = false) (upd f i (lPl s))).
      { intros f i Hb. apply Forall_forall. intros p (q & Hq & [[_ ->]|[_ ->]])%in_upd; rewrite Forall_forall in HT; auto. }
      destruct e as [i|i|i|i|i|i|]; cbn [plstep] in E.
      - destruct (existsb _ _); [discriminate E|]. unfold full in Hf. rewrite Hf, Nat.leb_refl in E. by injection E as <-.
      - injection E as <-. by apply U.
      - injection E as <-. cbn. destruct (lProc s); [by apply U|done].
      - injection E as <-. by apply U.
      - by destruct (Hge i).
      - destruct (existsb _ _); [|discriminate E]. injection E as <-. cbn. apply Forall_forall. intros p [Hi _]%in_drop. rewrite Forall_forall in HT. auto.
      - destruct (existsb _ _); [discriminate E|]. by injection E as <-. }
    assert (Hg' : forall id, LGone id ∉ tr') by (intros id Hi; apply (Hg id); by right). specialize (IH s1 F1 T1 s' H Hg'). destruct e as [i|i|i|i|i|i|]; try exact IH. constructor; [|exact IH]. apply (M _ _ _ H). by apply F3.
  - clear -T1. intros n. revert s1 T1. induction n as [|n IH]; intros s T1; [by eexists|]. cbn [replicate plrun plstep].
    assert (existsb (fun p => pTimed p && (pBorn p + minutes2 <=? lNow s)) (lPl s) = false) as ->.
    { apply not_true_is_false. intros (p & Hp & Eb)%existsb_exists. apply elem_of_list_In in Hp. rewrite Forall_forall in T1. by rewrite (T1 _ Hp) in Eb. }
    cbn [mbind option_bind]. by apply IH.
Qed.
(* two places: one visitor stays, one leaves; two minutes later there is room again *)
Theorem C105_witness : exists s, plrun (plst0 2 false) ([LVisit 1; LVisit 2; LStart 1; LConn 1; LLeave 2; LVisit 3] ++ replicate 120 LTick ++ [LTimer 2; LTick; LVisit 4]) = Some s /\
  lTaken s = [1; 2; 4] /\ lRefused s = [3] /\ (pId <$> lPl s) = [1; 4].
Proof. eexists. split; [vm_compute; reflexivity|]. done. Qed.
