(* HalfInv.v -- the invariant behind Props_Half *)
From Verif Require Import GoBase HalfModel.
Local Open Scope N_scope.

Definition fin (b : bool) : list (option N) := if b then [None] else [].
Definition hinv (s : est) : Prop :=
  match s with mkE vo vf vi vg ve sr sc dn u cr cc t_o tf ti tg te vs ts vl tl =>
  exists ds us b b',
    dn = (Some <$> ds) ++ fin b /\ u = (Some <$> us) ++ fin b' /\
    (tg ++ ti) `prefix_of` vs /\ (vg ++ vi) `prefix_of` ts /\
    (cc = None -> cr = true /\ vs = (tg ++ ti) ++ ds ++ vo) /\
    (sr = true -> sc = None -> ts = (vg ++ vi) ++ us ++ t_o) /\
    (b = true -> vf = true /\ vo = [] /\ sr = false) /\
    (b' = true -> tf = true /\ t_o = [] /\ cc = Some false) /\
    (cc = Some true -> vf = true /\ vo = [] /\ sr = false /\ (tl = false -> vs = tg ++ ti)) /\
    (sc = Some true -> tf = true /\ t_o = [] /\ cc = Some false /\ (vl = false -> ts = vg ++ vi)) /\
    (sr = false -> sc = Some true \/ vf = true /\ vo = []) /\
    (sc = Some false -> sr = false) /\
    (cc = Some false -> cr = false /\ tf = true /\ t_o = [] /\ (b' = true \/ sc = Some true \/ sr = false)) /\
    (sr = false -> b = true \/ cc <> None \/ sc = Some true) /\
    (ve = true -> vi = [] /\ sc <> None) /\ (te = true -> ti = [] /\ cc <> None)
  end.
Lemma fin_cons b f r ds : f :: r = (Some <$> ds) ++ fin b -> match f with Some x => exists ds', ds = x :: ds' /\ r = (Some <$> ds') ++ fin b | None => ds = [] /\ b = true /\ r = [] end.
Proof.
  destruct ds as [|x ds]; cbn [fmap list_fmap app]; intros H.
  - destruct b; cbn in H; [|discriminate H]. injection H as -> ->. auto.
  - injection H as -> ->. eauto.
Qed.
Lemma prefix_cut (g l v : list N) un k : (g ++ l) `prefix_of` v -> (g ++ cut un l k) `prefix_of` v.
Proof.
  intros H. destruct un; cbn [cut]; [exact H|]. etrans; [|exact H]. apply prefix_app. rewrite <- (take_drop k l) at 2. apply prefix_app_r. reflexivity.
Qed.
Lemma cut_keeps un l k : loses un l k = false -> cut un l k = l.
Proof. destruct un; cbn; [done|]. intros H. apply Nat.ltb_ge in H. apply take_ge. lia. Qed.
Lemma pre_snoc (a b : list N) x : a `prefix_of` b -> a `prefix_of` b ++ [x].
Proof. intros H. apply prefix_app_r. exact H. Qed.
Ltac sp := repeat match goal with
  | H : ?x = ?x -> _ |- _ => specialize (H eq_refl)
  | H : _ /\ _ |- _ => destruct H
  | H : ?P -> _, H' : ?P |- _ => match type of P with Prop => specialize (H H') end
  | H : false = true -> _ |- _ => clear H | H : true = false -> _ |- _ => clear H
  | H : None = Some _ -> _ |- _ => clear H | H : Some _ = None -> _ |- _ => clear H
  | H : Some true = Some false -> _ |- _ => clear H | H : Some false = Some true -> _ |- _ => clear H end.
Ltac lossless := try match goal with H : _ || loses ?a ?b ?k = false |- _ => let H1 := fresh in let H2 := fresh in apply orb_false_iff in H as [H1 H2]; rewrite (cut_keeps _ _ _ H2) in * end.
Ltac fin1 := intros; sp; subst; lossless; cbn [app]; rewrite ?app_nil_r, <- ?app_assoc in *; cbn [app]; rewrite ?app_nil_r in *;
  first [done | congruence | solve [split_and!; intros; lossless; auto; congruence] | tauto | (repeat split; auto; try congruence; tauto) | solve [repeat apply prefix_app; eexists; cbn [app]; reflexivity] | solve [intuition congruence] | idtac].
Lemma hinv0 : hinv est0.
Proof. exists [], [], false, false. split_and!; try done. Qed.
Lemma hinv_step s e s' : hinv s -> estep s e = Some s' -> hinv s'.
Proof.
  destruct s as [vo vf vi vg ve sr sc dn u cr cc t_o tf ti tg te vs ts vl tl]. intros (ds & us & b & b' & Hd & Hu & P1 & P2 & H1 & H2 & H3 & H4 & H5 & H6 & H7 & H8 & H9 & H10 & H11 & H12) E.
  destruct e; cbn [estep] in E.
  - (* VSend *) destruct vf; [discriminate E|]. injection E as <-. exists ds, us, b, b'. split_and!; auto using pre_snoc; fin1.
  - (* VFin *) destruct vf; [discriminate E|]. injection E as <-. exists ds, us, b, b'. split_and!; auto; fin1.
  - (* VTake *) destruct vi as [|x r]; [discriminate E|]. injection E as <-. exists ds, us, b, b'. replace ((vg ++ [x]) ++ r) with (vg ++ x :: r) by (by rewrite <- app_assoc). split_and!; auto; fin1.
  - (* VSeeEnd *) destruct vi as [|x r]; [|discriminate E]. destruct sc as [c'|] eqn:?; [|discriminate E]. destruct ve; [discriminate E|]. injection E as <-. exists ds, us, b, b'. split_and!; auto; fin1.
  - (* TSend *) destruct tf; [discriminate E|]. injection E as <-. exists ds, us, b, b'. split_and!; auto using pre_snoc; fin1.
  - (* TFin *) destruct tf; [discriminate E|]. injection E as <-. exists ds, us, b, b'. split_and!; auto; fin1.
  - (* TTake *) destruct ti as [|x r]; [discriminate E|]. injection E as <-. exists ds, us, b, b'. replace ((tg ++ [x]) ++ r) with (tg ++ x :: r) by (by rewrite <- app_assoc). split_and!; auto; fin1.
  - (* TSeeEnd *) destruct ti as [|x r]; [|discriminate E]. destruct cc as [c'|] eqn:?; [|discriminate E]. destruct te; [discriminate E|]. injection E as <-. exists ds, us, b, b'. split_and!; auto; fin1.
  - (* SRead *) destruct sr; [|discriminate E]. destruct sc; [discriminate E|]. destruct vo as [|x r]; [discriminate E|]. injection E as <-.
    destruct b; [fin1|]. exists (ds ++ [x]), us, false, b'. split_and!; auto; try (rewrite Hd; cbn [fin]; rewrite !app_nil_r, fmap_app; reflexivity); fin1.
  - (* SEof *) destruct sr; [|discriminate E]. destruct sc; [discriminate E|]. destruct vo as [|x r]; [|discriminate E]. destruct vf; [|discriminate E]. injection E as <-.
    destruct b; [fin1|]. exists ds, us, true, b'. split_and!; auto; try (rewrite Hd; cbn [fin]; rewrite !app_nil_r; reflexivity); fin1.
  - (* SErr *) destruct sr; [|discriminate E]. destruct sc as [[]|]; [| |discriminate E]; injection E as <-; exists ds, us, b, b'; split_and!; auto; fin1.
  - (* SClose *) destruct sr; [discriminate E|]. destruct sc; [discriminate E|]. injection E as <-. exists ds, us, b, b'. split_and!; auto; fin1.
  - (* SFrame *) destruct u as [|[x|] r]; [discriminate E| |].
    + apply fin_cons in Hu as (us' & -> & ->). destruct sr; [destruct sc as [[]|]|]; injection E as <-; exists ds, us', b, b'; split_and!; auto; fin1.
    + apply fin_cons in Hu as (-> & -> & ->). destruct sr; [destruct sc as [[]|]|]; injection E as <-; exists ds, [], b, false; split_and!; auto using prefix_cut; fin1.
  - (* CRead *) destruct cr; [|discriminate E]. destruct cc; [discriminate E|]. destruct t_o as [|x r]; [discriminate E|]. injection E as <-.
    destruct b'; [fin1|]. exists ds, (us ++ [x]), b, false. split_and!; auto; try (rewrite Hu; cbn [fin]; rewrite !app_nil_r, fmap_app; reflexivity); fin1.
  - (* CEof *) destruct cr; [|discriminate E]. destruct cc; [discriminate E|]. destruct t_o as [|x r]; [|discriminate E]. destruct tf; [|discriminate E]. injection E as <-.
    destruct b'; [fin1|]. exists ds, us, b, true. split_and!; auto; try (rewrite Hu; cbn [fin]; rewrite !app_nil_r; reflexivity); fin1.
  - (* CErr *) destruct cr; [|discriminate E]. destruct cc as [[]|]; [| |discriminate E]; injection E as <-; exists ds, us, b, b'; split_and!; auto; fin1.
  - (* CFrame *) destruct dn as [|[x|] r]; [discriminate E| |].
    + apply fin_cons in Hd as (ds' & -> & ->). destruct cr; [destruct cc as [[]|]|]; injection E as <-; exists ds', us, b, b'; split_and!; auto; fin1.
    + apply fin_cons in Hd as (-> & -> & ->). destruct cr; [destruct cc as [[]|]|]; injection E as <-; exists [], us, false, b'; split_and!; auto using prefix_cut; fin1.
Qed.
