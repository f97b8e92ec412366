(* Props_Half.v -- C100: the end of one direction of a visitor's connection *)
From Verif Require Import GoBase HalfModel HalfInv.
Local Open Scope N_scope.

(* what the visitor and the service have said *)
Definition by_visitor (tr : list eev) : list N := omap (fun e => match e with VSend b => Some b | _ => None end) tr.
Definition by_service (tr : list eev) : list N := omap (fun e => match e with TSend b => Some b | _ => None end) tr.

Lemma erun_app s a b : erun s (a ++ b) = (s' ← erun s a; erun s' b).
Proof. revert s. induction a as [|e a IH]; intros s; cbn [erun app]; [done|]. destruct (estep s e); cbn [mbind option_bind]; [apply IH|done]. Qed.
Lemma hinv_run s tr s' : hinv s -> erun s tr = Some s' -> hinv s'.
Proof. revert s. induction tr as [|e tr IH]; intros s I H; cbn [erun] in H; [injection H as <-; exact I|]. destruct (estep s e) as [s1|] eqn:E; cbn [mbind option_bind] in H; [|discriminate H]. eapply IH; [eapply hinv_step; eassumption|exact H]. Qed.
Ltac ev E := repeat match type of E with context[match ?x with _ => _ end] => destruct x; try discriminate E end; injection E as <-.
Lemma said_step s e s' : estep s e = Some s' -> vSaid s' = vSaid s ++ by_visitor [e] /\ tSaid s' = tSaid s ++ by_service [e] /\
  vFin s' = (match e with VFin => true | _ => vFin s end) /\ tFin s' = (match e with TFin => true | _ => tFin s end).
Proof. destruct s as [vo vf vi vg ve sr sc dn u cr cc t_o tf ti tg te vs ts vl tl]. destruct e; cbn [estep]; intros E; ev E; cbn [vSaid tSaid vFin tFin by_visitor by_service omap list_omap]; rewrite ?app_nil_r; split_and!; reflexivity. Qed.
Lemma said_run tr : forall s s', erun s tr = Some s' -> vSaid s' = vSaid s ++ by_visitor tr /\ tSaid s' = tSaid s ++ by_service tr /\
  (vFin s' = true <-> vFin s = true \/ VFin ∈ tr) /\ (tFin s' = true <-> tFin s = true \/ TFin ∈ tr).
Proof.
  induction tr as [|e tr IH]; intros s s' H; cbn [erun] in H.
  - injection H as <-. cbn [by_visitor by_service omap list_omap]. rewrite !app_nil_r. split_and!; [done|done| |]; (split; [auto|intros [H|H]; [exact H|set_solver]]).
  - destruct (estep s e) as [s1|] eqn:E; cbn [mbind option_bind] in H; [|discriminate H]. apply said_step in E as (E1 & E2 & E3 & E4). apply IH in H as (H1 & H2 & H3 & H4).
    assert (Hv : by_visitor (e :: tr) = by_visitor [e] ++ by_visitor tr) by (unfold by_visitor; by rewrite <- omap_app).
    assert (Ht : by_service (e :: tr) = by_service [e] ++ by_service tr) by (unfold by_service; by rewrite <- omap_app).
    rewrite Hv, Ht, H1, H2, E1, E2, <- !app_assoc. split_and!; [done|done| |].
    + rewrite H3, E3, elem_of_cons. destruct e; intuition congruence.
    + rewrite H4, E4, elem_of_cons. destruct e; intuition congruence.
Qed.
Lemma erun_inv tr s : erun est0 tr = Some s -> hinv s /\ vSaid s = by_visitor tr /\ tSaid s = by_service tr /\ (vFin s = true <-> VFin ∈ tr) /\ (tFin s = true <-> TFin ∈ tr).
Proof.
  intros H. split; [eapply hinv_run; [apply hinv0|exact H]|]. apply said_run in H as (H1 & H2 & H3 & H4). split_and!; [exact H1|exact H2| |].
  - rewrite H3. cbn. intuition congruence.
  - rewrite H4. cbn. intuition congruence.
Qed.

(* Whatever happens, each gets the first part of what the other says, in order. *)
Theorem C100_prefix tr s : erun est0 tr = Some s -> tGot s `prefix_of` by_visitor tr /\ vGot s `prefix_of` by_service tr.
Proof.
  intros H. apply erun_inv in H as (I & <- & <- & _). destruct s as [vo vf vi vg ve sr sc dn u cr cc t_o tf ti tg te vs ts vl tl]. destruct I as (ds & us & b & b' & _ & _ & P1 & P2 & _). cbn. split; (etrans; [|eassumption]; apply prefix_app_r; reflexivity).
Qed.
(* gt, and the two as far as they read, come to rest. *)
Definition weight (s : est) : nat :=
  4 * length (vOut s) + 3 * length (down s) + 2 * length (tIn s) + 4 * length (tOut s) + 3 * length (up s) + 2 * length (vIn s) +
  (if sRun s then 5 else 0) + (if cRun s then 5 else 0) + (match sClosed s with None => 1 | _ => 0 end) + (match cClosed s with None => 1 | _ => 0 end) + (if vEof s then 0 else 1) + (if tEof s then 0 else 1).
Lemma cut_length un l k : (length (cut un l k) <= length l)%nat.
Proof. destruct un; cbn [cut]; [lia|]. rewrite take_length. lia. Qed.
Lemma weight_step s e s' : own e = true -> estep s e = Some s' -> (weight s' < weight s)%nat.
Proof.
  destruct s as [vo vf vi vg ve sr sc dn u cr cc t_o tf ti tg te vs ts vl tl]. pose proof (cut_length vo vi). pose proof (cut_length t_o ti).
  destruct e; cbn [own estep]; intros Ho E; try discriminate Ho;
    repeat match type of E with context[match ?x with _ => _ end] => is_var x; destruct x; try discriminate E end; injection E as <-;
    unfold weight; cbn [vOut down tIn tOut up vIn sRun cRun sClosed cClosed vEof tEof length];
    rewrite ?app_length; cbn [length];
    repeat match goal with H : forall k, (length (cut ?a ?b k) <= _)%nat, keep : nat |- _ => pose proof (H keep); clear H end; cbn [length] in *; lia.
Qed.
Theorem C100_settles s : exists n, forall tr s', Forall (fun e => own e = true) tr -> erun s tr = Some s' -> (length tr <= n)%nat.
Proof.
  exists (weight s). intros tr. revert s. induction tr as [|e tr IH]; intros s s' Hf H; cbn [length]; [lia|]. apply Forall_cons in Hf as [He Hf]. cbn [erun] in H.
  destruct (estep s e) as [s1|] eqn:E; cbn [mbind option_bind] in H; [|discriminate H]. pose proof (weight_step _ _ _ He E). specialize (IH _ _ Hf H). lia.
Qed.

(* A visitor who says what he has to say and ends, before the service ends, has all of it delivered, then his end -- unless the service had said something that the client was not
   quick enough to read. *)
Theorem C100_visitor_first_partial tr s : erun est0 tr = Some s -> quiet s -> VFin ∈ tr -> TFin ∉ tr -> tLost s = false -> tGot s = by_visitor tr /\ tEof s = true.
Proof.
  intros H Q Hv Ht Hl. apply erun_inv in H as (I & Hs & _ & Hf & Hf'). rewrite <- Hs. apply Hf in Hv. assert (Hn : tFin s <> true) by (intros E; apply Ht, Hf', E). clear Hf Hf' Hs Ht.
  destruct s as [vo vf vi vg ve sr sc dn u cr cc t_o tf ti tg te vs ts vl tl]. destruct I as (ds & us & b & b' & Hd & Hu & P1 & P2 & H1 & H2 & H3 & H4 & H5 & H6 & H7 & H8 & H9 & H10 & H11 & H12).
  cbn [tGot vSaid tEof vFin tFin tLost] in *. subst vf tl.
  assert (Hdn : dn = []). { destruct dn as [|[x|] r]; [done| |]; specialize (Q (CFrame 0) eq_refl); cbn [estep] in Q; repeat case_match; discriminate Q. }
  assert (Hti : ti = []). { destruct ti as [|x r]; [done|]. specialize (Q TTake eq_refl). discriminate Q. }
  rewrite Hdn, Hti in *. clear Hdn Hti. destruct ds; [|discriminate Hd]. destruct b; [discriminate Hd|].
  assert (Hsc : sc <> Some true) by (intros E; destruct (H6 E) as (E1 & _); congruence).
  assert (Hsr : sr = false).
  { destruct sr; [|done]. exfalso. destruct sc as [[]|]; [congruence|specialize (H8 eq_refl); discriminate H8|]. destruct vo as [|x r].
    - specialize (Q SEof eq_refl). discriminate Q.
    - specialize (Q SRead eq_refl). discriminate Q. }
  subst sr. destruct (H10 eq_refl) as [H|[H|H]]; [discriminate H| |congruence].
  destruct cc as [[]|]; [| |congruence].
  - destruct (H5 eq_refl) as (_ & _ & _ & E). rewrite app_nil_r in E. split; [symmetry; exact (E eq_refl)|]. destruct te; [done|]. specialize (Q TSeeEnd eq_refl). discriminate Q.
  - destruct (H9 eq_refl) as (_ & E & _). congruence.
Qed.
(* Likewise the service, if the visitor does not end before: this is how most visitors go. *)
Theorem C100_service_first_partial tr s : erun est0 tr = Some s -> quiet s -> TFin ∈ tr -> VFin ∉ tr -> vLost s = false -> vGot s = by_service tr /\ vEof s = true.
Proof.
  intros H Q Ht Hv Hl. apply erun_inv in H as (I & _ & Hs & Hf & Hf'). rewrite <- Hs. apply Hf' in Ht. assert (Hn : vFin s <> true) by (intros E; apply Hv, Hf, E). clear Hf Hf' Hs Hv.
  destruct s as [vo vf vi vg ve sr sc dn u cr cc t_o tf ti tg te vs ts vl tl]. destruct I as (ds & us & b & b' & Hd & Hu & P1 & P2 & H1 & H2 & H3 & H4 & H5 & H6 & H7 & H8 & H9 & H10 & H11 & H12).
  cbn [vGot tSaid vEof vFin tFin vLost] in *. subst tf vl.
  assert (Hun : u = []). { destruct u as [|[x|] r]; [done| |]; specialize (Q (SFrame 0) eq_refl); cbn [estep] in Q; repeat case_match; discriminate Q. }
  assert (Hvi : vi = []). { destruct vi as [|x r]; [done|]. specialize (Q VTake eq_refl). discriminate Q. }
  rewrite Hun, Hvi in *. clear Hun Hvi. destruct us; [|discriminate Hu]. destruct b'; [discriminate Hu|].
  assert (Hcc : cc = Some false).
  { destruct cc as [[]|]; [|done|].
    - destruct (H5 eq_refl) as (E & _). congruence.
    - exfalso. destruct (H1 eq_refl) as [-> _]. destruct t_o as [|x r]; [specialize (Q CEof eq_refl)|specialize (Q CRead eq_refl)]; discriminate Q. }
  subst cc. destruct (H9 eq_refl) as (_ & _ & _ & [E|[E|E]]); [discriminate E| |].
  - subst sc. destruct (H6 eq_refl) as (_ & _ & _ & E'). rewrite app_nil_r in E'. split; [symmetry; exact (E' eq_refl)|]. destruct ve; [done|]. specialize (Q VSeeEnd eq_refl). discriminate Q.
  - subst sr. destruct (H7 eq_refl) as [E|[E _]]; [|congruence]. subst sc. destruct (H6 eq_refl) as (_ & _ & _ & E'). rewrite app_nil_r in E'. split; [symmetry; exact (E' eq_refl)|]. destruct ve; [done|]. specialize (Q VSeeEnd eq_refl). discriminate Q.
Qed.

(* But the end of the visitor is taken for the end of everything.  A service that answers when it has seen the end of the question never gets an answer through, in no execution; *)
Lemma cut_nil un k : cut un [] k = [].
Proof. destruct un; cbn [cut]; [done|apply take_nil]. Qed.
Lemma deaf_step s e s' : estep s e = Some s' -> cClosed s <> None /\ vGot s = [] /\ vIn s = [] /\ (forall b, Some b ∉ up s) -> cClosed s' <> None /\ vGot s' = [] /\ vIn s' = [] /\ (forall b, Some b ∉ up s').
Proof.
  destruct s as [vo vf vi vg ve sr sc dn u cr cc t_o tf ti tg te vs ts vl tl]. cbn [cClosed vGot vIn up]. intros E (H1 & -> & -> & H2). destruct cc as [c'|]; [|congruence]. clear H1.
  destruct e; cbn [estep] in E; try discriminate E; repeat match type of E with context[match ?x with _ => _ end] => is_var x; destruct x; try discriminate E end; injection E as <-; cbn [cClosed vGot vIn up];
    try (exfalso; apply (H2 _ (elem_of_list_here _ _))); rewrite ?cut_nil; (split_and!; [done|done|done|]); intros y Hy; apply (H2 y); set_solver.
Qed.
Lemma silent_step s e s' : estep s e = Some s' -> (tSaid s = [] -> tOut s = [] /\ forall b, Some b ∉ up s) -> tSaid s' = [] -> tOut s' = [] /\ forall b, Some b ∉ up s'.
Proof.
  destruct s as [vo vf vi vg ve sr sc dn u cr cc t_o tf ti tg te vs ts vl tl]. cbn [tSaid tOut up]. intros E H.
  destruct e; cbn [estep] in E; try discriminate E; repeat match type of E with context[match ?x with _ => _ end] => is_var x; destruct x; try discriminate E end; injection E as <-; cbn [tSaid tOut up];
    try exact H; intros Ht; try (destruct (app_cons_not_nil ts [] b); symmetry; exact Ht); destruct (H Ht) as [H1 H2]; try discriminate H1; (split; [done|]); intros y Hy; apply (H2 y); set_solver.
Qed.
Theorem C100_half_close_refuted l1 l2 s : erun est0 (l1 ++ l2) = Some s -> TSeeEnd ∈ l1 -> (forall b, TSend b ∉ l1) -> vGot s = [].
Proof.
  intros H He Hn. rewrite erun_app in H. destruct (erun est0 l1) as [s1|] eqn:E; cbn [mbind option_bind] in H; [|discriminate H].
  assert (Hte : forall tr s s', erun s tr = Some s' -> tEof s = true \/ TSeeEnd ∈ tr -> tEof s' = true).
  { induction tr as [|e tr IH]; intros s0 s0' H0 Hor; cbn [erun] in H0; [injection H0 as <-; destruct Hor; [done|set_solver]|].
    destruct (estep s0 e) as [s2|] eqn:E2; cbn [mbind option_bind] in H0; [|discriminate H0]. apply (IH _ _ H0). clear IH H0. rewrite elem_of_cons in Hor. destruct s0 as [vo vf vi vg ve sr sc dn u cr cc t_o tf ti tg te vs ts vl tl].
    destruct e; cbn [estep] in E2; ev E2; cbn [tEof] in *; intuition congruence. }
  pose proof (Hte _ _ _ E (or_intror He)) as Hte1. clear Hte.
  assert (Hsi : forall tr s s', erun s tr = Some s' -> (tSaid s = [] -> tOut s = [] /\ forall b, Some b ∉ up s) -> tSaid s' = [] -> tOut s' = [] /\ forall b, Some b ∉ up s').
  { induction tr as [|e tr IH]; intros s0 s0' H0 Hor; cbn [erun] in H0; [injection H0 as <-; exact Hor|].
    destruct (estep s0 e) as [s2|] eqn:E2; cbn [mbind option_bind] in H0; [|discriminate H0]. apply (IH _ _ H0). eapply silent_step; eassumption. }
  pose proof (Hsi _ _ _ E) as Hsi1. cbn [est0 tSaid tOut up] in Hsi1. specialize (Hsi1 (fun _ => conj eq_refl (fun b => not_elem_of_nil (Some b)))). clear Hsi.
  apply erun_inv in E as (I & _ & Hs & _). replace (by_service l1) with (@nil N) in Hs.
  2: { symmetry. clear -Hn. induction l1 as [|e l IH]; [done|]. unfold by_service in *. cbn [omap list_omap]. rewrite IH by set_solver. destruct e; try done. exfalso. apply (Hn b). set_solver. }
  destruct (Hsi1 Hs) as [_ Hup]. clear Hsi1.
  assert (J : cClosed s1 <> None /\ vGot s1 = [] /\ vIn s1 = [] /\ (forall b, Some b ∉ up s1)).
  { destruct s1 as [vo vf vi vg ve sr sc dn u cr cc t_o tf ti tg te vs ts vl tl]. destruct I as (ds & us & b & b' & Hd & Hu & P1 & P2 & H1 & H2 & H3 & H4 & H5 & H6 & H7 & H8 & H9 & H10 & H11 & H12).
    cbn [cClosed vGot vIn up tSaid tEof] in *. subst ts te. apply prefix_nil_inv in P2. apply app_eq_nil in P2 as [-> ->]. destruct (H12 eq_refl) as [_ Hc]. split_and!; done. }
  clear -H J. revert s1 H J. induction l2 as [|e l2 IH]; intros s1 H J; cbn [erun] in H; [injection H as <-; apply J|].
  destruct (estep s1 e) as [s2|] eqn:E2; cbn [mbind option_bind] in H; [|discriminate H]. apply (IH s2 H). eapply deaf_step; eassumption.
Qed.

(* nor does an answer that was on its way when the visitor ended; *)
Definition in_flight (q : N) (a : list N) : list eev := [VSend q; SRead; CFrame 0; TTake] ++ (TSend <$> a) ++ [VFin; SEof; SClose; CFrame 0; CErr; TSeeEnd; VSeeEnd].
Lemma tsends a : forall vo vf vi vg ve sr sc dn u cr cc t_o ti tg te vs ts vl tl,
  erun (mkE vo vf vi vg ve sr sc dn u cr cc t_o false ti tg te vs ts vl tl) (TSend <$> a) = Some (mkE vo vf vi vg ve sr sc dn u cr cc (t_o ++ a) false ti tg te vs (ts ++ a) vl tl).
Proof. induction a as [|x a IH]; intros; cbn [fmap list_fmap erun]; [by rewrite !app_nil_r|]. cbn [estep mbind option_bind]. rewrite IH, <- !app_assoc. reflexivity. Qed.
Theorem C100_in_flight_refuted q a : exists s, erun est0 (in_flight q a) = Some s /\ quiet s /\ by_service (in_flight q a) = a /\ vGot s = [] /\ vEof s = true.
Proof.
  assert (Hb : by_service (in_flight q a) = a).
  { unfold in_flight, by_service. cbn [app omap list_omap]. rewrite omap_app. cbn [omap list_omap]. rewrite app_nil_r. induction a as [|x a IH]; [done|]. cbn. by rewrite IH. }
  eexists. split; [|split; [|split; [exact Hb|]]].
  - unfold in_flight. rewrite !erun_app. cbn. rewrite ?erun_app, tsends. cbn. rewrite ?cut_nil. cbn. reflexivity.
  - intros e He. destruct e; cbn; try reflexivity; discriminate He.
  - cbn. auto.
Qed.
(* and of a service that ends while the visitor has bytes on the way, the last words can be lost, though the visitor never ended. *)
Theorem C100_reset_refuted : exists tr s, erun est0 tr = Some s /\ quiet s /\ VFin ∉ tr /\ TFin ∈ tr /\ by_service tr = [97] /\ vGot s = [].
Proof.
  exists [VSend 1; SRead; CFrame 0; TTake; TSend 97; TFin; CRead; CEof; SFrame 0; VSend 2; SFrame 0; SErr; VSeeEnd; TSeeEnd]. eexists. split; [reflexivity|]. split; [|split_and!; try reflexivity].
  - intros e He. destruct e; try reflexivity; discriminate He.
  - apply (bool_decide_unpack _). vm_compute. exact I.
  - apply (bool_decide_unpack _). vm_compute. exact I.
Qed.

(* a visitor asks, is answered and leaves *)
Definition exchange : list eev := [VSend 63; SRead; CFrame 0; TTake; TSend 33; TSend 34; CRead; SFrame 0; VTake; CRead; SFrame 0; TFin; CEof; SFrame 0; SErr; VTake; VSeeEnd; TSeeEnd].
Theorem C100_witness :
  (exists s, erun est0 exchange = Some s /\ quiet s /\ TFin ∈ exchange /\ VFin ∉ exchange /\ vLost s = false /\ vGot s = [33; 34] /\ by_service exchange = [33; 34] /\ tGot s = [63]) /\
  (exists tr s, erun est0 tr = Some s /\ quiet s /\ VFin ∈ tr /\ TFin ∉ tr /\ tLost s = false /\ tGot s = [1; 2] /\ by_visitor tr = [1; 2]) /\
  (exists s, erun est0 [VSend 1; VFin; SRead; SEof; CFrame 0; TTake; CFrame 0; TSeeEnd; TSend 97] = Some s).
Proof.
  split_and!.
  - eexists. split; [reflexivity|]. split; [intros e He; destruct e; try reflexivity; discriminate He|]. split_and!; try reflexivity; apply (bool_decide_unpack _); vm_compute; exact I.
  - exists [VSend 1; VSend 2; VFin; SRead; SRead; SEof; CFrame 0; CFrame 0; CFrame 0; CErr; SClose; TTake; TTake; TSeeEnd; VSeeEnd]. eexists. split; [reflexivity|].
    split; [intros e He; destruct e; try reflexivity; discriminate He|]. split_and!; try reflexivity; apply (bool_decide_unpack _); vm_compute; exact I.
  - eexists. reflexivity.
Qed.
