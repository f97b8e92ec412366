(* Props_PageTimes.v -- C98, the durations: what the settings page lets through as a time (DurModel.re_time true is validatorTimeFormat, web/front/src/utils/eleValidate.ts 1-13,
   an empty field apart) and what config.Duration makes of it *)
From Coq Require Import Strings.String.
From Verif Require Import GoBase FlagsModel LogModel RouteModel Props_Route PortsSpec DurModel Props_Dur.
Local Open Scope N_scope.

(* ---- specification: numbers, each with its unit, and their sum in nanoseconds ---- *)
Definition page_units : list (bytes * N) := [(bs "ns", 1); (bs "us", 1000); (MU ++ bs "s", 1000); (bs "ms", 1000000); (bs "s", 1000000000); (bs "m", 60000000000); (bs "h", 3600000000000)].
Inductive times : bytes -> N -> Prop :=
  | TNil : times [] 0
  | TCons ds v u un s t : decimal ds v -> (u, un) ∈ page_units -> times s t -> times (ds ++ u ++ s) (v * un + t).

Lemma decimal_digits ds v : decimal ds v -> ds <> [] /\ digits ds /\ v = val_from 0 ds.
Proof. intros (Hn & HF & ->). done. Qed.
Lemma page_unit u un : (u, un) ∈ page_units -> unit_of u = Some un /\ 0 < un /\ unit_text u.
Proof.
  intros H. unfold page_units in H. repeat (apply elem_of_cons in H as [[= -> ->]|H]; [split_and!; [vm_compute; reflexivity|lia|split; [done|repeat constructor; done]]|]). by apply elem_of_nil in H.
Qed.
Lemma digits_first ds x : ds <> [] -> digits ds -> exists c t, ds ++ x = c :: t /\ is_digit c = true.
Proof. intros Hn Hd. destruct ds as [|c ds]; [done|]. inversion Hd; subst. exists c, (ds ++ x). split; [done|by apply is_digit_true]. Qed.
Lemma times_starts s t : times s t -> starts_number s.
Proof. intros [|ds v u un s' t' Hd _ _]; [done|]. apply decimal_digits in Hd as (Hn & Hd & _). by destruct (digits_first ds (u ++ s') Hn Hd) as (c & x & -> & Hc). Qed.
Lemma is_digit_inv c : is_digit c = true -> 48 <= c <= 57.
Proof. unfold is_digit. rewrite andb_true_iff, !N.leb_le. done. Qed.
Lemma skip_digits_spec s : exists ds, s = ds ++ skip_digits s /\ digits ds /\ (forall c t, s = c :: t -> is_digit c = true -> ds <> []).
Proof.
  induction s as [|c s (ds & E & Hd & _)]; [exists []; split_and!; [done|constructor|done]|]. cbn [skip_digits]. destruct (is_digit c) eqn:Ec.
  - exists (c :: ds). split; [by rewrite E at 1|]. split; [constructor; [by apply is_digit_inv|done]|done].
  - exists []. split; [done|]. split; [constructor|]. intros c' t [= <- _]. congruence.
Qed.
Lemma strip_spec p : forall s r, strip p s = Some r -> s = p ++ r.
Proof. induction p as [|a p IH]; intros s r H; cbn in H; [by injection H as ->|]. destruct s as [|b s]; [done|]. destruct (N.eqb_spec a b) as [->|]; [|done]. by rewrite (IH _ _ H). Qed.
Lemma first_unit_spec l s r : first_unit l s = Some r -> exists u, u ∈ l /\ s = u ++ r.
Proof.
  induction l as [|u l IH]; cbn; [done|]. destruct (strip u s) as [q|] eqn:E; [intros [= ->]; exists u; split; [by left|by apply strip_spec]|]. intros H. destruct (IH H) as (u' & Hu & Es). exists u'. split; [by right|done].
Qed.
Lemma re_units_page u : u ∈ re_units true -> exists un, (u, un) ∈ page_units.
Proof. intros H. cbn [re_units app] in H. unfold page_units. repeat (apply elem_of_cons in H as [-> |H]; [eexists; rewrite !elem_of_cons; intuition eauto|]). by apply elem_of_nil in H. Qed.
Lemma re_one_inv s r : re_one true s = Some r -> exists ds v u un, s = ds ++ u ++ r /\ decimal ds v /\ (u, un) ∈ page_units.
Proof.
  intros H. unfold re_one in H. destruct (skip_digits_spec s) as (ds & E & Hd & Hn). destruct s as [|c s]; [done|]. destruct (is_digit c) eqn:Ec; cbn [negb] in H; [|done].
  apply first_unit_spec in H as (u & Hu & Es). destruct (re_units_page u Hu) as [un Hun]. specialize (Hn c s eq_refl Ec). exists ds, (val_from 0 ds), u, un. rewrite Es in E. done.
Qed.
Lemma re_more_times f : forall s, re_more true f s = true -> exists t, times s t.
Proof.
  induction f as [|f IH]; intros s H; destruct s as [|c s]; cbn [re_more] in H; try (exists 0; constructor); try done.
  destruct (re_one true (c :: s)) as [r|] eqn:E; [|done]. apply re_one_inv in E as (ds & v & u & un & -> & Hd & Hu). destruct (IH _ H) as [t Ht]. exists (v * un + t). by constructor.
Qed.
Lemma skip_all ds x : digits ds -> nodigit x -> skip_digits (ds ++ x) = x.
Proof.
  induction ds as [|b ds IH]; intros Hd Hx; [destruct x as [|c x]; [done|]; cbn; cbn in Hx; by rewrite Hx|]. inversion Hd; subst. cbn. rewrite is_digit_true by done. by apply IH.
Qed.
Lemma unit_nodigit u x : unit_text u -> nodigit (u ++ x).
Proof. intros [Hn HF]. destruct u as [|b u]; [done|]. cbn. by inversion HF as [|? ? [? _]]. Qed.
Lemma re_one_times ds v u un rest : decimal ds v -> (u, un) ∈ page_units -> starts_number rest -> re_one true (ds ++ u ++ rest) = Some rest.
Proof.
  intros Hd Hu Hr. apply decimal_digits in Hd as (Hn & Hd & _). destruct (page_unit _ _ Hu) as (_ & _ & HU). pose proof (skip_all ds (u ++ rest) Hd (unit_nodigit u rest HU)) as Hs.
  destruct (digits_first ds (u ++ rest) Hn Hd) as (c & t & E & Hc). unfold re_one. rewrite E in *. rewrite Hc. cbn [negb]. rewrite Hs. clear Hs E HU.
  cbn [re_units app]. unfold page_units in Hu. repeat (apply elem_of_cons in Hu as [[= -> ->]|Hu]; [destruct rest as [|x rest]; [done|]; cbn in Hr; apply is_digit_inv in Hr;
    assert (Hx : x = 48 \/ x = 49 \/ x = 50 \/ x = 51 \/ x = 52 \/ x = 53 \/ x = 54 \/ x = 55 \/ x = 56 \/ x = 57) by lia; clear Hr;
    destruct Hx as [-> |[-> |[-> |[-> |[-> |[-> |[-> |[-> |[-> | ->]]]]]]]]]; reflexivity|]).
  by apply elem_of_nil in Hu.
Qed.
Lemma times_re_more s t : times s t -> forall f, (length s <= f)%nat -> re_more true f s = true.
Proof.
  induction 1 as [|ds v u un s t Hd Hu Ht IH]; intros f Hf; [by destruct f|]. pose proof (re_one_times ds v u un s Hd Hu (times_starts _ _ Ht)) as H1.
  apply decimal_digits in Hd as (Hn & Hd & _). destruct (digits_first ds (u ++ s) Hn Hd) as (c & x & E & _). destruct f as [|f]; [rewrite E in Hf; cbn in Hf; lia|].
  rewrite E in *. cbn [re_more]. rewrite H1. apply IH. assert (HL : (length (ds ++ u ++ s) <= S f)%nat) by (rewrite E; done). rewrite !app_length in HL. destruct ds; [done|]. cbn in HL. lia.
Qed.
(* What the page lets through is exactly a non-empty row of such numbers; *)
Theorem C98_time_accepts s : re_time true s = true <-> s <> [] /\ exists t, times s t.
Proof.
  unfold re_time. rewrite andb_true_iff. split.
  - intros [Hn H]. split; [|by eapply re_more_times]. intros ->. done.
  - intros [Hn [t Ht]]. rewrite bool_decide_eq_false_2 by done. split; [done|]. by eapply times_re_more.
Qed.

(* ---- what gt makes of it ---- *)
Lemma leading_int_over ds : forall x rest, digits ds -> 2 ^ 63 < val_from x ds -> x <= 2 ^ 63 -> leading_int x (ds ++ rest) = None.
Proof.
  induction ds as [|b ds IH]; intros x rest Hd Hv Hx; [cbn in Hv; lia|]. inversion Hd; subst. cbn [app leading_int]. rewrite is_digit_true by done. destruct (N.ltb_spec (2 ^ 63 / 10) x); [done|].
  destruct (N.ltb_spec (2 ^ 63) (x * 10 + (b - 48))); [done|]. by apply IH.
Qed.
Lemma parse_one_times ds v u un rest : decimal ds v -> (u, un) ∈ page_units -> starts_number rest -> parse_one (ds ++ u ++ rest) = if 2 ^ 63 <? v * un then None else Some (v * un, rest).
Proof.
  intros Hd Hu Hr. apply decimal_digits in Hd as (Hn & Hd & ->). destruct (page_unit _ _ Hu) as (Hun & Hpos & HU). assert (Hnd := unit_nodigit u rest HU). set (v := val_from 0 ds).
  destruct (digits_first ds (u ++ rest) Hn Hd) as (c & t & E & Hc). unfold parse_one. rewrite E. rewrite Hc. cbn [orb negb]. rewrite <- E.
  destruct (N.leb_spec v (2 ^ 63)) as [Hv|Hv].
  - rewrite leading_int_digits by done. fold v. cbn [mbind option_bind]. rewrite (proj2 (Nat.eqb_neq (length (u ++ rest)) _)); [|rewrite !app_length; destruct ds; [done|cbn; lia]]. cbn [negb andb].
    destruct HU as [Hu0 HF]. destruct u as [|b u]; [done|]. cbn [app]. inversion HF as [|? ? [Hb1 Hb2] HF']; subst. rewrite (proj2 (N.eqb_neq b DOT) Hb2).
    change (b :: u ++ rest) with ((b :: u) ++ rest). rewrite unit_name_app by done. rewrite bool_decide_eq_false_2 by done. rewrite Hun. cbn [mbind option_bind].
    destruct (N.ltb_spec (2 ^ 63 / un) v) as [Hx|Hx].
    + pose proof (N.mul_succ_div_gt (2 ^ 63) un ltac:(lia)). destruct (N.ltb_spec (2 ^ 63) (v * un)); [done|nia].
    + cbn [N.ltb N.compare]. done.
  - rewrite leading_int_over by (done || lia). cbn [mbind option_bind]. destruct (N.ltb_spec (2 ^ 63) (v * un)); [done|nia].
Qed.
Lemma loop_times s t : times s t -> forall f d, (length s <= f)%nat -> d <= 2 ^ 63 -> parse_loop f d s = if 2 ^ 63 <? d + t then None else Some (d + t).
Proof.
  induction 1 as [|ds v u un s t Hd Hu Ht IH]; intros f d Hf Hd63.
  { rewrite N.add_0_r. destruct (N.ltb_spec (2 ^ 63) d); [lia|]. by destruct f. }
  pose proof (parse_one_times ds v u un s Hd Hu (times_starts _ _ Ht)) as H1. apply decimal_digits in Hd as (Hn & Hd & _). destruct (digits_first ds (u ++ s) Hn Hd) as (c & x & E & _).
  assert (HL : (length s < f)%nat) by (rewrite !app_length in Hf; destruct ds; [done|cbn in Hf; lia]). destruct f as [|f]; [lia|]. rewrite E in *. cbn [parse_loop]. rewrite H1.
  destruct (N.ltb_spec (2 ^ 63) (v * un)) as [Ho|Ho]; cbn [mbind option_bind]; [destruct (N.ltb_spec (2 ^ 63) (d + (v * un + t))); [done|lia]|].
  destruct (N.ltb_spec (2 ^ 63) (d + v * un)) as [Ho2|Ho2]; [destruct (N.ltb_spec (2 ^ 63) (d + (v * un + t))); [done|lia]|]. rewrite IH by lia. by rewrite <- N.add_assoc.
Qed.
(* gt takes it as the sum, if that is a duration, *)
Theorem C98_time s t : s <> [] -> times s t -> parse_duration s = if t <? 2 ^ 63 then Some (Z.of_N t) else None.
Proof.
  intros Hn Ht. pose proof (loop_times s t Ht (length s) 0 ltac:(lia) ltac:(lia)) as HL. rewrite N.add_0_l in HL. pose proof (times_starts _ _ Ht) as Hs.
  assert (H0 : s <> bs "0"). { intros ->. pose proof (times_re_more _ _ Ht 1%nat ltac:(cbn; lia)). discriminate. }
  unfold parse_duration. destruct s as [|c s]; [done|]. cbn in Hs. apply is_digit_inv in Hs. unfold MINUS. destruct (N.eqb_spec c 45); [lia|]. destruct (N.eqb_spec c 43); [lia|]. cbn [orb].
  rewrite !bool_decide_eq_false_2 by done. rewrite HL. destruct (N.ltb_spec (2 ^ 63) t) as [H|H]; cbn [mbind option_bind].
  - destruct (N.ltb_spec t (2 ^ 63)); [lia|done].
  - destruct (N.ltb_spec (2 ^ 63 - 1) t), (N.ltb_spec t (2 ^ 63)); try lia; done.
Qed.
(* so a time that is too long gets through and is refused by gt. *)
Theorem C98_time_refuted n v : decimal n v -> 2 ^ 63 <= v * 3600000000000 -> re_time true (n ++ bs "h") = true /\ parse_duration (n ++ bs "h") = None.
Proof.
  intros Hn Hv. assert (T : times (n ++ bs "h" ++ []) (v * 3600000000000 + 0)) by (constructor; [done|unfold page_units; rewrite !elem_of_cons; auto 10|constructor]). rewrite app_nil_r in T.
  assert (Hne : n ++ bs "h" <> []) by (by destruct n). split; [apply C98_time_accepts; split; [done|by eexists]|]. rewrite (C98_time _ _ Hne T). destruct (N.ltb_spec (v * 3600000000000 + 0) (2 ^ 63)); [lia|done].
Qed.
(* What gt itself writes with a fraction, or below zero, the page refuses. *)
Theorem C98_time_witness : re_time true (bs "1h30m") = true /\ parse_duration (bs "1h30m") = Some 5400000000000%Z /\ times (bs "1h30m") 5400000000000 /\
  re_time true (bs "2562048h") = true /\ parse_duration (bs "2562048h") = None /\ (dur_string 1500000000 = bs "1.5s" /\ re_time true (bs "1.5s") = false) /\ (dur_string (-1000000000) = bs "-1s" /\ re_time true (bs "-1s") = false).
Proof.
  assert (D : forall l, l <> [] -> digits l -> decimal l (val_from 0 l)) by done.
  split_and!; try (vm_compute; reflexivity). refine (TCons (bs "1") 1 (bs "h") 3600000000000 (bs "30m") 1800000000000 _ _ _); [apply (D (bs "1")); [done|repeat constructor; done]|unfold page_units; rewrite !elem_of_cons; auto 10|].
  refine (TCons (bs "30") 30 (bs "m") 60000000000 [] 0 _ _ TNil); [apply (D (bs "30")); [done|repeat constructor; done]|unfold page_units; rewrite !elem_of_cons; auto 10].
Qed.
