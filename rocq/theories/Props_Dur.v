(* Props_Dur.v -- C92: a duration that gt writes into a configuration is read back exactly *)
From Coq Require Import Strings.String.
From Verif Require Import GoBase FlagsModel LogModel RouteModel Props_Route DurModel.
Local Open Scope N_scope.

(* the durations there are: int64 nanoseconds *)
Definition int64 (d : Z) : Prop := (- 2 ^ 63 <= d < 2 ^ 63)%Z.

Definition digits (l : bytes) : Prop := Forall (fun b => 48 <= b <= 57) l.
Definition nodigit (l : bytes) : Prop := match l with [] => True | c :: _ => is_digit c = false end.
Lemma is_digit_true b : 48 <= b <= 57 -> is_digit b = true.
Proof. unfold is_digit. intros. apply andb_true_iff. split; apply N.leb_le; lia. Qed.
Definition val_from (x : N) (l : bytes) : N := fold_left (fun a b => a * 10 + (b - 48)) l x.
Lemma val_from_ge l : forall x, x <= val_from x l.
Proof. induction l as [|b l IH]; intros x; cbn; [lia|]. etrans; [|apply IH]. lia. Qed.
Lemma leading_int_digits ds : forall x rest, digits ds -> nodigit rest -> val_from x ds <= 2 ^ 63 -> leading_int x (ds ++ rest) = Some (val_from x ds, rest).
Proof.
  induction ds as [|b ds IH]; intros x rest Hd Hr Hv.
  - cbn [app val_from fold_left]. destruct rest as [|c r]; cbn [leading_int]; [done|]. cbn in Hr. by rewrite Hr.
  - inversion Hd; subst. cbn [app leading_int]. rewrite is_digit_true by done. change (val_from x (b :: ds)) with (val_from (x * 10 + (b - 48)) ds) in *.
    pose proof (val_from_ge ds (x * 10 + (b - 48))) as Hg.
    destruct (N.ltb_spec (2 ^ 63 / 10) x) as [Hx|Hx].
    { exfalso. assert (2 ^ 63 < x * 10); [|lia]. pose proof (N.mul_succ_div_gt (2 ^ 63) 10 ltac:(lia)). lia. }
    destruct (N.ltb_spec (2 ^ 63) (x * 10 + (b - 48))); [lia|]. by apply IH.
Qed.
Lemma leading_int_dec n rest : nodigit rest -> n <= 2 ^ 63 -> leading_int 0 (dec n ++ rest) = Some (n, rest).
Proof.
  intros Hr Hn. destruct (dec_spec n) as (_ & Hv & Hd). rewrite leading_int_digits; [|done..|].
  - change (val_from 0 (dec n)) with (value (dec n)). by rewrite Hv.
  - change (val_from 0 (dec n)) with (value (dec n)). by rewrite Hv.
Qed.
Lemma leading_frac_digits ds : forall x k rest, digits ds -> nodigit rest -> val_from x ds <= (2 ^ 63 - 1) / 10 -> leading_frac false x k (ds ++ rest) = (val_from x ds, (k + length ds)%nat, rest).
Proof.
  induction ds as [|b ds IH]; intros x k rest Hd Hr Hv.
  - cbn [app val_from fold_left length]. rewrite Nat.add_0_r. destruct rest as [|c r]; cbn [leading_frac]; [done|]. cbn in Hr. by rewrite Hr.
  - inversion Hd; subst. cbn [app leading_frac]. rewrite is_digit_true by done. change (val_from x (b :: ds)) with (val_from (x * 10 + (b - 48)) ds) in *.
    pose proof (val_from_ge ds (x * 10 + (b - 48))) as Hg.
    destruct (N.ltb_spec ((2 ^ 63 - 1) / 10) x) as [Hx|Hx]; [lia|].
    assert ((2 ^ 63 - 1) / 10 <= 2 ^ 63) by (vm_compute; congruence).
    destruct (N.ltb_spec (2 ^ 63) (x * 10 + (b - 48))); [lia|]. rewrite IH by done. cbn [length]. do 2 f_equal. lia.
Qed.

(* what fmtFrac writes *)
Lemma ten_S p : ten (S p) = 10 * ten p.
Proof. unfold ten. rewrite Nat2N.inj_succ, N.pow_succ_r'. done. Qed.
Lemma ten_pos p : 0 < ten p.
Proof. unfold ten. assert (10 ^ N.of_nat p <> 0) by (apply N.pow_nonzero; lia). lia. Qed.
Lemma mod_ten_S p v : v mod ten (S p) = 10 * ((v / 10) mod ten p) + v mod 10.
Proof. rewrite ten_S. pose proof (ten_pos p). rewrite N.mod_mul_r by lia. lia. Qed.
Lemma frac_true p : forall v acc, exists ds, frac_digits p v true acc = DOT :: ds ++ acc /\ length ds = p /\ digits ds /\ value ds = v mod ten p.
Proof.
  induction p as [|p IH]; intros v acc.
  - exists []. cbn. unfold ten. cbn. rewrite N.mod_1_r. split_and!; [done..|constructor|done].
  - cbn [frac_digits orb]. destruct (IH (v / 10) ((48 + v mod 10) :: acc)) as (ds & -> & Hl & Hd & Hv).
    exists (ds ++ [48 + v mod 10]). pose proof (N.mod_lt v 10 ltac:(lia)). split_and!.
    + by rewrite <- app_assoc.
    + rewrite app_length. cbn. lia.
    + apply Forall_app. split; [done|]. repeat constructor; lia.
    + unfold value in *. rewrite fold_left_app. cbn [fold_left]. rewrite Hv, mod_ten_S. lia.
Qed.
Lemma frac_false p : forall v, (v mod ten p = 0 /\ frac_digits p v false [] = []) \/
  exists ds, frac_digits p v false [] = DOT :: ds /\ (1 <= length ds <= p)%nat /\ digits ds /\ value ds * ten (p - length ds) = v mod ten p /\ 0 < value ds.
Proof.
  induction p as [|p IH]; intros v.
  - left. unfold ten. cbn. by rewrite N.mod_1_r.
  - cbn [frac_digits orb]. destruct (N.eqb_spec (v mod 10) 0) as [E|E]; cbn [negb].
    + destruct (IH (v / 10)) as [[H0 ->]|(ds & -> & Hl & Hd & Hv & Hp)].
      * left. split; [|done]. rewrite mod_ten_S, H0, E. done.
      * right. exists ds. split_and!; [done|lia|lia|done| |done]. rewrite mod_ten_S, E, <- Hv. replace (S p - length ds)%nat with (S (p - length ds))%nat by lia. rewrite ten_S. lia.
    + right. destruct (frac_true p (v / 10) [48 + v mod 10]) as (ds & -> & Hl & Hd & Hv). pose proof (N.mod_lt v 10 ltac:(lia)).
      exists (ds ++ [48 + v mod 10]). rewrite app_length. cbn [length].
      assert (value (ds ++ [48 + v mod 10]) = v mod ten (S p)) as Hvv.
      { unfold value in *. rewrite fold_left_app. cbn [fold_left]. rewrite Hv, mod_ten_S. lia. }
      split_and!; [done|lia|lia| | |].
      * apply Forall_app. split; [done|]. repeat constructor; lia.
      * rewrite Hvv. replace (S p - (length ds + 1))%nat with 0%nat by lia. unfold ten at 1. cbn. lia.
      * rewrite Hvv, mod_ten_S. lia.
Qed.

(* one number with its unit *)
Definition unit_text (u : bytes) : Prop := u <> [] /\ Forall (fun c => is_digit c = false /\ c <> DOT) u.
Definition starts_number (l : bytes) : Prop := match l with [] => True | c :: _ => is_digit c = true end.
Lemma unit_name_app u rest : Forall (fun c => is_digit c = false /\ c <> DOT) u -> starts_number rest -> unit_name (u ++ rest) = (u, rest).
Proof.
  induction u as [|c u IH]; intros Hu Hr; cbn [app unit_name].
  - destruct rest as [|c r]; [done|]. cbn [unit_name]. cbn in Hr. by rewrite Hr.
  - inversion Hu as [|? ? [Hc Hc2] Hu']; subst. rewrite Hc, (proj2 (N.eqb_neq c DOT) Hc2). cbn [orb]. by rewrite IH.
Qed.
Lemma num_first n : exists c t, dec n = c :: t /\ is_digit c = true.
Proof. destruct (dec_spec n) as (Hn & _ & Hd). destruct (dec n) as [|c t] eqn:E; [done|]. exists c, t. split; [done|]. inversion Hd; subst. by apply is_digit_true. Qed.
Lemma parse_one_int n u un rest : unit_text u -> unit_of u = Some un -> 0 < un -> starts_number rest -> n * un <= 2 ^ 63 ->
  parse_one (dec n ++ u ++ rest) = Some (n * un, rest).
Proof.
  intros [Hu0 Hu] Hun Hpos Hr Hb. destruct (num_first n) as (c & t & Ec & Hc).
  assert (n <= 2 ^ 63) as Hn by nia.
  assert (nodigit (u ++ rest)) as Hnd. { destruct u as [|b u]; [done|]. cbn. by inversion Hu as [|? ? [? _]]. }
  pose proof (leading_int_dec n (u ++ rest) Hnd Hn) as HL. unfold parse_one. rewrite Ec in *. cbn [app] in *. rewrite Hc. cbn [orb negb]. rewrite HL. cbn [mbind option_bind].
  rewrite (proj2 (Nat.eqb_neq (length (u ++ rest)) _)); [|cbn [length]; rewrite !app_length; lia]. cbn [negb andb].
  destruct u as [|b u]; [done|]. cbn [app]. inversion Hu as [|? ? [Hb1 Hb2] Hu']; subst. rewrite (proj2 (N.eqb_neq b DOT) Hb2).
  change (b :: u ++ rest) with ((b :: u) ++ rest). rewrite unit_name_app by done.
  rewrite bool_decide_eq_false_2 by done. rewrite Hun. cbn [mbind option_bind].
  destruct (N.ltb_spec (2 ^ 63 / un) n) as [Hx|Hx].
  { exfalso. pose proof (N.mul_succ_div_gt (2 ^ 63) un ltac:(lia)). nia. }
  cbn [N.ltb N.compare]. destruct (N.ltb_spec (2 ^ 63) (n * un)); [lia|]. done.
Qed.
Lemma val_lt ds : digits ds -> value ds < ten (length ds).
Proof.
  induction ds as [|b ds IH] using rev_ind; intros Hd; [vm_compute; done|]. apply Forall_app in Hd as [Hd Hb]. inversion Hb; subst. rewrite app_length. cbn [length].
  replace (length ds + 1)%nat with (S (length ds)) by lia. rewrite ten_S. unfold value in *. rewrite fold_left_app. cbn [fold_left]. specialize (IH Hd). lia.
Qed.
Lemma ten_le p q : (p <= q)%nat -> ten p <= ten q.
Proof. intros. unfold ten. apply N.pow_le_mono_r; lia. Qed.
Lemma ten_add p q : ten (p + q) = ten p * ten q.
Proof. unfold ten. rewrite Nat2N.inj_add, N.pow_add_r. done. Qed.
Lemma parse_one_frac p v u rest : (p <= 9)%nat -> unit_text u -> unit_of u = Some (ten p) -> starts_number rest -> v <= 2 ^ 63 ->
  parse_one (num_text p v ++ u ++ rest) = Some (v, rest).
Proof.
  intros Hp9 HU Hun Hr Hb. pose proof (ten_pos p) as Htp. pose proof (N.div_mod' v (ten p)) as Hdm. unfold num_text.
  destruct (frac_false p v) as [[H0 ->]|(ds & -> & Hl & Hd & Hv & Hp)].
  - rewrite app_nil_r. rewrite (parse_one_int _ u (ten p) rest); [|done..|lia]. do 2 f_equal. lia.
  - destruct HU as [Hu0 Hu]. destruct (num_first (v / ten p)) as (c & t & Ec & Hc).
    assert (v / ten p <= 2 ^ 63) as Hn by nia. rewrite <- app_assoc. cbn [app].
    pose proof (leading_int_dec (v / ten p) (DOT :: ds ++ u ++ rest) eq_refl Hn) as HL.
    unfold parse_one. rewrite Ec in *. cbn [app] in *. rewrite Hc. cbn [orb negb]. rewrite HL. cbn [mbind option_bind].
    rewrite (proj2 (Nat.eqb_neq (length (DOT :: ds ++ u ++ rest)) _)); [|cbn [length]; rewrite !app_length; cbn [length]; rewrite ?app_length; lia]. cbn [negb andb].
    rewrite N.eqb_refl. pose proof (val_lt ds Hd) as Hvl. pose proof (ten_le (length ds) 9 ltac:(lia)) as Ht9. assert (ten 9 = 1000000000) as E9 by done.
    rewrite (leading_frac_digits ds 0 0 (u ++ rest)); [|done| |].
    2: { destruct u as [|b u]; [done|]. cbn. by inversion Hu as [|? ? [? _]]. }
    2: { change (val_from 0 ds) with (value ds). assert ((2 ^ 63 - 1) / 10 = 922337203685477580) as -> by done. lia. }
    change (val_from 0 ds) with (value ds). rewrite unit_name_app by done. rewrite bool_decide_eq_false_2 by done. rewrite Hun. cbn [mbind option_bind].
    destruct (N.ltb_spec (2 ^ 63 / ten p) (v / ten p)) as [Hx|Hx].
    { exfalso. apply N.lt_nge in Hx. apply Hx. apply N.div_le_mono; lia. }
    destruct (N.ltb_spec 0 (value ds)) as [_|]; [|lia]. rewrite Nat.add_0_l.
    assert (value ds * ten p / ten (length ds) = v mod ten p) as ->.
    { rewrite <- Hv. replace p with (length ds + (p - length ds))%nat at 1 by lia. rewrite ten_add. pose proof (ten_pos (length ds)).
      rewrite (N.mul_comm (ten (length ds))), N.mul_assoc, N.div_mul by lia. done. }
    assert (v / ten p * ten p + v mod ten p = v) as -> by lia. destruct (N.ltb_spec (2 ^ 63) v); [lia|]. done.
Qed.

Lemma ends_s x : x ++ bs "s" <> bs "0" /\ x ++ bs "s" <> [].
Proof. destruct x as [|a [|b x]]; split; done. Qed.
Definition body_of (u : N) : bytes :=
  if u <? 1000000000 then
      if u =? 0 then bs "0s"
      else if u <? 1000 then dec u ++ bs "ns"
      else if u <? 1000000 then num_text 3 u ++ MU ++ bs "s"
      else num_text 6 u ++ bs "ms"
    else
      let s := u / 1000000000 in
      let sec := num_text 9 (u mod 60000000000) ++ bs "s" in
      let m := s / 60 in
      if m =? 0 then sec
      else let h := m / 60 in
           (if h =? 0 then [] else dec h ++ bs "h") ++ dec (m mod 60) ++ bs "m" ++ sec.
Lemma dur_string_body d : dur_string d = if (d <? 0)%Z then MINUS :: body_of (Z.to_N (Z.abs d)) else body_of (Z.to_N (Z.abs d)).
Proof. done. Qed.
Lemma loop_one g d s v r : parse_one s = Some (v, r) -> d + v <= 2 ^ 63 -> parse_loop (S g) d s = parse_loop g (d + v) r.
Proof. intros H Hb. destruct s as [|c s]; [done|]. cbn [parse_loop]. rewrite H. cbn [mbind option_bind]. destruct (N.ltb_spec (2 ^ 63) (d + v)); [lia|done]. Qed.
Lemma loop_nil g d : parse_loop g d [] = Some d.
Proof. by destruct g. Qed.
Lemma num_text_first p v : exists c t, num_text p v = c :: t /\ is_digit c = true.
Proof. unfold num_text. destruct (num_first (v / ten p)) as (c & t & -> & Hc). by exists c, (t ++ frac_digits p v false []). Qed.
Lemma starts_num_text p v x : starts_number (num_text p v ++ x).
Proof. by destruct (num_text_first p v) as (c & t & -> & Hc). Qed.
Lemma starts_dec n x : starts_number (dec n ++ x).
Proof. by destruct (num_first n) as (c & t & -> & Hc). Qed.
Ltac ut := split; [done|repeat constructor; done].

Lemma body_first u : exists c t, body_of u = c :: t /\ is_digit c = true.
Proof.
  unfold body_of. destruct (u <? 1000000000).
  - destruct (u =? 0); [by eexists _, _|]. destruct (u <? 1000); [destruct (num_first u) as (c & t & -> & Hc); by exists c, (t ++ bs "ns")|].
    destruct (u <? 1000000); [destruct (num_text_first 3 u) as (c & t & -> & Hc); by eexists c, _|destruct (num_text_first 6 u) as (c & t & -> & Hc); by eexists c, _].
  - cbn zeta. destruct (_ =? 0); [destruct (num_text_first 9 (u mod 60000000000)) as (c & t & -> & Hc); by eexists c, _|].
    destruct (_ =? 0); cbn [app]; [destruct (num_first (u / 1000000000 / 60 mod 60)) as (c & t & -> & Hc); by eexists c, _|].
    destruct (num_first (u / 1000000000 / 60 / 60)) as (c & t & -> & Hc); by eexists c, _.
Qed.
Lemma body_ends u : exists x, body_of u = x ++ bs "s".
Proof.
  unfold body_of. destruct (u <? 1000000000).
  - destruct (u =? 0); [by exists (bs "0")|]. destruct (u <? 1000); [exists (dec u ++ bs "n"); by rewrite <- app_assoc|].
    destruct (u <? 1000000); [exists (num_text 3 u ++ MU); by rewrite <- app_assoc|exists (num_text 6 u ++ bs "m"); by rewrite <- app_assoc].
  - cbn zeta. destruct (_ =? 0); [by eexists|].
    match goal with |- exists x, ?a ++ ?b ++ ?c ++ ?d ++ ?e = _ => exists (a ++ b ++ c ++ d) end. by rewrite <- !app_assoc.
Qed.
Lemma loop_body u : u <= 2 ^ 63 -> parse_loop (length (body_of u)) 0 (body_of u) = Some u.
Proof.
  intros Hu. unfold body_of. destruct (N.ltb_spec u 1000000000) as [H1|H1].
  - destruct (N.eqb_spec u 0) as [->|H0]; [done|]. destruct (N.ltb_spec u 1000) as [H2|H2]; [|destruct (N.ltb_spec u 1000000) as [H3|H3]].
    + rewrite <- (app_nil_r (bs "ns")). destruct (length _) as [|g] eqn:El; [rewrite !app_length in El; cbn in El; lia|].
      erewrite loop_one; [apply loop_nil| |].
      * rewrite (parse_one_int u (bs "ns") 1 []); [|ut|done|lia|done|lia]. by rewrite N.mul_1_r.
      * lia.
    + rewrite <- (app_nil_r (MU ++ bs "s")). destruct (length _) as [|g] eqn:El; [rewrite !app_length in El; cbn in El; lia|].
      erewrite loop_one; [apply loop_nil| |]; [apply (parse_one_frac 3 u (MU ++ bs "s") []); [lia|ut|done|done|lia]|lia].
    + rewrite <- (app_nil_r (bs "ms")). destruct (length _) as [|g] eqn:El; [rewrite !app_length in El; cbn in El; lia|].
      erewrite loop_one; [apply loop_nil| |]; [apply (parse_one_frac 6 u (bs "ms") []); [lia|ut|done|done|lia]|lia].
  - cbn zeta. set (s := u / 1000000000). set (m := s / 60). set (w := u mod 60000000000).
    assert (m = u / 60000000000) as Em. { unfold m, s. rewrite N.div_div by lia. done. }
    assert (u = 60000000000 * m + w) as Eu. { rewrite Em. apply N.div_mod'. }
    assert (w < 60000000000) as Hw by (apply N.mod_lt; lia).
    assert (parse_one (num_text 9 w ++ bs "s") = Some (w, [])) as Hsec.
    { rewrite <- (app_nil_r (bs "s")). apply (parse_one_frac 9 w (bs "s") []); [lia|ut|done|done|lia]. }
    destruct (N.eqb_spec m 0) as [E0|E0].
    + destruct (length _) as [|g] eqn:El; [rewrite !app_length in El; cbn in El; lia|].
      erewrite loop_one; [|exact Hsec|lia]. rewrite loop_nil. f_equal. lia.
    + pose proof (N.div_mod' m 60) as Ehm. set (h := m / 60) in *. set (mm := m mod 60) in *. assert (mm < 60) by (apply N.mod_lt; lia).
      assert (forall g d, d + mm * 60000000000 + w <= 2 ^ 63 -> parse_loop (S (S g)) d (dec mm ++ bs "m" ++ num_text 9 w ++ bs "s") = Some (d + mm * 60000000000 + w)) as Hmin.
      { intros g d Hd. erewrite loop_one; [|apply (parse_one_int mm (bs "m") 60000000000 (num_text 9 w ++ bs "s")); [ut|done|lia|apply starts_num_text|lia]|lia].
        erewrite loop_one; [|exact Hsec|lia]. by rewrite loop_nil. }
      destruct (N.eqb_spec h 0) as [Eh|Eh]; cbn [app].
      * destruct (length _) as [|[|g]] eqn:El; [rewrite !app_length in El; cbn in El; lia|rewrite !app_length in El; cbn in El; lia|].
        rewrite Hmin by lia. f_equal. lia.
      * rewrite <- app_assoc. destruct (length _) as [|[|[|g]]] eqn:El; [rewrite !app_length in El; cbn in El; lia..|].
        erewrite loop_one; [|apply (parse_one_int h (bs "h") 3600000000000); [ut|done|lia|apply starts_dec|lia]|lia].
        rewrite Hmin by lia. f_equal. lia.
Qed.

Theorem C92_read_back d : int64 d -> parse_duration (dur_string d) = Some d.
Proof.
  intros [H1 H2]. rewrite dur_string_body. set (u := Z.to_N (Z.abs d)). assert (u <= 2 ^ 63) as Hu. { unfold u. apply N2Z.inj_le. rewrite Z2N.id by lia. change (Z.of_N (2 ^ 63)) with (2 ^ 63)%Z. lia. }
  destruct (body_first u) as (c & t & Eb & Hc). destruct (body_ends u) as [x Ex]. destruct (ends_s x) as [Hz Hn]. rewrite <- Ex in Hz, Hn.
  pose proof (loop_body u Hu) as HL.
  destruct (Z.ltb_spec d 0) as [Hd|Hd].
  - unfold parse_duration. cbn [N.eqb]. rewrite N.eqb_refl. cbn [orb]. rewrite bool_decide_eq_false_2 by done. rewrite bool_decide_eq_false_2 by done.
    rewrite HL. cbn [mbind option_bind]. f_equal. unfold u. rewrite Z2N.id by lia. lia.
  - unfold parse_duration. rewrite Eb. assert ((c =? MINUS) || (c =? 43) = false) as ->.
    { unfold is_digit in Hc. apply andb_true_iff in Hc as [Hc _]. apply N.leb_le in Hc. apply orb_false_iff. split; apply N.eqb_neq; unfold MINUS; lia. }
    rewrite <- Eb. rewrite bool_decide_eq_false_2 by done. rewrite bool_decide_eq_false_2 by done. rewrite HL. cbn [mbind option_bind].
    destruct (N.ltb_spec (2 ^ 63 - 1) u) as [Hc'|_]; [|f_equal; unfold u; rewrite Z2N.id by lia; lia].
    exfalso. unfold u in Hc'. apply N2Z.inj_lt in Hc'. rewrite Z2N.id in Hc' by lia. change (Z.of_N (2 ^ 63 - 1)) with (2 ^ 63 - 1)%Z in Hc'. lia.
Qed.
(* so no two durations are written the same way *)
Theorem C92_distinct d e : int64 d -> int64 e -> dur_string d = dur_string e -> d = e.
Proof. intros Hd He E. pose proof (C92_read_back d Hd) as H. rewrite E, (C92_read_back e He) in H. congruence. Qed.
(* and nothing that is read wraps around *)
Lemma parse_loop_le fuel : forall d s r, d <= 2 ^ 63 -> parse_loop fuel d s = Some r -> r <= 2 ^ 63.
Proof.
  induction fuel as [|g IH]; intros d s r Hd; destruct s as [|c s]; cbn [parse_loop]; [intros [= <-]; done|done|intros [= <-]; done|].
  destruct (parse_one (c :: s)) as [[v q]|]; [|done]. cbn [mbind option_bind]. destruct (N.ltb_spec (2 ^ 63) (d + v)); [done|]. apply IH. lia.
Qed.
Theorem C92_in_range s d : parse_duration s = Some d -> int64 d.
Proof.
  unfold parse_duration, int64. destruct (match s with [] => _ | _ => _ end) as [neg s']. destruct (bool_decide _); [intros [= <-]; lia|]. destruct (bool_decide _); [done|].
  destruct (parse_loop _ _ _) as [r|] eqn:E; [|done]. cbn [mbind option_bind]. apply parse_loop_le in E; [|lia]. apply N2Z.inj_le in E. change (Z.of_N (2 ^ 63)) with (2 ^ 63)%Z in E.
  destruct neg; [intros [= <-]; lia|]. destruct (N.ltb_spec (2 ^ 63 - 1) r) as [|H]; [done|]. intros [= <-]. apply N2Z.inj_le in H. change (Z.of_N (2 ^ 63 - 1)) with (2 ^ 63 - 1)%Z in H. lia.
Qed.
Theorem C92_witness : int64 5400000000000 /\ dur_string 5400000000000 = bs "1h30m0s" /\ int64 (- 2 ^ 63) /\ dur_string (- 2 ^ 63) = bs "-2562047h47m16.854775808s" /\
  dur_string 1500 = [49; 46; 53; 194; 181; 115] /\ parse_duration (bs "1h30m") = Some 5400000000000%Z /\ parse_duration (bs "90") = None /\ parse_duration (bs "9223372036854775808ns") = None /\
  parse_duration (bs "1.5h") = Some 5400000000000%Z.
Proof. unfold int64. split_and!; first [lia|vm_compute; reflexivity]. Qed.
