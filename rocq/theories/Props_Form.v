(* Props_Form.v -- C91: saving the settings page without a change keeps the configuration *)
From Coq Require Import Strings.String.
From Verif Require Import GoBase FlagsModel FlagsProofs Props_Flags LogModel WebConfModel RouteModel Props_Route DurModel Props_Dur FormModel.
Local Open Scope N_scope.

(* ---- specification ---- *)
(* a whole number of the largest unit among ns, us, ms and s that the duration reaches: then Go writes it without a fraction *)
Definition whole (d : Z) : Prop := (Z.abs d < 1000 \/ (Z.abs d < 1000000 /\ d mod 1000 = 0) \/ (Z.abs d < 1000000000 /\ d mod 1000000 = 0) \/ d mod 1000000000 = 0)%Z.
(* an address of the form protocol://rest, with one :// *)
Definition plain (s : bytes) : Prop := exists p a, s = p ++ sep ++ a /\ forall p' a', s = p' ++ sep ++ a' -> p' = p.

(* ---- durations ---- *)
Fixpoint dtexts (l : list (N * bytes)) : bytes := match l with [] => [] | (n, u) :: l => dec n ++ u ++ dtexts l end.
Definition known : list (bytes * N) := [(bs "ns", 1); (MU ++ bs "s", 1000); (bs "ms", 1000000); (bs "s", 1000000000); (bs "m", 60000000000); (bs "h", 3600000000000)].
Fixpoint total (l : list (N * bytes)) : N := match l with [] => 0 | (n, u) :: l => n * default 0 (unit_of u) + total l end.
Definition all_known (l : list (N * bytes)) : Prop := Forall (fun x => x.2 ∈ known.*1) l.
Lemma known_unit u : u ∈ known.*1 -> exists un, unit_of u = Some un /\ 0 < un /\ unit_text u.
Proof.
  intros H. repeat (apply elem_of_cons in H as [-> |H]; [eexists; split; [vm_compute; reflexivity|split; [lia|split; [done|repeat constructor; done]]]|]). by apply elem_of_nil in H.
Qed.
Lemma texts_starts l : all_known l -> starts_number (dtexts l).
Proof. intros _. destruct l as [|[n u] l]; [done|]. cbn [dtexts]. apply starts_dec. Qed.
Lemma skip_digits_app ds x : digits ds -> nodigit x -> skip_digits (ds ++ x) = x.
Proof.
  induction ds as [|b ds IH]; intros Hd Hx; [destruct x as [|c x]; [done|]; cbn; cbn in Hx; by rewrite Hx|]. inversion Hd; subst. cbn. rewrite is_digit_true by done. by apply IH.
Qed.
Lemma digit_cases c : is_digit c = true -> c = 48 \/ c = 49 \/ c = 50 \/ c = 51 \/ c = 52 \/ c = 53 \/ c = 54 \/ c = 55 \/ c = 56 \/ c = 57.
Proof. unfold is_digit. intros H. apply andb_true_iff in H as [H1 H2]. apply N.leb_le in H1, H2. lia. Qed.
Lemma re_one_part us n u rest : u ∈ known.*1 -> starts_number rest -> re_one us (dec n ++ u ++ rest) = Some rest.
Proof.
  intros Hu Hr. destruct (num_first n) as (c & t & Ec & Hc). destruct (dec_spec n) as (_ & _ & Hd).
  assert (nodigit (u ++ rest)) as Hnd. { destruct (known_unit u Hu) as (un & _ & _ & [Hu0 HF]). destruct u as [|b u']; [done|]. cbn. by inversion HF as [|? ? [? _]]. }
  unfold re_one. pose proof (skip_digits_app (dec n) (u ++ rest) Hd Hnd) as Hs. rewrite Ec in *. cbn [app] in *. rewrite Hc. cbn [negb]. rewrite Hs.
  cbn [re_units]. repeat (apply elem_of_cons in Hu as [-> |Hu]; [destruct rest as [|x rest]; [by destruct us|]; cbn in Hr; apply digit_cases in Hr;
    destruct us; destruct Hr as [-> |[-> |[-> |[-> |[-> |[-> |[-> |[-> |[-> | ->]]]]]]]]]; reflexivity|]).
  by apply elem_of_nil in Hu.
Qed.
Lemma re_more_texts us l : forall fuel, all_known l -> (length (dtexts l) <= fuel)%nat -> re_more us fuel (dtexts l) = true.
Proof.
  induction l as [|[n u] l IH]; intros fuel Hk Hf; [by destruct fuel|]. inversion Hk as [|? ? Hu Hk']; subst. cbn [dtexts] in *. cbn [snd] in Hu.
  destruct (num_first n) as (c & t & Ec & Hc). pose proof (re_one_part us n u (dtexts l) Hu (texts_starts l Hk')) as H1.
  rewrite !app_length, Ec in Hf. cbn [length] in Hf. destruct fuel as [|g]; [lia|]. rewrite Ec in *. cbn [app re_more] in *. rewrite H1. apply IH; [done|lia].
Qed.
Lemma re_time_texts us l : l <> [] -> all_known l -> re_time us (dtexts l) = true.
Proof.
  intros Hl Hk. unfold re_time. rewrite re_more_texts by done. rewrite bool_decide_eq_false_2; [done|]. destruct l as [|[n u] l]; [done|]. cbn [dtexts]. destruct (num_first n) as (c & t & -> & _). done.
Qed.
Lemma parse_loop_texts l : forall fuel d, all_known l -> (length (dtexts l) <= fuel)%nat -> d + total l <= 2 ^ 63 -> parse_loop fuel d (dtexts l) = Some (d + total l).
Proof.
  induction l as [|[n u] l IH]; intros fuel d Hk Hf Hb; [cbn; rewrite N.add_0_r; apply loop_nil|]. inversion Hk as [|? ? Hu Hk']; subst. cbn [dtexts total] in *. cbn [snd] in Hu.
  destruct (known_unit u Hu) as (un & Eun & Hpos & Hut). rewrite Eun in *. change (default 0 (Some un)) with un in *. destruct (num_first n) as (c & t & Ec & Hc).
  rewrite !app_length in Hf. assert (0 < length (dec n))%nat by (rewrite Ec; cbn; lia). destruct fuel as [|g]; [lia|].
  erewrite loop_one; [|apply (parse_one_int n u un); [done..|by apply texts_starts|lia]|lia]. rewrite IH; [|done|lia|lia]. f_equal. lia.
Qed.
Lemma texts_ends l : l <> [] -> all_known l -> dtexts l <> [] /\ dtexts l <> bs "0".
Proof.
  intros Hl Hk. destruct l as [|[n u] l]; [done|]. inversion Hk as [|? ? Hu Hk']; subst. cbn [dtexts snd] in *. destruct (num_first n) as (c & t & -> & Hc). destruct (known_unit u Hu) as (un & _ & _ & [Hu0 _]).
  destruct u as [|b u]; [done|]. split; [done|]. cbn. intros [= _ E]. by destruct t.
Qed.
Lemma parse_texts l : l <> [] -> all_known l -> total l < 2 ^ 63 -> parse_duration (dtexts l) = Some (Z.of_N (total l)).
Proof.
  intros Hl Hk Hb. destruct (texts_ends l Hl Hk) as [H1 H2]. destruct l as [|[n u] l']; [done|]. destruct (num_first n) as (c & t & Ec & Hc).
  assert (exists t', dtexts ((n, u) :: l') = c :: t') as [t' Et]. { cbn [dtexts]. rewrite Ec. by eexists. }
  pose proof (parse_loop_texts ((n, u) :: l') (length (dtexts ((n, u) :: l'))) 0 Hk ltac:(lia) ltac:(lia)) as HL.
  unfold parse_duration. rewrite Et at 1. assert ((c =? MINUS) || (c =? 43) = false) as ->.
  { unfold is_digit in Hc. apply andb_true_iff in Hc as [Hc _]. apply N.leb_le in Hc. apply orb_false_iff. split; apply N.eqb_neq; unfold MINUS; lia. }
  rewrite bool_decide_eq_false_2 by done. rewrite bool_decide_eq_false_2 by done. rewrite HL. cbn [mbind option_bind].
  destruct (N.ltb_spec (2 ^ 63 - 1) (0 + total ((n, u) :: l'))); [lia|]. by rewrite N.add_0_l.
Qed.

(* what humanizeDuration makes of a number of nanoseconds *)
Fixpoint hum_parts (us : list (N * bytes)) (r : N) : list (N * bytes) :=
  match us with [] => [] | (v, l) :: us => if v <=? r then (r / v, l) :: hum_parts us (r mod v) else hum_parts us r end.
Lemma hum_texts us : forall r, humanize_go us r = dtexts (hum_parts us r).
Proof. induction us as [|[v l] us IH]; intros r; [done|]. cbn. destruct (v <=? r); [cbn; by rewrite IH|done]. Qed.
Lemma hum_known us : forall r, Forall (fun x => x.2 ∈ known.*1) us -> all_known (hum_parts us r).
Proof. induction us as [|[v l] us IH]; intros r Hu; [constructor|]. inversion Hu; subst. cbn. destruct (v <=? r); [constructor; [done|]|]; by apply IH. Qed.
Lemma units_known : Forall (fun x => x.2 ∈ known.*1) units.
Proof. apply (bool_decide_unpack _). vm_compute. exact I. Qed.
Lemma hum_total_go us : forall r, Forall (fun x => unit_of x.2 = Some x.1 /\ 0 < x.1) us -> (us = [] -> r = 0) -> (forall v, last us.*1 = Some v -> v = 1) -> total (hum_parts us r) = r.
Proof.
  induction us as [|[v l] us IH]; intros r Hu Hr Hl; [cbn; by rewrite Hr|]. inversion Hu as [|? ? [E Hpos] Hu']; subst. cbn in E, Hpos. cbn [hum_parts].
  assert (forall w, last us.*1 = Some w -> w = 1) as Hl'. { intros w Hw. apply Hl. cbn. destruct (us.*1); [done|exact Hw]. }
  destruct (N.leb_spec v r) as [Hle|Hlt].
  - cbn [total]. rewrite E. change (default 0 (Some v)) with v. rewrite IH; [pose proof (N.div_mod' r v); lia|done| |done].
    intros ->. assert (v = 1) as -> by (by apply Hl). apply N.mod_1_r.
  - apply IH; [done| |done]. intros ->. assert (v = 1) as -> by (by apply Hl). lia.
Qed.
Lemma hum_total r : total (hum_parts units r) = r.
Proof. apply hum_total_go; [repeat constructor; done|done|]. intros v Hv. vm_compute in Hv. congruence. Qed.
Lemma hum_page n : 0 < n -> n < 2 ^ 63 -> re_time true (humanize_go units n) = true /\ parse_duration (humanize_go units n) = Some (Z.of_N n).
Proof.
  intros H0 Hn. rewrite hum_texts. pose proof (hum_known units n units_known) as Hk. pose proof (hum_total n) as Ht.
  assert (hum_parts units n <> []) as Hne. { intros E. rewrite E in Ht. cbn in Ht. lia. }
  split; [by apply re_time_texts|]. rewrite parse_texts; [by rewrite Ht|done..|by rewrite Ht].
Qed.

(* what Go writes: with or without a fraction *)
Definition nwhole (u : N) : Prop := u < 1000 \/ (u < 1000000 /\ u mod 1000 = 0) \/ (u < 1000000000 /\ u mod 1000000 = 0) \/ u mod 1000000000 = 0.
Lemma whole_nwhole d : (0 <= d)%Z -> whole d <-> nwhole (Z.to_N d).
Proof.
  intros H. unfold whole, nwhole. rewrite Z.abs_eq by done. rewrite <- !N2Z.inj_iff, !N2Z.inj_mod, !Z2N.id by done. rewrite !N2Z.inj_lt, !Z2N.id by done. done.
Qed.
Lemma frac_none p v : v mod ten p = 0 -> frac_digits p v false [] = [].
Proof. intros H. destruct (frac_false p v) as [[_ E]|(ds & E & Hl & Hd & Hv & Hp)]; [done|]. exfalso. rewrite H in Hv. pose proof (ten_pos (p - length ds)). nia. Qed.
Lemma frac_some p v : v mod ten p <> 0 -> exists ds, frac_digits p v false [] = DOT :: ds.
Proof. intros H. destruct (frac_false p v) as [[H0 _]|(ds & E & _)]; [done|by exists ds]. Qed.
Lemma body_whole u : nwhole u -> exists l, l <> [] /\ all_known l /\ body_of u = dtexts l.
Proof.
  intros Hw. unfold body_of. destruct (N.ltb_spec u 1000000000) as [H1|H1].
  - destruct (N.eqb_spec u 0) as [->|H0]; [exists [(0, bs "s")]; split; [done|]; split; [apply (bool_decide_unpack _); vm_compute; exact I|done]|].
    destruct (N.ltb_spec u 1000) as [H2|H2]; [|destruct (N.ltb_spec u 1000000) as [H3|H3]].
    + exists [(u, bs "ns")]. split; [done|]. split; [repeat constructor; apply (bool_decide_unpack _); vm_compute; exact I|]. cbn [dtexts]. by rewrite app_nil_r.
    + exists [(u / 1000, MU ++ bs "s")]. split; [done|]. split; [repeat constructor; apply (bool_decide_unpack _); vm_compute; exact I|]. cbn [dtexts]. unfold num_text. rewrite frac_none; [|change (ten 3) with 1000].
      { by rewrite !app_nil_r. }
      destruct Hw as [|[[]|[[_ Hm]|Hm]]]; [lia|done| |].
      * exfalso. rewrite N.mod_small in Hm by lia. lia.
      * exfalso. rewrite N.mod_small in Hm by lia. lia.
    + exists [(u / 1000000, bs "ms")]. split; [done|]. split; [repeat constructor; apply (bool_decide_unpack _); vm_compute; exact I|]. cbn [dtexts]. unfold num_text. rewrite frac_none; [|change (ten 6) with 1000000].
      { by rewrite !app_nil_r. }
      destruct Hw as [|[[]|[[_ Hm]|Hm]]]; [lia|lia|done|]. exfalso. rewrite N.mod_small in Hm by lia. lia.
  - assert (u mod 1000000000 = 0) as Hm by (destruct Hw as [|[[]|[[]|]]]; [lia|lia|lia|done]).
    assert (frac_digits 9 (u mod 60000000000) false [] = []) as Hf.
    { apply frac_none. change (ten 9) with 1000000000. change 60000000000 with (1000000000 * 60). rewrite N.mod_mul_r by lia. rewrite Hm, N.add_0_l, N.mul_comm, N.mod_mul; lia. }
    cbn zeta. unfold num_text. rewrite Hf. destruct (_ =? 0); [|destruct (_ =? 0)].
    + exists [(u mod 60000000000 / ten 9, bs "s")]. split; [done|]. split; [repeat constructor; apply (bool_decide_unpack _); vm_compute; exact I|]. cbn [dtexts]. by rewrite !app_nil_r.
    + exists [(u / 1000000000 / 60 mod 60, bs "m"); (u mod 60000000000 / ten 9, bs "s")]. split; [done|]. split; [repeat constructor; apply (bool_decide_unpack _); vm_compute; exact I|]. cbn [dtexts app]. by rewrite !app_nil_r.
    + exists [(u / 1000000000 / 60 / 60, bs "h"); (u / 1000000000 / 60 mod 60, bs "m"); (u mod 60000000000 / ten 9, bs "s")]. split; [done|].
      split; [repeat constructor; apply (bool_decide_unpack _); vm_compute; exact I|]. cbn [dtexts app]. by rewrite !app_nil_r, <- !app_assoc.
Qed.
(* with a fraction: some number in front, less than a thousandth of the nanoseconds, and a point somewhere *)
Lemma body_frac u : ~ nwhole u -> exists n x, body_of u = dec n ++ x /\ nodigit x /\ DOT ∈ x /\ 0 < n /\ n * 1000 <= u.
Proof.
  intros Hw. unfold nwhole in Hw. unfold body_of. destruct (N.ltb_spec u 1000000000) as [H1|H1].
  - destruct (N.eqb_spec u 0) as [->|H0]; [exfalso; apply Hw; left; lia|]. destruct (N.ltb_spec u 1000) as [H2|H2]; [exfalso; apply Hw; by left|]. destruct (N.ltb_spec u 1000000) as [H3|H3].
    + destruct (frac_some 3 u) as [ds E]; [change (ten 3) with 1000; intros Hc; apply Hw; right; by left|]. unfold num_text. rewrite E. exists (u / ten 3), ((DOT :: ds) ++ MU ++ bs "s").
      rewrite <- app_assoc. split; [done|]. split; [done|]. split; [by left|]. change (ten 3) with 1000. pose proof (N.mul_div_le u 1000 ltac:(lia)). split; [|lia]. apply N.div_str_pos. lia.
    + destruct (frac_some 6 u) as [ds E]; [change (ten 6) with 1000000; intros Hc; apply Hw; do 2 right; by left|]. unfold num_text. rewrite E. exists (u / ten 6), ((DOT :: ds) ++ bs "ms").
      rewrite <- app_assoc. split; [done|]. split; [done|]. split; [by left|]. change (ten 6) with 1000000. pose proof (N.mul_div_le u 1000000 ltac:(lia)). split; [|lia]. apply N.div_str_pos. lia.
  - cbn zeta. assert (u mod 1000000000 <> 0) as Hm by (intros Hc; apply Hw; by do 3 right).
    destruct (frac_some 9 (u mod 60000000000)) as [ds E].
    { change (ten 9) with 1000000000. change 60000000000 with (1000000000 * 60). rewrite N.mod_mul_r by lia. rewrite (N.mul_comm 1000000000), N.mod_add by lia. rewrite N.mod_mod by lia. done. }
    unfold num_text. rewrite E. set (s := u / 1000000000). pose proof (N.mul_div_le u 1000000000 ltac:(lia)) as Hs. fold s in Hs. pose proof (N.mul_div_le s 60 ltac:(lia)) as Hmm. set (m := s / 60) in *.
    pose proof (N.mul_div_le m 60 ltac:(lia)) as Hh. set (h := m / 60) in *.
    destruct (N.eqb_spec m 0) as [Em|Em]; [|destruct (N.eqb_spec h 0) as [Eh|Eh]].
    + exists (u mod 60000000000 / ten 9), ((DOT :: ds) ++ bs "s"). rewrite <- app_assoc. split; [done|]. split; [done|]. split; [by left|]. change (ten 9) with 1000000000.
      assert (u mod 60000000000 = u) as ->. { apply N.mod_small. assert (u / 60000000000 = 0) as Hz by (unfold m, s in Em; rewrite N.div_div in Em by lia; exact Em). apply N.div_small_iff in Hz; lia. }
      split; [apply N.div_str_pos; lia|]. fold s. lia.
    + exists (m mod 60), (bs "m" ++ (dec (u mod 60000000000 / ten 9) ++ DOT :: ds) ++ bs "s"). cbn [app]. split; [done|]. split; [done|].
      split; [apply elem_of_app; right; apply elem_of_app; left; apply elem_of_app; right; by left|].
      assert (m mod 60 = m) as -> by (apply N.mod_small; unfold h in Eh; apply N.div_small_iff in Eh; lia). split; lia.
    + exists h, (bs "h" ++ dec (m mod 60) ++ bs "m" ++ (dec (u mod 60000000000 / ten 9) ++ DOT :: ds) ++ bs "s"). rewrite <- !app_assoc. split; [done|]. split; [done|].
      split; [|split; lia]. rewrite !elem_of_app. do 4 right. rewrite elem_of_cons. left. by left.
Qed.
Lemma strip_some p : forall s r, strip p s = Some r -> s = p ++ r.
Proof. induction p as [|a p IH]; intros s r; [destruct s; by intros [= <-]|]. destruct s as [|b s]; [done|]. cbn. destruct (N.eqb_spec a b) as [->|]; [|done]. intros H. by rewrite (IH _ _ H). Qed.
Lemma first_unit_some l : forall s r, first_unit l s = Some r -> exists u, u ∈ l /\ s = u ++ r.
Proof.
  induction l as [|u l IH]; intros s r; [done|]. cbn. destruct (strip u s) as [r'|] eqn:E; [intros [= <-]; exists u; split; [by left|by apply strip_some]|].
  intros H. destruct (IH _ _ H) as (u' & Hu & ->). exists u'. split; [by right|done].
Qed.
Lemma re_one_prefix us s r : re_one us s = Some r -> exists p, s = p ++ r /\ DOT ∉ p /\ p <> [].
Proof.
  assert (forall l, exists ds, l = ds ++ skip_digits l /\ DOT ∉ ds) as Hsk.
  { induction l as [|c l IH]; [exists []; split; [done|apply not_elem_of_nil]|]. cbn. destruct (is_digit c) eqn:Ec; [|exists []; split; [done|apply not_elem_of_nil]].
    destruct IH as (ds & E & Hn). exists (c :: ds). split; [cbn; by f_equal|]. apply not_elem_of_cons. split; [|done]. intros <-. done. }
  unfold re_one. destruct s as [|c s]; [done|]. destruct (negb (is_digit c)); [done|]. destruct (Hsk (c :: s)) as (ds & E & Hn). intros H. apply first_unit_some in H as (u & Hu & Eu).
  exists (ds ++ u). rewrite E, Eu, <- app_assoc. assert (DOT ∉ u /\ u <> []) as [H1 H2].
  { assert (Forall (fun u => DOT ∉ u /\ u <> []) (re_units us)) as HF by (destruct us; apply (bool_decide_unpack _); vm_compute; exact I). rewrite Forall_forall in HF. by apply HF. }
  split; [done|]. split; [rewrite elem_of_app; tauto|]. intros Hc. apply app_eq_nil in Hc. tauto.
Qed.
Lemma re_more_no_dot us fuel : forall s, re_more us fuel s = true -> DOT ∉ s.
Proof.
  induction fuel as [|g IH]; intros s; destruct s as [|c s]; cbn [re_more]; [intros _; apply not_elem_of_nil|done|intros _; apply not_elem_of_nil|].
  destruct (re_one us (c :: s)) as [r|] eqn:E; [|done]. intros H. apply re_one_prefix in E as (p & -> & Hp & _). rewrite elem_of_app. intros [|]; [done|]. by apply (IH r).
Qed.
Lemma js_digits_dec n x : nodigit x -> js_digits 0 (dec n ++ x) = n.
Proof.
  intros Hx. destruct (dec_spec n) as (_ & Hv & Hd). rewrite <- Hv at 2. unfold value. generalize 0. revert Hd. generalize (dec n). intros ds. induction ds as [|b ds IH]; intros Hd a.
  - cbn. destruct x as [|c x]; [done|]. cbn in Hx |- *. by rewrite Hx.
  - inversion Hd; subst. cbn. rewrite is_digit_true by done. by apply IH.
Qed.

(* what the page makes of a duration *)
Lemma page_whole d : (0 <= d)%Z -> int64 d -> whole d -> page_dur d = Some d.
Proof.
  intros H0 Hi Hw. apply whole_nwhole in Hw; [|done]. destruct (body_whole _ Hw) as (l & Hl & Hk & Eb). unfold page_dur.
  assert (dur_string d = dtexts l) as Ed. { rewrite dur_string_body. destruct (Z.ltb_spec d 0); [lia|]. by rewrite Z.abs_eq. }
  assert (humanize (Some (dur_string d)) = dur_string d) as ->.
  { rewrite Ed. destruct (texts_ends l Hl Hk) as [Hne _]. unfold humanize. destruct (dtexts l) as [|c t] eqn:E; [done|]. rewrite <- E. by rewrite re_time_texts. }
  rewrite Ed at 1. rewrite re_time_texts by done. by apply C92_read_back.
Qed.
Lemma page_frac d : (0 <= d)%Z -> int64 d -> ~ whole d -> exists n, page_dur d = Some n /\ (0 < n)%Z /\ (n * 1000 <= d)%Z.
Proof.
  intros H0 [_ Hi] Hw. rewrite whole_nwhole in Hw by done. destruct (body_frac _ Hw) as (n & x & Eb & Hx & Hdot & Hn & Hle).
  assert (dur_string d = dec n ++ x) as Ed. { rewrite dur_string_body. destruct (Z.ltb_spec d 0); [lia|]. by rewrite Z.abs_eq. }
  assert (n < 2 ^ 63) as Hb. { apply N2Z.inj_lt. apply N2Z.inj_le in Hle. rewrite Z2N.id in Hle by done. change (Z.of_N (2 ^ 63)) with (2 ^ 63)%Z. lia. }
  exists (Z.of_N n). split; [|apply N2Z.inj_le in Hle; rewrite Z2N.id in Hle by done; lia].
  unfold page_dur. assert (humanize (Some (dur_string d)) = humanize_go units n) as ->.
  { rewrite Ed. unfold humanize. destruct (num_first n) as (c & t & Ec & Hc). assert (re_time false (dec n ++ x) = false) as Hre.
    { unfold re_time. apply andb_false_iff. right. destruct (re_more _ _ _) eqn:E; [|done]. exfalso. apply re_more_no_dot in E. apply E. rewrite elem_of_app. by right. }
    pose proof (js_digits_dec n x Hx) as Hj. rewrite Ec in *. cbn [app] in *. rewrite Hre. unfold parse_int. rewrite Hc. rewrite Hj.
    assert (c =? MINUS = false) as ->. { apply digit_cases in Hc. unfold MINUS. apply N.eqb_neq. lia. }
    destruct n; [lia|done]. }
  destruct (hum_page n Hn Hb) as [-> ->]. done.
Qed.
Lemma page_neg d : (d < 0)%Z -> page_dur d = None.
Proof.
  intros H0. unfold page_dur. assert (humanize (Some (dur_string d)) = []) as ->; [|done]. rewrite dur_string_body. destruct (Z.ltb_spec d 0); [|lia].
  unfold humanize. assert (forall t, re_time false (MINUS :: t) = false) as -> by done. unfold parse_int. rewrite N.eqb_refl. destruct (body_first (Z.to_N (Z.abs d))) as (c & t & -> & Hc). rewrite Hc.
  destruct (js_digits 0 (c :: t)); done.
Qed.
Theorem C91_duration_exact d : int64 d -> page_dur d = Some d <-> (0 <= d)%Z /\ whole d.
Proof.
  intros Hi. split.
  - intros H. destruct (Z_lt_le_dec d 0) as [Hd|Hd]; [by rewrite page_neg in H|]. split; [done|]. assert (whole d \/ ~ whole d) as [|Hn]; [|done|].
    { unfold whole. destruct (decide ((Z.abs d < 1000 \/ (Z.abs d < 1000000 /\ d mod 1000 = 0) \/ (Z.abs d < 1000000000 /\ d mod 1000000 = 0) \/ d mod 1000000000 = 0)%Z)); tauto. }
    exfalso. destruct (page_frac d Hd Hi Hn) as (n & E & Hp & Hle). rewrite H in E. injection E as <-. lia.
  - intros [H0 Hw]. by apply page_whole.
Qed.
(* a fraction: what is written is at most a thousandth *)
Theorem C91_fraction_refuted d : int64 d -> (0 <= d)%Z -> ~ whole d -> exists n, page_dur d = Some n /\ (0 < n)%Z /\ (n * 1000 <= d)%Z.
Proof. intros Hi H0 Hw. by apply page_frac. Qed.

(* ---- addresses ---- *)
Lemma strip_app p r : strip p (p ++ r) = Some r.
Proof. induction p as [|a p IH]; [by destruct r|]. cbn. by rewrite N.eqb_refl. Qed.
Lemma cut_some s : forall p r, cut s = (p, Some r) -> s = p ++ sep ++ r /\ forall p' a', s = p' ++ sep ++ a' -> p `prefix_of` p'.
Proof.
  induction s as [|c s IH]; intros p r; cbn [cut].
  - destruct (strip sep []) as [r'|] eqn:E; done.
  - destruct (strip sep (c :: s)) as [r'|] eqn:E.
    + intros [= <- <-]. split; [by apply strip_some in E|]. intros. apply prefix_nil.
    + destruct (cut s) as [a b] eqn:Ec. intros [= <- ->]. destruct (IH a r eq_refl) as [-> Hf]. split; [done|]. intros p' a' Ep. destruct p' as [|c' p']; [cbn [app] in Ep; rewrite Ep, strip_app in E; done|].
      injection Ep as <- Ep. apply prefix_cons. by apply (Hf p' a').
Qed.
Lemma cut_none s : forall p, cut s = (p, None) -> p = s /\ forall p' a', s <> p' ++ sep ++ a'.
Proof.
  induction s as [|c s IH]; intros p; cbn [cut].
  - destruct (strip sep []) as [r'|] eqn:E; [done|]. intros [= <-]. split; [done|]. intros p' a' H. destruct p'; done.
  - destruct (strip sep (c :: s)) as [r'|] eqn:E; [done|]. destruct (cut s) as [a b] eqn:Ec. intros [= <- ->]. destruct (IH a eq_refl) as [-> Hf]. split; [done|].
    intros p' a' Ep. destruct p' as [|c' p']; [cbn [app] in Ep; rewrite Ep, strip_app in E; done|]. injection Ep as <- Ep. by apply (Hf p' a').
Qed.
Lemma rejoin_exact s : rejoin (split2 s) = s <-> plain s.
Proof.
  unfold split2, rejoin. destruct (cut s) as [p [r|]] eqn:E.
  - destruct (cut_some s p r E) as [-> Hf]. destruct (cut r) as [a [q|]] eqn:Er; cbn [fst snd default].
    + destruct (cut_some r a q Er) as [-> Hf2]. split.
      * intros H. exfalso. apply (f_equal length) in H. change (default (bs "undefined") (Some a)) with a in H. rewrite !app_length in H. cbn in H. lia.
      * intros (p' & a' & E' & Hu). exfalso. assert (p = p') as <- by (apply (Hu p (a ++ sep ++ q)); done).
        assert (p ++ sep ++ a = p) as Hc by (apply (Hu (p ++ sep ++ a) q); by rewrite <- !app_assoc). apply (f_equal length) in Hc. rewrite !app_length in Hc. cbn in Hc. lia.
    + destruct (cut_none r a Er) as [-> Hn]. change (default (bs "undefined") (Some r)) with r. split; [intros _|done]. exists p, r. split; [done|]. intros p' a' E'. destruct (Hf p' a' E') as [k ->].
      rewrite <- app_assoc in E'. apply app_inv_head in E'. destruct k as [|k0 k]; [by rewrite app_nil_r|]. exfalso.
      assert (exists y, r = y ++ sep ++ a') as [y Hy]; [|by apply (Hn y a')].
      revert E'. change sep with [58; 47; 47]. destruct k as [|k1 k]; [cbn; intros [= _ E1 _]; discriminate|].
      destruct k as [|k2 k]; [cbn; intros [= _ _ E1 _]; discriminate|]. cbn. intros [= _ _ _ ->]. by exists k.
  - destruct (cut_none s p E) as [-> Hn]. cbn [fst snd default]. split.
    + intros H. exfalso. apply (f_equal length) in H. rewrite !app_length in H. cbn in H. lia.
    + intros (p' & a' & E' & _). by apply Hn in E'.
Qed.
Theorem C91_remotes_exact l l' : page_remotes l = Some l' -> l' = l <-> Forall plain l.
Proof.
  unfold page_remotes. destruct l as [|s l]; [done|]. destruct (first_ok s); [|done]. intros H. assert (l' = (fun s => rejoin (split2 s)) <$> (s :: l)) as -> by congruence. clear H. generalize (s :: l). clear s l. intros L. induction L as [|s L IH].
  - split; [constructor|done].
  - cbn. rewrite Forall_cons, <- (rejoin_exact s), <- IH. split; [intros [= E1 E2]|intros [E1 E2]]; [done|by f_equal].
Qed.
(* the second address of a list is not checked: one without :// is changed *)
Theorem C91_remotes_refuted s t : first_ok s = true -> ~ plain t -> exists s' t', page_remotes [s; t] = Some [s'; t'] /\ t' <> t.
Proof.
  intros Hs Ht. unfold page_remotes. rewrite Hs. cbn. do 2 eexists. split; [done|]. intros E. by apply rejoin_exact in E.
Qed.

(* ---- the options ---- *)
(* a value the option can have *)
Definition has_base (b : base) (a : atom) : Prop :=
  match b, a with
  | BStr, AStr _ | BBool, ABool _ | BFloat, AFloat _ => True
  | BNum w, ANum n => n < 2 ^ w
  | BInt, AInt z | BDur, ADur z => int64 z
  | _, _ => False
  end.
Definition fits (o : odecl) (v : val) : Prop :=
  match oShape o, v with
  | SOne, One a => has_base (oBase o) a
  | SMany, Many l => Forall (has_base (oBase o)) l
  | SPlaced, Placed l => Forall (fun x => has_base (oBase o) x.1) l
  | _, _ => False
  end.
(* a file that the decoder accepted: every value fits its option *)
Definition fine_file (sch : list odecl) (f : bytes -> option val) : Prop := forall o v, o ∈ sch -> f (oName o) = Some v -> fits o v.
(* the values the page can carry: whole durations, integers of a float64, addresses with one :// *)
Definition carried (o : odecl) (v : val) : Prop :=
  match v with
  | One (ADur d) => (0 <= d)%Z /\ whole d
  | One (ANum n) => n <= 2 ^ 53
  | One (AInt z) => (Z.abs z <= 2 ^ 53)%Z
  | Many l => oName o = bs "remote" -> Forall (fun a => plain (str_of a)) l
  | _ => True
  end.
(* the options the page has no field for *)
Definition client_lost : list bytes := bs <$> ["webrtcConnections"; "webrtcThreadMode"; "bbr"]%string.
Definition server_lost : list bytes := bs <$> ["quicAddr"; "bbr"]%string.
Definition exact_integers (js : Z -> Z) : Prop := forall z, (Z.abs z <= 2 ^ 53)%Z -> js z = z.

Definition sane (o : odecl) : Prop := fits o (oDefault o) /\ (oShape o <> SOne -> oDefault o = zero_of o) /\ (oShape o = SPlaced -> oFile o = false) /\ (oName o = bs "remote" -> oBase o = BStr).
Definition how (P : prog) (lost : list bytes) (o : odecl) : bool :=
  let n := oName o in
  negb (oFile o) || bool_decide (n ∈ lost) || bool_decide (n ∈ pHidden P /\ n ∈ kept)
  || (bool_decide (n ∉ pHidden P) && bool_decide ((page_key (pKeys P) (pPage P) n ≫= name_of (pKeys P)) = Some n))
  || (bool_decide (n ∉ pHidden P /\ n ∈ kept) && bool_decide ((page_key (pKeys P) (pPage P) n ≫= name_of (pKeys P)) = None)).
Definition ours (P : prog) (lost : list bytes) : Prop :=
  NoDup (oName <$> pOpts P) /\ Forall sane (pOpts P) /\ Forall (fun o => how P lost o = true) (pOpts P) /\
  Forall (fun n => n ∉ pHidden P /\ n ∉ kept /\ page_key (pKeys P) (pPage P) n = None) lost.
Lemma ours_client version : ours (client_prog version) client_lost.
Proof.
  destruct (C58_schemas version) as ((ND & _) & _ & _). split; [done|]. split; [|split].
  - cbn [pOpts client_prog]. unfold client_options. repeat (apply Forall_cons; split; [split; [cbn; first [exact I|split; unfold sec; lia|lia|constructor]|split; [cbn; intros; first [done|congruence]|split; [cbn; done|cbn; first [done|discriminate]]]]|]). by apply Forall_nil.
  - cbn [pOpts client_prog]. apply Forall_forall. intros o Ho. apply (forallb_forall (how (client_prog version) client_lost) (client_options version)); [vm_compute; reflexivity|]. by apply elem_of_list_In.
  - apply (bool_decide_unpack _). vm_compute. exact I.
Qed.
Lemma ours_server version : ours (server_prog version) server_lost.
Proof.
  destruct (C58_schemas version) as (_ & _ & (ND & _) & _). split; [done|]. split; [|split].
  - cbn [pOpts server_prog]. unfold server_options. repeat (apply Forall_cons; split; [split; [cbn; first [exact I|split; unfold sec; lia|lia|constructor]|split; [cbn; intros; first [done|congruence]|split; [cbn; done|cbn; first [done|discriminate]]]]|]). by apply Forall_nil.
  - cbn [pOpts server_prog]. apply Forall_forall. intros o Ho. apply (forallb_forall (how (server_prog version) server_lost) (server_options version)); [vm_compute; reflexivity|]. by apply elem_of_list_In.
  - apply (bool_decide_unpack _). vm_compute. exact I.
Qed.
(* one of gt's two programs, and the options its page has no field for *)
Definition the_program (P : prog) (lost : list bytes) : Prop :=
  exists version, (P = client_prog version /\ lost = client_lost) \/ (P = server_prog version /\ lost = server_lost).
Lemma ours_all P lost : the_program P lost -> ours P lost.
Proof. intros [version [[-> ->]|[-> ->]]]; [apply ours_client|apply ours_server]. Qed.

Lemma zero_eq b x y : has_base b x -> has_base b y -> zero_atom x = true -> zero_atom y = true -> x = y.
Proof.
  destruct b, x; cbn; try done; destruct y; try done; cbn; intros _ _ H1 H2.
  all: try (apply bool_decide_eq_true in H1, H2; congruence). all: try (apply N.eqb_eq in H1, H2; congruence). all: try (apply Z.eqb_eq in H1, H2; congruence).
  destruct b, b0; done.
Qed.
Lemma zero_base o : oShape o = SOne -> exists z, zero_of o = One z /\ has_base (oBase o) z /\ zero_atom z = true.
Proof.
  intros Hs. unfold zero_of. rewrite Hs. eexists. split; [done|]. split; [|by destruct (oBase o)]. destruct (oBase o) as [|w| | | |]; cbn; unfold int64; try done; try lia.
Qed.
Lemma fits_one o v : oShape o = SOne -> fits o v -> exists a, v = One a /\ has_base (oBase o) a.
Proof. unfold fits. intros ->. destruct v; [|done..]. intros H. by eexists. Qed.
Lemma merged_settled sch f o : sane o -> o ∈ sch -> fine_file sch f -> fits o (merged f o) /\ (zero_val (merged f o) = true -> merged f o = oDefault o) /\ effective f o = merged f o.
Proof.
  intros (Hd & Hz & Hp & _) Hin Hf. unfold effective, merge, merged, with_file.
  assert (forall v, f (oName o) = Some v -> fits o v) as Hv by (intros v E; by apply (Hf o v)).
  destruct (oShape o) eqn:Hs.
  - destruct (fits_one o _ Hs Hd) as (a & Ea & Ha). destruct (zero_base o Hs) as (z & Ez & Hbz & Hzz).
    assert (forall v, fits o v -> zero_val v = true -> zero_val (oDefault o) = true -> v = oDefault o) as Hsame.
    { intros v Hfv H1 H2. destruct (fits_one o v Hs Hfv) as (x & -> & Hx). rewrite Ea in H2 |- *. cbn in H1, H2. f_equal. by apply (zero_eq (oBase o)). }
    assert (fits o (zero_of o)) as Hfz. { rewrite Ez. unfold fits. by rewrite Hs. }
    assert (zero_val (zero_of o) = true) as Hzv by (by rewrite Ez).
    assert (forall v, fits o v -> fits o (if zero_val v && negb (zero_val (oDefault o)) then oDefault o else v) /\
       (zero_val (if zero_val v && negb (zero_val (oDefault o)) then oDefault o else v) = true -> (if zero_val v && negb (zero_val (oDefault o)) then oDefault o else v) = oDefault o) /\
       (if zero_val v then oDefault o else v) = (if zero_val v && negb (zero_val (oDefault o)) then oDefault o else v)) as HX.
    { intros v Hfv. destruct (zero_val v) eqn:E1; cbn [andb]; [|split; [done|]; split; [congruence|done]]. destruct (zero_val (oDefault o)) eqn:E2; cbn [negb]; [|by split].
      split; [done|]. split; [intros _; by apply Hsame|]. symmetry. by apply Hsame. }
    assert ((if zero_val (oDefault o) then oDefault o else oDefault o) = oDefault o) as Hdd by (by destruct (zero_val (oDefault o))).
    assert ((if zero_val (zero_of o) && negb (zero_val (oDefault o)) then oDefault o else zero_of o) = oDefault o) as Hdz.
    { rewrite Hzv. cbn [andb]. destruct (zero_val (oDefault o)) eqn:E2; cbn [negb]; [|done]. by apply Hsame. }
    destruct (oFile o); [destruct (f (oName o)) as [v|] eqn:Ev; cbn [default]|].
    + by apply HX, Hv.
    + change (default (zero_of o) None) with (zero_of o). change (default (oDefault o) None) with (oDefault o). rewrite Hdz, Hdd. done.
    + rewrite Hdz, Hdd. done.
  - assert (oDefault o = zero_of o) as Ed by (by apply Hz). assert (zero_of o = Many []) as Ez by (unfold zero_of; by rewrite Hs).
    assert (forall v, fits o v -> zero_val v = false) as Hn. { intros v Hfv. unfold fits in Hfv. rewrite Hs in Hfv. by destruct v. }
    rewrite <- Ed. set (w := if oFile o then default (oDefault o) (f (oName o)) else oDefault o). assert (fits o w) as Hw.
    { unfold w. destruct (oFile o); [|done]. destruct (f (oName o)) as [v|] eqn:Ev; [by apply Hv|done]. }
    rewrite (Hn w Hw). split; [done|]. split; done.
  - assert (oDefault o = zero_of o) as Ed by (by apply Hz). rewrite (Hp eq_refl), <- Ed. assert (zero_of o = Placed []) as Ez by (unfold zero_of; by rewrite Hs). rewrite Ed, Ez. cbn. split; [|done]. unfold fits. rewrite Hs. constructor.
Qed.
(* what is written is what the next start uses *)
Lemma resaved sch cfg o : NoDup (oName <$> sch) -> sane o -> o ∈ sch -> oFile o = true -> fits o (cfg o) -> (zero_val (cfg o) = true -> cfg o = oDefault o) ->
  effective (encode sch (separate cfg)) o = cfg o.
Proof.
  intros ND (Hd & Hz & Hp & _) Hin Hfile Hf Hzero. unfold effective, merge, with_file. rewrite Hfile. unfold encode. rewrite find_opt_in by done. rewrite Hfile. cbn [andb]. unfold separate.
  destruct (oShape o) eqn:Hs; [| |by rewrite Hp in Hfile].
  - case_bool_decide as E.
    + destruct (zero_base o Hs) as (z & Ez & _ & Hzz). rewrite Ez. cbn [empty_val]. rewrite Hzz. cbn [negb]. change (default (oDefault o) None) with (oDefault o). rewrite E. by destruct (zero_val (oDefault o)).
    + destruct (fits_one o _ Hs Hf) as (a & Ea & Ha). rewrite Ea in *. cbn [empty_val]. destruct (zero_atom a) eqn:Eza; [exfalso; by apply E, Hzero|]. cbn [negb].
      change (default (oDefault o) (Some (One a))) with (One a). cbn [zero_val]. by rewrite Eza.
  - unfold fits in Hf. rewrite Hs in Hf. destruct (cfg o) as [|l|] eqn:Ec; [done| |done]. cbn [empty_val]. assert (oDefault o = Many []) as Ed by (rewrite Hz by done; unfold zero_of; by rewrite Hs).
    case_bool_decide as El; cbn [negb]; [|done]. change (default (oDefault o) None) with (oDefault o). rewrite Ed, El. done.
Qed.
Lemma page_val_carried js o v w : exact_integers js -> (oName o = bs "remote" -> oBase o = BStr) -> fits o v -> carried o v -> page_val js (oName o) v = Some w -> w = v.
Proof.
  intros Hjs HB Hf Hc. unfold page_val. destruct (negb _); [done|]. destruct v as [a|l|l].
  - destruct a as [s|n|z|b|d|n]; cbn [page_atom].
    + intros [= <-]. done.
    + intros [= <-]. cbn in Hc. rewrite Hjs; [by rewrite N2Z.id|]. change (2 ^ 53)%Z with (Z.of_N (2 ^ 53)). lia.
    + intros [= <-]. cbn in Hc. by rewrite Hjs.
    + intros [= <-]. done.
    + cbn in Hc. unfold fits in Hf. destruct (oShape o), (oBase o); cbn in Hf; try done. rewrite (proj2 (C91_duration_exact d Hf)) by done. intros [= <-]. done.
    + intros [= <-]. done.
  - case_bool_decide as En; [|intros [= <-]; done]. destruct (page_remotes _) as [l'|] eqn:E; [|done]. intros [= <-]. cbn in Hc. specialize (Hc En).
    assert (l' = str_of <$> l) as ->. { apply (C91_remotes_exact _ _ E). apply Forall_fmap. done. } f_equal.
    unfold fits in Hf. destruct (oShape o) eqn:Hs; try done.
    assert (Forall (fun a => exists s, a = AStr s) l) as HF.
    { rewrite (HB En) in Hf. eapply Forall_impl; [exact Hf|]. intros x Hx. destruct x; try done. by eexists. }
    clear -HF. induction HF as [|a l (s & ->) HF IH]; [done|]. cbn. by f_equal.
  - intros [= <-]. done.
Qed.
Lemma agrees_sent js P shown o : agrees js P shown = true -> o ∈ pOpts P -> exists r, sent js P shown (oName o) = Some r.
Proof. unfold agrees. rewrite forallb_forall. intros H Hin. apply elem_of_list_In in Hin. specialize (H o Hin). destruct (sent js P shown (oName o)) as [r|]; [by exists r|done]. Qed.
(* what is put into the new configuration for an option *)
Lemma saved_option js P lost disk running o : ours P lost -> o ∈ pOpts P -> oName o ∉ lost -> oFile o = true -> exact_integers js ->
  let shown := inherit (pOpts P) disk running in
  agrees js P shown = true -> fits o (shown o) -> carried o (shown o) ->
  save_config (pOpts P) (pHidden P) disk running (fun n => default None (sent js P shown n)) o = shown o.
Proof.
  intros (ND & HS & HH & HL) Hin Hlost Hfile Hjs shown Hag Hfit Hc. rewrite Forall_forall in HS, HH. specialize (HH o Hin). destruct (HS o Hin) as (_ & _ & _ & HB). unfold how in HH. rewrite Hfile in HH. cbn [negb orb] in HH.
  destruct (agrees_sent _ _ _ _ Hag Hin) as [r Hr]. unfold save_config. fold shown.
  rewrite (bool_decide_eq_false_2 (oName o ∈ lost)) in HH by done. cbn [orb] in HH. apply orb_true_iff in HH as [HH|HH]; [apply orb_true_iff in HH as [HH|HH]|].
  - apply bool_decide_eq_true in HH as [Hh Hk]. by rewrite (bool_decide_eq_true_2 (oName o ∈ pHidden P)), (bool_decide_eq_true_2 (oName o ∈ kept)).
  - apply andb_true_iff in HH as [Hh HP]. apply bool_decide_eq_true in Hh, HP. rewrite (bool_decide_eq_false_2 (oName o ∈ pHidden P)) by done. unfold sent in Hr |- *.
    destruct (page_key (pKeys P) (pPage P) (oName o)) as [k|]; [|done]. cbn [mbind option_bind] in HP. rewrite HP in Hr |- *. rewrite find_opt_in in Hr |- * by done.
    destruct (page_val js (oName o) (shown o)) as [w|] eqn:Ew; [|done]. apply page_val_carried in Ew; [|done..]. by subst w.
  - apply andb_true_iff in HH as [Hh HP]. apply bool_decide_eq_true in HP. apply bool_decide_eq_true in Hh as [Hh Hk]. rewrite (bool_decide_eq_false_2 (oName o ∈ pHidden P)), (bool_decide_eq_true_2 (oName o ∈ kept)) by done.
    unfold sent. destruct (page_key (pKeys P) (pPage P) (oName o)) as [k|]; [|done]. cbn [mbind option_bind] in HP. rewrite HP. done.
Qed.
(* [f]: the file the page was shown, [f']: the file it wrote *)
Theorem C91_keeps_partial js P lost disk running p f f' o : the_program P lost -> exact_integers js -> config_of (pOpts P) running = p -> p <> [] -> disk p = Fine f -> fine_file (pOpts P) f ->
  page_save js P disk running = Some f' -> o ∈ pOpts P -> oName o ∉ lost -> carried o (effective f o) ->
  effective f' o = effective f o.
Proof.
  intros HP Hjs Ep Hp Ed Hf Hs Hin Hlost Hc. pose proof (ours_all P lost HP) as HO. destruct HO as (ND & HS & HH & HL). assert (sane o) as Hsane by (rewrite Forall_forall in HS; by apply HS).
  destruct (merged_settled (pOpts P) f o Hsane Hin Hf) as (H1 & H2 & H3). destruct (oFile o) eqn:Hfile; [|unfold effective, merge, with_file; by rewrite Hfile].
  assert (inherit (pOpts P) disk running o = merged f o) as Ei. { unfold inherit. rewrite Ep. destruct p as [|b p]; [done|]. by rewrite Ed. }
  unfold page_save in Hs. destruct (agrees _ _ _) eqn:Hag; [|done]. injection Hs as <-.
  pose proof (saved_option js P lost disk running o (ours_all P lost HP) Hin Hlost Hfile Hjs Hag) as HX. cbn zeta in HX. rewrite Ei in HX. specialize (HX H1 ltac:(by rewrite <- H3)).
  rewrite H3, <- HX. apply resaved; [done..| |]; by rewrite HX.
Qed.
(* without a readable file the page shows, and writes, the options of the running process *)
Theorem C91_keeps_running_partial js P lost disk running p f' o : the_program P lost -> exact_integers js -> config_of (pOpts P) running = p -> (p = [] \/ forall f, disk p <> Fine f) ->
  page_save js P disk running = Some f' -> o ∈ pOpts P -> oName o ∉ lost -> oFile o = true -> fits o (running o) -> (zero_val (running o) = true -> running o = oDefault o) -> carried o (running o) ->
  effective f' o = running o.
Proof.
  intros HP Hjs Ep Hp Hs Hin Hlost Hfile H1 H2 Hc. pose proof (ours_all P lost HP) as HO. destruct HO as (ND & HS & HH & HL). assert (sane o) as Hsane by (rewrite Forall_forall in HS; by apply HS).
  assert (inherit (pOpts P) disk running o = running o) as Ei. { unfold inherit. rewrite Ep. destruct p as [|b p]; [done|]. destruct Hp as [|Hp]; [done|]. destruct (disk (b :: p)) as [| |f]; [done..|]. by destruct (Hp f). }
  unfold page_save in Hs. destruct (agrees _ _ _) eqn:Hag; [|done]. injection Hs as <-.
  pose proof (saved_option js P lost disk running o (ours_all P lost HP) Hin Hlost Hfile Hjs Hag) as HX. cbn zeta in HX. rewrite Ei in HX. specialize (HX H1 Hc).
  rewrite <- HX. apply resaved; [done..| |]; by rewrite HX.
Qed.
(* the options without a field are set back to their defaults *)
Theorem C91_lost_refuted js P lost disk running f' o : the_program P lost -> page_save js P disk running = Some f' -> o ∈ pOpts P -> oName o ∈ lost -> effective f' o = oDefault o.
Proof.
  intros HP Hs Hin Hlost. destruct (ours_all P lost HP) as (ND & HS & HH & HL). rewrite Forall_forall in HL. destruct (HL _ Hlost) as (Hh & Hk & Hpk). rewrite Forall_forall in HS. destruct (HS o Hin) as (Hd & Hz & Hp & _).
  unfold page_save in Hs. destruct (agrees _ _ _); [|done]. injection Hs as <-. unfold effective, merge, with_file. destruct (oFile o) eqn:Hfile; [|by destruct (zero_val (oDefault o))].
  unfold encode. rewrite find_opt_in by done. rewrite Hfile. cbn [andb].
  set (cfg := save_config _ _ _ _ _). assert (cfg o = zero_of o) as Ec.
  { unfold cfg, save_config. rewrite (bool_decide_eq_false_2 (oName o ∈ kept)), (bool_decide_eq_false_2 (oName o ∈ pHidden P)) by done. unfold sent. by rewrite Hpk. }
  assert (empty_val (separate cfg o) = true) as ->; [|cbn; by destruct (zero_val (oDefault o))].
  unfold separate. rewrite Ec. destruct (oShape o) eqn:Hsh.
  - destruct (zero_base o Hsh) as (z & -> & _ & Hzz). case_bool_decide; done.
  - unfold zero_of. rewrite Hsh. done.
  - unfold zero_of. rewrite Hsh. done.
Qed.

(* ---- the users of a server ---- *)
Theorem C91_users_exact_partial g u : rights_of g (separate_user (page_user u)) = rights_of g u <->
  (mTcpNumber u = Some 0 -> gTcpNumber g = 0) /\ (mHostNumber u = Some 0 -> gHostNumber g = 0) /\ (mRegex u = Some [] -> gRegex g = []) /\ (mWithID u = Some false -> gWithID g = false).
Proof.
  destruct u as [sec tcps tn sp cn hn rx wi]. unfold rights_of, separate_user, page_user. cbn [mSecret mTcps mTcpNumber mSpeed mConns mHostNumber mRegex mWithID].
  assert (forall (A : Type) (ED : EqDecision A) (z gl : A) (x : option A), default gl (if bool_decide (Some (default z x) = Some z) then None else Some (default z x)) = default gl x <-> (x = Some z -> gl = z)) as HX.
  { intros A ED z gl x. destruct x as [x|]; cbn.
    - case_bool_decide as E; cbn; [injection E as ->; split; [intros ->; done|intros H; by apply H]|]. split; [intros _ [= ->]; done|done].
    - rewrite bool_decide_eq_true_2 by done. cbn. done. }
  assert (default (gWithID g) (if bool_decide (wi = Some false) then None else wi) = default (gWithID g) wi <-> (wi = Some false -> gWithID g = false)) as HW.
  { case_bool_decide as E; [subst wi; cbn; split; [done|intros H; by apply H]|]. split; [done|done]. }
  split.
  - intros [= E1 E2 E3 E4]. rewrite HX in E1, E2, E3. rewrite HW in E4. done.
  - intros (H1 & H2 & H3 & H4). f_equal; [by apply HX..|by apply HW].
Qed.
(* a user who was not to open any TCP port, or host, gets as many as the others *)
Theorem C91_users_refuted g u : let r := rights_of g (separate_user (page_user u)) in
  (mTcpNumber u = Some 0 -> rTcpNumber r = gTcpNumber g) /\ (mHostNumber u = Some 0 -> rHostNumber r = gHostNumber g).
Proof. destruct u as [sec tcps tn sp cn hn rx wi]. cbn. split; intros ->; done. Qed.

(* ---- the services of a client ---- *)
Definition same_service (s t : mservice) : Prop :=
  vHost s = vHost t /\ vTcpPort s = vTcpPort t /\ default false (vRandom s) = default false (vRandom t) /\ vLocal s = vLocal t /\ vTimeout s = vTimeout t /\ vUseLocal s = vUseLocal t.
Theorem C91_services_exact_partial s s' : int64 (vTimeout s) -> page_service s = Some s' -> same_service (separate_service s') s <-> plain (vLocal s) /\ (0 <= vTimeout s)%Z /\ whole (vTimeout s).
Proof.
  intros Hi. unfold page_service. assert (rejoin (split2 (vLocal s)) = vLocal s <-> plain (vLocal s)) as HR by apply rejoin_exact. destruct (split2 (vLocal s)) as [p [a|]] eqn:E; [|done].
  destruct (negb _); [done|]. destruct (_ && _); [done|]. destruct (page_dur (vTimeout s)) as [d|] eqn:Ed; [|done]. intros [= <-]. unfold same_service, separate_service. cbn [vHost vTcpPort vRandom vLocal vTimeout vUseLocal].
  rewrite <- HR, <- (C91_duration_exact _ Hi), Ed. split; [intros (_ & _ & _ & H1 & H2 & _); split; congruence|]. intros [H1 [= ->]]. split_and!; try done. case_bool_decide as Er; [by rewrite Er|done].
Qed.

(* ---- cases ---- *)
Definition table (l : list (string * val)) : bytes -> option val := fun n => snd <$> find (fun x => bool_decide (bs x.1 = n)) l.
Definition cfile : bytes -> option val := table
  [("id", One (AStr (bs "me"))); ("remote", Many [AStr (bs "tcp://a:1"); AStr (bs "tls://b:2")]); ("remoteTimeout", One (ADur 30000000000));
   ("remoteConnections", One (ANum 5)); ("webrtcConnections", One (ANum 2)); ("bbr", One (ABool true)); ("logFileMaxSize", One (AInt 1000)); ("password", One (AStr (bs "pw")))]%string.
Definition sfile : bytes -> option val := table
  [("addr", One (AStr (bs "80"))); ("quicAddr", One (AStr (bs "443"))); ("timeout", One (ADur 60000000000)); ("tcpNumber", One (ANum 3)); ("admin", One (AStr (bs "root")))]%string.
Definition at_c : odecl -> val := fun o => if bool_decide (oName o = bs "config") then One (AStr (bs "c.yaml")) else oDefault o.
Definition idz (z : Z) : Z := z.
Definition now (P : prog) (f : bytes -> option val) (n : string) : option val := (fun o => effective f o) <$> find_opt (pOpts P) (bs n).
Definition after (P : prog) (f : bytes -> option val) (n : string) : option val :=
  f' ← page_save idz P (fun _ => Fine f) at_c; now P f' n.
Definition int64b (z : Z) : bool := ((- 2 ^ 63 <=? z) && (z <? 2 ^ 63))%Z.
Definition has_baseb (b : base) (a : atom) : bool :=
  match b, a with
  | BStr, AStr _ | BBool, ABool _ | BFloat, AFloat _ => true
  | BNum w, ANum n => n <? 2 ^ w
  | BInt, AInt z | BDur, ADur z => int64b z
  | _, _ => false
  end.
Definition fitsb (o : odecl) (v : val) : bool :=
  match oShape o, v with
  | SOne, One a => has_baseb (oBase o) a
  | SMany, Many l => forallb (has_baseb (oBase o)) l
  | _, _ => false
  end.
Lemma has_baseb_spec b a : has_baseb b a = true -> has_base b a.
Proof. destruct b, a; cbn; try done; unfold int64b, int64; try (intros H; apply N.ltb_lt in H; done); intros H; apply andb_true_iff in H as [H1 H2]; apply Z.leb_le in H1; apply Z.ltb_lt in H2; lia. Qed.
Lemma fitsb_spec o v : fitsb o v = true -> fits o v.
Proof.
  unfold fitsb, fits. destruct (oShape o), v; try done; [apply has_baseb_spec|]. rewrite forallb_forall. intros H. apply Forall_forall. intros a Ha. apply has_baseb_spec, H. by apply elem_of_list_In.
Qed.
Lemma table_fine sch f (l : list string) : NoDup (oName <$> sch) -> (forall n, f n <> None -> n ∈ bs <$> l) ->
  forallb (fun n => match find_opt sch (bs n), f (bs n) with Some o, Some v => fitsb o v | _, _ => true end) l = true -> fine_file sch f.
Proof.
  intros ND Hdom HF o v Hin Ev. rewrite forallb_forall in HF. assert (oName o ∈ bs <$> l) as Hl by (apply Hdom; congruence). apply elem_of_list_fmap in Hl as (n & En & Hn).
  apply elem_of_list_In in Hn. specialize (HF n Hn). cbn beta in HF. rewrite <- En, find_opt_in, Ev in HF by done. by apply fitsb_spec.
Qed.
Lemma table_dom l n : table l n <> None -> n ∈ bs <$> l.*1.
Proof.
  unfold table. intros H. destruct (find _ l) as [x|] eqn:E; [|done]. apply find_some in E as [Hin He]. apply bool_decide_eq_true in He. subst n. apply elem_of_list_fmap. exists x.1. split; [done|]. apply elem_of_list_fmap. exists x.
  split; [done|]. by apply elem_of_list_In.
Qed.
Lemma fine_c : fine_file (client_options (bs "v")) cfile.
Proof.
  destruct (C58_schemas (bs "v")) as ((ND & _) & _ & _). eapply table_fine; [done|apply table_dom|]. vm_compute. reflexivity.
Qed.
Lemma fine_s : fine_file (server_options (bs "v")) sfile.
Proof.
  destruct (C58_schemas (bs "v")) as (_ & _ & (ND & _) & _). eapply table_fine; [done|apply table_dom|]. vm_compute. reflexivity.
Qed.
(* a client's file and a server's: the page saves them, what it carries is kept, the rest is lost *)
Theorem C91_witness : let C := client_prog (bs "v") in let S := server_prog (bs "v") in
  the_program C client_lost /\ the_program S server_lost /\ exact_integers idz /\
  config_of (pOpts C) at_c = bs "c.yaml" /\ fine_file (pOpts C) cfile /\ config_of (pOpts S) at_c = bs "c.yaml" /\ fine_file (pOpts S) sfile /\
  after C cfile "remoteTimeout" = Some (One (ADur 30000000000)) /\ after C cfile "remote" = Some (Many [AStr (bs "tcp://a:1"); AStr (bs "tls://b:2")]) /\ after C cfile "password" = Some (One (AStr (bs "pw"))) /\
  now C cfile "bbr" = Some (One (ABool true)) /\ after C cfile "bbr" = Some (One (ABool false)) /\ now C cfile "webrtcConnections" = Some (One (ANum 2)) /\ after C cfile "webrtcConnections" = Some (One (ANum 30)) /\
  after S sfile "timeout" = Some (One (ADur 60000000000)) /\ after S sfile "addr" = Some (One (AStr (bs "80"))) /\ after S sfile "admin" = Some (One (AStr (bs "root"))) /\
  now S sfile "quicAddr" = Some (One (AStr (bs "443"))) /\ after S sfile "quicAddr" = Some (One (AStr [])).
Proof.
  cbv zeta. split_and!; [by exists (bs "v"); left|by exists (bs "v"); right|done|vm_compute; reflexivity|apply fine_c|vm_compute; reflexivity|apply fine_s|vm_compute; reflexivity..].
Qed.
(* a fraction, an address without ://, a user without ports, an address with two :// *)
Theorem C91_values_witness :
  page_dur 1500000000 = Some 1%Z /\ page_dur 90500000000 = Some 1%Z /\ page_dur 30000000000 = Some 30000000000%Z /\
  page_remotes [bs "tcp://a:1"; bs "b:2"] = Some [bs "tcp://a:1"; bs "b:2://undefined"] /\
  (let u := mkMuser (bs "s") [] (Some 0) 0 0 (Some 0) None None in let g := mkGlobals 5 0 10 7 [] false in
   rTcpNumber (rights_of g u) = 0 /\ rTcpNumber (rights_of g (separate_user (page_user u))) = 5 /\ rHostNumber (rights_of g (separate_user (page_user u))) = 7) /\
  page_service (mkMservice (bs "web") 0 None (bs "http://h/?u=http://x") 30000000000 false) = Some (mkMservice (bs "web") 0 None (bs "http://h/?u=http") 30000000000 false) /\
  page_service (mkMservice (bs "web") 0 (Some false) (bs "http://h:80") 30000000000 true) = Some (mkMservice (bs "web") 0 (Some false) (bs "http://h:80") 30000000000 true).
Proof. cbv zeta. split_and!; vm_compute; reflexivity. Qed.
