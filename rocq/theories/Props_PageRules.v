(* Props_PageRules.v -- C98: what the settings page lets through gt starts with (PageRulesModel) *)
From Coq Require Import Strings.String.
From Verif Require Import GoBase FlagsModel WebStartModel PortsSpec PortsModel Props_Ports PageRulesModel.
Local Open Scope N_scope.

(* ---- what a pattern means ---- *)
Inductive lang : re -> bytes -> Prop :=
  | LEps : lang Eps []
  | LCls f c : f c = true -> lang (Cls f) [c]
  | LCat a b s t : lang a s -> lang b t -> lang (Cat a b) (s ++ t)
  | LAlt1 a b s : lang a s -> lang (Alt a b) s
  | LAlt2 a b s : lang b s -> lang (Alt a b) s
  | LStar0 a : lang (Star a) []
  | LStarS a s t : lang a s -> lang (Star a) t -> lang (Star a) (s ++ t).
Lemma lang_cat a b s : lang (Cat a b) s -> exists s1 s2, s = s1 ++ s2 /\ lang a s1 /\ lang b s2.
Proof. intros H. inversion H; subst. eauto. Qed.
Lemma lang_alt a b s : lang (Alt a b) s -> lang a s \/ lang b s.
Proof. intros H. inversion H; subst; auto. Qed.
Lemma lang_cls f s : lang (Cls f) s -> exists c, s = [c] /\ f c = true.
Proof. intros H. inversion H; subst. eauto. Qed.
Lemma lang_eps s : lang Eps s -> s = [].
Proof. intros H. by inversion H. Qed.
Lemma nullable_lang r : nullable r = true <-> lang r [].
Proof.
  split.
  - induction r; cbn; intros H; try done; try (by constructor).
    + apply andb_true_iff in H as [H1 H2]. apply (LCat r1 r2 [] []); auto.
    + apply orb_true_iff in H as [H|H]; [apply LAlt1|apply LAlt2]; auto.
  - induction r; cbn; intros H; try done; try (by inversion H).
    + apply lang_cat in H as (s1 & s2 & E & H1 & H2). symmetry in E. apply app_eq_nil in E as [-> ->]. rewrite IHr1, IHr2; done.
    + apply lang_alt in H as [H|H]; [rewrite IHr1 by done; done|rewrite IHr2 by done; apply orb_true_r].
Qed.
Lemma star_cons a s : lang (Star a) s -> forall c t, s = c :: t -> exists t1 t2, t = t1 ++ t2 /\ lang a (c :: t1) /\ lang (Star a) t2.
Proof.
  assert (G : forall r s, lang r s -> r = Star a -> forall c t, s = c :: t -> exists t1 t2, t = t1 ++ t2 /\ lang a (c :: t1) /\ lang (Star a) t2); [|by intros H; apply (G _ _ H)].
  clear s. intros r s H. induction H as [|f x Hx|a1 b1 s t H1 I1 H2 I2|a1 b1 s H1 I1|a1 b1 s H1 I1|a1|a1 s1 s2 H1 I1 H2 I2]; intros E c u Es; try discriminate. injection E as ->.
  destruct s1 as [|c1 s1]; [by apply I2|]. cbn in Es. injection Es as <- <-. eauto.
Qed.
Lemma deriv_lang r : forall c s, lang (deriv c r) s <-> lang r (c :: s).
Proof.
  induction r as [| |f|a IHa b IHb|a IHa b IHb|a IHa]; intros c s; cbn [deriv].
  - split; intros H; by inversion H.
  - split; intros H; by inversion H.
  - destruct (f c) eqn:E; split; intros H.
    + apply lang_eps in H as ->. by constructor.
    + apply lang_cls in H as (c' & [= <- ->] & _). constructor.
    + by inversion H.
    + apply lang_cls in H as (c' & [= <- ->] & H). congruence.
  - assert (Hl : lang (Cat (deriv c a) b) s -> lang (Cat a b) (c :: s)).
    { intros H. apply lang_cat in H as (s1 & s2 & -> & H1 & H2). apply IHa in H1. by apply (LCat a b (c :: s1) s2). }
    assert (Hr : lang (Cat a b) (c :: s) -> lang (Cat (deriv c a) b) s \/ (nullable a = true /\ lang (deriv c b) s)).
    { intros H. apply lang_cat in H as (s1 & s2 & E & H1 & H2). destruct s1 as [|c1 s1]; cbn in E.
      - right. subst s2. split; [by apply nullable_lang|by apply IHb].
      - injection E as <- ->. left. constructor; [by apply IHa|done]. }
    destruct (nullable a) eqn:En; split; intros H.
    + apply lang_alt in H as [H|H]; [auto|]. apply (LCat a b [] (c :: s)); [by apply nullable_lang|by apply IHb].
    + apply Hr in H as [H|[_ H]]; [by apply LAlt1|by apply LAlt2].
    + auto.
    + apply Hr in H as [H|[? _]]; [done|congruence].
  - split; intros H; apply lang_alt in H as [H|H].
    + apply LAlt1. by apply IHa.
    + apply LAlt2. by apply IHb.
    + apply LAlt1. by apply IHa.
    + apply LAlt2. by apply IHb.
  - split; intros H.
    + apply lang_cat in H as (s1 & s2 & -> & H1 & H2). apply IHa in H1. by apply (LStarS a (c :: s1) s2).
    + destruct (star_cons a _ H c s eq_refl) as (t1 & t2 & -> & H1 & H2). constructor; [by apply IHa|done].
Qed.
Lemma rmatch_lang s : forall r, rmatch r s = true <-> lang r s.
Proof. induction s as [|c s IH]; intros r; cbn [rmatch]; [apply nullable_lang|]. rewrite IH. apply deriv_lang. Qed.

(* the letters of a pattern *)
Fixpoint within (P : N -> bool) (r : re) : Prop := match r with Void | Eps => True | Cls f => forall c, f c = true -> P c = true | Cat a b | Alt a b => within P a /\ within P b | Star a => within P a end.
Notation all P s := (Forall (fun c => P c = true) s).
Lemma lang_within P r s : within P r -> lang r s -> all P s.
Proof. intros HW H. induction H; cbn in HW; try constructor; try (destruct HW); try (apply Forall_app; split); auto. Qed.
Lemma within_exactly P n r : within P r -> within P (exactly n r).
Proof. intros H. induction n; cbn; auto. Qed.
Lemma within_upto P n r : within P r -> within P (upto n r).
Proof. intros H. induction n; cbn; auto. Qed.
Lemma within_between P n m r : within P r -> within P (between n m r).
Proof. intros H. split; [by apply within_exactly|by apply within_upto]. Qed.
Lemma lang_upto n f s : lang (upto n (Cls f)) s <-> all f s /\ (length s <= n)%nat.
Proof.
  split.
  - intros H. split; [apply (lang_within f (upto n (Cls f))); [apply within_upto; by intros c|done]|]. revert s H. induction n as [|n IH]; intros s H; cbn in H; [by apply lang_eps in H as ->|].
    apply lang_alt in H as [H|H]; [|apply lang_eps in H as ->; cbn; lia]. apply lang_cat in H as (s1 & s2 & -> & H1 & H2). apply lang_cls in H1 as (c & -> & _). specialize (IH _ H2). cbn. lia.
  - intros [HF HL]. revert s HF HL. induction n as [|n IH]; intros s HF HL; cbn; destruct s as [|c s]; cbn in HL; try lia; [constructor|apply LAlt2; constructor|].
    inversion HF; subst. apply LAlt1. apply (LCat _ _ [c] s); [by constructor|]. apply IH; [done|lia].
Qed.
Lemma lang_exactly n f s : lang (exactly n (Cls f)) s <-> all f s /\ length s = n.
Proof.
  split.
  - revert s. induction n as [|n IH]; intros s H; cbn in H; [by apply lang_eps in H as ->|]. apply lang_cat in H as (s1 & s2 & -> & H1 & H2). apply lang_cls in H1 as (c & -> & Hc).
    destruct (IH _ H2) as [? <-]. split; [by constructor|done].
  - revert s. induction n as [|n IH]; intros s [HF HL]; destruct s as [|c s]; try done; [constructor|]. inversion HF; subst. apply (LCat _ _ [c] s); [by constructor|]. apply IH. split; [done|]. by injection HL.
Qed.
Lemma lang_between n m f s : (n <= m)%nat -> lang (between n m (Cls f)) s <-> all f s /\ (n <= length s <= m)%nat.
Proof.
  intros Hnm. split.
  - intros H. apply lang_cat in H as (s1 & s2 & -> & H1 & H2). apply lang_exactly in H1 as [F1 L1]. apply lang_upto in H2 as [F2 L2]. rewrite Forall_app, app_length. split; [done|lia].
  - intros [HF HL]. rewrite <- (take_drop n s) in HF |- *. apply Forall_app in HF as [F1 F2]. constructor; [apply lang_exactly; split; [done|]; rewrite take_length; lia|].
    apply lang_upto. split; [done|]. rewrite drop_length. lia.
Qed.
Lemma lang_star f s : lang (Star (Cls f)) s <-> all f s.
Proof.
  split; [intros H; apply (lang_within f (Star (Cls f))); [by intros c|done]|]. induction 1 as [|c s Hc _ IH]; [constructor|]. apply (LStarS _ [c] s); [by constructor|done].
Qed.
Lemma lang_plus f s : lang (Plus (Cls f)) s <-> s <> [] /\ all f s.
Proof.
  split.
  - intros H. apply lang_cat in H as (s1 & s2 & -> & H1 & H2). apply lang_cls in H1 as (c & -> & Hc). apply lang_star in H2. split; [done|by constructor].
  - intros [Hn HF]. destruct s as [|c s]; [done|]. inversion HF; subst. apply (LCat _ _ [c] s); [by constructor|by apply lang_star].
Qed.
Lemma lang_chr c s : lang (chr c) s <-> s = [c].
Proof. split; [intros H; apply lang_cls in H as (x & -> & E); apply N.eqb_eq in E; by subst|]. intros ->. constructor. apply N.eqb_refl. Qed.

(* ---- port ranges ---- *)
Lemma digit_iff c : digit c = true <-> 48 <= c <= 57.
Proof. unfold digit. rewrite andb_true_iff, !N.leb_le. done. Qed.
Lemma all_digit s : all digit s <-> Forall (fun c => 48 <= c <= 57) s.
Proof. split; intros H; (eapply Forall_impl; [exact H|]); intros c; cbn; apply digit_iff. Qed.
Lemma decimal_exists s : s <> [] -> all digit s -> exists v, decimal s v.
Proof. intros Hn HF. eexists. split; [done|]. split; [by apply all_digit|done]. Qed.
Lemma decimal_fun s v w : decimal s v -> decimal s w -> v = w.
Proof. by intros (_ & _ & ->) (_ & _ & ->). Qed.
Lemma page_range_spec s : s <> [] -> page_range s = true <-> exists a b x y, s = a ++ DASH :: b /\ decimal a x /\ decimal b y.
Proof.
  intros Hn. unfold page_range. rewrite bool_decide_eq_false_2 by done. cbn [orb]. rewrite rmatch_lang. unfold RANGE. split.
  - intros H. apply lang_cat in H as (a & t & -> & Ha & H). apply lang_cat in H as (m & b & -> & Hm & Hb). apply lang_chr in Hm as ->. apply lang_plus in Ha as [? Fa]. apply lang_plus in Hb as [? Fb].
    destruct (decimal_exists a) as [x Hx]; [done..|]. destruct (decimal_exists b) as [y Hy]; [done..|]. exists a, b, x, y. done.
  - intros (a & b & x & y & -> & (Na & Fa & _) & (Nb & Fb & _)). apply all_digit in Fa, Fb. constructor; [by apply lang_plus|]. apply (LCat _ _ [DASH] b); [by apply lang_chr|by apply lang_plus].
Qed.
Lemma decimal_nodash s v : decimal s v -> DASH ∉ s.
Proof. intros (_ & HF & _) H. rewrite Forall_forall in HF. specialize (HF _ H). unfold DASH in HF. lia. Qed.
Lemma split_dash a b a' b' : DASH ∉ a -> DASH ∉ a' -> a ++ DASH :: b = a' ++ DASH :: b' -> a = a' /\ b = b'.
Proof.
  revert a'. induction a as [|c a IH]; intros [|c' a'] H H' E; cbn in E; [by injection E as ->| | |].
  - injection E as <- _. exfalso. apply H'. by left.
  - injection E as -> _. exfalso. apply H. by left.
  - injection E as <- E. apply not_elem_of_cons in H as [_ H], H' as [_ H']. by destruct (IH a' H H' E) as [-> ->].
Qed.
(* Of the ranges the page lets through, gt accepts those whose bounds are ports and in order; *)
Theorem C98_range a b x y : decimal a x -> decimal b y -> let s := a ++ DASH :: b in
  page_range s = true /\ (port_range_str s <> None <-> x <= y /\ y <= 65535) /\ (forall lo hi, port_range_str s = Some (lo, hi) -> lo = N.max 1 x /\ hi = y).
Proof.
  intros Ha Hb s. assert (Hs : s <> []) by (unfold s; by destruct a). split; [apply page_range_spec; [done|]; by exists a, b, x, y|].
  assert (Na := decimal_nodash _ _ Ha). assert (G : forall lo hi, denotes s lo hi -> x <= y /\ y <= 65535 /\ lo = N.max 1 x /\ hi = y).
  { intros lo hi [(p & (Hp & _) & _)|(sa & sb & a' & b' & E & (Hsa & La) & (Hsb & Lb) & Hle & -> & ->)].
    - apply decimal_nodash in Hp. exfalso. apply Hp. unfold s. rewrite elem_of_app. right. by left.
    - apply split_dash in E as [-> ->]; [|done|by eapply decimal_nodash]. rewrite (decimal_fun _ _ _ Ha Hsa), (decimal_fun _ _ _ Hb Hsb). done. }
  split.
  - split.
    + destruct (port_range_str s) as [[lo hi]|] eqn:E; [|done]. intros _. apply port_range_spec in E. by destruct (G _ _ E) as (? & ? & _).
    + intros [H1 H2] E. assert (D : denotes s (N.max 1 x) y) by (right; exists a, b, x, y; split; [done|]; split; [split; [done|lia]|]; split; [split; [done|lia]|]; done). apply port_range_spec in D. congruence.
  - intros lo hi E. apply port_range_spec in E. by destruct (G _ _ E) as (_ & _ & ? & ?).
Qed.
(* so it lets through bounds in the wrong order, bounds that are no ports, and nothing at all; and it refuses a single port, which gt takes. *)
Theorem C98_range_refuted : (forall a b x y, decimal a x -> decimal b y -> y < x \/ 65535 < y -> page_range (a ++ DASH :: b) = true /\ port_range_str (a ++ DASH :: b) = None) /\
  (page_range [] = true /\ port_range_str [] = None) /\ (forall s p, port_string s p -> page_range s = false /\ port_range_str s <> None).
Proof.
  split_and!; [|done|done|].
  - intros a b x y Ha Hb Hx. destruct (C98_range a b x y Ha Hb) as (H1 & H2 & _). split; [done|]. destruct (port_range_str (a ++ DASH :: b)); [|done]. exfalso. destruct (proj1 H2 ltac:(done)). lia.
  - intros s p Hp. assert (Hn : s <> []) by apply Hp. split.
    + apply not_true_is_false. intros H. apply page_range_spec in H as (a & b & x & y & -> & _); [|done]. destruct Hp as [Hp _]. apply decimal_nodash in Hp. apply Hp. rewrite elem_of_app. right. by left.
    + intros E. destruct (decide (p = 0)) as [->|Hne]; [assert (D : denotes s 1 65535) by (left; exists 0; auto)|assert (D : denotes s p p) by (left; exists p; auto)]; apply port_range_spec in D; congruence.
Qed.

(* ---- addresses ---- *)
(* the text "port", "host:port" or "[host]:port" *)
Definition plain (h : bytes) : Prop := LBRK ∉ h /\ RBRK ∉ h.
Definition address (s h : bytes) (p : N) : Prop :=
  exists d, decimal d p /\ ((h = [] /\ s = d) \/ (COLON ∉ h /\ plain h /\ s = h ++ COLON :: d) \/ (plain h /\ s = LBRK :: h ++ RBRK :: COLON :: d)).
Definition hosty (c : N) : bool := label_char c || (c =? DOT).
Definition sixy (c : N) : bool := hexdigit c || (c =? COLON).
Lemma in_all (P : N -> bool) s c : all P s -> P c = false -> c ∉ s.
Proof. intros HF Hc H. rewrite Forall_forall in HF. specialize (HF _ H). congruence. Qed.
Ltac cls := intros ch; unfold hosty, sixy, hexdigit, label_char, letter, digit, COLON, DOT, DASH; rewrite ?orb_true_iff, ?andb_true_iff, ?N.leb_le, ?N.eqb_eq; lia.
Lemma addr_shape s : lang ADDR s -> exists d, d <> [] /\ all digit d /\ (length d <= 5)%nat /\
  ((exists x, all hosty x /\ s = x ++ d) \/ (exists x, all hosty x /\ s = x ++ COLON :: d) \/
   (exists b, all sixy b /\ COLON ∈ b /\ s = LBRK :: b ++ RBRK :: d) \/ (exists b, all sixy b /\ COLON ∈ b /\ s = LBRK :: b ++ RBRK :: COLON :: d)).
Proof.
  intros H. apply lang_cat in H as (xc & d & -> & H & Hd). apply lang_between in Hd as [Fd Ld]; [|lia]. exists d. split; [by destruct d; cbn in Ld; [lia|]|]. split; [done|]. split; [lia|].
  apply lang_cat in H as (x & c & -> & Hx & Hc).
  assert (Cc : c = [] \/ c = [COLON]) by (apply lang_alt in Hc as [Hc|Hc]; [right; by apply lang_chr|left; by apply lang_eps]).
  assert (Xc : all hosty x \/ exists b, all sixy b /\ COLON ∈ b /\ x = LBRK :: b ++ [RBRK]).
  { apply lang_alt in Hx as [Hx|Hx]; [|apply lang_eps in Hx as ->; by left]. apply lang_alt in Hx as [Hx|Hx]; [|apply lang_alt in Hx as [Hx|Hx]].
    - left. apply (lang_within hosty IPV4); [|done]. unfold IPV4, OCTET, chr. cbn [within]. split_and!; try (apply within_between; cbn [within]); cls.
    - right. apply lang_cat in Hx as (lb & t & -> & Hlb & Hx). apply lang_chr in Hlb as ->. apply lang_cat in Hx as (b1 & t2 & -> & H1 & Hx). apply lang_cat in Hx as (b2 & rb & -> & H2 & Hrb). apply lang_chr in Hrb as ->.
      exists (b1 ++ b2). split_and!.
      + apply Forall_app. split; [apply (lang_within sixy (between 2 7 (Cat (between 0 4 (Cls hexdigit)) (chr COLON))))|apply (lang_within sixy (between 0 4 (Cls hexdigit)))]; try done; apply within_between; unfold chr; cbn [within]; [split; [apply within_between; cbn [within]; cls|cls]|cls].
      + apply lang_cat in H1 as (u & v & -> & Hu & _). cbn [exactly] in Hu. apply lang_cat in Hu as (u1 & u2 & -> & Hu & _). apply lang_cat in Hu as (u3 & u4 & -> & _ & Hu). apply lang_chr in Hu as ->.
        rewrite !elem_of_app. left. left. left. right. by left.
      + by rewrite <- !app_assoc.
    - left. apply (lang_within hosty DOMAIN); [|done]. unfold DOMAIN, Plus, chr. cbn [within]. split_and!; cls. }
  destruct Xc as [Fx|(b & Fb & Hb & ->)], Cc as [-> | ->].
  - left. exists x. rewrite app_nil_r. done.
  - right. left. exists x. rewrite <- app_assoc. done.
  - right. right. left. exists b. split; [done|]. split; [done|]. rewrite app_nil_r. cbn. by rewrite <- app_assoc.
  - right. right. right. exists b. split; [done|]. split; [done|]. cbn. by rewrite <- !app_assoc.
Qed.
Lemma last_colon_none s : COLON ∉ s -> last_colon s = None.
Proof. induction s as [|c s IH]; intros H; [done|]. apply not_elem_of_cons in H as [H1 H2]. cbn. rewrite (IH H2). destruct (N.eqb_spec c COLON); [congruence|done]. Qed.
Lemma last_colon_app x d : COLON ∉ d -> last_colon (x ++ COLON :: d) = Some (x, d).
Proof. intros H. induction x as [|c x IH]; cbn [app last_colon]; [by rewrite last_colon_none|by rewrite IH]. Qed.
Lemma cut_at_app c x y : c ∉ x -> cut_at c (x ++ c :: y) = Some (x, y).
Proof. intros H. induction x as [|d x IH]; cbn [app cut_at]; [by rewrite N.eqb_refl|]. apply not_elem_of_cons in H as [H1 H2]. destruct (N.eqb_spec d c); [congruence|]. by rewrite IH. Qed.
Lemma parse_digits_all s acc v : parse_digits acc s = Some v -> all digit s.
Proof. intros H. apply parse_digits_spec in H as [H _]. by apply all_digit. Qed.
Lemma port_digits_decimal d p : decimal d p -> port_digits d = Some p.
Proof. intros (Hn & HF & ->). unfold port_digits. by apply parse_digits_spec. Qed.
Lemma js_digits_parse s : forall acc v, parse_digits acc s = Some v -> js_digits 10 dec_val acc s = v.
Proof.
  induction s as [|c s IH]; intros acc v H; cbn in *; [by simplify_eq|]. unfold dec_val at 1, digit. destruct ((48 <=? c) && (c <=? 57)); [by apply IH|done].
Qed.
Lemma js_unsigned_digits d p : decimal d p -> js_unsigned d = Some p.
Proof.
  intros Hd. assert (E := port_digits_decimal _ _ Hd). assert (F : all digit d) by (by apply all_digit; destruct Hd as (_ & ? & _)). destruct Hd as (Hn & _ & _).
  assert (G : js_number 10 dec_val d = Some p).
  { destruct d as [|c d]; [done|]. inversion F; subst. unfold js_number, dec_val at 1. rewrite H1. f_equal. by apply js_digits_parse. }
  unfold js_unsigned. destruct d as [|z [|x d]]; try done. inversion F as [|? ? _ F2]; subst. inversion F2 as [|? ? Hx _]; subst. apply digit_iff in Hx.
  destruct (N.eqb_spec x 120); [lia|]. destruct (N.eqb_spec x 88); [lia|]. by rewrite andb_false_r.
Qed.
Lemma js_parse_digits d p : decimal d p -> js_parse_int d = Some (Z.of_N p).
Proof.
  intros Hd. pose proof (js_unsigned_digits _ _ Hd) as E. assert (F : all digit d) by (by apply all_digit; destruct Hd as (_ & ? & _)). destruct Hd as (Hn & _ & _). destruct d as [|c d]; [done|].
  inversion F as [|? ? Hc _]; subst. apply digit_iff in Hc. unfold js_parse_int. unfold DASH. destruct (N.eqb_spec c 45); [lia|]. destruct (N.eqb_spec c 43); [lia|]. by rewrite E.
Qed.
Lemma look_up_digits svc d p : decimal d p -> p <= 65535 -> look_up_port svc d = Some p.
Proof.
  intros Hd Hp. pose proof (port_digits_decimal _ _ Hd) as E. assert (F : all digit d) by (by apply all_digit; destruct Hd as (_ & ? & _)). destruct Hd as (Hn & _ & _). destruct d as [|c d]; [done|].
  inversion F as [|? ? Hc _]; subst. apply digit_iff in Hc. unfold look_up_port, DASH. destruct (N.eqb_spec c 43); [lia|]. destruct (N.eqb_spec c 45); [lia|]. rewrite E. unfold in_range. by rewrite (proj2 (N.leb_le _ _)).
Qed.
Lemma split_none p : p <> [] -> LBRK ∉ p -> RBRK ∉ p -> COLON ∉ p -> split_host_port (COLON :: p) = Some [].
Proof.
  intros Hn H1 H2 H3. pose proof (last_colon_app [] p H3) as E. cbn [app] in E. unfold split_host_port. rewrite E. cbn [mbind option_bind]. destruct (N.eqb_spec COLON LBRK); [done|].
  rewrite !bool_decide_eq_false_2; [done|..]; rewrite ?not_elem_of_cons; try split; try done; apply not_elem_of_nil.
Qed.
Lemma hosty_no c x : all hosty x -> hosty c = false -> c ∉ x.
Proof. apply in_all. Qed.
Lemma digit_hosty d : all digit d -> all hosty d.
Proof. intros H. eapply Forall_impl; [exact H|]. cls. Qed.
Lemma decimal_no c d p : digit c = false -> decimal d p -> c ∉ d.
Proof. intros Hc (_ & HF & _). apply all_digit in HF. by apply (in_all digit). Qed.
Lemma net_listen_parts svc s h d p : decimal d p -> p <= 65535 -> split_host_port s = Some h -> (exists x, last_colon s = Some (x, d)) -> net_listen svc s = Some (h, p).
Proof. intros Hd Hp H1 [x H2]. unfold net_listen. rewrite H1. cbn [mbind option_bind]. rewrite H2. cbn [mbind option_bind]. by rewrite (look_up_digits svc d p). Qed.
Lemma split_plain h d p : decimal d p -> COLON ∉ h -> plain h -> split_host_port (h ++ COLON :: d) = Some h.
Proof.
  intros Hd Hh [Hl Hr]. assert (Cd := decimal_no COLON _ _ eq_refl Hd). assert (Ld := decimal_no LBRK _ _ eq_refl Hd). assert (Rd := decimal_no RBRK _ _ eq_refl Hd).
  unfold split_host_port. rewrite last_colon_app by done. cbn [mbind option_bind]. destruct (h ++ COLON :: d) as [|c s] eqn:E; [by destruct h|].
  assert (Hc : c <> LBRK) by (intros ->; destruct h as [|c0 h0]; [done|]; injection E as -> _; apply Hl; by left). destruct (N.eqb_spec c LBRK); [done|]. rewrite <- E.
  rewrite !bool_decide_eq_false_2; [done|..]; rewrite ?elem_of_app, ?elem_of_cons; intros H; naive_solver.
Qed.
Lemma split_bracket h d p : decimal d p -> plain h -> split_host_port (LBRK :: h ++ RBRK :: COLON :: d) = Some h.
Proof.
  intros Hd [Hl Hr]. assert (Cd := decimal_no COLON _ _ eq_refl Hd). assert (Ld := decimal_no LBRK _ _ eq_refl Hd). assert (Rd := decimal_no RBRK _ _ eq_refl Hd).
  unfold split_host_port. assert (E : LBRK :: h ++ RBRK :: COLON :: d = (LBRK :: h ++ [RBRK]) ++ COLON :: d) by (cbn; by rewrite <- app_assoc). rewrite E, last_colon_app by done. cbn [mbind option_bind app]. rewrite N.eqb_refl.
  rewrite cut_at_app by done. cbn [mbind option_bind]. rewrite N.eqb_refl, bool_decide_eq_true_2 by done. cbn [andb].
  rewrite !bool_decide_eq_false_2; [done|..]; rewrite ?elem_of_app, ?elem_of_cons; intros H; naive_solver.
Qed.
Lemma address_listen svc s h p : address s h p -> p <= 65535 -> server_listen svc s = Some (h, p) /\ js_parse_int (last_part s) = Some (Z.of_N p).
Proof.
  intros (d & Hd & Hs) Hp. assert (Cd := decimal_no COLON _ _ eq_refl Hd). unfold server_listen, last_part.
  destruct Hs as [[-> ->]|[(Hc & Hh & ->)|(Hh & ->)]].
  - rewrite bool_decide_eq_false_2 by done. rewrite last_colon_none by done. split; [|by apply js_parse_digits].
    eapply (net_listen_parts _ _ _ d); [done|done|apply (split_plain [] d p); [done| |split]; apply not_elem_of_nil|]. exists []. by apply (last_colon_app []).
  - rewrite bool_decide_eq_true_2 by (rewrite elem_of_app; right; by left). rewrite last_colon_app by done. split; [|by apply js_parse_digits].
    eapply (net_listen_parts _ _ _ d); [done|done|by eapply split_plain|]. exists h. by apply last_colon_app.
  - assert (E : last_colon (LBRK :: h ++ RBRK :: COLON :: d) = Some (LBRK :: h ++ [RBRK], d)).
    { replace (LBRK :: h ++ RBRK :: COLON :: d) with ((LBRK :: h ++ [RBRK]) ++ COLON :: d) by (cbn; by rewrite <- app_assoc). by apply last_colon_app. }
    rewrite bool_decide_eq_true_2 by (rewrite elem_of_cons, elem_of_app; right; right; right; by left). rewrite E. split; [|by apply js_parse_digits].
    eapply (net_listen_parts _ _ _ d); [done|done|by eapply split_bracket|]. by eexists.
Qed.
Lemma page_number s h p : s <> [] -> page_addr s = true -> address s h p -> 1 <= p <= 65535.
Proof.
  intros Hn Hp (d & Hd & Hs). assert (Cd := decimal_no COLON _ _ eq_refl Hd). assert (E : last_part s = d).
  { unfold last_part. destruct Hs as [[-> ->]|[(Hc & Hh & ->)|(Hh & ->)]]; [by rewrite last_colon_none|by rewrite last_colon_app|].
    replace (LBRK :: h ++ RBRK :: COLON :: d) with ((LBRK :: h ++ [RBRK]) ++ COLON :: d) by (cbn; by rewrite <- app_assoc). by rewrite last_colon_app. }
  unfold page_addr in Hp. rewrite bool_decide_eq_false_2 in Hp by done. cbn [orb] in Hp. rewrite E, (js_parse_digits d p) in Hp by done. rewrite !andb_true_iff, !Z.leb_le in Hp. lia.
Qed.
(* An address the page lets through is one the server can listen on exactly if it is a port, host:port or [host]:port; then it listens there, and the port is not 0. *)
Theorem C98_address svc s : s <> [] -> page_addr s = true ->
  (forall h p, address s h p -> server_listen svc s = Some (h, p) /\ 1 <= p <= 65535) /\ ((forall h p, ~ address s h p) -> svc s = None -> server_listen svc s = None).
Proof.
  intros Hn Hp. split.
  { intros h p Ha. pose proof (page_number _ _ _ Hn Hp Ha) as Hr. split; [|done]. apply (address_listen svc s h p); [done|lia]. }
  intros Hno Hsvc. unfold page_addr in Hp. rewrite bool_decide_eq_false_2 in Hp by done. cbn [orb] in Hp. apply andb_true_iff in Hp as [Hm Hp]. apply rmatch_lang, addr_shape in Hm as (d & Nd & Fd & Ld & Hs).
  assert (Cd : COLON ∉ d) by (by apply (in_all digit)). destruct (decimal_exists d Nd Fd) as [n Hd].
  destruct Hs as [(x & Fx & E)|[(x & Fx & E)|[(b & Fb & Hb & E)|(b & Fb & Hb & E)]]].
  - assert (Fs : all hosty s) by (rewrite E; apply Forall_app; split; [done|by apply digit_hosty]). assert (Cs : COLON ∉ s) by (by apply (in_all hosty)). unfold server_listen. rewrite bool_decide_eq_false_2 by done.
    unfold net_listen. rewrite split_none by (try done; by apply (in_all hosty)). cbn [mbind option_bind]. pose proof (last_colon_app [] s Cs) as El. cbn [app] in El. rewrite El. cbn [mbind option_bind].
    assert (Hl : look_up_port svc s = None); [|by rewrite Hl]. unfold last_part in Hp. rewrite last_colon_none in Hp by done. clear E x Fx.
    destruct s as [|c s]; [done|]. inversion Fs as [|? ? Hc Fs']; subst. unfold look_up_port. destruct (N.eqb_spec c 43) as [->|H43]; [done|]. destruct (N.eqb_spec c DASH) as [->|Hd'].
    + destruct (port_digits s) as [m|] eqn:Em; [|done]. exfalso. cbn in Hp. destruct (decide (s = [])) as [->|Ns]; [done|].
      assert (Hdm : decimal s m) by (apply parse_digits_spec in Em as [? Em]; by split). rewrite (js_unsigned_digits _ _ Hdm) in Hp. cbn [mbind option_bind] in Hp. rewrite andb_true_iff, !Z.leb_le in Hp. lia.
    + destruct (port_digits (c :: s)) as [m|] eqn:Em; [|done]. exfalso. apply (Hno [] m). exists (c :: s). split; [|by left]. apply parse_digits_spec in Em as [? Em]. by split.
  - exfalso. apply (Hno x n). exists d. split; [done|]. right. left. split; [by apply (in_all hosty)|]. split; [split; by apply (in_all hosty)|done].
  - assert (Hc : COLON ∈ s) by (rewrite E; rewrite elem_of_cons, elem_of_app; auto). unfold server_listen. rewrite bool_decide_eq_true_2 by done. unfold net_listen, split_host_port.
    destruct (last_colon s) as [[u v]|]; [|done]. cbn [mbind option_bind]. rewrite E. rewrite N.eqb_refl, cut_at_app by (by apply (in_all sixy)). cbn [mbind option_bind].
    destruct d as [|c d]; [done|]. destruct (N.eqb_spec c COLON) as [->|]; [|done]. exfalso. apply Cd. by left.
  - exfalso. apply (Hno b n). exists d. split; [done|]. right. right. split; [split; by apply (in_all sixy)|done].
Qed.

(* ---- what it refuses, and what it should not let through ---- *)
Lemma js_digits_stop a c t : all digit a -> dec_val c = None -> forall acc, js_digits 10 dec_val acc (a ++ c :: t) = js_digits 10 dec_val acc a.
Proof.
  intros HF Hc. induction HF as [|x a Hx HF IH]; intros acc; cbn [app js_digits]; [by rewrite Hc|]. unfold dec_val at 1 3. rewrite Hx. apply IH.
Qed.
Lemma js_parse_stop a x c t : decimal a x -> 1 <= x -> dec_val c = None -> c <> 120 -> c <> 88 -> js_parse_int (a ++ c :: t) = Some (Z.of_N x).
Proof.
  intros Ha Hx Hc H1 H2. pose proof (js_unsigned_digits _ _ Ha) as E. assert (F : all digit a) by (by apply all_digit; destruct Ha as (_ & ? & _)).
  assert (G : js_number 10 dec_val (a ++ c :: t) = Some x).
  { pose proof (port_digits_decimal _ _ Ha) as Ep. apply js_digits_parse in Ep. destruct Ha as (Hn & _ & _). destruct a as [|y a]; [done|]. inversion F as [|? ? Hy Fa]; subst. cbn [app js_number]. unfold dec_val at 1. rewrite Hy.
    f_equal. rewrite <- (js_digits_stop (y :: a) c t F Hc 0). done. }
  destruct Ha as (Hn & _ & _). destruct a as [|y a]; [done|]. inversion F as [|? ? Hy Fa]; subst. assert (G' : js_unsigned ((y :: a) ++ c :: t) = Some x).
  { unfold js_unsigned. cbn [app]. destruct (a ++ c :: t) as [|z u] eqn:Ez; [by destruct a|]. assert (Hz : z <> 120 /\ z <> 88).
    { destruct a as [|w a]; cbn in Ez; injection Ez as <- _; [done|]. inversion Fa as [|? ? Hw _]; subst. apply digit_iff in Hw. lia. }
    destruct Hz as [Hz1 Hz2]. destruct (N.eqb_spec z 120); [done|]. destruct (N.eqb_spec z 88); [done|]. rewrite andb_false_r, <- Ez. exact G. }
  apply digit_iff in Hy. unfold js_parse_int. cbn [app] in *. unfold DASH. destruct (N.eqb_spec y 45); [lia|]. destruct (N.eqb_spec y 43); [lia|]. by rewrite G'.
Qed.
(* a name of dot-separated labels *)
Inductive hostname : bytes -> Prop := Last l : l <> [] -> all label_char l -> hostname l | More l h : l <> [] -> all label_char l -> hostname h -> hostname (l ++ DOT :: h).
Lemma hostname_lang h : hostname h -> lang DOMAIN h.
Proof.
  induction 1 as [l Hn HF|l h Hn HF _ IH]; [apply (LCat _ _ [] l); [constructor|by apply lang_plus]|]. apply lang_cat in IH as (s1 & s2 & -> & H1 & H2).
  change (l ++ DOT :: s1 ++ s2) with (l ++ (DOT :: s1) ++ s2). rewrite app_assoc. constructor; [|done]. replace (l ++ DOT :: s1) with ((l ++ [DOT]) ++ s1) by (by rewrite <- app_assoc).
  constructor; [|done]. constructor; [by apply lang_plus|by apply lang_chr].
Qed.
Lemma hostname_hosty h : hostname h -> all hosty h.
Proof. intros H. apply hostname_lang in H. apply (lang_within hosty DOMAIN); [|done]. unfold DOMAIN, Plus, chr. cbn [within]. split_and!; cls. Qed.
Lemma lang_port d : d <> [] -> (length d <= 5)%nat -> all digit d -> lang PORT d.
Proof. intros Hn HL HF. apply lang_between; [lia|]. split; [done|]. destruct d; [done|]. cbn in *. lia. Qed.
(* A port of one to five digits, alone, behind a colon, or behind a host name and a colon, gets through, *)
Theorem C98_accepts_partial d p h : decimal d p -> (length d <= 5)%nat -> 1 <= p <= 65535 -> hostname h -> page_addr d = true /\ page_addr (COLON :: d) = true /\ page_addr (h ++ COLON :: d) = true.
Proof.
  intros Hd HL Hp Hh. assert (Cd := decimal_no COLON _ _ eq_refl Hd). assert (F : all digit d) by (by apply all_digit; destruct Hd as (_ & ? & _)). assert (Hn : d <> []) by (by destruct Hd). pose proof (lang_port d Hn HL F) as HP.
  assert (G : forall s, lang ADDR s -> last_part s = d -> page_addr s = true).
  { intros s H1 H2. unfold page_addr. apply rmatch_lang in H1. rewrite H1, H2, (js_parse_digits d p) by done. destruct (bool_decide (s = [])); [done|]. cbn. rewrite andb_true_iff, !Z.leb_le. lia. }
  pose proof (last_colon_app [] d Cd) as El. cbn [app] in El. split_and!; apply G.
  - change d with ([] ++ d). constructor; [|done]. apply (LCat _ _ [] []); apply LAlt2; constructor.
  - unfold last_part. by rewrite last_colon_none.
  - change (COLON :: d) with ([COLON] ++ d). constructor; [|done]. apply (LCat _ _ [] [COLON]); [apply LAlt2; constructor|apply LAlt1; by apply lang_chr].
  - unfold last_part. by rewrite El.
  - change (h ++ COLON :: d) with (h ++ [COLON] ++ d). rewrite app_assoc. constructor; [|done]. constructor; [|apply LAlt1; by apply lang_chr]. apply LAlt1, LAlt2, LAlt2. by apply hostname_lang.
  - unfold last_part. by rewrite last_colon_app.
Qed.
(* but so does an IPv4 address with no port at all if its last number has two digits, and the server ends instead of starting; *)
Theorem C98_address_refuted a b c d x y z w svc : decimal a x -> decimal b y -> decimal c z -> decimal d w -> 1 <= x <= 65535 -> (2 <= length d)%nat -> let s := a ++ DOT :: b ++ DOT :: c ++ DOT :: d in
  page_addr s = true /\ (svc s = None -> server_listen svc s = None).
Proof.
  intros Ha Hb Hc Hd Hx HL s. assert (A : forall t v, decimal t v -> t <> [] /\ all digit t /\ all label_char t).
  { intros t v (Hn & HF & _). split; [done|]. apply all_digit in HF. split; [done|]. eapply Forall_impl; [exact HF|]. cls. }
  destruct (A _ _ Ha) as (Na & Fa & La), (A _ _ Hb) as (Nb & Fb & Lb), (A _ _ Hc) as (Nc & Fc & Lc), (A _ _ Hd) as (Nd & Fd & _). destruct d as [|e d]; [done|]. inversion Fd as [|? ? He Fd']; subst.
  assert (Hh : hostname (a ++ DOT :: b ++ DOT :: c ++ DOT :: take (length d) (e :: d))).
  { constructor; [done..|]. constructor; [done..|]. constructor; [done..|]. constructor; [destruct d; [cbn in HL; lia|done]|]. apply Forall_take. eapply Forall_impl; [exact Fd|]. cls. }
  set (u := take (length d) (e :: d)) in *. set (v := drop (length d) (e :: d)). assert (Euv : e :: d = u ++ v) by (symmetry; apply (take_drop (length d) (e :: d))).
  assert (Fv : all digit v) by (by apply Forall_drop). assert (Lv : length v = 1%nat) by (unfold v; rewrite drop_length; cbn [length]; lia).
  assert (Es : s = (a ++ DOT :: b ++ DOT :: c ++ DOT :: u) ++ v) by (unfold s; rewrite Euv; repeat (rewrite <- app_assoc; cbn [app]); done).
  assert (Fs : all hosty s) by (rewrite Es; apply Forall_app; split; [by apply hostname_hosty|by apply digit_hosty]).
  assert (Cs : COLON ∉ s) by (by apply (in_all hosty)). assert (Ns : s <> []) by (unfold s; by destruct a). assert (Hp : page_addr s = true).
  { unfold page_addr. rewrite bool_decide_eq_false_2 by done. cbn [orb]. apply andb_true_iff. split.
    - apply rmatch_lang. rewrite Es. constructor; [|apply lang_port; [by destruct v|lia|done]]. rewrite <- (app_nil_r (a ++ _)). constructor; [apply LAlt1, LAlt2, LAlt2; by apply hostname_lang|apply LAlt2; constructor].
    - unfold last_part. rewrite last_colon_none by done. unfold s. rewrite (js_parse_stop a x) by (done || lia). rewrite andb_true_iff, !Z.leb_le. lia. }
  split; [done|]. apply C98_address; [done..|]. intros h p (t & Ht & [[-> E]|[(_ & _ & E)|(_ & E)]]).
  - apply (decimal_no DOT) in Ht; [|done]. apply Ht. rewrite <- E. unfold s. rewrite elem_of_app. right. by left.
  - apply Cs. rewrite E, elem_of_app. right. by left.
  - assert (LBRK ∉ s) by (by apply (in_all hosty)). apply H. rewrite E. by left.
Qed.
(* and a port alone, which the server takes, ends the client that is to listen there. *)
Theorem C98_forward_refuted d p svc : decimal d p -> (length d <= 5)%nat -> 1 <= p <= 65535 -> page_addr d = true /\ server_listen svc d = Some ([], p) /\ forward_listen svc d = None.
Proof.
  intros Hd HL Hp. assert (Cd := decimal_no COLON _ _ eq_refl Hd). split_and!.
  - by apply (C98_accepts_partial d p (bs "a")); try done; constructor; [|constructor].
  - apply address_listen; [|lia]. exists d. split; [done|by left].
  - unfold forward_listen, net_listen, split_host_port. by rewrite last_colon_none.
Qed.
(* Where the text is host:port or [host]:port, the client listens there as well. *)
Theorem C98_forward svc s h p : s <> [] -> page_addr s = true -> address s h p -> COLON ∈ s -> forward_listen svc s = Some (h, p).
Proof.
  intros Hn Hp Ha Hc. destruct (C98_address svc s Hn Hp) as [H _]. destruct (H _ _ Ha) as [E _]. unfold server_listen in E. by rewrite bool_decide_eq_true_2 in E.
Qed.
(* It refuses what gt takes: any free port (0, or none after the colon), a name with an underscore, a service by name, an address with a zone. *)
Theorem C98_refuses : let svc s := if bool_decide (s = bs "https") then Some 443 else None in
  (page_addr (bs ":0") = false /\ server_listen svc (bs ":0") = Some ([], 0)) /\ (page_addr (bs "localhost:") = false /\ server_listen svc (bs "localhost:") = Some (bs "localhost", 0)) /\ (page_addr (bs "my_host:80") = false /\ server_listen svc (bs "my_host:80") = Some (bs "my_host", 80)) /\
  (page_addr (bs ":https") = false /\ server_listen svc (bs ":https") = Some ([], 443)) /\ (page_addr (bs "[fe80::1%eth0]:80") = false /\ server_listen svc (bs "[fe80::1%eth0]:80") = Some (bs "fe80::1%eth0", 80)).
Proof. cbv zeta. apply (bool_decide_unpack _). vm_compute. exact I. Qed.
Theorem C98_witness : let svc := fun _ => None in
  (page_addr (bs "192.168.1.10") = true /\ server_listen svc (bs "192.168.1.10") = None) /\ page_addr (bs "192.168.1.1") = false /\
  (page_addr (bs "192.168.1.10:8080") = true /\ server_listen svc (bs "192.168.1.10:8080") = Some (bs "192.168.1.10", 8080)) /\
  (page_addr (bs "127.0.0.1.8080") = true /\ server_listen svc (bs "127.0.0.1.8080") = None) /\ (page_addr (bs "0x10") = true /\ server_listen svc (bs "0x10") = None) /\
  (page_addr (bs "[::1]:80") = true /\ server_listen svc (bs "[::1]:80") = Some (bs "::1", 80)) /\ (page_addr (bs "[::1]80") = true /\ server_listen svc (bs "[::1]80") = None) /\
  (page_addr (bs "8080") = true /\ server_listen svc (bs "8080") = Some ([], 8080) /\ forward_listen svc (bs "8080") = None) /\
  (page_range (bs "10-20") = true /\ port_range_str (bs "10-20") = Some (10, 20)) /\ (page_range (bs "20-10") = true /\ port_range_str (bs "20-10") = None) /\ (page_range (bs "80") = false /\ port_range_str (bs "80") = Some (80, 80)).
Proof. cbv zeta. apply (bool_decide_unpack _). vm_compute. exact I. Qed.
