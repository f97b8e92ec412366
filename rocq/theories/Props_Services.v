(* Props_Services.v -- C41 and C48: what the client makes of its command line and of a reload *)
From Verif Require Import GoBase GoBaseLemmas ServicesModel.
Local Open Scope N_scope.

(* ------------------------------------------------------------------ specification *)
(* the value of the last occurrence of an option among [os], as the user reads the command line *)
Definition given {A} (f : opt -> option A) (os : list opt) : option A := last (omap f os).
Definition not_local (o : opt) : Prop := as_local o = None.
(* the options before the first -local, then each -local with the options that follow it *)
Fixpoint groups (toks : list opt) : list opt * list (bytes * list opt) :=
  match toks with
  | [] => ([], [])
  | o :: toks => let '(pre, gs) := groups toks in
                 match o with
                 | OLocal u => ([], (u, pre) :: gs)
                 | _ => (o :: pre, gs)
                 end
  end.
(* with a single -local every option of the command line is about it *)
Definition services_of (toks : list opt) : list (bytes * list opt) :=
  match groups toks with
  | (pre, [(u, os)]) => [(u, pre ++ os)]
  | (_, gs) => gs
  end.
(* the service a -local and its options describe; [r] is what -remoteTCPRandom comes to *)
Definition described (parse : bytes -> option url) (r : list opt -> option bool) (g : bytes * list opt) (s : service) : Prop :=
  exists v, parse g.1 = Some v /\ sURL s = Some v /\
    sPort s = default 0 (given as_port g.2) /\
    sTimeout s = default 0%Z (given as_timeout g.2) /\
    sUseLocal s = default false (given as_uselocal g.2) /\
    sPrefix s = default [] (given as_prefix g.2) /\
    sRandom s = r g.2.
(* the documented defaults *)
Definition is_web (u : url) : Prop := uScheme u = B_http \/ uScheme u = B_https.
Definition finalized (id : bytes) (s t : service) : Prop :=
  exists u h, sURL s = Some u /\ sURL t = Some (mkUrl (uScheme u) h (uRest u)) /\
    (is_web u \/ uScheme u = B_tcp) /\
    (58 ∈ uHost u \/ uScheme u = B_tcp -> h = uHost u) /\
    (58 ∉ uHost u -> uScheme u = B_http -> h = uHost u ++ [58;56;48]) /\               (* ":80" *)
    (58 ∉ uHost u -> uScheme u = B_https -> h = uHost u ++ [58;52;52;51]) /\           (* ":443" *)
    sPort t = sPort s /\ sUseLocal t = sUseLocal s /\
    sTimeout t = (if bool_decide (sTimeout s = 0%Z) then 120000000000%Z else sTimeout s) /\
    sRandom t = Some (default (bool_decide (uScheme u = B_tcp /\ sPort s = 0)) (sRandom s)) /\
    (sPrefix s = [] /\ is_web u -> sPrefix t = id) /\
    (~ (sPrefix s = [] /\ is_web u) -> sPrefix t = sPrefix s).
(* the documented constraints on a finished service *)
Definition valid (t : service) : Prop :=
  (blen (sPrefix t) <= 200) /\
  forall u, sURL t = Some u -> uScheme u = B_tcp ->
    url_port (uHost u) <> [] /\ (sPort t <> 0 \/ sRandom t = Some true).
(* at most one web service may be left without a prefix *)
Definition defaulted (s : service) : Prop := sPrefix s = [] /\ exists u, sURL s = Some u /\ is_web u.
Definition one_default (l : list service) : Prop :=
  forall i j s t, l !! i = Some s -> l !! j = Some t -> defaulted s -> defaulted t -> i = j.
Definition distinct_prefixes (l : list service) : Prop :=
  forall i j s t, l !! i = Some s -> l !! j = Some t -> sPrefix s <> [] -> sPrefix s = sPrefix t -> i = j.
(* what the code makes of -remoteTCPRandom: given at all, it is the last value on the whole command line *)
Definition random_rule (toks os : list opt) : option bool :=
  match given as_random os with None => None | Some _ => given as_random toks end.

(* ------------------------------------------------------------------ proofs *)
Lemma collect_app {A} (f : opt -> option A) a : forall base b,
  collect f base (a ++ b) = collect f base a ++ collect f (base + blen a) b.
Proof.
  induction a as [|o a IH]; intros base b; cbn [collect app].
  - rewrite blen_nil, N.add_0_r. done.
  - rewrite blen_cons, IH. replace (base + 1 + blen a) with (base + (1 + blen a)) by lia.
    by destruct (f o).
Qed.
Lemma collect_pos {A} (f : opt -> option A) a : forall base,
  Forall (fun x => base < pPos x <= base + blen a) (collect f base a).
Proof.
  induction a as [|o a IH]; intros base; cbn [collect]; [done|].
  rewrite blen_cons. specialize (IH (base + 1)).
  assert (HW : Forall (fun x => base < pPos x <= base + (1 + blen a)) (collect f (base + 1) a)).
  { eapply Forall_impl; [exact IH|]. cbn. intros x Hx. lia. }
  destruct (f o); [constructor; [cbn; lia|exact HW]|exact HW].
Qed.
Lemma collect_values {A} (f : opt -> option A) a : forall base, pValue <$> collect f base a = omap f a.
Proof.
  induction a as [|o a IH]; intros base; cbn; [done|].
  destruct (f o); cbn; by rewrite ?IH.
Qed.
Lemma fill_app {A} b (xs : list (position A)) : forall acc ys, fill b acc (xs ++ ys) = fill b (fill b acc xs) ys.
Proof. induction xs as [|x xs IH]; intros acc ys; cbn [fill app]; [done|]. apply IH. Qed.
Lemma fill_none {A} b (xs : list (position A)) : forall acc, Forall (fun x => b (pPos x) = false) xs -> fill b acc xs = acc.
Proof. induction xs as [|x xs IH]; intros acc Hf; cbn [fill]; [done|]. inversion_clear Hf as [|? ? Hb Hr]. rewrite Hb. by apply IH. Qed.
Lemma fill_all {A} b (xs : list (position A)) : forall acc, Forall (fun x => b (pPos x) = true) xs ->
  fill b acc xs = default acc (last (pValue <$> xs)).
Proof.
  induction xs as [|x xs IH]; intros acc Hf; cbn [fill]; [done|]. inversion_clear Hf as [|? ? Hb Hr].
  rewrite Hb, IH by done. destruct xs as [|y xs]; [done|]. cbn [fmap list_fmap last].
  destruct (last_is_Some (pValue y :: (pValue <$> xs))) as [_ HL].
  destruct (HL ltac:(done)) as [z Hz]. rewrite Hz. done.
Qed.
Lemma existsb_none {A} b (xs : list (position A)) : Forall (fun x => b (pPos x) = false) xs -> existsb (fun x => b (pPos x)) xs = false.
Proof. induction 1 as [|x xs Hb _ IH]; cbn; [done|]. by rewrite Hb, IH. Qed.
Lemma existsb_all {A} b (xs : list (position A)) : Forall (fun x => b (pPos x) = true) xs ->
  existsb (fun x => b (pPos x)) xs = match xs with [] => false | _ => true end.
Proof. destruct 1 as [|x xs Hb _]; cbn; [done|]. by rewrite Hb. Qed.

(* the block of tokens [a; m; c] in which exactly the positions of [m] belong *)
Lemma fill_block {A} (f : opt -> option A) b base a m c acc :
  (forall p, p <= base + blen a -> b p = false) ->
  (forall p, base + blen a < p <= base + blen a + blen m -> b p = true) ->
  (forall p, base + blen a + blen m < p -> base + blen a + blen m + blen c >= p -> b p = false) ->
  fill b acc (collect f base (a ++ m ++ c)) = default acc (given f m).
Proof.
  intros H1 H2' H3. rewrite !collect_app, !fill_app.
  rewrite (fill_none _ (collect f (base + blen a + blen m) c)).
  { rewrite (fill_none _ (collect f base a)).
    - rewrite fill_all, collect_values; [done|].
      eapply Forall_impl; [apply collect_pos|]. cbn. intros x Hx. apply H2'; lia.
    - eapply Forall_impl; [apply collect_pos|]. cbn. intros x Hx. apply H1; lia. }
  eapply Forall_impl; [apply collect_pos|]. cbn. intros x Hx. apply H3; lia.
Qed.
Lemma last_fmap {A B} (f : A -> B) l : last (f <$> l) = f <$> last l.
Proof. induction l as [|x [|y l] IH]; [done|done|]. cbn [fmap list_fmap last] in *. apply IH. Qed.
Lemma random_block b base a m c :
  (forall p, p <= base + blen a -> b p = false) ->
  (forall p, base + blen a < p <= base + blen a + blen m -> b p = true) ->
  (forall p, base + blen a + blen m < p -> base + blen a + blen m + blen c >= p -> b p = false) ->
  fill_random b (collect as_random base (a ++ m ++ c)) = random_rule (a ++ m ++ c) m.
Proof.
  intros H1 H2' H3. unfold fill_random, random_rule, given.
  rewrite <- last_fmap, collect_values. rewrite !collect_app, !existsb_app.
  rewrite (existsb_none b (collect as_random base a)), (existsb_none b (collect as_random (base + blen a + blen m) c)), existsb_all.
  - cbn [orb]. rewrite orb_false_r. rewrite <- (collect_values as_random m (base + blen a)).
    destruct (collect as_random (base + blen a) m) as [|x xs] eqn:E; [done|].
    destruct (last_is_Some (pValue <$> x :: xs)) as [_ HL]. destruct (HL ltac:(done)) as [z ->]. done.
  - eapply Forall_impl; [apply collect_pos|]. cbn. intros x Hx. apply H2'; lia.
  - eapply Forall_impl; [apply collect_pos|]. cbn. intros x Hx. apply H3; lia.
  - eapply Forall_impl; [apply collect_pos|]. cbn. intros x Hx. apply H1; lia.
Qed.

Lemma groups_split rest : forall B, exists tl,
  rest = (groups rest).1 ++ tl /\
  pPos <$> head (collect as_local B rest) = match tl with [] => None | _ => Some (B + blen (groups rest).1 + 1) end.
Proof.
  induction rest as [|o rest IH]; intros B; [by exists []|].
  destruct (IH (B + 1)) as (tl & E1 & E2). destruct (groups rest) as [pre gs] eqn:EG. cbn [fst] in E1, E2.
  assert (HN : as_local o = None -> exists tl0, o :: rest = (o :: pre) ++ tl0 /\
    pPos <$> head (collect as_local B (o :: rest)) = match tl0 with [] => None | _ => Some (B + blen (o :: pre) + 1) end).
  { intros HL. exists tl. split; [cbn; by rewrite <- E1|]. cbn [collect]. rewrite HL, E2, blen_cons.
    destruct tl; [done|]. f_equal. lia. }
  cbn [groups]. rewrite EG. destruct o; try exact (HN eq_refl).
  exists (OLocal u :: rest). split; [done|]. cbn [collect as_local fst head fmap option_fmap option_map pPos]. rewrite blen_nil. f_equal. lia.
Qed.

Lemma multi_block parse id file base rest : forall a all,
  all = a ++ rest -> forall vs,
  fill_services parse (cmdline id file base all) false (collect as_local (base + blen a) rest) = Some vs <->
  Forall2 (described parse (random_rule all)) (groups rest).2 vs.
Proof.
  induction rest as [|o rest IH]; intros a all Eall vs.
  { cbn. split; [by intros [= <-]|]. intros HF. inversion HF. done. }
  assert (HS : collect as_local (base + blen a + 1) rest = collect as_local (base + blen (a ++ [o])) rest)
    by (f_equal; rewrite blen_app, blen_one; lia).
  specialize (IH (a ++ [o]) all). rewrite <- app_assoc in IH. specialize (IH Eall).
  destruct (groups rest) as [pre gs] eqn:EG. cbn [snd] in IH.
  assert (HN : as_local o = None ->
    fill_services parse (cmdline id file base all) false (collect as_local (base + blen a) (o :: rest)) = Some vs <->
    Forall2 (described parse (random_rule all)) gs vs).
  { intros HL. cbn [collect]. rewrite HL, HS. apply IH. }
  cbn [groups]. rewrite EG. destruct o; try exact (HN eq_refl). clear HN.
  cbn [collect as_local snd]. rewrite HS.
  destruct (groups_split rest (base + blen a + 1)) as (tl & E1 & E2). rewrite EG in E1, E2. cbn [fst] in E1, E2.
  rewrite HS in E2.
  cbn [fill_services pValue pPos]. rewrite E2.
  set (b := belongs false (base + blen a + 1) _).
  assert (Eall' : all = (a ++ [OLocal u]) ++ pre ++ tl) by (rewrite Eall, E1, <- app_assoc; done).
  assert (Hla : blen (a ++ [OLocal u]) = blen a + 1) by (rewrite blen_app, blen_one; lia).
  assert (B1 : forall p, p <= base + blen (a ++ [OLocal u]) -> b p = false).
  { intros p Hp. rewrite Hla in Hp. subst b. unfold belongs. cbn [orb].
    destruct (N.ltb_spec (base + blen a + 1) p); [lia|]. done. }
  assert (B2 : forall p, base + blen (a ++ [OLocal u]) < p <= base + blen (a ++ [OLocal u]) + blen pre -> b p = true).
  { intros p Hp. rewrite Hla in Hp. subst b. unfold belongs. cbn [orb].
    destruct (N.ltb_spec (base + blen a + 1) p); [|lia]. cbn [andb]. destruct tl; [done|]. apply N.ltb_lt. lia. }
  assert (B3 : forall p, base + blen (a ++ [OLocal u]) + blen pre < p ->
            base + blen (a ++ [OLocal u]) + blen pre + blen tl >= p -> b p = false).
  { intros p Hp Hq. rewrite Hla in Hp, Hq. subst b. unfold belongs. cbn [orb].
    destruct tl; [rewrite blen_nil in Hq; lia|]. apply andb_false_iff. right. apply N.ltb_ge. lia. }
  cbn [cmdline cPrefix cPort cRandom cTimeout cUseLocal].
  assert (FB : forall A (f : opt -> option A) acc, fill b acc (collect f base all) = default acc (given f pre)).
  { intros A f acc. rewrite Eall'. by apply fill_block. }
  assert (FR : fill_random b (collect as_random base all) = random_rule all pre).
  { rewrite Eall'. by apply random_block. }
  rewrite !FB, FR.
  split.
  - destruct (parse u) as [v|] eqn:EP; [|done].
    destruct (fill_services _ _ _ _) as [r|] eqn:EF; [|done]. intros [= <-].
    constructor; [|by apply IH]. exists v. by cbn.
  - intros HF. inversion HF as [|g s gs0 vs0 HD HR]; subst. apply IH in HR.
    destruct HD as (v & EP & D1 & D2 & D3 & D4 & D5 & D6). cbn [fst snd] in *. rewrite EP, HR.
    destruct s; cbn in *. by subst.
Qed.

Lemma groups_count toks : forall B, length (collect as_local B toks) = length (groups toks).2.
Proof.
  induction toks as [|o toks IH]; intros B; [done|]. cbn [groups collect]. specialize (IH (B+1)).
  destruct (groups toks) as [pre gs]. destruct o; cbn in *; by rewrite ?IH.
Qed.
Lemma groups_none toks pre : groups toks = (pre, []) -> pre = toks /\ omap as_local toks = [].
Proof.
  revert pre. induction toks as [|o toks IH]; intros pre; cbn [groups].
  - intros [= <-]. done.
  - destruct (groups toks) as [p gs]. destruct o; intros [= <- HE]; subst; destruct (IH _ eq_refl) as [-> HL]; done.
Qed.
Lemma groups_single toks pre u os : groups toks = (pre, [(u, os)]) -> toks = pre ++ OLocal u :: os /\ omap as_local pre = [] /\ omap as_local os = [].
Proof.
  revert pre. induction toks as [|o toks IH]; intros pre; cbn [groups]; [done|].
  destruct (groups toks) as [p gs] eqn:EG. destruct o; intros [= <- HE]; subst;
    try (destruct (IH _ eq_refl) as (-> & HL1 & HL2); done).
  destruct (groups_none toks os EG) as [-> HL]. done.
Qed.
Lemma given_skip {A} (f : opt -> option A) pre u os : f (OLocal u) = None -> given f (pre ++ OLocal u :: os) = given f (pre ++ os).
Proof. intros HF. unfold given. rewrite !omap_app. cbn. by rewrite HF. Qed.
Lemma always_fill {A} b (f : opt -> option A) base all acc : (forall p, b p = true) -> fill b acc (collect f base all) = default acc (given f all).
Proof.
  intros Hb. unfold given. rewrite <- (collect_values f all base). apply fill_all. apply Forall_forall. auto.
Qed.

Lemma fill_exact parse id file base toks vs :
  fill_services parse (cmdline id file base toks) (length (collect as_local base toks) =? 1)%nat (collect as_local base toks) = Some vs <->
  Forall2 (described parse (random_rule toks)) (services_of toks) vs.
Proof.
  rewrite groups_count. unfold services_of.
  pose proof (multi_block parse id file base toks [] toks eq_refl vs) as HM. rewrite blen_nil, N.add_0_r in HM.
  destruct (groups toks) as [pre gs] eqn:EG. cbn [snd] in *.
  destruct gs as [|[u os] [|g gs]]; cbn [length Nat.eqb]; [exact HM| |destruct g; exact HM].
  clear HM. destruct (groups_single _ _ _ _ EG) as (Et & HP & HO).
  assert (EL : collect as_local base toks = [mkPos u (base + blen pre + 1)]).
  { rewrite Et, collect_app. cbn [collect as_local].
    assert (HZ : forall l B, omap as_local l = [] -> collect as_local B l = []).
    { intros l B HZ. rewrite <- (collect_values as_local l B) in HZ. by apply fmap_nil_inv in HZ. }
    rewrite !HZ by done. done. }
  rewrite EL. cbn [fill_services pValue pPos head fmap option_fmap option_map].
  set (b := belongs true _ _). assert (Hb : forall p, b p = true) by done.
  cbn [cmdline cPrefix cPort cRandom cTimeout cUseLocal].
  rewrite !always_fill by done.
  assert (FR : fill_random b (collect as_random base toks) = random_rule toks (pre ++ os)).
  { unfold fill_random, random_rule. rewrite <- (given_skip as_random pre u os) by done. rewrite <- Et.
    unfold given. rewrite <- last_fmap, existsb_all by (apply Forall_forall; auto). rewrite collect_values.
    destruct (collect as_random base toks) as [|x xs] eqn:E.
    - rewrite <- (collect_values as_random toks base), E. done.
    - rewrite <- (collect_values as_random toks base), E.
      destruct (last_is_Some (pValue <$> x :: xs)) as [_ HL]. destruct (HL ltac:(done)) as [z ->]. done. }
  rewrite FR. rewrite Et, !given_skip by done. rewrite <- Et.
  split.
  - destruct (parse u) as [v|] eqn:EP; [|done]. intros [= <-]. constructor; [|constructor]. exists v. by cbn.
  - intros HF. inversion HF as [|g s gs0 vs0 HD HR]; subst. inversion HR; subst.
    destruct HD as (v & EP & D1 & D2 & D3 & D4 & D5 & D6). cbn [fst snd] in *. rewrite EP.
    destruct s; cbn in *. by subst.
Qed.

Lemma beqb_spec a b : beqb a b = true <-> a = b.
Proof. unfold beqb. apply bool_decide_eq_true. Qed.
Lemma beqb_false a b : beqb a b = false <-> a <> b.
Proof. unfold beqb. apply bool_decide_eq_false. Qed.
Lemma has_colon_spec h : has_colon h = true <-> 58 ∈ h.
Proof.
  unfold has_colon. rewrite existsb_exists. split.
  - intros (x & Hx & E). apply N.eqb_eq in E. subst x. by apply elem_of_list_In.
  - intros Hx. exists 58. split; [by apply elem_of_list_In|done].
Qed.

Lemma finish1_spec id used s t used' :
  finish1 id used s = inl (t, used') <->
  finalized id s t /\ valid t /\ (used = true -> ~ defaulted s) /\ (used' = true <-> used = true \/ defaulted s).
Proof.
  unfold finish1. destruct (sURL s) as [u|] eqn:EU; [|].
  2:{ split; [done|]. intros ((u & h & E & _) & _). rewrite EU in E. done. }
  assert (HW : (beqb (uScheme u) B_http || beqb (uScheme u) B_https = true) <-> is_web u).
  { rewrite orb_true_iff, !beqb_spec. done. }
  set (web := beqb (uScheme u) B_http || beqb (uScheme u) B_https) in *.
  assert (HDf : (web && beqb (sPrefix s) [] = true) <-> defaulted s).
  { rewrite andb_true_iff, beqb_spec, HW. unfold defaulted. rewrite EU. split.
    - intros [? ?]. eauto.
    - intros (? & u0 & [= <-] & ?). done. }
  set (dflt := web && beqb (sPrefix s) []) in *.
  set (rnd := match sRandom s with Some b => b | None => _ end).
  assert (HR : rnd = default (bool_decide (uScheme u = B_tcp /\ sPort s = 0)) (sRandom s)).
  { subst rnd. destruct (sRandom s); [done|]. cbn. apply eq_bool_prop_intro. rewrite !Is_true_true, bool_decide_eq_true, andb_true_iff, beqb_spec, N.eqb_eq. done. }
  set (tmo := if Z.eqb (sTimeout s) 0 then _ else _).
  assert (HT : tmo = if bool_decide (sTimeout s = 0%Z) then 120000000000%Z else sTimeout s).
  { subst tmo. destruct (Z.eqb_spec (sTimeout s) 0); [rewrite bool_decide_true by done|rewrite bool_decide_false by done]; done. }
  clearbody rnd tmo.
  assert (HU : forall v, (used || dflt = v) <-> (v = true <-> used = true \/ defaulted s)).
  { intros v. rewrite <- HDf. destruct used, dflt, v; cbn; intuition congruence. }
  set (pfx := if dflt then id else sPrefix s).
  assert (HP1 : sPrefix s = [] /\ is_web u -> pfx = id).
  { intros HX. subst pfx. replace dflt with true; [done|]. symmetry. apply HDf. destruct HX. split; eauto. }
  assert (HP2 : ~ (sPrefix s = [] /\ is_web u) -> pfx = sPrefix s).
  { intros HX. subst pfx. destruct dflt eqn:ED; [|done]. exfalso. apply HX. destruct (proj1 HDf eq_refl) as (? & u0 & E0 & ?). rewrite EU in E0. by injection E0 as <-. }
  clearbody pfx.
  assert (HUsed : (dflt && used = false) <-> (used = true -> ~ defaulted s)).
  { rewrite <- HDf. destruct dflt, used; cbn; intuition congruence. }
  destruct (dflt && used) eqn:EDU.
  { split; [done|]. intros (_ & _ & HX & _). apply HUsed in HX. done. }
  assert (HX : used = true -> ~ defaulted s) by (apply HUsed; done). clear HUsed EDU.
  assert (HC : (0 <? blen pfx) && ((blen pfx <? minHostPrefixSize) || (maxHostPrefixSize <? blen pfx)) = false <-> blen pfx <= 200).
  { unfold minHostPrefixSize, maxHostPrefixSize.
    destruct (N.ltb_spec 0 (blen pfx)), (N.ltb_spec (blen pfx) 1), (N.ltb_spec 200 (blen pfx)); cbn; split; intros; try done; try lia. }
  clearbody dflt web.
  assert (HCheck : forall h, let t0 := mkSvc pfx (sPort s) (Some rnd) (Some (mkUrl (uScheme u) h (uRest u))) tmo (sUseLocal s) in
    (is_web u \/ uScheme u = B_tcp) ->
    (58 ∈ uHost u \/ uScheme u = B_tcp -> h = uHost u) ->
    (58 ∉ uHost u -> uScheme u = B_http -> h = uHost u ++ [58;56;48]) ->
    (58 ∉ uHost u -> uScheme u = B_https -> h = uHost u ++ [58;52;52;51]) ->
    (uScheme u = B_tcp -> url_port h <> [] /\ (sPort s <> 0 \/ rnd = true)) ->
    (if (0 <? blen pfx) && ((blen pfx <? minHostPrefixSize) || (maxHostPrefixSize <? blen pfx))
     then inr (inl EPrefixSize) else inl (t0, used || dflt)) = (inl (t, used') : (service * bool) + (perr + unit)) <->
    finalized id s t /\ valid t /\ (used = true -> ~ defaulted s) /\ (used' = true <-> used = true \/ defaulted s)).
  { intros h t0 K1 K2 K3 K4 K5. split.
    - destruct (_ && _) eqn:EC; [done|]. intros [= <- <-].
      split; [|split; [|split; [exact HX|by apply HU]]].
      + exists u, h. cbn. rewrite <- HR, <- HT. repeat (split; [done|]). done.
      + split; [by apply HC|]. cbn. intros u0 [= <-] ES. cbn in *. destruct (K5 ES) as [? [?|Hr]]; [auto|rewrite Hr; auto].
    - intros ((u0 & h0 & F1 & F2 & F3 & F4 & F5 & F6 & F7 & F8 & F9 & F10 & F11 & F12) & [V1 V2] & _ & HU2).
      rewrite EU in F1. injection F1 as <-.
      assert (h0 = h) as ->.
      { destruct (decide (58 ∈ uHost u)) as [Hi|Hi]; [rewrite F4, K2 by auto; done|].
        destruct K1 as [[KW|KW]|KW]; [rewrite F5, K3 by auto; done|rewrite F6, K4 by auto; done|rewrite F4, K2 by auto; done]. }
      assert (sPrefix t = pfx) as EPf.
      { destruct (decide (sPrefix s = [])) as [Hn|Hn].
        - destruct K1 as [KW|KW].
          + rewrite HP1, F11 by auto. done.
          + assert (~ is_web u) by (intros [W|W]; rewrite KW in W; done). rewrite HP2, F12 by tauto. done.
        - rewrite HP2, F12 by tauto. done. }
      destruct (_ && _) eqn:EC.
      { exfalso. rewrite EPf in V1. pose proof (proj2 HC V1) as V3. congruence. }
      f_equal. f_equal; [|by apply HU]. subst t0. rewrite HT, HR, <- F8, <- F9, <- F7, <- F2, <- EPf.
      destruct t; cbn in *. by subst. }
  destruct (beqb (uScheme u) B_http) eqn:E1.
  { apply beqb_spec in E1.
    apply HCheck.
    - left. by left.
    - intros [K|K]; [|rewrite K in E1; done]. apply has_colon_spec in K. by rewrite K.
    - intros K _. destruct (has_colon (uHost u)) eqn:EH; [|done]. apply has_colon_spec in EH. done.
    - intros _ K. rewrite K in E1. done.
    - intros K. rewrite K in E1. done. }
  destruct (beqb (uScheme u) B_https) eqn:E2.
  { apply beqb_spec in E2. apply beqb_false in E1.
    apply HCheck.
    - left. by right.
    - intros [K|K]; [|rewrite K in E2; done]. apply has_colon_spec in K. by rewrite K.
    - done.
    - intros K _. destruct (has_colon (uHost u)) eqn:EH; [|done]. apply has_colon_spec in EH. done.
    - intros K. rewrite K in E2. done. }
  destruct (beqb (uScheme u) B_tcp) eqn:E3.
  2:{ split; [done|]. apply beqb_false in E1, E2, E3. intros ((u0 & h0 & F1 & F2 & F3 & _) & _). rewrite EU in F1. injection F1 as <-.
      destruct F3 as [[F3|F3]|F3]; done. }
  apply beqb_spec in E3. apply beqb_false in E1, E2.
  assert (HBad : forall e, ~ (url_port (uHost u) <> [] /\ (sPort s <> 0 \/ rnd = true)) ->
    inr e = (inl (t, used') : (service * bool) + (perr + unit)) <->
    finalized id s t /\ valid t /\ (used = true -> ~ defaulted s) /\ (used' = true <-> used = true \/ defaulted s)).
  { intros e Hb. split; [done|].
    intros ((u0 & h0 & F1 & F2 & F3 & F4 & F5 & F6 & F7 & F8 & F9 & F10 & F11 & F12) & [V1 V2] & _).
    rewrite EU in F1. injection F1 as <-. exfalso. apply Hb.
    destruct (V2 _ F2 E3) as [P1 P2]. cbn in P1. rewrite F4 in P1 by auto. split; [exact P1|].
    rewrite F7 in P2. destruct P2 as [P2|P2]; [by left|right]. rewrite F10 in P2. injection P2 as P2. rewrite HR. exact P2. }
  destruct (beqb (url_port (uHost u)) []) eqn:E4.
  { apply HBad. intros [K _]. apply beqb_spec in E4. done. }
  apply beqb_false in E4.
  destruct ((sPort s =? 0) && negb rnd) eqn:E5.
  { apply HBad. intros [_ [K|K]]; apply andb_true_iff in E5; destruct E5 as [E5 E6]; [apply N.eqb_eq in E5; done|by rewrite K in E6]. }
  apply andb_false_iff in E5.
  apply HCheck; [by right|done|intros; congruence|intros; congruence|].
  intros _. split; [exact E4|]. destruct E5 as [E5|E5]; [left; by apply N.eqb_neq in E5|right; by destruct rnd].
Qed.

Lemma finish_spec id l : forall used r,
  finish id used l = inl r <->
  Forall2 (finalized id) l r /\ Forall valid r /\ (used = true -> Forall (fun s => ~ defaulted s) l) /\ one_default l.
Proof.
  induction l as [|s l IH]; intros used r; cbn [finish].
  - split.
    + intros [= <-]. split; [done|]. split; [done|]. split; [done|]. intros i j s t E. done.
    + intros (HF & _). by inversion HF.
  - split.
    + destruct (finish1 id used s) as [[t used']|] eqn:E1; [|done].
      destruct (finish id used' l) as [r0|] eqn:E2; [|done]. intros [= <-].
      apply finish1_spec in E1. destruct E1 as (A1 & A2 & A3 & A4). apply IH in E2. destruct E2 as (B1 & B2 & B3 & B4).
      split; [by constructor|]. split; [by constructor|]. split.
      * intros ->. constructor; [by apply A3|]. apply B3. apply A4. by left.
      * intros [|i] [|j] x y Ex Ey Dx Dy; cbn in Ex, Ey; [done| | |].
        -- injection Ex as <-. exfalso. assert (HU : used' = true) by (apply A4; by right). specialize (B3 HU).
           rewrite Forall_lookup in B3. by eapply B3.
        -- injection Ey as <-. exfalso. assert (HU : used' = true) by (apply A4; by right). specialize (B3 HU).
           rewrite Forall_lookup in B3. by eapply B3.
        -- f_equal. by eapply B4.
    + intros (HF & HV & HU & HO). inversion HF as [|s0 t l0 r0 HD HR]; subst. inversion_clear HV as [|? ? V1 V2].
      assert (Hdec : defaulted s \/ ~ defaulted s).
      { unfold defaulted, is_web. destruct (sURL s) as [u|]; [|right; by intros (? & ? & ? & ?)].
        destruct (decide (sPrefix s = [])); [|right; by intros []].
        destruct (decide (uScheme u = B_http \/ uScheme u = B_https)); [left; eauto|right; by intros (_ & ? & [= <-] & ?)]. }
      assert (exists used', finish1 id used s = inl (t, used') /\ (used' = true <-> used = true \/ defaulted s)) as (used' & E1 & A4).
      { destruct Hdec as [Hd|Hd].
        - exists true. assert (HQ : true = true <-> used = true \/ defaulted s) by tauto. split; [|exact HQ]. apply finish1_spec.
          split; [done|]. split; [done|]. split; [|exact HQ]. intros Hu. specialize (HU Hu). by inversion HU.
        - exists used. assert (HQ : used = true <-> used = true \/ defaulted s) by tauto. split; [|exact HQ]. apply finish1_spec. by split. }
      rewrite E1. assert (E2 : finish id used' l = inl r0).
      { apply IH. split; [done|]. split; [done|]. split.
        - intros Hu. apply A4 in Hu. destruct Hu as [Hu|Hd]; [specialize (HU Hu); by inversion HU|].
          apply Forall_lookup. intros i x Ex Hx. specialize (HO 0%nat (S i) s x eq_refl Ex Hd Hx). done.
        - intros i j x y Ex Ey Dx Dy. specialize (HO (S i) (S j) x y Ex Ey Dx Dy). by injection HO. }
      by rewrite E2.
Qed.

Lemma duplicated_spec l : duplicated l = false <-> distinct_prefixes l.
Proof.
  induction l as [|s l IH]; cbn [duplicated].
  - split; [|done]. intros _ i j s t E. done.
  - rewrite orb_false_iff, IH. split.
    + intros [H1 HD] [|i] [|j] x y Ex Ey Hn He; cbn in Ex, Ey; [done| | |].
      * injection Ex as <-. exfalso. apply andb_false_iff in H1. destruct H1 as [H1|H1].
        { apply N.ltb_ge in H1. apply Hn. apply blen_0. lia. }
        assert (HX : existsb (fun t => beqb (sPrefix s) (sPrefix t)) l = true); [|by rewrite HX in H1].
        apply existsb_exists. exists y. split; [apply elem_of_list_In; by eapply elem_of_list_lookup_2|by apply beqb_spec].
      * injection Ey as <-. exfalso. apply andb_false_iff in H1. rewrite He in Hn. destruct H1 as [H1|H1].
        { apply N.ltb_ge in H1. apply Hn. apply blen_0. lia. }
        assert (HX : existsb (fun t => beqb (sPrefix s) (sPrefix t)) l = true); [|by rewrite HX in H1].
        apply existsb_exists. exists x. split; [apply elem_of_list_In; by eapply elem_of_list_lookup_2|by apply beqb_spec].
      * f_equal. by eapply HD.
    + intros HD. split.
      * apply andb_false_iff. destruct (N.ltb_spec 0 (blen (sPrefix s))) as [Hl|Hl]; [right|by left].
        destruct (existsb _ l) eqn:EX; [|done]. apply existsb_exists in EX. destruct EX as (y & Hy & E).
        apply elem_of_list_In, elem_of_list_lookup in Hy. destruct Hy as [j Hj]. apply beqb_spec in E.
        assert (0%nat = S j); [|done]. eapply (HD 0%nat (S j) s y); try done. intros Z. rewrite Z in Hl. cbn in Hl. lia.
      * intros i j x y Ex Ey Hn He. specialize (HD (S i) (S j) x y Ex Ey Hn He). by injection HD.
Qed.

(* ------------------------------------------------------------------ C41 *)
(* Exactly which command lines and files are accepted and what becomes of them, for every option list, every file, every
   url parser.  The only departure from what the options say is [random_rule]. *)
Theorem C41_exactly parse id file base toks r :
  parseServices parse (cmdline id file base toks) = Accepted r <->
  exists vs, Forall2 (described parse (random_rule toks)) (services_of toks) vs /\
    Forall2 (finalized id) (vs ++ file) r /\ Forall valid r /\ one_default (vs ++ file) /\ distinct_prefixes r.
Proof.
  unfold parseServices. cbn [cmdline cLocal cID cServices].
  pose proof (fill_exact parse id file base toks) as HFE. unfold cmdline in HFE.
  set (fs := fill_services _ _ _ _) in *. destruct fs as [vs|] eqn:EF.
  - assert (HV : forall vs', Forall2 (described parse (random_rule toks)) (services_of toks) vs' <-> vs' = vs).
    { intros vs'. rewrite <- HFE. split; [by intros [= ->]|by intros ->]. }
    pose proof (finish_spec id (vs ++ file) false) as HFS.
    split.
    + destruct (finish id false (vs ++ file)) as [r0|[e|[]]] eqn:E; try done.
      destruct (duplicated r0) eqn:ED; [done|]. intros [= <-]. exists vs.
      apply HFS in E || destruct (proj1 (HFS r0) eq_refl) as (A1 & A2 & A3 & A4).
      split; [by apply HV|]. split; [done|]. split; [done|]. split; [done|]. by apply duplicated_spec.
    + intros (vs' & H1 & HD & H3 & H4 & H5). apply HV in H1. subst vs'.
      assert (E : finish id false (vs ++ file) = inl r) by (apply HFS; done). rewrite E.
      apply duplicated_spec in H5. by rewrite H5.
  - split; [done|]. intros (vs & H1 & _). apply HFE in H1. done.
Qed.

(* the same, read off one -local: the options attached to it are those that follow it, up to the next -local *)
Theorem C41_attached parse id file base pre u os post r :
  parseServices parse (cmdline id file base (pre ++ OLocal u :: os ++ post)) = Accepted r ->
  Forall not_local os -> (post = [] \/ exists v post', post = OLocal v :: post') ->
  omap as_local (pre ++ post) <> [] ->                          (* there is another -local *)
  exists s t, r !! length (omap as_local pre) = Some t /\ finalized id s t /\
    described parse (random_rule (pre ++ OLocal u :: os ++ post)) (u, os) s.
Proof.
  intros HP HN Hpost Hmore. apply C41_exactly in HP. destruct HP as (vs & H1 & HD & _).
  set (toks := pre ++ OLocal u :: os ++ post) in *.
  assert (EO : forall l gs p, groups post = (p, gs) -> p = [] -> Forall not_local l -> groups (l ++ post) = (l, gs)).
  { intros l gs p EG -> Hl. induction Hl as [|o l Ho Hl IH]; cbn [groups app]; [done|]. rewrite IH.
    unfold not_local in Ho. by destruct o. }
  destruct (groups post) as [p gs] eqn:EG.
  assert (p = []) as ->.
  { destruct Hpost as [->|(v & post' & ->)]; cbn in EG; [by injection EG|]. destruct (groups post'). by injection EG. }
  specialize (EO os gs [] eq_refl eq_refl HN).
  assert (HG : exists gp, (groups toks).2 = gp ++ (u, os) :: gs /\ length gp = length (omap as_local pre)).
  { subst toks. clear -EO. induction pre as [|o pre IH]; cbn [app groups].
    - rewrite EO. by exists [].
    - destruct (groups (pre ++ OLocal u :: os ++ post)) as [q gq] eqn:EQ. cbn [snd] in IH.
      destruct IH as (gp & -> & HL). destruct o; try (exists gp; split; [done|exact HL]).
      exists ((u0, q) :: gp). cbn. by rewrite HL. }
  destruct HG as (gp & HG & HL).
  assert (HS : services_of toks = (groups toks).2).
  { unfold services_of. destruct (groups toks) as [q gq]. cbn [snd] in HG. subst gq.
    destruct gp as [|g gp]; cbn [app].
    - destruct gs; [|done]. exfalso. apply Hmore. rewrite omap_app.
      assert (omap as_local pre = []) as -> by (destruct (omap as_local pre); done). cbn.
      destruct Hpost as [->|(v & post' & ->)]; [done|]. cbn in EG. destruct (groups post'). done.
    - destruct g, gp; done. }
  rewrite HS, HG in H1.
  assert (Hlk : (gp ++ (u, os) :: gs) !! length (omap as_local pre) = Some (u, os)).
  { rewrite <- HL. by apply list_lookup_middle. }
  destruct (Forall2_lookup_l _ _ _ _ _ H1 Hlk) as (s & Hs & Hdesc).
  assert (Hs' : (vs ++ file) !! length (omap as_local pre) = Some s) by (by apply lookup_app_l_Some).
  destruct (Forall2_lookup_l _ _ _ _ _ HD Hs') as (t & Ht & Hfin).
  exists s, t. done.
Qed.

(* order and number: one service per -local, in order, then those of the file *)
Theorem C41_order parse id file base toks r :
  parseServices parse (cmdline id file base toks) = Accepted r ->
  length r = (length (omap as_local toks) + length file)%nat /\
  forall i s, file !! i = Some s -> exists t, r !! (length (omap as_local toks) + i)%nat = Some t /\ finalized id s t.
Proof.
  intros HP. apply C41_exactly in HP. destruct HP as (vs & H1 & HD & _).
  assert (HL : length vs = length (omap as_local toks)).
  { rewrite <- (Forall2_length _ _ _ H1). unfold services_of.
    assert (HC : length (groups toks).2 = length (omap as_local toks)).
    { rewrite <- (groups_count toks 0), <- (collect_values as_local toks 0), fmap_length. done. }
    destruct (groups toks) as [p gs]. cbn [snd] in HC. rewrite <- HC. by destruct gs as [|[? ?] [|[? ?] ?]]. }
  split.
  - rewrite <- (Forall2_length _ _ _ HD), app_length, HL. done.
  - intros i s Hi. apply (Forall2_lookup_l _ _ _ _ _ HD). rewrite <- HL. rewrite lookup_app_r by lia.
    by replace (length vs + i - length vs)%nat with i by lia.
Qed.

(* the accepted list satisfies the constraints: known schemes, tcp ports, prefix sizes, distinct prefixes, nothing left unset *)
Theorem C41_constraints parse id file base toks r :
  parseServices parse (cmdline id file base toks) = Accepted r ->
  distinct_prefixes r /\
  Forall (fun t => valid t /\ is_Some (sRandom t) /\ sTimeout t <> 0%Z /\
    exists u, sURL t = Some u /\ (is_web u \/ uScheme u = B_tcp) /\ (id <> [] -> is_web u -> sPrefix t <> [])) r.
Proof.
  intros HP. apply C41_exactly in HP. destruct HP as (vs & H1 & HD & HV & HO & HX). split; [exact HX|].
  apply Forall_lookup. intros i t Ht. destruct (Forall2_lookup_r _ _ _ _ _ HD Ht) as (s & Hs & u & h & F1 & F2 & F3 & F4 & F5 & F6 & F7 & F8 & F9 & F10 & F11 & F12).
  rewrite Forall_lookup in HV. split; [by eapply HV|]. rewrite F10, F9. split; [eauto|]. split.
  { destruct (decide (sTimeout s = 0%Z)); [rewrite bool_decide_true by done; lia|rewrite bool_decide_false by done; done]. }
  exists (mkUrl (uScheme u) h (uRest u)). split; [done|]. split; [exact F3|]. unfold is_web; cbn. intros Hid HW.
  destruct (decide (sPrefix s = [])) as [Hn|Hn]; [by rewrite F11 by done|]. rewrite F12; [done|]. by intros [? _].
Qed.

(* -remoteTCPRandom is attached properly when all its occurrences agree *)
Theorem C41_random_partial toks os :
  (forall b b', ORandom b ∈ toks -> ORandom b' ∈ toks -> b = b') -> (forall o, o ∈ os -> o ∈ toks) ->
  random_rule toks os = given as_random os.
Proof.
  intros HA HS. unfold random_rule. destruct (given as_random os) as [b|] eqn:E; [|done].
  assert (Hin : forall l b, given as_random l = Some b -> ORandom b ∈ l).
  { intros l b0 E0. unfold given in E0. apply last_Some in E0. destruct E0 as [l' E0].
    assert (Hb : b0 ∈ omap as_random l) by (rewrite E0; set_solver).
    apply elem_of_list_omap in Hb. destruct Hb as (o & Ho & Eo). destruct o; try done. by injection Eo as ->. }
  destruct (given as_random toks) as [b'|] eqn:E'.
  - f_equal. apply HA; [by apply Hin|apply HS; by apply Hin].
  - exfalso. apply Hin in E. apply HS in E. unfold given in E'. apply last_None in E'.
    assert (b ∈ omap as_random toks); [|rewrite E' in *; by apply not_elem_of_nil in H].
    apply elem_of_list_omap. by exists (ORandom b).
Qed.

(* A panic needs a service of the file without "local" (which the code meant to refuse, client.go 820-822). *)
Lemma finish_panics id l : forall used, finish id used l = inr (inr tt) -> exists s, s ∈ l /\ sURL s = None.
Proof.
  induction l as [|s l IH]; intros used; cbn [finish]; [done|].
  destruct (sURL s) as [u|] eqn:EU; [|intros _; exists s; split; [by left|done]].
  assert (H1 : finish1 id used s <> inr (inr tt)).
  { unfold finish1. rewrite EU. repeat (case_match; try done). }
  destruct (finish1 id used s) as [[t used']|e]; [|by intros [= ->]].
  specialize (IH used'). destruct (finish id used' l) as [|e]; [done|]. intros [= ->].
  destruct (IH eq_refl) as (x & Hx & EX). exists x. split; [by right|done].
Qed.
Theorem C41_panic_only_without_url parse id file base toks :
  parseServices parse (cmdline id file base toks) = Panics -> exists s, s ∈ file /\ sURL s = None.
Proof.
  unfold parseServices. cbn [cmdline cLocal cID cServices].
  pose proof (fill_exact parse id file base toks) as HFE. unfold cmdline in HFE.
  set (fs := fill_services _ _ _ _) in *. destruct fs as [vs|] eqn:EF; [|done].
  specialize (HFE vs). destruct HFE as [HFE _]. specialize (HFE eq_refl).
  destruct (finish id false (vs ++ file)) as [r0|[e|[]]] eqn:E; [by case_match|done|]. intros _.
  apply finish_panics in E. destruct E as (s & Hs & EU). apply elem_of_app in Hs. destruct Hs as [Hs|Hs]; [|eauto].
  apply elem_of_list_lookup in Hs. destruct Hs as [i Hi].
  destruct (Forall2_lookup_r _ _ _ _ _ HFE Hi) as (g & _ & v & _ & EV & _). rewrite EU in EV. done.
Qed.

(* -------- concrete cases *)
(* a url parser: scheme, "://", host up to "/" *)
Definition demo_url (s : bytes) : option url :=
  match s with
  | 116 :: 99 :: 112 :: 58 :: 47 :: 47 :: h => Some (mkUrl B_tcp h [])
  | 104 :: 116 :: 116 :: 112 :: 58 :: 47 :: 47 :: h => Some (mkUrl B_http h [])
  | _ => None
  end.
Definition tcp_a : bytes := B_tcp ++ [58;47;47] ++ [97;58;50;50].            (* tcp://a:22 *)
Definition tcp_b : bytes := B_tcp ++ [58;47;47] ++ [98;58;50;51].            (* tcp://b:23 *)
Definition http_c : bytes := B_http ++ [58;47;47] ++ [99].                   (* http://c *)
Definition http_six : bytes := B_http ++ [58;47;47] ++ [91;58;58;49;93].     (* http://[::1] *)
Definition my_id : bytes := [109;101].

Theorem C41_witness :
  parseServices demo_url (cmdline my_id [] 7
    [OLocal tcp_a; OPort 2222; OLocal http_c; OTimeout 5; OPrefix [119]; OTimeout 6; OLocal tcp_b; ORandom true]) =
  Accepted [mkSvc [] 2222 (Some false) (Some (mkUrl B_tcp [97;58;50;50] [])) 120000000000 false;
            mkSvc [119] 0 (Some false) (Some (mkUrl B_http [99;58;56;48] [])) 6 false;
            mkSvc [] 0 (Some true) (Some (mkUrl B_tcp [98;58;50;51] [])) 120000000000 false].
Proof. vm_compute. reflexivity. Qed.

(* "-local tcp://a:22 -remoteTCPPort 2222 -remoteTCPRandom=false -local tcp://b:23 -remoteTCPRandom=true": the false of
   the first service becomes true, because both pointers are to one loop variable *)
Theorem C41_random_alias_refuted :
  exists parse id base toks u os post s,
    toks = OLocal u :: os ++ post /\ Forall not_local os /\ (exists v post', post = OLocal v :: post') /\
    given as_random os = Some false /\
    (exists r, parseServices parse (cmdline id [] base toks) = Accepted r /\ r !! 0%nat = Some s) /\
    sRandom s = Some true.
Proof.
  exists demo_url, my_id, 0, [OLocal tcp_a; OPort 2222; ORandom false; OLocal tcp_b; ORandom true],
    tcp_a, [OPort 2222; ORandom false], [OLocal tcp_b; ORandom true],
    (mkSvc [] 2222 (Some true) (Some (mkUrl B_tcp [97;58;50;50] [])) 120000000000 false).
  split; [done|]. split; [repeat constructor|]. split; [eauto|]. split; [done|]. split; [|done].
  eexists. split; [vm_compute; reflexivity|done].
Qed.

(* a service of the file without "local" makes the client panic instead of reporting the error *)
Theorem C41_no_url_panics_refuted :
  exists parse id s, sURL s = None /\ parseServices parse (cmdline id [s] 0 []) = Panics.
Proof. exists demo_url, my_id, (mkSvc [] 0 None None 0 false). split; [done|]. vm_compute. reflexivity. Qed.

(* "http://[::1]" has a colon, so it is not given the port 80 and cannot be dialled *)
Theorem C41_ipv6_without_port_refuted :
  exists parse id r u, parseServices parse (cmdline id [] 0 [OLocal http_six]) = Accepted r /\
    (sURL <$> head r) = Some (Some u) /\ url_port (uHost u) = [].
Proof.
  exists demo_url, my_id. eexists _, _. split; [vm_compute; reflexivity|]. split; [reflexivity|]. vm_compute. reflexivity.
Qed.

(* ------------------------------------------------------------------ C48 *)
(* What a reload compares.  Two lists that differ in the timeout of local connections or in useLocalAsHTTPHost only are
   "config did not change", whatever the hash: such a reload is refused and the running client keeps the old values. *)
Definition same_but_timeout_and_host (s t : service) : Prop :=
  sPrefix s = sPrefix t /\ sPort s = sPort t /\ sRandom s = sRandom t /\ sURL s = sURL t.
Theorem C48_reload_ignored_refuted {H} (eqH : H -> H -> bool) (hash : bytes -> H) ustr running new :
  (forall h, eqH h h = true) -> Forall2 same_but_timeout_and_host new running ->
  reload_refused_unchanged eqH hash ustr running new = true.
Proof.
  intros HR HF. unfold reload_refused_unchanged.
  replace (services_string ustr new) with (services_string ustr running); [apply HR|].
  unfold services_string. f_equal. f_equal.
  induction HF as [|s t l k (E1 & E2 & E3 & E4) HF IH]; [done|].
  assert (ES : service_string ustr s = service_string ustr t) by (unfold service_string; by rewrite E1, E2, E3, E4).
  inversion HF; subst; cbn [join_services] in *; [done|]. by rewrite ES, IH.
Qed.
Theorem C48_reload_ignored_witness :
  exists a b, a <> b /\ sTimeout a <> sTimeout b /\ same_but_timeout_and_host a b.
Proof.
  exists (mkSvc [97] 0 (Some false) (Some (mkUrl B_http [99;58;56;48] [])) 5 false),
         (mkSvc [97] 0 (Some false) (Some (mkUrl B_http [99;58;56;48] [])) 6 true).
  split; [intros E; by injection E|]. done.
Qed.

(* Every other change is noticed, if the hash tells the two texts apart: the text determines the prefix, the url, the
   remote port and the random flag of every service, when no prefix contains a comma and no url text a space. *)
Definition compared (ustr : url -> bytes) (s : service) := (sPrefix s, ustr <$> sURL s, sPort s, sRandom s).
Definition plain (ustr : url -> bytes) (s : service) : Prop :=
  44 ∉ sPrefix s /\ sPort s < 65536 /\ is_Some (sRandom s) /\ exists u, sURL s = Some u /\ 32 ∉ ustr u.

Lemma cut_at (c : N) : forall a b x y, c ∉ a -> c ∉ b -> a ++ c :: x = b ++ c :: y -> a = b /\ x = y.
Proof.
  induction a as [|h a IH]; intros [|k b] x y Ha Hb E; cbn in E.
  - by injection E.
  - injection E as -> _. exfalso. apply Hb. by left.
  - injection E as -> _. exfalso. apply Ha. by left.
  - injection E as -> E. destruct (IH b x y) as [-> ->]; [set_solver|set_solver|done|done].
Qed.
Lemma itoa_digits fuel : forall v, Forall (fun c => is_digit c = true) (itoa_aux fuel v).
Proof.
  induction fuel as [|k IH]; intros v; cbn [itoa_aux]; [done|]. apply Forall_app. split; [by case_match|].
  constructor; [|done]. unfold is_digit. apply andb_true_iff. rewrite !N.leb_le. pose proof (N.mod_lt v 10). lia.
Qed.
Definition undec (l : bytes) : N := fold_left (fun acc c => acc * 10 + (c - 48)) l 0.
Lemma itoa_inj fuel : forall v, v < 10 ^ N.of_nat fuel -> fuel <> 0%nat -> undec (itoa_aux fuel v) = v.
Proof.
  unfold undec. induction fuel as [|k IH]; intros v Hv Hf; [done|]. cbn [itoa_aux]. rewrite fold_left_app. cbn [fold_left].
  pose proof (N.mod_lt v 10 ltac:(done)) as HM. pose proof (N.div_mod v 10 ltac:(done)) as HDM.
  destruct (N.eqb_spec (v / 10) 0) as [E|E].
  - cbn [fold_left]. rewrite E in HDM. lia.
  - rewrite IH; [lia| |].
    + replace (N.of_nat (S k)) with (N.succ (N.of_nat k)) in Hv by lia. rewrite N.pow_succ_r' in Hv.
      apply N.div_lt_upper_bound; lia.
    + intros ->. cbn in Hv. apply E. apply N.div_small. lia.
Qed.
Lemma digits_cut a : forall b c x d y, Forall (fun c => is_digit c = true) a -> Forall (fun c => is_digit c = true) b ->
  is_digit c = false -> is_digit d = false -> a ++ c :: x = b ++ d :: y -> a = b /\ c :: x = d :: y.
Proof.
  induction a as [|h a IH]; intros [|k b] c x d y Ha Hb Hc Hd E; cbn in E.
  - done.
  - injection E as -> _. inversion Hb; congruence.
  - injection E as -> _. inversion Ha; congruence.
  - injection E as -> E. inversion_clear Ha. inversion_clear Hb. destruct (IH b c x d y) as [-> ?]; done.
Qed.
Lemma service_string_inj ustr s t x y : plain ustr s -> plain ustr t ->
  service_string ustr s ++ x = service_string ustr t ++ y -> compared ustr s = compared ustr t /\ x = y.
Proof.
  intros (A1 & A2 & (b & A3) & u & A4 & A5) (B1 & B2 & (b' & B3) & u' & B4 & B5) E.
  unfold service_string in E. rewrite A3, A4, B3, B4 in E. unfold compared. rewrite A3, A4, B3, B4.
  repeat rewrite <- app_assoc in E. apply app_inv_head in E.
  change (B_local ++ ?z) with (44 :: [32;108;111;99;97;108;58;32] ++ z) in E.
  apply cut_at in E; [|done|done]. destruct E as [-> E]. apply app_inv_head in E.
  change (B_rport ++ ?z) with ([44] ++ 32 :: [114;101;109;111;116;101;84;67;80;80;111;114;116;58;32] ++ z) in E.
  rewrite !(app_assoc _ [44]) in E. apply cut_at in E; [|set_solver by lia|set_solver by lia].
  destruct E as [EU E]. apply app_inj_tail in EU. destruct EU as [EU _]. apply app_inv_head in E.
  change (B_rrandom ++ ?z) with (44 :: [32;114;101;109;111;116;101;84;67;80;82;97;110;100;111;109;58;32] ++ z) in E.
  apply digits_cut in E; [|apply itoa_digits|apply itoa_digits|done|done]. destruct E as [EP E].
  injection E as E.
  assert (EPP : sPort s = sPort t).
  { rewrite <- (itoa_inj 5 (sPort s)), <- (itoa_inj 5 (sPort t)) by (cbn; lia). unfold itoa in EP. by rewrite EP. }
  cbn [fmap option_fmap option_map]. rewrite EU, EPP. destruct b, b'; cbn in E; injection E as E; by subst.
Qed.
Theorem C48_other_changes_noticed ustr running new :
  Forall (plain ustr) running -> Forall (plain ustr) new ->
  services_string ustr new = services_string ustr running -> compared ustr <$> new = compared ustr <$> running.
Proof.
  intros HR HN E. unfold services_string in E. injection E as E. revert running HR E.
  induction HN as [|s l Hs HN IH]; intros [|t k] HR E; [done| | |].
  - destruct k; cbn in E; done.
  - destruct l; cbn in E; done.
  - inversion_clear HR as [|? ? Ht HR']. destruct l as [|s2 l], k as [|t2 k]; cbn [join_services] in E.
    + apply service_string_inj in E; [|done|done]. destruct E as [E _]. cbn. by rewrite E.
    + rewrite <- app_assoc in E. apply service_string_inj in E; [|done|done]. destruct E as [_ E]. done.
    + rewrite <- app_assoc in E. apply service_string_inj in E; [|done|done]. destruct E as [_ E]. done.
    + rewrite <- !app_assoc in E. apply service_string_inj in E; [|done|done]. destruct E as [E E'].
      cbn [app] in E'. injection E' as E'. specialize (IH (t2 :: k) HR' E'). cbn [fmap list_fmap] in *. by rewrite E, IH.
Qed.
Theorem C48_reload_noticed_partial {H} (eqH : H -> H -> bool) (hash : bytes -> H) ustr running new :
  (forall a b, eqH (hash a) (hash b) = true -> a = b) ->
  Forall (plain ustr) running -> Forall (plain ustr) new ->
  compared ustr <$> new <> compared ustr <$> running ->
  reload_refused_unchanged eqH hash ustr running new = false.
Proof.
  intros HI HR HN HD. unfold reload_refused_unchanged. destruct (eqH _ _) eqn:E; [|done].
  exfalso. apply HD. apply C48_other_changes_noticed; [done|done|]. by apply HI.
Qed.
