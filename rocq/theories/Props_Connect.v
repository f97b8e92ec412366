(* Props_Connect.v -- C85: gt sub-connect sends each line it is given, and what does not work. *)
From Coq Require Import Strings.String.
From Verif Require Import GoBase FlagsModel BufioModel StdioModel Props_Stdio OpModel ConnectModel.
Local Open Scope N_scope.

(* Specification.  A text is lines, each ended by a line feed, and a last one that is not; the line as the program shows it has no
   carriage return at its end (the last one is shown as it is, and not at all when it is empty). *)
Definition nonl (s : bytes) : Prop := 10 ∉ s.
Definition text_of (raws : list bytes) (rest : bytes) : bytes := concat ((fun r => r ++ [10]) <$> raws) ++ rest.
Definition uncr (raw line : bytes) : Prop := raw = line ++ [13] \/ raw = line /\ ~ exists x, raw = x ++ [13].
Definition lines_of (raws : list bytes) (rest : bytes) (lines : list bytes) : Prop :=
  exists ls, Forall2 uncr raws ls /\ lines = ls ++ (if bool_decide (rest = []) then [] else [rest]).
(* the input given in a run, and the lines it said it received *)
Definition input (tr : list cev) : bytes := concat ((fun e => match e with EArrive d => d | _ => [] end) <$> tr).
Definition received (s : cst) : list bytes := omap (fun x => match x with SReceived l => Some l | _ => None end) (cSaid s).

(* ---------- the lines *)
Lemma strip_uncr s : uncr s (strip_cr s).
Proof.
  induction s as [|a s IH]; cbn [strip_cr].
  { right. split; [done|]. intros (x & Hx). by destruct x. }
  destruct s as [|b s].
  { destruct (N.eqb_spec a 13) as [-> |Ha]; [by left|]. right. split; [done|]. intros (x & Hx). destruct x as [|y [|z x]]; simplify_eq/=. }
  destruct IH as [IH|(IH & Hn)]; [left; by rewrite IH at 1|right].
  rewrite <- IH. split; [done|]. intros (x & Hx). destruct x as [|y x]; simplify_eq/=. eauto.
Qed.
Lemma uncr_fun s a b : uncr s a -> uncr s b -> a = b.
Proof.
  intros [Ha|(Ha & Hna)] [Hb|(Hb & Hnb)].
  - rewrite Ha in Hb. by apply app_inj_tail in Hb as [? _].
  - exfalso. eauto.
  - exfalso. eauto.
  - congruence.
Qed.
Lemma uncr_map raws ls : Forall2 uncr raws ls -> ls = strip_cr <$> raws.
Proof. induction 1 as [|r l raws ls H _ IH]; [done|]. cbn. f_equal; [|done]. eapply uncr_fun; [done|apply strip_uncr]. Qed.
Lemma map_uncr raws : Forall2 uncr raws (strip_cr <$> raws).
Proof. induction raws; constructor; [apply strip_uncr|done]. Qed.

Lemma cut_some s l r : cut_line s = Some (l, r) -> s = l ++ [10] ++ r /\ nonl l.
Proof.
  revert l. induction s as [|b s IH]; intros l; cbn [cut_line]; [done|].
  destruct (N.eqb_spec b 10) as [-> |Hb]; [intros [= <- <-]; split; [done|apply not_elem_of_nil]|].
  destruct (cut_line s) as [[l' r']|] eqn:E; [|done]. cbn. intros [= <- <-]. destruct (IH _ eq_refl) as [-> H]. split; [done|].
  unfold nonl. rewrite not_elem_of_cons. split; [lia|done].
Qed.
Lemma cut_none s : cut_line s = None -> nonl s.
Proof.
  induction s as [|b s IH]; cbn [cut_line]; [intros _; apply not_elem_of_nil|].
  destruct (N.eqb_spec b 10) as [-> |Hb]; [done|].
  destruct (cut_line s) as [[l' r']|] eqn:E; [done|]. intros _. unfold nonl. rewrite not_elem_of_cons. split; [lia|by apply IH].
Qed.
Lemma nonl_cut l r s t : nonl l -> nonl r -> l ++ 10 :: s = r ++ 10 :: t -> l = r /\ s = t.
Proof.
  revert r. induction l as [|a l IH]; intros [|b r] Hl Hr H; simplify_eq/=; [done|..].
  - exfalso. apply Hr, elem_of_list_here.
  - exfalso. apply Hl, elem_of_list_here.
  - destruct (IH r) as [-> ->]; [| |done|done].
    + intros Hi. by apply Hl, elem_of_list_further.
    + intros Hi. by apply Hr, elem_of_list_further.
Qed.
Lemma text_cons r raws rest : text_of (r :: raws) rest = r ++ 10 :: text_of raws rest.
Proof. unfold text_of. cbn. by rewrite <- !(assoc_L (++)). Qed.
Lemma text_snoc raws r rest : text_of raws (r ++ 10 :: rest) = text_of (raws ++ [r]) rest.
Proof. induction raws as [|x raws IH]; [unfold text_of; cbn; rewrite (right_id_L [] (++)); by rewrite <- (assoc_L (++))|]. cbn [app]. by rewrite !text_cons, IH. Qed.
Lemma text_app raws d e : text_of raws d ++ e = text_of raws (d ++ e).
Proof. unfold text_of. by rewrite (assoc_L (++)). Qed.
(* one text has one reading *)
Lemma text_prefix a x b y : Forall nonl a -> Forall nonl b -> nonl y -> text_of a x = text_of b y -> exists c, b = a ++ c /\ x = text_of c y.
Proof.
  revert b. induction a as [|r a IH]; intros b Ha Hb Hy H; [by exists b|].
  rewrite text_cons in H. apply Forall_cons in Ha as [Hr Ha]. destruct b as [|r' b].
  { exfalso. apply Hy. change (text_of [] y) with y in H. rewrite <- H. set_solver. }
  rewrite text_cons in H. apply Forall_cons in Hb as [Hr' Hb]. apply nonl_cut in H as [-> H]; [|done|done].
  destruct (IH _ Ha Hb Hy H) as (c & -> & ->). by exists c.
Qed.
Lemma text_last c y x : nonl x -> x = text_of c y -> c = [] /\ x = y.
Proof. intros Hx ->. destruct c as [|r c]; [done|]. exfalso. apply Hx. rewrite text_cons. set_solver. Qed.

(* ---------- the invariant *)
Definition holds (s : cst) : list bytes := match cRd s with RHold l => [l] | _ => [] end.
Definition valid (s : bytes) : Prop := nonl s /\ utf8 s = true.
Definition inv (s : cst) (A : bytes) : Prop :=
  exists ds tl, Forall valid ds /\ received s ++ cQ s ++ holds s = (strip_cr <$> ds) ++ tl /\
  (cRd s <> RGone /\ tl = [] /\ A = text_of ds (cPend s)
   \/ cEof s = true /\ cPend s = [] /\ (exists t, t <> [] /\ valid t /\ tl = [t] /\ A = text_of ds t)
   \/ cRd s = RGone /\ cEof s = true /\ tl = [] /\ A = text_of ds []
   \/ cRd s = RGone /\ tl = [] /\ exists bad, nonl bad /\ utf8 bad = false /\
      ((exists more, A = text_of ds (bad ++ 10 :: more)) \/ cEof s = true /\ bad <> [] /\ A = text_of ds bad)).

Lemma received_app sd x p e r q m rq : received (mkC p e r q m rq (sd ++ [x])) = received (mkC p e r q m rq sd) ++ (match x with SReceived l => [l] | _ => [] end).
Proof. unfold received. cbn. rewrite omap_app. by destruct x. Qed.

Lemma inv0 : inv cst0 [].
Proof. exists [], []. split; [done|]. split; [done|]. left. done. Qed.
Lemma inv_step ok c s e s' A : inv s A -> cstep ok c s e = Some s' -> inv s' (A ++ input [e]).
Proof.
  intros (ds & tl & Hd & He & HA). destruct s as [p eof rd q m rq sd]. unfold holds in He. cbn [cRd cQ cEof cPend] in He, HA.
  destruct e as [d| | | | |o| |]; cbn [cstep]; unfold input; cbn [fmap list_fmap concat app]; rewrite ?(right_id_L [] (++)).
  - destruct eof; [done|]. intros [= <-]. exists ds, tl. split; [done|]. split; [done|]. cbn [cRd cEof cPend].
    destruct HA as [(H1 & -> & ->)|[(? & _)|[(_ & ? & _)|(H1 & -> & bad & Hb1 & Hb2 & [(more & ->)|(? & _)])]]]; try done.
    + left. split_and!; [done|done|apply text_app].
    + right; right; right. split_and!; [done|done|]. exists bad. split_and!; [done|done|]. left. exists (more ++ d). rewrite text_app. by rewrite <- (assoc_L (++)).
  - intros [= <-]. exists ds, tl. split; [done|]. split; [done|]. cbn [cRd cEof cPend].
    destruct HA as [HA|[(_ & HA)|[(? & _ & HA)|(H1 & -> & bad & Hb1 & Hb2 & HA)]]].
    + by left.
    + right; left. done.
    + right; right; left. done.
    + right; right; right. split_and!; [done|done|]. exists bad. split_and!; [done|done|]. destruct HA as [?|(_ & ?)]; [by left|by right].
  - destruct rd as [|l|]; try done. unfold next_line. rewrite (right_id_L [] (++)) in He.
    destruct HA as [(H1 & -> & ->)|[(-> & -> & Ht)|[(? & _)|(? & _)]]]; try done.
    + rewrite (right_id_L [] (++)) in He. destruct (cut_line p) as [[l rest]|] eqn:E.
      { apply cut_some in E as [-> Hl]. destruct (utf8 l) eqn:Hu; intros [= <-].
        - exists (ds ++ [l]), []. split; [apply Forall_app; split; [done|]; by constructor|]. unfold holds. cbn [cRd cQ cEof cPend]. split.
          { rewrite fmap_app, (right_id_L [] (++)), (assoc_L (++)). cbn. f_equal. apply He. }
          left. split_and!; [done|done|]. apply text_snoc.
        - exists ds, []. split; [done|]. unfold holds. cbn [cRd cQ cEof cPend]. rewrite !(right_id_L [] (++)). split; [apply He|].
          right; right; right. split_and!; [done|done|]. exists l. split_and!; [done|done|]. left. by exists rest. }
      apply cut_none in E. destruct eof; [|done]. case_bool_decide as Hp; [|destruct (utf8 p) eqn:Hu]; intros [= <-].
      * subst p. exists ds, []. split; [done|]. unfold holds. cbn [cRd cQ cEof cPend]. rewrite !(right_id_L [] (++)). split; [apply He|].
        right; right; left. done.
      * exists ds, [p]. split; [done|]. unfold holds. cbn [cRd cQ cEof cPend]. split; [rewrite (assoc_L (++)); f_equal; apply He|].
        right; left. split_and!; [done|done|]. exists p. done.
      * exists ds, []. split; [done|]. unfold holds. cbn [cRd cQ cEof cPend]. rewrite !(right_id_L [] (++)). split; [apply He|].
        right; right; right. split_and!; [done|done|]. exists p. split_and!; [done|done|]. by right.
    + cbn. intros [= <-]. exists ds, tl. split; [done|]. unfold holds. cbn [cRd cQ cEof cPend]. rewrite (right_id_L [] (++)). split; [apply He|].
      right; left. done.
  - destruct rd as [|l|]; try done. destruct (length q <? 8)%nat; [|done]. intros [= <-]. exists ds, tl. split; [done|]. unfold holds. cbn [cRd cQ cEof cPend].
    split; [rewrite (right_id_L [] (++)); apply He|].
    destruct HA as [(H1 & HA)|[HA|[(? & _)|(? & _)]]]; try done; [by left|right; left; done].
  - destruct m as [| | |]; try done. destruct q as [|l q]; [done|]. intros [= <-]. exists ds, tl. split; [done|]. split; [|exact HA].
    rewrite received_app. unfold holds. cbn [cRd cQ]. rewrite <- He. rewrite <- !(assoc_L (++)). done.
  - destruct m as [|l| |]; try done. intros [= <-]. exists ds, tl. split; [done|]. split; [|exact HA].
    rewrite received_app. unfold holds. cbn [cRd cQ]. rewrite <- He. destruct (forwarded _); by rewrite (right_id_L [] (++)).
  - destruct m, q, rd; try done. intros [= <-]. exists ds, tl. done.
  - destruct m; try done. intros [= <-]. exists ds, tl. done.
Qed.

Lemma crun_snoc ok c tr e : crun ok c (tr ++ [e]) = crun ok c tr ≫= fun s => cstep ok c s e.
Proof. unfold crun. by rewrite fold_left_app. Qed.
Lemma input_app t1 t2 : input (t1 ++ t2) = input t1 ++ input t2.
Proof. unfold input. by rewrite fmap_app, concat_app. Qed.
Lemma inv_run ok c tr s : crun ok c tr = Some s -> inv s (input tr).
Proof.
  revert s. induction tr as [|e tr IH] using rev_ind; intros s.
  { cbn. intros [= <-]. apply inv0. }
  rewrite crun_snoc. destruct (crun ok c tr) as [s1|] eqn:E; [|done]. cbn. intros H. rewrite input_app. eapply inv_step; eauto.
Qed.

(* the end is reached only with nothing left over *)
Lemma exit_run ok c tr s : crun ok c tr = Some s -> cMain s = MHandle \/ cMain s = MExit -> cQ s = [] /\ cRd s = RGone.
Proof.
  revert s. induction tr as [|e tr IH] using rev_ind; intros s.
  { cbn. intros [= <-]. by intros [? | ?]. }
  rewrite crun_snoc. destruct (crun ok c tr) as [[p eof rd q m rq sd]|] eqn:E; [|done]. cbn [mbind option_bind].
  specialize (IH _ eq_refl). cbn [cMain cQ cRd] in IH.
  destruct e; cbn [cstep]; try (destruct rd as [|l'|]; try done); try destruct eof; try destruct (next_line _ _); try (destruct (_ <? _)%nat);
    try (destruct m as [|l''| |]; try done); try (destruct q; try done);
    intros H Hm; simplify_eq/=; destruct Hm as [Hm|Hm]; simplify_eq; try done; try (destruct IH as [? ?]; [by (left + right)|simplify_eq; done]).
Qed.

(* Whatever is given, in whatever pieces, however the tasks run: the lines taken up are the given ones, in order, from the first on, none twice. *)
Theorem C85_in_order ok c tr s raws rest lines : crun ok c tr = Some s -> Forall nonl raws -> nonl rest ->
  input tr = text_of raws rest -> lines_of raws rest lines -> received s `prefix_of` lines.
Proof.
  intros Hr Hn Hrest HA (ls & Hls & ->). apply uncr_map in Hls as ->. destruct (inv_run _ _ _ _ Hr) as (ds & tl & Hd & He & Hc).
  assert (Forall nonl ds) as Hdn by (eapply Forall_impl; [exact Hd|by intros ? []]).
  assert (received s `prefix_of` (strip_cr <$> ds) ++ tl) as Hpre by (exists (cQ s ++ holds s); by rewrite He).
  etrans; [exact Hpre|]. clear Hpre He.
  assert (forall x, input tr = text_of ds x -> exists k, raws = ds ++ k /\ x = text_of k rest) as Hp.
  { intros x Hx. rewrite HA in Hx. symmetry in Hx. apply text_prefix in Hx; done. }
  destruct Hc as [(_ & -> & HA')|[(_ & _ & t & Ht & (Htn & _) & -> & HA')|[(_ & _ & -> & HA')|(_ & -> & bad & Hb & _ & [(more & HA')|(_ & Hne & HA')])]]];
    apply Hp in HA' as (k & -> & Hk).
  1,3,4,5: rewrite fmap_app, (right_id_L [] (++)), <- (assoc_L (++)); by apply prefix_app_r.
  apply text_last in Hk as [-> ->]; [|done]. rewrite (right_id_L [] (++)). case_bool_decide; [done|]. done.
Qed.

(* One request for each of them: GET to the address, with the prefix as Host and the line as body. *)
Theorem C85_requests ok c tr s : crun ok c tr = Some s ->
  cReqs s = if ok (kAddr c) (kPrefix c) then (fun l => mkReq (bs "GET") (kAddr c) (kPrefix c) [(bs "Users-Agent", bs "gt-connect")] l) <$> received s else [].
Proof.
  revert s. induction tr as [|e tr IH] using rev_ind; intros s.
  { cbn. intros [= <-]. by destruct (ok _ _). }
  rewrite crun_snoc. destruct (crun ok c tr) as [[p eof rd q m rq sd]|] eqn:E; [|done]. cbn [mbind option_bind].
  specialize (IH _ eq_refl). cbn [cReqs] in IH.
  destruct e; cbn [cstep]; try (destruct rd as [|l'|]; try done); try destruct eof; try destruct (next_line _ _); try (destruct (_ <? _)%nat);
    try (destruct m as [|l''| |]; try done); try (destruct q; try done); intros H; simplify_eq/=; rewrite ?received_app; try exact IH;
    try (destruct (forwarded _); rewrite (right_id_L [] (++)); exact IH).
  all: destruct (ok (kAddr c) (kPrefix c)); [|exact IH]; rewrite fmap_app; cbn; f_equal; exact IH.
Qed.

(* When it ends, and every line is valid UTF-8, all of them have been taken up. *)
Theorem C85_every_line_partial ok c tr s raws rest lines : crun ok c tr = Some s -> cMain s = MExit -> Forall nonl raws -> nonl rest ->
  input tr = text_of raws rest -> lines_of raws rest lines -> Forall (fun r => utf8 r = true) (raws ++ [rest]) -> received s = lines.
Proof.
  intros Hr Hm Hn Hrest HA (ls & Hls & ->) Hu. apply uncr_map in Hls as ->. destruct (exit_run _ _ _ _ Hr (or_intror Hm)) as [HQ HR].
  destruct (inv_run _ _ _ _ Hr) as (ds & tl & Hd & He & Hc). unfold holds in He. rewrite HQ, HR, !(right_id_L [] (++)) in He. rewrite He.
  assert (Forall nonl ds) as Hdn by (eapply Forall_impl; [exact Hd|by intros ? []]).
  assert (forall x, input tr = text_of ds x -> exists k, raws = ds ++ k /\ x = text_of k rest) as Hp.
  { intros x Hx. rewrite HA in Hx. symmetry in Hx. apply text_prefix in Hx; done. }
  apply Forall_app in Hu as [Hu1 Hu2]. apply Forall_cons in Hu2 as [Hu2 _].
  destruct Hc as [(? & _)|[(_ & _ & t & Ht & (Htn & _) & -> & HA')|[(_ & _ & -> & HA')|(_ & -> & bad & Hb & Hbu & [(more & HA')|(_ & Hne & HA')])]]]; [done|..];
    apply Hp in HA' as (k & -> & Hk).
  - apply text_last in Hk as [-> ->]; [|done]. rewrite (right_id_L [] (++)). by rewrite bool_decide_false.
  - apply text_last in Hk as [-> <-]; [|apply not_elem_of_nil]. cbn. by rewrite !app_nil_r.
  - exfalso. destruct k as [|r k].
    + apply Hrest. change (text_of [] rest) with rest in Hk. rewrite <- Hk. set_solver.
    + rewrite text_cons in Hk. apply Forall_app in Hn as [_ Hn]. apply Forall_cons in Hn as [Hr1 _]. apply nonl_cut in Hk as [-> _]; [|done|done].
      apply Forall_app in Hu1 as [_ Hu1]. apply Forall_cons in Hu1 as [Hu1 _]. congruence.
  - apply text_last in Hk as [-> ->]; [|done]. congruence.
Qed.

(* A line that is not valid UTF-8 ends the reading: it and all that follow are never sent, and the status is still 0 (MExit). *)
Theorem C85_invalid_line_refuted ok c tr s good bad more rest : crun ok c tr = Some s -> Forall valid good -> nonl bad -> utf8 bad = false ->
  Forall nonl more -> nonl rest -> input tr = text_of (good ++ bad :: more) rest ->
  received s `prefix_of` (strip_cr <$> good) /\ (cMain s = MExit -> received s = strip_cr <$> good).
Proof.
  intros Hr Hg Hb Hbu Hm Hrest HA. destruct (inv_run _ _ _ _ Hr) as (ds & tl & Hd & He & Hc).
  assert (Forall nonl ds) as Hdn by (eapply Forall_impl; [exact Hd|by intros ? []]).
  assert (Forall nonl good) as Hgn by (eapply Forall_impl; [exact Hg|by intros ? []]).
  assert (Forall nonl (good ++ bad :: more)) as Hall by (apply Forall_app; split; [done|]; by constructor).
  assert (forall x, input tr = text_of ds x -> exists k, good ++ bad :: more = ds ++ k /\ x = text_of k rest) as Hp.
  { intros x Hx. rewrite HA in Hx. symmetry in Hx. apply text_prefix in Hx; done. }
  assert (forall k, good ++ bad :: more = ds ++ k -> exists g, good = ds ++ g /\ k = g ++ bad :: more) as Hsp.
  { clear -Hd Hbu. revert good. induction ds as [|d ds IH]; intros good k Hk; [by exists good|]. apply Forall_cons in Hd as [[_ Hdu] Hd].
    destruct good as [|g good]; cbn in Hk; injection Hk as Hk0 Hk; subst; [congruence|]. destruct (IH Hd _ _ Hk) as (g' & -> & ->). by exists g'. }
  assert (received s `prefix_of` (strip_cr <$> ds) ++ tl) as Hpre by (exists (cQ s ++ holds s); by rewrite He).
  destruct Hc as [(HR & -> & HA')|[(_ & _ & t & Ht & (Htn & _) & -> & HA')|[(_ & _ & -> & HA')|(HR & -> & bad' & Hb' & Hbu' & HA')]]].
  - apply Hp in HA' as (k & Hk & _). apply Hsp in Hk as (g & -> & ->). rewrite (right_id_L [] (++)) in Hpre. split.
    + etrans; [exact Hpre|]. rewrite fmap_app. by apply prefix_app_r.
    + intros Hme. destruct (exit_run _ _ _ _ Hr (or_intror Hme)) as [_ ?]. done.
  - exfalso. apply Hp in HA' as (k & Hk & Hx). apply Hsp in Hk as (g & -> & ->). apply text_last in Hx as [Hx _]; [|done]. by destruct g.
  - exfalso. apply Hp in HA' as (k & Hk & Hx). apply Hsp in Hk as (g & -> & ->). apply text_last in Hx as [Hx _]; [|apply not_elem_of_nil]. by destruct g.
  - rewrite (right_id_L [] (++)) in Hpre, He. assert (ds = good) as ->.
    { destruct HA' as [(m' & HA')|(_ & _ & HA')]; apply Hp in HA' as (k & Hk & Hx); apply Hsp in Hk as (g & -> & ->).
      - destruct g as [|g0 g]; [by rewrite (right_id_L [] (++))|]. exfalso. rewrite <- app_comm_cons in Hx. rewrite text_cons in Hx. apply Forall_app in Hg as [_ Hg].
        apply Forall_cons in Hg as [[Hgn0 Hgu] _]. apply nonl_cut in Hx as [-> _]; [congruence|done|done].
      - apply text_last in Hx as [Hx _]; [|done]. by destruct g. }
    split; [exact Hpre|]. intros Hme. destruct (exit_run _ _ _ _ Hr (or_intror Hme)) as [HQ _]. unfold holds in He. by rewrite HQ, HR, !(right_id_L [] (++)) in He.
Qed.

(* never more than eight lines wait between the two tasks *)
Theorem C85_queue ok c tr s : crun ok c tr = Some s -> (length (cQ s) <= 8)%nat.
Proof.
  revert s. induction tr as [|e tr IH] using rev_ind; intros s.
  { cbn. intros [= <-]. cbn. lia. }
  rewrite crun_snoc. destruct (crun ok c tr) as [[p eof rd q m rq sd]|] eqn:E; [|done]. cbn [mbind option_bind].
  specialize (IH _ eq_refl). cbn [cQ] in IH.
  destruct e; cbn [cstep]; try (destruct rd as [|l'|]; try done); try destruct eof; try destruct (next_line _ _); try (destruct (Nat.ltb_spec (length q) 8));
    try (destruct m as [|l''| |]; try done); try (destruct q; try done); intros H1; simplify_eq/=; rewrite ?app_length; cbn; try lia.
Qed.

(* ---------- what is said.  Each line is answered once, before the next is taken up, and with "Successfully forwarded" whenever a response could be
   read: 404 or 500 are called a success. *)
Theorem C85_says ok c s o s' l : cMain s = MReq l -> cstep ok c s (EAnswer o) = Some s' ->
  cMain s' = MRecv /\ cSaid s' = cSaid s ++ [if ok (kAddr c) (kPrefix c) then match o with OResp _ true => SForwarded l | _ => SError l end else SError l].
Proof.
  destruct s as [p eof rd q m rq sd]. cbn. intros ->. intros [= <-]. split; [done|]. cbn. f_equal. f_equal. destruct (ok _ _); [|done]. by destruct o as [|st []].
Qed.
Theorem C85_error_status_refuted : exists s, crun (fun _ _ => true) (mkConf (bs "http://h") (bs "p") [])
  [EArrive (bs "a"); EEof; ENext; EPush; ENext; ETake; EAnswer (OResp 500 true); EStop; EExit] = Some s /\ cMain s = MExit /\
  cSaid s = [SReceived (bs "a"); SForwarded (bs "a")].
Proof. eexists. split; [vm_compute; reflexivity|]. split; vm_compute; done. Qed.
(* Without -c nothing is ever sent: every line fails, and the status is 0 all the same. *)
Theorem C85_no_config ok tr s : (forall p, ok [] p = false) -> run_args None = Some conf0 /\ (crun ok conf0 tr = Some s -> cReqs s = [] /\ forall l, SForwarded l ∉ cSaid s).
Proof.
  intros Hok. split; [done|]. revert s. induction tr as [|e tr IH] using rev_ind; intros s.
  { cbn. intros [= <-]. split; [done|]. intros l. apply not_elem_of_nil. }
  rewrite crun_snoc. destruct (crun ok conf0 tr) as [[p eof rd q m rq sd]|] eqn:E; [|done]. cbn [mbind option_bind].
  specialize (IH _ eq_refl). cbn [cReqs cSaid] in IH. destruct IH as [-> IH].
  assert (forall x, (forall l, x <> SForwarded l) -> forall l, SForwarded l ∉ sd ++ [x]) as Hx.
  { intros x Hx l. rewrite elem_of_app, elem_of_list_singleton. intros [Hi|Hi]; [by eapply IH|by eapply Hx]. }
  destruct e; cbn [cstep kAddr kPrefix conf0]; rewrite ?Hok; try (destruct rd as [|l'|]; try done); try destruct eof; try destruct (next_line _ _); try (destruct (_ <? _)%nat);
    try (destruct m as [|l''| |]; try done); try (destruct q; try done); intros H; simplify_eq/=; (split; [done|]); try apply IH; by apply Hx.
Qed.
(* With -c it starts exactly when the file can be read, is not blank, parses, and names an address and a prefix. *)
Theorem C85_config_checked f c : run_args (Some f) = Some c <->
  exists s, f = FText s (Some c) /\ (exists b, b ∈ s /\ is_space b = false) /\ (exists b, b ∈ kAddr c /\ is_space b = false) /\ exists b, b ∈ kPrefix c /\ is_space b = false.
Proof.
  assert (forall s, blank s = false <-> exists b, b ∈ s /\ is_space b = false) as Hb.
  { intros s. unfold blank. rewrite <- not_true_iff_false, forallb_forall. split.
    - intros H. induction s as [|b s IH]; [exfalso; by apply H|]. destruct (is_space b) eqn:Eb; [|exists b; split; [left|done]].
      destruct IH as (x & Hx & Hs); [|exists x; split; [by right|done]]. intros Hs. apply H. intros x [<-|Hx]; [done|by apply Hs].
    - intros (b & Hbs & Hf) H. apply elem_of_list_In, H in Hbs. congruence. }
  cbn [run_args]. split.
  - destruct f as [| |s [c'|]]; cbn; try done. destruct (blank s) eqn:E1; [done|]. unfold validate_config.
    destruct (blank (kAddr c')) eqn:E2; [done|]. destruct (blank (kPrefix c')) eqn:E3; [done|]. cbn. intros [= ->]. exists s. by rewrite <- !Hb.
  - intros (s & -> & H1 & H2 & H3). apply Hb in H1, H2, H3. cbn. unfold validate_config. by rewrite H1, H2, H3.
Qed.

(* ---------- the peer connection it is for is never offered to anybody: of the messages only the configuration is written *)
Theorem C85_no_offer_refuted c : MsgOffer ∉ exec (startup c) /\ exec (startup c) = [MsgConfig (kStun c) [(bs "@", bs "http://www.baidu.com")]].
Proof. split; [|done]. unfold exec. cbn. rewrite elem_of_list_singleton. done. Qed.

(* ---------- started by the manager.  The manager understands nothing of what the worker writes, whatever it is and however it arrives: it never becomes ready. *)
Theorem C85_never_ready_refuted a shown cs : pieces_ok cs -> concat cs = stdout_of a shown -> forall m, (op_read (pieces cs)).1 <> JMessage m.
Proof.
  intros Hok Hc m. assert (forall h t, stdout_of a shown = h ++ t -> blen h = 4 -> MAX_JSON_LENGTH <? FrameModel.p32 h = true -> (op_read (pieces cs)).1 <> JMessage m) as Hbig.
  { intros h t Ht Hl Hh. rewrite Ht in Hc. destruct (read_full_pieces 4 cs h t Hok Hc Hl) as (cs1 & E & _). unfold op_read. rewrite E, Hh. done. }
  destruct a as [[| |s [c|]]|]; cbn [stdout_of] in Hc, Hbig.
  5: { apply (Hbig [78; 111; 32; 99] (bs "onfig file specified, using default configuration" ++ shown)); [done|done|vm_compute; done]. }
  3: destruct (blank s).
  4: { apply (Hbig [232; 167; 163; 230] (drop 4 parsed_ok ++ shown)); [done|done|vm_compute; done]. }
  all: assert (cs = []) as -> by (destruct cs as [|x cs]; [done|]; apply Forall_cons in Hok as [Hx _]; exfalso; apply Hx; by apply app_eq_nil in Hc as [-> _]); vm_compute; discriminate.
Qed.
(* Its standard input is a pipe of the manager's, so no line of the user's gets there; and the command to end becomes a request to the service when the pipe is closed. *)
Theorem C85_ended_by_manager_refuted ok c tr s g : crun ok c tr = Some s -> cMain s = MExit -> input tr = op_write (op_text g) -> ok (kAddr c) (kPrefix c) = true ->
  cReqs s = [mkReq (bs "GET") (kAddr c) (kPrefix c) [(bs "Users-Agent", bs "gt-connect")] (op_write (op_text g))].
Proof.
  intros Hr Hm HA Hok. rewrite (C85_requests _ _ _ _ Hr), Hok.
  rewrite (C85_every_line_partial ok c tr s [] (op_write (op_text g)) [op_write (op_text g)] Hr Hm); [done|done| |done| |].
  - unfold nonl. destruct g; apply (bool_decide_unpack _); vm_compute; exact I.
  - exists []. split; [done|]. by destruct g.
  - constructor; [|done]. destruct g; vm_compute; done.
Qed.
Theorem C85_not_before ok c tr s g : crun ok c tr = Some s -> EEof ∉ tr -> input tr = op_write (op_text g) -> cReqs s = [] /\ cMain s = MRecv.
Proof.
  intros Hr He HA. assert (cEof s = false) as Hf.
  { clear HA. revert s Hr He. induction tr as [|e tr IH] using rev_ind; intros s; [by intros [= <-]|]. rewrite crun_snoc.
    destruct (crun ok c tr) as [[p eof rd q m rq sd]|] eqn:E; [|done]. cbn [mbind option_bind]. intros H Hn. rewrite not_elem_of_app in Hn. destruct Hn as [Hn1 Hn2].
    specialize (IH _ eq_refl Hn1). cbn in IH. subst eof. rewrite elem_of_list_singleton in Hn2.
    destruct e; cbn [cstep] in H; try (destruct rd as [|l'|]; try done); try destruct (next_line _ _); try (destruct (_ <? _)%nat);
      try (destruct m as [|l''| |]; try done); try (destruct q; try done); simplify_eq/=; done. }
  destruct (inv_run _ _ _ _ Hr) as (ds & tl & Hd & Hq & Hc). rewrite Hf in Hc.
  assert (nonl (op_write (op_text g))) as Hn by (unfold nonl; destruct g; apply (bool_decide_unpack _); vm_compute; exact I).
  assert (ds = [] /\ tl = [] /\ cRd s <> RGone) as (-> & -> & HR).
  { rewrite HA in Hc. destruct Hc as [(HR & -> & Hc)|[(? & _)|[(_ & ? & _)|(_ & -> & bad & _ & _ & [(more & Hc)|(? & _)])]]]; try done.
    - by apply text_last in Hc as [-> _].
    - exfalso. apply Hn. rewrite Hc. unfold text_of. set_solver. }
  cbn in Hq. apply app_eq_nil in Hq as [Hrc _]. split.
  - rewrite (C85_requests _ _ _ _ Hr), Hrc. by destruct (ok _ _).
  - clear Hd Hc Hf He HA. revert s Hr Hrc HR. induction tr as [|e tr IH] using rev_ind; intros s; [by intros [= <-]|]. rewrite crun_snoc.
    destruct (crun ok c tr) as [[p eof rd q m rq sd]|] eqn:E; [|done]. cbn [mbind option_bind]. specialize (IH _ eq_refl). cbn [cRd cMain] in IH.
    intros H. destruct e; cbn [cstep] in H; try (destruct rd as [|l'|]; try done); try destruct eof; try destruct (next_line _ _); try (destruct (_ <? _)%nat);
      try (destruct m as [|l''| |]; try done); try (destruct q; try done); simplify_eq/=; rewrite ?received_app; intros Hx HR; try done; try (apply app_eq_nil in Hx as [Hx1 Hx2]); try done;
      try (by apply IH); try (rewrite IH by done; done); try (by specialize (IH Hx HR)).
Qed.

(* a run: three lines, one ended with CR LF, one of two bytes in UTF-8 and the last without line feed, in pieces *)
Theorem C85_witness : let c := mkConf (bs "http://h") (bs "p") [] in
  run_args (Some (FText (bs "options:") (Some c))) = Some c /\
  exists s, crun (fun _ _ => true) c
    [EArrive [97; 13; 10; 195]; ENext; EPush; ETake; EArrive [164; 10; 98]; ENext; EPush; EAnswer (OResp 200 true); ETake; EEof; ENext; EAnswer ONone; EPush; ENext; ETake; EAnswer (OResp 404 false); EStop; EExit] = Some s /\
  cMain s = MExit /\ qBody <$> cReqs s = [[97]; [195; 164]; [98]] /\
  cSaid s = [SReceived [97]; SForwarded [97]; SReceived [195; 164]; SError [195; 164]; SReceived [98]; SError [98]] /\
  lines_of [[97; 13]; [195; 164]] [98] [[97]; [195; 164]; [98]] /\ Forall (fun r => utf8 r = true) [[97; 13]; [195; 164]; [98]].
Proof.
  split; [done|]. eexists. split; [vm_compute; reflexivity|]. split; [done|]. split; [done|]. split; [done|]. split; [|by repeat constructor].
  exists [[97]; [195; 164]]. split; [|done]. exact (map_uncr [[97; 13]; [195; 164]]).
Qed.
(* The bytes the manager writes to end a worker, and a run of gt sub-connect that is given them: they are sent to the address as a request. *)
Theorem C85_stop_bytes : op_write (op_text true) = [0; 0; 0; 25] ++ bs "{""op"":""gracefulShutdown""}" /\ op_write (op_text false) = [0; 0; 0; 17] ++ bs "{""op"":""shutdown""}" /\
  exists s, crun (fun _ _ => true) (mkConf (bs "http://h") (bs "p") []) [EArrive ([0; 0; 0; 17] ++ bs "{""op"":""shutdown""}"); EEof; ENext; EPush; ENext; ETake; EAnswer (OResp 200 true); EStop; EExit] = Some s /\
    cMain s = MExit /\ cReqs s = [mkReq (bs "GET") (bs "http://h") (bs "p") [(bs "Users-Agent", bs "gt-connect")] ([0; 0; 0; 17] ++ bs "{""op"":""shutdown""}")].
Proof. split; [vm_compute; done|]. split; [vm_compute; done|]. eexists. split; [vm_compute; reflexivity|]. split; vm_compute; done. Qed.
