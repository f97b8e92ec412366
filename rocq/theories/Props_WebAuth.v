(* Props_WebAuth.v -- C61: administration needs the administrator's password (or the temporary key of the first start). *)
From Coq Require Import Strings.String.
From Verif Require Import GoBase FlagsModel TokenModel WebAuthModel.
Local Open Scope N_scope.

(* ---- specification: how the text [tok] was obtained, and from when on it counts ---- *)
Definition obtained (w : wproc) (t0 : N) (tempkey : option bytes) (e : wevt) (tok : bytes) (from : N) : Prop :=
  exists t q, 
    (e = WReq t q (Some HLogin) (Handed tok) /\ qUser q = wAdmin w /\ qPass q = wPass w /\ from = t) \/
    (e = WReq t q (Some HVerify) (Handed tok) /\ tempkey = Some (qKey q) /\ t <= t0 + 180 /\ from = t0) \/
    (e = WReq t q (Some HChangeUser) (Handed tok) /\ from = t).

Definition tm_ok (J : codec) (w : wproc) (t0 : N) (tempkey : option bytes) (m : tm) : Prop :=
  forall k d, m !! k = Some d -> tempkey = Some k /\ kToken d = sign J (wKey w) (new_claims t0 (wAdmin w)) /\ kExpireAt d = (ns t0 + 180000000000)%Z.
Definition out_ok (J : codec) (w : wproc) (t0 : N) (tempkey : option bytes) (tr : list wevt) (s : wst) : Prop :=
  t0 <= sNow s /\ tm_ok J w t0 tempkey (sTm s) /\
  forall tok, tok ∈ sOut s -> exists e from u, e ∈ tr /\ obtained w t0 tempkey e tok from /\ tok = sign J (wKey w) (new_claims from u).

Lemma find_route rs m p h : lookup_route rs m p = Some h -> (m, p, h) ∈ rs.
Proof.
  unfold lookup_route. destruct (find _ rs) as [r|] eqn:E; [|done]. intros [= <-]. apply find_some in E as [E1 E2]. apply bool_decide_eq_true in E2. apply elem_of_list_In in E1.
  destruct r as [mp h]. cbn in *. by subst.
Qed.
Lemma public_only m p h : lookup_route public_routes m p = Some h -> h = HLogin \/ h = HHealth \/ h = HVerify.
Proof. intros H. apply find_route in H. unfold public_routes in H. rewrite !elem_of_cons in H. destruct H as [E|[E|[E|E]]]; [injection E as -> -> ->; auto..|by apply elem_of_nil in E]. Qed.
Lemma guarded_only m p h : lookup_route guarded_routes m p = Some h -> administrative h /\ h <> HLogin /\ h <> HVerify.
Proof.
  intros H. apply find_route in H. assert (Forall (fun r => administrative r.2 /\ r.2 <> HLogin /\ r.2 <> HVerify) guarded_routes) as HF.
  { unfold guarded_routes. repeat (apply Forall_cons; split; [by cbn|]). by apply Forall_nil. }
  rewrite Forall_forall in HF. apply (HF _ H).
Qed.
Lemma pprof_only m p h : lookup_route pprof_routes m p = Some h -> exists x, h = HPprof x.
Proof.
  intros H. apply find_route in H. assert (Forall (fun r => exists x, r.2 = HPprof x) pprof_routes) as HF.
  { unfold pprof_routes. cbn. repeat (apply Forall_cons; split; [by eexists|]). by apply Forall_nil. }
  rewrite Forall_forall in HF. destruct (HF _ H) as [x E]. by exists x.
Qed.

Lemma tm_ok_get J w t0 tk now k m r m' : tm_ok J w t0 tk m -> get_token now k m = (r, m') ->
  tm_ok J w t0 tk m' /\ forall tok, r = Some tok -> tk = Some k /\ tok = sign J (wKey w) (new_claims t0 (wAdmin w)) /\ (now <= ns t0 + 180000000000)%Z.
Proof.
  intros HM. unfold get_token. destruct (m !! k) as [d|] eqn:E; [|intros [= <- <-]; done].
  destruct (HM k d E) as (H1 & H2 & H3).
  assert (tm_ok J w t0 tk (delete k m)) as HD by (intros k' d' E'; apply lookup_delete_Some in E' as [_ E']; by eapply HM).
  destruct (Z.ltb_spec (kExpireAt d) now) as [Hl|Hl]; [intros [= <- <-]; done|].
  destruct (kUseCount d >=? kMaxUse d)%Z; [intros [= <- <-]; done|]. intros [= <- <-]. split.
  - intros k' d' E'. apply lookup_insert_Some in E' as [[<- <-]|[_ E']]; [done|by eapply HM].
  - intros tok [= <-]. rewrite <- H3. done.
Qed.

(* what a request can bring about *)
Lemma respond_cases J w now q m h a m' t0 tk : tm_ok J w t0 tk m -> respond J w now q m = (h, a, m') ->
  tm_ok J w t0 tk m' /\
  (forall tok, a = Handed tok -> exists from u, tok = sign J (wKey w) (new_claims from u) /\ obtained w t0 tk (WReq now q h a) tok from) /\
  (forall x, h = Some x -> administrative x -> (exists y, x = HPprof y /\ wPprof w = true) \/ token_ok J (wKey w) now (qToken q) = true).
Proof.
  intros HM. unfold respond. destruct (lookup_route public_routes _ _) as [h0|] eqn:E1.
  { destruct (public_only _ _ _ E1) as [-> |[-> | ->]]; cbn [run_handler].
    - intros [= <- <- <-]. split; [done|]. split; [|by intros x [= <-] H]. intros tok Ht. destruct (_ && _) eqn:B; [|done]. injection Ht as <-.
      apply andb_true_iff in B as [B1 B2]. apply bool_decide_eq_true in B1, B2. exists now, (qUser q). split; [done|]. exists now, q. by left.
    - intros [= <- <- <-]. split; [done|]. split; [done|]. by intros x [= <-] H.
    - destruct (qKey q) as [|b k] eqn:Ek.
      { intros [= <- <- <-]. split; [done|]. split; [done|]. by intros x [= <-] H. }
      destruct (get_token (ns now) (b :: k) m) as [r m1] eqn:Eg. destruct (tm_ok_get _ _ _ _ _ _ _ _ _ HM Eg) as [HM1 HR].
      destruct r as [tok0|]; intros [= <- <- <-]; (split; [done|]); (split; [|by intros x [= <-] H]); [|done].
      intros tok [= <-]. destruct (HR tok0 eq_refl) as (R1 & R2 & R3). exists t0, (wAdmin w). split; [done|]. exists now, q. right; left. rewrite Ek.
      split; [done|]. split; [done|]. split; [|done]. unfold ns in R3. lia. }
  destruct (lookup_route guarded_routes _ _) as [h0|] eqn:E2.
  { destruct (guarded_only _ _ _ E2) as (A1 & A2 & A3). destruct (bool_decide (qToken q = [])); [intros [= <- <- <-]; done|].
    destruct (token_ok J (wKey w) now (qToken q)) eqn:Et; [|intros [= <- <- <-]; done].
    destruct (run_handler J w now q h0 m) as [a0 m0] eqn:Er. intros [= <- <- <-].
    destruct h0; cbn in Er; try done; injection Er as <- <-; (split; [done|]); (split; [|by right]); try done.
    intros tok [= <-]. exists now, (qUser q). split; [done|]. exists now, q. by right; right. }
  destruct (if wPprof w then _ else _) as [h0|] eqn:E3.
  { destruct (wPprof w); [|done]. destruct (pprof_only _ _ _ E3) as [x ->]. cbn. intros [= <- <- <-]. split; [done|]. split; [done|]. intros y [= <-] _. left. by eexists. }
  destruct (is_static _ _); cbn; intros [= <- <- <-]; (split; [done|]); (split; [done|]); by intros x [= <-] H.
Qed.

Lemma wexec_ok J w t0 tk tr s : wexec J w (wst0 J w t0 tk) tr s -> out_ok J w t0 tk tr s.
Proof.
  induction 1 as [|tr s e s' Hx IH Hs].
  - split; [cbn; lia|]. split; [|intros tok H; by apply elem_of_nil in H]. cbn [sTm wst0]. destruct tk as [k|]; [|intros k d H; by rewrite lookup_empty in H].
    intros k' d H. unfold generate in H. apply lookup_insert_Some in H as [[<- <-]|[_ H]]; [done|by rewrite lookup_empty in H].
  - destruct IH as (IH1 & IH2 & IH3). destruct Hs as [now m out|now m out q h a m' Hf Hr].
    + split; [cbn in *; lia|]. split; [done|]. intros tok Ht. destruct (IH3 tok Ht) as (e & from & u & H1 & H2). exists e, from, u. split; [|done]. apply elem_of_app. by left.
    + destruct (respond_cases _ _ _ _ _ _ _ _ _ _ IH2 Hr) as (R1 & R2 & R3). split; [done|]. split; [done|]. cbn [sOut]. intros tok Ht. apply elem_of_app in Ht as [Ht|Ht].
      * destruct a as [|tok0| |]; try by apply elem_of_nil in Ht. apply elem_of_list_singleton in Ht as ->. destruct (R2 tok0 eq_refl) as (from & u & E & HO).
        exists (WReq now q h (Handed tok0)), from, u. split; [|done]. apply elem_of_app. right. by apply elem_of_list_singleton.
      * destruct (IH3 tok Ht) as (e & from & u & H1 & H2). exists e, from, u. split; [|done]. apply elem_of_app. by left.
Qed.
Lemma wexec_app_inv J w s0 pre e post s : wexec J w s0 (pre ++ e :: post) s -> exists s1 s2, wexec J w s0 pre s1 /\ wstep J w s1 e s2.
Proof.
  revert s. induction post as [|e' post IH] using rev_ind; intros s H.
  - inversion H as [E|tr s1 e1 s' Hx Hs E]; [by destruct pre|]. apply app_inj_tail in E as [-> ->]. by exists s1, s.
  - replace (pre ++ e :: post ++ [e']) with ((pre ++ e :: post) ++ [e']) in H by by rewrite <- app_assoc.
    inversion H as [E|tr s1 e1 s' Hx Hs E]; [by destruct pre|]. apply app_inj_tail in E as [-> ->]. by eapply IH.
Qed.

(* ---- every administrative action carried a token that was obtained before, less than half an hour ago ---- *)
Theorem C61_authorised_partial J w t0 tk tr s pre now q h a post : ideal J -> wexec J w (wst0 J w t0 tk) tr s -> wPprof w = false ->
  tr = pre ++ WReq now q (Some h) a :: post -> administrative h ->
  exists e from, e ∈ pre /\ obtained w t0 tk e (qToken q) from /\ from <= now < from + 1800.
Proof.
  intros HJ Hx Hp -> Ha. destruct (wexec_app_inv _ _ _ _ _ _ _ Hx) as (s1 & s2 & H1 & H2). destruct (wexec_ok _ _ _ _ _ _ H1) as (_ & HM & HO).
  inversion H2 as [|now' m out q' h' a' m' Hf Hr]; subst. destruct (respond_cases _ _ _ _ _ _ _ _ _ _ HM Hr) as (_ & _ & R3).
  destruct (R3 h eq_refl Ha) as [(y & _ & B)|B]; [congruence|]. unfold token_ok in B. destruct (unsign J (wKey w) (qToken q)) as [c|] eqn:Eu; [|done].
  destruct (HO _ (Hf c eq_refl)) as (e & from & u & E1 & E2 & E3). exists e, from. split; [done|]. split; [done|].
  rewrite E3 in Eu. assert (unsign J (wKey w) (sign J (wKey w) (new_claims from u)) = Some (new_claims from u)) as Q by by apply HJ. rewrite Q in Eu. injection Eu as <-.
  apply andb_true_iff in B as [B1 B2]. apply N.leb_le in B1. apply N.ltb_lt in B2. cbn [jFrom jUntil new_claims] in B1, B2. unfold tokenDuration in B2. lia.
Qed.
(* ... so before the first one somebody logged in with the administrator's name and password, or used the temporary key in
   its first three minutes *)
Theorem C61_needs_secret_partial J w t0 tk tr s : ideal J -> wexec J w (wst0 J w t0 tk) tr s -> wPprof w = false ->
  (exists now q h a, WReq now q (Some h) a ∈ tr /\ administrative h) ->
  exists t q tok, (WReq t q (Some HLogin) (Handed tok) ∈ tr /\ qUser q = wAdmin w /\ qPass q = wPass w) \/
                  (WReq t q (Some HVerify) (Handed tok) ∈ tr /\ tk = Some (qKey q) /\ t <= t0 + 180).
Proof.
  intros HJ Hx Hp (now & q & h & a & Hin & Ha). revert s now q h a Hx Hin Ha. induction tr as [tr IH] using (induction_ltof1 _ (@length wevt)). unfold ltof in IH.
  intros s now q h a Hx Hin Ha. apply elem_of_list_split in Hin as (pre & post & ->).
  destruct (C61_authorised_partial _ _ _ _ _ _ pre now q h a post HJ Hx Hp eq_refl Ha) as (e & from & He & (t & q' & Ho) & _).
  destruct Ho as [(-> & E1 & E2 & _)|[(-> & E1 & E2 & _)|(-> & _)]].
  - exists t, q', (qToken q). left. split; [apply elem_of_app; by left|done].
  - exists t, q', (qToken q). right. split; [apply elem_of_app; by left|done].
  - destruct (wexec_app_inv _ _ _ _ _ _ _ Hx) as (s1 & s2 & H1 & _).
    destruct (IH pre ltac:(rewrite app_length; cbn; lia) s1 t q' HChangeUser (Handed (qToken q)) H1 He I) as (t1 & q1 & tok1 & [[G1 G2]|[G1 G2]]);
      exists t1, q1, tok1; [left|right]; (split; [apply elem_of_app; by left|done]).
Qed.

(* ---- it is usable: whoever logs in can act for half an hour ---- *)
Theorem C61_login_exactly J w now q m h a m' : respond J w now q m = (h, a, m') -> qMethod q = bs "POST" -> qPath q = bs "/api/login" ->
  (qUser q = wAdmin w /\ qPass q = wPass w -> a = Handed (sign J (wKey w) (new_claims now (wAdmin w)))) /\
  (~ (qUser q = wAdmin w /\ qPass q = wPass w) -> a = Failed401).
Proof.
  intros Hr Hm Hp. unfold respond in Hr. rewrite Hm, Hp in Hr. change (lookup_route public_routes (bs "POST") (bs "/api/login")) with (Some HLogin) in Hr. cbn [run_handler] in Hr.
  injection Hr as _ <- _. split.
  - intros [-> ->]. by rewrite !bool_decide_eq_true_2.
  - intros HN. destruct (_ && _) eqn:B; [|done]. apply andb_true_iff in B as [B1 B2]. exfalso. apply HN. split; [by apply bool_decide_eq_true in B1|by apply bool_decide_eq_true in B2].
Qed.
Theorem C61_token_works J w t now q m user h : ideal J -> (forall k c, sign J k c <> []) -> qToken q = sign J (wKey w) (new_claims t user) ->
  (qMethod q, qPath q, h) ∈ guarded_routes -> t <= now < t + 1800 -> (respond J w now q m).1.1 = Some h.
Proof.
  intros HJ Hne Hq Hr Ht. unfold respond.
  assert (forall r, r ∈ guarded_routes -> lookup_route public_routes r.1.1 r.1.2 = None /\ lookup_route guarded_routes r.1.1 r.1.2 = Some r.2) as HA.
  { apply Forall_forall. unfold guarded_routes at 1. repeat (apply Forall_cons; split; [done|]). by apply Forall_nil. }
  destruct (HA _ Hr) as [A1 A2]. cbn in A1, A2. rewrite A1, A2. rewrite bool_decide_eq_false_2 by (rewrite Hq; apply Hne).
  unfold token_ok. assert (unsign J (wKey w) (qToken q) = Some (new_claims t user)) as -> by by apply HJ.
  cbn [jFrom jUntil new_claims]. unfold tokenDuration. replace (t <=? now) with true by (symmetry; apply N.leb_le; lia). replace (now <? t + 1800) with true by (symmetry; apply N.ltb_lt; lia).
  cbn [andb]. by destruct (run_handler _ _ _ _ _ _).
Qed.
(* no login with an empty name or an empty password, whatever the configuration *)
Theorem C61_no_empty_login J r1 r2 w now q m h a m' : r1 <> [] -> r2 <> [] -> respond J (first_start r1 r2 w).1 now q m = (h, a, m') ->
  qMethod q = bs "POST" -> qPath q = bs "/api/login" -> qUser q = [] \/ qPass q = [] -> a = Failed401.
Proof.
  intros H1 H2 Hr Hm Hp Hq. eapply (proj2 (C61_login_exactly _ _ _ _ _ _ _ _ Hr Hm Hp)). cbn [first_start fst wAdmin wPass]. intros [E1 E2].
  destruct Hq as [Hq|Hq]; rewrite Hq in *.
  - clear E2. case_bool_decide; congruence.
  - clear E1. case_bool_decide; congruence.
Qed.

(* ---- where it is broken ---- *)
(* Without a user name or a password in the configuration, and only then, the first start offers a temporary key; what is
   configured is kept, and what is missing is replaced by the random text *)
Theorem C61_first_start r1 r2 w : ((first_start r1 r2 w).2 = true <-> wAdmin w = [] \/ wPass w = []) /\
  (wAdmin w <> [] -> wAdmin (first_start r1 r2 w).1 = wAdmin w) /\ (wPass w <> [] -> wPass (first_start r1 r2 w).1 = wPass w) /\
  (wAdmin w = [] -> wAdmin (first_start r1 r2 w).1 = r1) /\ (wPass w = [] -> wPass (first_start r1 r2 w).1 = r2) /\ wKey (first_start r1 r2 w).1 = wKey w.
Proof.
  unfold first_start. cbn. rewrite orb_true_iff, !bool_decide_eq_true. split_and!; try done; intros H; rewrite ?bool_decide_eq_true_2, ?bool_decide_eq_false_2 by done; done.
Qed.
(* with -pprof the profiler is open to everybody: a memory dump of the process, command line and all *)
Theorem C61_pprof_refuted J w now user pass key tok m : wPprof w = true ->
  (respond J w now (mkRq (bs "GET") (bs "/debug/pprof/cmdline") tok user pass key) m).1.1 = Some (HPprof (bs "cmdline")) /\
  (respond J w now (mkRq (bs "GET") (bs "/debug/pprof/heap") tok user pass key) m).1.1 = Some (HPprof (bs "heap")).
Proof. intros Hp. unfold respond. cbn [qMethod qPath]. rewrite Hp. done. Qed.
(* changing the password does not end the old one's rights: neither the tokens handed out before nor, until a restart, the
   old password itself; and the new one does not work *)
Theorem C61_change_refuted J w now q m user pass key tok : ideal J -> (forall k c, sign J k c <> []) ->
  let login u p := (respond J w now (mkRq (bs "POST") (bs "/api/login") tok u p key) m).1.2 in
  forall t, t <= now < t + 1800 -> (user, pass) <> (wAdmin w, wPass w) ->
  let old := sign J (wKey w) (new_claims t (wAdmin w)) in
  (* the request to change them is carried out, with a token from time t *)
  (respond J w now (mkRq (bs "POST") (bs "/api/user/change") old user pass key) m).1.1 = Some HChangeUser /\
  login (wAdmin w) (wPass w) = Handed (sign J (wKey w) (new_claims now (wAdmin w))) /\ login user pass = Failed401 /\
  (respond J w now (mkRq (bs "PUT") (bs "/api/server/kill") old q q q) m).1.1 = Some HKill.
Proof.
  intros HJ Hne login t Ht Hd old. split; [|split; [|split]].
  - eapply (C61_token_works J w t now); [done|done|reflexivity| |done]. cbn. unfold guarded_routes, POST, GET. repeat first [apply elem_of_list_here|apply elem_of_list_further].
  - unfold login. destruct (respond J w now _ m) as [[h a] m'] eqn:E. by eapply (proj1 (C61_login_exactly _ _ _ _ _ _ _ _ E eq_refl eq_refl)).
  - unfold login. destruct (respond J w now _ m) as [[h a] m'] eqn:E. eapply (proj2 (C61_login_exactly _ _ _ _ _ _ _ _ E eq_refl eq_refl)). cbn. intros [-> ->]. done.
  - eapply (C61_token_works J w t now); [done|done|reflexivity| |done]. cbn. unfold guarded_routes, POST, GET, PUT. repeat first [apply elem_of_list_here|apply elem_of_list_further].
Qed.

(* ---- concrete cases: a codec, and a run in which the administrator logs in, changes the password and is refused afterwards *)
Definition demo_codec : codec :=
  mkCodec (fun k c => N.of_nat (length k) :: N.of_nat (length (jUser c)) :: jFrom c :: jUntil c :: k ++ jUser c)
          (fun k s => match s with
                      | a :: b :: f :: u :: r =>
                          if (a =? N.of_nat (length k)) && bool_decide (take (length k) r = k) && (b =? N.of_nat (length (drop (length k) r)))
                          then Some (mkClaims (drop (length k) r) f u) else None
                      | _ => None
                      end).
Theorem C61_codec : ideal demo_codec /\ forall k c, sign demo_codec k c <> [].
Proof.
  split; [|done]. intros k s [us f u]. cbn [unsign sign demo_codec jUser jFrom jUntil]. split.
  - destruct s as [|a [|b [|f' [|u' r]]]]; try done. destruct (_ && _) eqn:B; [|done]. apply andb_true_iff in B as [B B3]. apply andb_true_iff in B as [B1 B2].
    apply N.eqb_eq in B1, B3. apply bool_decide_eq_true in B2. intros [= E1 -> ->]. rewrite <- E1, <- B1, <- B3. rewrite <- B2 at 1. by rewrite take_drop.
  - intros ->. rewrite N.eqb_refl, take_app, drop_app. rewrite bool_decide_eq_true_2 by done. rewrite N.eqb_refl. done.
Qed.
Definition demo_w := mkW (bs "key") (bs "admin") (bs "pw") false.
Definition demo_login := mkRq (bs "POST") (bs "/api/login") [] (bs "admin") (bs "pw") [].
Definition demo_tok := sign demo_codec (bs "key") (new_claims 100 (bs "admin")).
Definition demo_kill := mkRq (bs "PUT") (bs "/api/server/kill") demo_tok [] [] [].
Theorem C61_witness :
  wexec demo_codec demo_w (wst0 demo_codec demo_w 100 None) [WReq 100 demo_login (Some HLogin) (Handed demo_tok); WReq 100 demo_kill (Some HKill) Done]
    (mkWs 100 ∅ [demo_tok]) /\ administrative HKill /\
  respond demo_codec demo_w 1900 demo_kill ∅ = (None, Unauthorised, ∅) /\
  respond demo_codec demo_w 1899 (mkRq (bs "PUT") (bs "/api/server/kill") (bs "guess") [] [] []) ∅ = (None, Unauthorised, ∅).
Proof.
  split; [|split; [done|split; done]].
  apply (wx_snoc _ _ _ [WReq 100 demo_login (Some HLogin) (Handed demo_tok)] (mkWs 100 ∅ [demo_tok])).
  - apply (wx_snoc _ _ _ [] (wst0 demo_codec demo_w 100 None)); [constructor|]. apply (w_request _ _ 100 ∅ []); [|done]. intros c H. done.
  - apply (w_request _ _ 100 ∅ [demo_tok] demo_kill (Some HKill) Done ∅); [|done]. intros c _. apply elem_of_list_here.
Qed.
