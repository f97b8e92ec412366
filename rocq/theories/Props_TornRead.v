(* Props_TornRead.v -- C102, continued: what the visitors get over a tunnel that ends in the middle of a frame; how long a Write may take (TornModel) *)
From Verif Require Import GoBase GoBaseLemmas BufioModel BufioProofs HandshakeModel HandshakeProofs FrameModel FrameSpec FrameProofs FrameProofsC FrameProofsD FrameProofsE Props_Frames TornModel Props_Torn.
Local Open Scope nat_scope.

Lemma peekd_short {A} n (fail : err -> prog A) k d e : length d < N.to_nat n -> exists r, s_run (peekd n fail k) (map B d ++ [E e]) = s_run (fail e) r.
Proof.
  intros H. rewrite s_run_peekd, s_take_ge by lia. destruct (N.to_nat n - length d) as [|m] eqn:Em; [lia|]. cbn [s_take]. eauto.
Qed.
(* the read loop on the first k bytes of a frame, k less than all *)
Lemma srv_iter_torn deadline env st f k e t : honest_client f -> k < length (enc_frame f) -> exists why ev r,
  s_run (srv_iter deadline env st) (map B (take k (enc_frame f)) ++ [E e]) = (inr (why, ev), r) /\ s_delivered t ev `prefix_of` s_delivered t (snd (srv_effect env st f)).
Proof.
  intros [Hok Hc] Hk. unfold srv_iter. cbv zeta. set (m := acts (se_acts env) (sTasks st)) in *.
  destruct (Nat.lt_ge_cases k 4) as [H4|H4].
  { match goal with |- context[s_run (peekd 4 ?bad ?kk) (map B ?d ++ _)] => destruct (peekd_short 4 bad kk d e) as [r Hr] end; [rewrite take_length; lia|].
    rewrite Hr. cbn [s_run]. do 3 eexists. split; [reflexivity|]. apply prefix_nil. }
  destruct f as [|t' p|t'|sg| | |]; try done; cbn [enc_frame frame_ok] in *.
  - destruct Hok as [Ht Hl]. destruct (tid_not_signal t' Ht) as (Ht32 & H1 & H2 & H3 & _).
    rewrite take_app_ge by (cbn; lia). change (length (be32 t')) with 4. rewrite map_app, <- app_assoc, s_run_peekd_be32, p32_be32 by done. rewrite H1, H2, H3.
    destruct (Nat.lt_ge_cases k 6) as [H6|H6].
    { match goal with |- context[s_run (peekd 2 ?bad ?kk) (map B ?d ++ _)] => destruct (peekd_short 2 bad kk d e) as [r Hr] end; [rewrite take_length; lia|].
      rewrite Hr. cbn [s_run]. do 3 eexists. split; [reflexivity|]. apply prefix_nil. }
    rewrite take_app_ge by (cbn; lia). change (length (be16 OpData)) with 2. rewrite map_app, <- app_assoc, s_run_peekd_be16. change (p16 (be16 OpData)) with 0%N. change (0 =? OpData)%N with true. cbn iota.
    destruct (Nat.lt_ge_cases k 10) as [H10|H10].
    { match goal with |- context[s_run (peekd 4 ?bad ?kk) (map B ?d ++ _)] => destruct (peekd_short 4 bad kk d e) as [r Hr] end; [rewrite take_length; lia|].
      rewrite Hr. cbn [s_run]. do 3 eexists. split; [reflexivity|]. apply prefix_nil. }
    rewrite take_app_ge by (cbn; lia). change (length (be32 (blen p))) with 4. rewrite map_app, <- app_assoc, s_run_peekd_be32, p32_be32 by done.
    assert (Hkp : k - 10 < length p). { unfold be32, be16 in Hk. cbn [app length] in Hk. lia. }
    replace (k - 4 - 2 - 4) with (k - 10) by lia. set (d := take (k - 10) p). assert (Hd : length d < length p) by (unfold d; rewrite take_length; lia). assert (Hdp : d `prefix_of` p) by (exists (drop (k - 10) p); symmetry; apply take_drop).
    assert (Hge : forall n, length d < n -> s_take n (map B d ++ [E e]) = (d, Some e, [])).
    { intros n Hn. rewrite s_take_ge by lia. destruct (n - length d) as [|j] eqn:Ej; [lia|]. cbn [s_take]. by rewrite app_nil_r. }
    destruct (m !! t') as [w|] eqn:Hm.
    + cbn [s_run srv_effect]. fold m. rewrite Hm. cbn [snd s_delivered map concat]. destruct (decide (t' = t)) as [->|Hne].
      2: { unfold s_copy. destruct w as [c|]; [destruct (N.ltb_spec c (blen p))|].
        - destruct (Nat.lt_ge_cases (length d) (N.to_nat (c + 1))) as [Hcd|Hcd].
          + rewrite Hge by done. cbn iota. destruct (N.ltb_spec 0 (blen p - blen d)); [|unfold blen in *; lia]. cbn [s_run s_discard]. unfold s_discard. destruct (N.to_nat (blen p - blen d)) as [|j] eqn:Ej; [unfold blen in *; lia|]. cbn [s_take].
            do 3 eexists. split; [reflexivity|]. cbn. rewrite decide_False by done. done.
          + rewrite s_take_le by lia. cbn iota. destruct (N.ltb_spec 0 (blen p - c)); [|lia]. cbn [s_run]. unfold s_discard. rewrite app_assoc, <- map_app. rewrite s_take_ge.
            2: { rewrite app_length. unfold ndrop. rewrite !drop_length, take_length. unfold blen. lia. }
            match goal with |- context[s_take ?n [E e]] => destruct n as [|j] eqn:Ej end.
            { exfalso. rewrite app_length in Ej. unfold ndrop in Ej. rewrite !drop_length, take_length in Ej. unfold blen in Ej. lia. }
            cbn [s_take]. do 3 eexists. split; [reflexivity|]. cbn. rewrite decide_False by done. done.
        - rewrite Hge by (unfold blen; lia). cbn iota. destruct (N.ltb_spec 0 (blen p - blen d)); [|unfold blen in *; lia]. cbn [s_run]. unfold s_discard. destruct (N.to_nat (blen p - blen d)) as [|j] eqn:Ej; [unfold blen in *; lia|]. cbn [s_take].
          do 3 eexists. split; [reflexivity|]. cbn. rewrite decide_False by done. done.
        - rewrite Hge by (unfold blen; lia). cbn iota. destruct (N.ltb_spec 0 (blen p - blen d)); [|unfold blen in *; lia]. cbn [s_run]. unfold s_discard. destruct (N.to_nat (blen p - blen d)) as [|j] eqn:Ej; [unfold blen in *; lia|]. cbn [s_take].
          do 3 eexists. split; [reflexivity|]. cbn. rewrite decide_False by done. done. }
      unfold s_copy. destruct w as [c|]; [destruct (N.ltb_spec c (blen p))|].
      * destruct (Nat.lt_ge_cases (length d) (N.to_nat (c + 1))) as [Hcd|Hcd].
        -- rewrite Hge by done. cbn iota. destruct (N.ltb_spec 0 (blen p - blen d)); [|unfold blen in *; lia]. cbn [s_run]. unfold s_discard. destruct (N.to_nat (blen p - blen d)) as [|j] eqn:Ej; [unfold blen in *; lia|]. cbn [s_take].
           do 3 eexists. split; [reflexivity|]. cbn. rewrite decide_True by done. rewrite !app_nil_r. unfold ntake. assert (Hdt : d = take (length d) p) by (unfold d; rewrite take_length; rewrite Nat.min_l by lia; done).
           rewrite Hdt. exists (drop (length d) (take (N.to_nat c) p)). rewrite <- (take_drop (length d) (take (N.to_nat c) p)) at 1. f_equal. rewrite take_take, Nat.min_l by lia. done.
        -- rewrite s_take_le by lia. cbn iota. destruct (N.ltb_spec 0 (blen p - c)); [|lia]. cbn [s_run]. unfold s_discard. rewrite app_assoc, <- map_app. rewrite s_take_ge.
           2: { rewrite app_length. unfold ndrop. rewrite !drop_length, take_length. unfold blen. lia. }
           match goal with |- context[s_take ?n [E e]] => destruct n as [|j] eqn:Ej end.
           { exfalso. rewrite app_length in Ej. unfold ndrop in Ej. rewrite !drop_length, take_length in Ej. unfold blen in Ej. lia. }
           cbn [s_take]. do 3 eexists. split; [reflexivity|]. cbn. rewrite decide_True by done. rewrite !app_nil_r. unfold ntake. rewrite take_take, Nat.min_l by lia. unfold d. rewrite take_take, Nat.min_l; [done|]. unfold d in Hcd. rewrite take_length in Hcd. lia.
      * rewrite Hge by (unfold blen; lia). cbn iota. destruct (N.ltb_spec 0 (blen p - blen d)); [|unfold blen in *; lia]. cbn [s_run]. unfold s_discard. destruct (N.to_nat (blen p - blen d)) as [|j] eqn:Ej; [unfold blen in *; lia|]. cbn [s_take].
        do 3 eexists. split; [reflexivity|]. cbn. rewrite decide_True by done. rewrite !app_nil_r. unfold ntake. rewrite (take_ge p) by (unfold blen in *; lia). done.
      * rewrite Hge by (unfold blen; lia). cbn iota. destruct (N.ltb_spec 0 (blen p - blen d)); [|unfold blen in *; lia]. cbn [s_run]. unfold s_discard. destruct (N.to_nat (blen p - blen d)) as [|j] eqn:Ej; [unfold blen in *; lia|]. cbn [s_take].
        do 3 eexists. split; [reflexivity|]. cbn. rewrite decide_True by done. rewrite !app_nil_r. done.
    + destruct (N.ltb_spec 0 (blen p)); [|unfold blen in *; lia]. cbn [s_run]. unfold s_discard. rewrite Hge by (unfold blen; lia). do 3 eexists. split; [reflexivity|]. apply prefix_nil.
  - destruct (tid_not_signal t' Hok) as (Ht32 & H1 & H2 & H3 & _).
    rewrite take_app_ge by (cbn; lia). change (length (be32 t')) with 4. rewrite map_app, <- app_assoc, s_run_peekd_be32, p32_be32 by done. rewrite H1, H2, H3.
    match goal with |- context[s_run (peekd 2 ?bad ?kk) (map B ?d ++ _)] => destruct (peekd_short 2 bad kk d e) as [r Hr] end; [rewrite take_length; unfold be32, be16 in Hk; cbn [app length] in Hk; lia|].
    rewrite Hr. cbn [s_run]. do 3 eexists. split; [reflexivity|]. apply prefix_nil.
  - exfalso. unfold be32 in Hk. cbn in Hk. lia.
Qed.
Lemma srv_loop_torn deadline t f k e : honest_client f -> k <= length (enc_frame f) -> forall envs st fs, Forall honest_client fs -> server_up envs ->
  s_delivered t (snd (fst (s_run (srv_loop deadline envs st) (map B (wire fs ++ take k (enc_frame f)) ++ [E e])))) `prefix_of` s_delivered t (snd (srv_effects envs st (fs ++ [f]))).
Proof.
  intros Hf Hk. induction envs as [|env envs IH]; intros st fs Hfs Hu; [apply prefix_nil|]. apply Forall_cons_1 in Hu as [Hu1 Hu].
  assert (Hcf : forall g, honest_client g -> client_frame deadline env st g).
  { intros g [Hok Hg]. split; [done|]. destruct g; try done; cbn in *; try (left; tauto); tauto. }
  cbn [srv_loop]. rewrite s_run_bind. destruct fs as [|g fs].
  - cbn [wire map concat app]. destruct (Nat.eq_dec k (length (enc_frame f))) as [->|Hn].
    + rewrite firstn_all, srv_iter_frame by auto. cbn [srv_effects app]. destruct (srv_effect env st f) as [st' ev]. rewrite s_run_bind. cbn iota.
      assert (Hl : forall envs st, s_delivered t (snd (fst (s_run (srv_loop deadline envs st) [E e]))) = []). { clear. intros [|env envs] st; [done|]. cbn [srv_loop]. rewrite s_run_bind. unfold srv_iter. cbv zeta. rewrite s_run_peekd. cbn [N.to_nat Pos.to_nat]. change (N.to_nat 4) with 4. cbn [s_take]. done. }
      specialize (Hl envs st'). destruct (s_run (srv_loop deadline envs st') [E e]) as [[o evs] r]. cbn [fst snd s_run] in *. destruct (srv_effects envs st' []) as [st'' evs'] eqn:Ee.
      assert (evs' = []) as -> by (destruct envs; cbn in Ee; congruence). cbn [fst snd]. rewrite !s_delivered_app, Hl. done.
    + destruct (srv_iter_torn deadline env st f k e t Hf ltac:(lia)) as (why & ev & r & Hr & Hp). rewrite Hr. cbn [s_run fst snd srv_effects app]. destruct (srv_effect env st f) as [st' ev']. cbn [snd] in *.
      destruct (srv_effects envs st' []) as [st'' evs'] eqn:Ee. cbn [snd]. rewrite s_delivered_app. by apply prefix_app_r.
  - apply Forall_cons_1 in Hfs as [Hg Hfs]. rewrite wire_cons, <- app_assoc, map_app, <- app_assoc, srv_iter_frame by auto. cbn [srv_effects app]. destruct (srv_effect env st g) as [st' ev]. rewrite s_run_bind.
    specialize (IH st' fs Hfs Hu). destruct (s_run (srv_loop deadline envs st') _) as [[o evs] r]. cbn [fst snd s_run] in *. destruct (srv_effects envs st' (fs ++ [f])) as [st'' evs']. cbn [fst snd] in *. rewrite !s_delivered_app. by apply prefix_app.
Qed.
(* So over such a connection (TLS, or no timeout), however and whenever it ends, what visitor t has got is the beginning of what its own service has sent: *)
Lemma frames_of_writer t i (log : list (nat * frame)) : (forall j f, (j, f) ∈ log -> j <> i -> frame_task f <> Some t) -> frames_of t log.*2 = frames_of t (of_writer i log).
Proof.
  induction log as [|[j f] log IH]; intros H; [done|]. rewrite fmap_cons. cbn [snd]. unfold of_writer in *. destruct (decide (j = i)) as [->|Hn].
  - rewrite filter_cons_True by done. rewrite fmap_cons. cbn [snd]. rewrite !frames_of_cons. rewrite IH; [done|]. intros j' f' Hj. apply H. by right.
  - rewrite filter_cons_False by done. rewrite frames_of_cons, decide_False by (apply (H j f); [by left|done]). apply IH. intros j' f' Hj. apply H. by right.
Qed.
Lemma in_of_writer j f log : (j, f) ∈ log -> f ∈ of_writer j log.
Proof. intros H. unfold of_writer. apply elem_of_list_fmap. exists (j, f). split; [done|]. by apply elem_of_list_filter. Qed.
Lemma prefix_in {A} (x : A) a b : a `prefix_of` b -> x ∈ a -> x ∈ b.
Proof. intros [c ->] H. apply elem_of_app. by left. Qed.
Lemma frames_of_app t a b : frames_of t (a ++ b) = frames_of t a ++ frames_of t b.
Proof. apply filter_app. Qed.
Theorem C102_own_bytes_partial T sticky closing l tr s i x fuel t src e deadline envs st e' : sticky = true \/ T = 0 -> krun (kst0 T sticky closing l) tr = Some s ->
  Forall (fun y => Forall honest_client y.1) l -> l !! i = Some x -> src_ok src -> cli_process fuel t false src = (x.1, Some e) ->
  (forall j y f, l !! j = Some y -> j <> i -> f ∈ y.1 -> frame_task f <> Some t) ->
  server_up envs -> Forall (fun env => only_stops t (se_acts env)) envs ->
  s_delivered t (snd (fst (s_run (srv_loop deadline envs st) (map B (kWire s) ++ [E e'])))) `prefix_of` src_bytes src.
Proof.
  intros Hsafe H Hh Hx Hok Hp Hothers Hu Ha. destruct (C102_whole_partial _ _ _ _ _ _ Hsafe H) as (log & part & Ew & Hlt & Hlog & Hpart). unfold cli_process in Hp.
  destruct (cli_data_frames fuel t src) as [fs0 e0] eqn:Hd. injection Hp as Hx1 ->. apply cli_data_frames_spec in Hd as (ps & -> & Hcat & _); [|done]. symmetry in Hx1.
  assert (Hin : forall j f, (j, f) ∈ log -> exists y, l !! j = Some y /\ f ∈ y.1).
  { intros j f Hj. destruct (lookup_lt_is_Some_2 l j) as [y Ey]; [by eapply Hlt|]. exists y. split; [done|]. eapply prefix_in; [by apply Hlog|]. by apply in_of_writer. }
  assert (Hhon : Forall honest_client log.*2).
  { apply Forall_forall. intros f ([j g] & -> & Hf)%elem_of_list_fmap. destruct (Hin _ _ Hf) as (y & Ey & Hg). rewrite Forall_forall in Hh. specialize (Hh y (elem_of_list_lookup_2 _ _ _ Ey)). rewrite Forall_forall in Hh. by apply Hh. }
  assert (Hfr : frames_of t log.*2 = frames_of t (of_writer i log)).
  { apply frames_of_writer. intros j f Hj Hn. destruct (Hin _ _ Hj) as (y & Ey & Hf). eauto. }
  assert (Hall : frames_of t x.1 = x.1).
  { rewrite Hx1. clear. induction ps as [|p ps IH]; cbn [map app]; rewrite frames_of_cons, decide_True by done; [done|]. by rewrite IH. }
  assert (Hmono : forall a b, a `prefix_of` b -> frames_of t a `prefix_of` frames_of t b). { intros a b [c ->]. rewrite frames_of_app. by eexists. }
  rewrite Ew, <- Hcat.
  assert (Hgo : forall f k, honest_client f -> k <= length (enc_frame f) -> frames_of t (log.*2 ++ [f]) `prefix_of` x.1 ->
    s_delivered t (snd (fst (s_run (srv_loop deadline envs st) (map B (wire log.*2 ++ take k (enc_frame f)) ++ [E e'])))) `prefix_of` concat ps).
  { intros f k Hf Hk Hpre. etrans; [apply srv_loop_torn; done|]. apply srv_deliver_prefix; [done|]. by rewrite <- Hx1. }
  destruct Hpart as [->|(j & y & f & k & Ey & Hpre & ->)].
  - apply (Hgo (FSignal PingSignal) 0); [done|lia|]. rewrite frames_of_app. change (frames_of t [FSignal PingSignal]) with (@nil frame). rewrite app_nil_r, Hfr, <- Hall. apply Hmono. by apply Hlog.
  - assert (Hfy : f ∈ y.1) by (eapply prefix_in; [exact Hpre|]; apply elem_of_app; right; by left).
    replace (take k (enc_frame f)) with (take (Nat.min k (length (enc_frame f))) (enc_frame f)) by (destruct (Nat.le_ge_cases k (length (enc_frame f))); [by rewrite Nat.min_l by lia|rewrite Nat.min_r by lia; by rewrite firstn_all, take_ge by lia]).
    apply Hgo; [|lia|].
    + rewrite Forall_forall in Hh. specialize (Hh y (elem_of_list_lookup_2 _ _ _ Ey)). rewrite Forall_forall in Hh. by apply Hh.
    + rewrite frames_of_app, Hfr. destruct (decide (j = i)) as [->|Hn].
      * rewrite Hx in Ey. injection Ey as <-. rewrite <- frames_of_app, <- Hall. by apply Hmono.
      * rewrite (frames_of_cons t f []), decide_False by (eapply Hothers; eauto). change (frames_of t []) with (@nil frame). rewrite app_nil_r, <- Hall. apply Hmono. by apply Hlog.
Qed.

(* ---- how long a Write may take ---- *)
Lemma no_arm_step s e s' : kstep s e = Some s' -> (forall i, e <> KArm i) -> kT s' = kT s /\ kDl s' = kDl s /\ kNow s' = (if decide (e = KTick) then S (kNow s) else kNow s).
Proof.
  intros E Ha. destruct e as [|i|i| | | |i|i|]; cbn [kstep] in E; try (by destruct (Ha i)).
  - by injection E as <-.
  - apply bind_Some in E as (w & Ew & E). destruct (kHold s); [discriminate E|]. destruct (wPh w); try discriminate E. by injection E as <-.
  - apply bind_Some in E as ([[i n] f] & Eh & E). apply bind_Some in E as (b & Eb & E). destruct (late s || dead s); [discriminate E|]. by injection E as <-.
  - apply bind_Some in E as ([[i n] f] & Eh & E). destruct (n =? _); [|discriminate E]. by injection E as <-.
  - apply bind_Some in E as ([[i n] f] & Eh & E). destruct (_ && _); [|discriminate E]. by injection E as <-.
  - apply bind_Some in E as (w & Ew & E). destruct (wPh w); try discriminate E; [destruct (_ && _); [|discriminate E]|]; by injection E as <-.
  - apply bind_Some in E as (w & Ew & E). destruct (wPh w); try discriminate E. destruct (_ && _); [|discriminate E]. by injection E as <-.
  - by injection E as <-.
Qed.
Lemma deadline_near T sticky closing l tr s : krun (kst0 T sticky closing l) tr = Some s -> kT s = T /\ kDl s <= kNow s + T.
Proof.
  assert (G : forall tr s s', krun s tr = Some s' -> kDl s <= kNow s + kT s -> kT s' = kT s /\ kDl s' <= kNow s' + kT s').
  { clear. induction tr as [|e tr IH]; intros s s' H Hd; cbn [krun] in H; [by injection H as <-|]. apply bind_Some in H as (s1 & E & H).
    assert (K : kT s1 = kT s /\ kDl s1 <= kNow s1 + kT s1).
    { destruct (begins e) eqn:Hb; [destruct e as [|i|i| | | |i|i|]; try discriminate Hb|].
      - cbn [kstep] in E. apply bind_Some in E as (w & Ew & E). destruct (wPh w); try discriminate E. destruct (wTodo w); [discriminate E|]. apply (inj Some) in E as <-. destruct (kShut s); (split; [done|]); [exact Hd|]. cbn [kDl kNow kT]. destruct (0 <? kT s); [|exact Hd]. exact (le_n _).
      - apply no_arm_step in E as (E1 & E2 & E3); [|intros i ->; discriminate Hb]. rewrite E1, E2, E3. split; [done|]. destruct (decide _); lia. }
    destruct K as [K1 K2]. destruct (IH _ _ H K2) as [K3 K4]. split; [congruence|done]. }
  intros H. destruct (G _ _ _ H) as [G1 G2]; [cbn; lia|]. rewrite G1 in G2. cbn [kst0 kT] in G1, G2. done.
Qed.
(* With a timeout a Write is over when nobody has begun one for that long: it has got no further byte out, and returns. *)
Theorem C102_in_time_partial T sticky closing l tr s tr' s' : 0 < T -> krun (kst0 T sticky closing l) tr = Some s -> krun s tr' = Some s' -> (forall i, KArm i ∉ tr') -> T <= length (filter (fun e => e = KTick) tr') ->
  kstep s' KPut = None /\ forall i n f, holder s' = Some (i, n, f) -> n < length (enc_frame f) -> is_Some (kstep s' KFail).
Proof.
  intros HT H H' Ha Hn. destruct (deadline_near _ _ _ _ _ _ H) as [E1 E2].
  assert (G : kT s' = kT s /\ kDl s' = kDl s /\ kNow s' = kNow s + length (filter (fun e => e = KTick) tr')).
  { clear Hn H E1 E2. revert s H' Ha. induction tr' as [|e tr' IH]; intros s H' Ha; cbn [krun] in H'; [injection H' as <-; cbn; split_and!; [done..|lia]|]. apply bind_Some in H' as (s1 & E & H').
    apply no_arm_step in E as (F1 & F2 & F3); [|intros i ->; apply (Ha i); by left]. destruct (IH s1 H') as (G1 & G2 & G3); [intros i Hi; apply (Ha i); by right|]. rewrite G1, G2, G3, F1, F2, F3. split_and!; [done..|].
    destruct (decide (e = KTick)); [rewrite filter_cons_True by done; cbn [length]|rewrite filter_cons_False by done]; lia. }
  destruct G as (G1 & G2 & G3). assert (Hl : late s' = true). { unfold late. rewrite G1, G2, G3, E1. destruct (Nat.ltb_spec 0 T); [|lia]. cbn. apply Nat.leb_le. lia. }
  split.
  - cbn [kstep]. destruct (holder s') as [[[i n] f]|]; [|done]. cbn [mbind option_bind]. destruct (enc_frame f !! n); [|done]. cbn [mbind option_bind]. by rewrite Hl.
  - intros i n f Hh Hlt. cbn [kstep]. rewrite Hh. cbn [mbind option_bind]. rewrite Hl. destruct (Nat.ltb_spec n (length (enc_frame f))); [|lia]. cbn. eauto.
Qed.
(* But each Write that is begun sets the deadline for all: as long as somebody begins one more often than once per timeout, a Write that gets nothing out does not end. *)
Theorem C102_extended_refuted T d sticky closing f n : d < T ->
  exists tr s, krun (kst0 T sticky closing (replicate (S n) ([f], false))) tr = Some s /\ kNow s = n * d /\ holder s = Some (0, 0, f) /\ kWire s = [] /\ kLog s = [] /\ kstep s KFail = None /\
    (forall i, KArm i ∈ tr -> i <= n) /\ length (filter (fun e => begins e = true) tr) = S n.
Proof.
  intros Hd. set (l := replicate (S n) ([f], false)).
  assert (G : forall m, m <= n -> exists tr s, krun (kst0 T sticky closing l) tr = Some s /\ kNow s = m * d /\ kT s = T /\ kDl s = m * d + T /\ kHold s = Some (0, 0) /\ kWire s = [] /\ kLog s = [] /\ kShut s = false /\ kBad s = false /\
     (forall i, i <= n -> kWs s !! i = Some (mkW [f] (if i <=? m then PArmed else PIdle) false false)) /\ (forall i, KArm i ∈ tr -> i <= m) /\ length (filter (fun e => begins e = true) tr) = S m).
  { induction m as [|m IH]; intros Hm.
    - exists [KArm 0; KTake 0]. eexists. split; [apply (arm_take _ 0 (mkW [f] PIdle false false) f); done|]. cbn [armed kst0 kNow kT kDl kHold kWire kLog kShut kBad kWs]. destruct (Nat.ltb_spec 0 T); [|lia]. split_and!; try done.
      + intros i Hi. unfold setw. cbn [kst0 kWs]. destruct i as [|i].
        * done.
        * rewrite list_lookup_alter_ne by done. rewrite list_lookup_fmap. unfold l. rewrite lookup_replicate_2 by lia. done.
      + intros i Hi. apply elem_of_cons in Hi as [Hi|Hi]; [injection Hi as ->; lia|]. apply elem_of_cons in Hi as [Hi|Hi]; [discriminate Hi|]. by apply elem_of_nil in Hi.
    - destruct IH as (tr & s & H & E1 & E2 & E3 & E4 & E5 & E6 & E7 & E8 & E9 & E10 & E11); [lia|]. exists (tr ++ replicate d KTick ++ [KArm (S m)]). eexists. split.
      + rewrite krun_app, H. cbn [mbind option_bind]. rewrite krun_app, ticks. cbn [mbind option_bind krun kstep kWs]. rewrite (E9 (S m)) by lia. cbn [mbind option_bind wPh wTodo].
        destruct (Nat.leb_spec (S m) m) as [|_]; [lia|]. rewrite E7. cbn [mbind option_bind]. reflexivity.
      + cbn [kNow kT kDl kHold kWire kLog kShut kBad kWs]. rewrite E2. destruct (Nat.ltb_spec 0 T); [|lia]. split_and!; try done; [lia|lia| | |].
        * intros i Hi. unfold setw. cbn [kWs]. destruct (decide (i = S m)) as [->|Hn].
          -- rewrite list_lookup_alter, (E9 (S m)) by lia. cbn. destruct (Nat.leb_spec m m); [done|lia].
          -- rewrite list_lookup_alter_ne by done. rewrite E9 by lia. destruct (Nat.leb_spec i m), (Nat.leb_spec i (S m)); try lia; done.
        * intros i Hi. apply elem_of_app in Hi as [Hi|Hi]; [apply E10 in Hi; lia|]. apply elem_of_app in Hi as [Hi|Hi]; [apply elem_of_replicate in Hi as [Hi _]; discriminate Hi|]. apply elem_of_list_singleton in Hi. injection Hi as ->. lia.
        * rewrite !filter_app, !app_length, E11. assert (Hz : filter (fun e => begins e = true) (replicate d KTick) = []).
          { clear. induction d as [|d IH]; [done|]. cbn [replicate]. done. }
          rewrite Hz. cbn. rewrite decide_True by done. cbn. lia. }
  destruct (G n) as (tr & s & H & E1 & E2 & E3 & E4 & E5 & E6 & E7 & E8 & E9 & E10 & E11); [lia|]. exists tr, s. assert (Hh : holder s = Some (0, 0, f)). { unfold holder. rewrite E4. cbn. rewrite (E9 0) by lia. done. }
  split_and!; try done. cbn [kstep]. rewrite Hh. cbn [mbind option_bind]. unfold late, dead. rewrite E1, E2, E3, E7, E8, andb_false_r. destruct (Nat.leb_spec (n * d + T) (n * d)); [lia|]. by rewrite !andb_false_r.
Qed.

(* ---- a reconnect signal that is torn: its writer ignores the error and the connection stays ---- *)
Theorem C102_torn_signal_refuted T closing u si p : 0 < T -> (3 <= u < 65536)%N ->
  exists tr s, krun (kst0 T false closing [([FSignal ReconnectSignal], true); ([FServices u si p], false)]) tr = Some s /\ kShut s = false /\ Forall (fun w => wPh w = PIdle /\ wTodo w = []) (kWs s) /\
    forall env st rest, s_run (cli_iter env st) (map B (kWire s) ++ rest) =
      (inl (mkCstate (cPings st) 0 (cClosing st) (cSvcs st) (acts (ce_acts env) (cTasks st)), []), map B (be16 OpServicesData ++ be16 si ++ be32 (blen p) ++ p) ++ rest).
Proof.
  intros HT Hu. exists (tear 0 2 T ++ whole 1 (FServices u si p)). eexists. split.
  { rewrite krun_app. change T with (kT (kst0 T false closing [([FSignal ReconnectSignal], true); ([FServices u si p], false)])) at 2. rewrite (run_tear _ 0 (mkW [FSignal ReconnectSignal] PIdle true false) (FSignal ReconnectSignal)); [|try done..].
    2: { cbn. lia. }
    cbn [mbind option_bind]. rewrite (run_whole _ 1 (mkW [FServices u si p] PIdle false false) (FServices u si p)); [reflexivity|done..]. }
  split; [done|]. split; [by repeat constructor|]. intros env st rest. cbn [kWire kst0]. rewrite app_nil_l. cbn [enc_frame].
  assert (Hbe : be32 u = be16 0 ++ be16 u).
  { unfold be32, be16. cbn [app]. unfold u8. rewrite !N.shiftr_div_pow2. change (2^24)%N with 16777216%N. change (2^16)%N with 65536%N. change (2^8)%N with 256%N. repeat (apply f_equal2; [lia|]). done. }
  rewrite Hbe. replace (take 2 (be32 ReconnectSignal) ++ (be16 0 ++ be16 u) ++ be16 OpServicesData ++ be16 si ++ be32 (blen p) ++ p) with ([255; 255; 0; 0]%N ++ be16 u ++ be16 OpServicesData ++ be16 si ++ be32 (blen p) ++ p) by done.
  unfold cli_iter. cbv zeta. unfold with_tasks. cbn [cPings cLastPing cClosing cSvcs cTasks]. rewrite !map_app, <- !app_assoc.
  cbn [s_run]. rewrite s_peek_B by done. rewrite ntake_all by done. cbn [s_run]. rewrite s_discard_full by done.
  change (p32 [255; 255; 0; 0]%N) with 4294901760%N. change (4294901760 =? PingSignal)%N with false. change (4294901760 =? CloseSignal)%N with false. change (4294901760 =? ReconnectSignal)%N with false.
  change (4294901760 =? ReadySignal)%N with false. change (4294901760 =? ServicesSignal)%N with false. change (4294901760 =? ErrorSignal)%N with false. change (4294901760 =? InfoSignal)%N with false. cbn iota.
  rewrite s_run_peekd_be16, p16_be16 by lia. unfold OpServicesData, OpData, OpClose. destruct (N.eqb_spec u 2); [lia|]. destruct (N.eqb_spec u 0); [lia|]. destruct (N.eqb_spec u 1); [lia|]. done.
Qed.

(* over TLS, with a timeout of 2: a visitor's answer is torn, its connection is not closed yet, and the other's next frame fails; what arrives *)
Theorem C102_witness :
  (exists s, krun (kst0 2 true false [([FData 1 [104; 105]%N; FClose 1], false); ([FData 2 [1; 2; 3; 4]%N], false)]) (whole 0 (FData 1 [104; 105]%N) ++ tear 1 12 2 ++ [KArm 0; KTake 0; KFail; KShut 1; KShut 0]) = Some s /\
     kWire s = wire [FData 1 [104; 105]%N] ++ take 12 (enc_frame (FData 2 [1; 2; 3; 4]%N)) /\ kShut s = true) /\
  (exists s, krun (kst0 0 false false [([FData 1 [104; 105]%N; FClose 1], false)]) (whole 0 (FData 1 [104; 105]%N) ++ whole 0 (FClose 1) ++ [KEnd]) = Some s /\ kWire s = wire [FData 1 [104; 105]%N; FClose 1]) /\
  (exists fuel, cli_process fuel 1 false [EvData [104; 105]%N; EvErr EEOF] = ([FData 1 [104; 105]%N; FClose 1], Some EEOF)) /\
  acts [] {[ 1%N := None ]} !! 1%N = Some None.
Proof.
  split_and!.
  - eexists. split; [vm_compute; reflexivity|]. split; reflexivity.
  - eexists. split; [vm_compute; reflexivity|]. reflexivity.
  - exists 5. vm_compute. reflexivity.
  - done.
Qed.
