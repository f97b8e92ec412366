(* Props_Torn.v -- C102: what arrives on a tunnel whose peer does not always read (TornModel) *)
From Verif Require Import GoBase GoBaseLemmas BufioModel BufioProofs HandshakeModel HandshakeProofs FrameModel FrameSpec FrameProofs FrameProofsC FrameProofsD FrameProofsE Props_Frames TornModel.
Local Open Scope nat_scope.

Lemma krun_app s a b : krun s (a ++ b) = (s' ← krun s a; krun s' b).
Proof. revert s. induction a as [|e a IH]; intros s; cbn [krun app]; [done|]. destruct (kstep s e); cbn [mbind option_bind]; [apply IH|done]. Qed.
Lemma enc_nonempty f : length (enc_frame f) <> 0.
Proof. destruct f; cbn [enc_frame]; unfold be32; cbn [app length]; lia. Qed.
Lemma of_writer_snoc i l j f : of_writer i (l ++ [(j, f)]) = of_writer i l ++ (if decide (j = i) then [f] else []).
Proof. unfold of_writer. rewrite filter_app, fmap_app. f_equal. destruct (decide (j = i)) as [H|H]; [rewrite filter_cons_True|rewrite filter_cons_False]; done. Qed.
Lemma wire_app a b : wire (a ++ b) = wire a ++ wire b.
Proof. unfold wire. by rewrite map_app, concat_app. Qed.
Lemma alter_some (f : wtr -> wtr) j (l : list wtr) i t : alter f j l !! i = Some t -> exists u, l !! i = Some u /\ ((i = j /\ t = f u) \/ (i <> j /\ t = u)).
Proof.
  destruct (decide (i = j)) as [->|Hn].
  - rewrite list_lookup_alter. intros H. apply fmap_Some in H as (u & E & ->). eauto.
  - rewrite list_lookup_alter_ne by done. eauto.
Qed.

(* ---- where a Write that fails is the connection's last: whole frames, then the beginning of one ---- *)
Notation plan := (list (list frame * bool)).
Definition torn (l0 : plan) (log : list (nat * frame)) (part : bytes) : Prop :=
  part = [] \/ exists i x f k, l0 !! i = Some x /\ of_writer i log ++ [f] `prefix_of` x.1 /\ part = take k (enc_frame f).
Definition inv (l0 : plan) (s : kst) : Prop :=
  (kSticky s = true \/ kT s = 0) /\
  (exists part, kWire s = wire (kLog s).*2 ++ part /\
    match kHold s with
    | Some (i, n) => exists w f x, kWs s !! i = Some w /\ head (wTodo w) = Some f /\ wPh w = PArmed /\ n <= length (enc_frame f) /\ l0 !! i = Some x /\
        ((part = take n (enc_frame f) /\ of_writer i (kLog s) ++ wTodo w = x.1) \/ (dead s = true /\ n = 0 /\ torn l0 (kLog s) part))
    | None => part = [] \/ (dead s = true /\ torn l0 (kLog s) part)
    end) /\
  (forall i w, kWs s !! i = Some w -> exists x, l0 !! i = Some x /\ of_writer i (kLog s) `prefix_of` x.1 /\ (of_writer i (kLog s) ++ wTodo w = x.1 \/ dead s = true) /\
     (wPh w = PFailed \/ wPh w = POver \/ wWord w = true -> dead s = true) /\ (wPh w = PArmed -> wTodo w <> [])).
Lemma inv0 T sticky closing l : sticky = true \/ T = 0 -> inv l (kst0 T sticky closing l).
Proof.
  intros H. split; [done|]. split; [exists []; split; [done|by left]|]. intros i w Hw. cbn [kst0 kWs] in Hw. apply list_lookup_fmap_Some in Hw as (x & E & ->). exists x.
  split; [done|]. split; [apply prefix_nil|]. split; [by left|]. cbn. split; [|done]. intros [|[|]]; discriminate.
Qed.
(* a writer that does not hold the lock changes *)
Lemma inv_other l0 s s' (g : wtr -> wtr) i : inv l0 s -> kWs s' = setw s i g -> kT s' = kT s -> kSticky s' = kSticky s -> kWire s' = kWire s -> kHold s' = kHold s -> kLog s' = kLog s ->
  (dead s = true -> dead s' = true) ->
  (forall w, kWs s !! i = Some w -> wPh w <> PArmed /\ (wTodo (g w) = wTodo w \/ dead s' = true) /\
     ((wPh (g w) = PFailed \/ wPh (g w) = POver \/ wWord (g w) = true) -> (wPh w = PFailed \/ wPh w = POver \/ wWord w = true) \/ dead s' = true) /\ (wPh (g w) = PArmed -> wTodo (g w) <> [])) -> inv l0 s'.
Proof.
  intros (I1 & (part & I2 & I3) & I4) Ews E1 E2 E3 E4 E5 Hd Hg. split; [by rewrite E1, E2|]. split.
  - exists part. rewrite E3, E4, E5. split; [done|]. destruct (kHold s) as [[j n]|].
    + destruct I3 as (w & f & x & Ew & Ef & Ep & Hn & Ex & Hor). exists w, f, x. split.
      * rewrite Ews. unfold setw. rewrite list_lookup_alter_ne; [done|]. intros ->. destruct (Hg _ Ew) as (Hx & _). done.
      * split_and!; try done. destruct Hor as [?|(A & B & C)]; [by left|right; auto].
    + destruct I3 as [?|[A B]]; [by left|right; auto].
  - intros j w Hw. rewrite Ews in Hw. apply alter_some in Hw as (u & Eu & [[-> ->]|[Hn ->]]); destruct (I4 _ _ Eu) as (x & A1 & A2 & A3 & A4 & A5); exists x; rewrite E5; (split; [done|split; [done|]]).
    + destruct (Hg _ Eu) as (_ & G1 & G2 & G3). split.
      * destruct G1 as [->|G1]; [|by right]. destruct A3 as [?|?]; [by left|right; auto].
      * split; [|done]. intros H. destruct (G2 H) as [H'|H']; auto.
    + split; [|split; auto]. destruct A3 as [?|?]; [by left|right; auto].
Qed.
Lemma dead_shut s : dead (shut s) = true. Proof. done. Qed.
Lemma holder_some s i n f : holder s = Some (i, n, f) -> kHold s = Some (i, n) /\ exists w, kWs s !! i = Some w /\ head (wTodo w) = Some f.
Proof.
  unfold holder. intros H. apply bind_Some in H as ([j m] & E1 & H). apply bind_Some in H as (w & E2 & H). apply bind_Some in H as (g & E3 & H). injection H as -> -> ->. eauto.
Qed.
Lemma inv_step l0 s e s' : inv l0 s -> kstep s e = Some s' -> inv l0 s'.
Proof.
  intros I E. destruct e as [|i|i| | | |i|i|]; cbn [kstep] in E.
  - injection E as <-. exact I.
  - apply bind_Some in E as (w & Ew & E). destruct (wPh w) eqn:Ep; try discriminate E. destruct (wTodo w) as [|f fs] eqn:Et; [discriminate E|]. destruct (kShut s) eqn:Es; injection E as <-.
    + eapply (inv_other l0 s _ _ i I); try done. intros w0 Hw0. rewrite Ew in Hw0. injection Hw0 as <-. rewrite Ep. split; [done|].
      assert (Hd : dead (withw (setw s i (λ w1, if wQuiet w1 then next w1 else ph PFailed w1)) s) = true) by (unfold dead; cbn; by rewrite Es).
      split_and!; try tauto. destruct (wQuiet w); cbn; intros; discriminate.
    + eapply (inv_other l0 s _ (ph PArmed) i I); try done. { unfold dead. cbn. by rewrite Es. } intros w0 Hw0. rewrite Ew in Hw0. injection Hw0 as <-. rewrite Ep. split; [done|]. cbn. rewrite Et. split_and!; try done; [by left|]. intros [|[|]]; try discriminate. left. tauto.
  - apply bind_Some in E as (w & Ew & E). destruct (kHold s) eqn:Eh; [discriminate E|]. destruct (wPh w) eqn:Ep; try discriminate E. injection E as <-.
    destruct I as (I1 & (part & I2 & I3) & I4). split; [done|]. split; [|exact I4]. exists part. split; [done|]. cbn [hold kHold kWs kLog]. rewrite Eh in I3. destruct (I4 _ _ Ew) as (x & A1 & A2 & A3 & A4 & A5).
    destruct (wTodo w) as [|f fs] eqn:Et; [by destruct (A5 Ep)|]. exists w, f, x. rewrite Et. split_and!; try done; [lia|]. destruct I3 as [->|[H1 H2]]; [|by right]. destruct A3 as [A3|A3]; [by left|right]. split_and!; [done|done|by left].
  - apply bind_Some in E as ([[i n] f] & Eh & E). apply bind_Some in E as (b & Eb & E). destruct (late s || dead s) eqn:Ed; [discriminate E|]. injection E as <-. apply orb_false_iff in Ed as [_ Ed].
    apply holder_some in Eh as (Eh & w & Ew & Ef). destruct I as (I1 & (part & I2 & I3) & I4). split; [done|]. split; [|exact I4]. rewrite Eh in I3. destruct I3 as (w' & f' & x & B1 & B2 & B3 & B4 & B5 & B6).
    rewrite Ew in B1. injection B1 as <-. rewrite Ef in B2. injection B2 as <-. destruct B6 as [[-> B6]|[? _]]; [|congruence]. exists (take (S n) (enc_frame f)). cbn [hold put kWire kHold kLog kWs]. split.
    + rewrite I2, <- app_assoc, <- take_S_r by done. done.
    + exists w, f, x. split_and!; try done; [|by left]. apply lookup_lt_Some in Eb. lia.
  - apply bind_Some in E as ([[i n] f] & Eh & E). destruct (Nat.eqb_spec n (length (enc_frame f))) as [Hn|Hn]; [|discriminate E]. injection E as <-. apply holder_some in Eh as (Eh & w & Ew & Ef).
    destruct I as (I1 & (part & I2 & I3) & I4). rewrite Eh in I3. destruct I3 as (w' & f' & x & B1 & B2 & B3 & B4 & B5 & B6). rewrite Ew in B1. injection B1 as <-. rewrite Ef in B2. injection B2 as <-.
    destruct B6 as [[-> B6]|(_ & H0 & _)]; [|by destruct (enc_nonempty f); rewrite <- Hn]. destruct (wTodo w) as [|f' fs] eqn:Et; [discriminate Ef|]. cbn in Ef. injection Ef as ->.
    split; [done|]. split.
    + exists []. cbn [logw hold withw kWire kHold kLog]. split; [|by left]. rewrite fmap_app, wire_app. cbn [fmap list_fmap wire map concat snd]. rewrite app_nil_r, app_nil_r, I2, Hn, firstn_all. done.
    + intros j u Hu. cbn [logw hold withw kWs kLog] in *. rewrite of_writer_snoc. apply alter_some in Hu as (v & Ev & [[-> ->]|[Hj ->]]); destruct (I4 _ _ Ev) as (y & A1 & A2 & A3 & A4 & A5); exists y; (split; [done|]).
      * rewrite Ew in Ev. injection Ev as <-. rewrite B5 in A1. injection A1 as <-. rewrite decide_True by done. cbn [next wTodo wPh wWord]. rewrite Et. cbn [tail]. rewrite <- app_assoc. cbn [app].
        split; [rewrite <- B6; apply prefix_app; by exists fs|]. split; [by left|]. split; [|done]. intros [|[|]]; try discriminate. apply A4. tauto.
      * rewrite decide_False by done. rewrite app_nil_r. split_and!; done.
  - apply bind_Some in E as ([[i n] f] & Eh & E). destruct (Nat.ltb_spec n (length (enc_frame f))) as [Hn|Hn]; cbn [andb] in E; [|discriminate E]. destruct (late s || dead s) eqn:Ed; [|discriminate E]. injection E as <-.
    apply holder_some in Eh as (Eh & w & Ew & Ef). destruct I as (I1 & (part & I2 & I3) & I4). rewrite Eh in I3. destruct I3 as (w' & f' & x & B1 & B2 & B3 & B4 & B5 & B6). rewrite Ew in B1. injection B1 as <-. rewrite Ef in B2. injection B2 as <-.
    match goal with |- inv _ ?s' => assert (Hd : dead s' = true) end.
    { unfold dead. cbn [bad hold withw kShut kSticky kBad]. destruct I1 as [->|HT]; [by rewrite orb_true_r|]. unfold late in Ed. rewrite HT in Ed. cbn in Ed. unfold dead in Ed. apply orb_true_iff in Ed as [->|Ed]; [done|].
      apply andb_true_iff in Ed as [-> _]. by rewrite orb_true_r. }
    split; [done|]. split.
    + exists part. cbn [bad hold withw kWire kHold kLog]. split; [done|]. right. split; [done|]. destruct B6 as [[-> B6]|(_ & _ & B6)]; [|done]. right. exists i, x, f, n. split_and!; try done.
      destruct (wTodo w) as [|g fs] eqn:Et; [discriminate Ef|]. cbn in Ef. injection Ef as ->. rewrite <- B6. apply prefix_app. by exists fs.
    + intros j u Hu. cbn [bad hold withw kWs kLog] in *. apply alter_some in Hu as (v & Ev & [[-> ->]|[Hj ->]]); destruct (I4 _ _ Ev) as (y & A1 & A2 & A3 & A4 & A5); exists y; split_and!; try done; try (by right); try (by intros).
      destruct (wQuiet v); cbn; intros; discriminate.
  - apply bind_Some in E as (w & Ew & E). assert (Hp : s' = shut (withw (setw s i (ph POver)) s) /\ wPh w <> PArmed).
    { destruct (wPh w) eqn:Ep; try discriminate E; [destruct (_ && _); [|discriminate E]|]; by injection E as <-. }
    destruct Hp as [-> Hp]. eapply (inv_other l0 s _ (ph POver) i I); try done. intros w0 Hw0. rewrite Ew in Hw0. injection Hw0 as <-. split_and!; try done; by right.
  - apply bind_Some in E as (w & Ew & E). destruct (wPh w) eqn:Ep; try discriminate E. destruct (_ && _) eqn:Eg; [|discriminate E]. injection E as <-.
    assert (Hd : dead s = true). { destruct I as (_ & _ & I4). destruct (I4 _ _ Ew) as (x & _ & _ & _ & A4 & _). apply A4. by left. }
    eapply (inv_other l0 s _ _ i I); try done. intros w0 Hw0. rewrite Ew in Hw0. injection Hw0 as <-. rewrite Ep. split_and!; try done; by right.
  - injection E as <-. destruct I as (I1 & (part & I2 & I3) & I4). split; [done|]. split.
    + exists part. split; [done|]. cbn [shut kHold kLog kWs]. destruct (kHold s) as [[j n]|].
      * destruct I3 as (w & f & x & B1 & B2 & B3 & B4 & B5 & B6). exists w, f, x. split_and!; try done. destruct B6 as [?|(A & B & C)]; [by left|by right].
      * destruct I3 as [?|[A B]]; [by left|by right].
    + intros j u Hu. destruct (I4 _ _ Hu) as (y & A1 & A2 & A3 & A4 & A5). exists y. split_and!; try done. by right.
Qed.
Lemma inv_run l0 tr : forall s s', inv l0 s -> krun s tr = Some s' -> inv l0 s'.
Proof.
  induction tr as [|e tr IH]; intros s s' I H; cbn [krun] in H; [by injection H as <-|]. apply bind_Some in H as (s1 & E & H). eapply IH; [|exact H]. by eapply inv_step.
Qed.
(* Over a connection that takes nothing more once a Write has failed (TLS), or without a timeout: what has gone out is whole frames, each goroutine's in its order, and then at most a part of one more. *)
Theorem C102_whole_partial T sticky closing l tr s : sticky = true \/ T = 0 -> krun (kst0 T sticky closing l) tr = Some s ->
  exists log part, kWire s = wire log.*2 ++ part /\ (forall i f, (i, f) ∈ log -> i < length l) /\ (forall i x, l !! i = Some x -> of_writer i log `prefix_of` x.1) /\
    (part = [] \/ exists i x f k, l !! i = Some x /\ of_writer i log ++ [f] `prefix_of` x.1 /\ part = take k (enc_frame f)).
Proof.
  intros Hs H. pose proof (inv_run l tr _ _ (inv0 T sticky closing l Hs) H) as (_ & (part & I2 & I3) & I4). exists (kLog s), part. split; [done|].
  assert (Hlen : length (kWs s) = length l /\ Forall (fun y => y.1 < length l) (kLog s)).
  { assert (G : forall tr s s', krun s tr = Some s' -> Forall (fun y => y.1 < length (kWs s)) (kLog s) -> length (kWs s') = length (kWs s) /\ Forall (fun y => y.1 < length (kWs s)) (kLog s')).
    { clear. induction tr as [|e tr IH]; intros s s' H Hl; cbn [krun] in H; [by injection H as <-|]. apply bind_Some in H as (s1 & E & H).
      assert (K : length (kWs s1) = length (kWs s) /\ Forall (fun y => y.1 < length (kWs s)) (kLog s1)).
      { clear IH H. destruct e as [|i|i| | | |i|i|]; cbn [kstep] in E.
        - by injection E as <-.
        - apply bind_Some in E as (w & Ew & E). destruct (wPh w); try discriminate E. destruct (wTodo w); [discriminate E|]. destruct (kShut s); injection E as <-; (split; [apply alter_length|done]).
        - apply bind_Some in E as (w & Ew & E). destruct (kHold s); [discriminate E|]. destruct (wPh w); try discriminate E. by injection E as <-.
        - apply bind_Some in E as ([[i n] f] & Eh & E). apply bind_Some in E as (b & Eb & E). destruct (late s || dead s); [discriminate E|]. by injection E as <-.
        - apply bind_Some in E as ([[i n] f] & Eh & E). destruct (n =? _); [|discriminate E]. injection E as <-. split; [apply alter_length|]. cbn [logw kLog]. apply Forall_app. split; [done|]. apply Forall_singleton. cbn.
          apply holder_some in Eh as (_ & w & Ew & _). by apply lookup_lt_Some in Ew.
        - apply bind_Some in E as ([[i n] f] & Eh & E). destruct (_ && _); [|discriminate E]. injection E as <-. split; [apply alter_length|done].
        - apply bind_Some in E as (w & Ew & E). destruct (wPh w); try discriminate E; [destruct (_ && _); [|discriminate E]|]; injection E as <-; (split; [apply alter_length|done]).
        - apply bind_Some in E as (w & Ew & E). destruct (wPh w); try discriminate E. destruct (_ && _); [|discriminate E]. injection E as <-. split; [apply alter_length|done].
        - by injection E as <-. }
      destruct K as [K1 K2]. rewrite <- K1 in K2. destruct (IH _ _ H K2) as [K3 K4]. rewrite K1 in *. done. }
    destruct (G _ _ _ H) as [G1 G2]; [by apply Forall_nil|]. cbn [kst0 kWs] in G1, G2. rewrite fmap_length in G1, G2. done. }
  destruct Hlen as [Hlen Hin]. split; [intros i f Hf; rewrite Forall_forall in Hin; by apply (Hin (i, f))|].
  split.
  - intros i x Hx. destruct (lookup_lt_is_Some_2 (kWs s) i) as [w Hw]; [rewrite Hlen; by apply lookup_lt_Some in Hx|]. destruct (I4 _ _ Hw) as (y & A1 & A2 & _). congruence.
  - destruct (kHold s) as [[i n]|].
    + destruct I3 as (w & f & x & B1 & B2 & B3 & B4 & B5 & [[-> B6]|(_ & _ & B6)]); [|done]. right. exists i, x, f, n. split_and!; try done. destruct (wTodo w) as [|g fs]; [discriminate B2|]. cbn in B2. injection B2 as ->.
      rewrite <- B6. apply prefix_app. by exists fs.
    + destruct I3 as [->|[_ ?]]; [by left|done].
Qed.

(* ---- otherwise the next frame is written behind the torn one ---- *)
Definition bytes_at (s : kst) (w : bytes) (h : option (nat * nat)) : kst := mkK (kT s) (kSticky s) (kClosing s) (kNow s) (kDl s) w h (kBad s) (kShut s) (kWs s) (kLog s).
Lemma puts i n f : forall m s w, late s = false -> dead s = false -> kWs s !! i = Some w -> head (wTodo w) = Some f -> kHold s = Some (i, n) -> n + m <= length (enc_frame f) ->
  krun s (replicate m KPut) = Some (bytes_at s (kWire s ++ take m (drop n (enc_frame f))) (Some (i, n + m))).
Proof.
  intros m. revert n. induction m as [|m IH]; intros n s w Hl Hd Hw Hf Hh Hm.
  - cbn [replicate krun]. f_equal. rewrite take_0, app_nil_r, Nat.add_0_r. destruct s. cbn in *. by subst.
  - cbn [replicate krun kstep]. assert (E : holder s = Some (i, n, f)) by (unfold holder; rewrite Hh; cbn; rewrite Hw; cbn; by rewrite Hf). rewrite E. cbn [mbind option_bind].
    destruct (lookup_lt_is_Some_2 (enc_frame f) n) as [b Eb]; [lia|]. rewrite Eb. cbn [mbind option_bind]. rewrite Hl, Hd. cbn [orb mbind option_bind].
    rewrite (IH (S n) _ w); [|try done..].
    + f_equal. unfold bytes_at. cbn [hold put kT kSticky kClosing kNow kDl kWire kHold kBad kShut kWs kLog]. f_equal; [|f_equal; f_equal; lia]. rewrite <- app_assoc. f_equal. cbn [app]. rewrite (drop_S _ b n) by done. done.
    + lia.
Qed.
Lemma ticks : forall m s, krun s (replicate m KTick) = Some (mkK (kT s) (kSticky s) (kClosing s) (m + kNow s) (kDl s) (kWire s) (kHold s) (kBad s) (kShut s) (kWs s) (kLog s)).
Proof.
  induction m as [|m IH]; intros s; [by destruct s|]. cbn [replicate krun kstep mbind option_bind]. rewrite IH. cbn [kT kSticky kClosing kNow kDl kWire kHold kBad kShut kWs kLog]. do 2 f_equal. lia.
Qed.
(* a frame is written *)
Definition whole (i : nat) (f : frame) : list kev := KArm i :: KTake i :: replicate (length (enc_frame f)) KPut ++ [KOk].
(* a frame is written up to its k-th byte; then the deadline passes *)
Definition tear (i : nat) (k T : nat) : list kev := KArm i :: KTake i :: replicate k KPut ++ replicate T KTick ++ [KFail].
Definition armed (s : kst) (i : nat) : kst := mkK (kT s) (kSticky s) (kClosing s) (kNow s) (if 0 <? kT s then kNow s + kT s else kDl s) (kWire s) (Some (i, 0)) (kBad s) (kShut s) (setw s i (ph PArmed)) (kLog s).
Lemma arm_take s i w f : kWs s !! i = Some w -> wPh w = PIdle -> head (wTodo w) = Some f -> kHold s = None -> kShut s = false -> krun s [KArm i; KTake i] = Some (armed s i).
Proof.
  intros Hw Hp Hf Hh Hs. cbn [krun kstep]. rewrite Hw. cbn [mbind option_bind]. rewrite Hp. destruct (wTodo w) as [|g fs] eqn:Et; [discriminate Hf|]. rewrite Hs. cbn [mbind option_bind kWs]. unfold setw.
  rewrite list_lookup_alter, Hw. cbn [fmap option_fmap option_map mbind option_bind kHold]. rewrite Hh. cbn [ph wPh mbind option_bind]. unfold armed, hold. cbn. by rewrite Hs.
Qed.
Lemma armed_late s i : late (armed s i) = false.
Proof. unfold late, armed. cbn [kT kDl kNow]. destruct (Nat.ltb_spec 0 (kT s)) as [H|H]; cbn [andb]; [|done]. apply Nat.leb_gt. lia. Qed.
Lemma armed_dead s i : dead (armed s i) = dead s. Proof. done. Qed.
Lemma armed_ws s i w : kWs s !! i = Some w -> kWs (armed s i) !! i = Some (ph PArmed w).
Proof. intros H. cbn [armed kWs]. unfold setw. by rewrite list_lookup_alter, H. Qed.
Lemma run_whole s i w f : kWs s !! i = Some w -> wPh w = PIdle -> head (wTodo w) = Some f -> kHold s = None -> dead s = false ->
  krun s (whole i f) = Some (mkK (kT s) (kSticky s) (kClosing s) (kNow s) (if 0 <? kT s then kNow s + kT s else kDl s) (kWire s ++ enc_frame f) None (kBad s) (kShut s) (setw s i (fun w => next (ph PArmed w))) (kLog s ++ [(i, f)])).
Proof.
  intros Hw Hp Hf Hh Hd. assert (Hs : kShut s = false) by (unfold dead in Hd; by apply orb_false_iff in Hd as [-> _]). unfold whole. change (KArm i :: KTake i :: ?x) with ([KArm i; KTake i] ++ x).
  rewrite krun_app, (arm_take s i w f) by done. cbn [mbind option_bind]. rewrite krun_app. rewrite (puts i 0 f _ (armed s i) (ph PArmed w)); [|apply armed_late|by rewrite armed_dead|by apply armed_ws|done|done|lia].
  cbn [mbind option_bind krun kstep]. unfold holder. cbn [bytes_at kHold kWs]. cbn [mbind option_bind]. rewrite (armed_ws _ _ _ Hw). cbn [mbind option_bind ph wTodo]. rewrite Hf. cbn [mbind option_bind]. rewrite Nat.add_0_l, Nat.eqb_refl.
  cbn [mbind option_bind]. rewrite drop_0, firstn_all. f_equal. unfold logw, hold, withw, bytes_at, armed, setw. cbn [kT kSticky kClosing kNow kDl kWire kHold kBad kShut kWs kLog]. f_equal. by rewrite <- list_alter_compose.
Qed.
Lemma run_tear s i w f k : kWs s !! i = Some w -> wPh w = PIdle -> head (wTodo w) = Some f -> kHold s = None -> dead s = false -> 0 < kT s -> k < length (enc_frame f) ->
  krun s (tear i k (kT s)) = Some (mkK (kT s) (kSticky s) (kClosing s) (kT s + kNow s) (kNow s + kT s) (kWire s ++ take k (enc_frame f)) None true (kShut s)
    (setw s i (fun w => if wQuiet w then next w else ph PFailed w)) (kLog s)).
Proof.
  intros Hw Hp Hf Hh Hd HT Hk. assert (Hs : kShut s = false) by (unfold dead in Hd; by apply orb_false_iff in Hd as [-> _]). unfold tear. change (KArm i :: KTake i :: ?x) with ([KArm i; KTake i] ++ x).
  rewrite krun_app, (arm_take s i w f) by done. cbn [mbind option_bind]. rewrite krun_app. rewrite (puts i 0 f _ (armed s i) (ph PArmed w)); [|apply armed_late|by rewrite armed_dead|by apply armed_ws|done|done|lia].
  cbn [mbind option_bind]. rewrite krun_app, ticks. cbn [mbind option_bind krun kstep]. unfold holder. cbn [bytes_at kHold kWs kT kNow kDl mbind option_bind]. rewrite (armed_ws _ _ _ Hw). cbn [mbind option_bind ph wTodo]. rewrite Hf.
  cbn [mbind option_bind]. rewrite Nat.add_0_l. destruct (Nat.ltb_spec k (length (enc_frame f))) as [_|]; [|lia]. cbn [andb].
  unfold late. cbn [kT kDl kNow armed]. destruct (Nat.ltb_spec 0 (kT s)) as [_|]; [|lia]. cbn [andb]. destruct (Nat.leb_spec (kNow s + kT s) (kT s + kNow s)) as [_|]; [|lia]. cbn [orb mbind option_bind].
  rewrite drop_0. f_equal. unfold bad, hold, withw, setw. cbn [kT kSticky kClosing kNow kDl kWire kHold kBad kShut kWs kLog]. f_equal. cbn [armed kWs]. unfold setw. rewrite <- list_alter_compose. apply list_alter_ext; [|done]. intros x _. cbn. by destruct (wQuiet x).
Qed.

Lemma take_torn t p k X : k <= length p -> length p - k <= length X -> (blen p < 4294967296)%N ->
  take (10 + k) (enc_frame (FData t p)) ++ X = enc_frame (FData t (take k p ++ take (length p - k) X)) ++ drop (length p - k) X.
Proof.
  intros Hk HX Hp. cbn [enc_frame]. assert (Hb : blen (take k p ++ take (length p - k) X) = blen p). { unfold blen. f_equal. rewrite app_length, !take_length. lia. }
  rewrite Hb. rewrite !(assoc_L (++)). rewrite take_app_ge; [|cbn; lia]. replace (10 + k - length ((be32 t ++ be16 OpData) ++ be32 (blen p))) with k by (cbn; lia). rewrite <- !(assoc_L (++)). do 4 f_equal. by rewrite take_drop.
Qed.
Lemma run_shut s i w : kWs s !! i = Some w -> wPh w = PFailed \/ (wPh w = PIdle /\ wWord w = true /\ wTodo w = []) -> krun s [KShut i] = Some (shut (withw (setw s i (ph POver)) s)).
Proof. intros Hw H. cbn [krun kstep]. rewrite Hw. cbn [mbind option_bind]. destruct H as [->|(-> & -> & ->)]; [done|]. rewrite bool_decide_eq_true_2 by done. done. Qed.
Lemma run_word s i w : kWs s !! i = Some w -> wPh w = PFailed -> kClosing s = true -> wWord w = false -> krun s [KWord i] = Some (withw (setw s i (fun w => mkW [FSignal CloseSignal] PIdle (wQuiet w) true)) s).
Proof. intros Hw H1 H2 H3. cbn [krun kstep]. rewrite Hw. cbn [mbind option_bind]. by rewrite H1, H2, H3. Qed.
Definition two (f g : frame) : plan := [([f], false); ([g], false)].
(* visitor t's answer is torn, and before the connection is closed visitor u's answer is written *)
Lemma mixed_run T closing t u p q : 0 < T -> 10 + length q <= length p -> (blen p < 4294967296)%N ->
  exists tr s, krun (kst0 T false closing (two (FData t p) (FData u q))) tr = Some s /\ kShut s = true /\ kWire s = enc_frame (FData t (take (length p - (10 + length q)) p ++ enc_frame (FData u q))).
Proof.
  intros HT Hl Hp. set (k := length p - (10 + length q)). exists (tear 0 (10 + k) T ++ whole 1 (FData u q) ++ [KShut 0]).
  assert (Hlen : length (enc_frame (FData u q)) = 10 + length q) by (cbn [enc_frame]; unfold be32, be16; cbn [app length]; done).
  eexists. rewrite krun_app. change T with (kT (kst0 T false closing (two (FData t p) (FData u q)))) at 2. rewrite (run_tear _ 0 (mkW [FData t p] PIdle false false) (FData t p)); [|try done..].
  2: { cbn [enc_frame]. unfold be32, be16. cbn [app length]. lia. }
  cbn [mbind option_bind]. rewrite krun_app. rewrite (run_whole _ 1 (mkW [FData u q] PIdle false false) (FData u q)); [|done..]. cbn [mbind option_bind]. rewrite (run_shut _ 0 (mkW [FData t p] PFailed false false)) by (try done; by left). split; [reflexivity|]. split; [done|]. cbn [shut withw kWire kst0].
  rewrite ?app_nil_l. rewrite take_torn by lia. rewrite (take_ge (enc_frame (FData u q))) by lia. rewrite (drop_ge (enc_frame (FData u q))) by lia. rewrite app_nil_r. done.
Qed.
(* Over a plain TCP connection with a timeout: what the service answers to visitor u reaches visitor t, *)
Theorem C102_mixed_refuted T closing t u p q deadline env st : 0 < T -> tid_ok t -> tid_ok u -> t <> u -> 10 + length q <= length p -> (blen p < 4294967296)%N ->
  acts (se_acts env) (sTasks st) !! t = Some None ->
  exists tr s, krun (kst0 T false closing (two (FData t p) (FData u q))) tr = Some s /\
    exists st' evs, (forall rest, s_run (srv_loop deadline [env] st) (map B (kWire s) ++ rest) = ((SRunning st', evs), rest)) /\
      s_delivered t evs = take (length p - (10 + length q)) p ++ enc_frame (FData u q) /\ s_delivered u evs = [].
Proof.
  intros HT Ht Hu Hn Hl Hp Hw. destruct (mixed_run T closing t u p q HT Hl Hp) as (tr & s & H & _ & Ew). exists tr, s. split; [done|]. set (d := take (length p - (10 + length q)) p ++ enc_frame (FData u q)) in *.
  assert (Hd : blen d = blen p). { unfold blen, d. f_equal. rewrite app_length, take_length. cbn [enc_frame]. unfold be32, be16. cbn [app length]. lia. }
  destruct (srv_effects [env] st [FData t d]) as [st' evs] eqn:Ee. exists st', evs. split.
  - intros rest. rewrite Ew. replace (enc_frame (FData t d)) with (wire [FData t d]) by (cbn [wire map concat]; apply app_nil_r). rewrite srv_loop_frames, Ee; [done|]. cbn [client_frames]. split; [|done]. split; [cbn; by rewrite Hd|]. right; right. by rewrite Hw.
  - cbn [srv_effects srv_effect] in Ee. rewrite Hw in Ee. injection Ee as <- <-. cbn [s_delivered map concat w_take]. rewrite decide_True by done. rewrite decide_False by done. split; [apply app_nil_r|done].
Qed.
(* and what visitor u has sent reaches the service that serves visitor t. *)
Theorem C102_mixed_services_refuted T closing t u p q env st : 0 < T -> tid_ok t -> tid_ok u -> t <> u -> 10 + length q <= length p -> (blen p < 4294967296)%N -> all_bytes p -> all_bytes q ->
  acts (ce_acts env) (cTasks st) !! t = Some None -> (cPings st <= 3)%Z ->
  exists tr s, krun (kst0 T false closing (two (FData t p) (FData u q))) tr = Some s /\
    exists st' evs, (forall rest, s_run (cli_loop [env] st) (map B (kWire s) ++ rest) = ((CRunning st', evs), rest)) /\
      c_delivered t evs = take (length p - (10 + length q)) p ++ enc_frame (FData u q) /\ c_delivered u evs = [].
Proof.
  intros HT Ht Hu Hn Hl Hp Hbp Hbq Hw Hpg. destruct (mixed_run T closing t u p q HT Hl Hp) as (tr & s & H & _ & Ew). exists tr, s. split; [done|]. set (d := take (length p - (10 + length q)) p ++ enc_frame (FData u q)) in *.
  assert (Hd : blen d = blen p). { unfold blen, d. f_equal. rewrite app_length, take_length. cbn [enc_frame]. unfold be32, be16. cbn [app length]. lia. }
  assert (Hb : all_bytes d). { apply all_bytes_app; [by apply Forall_take|]. apply enc_frame_bytes. exact Hbq. }
  destruct (cli_effects [env] st [FData t d]) as [st' evs] eqn:Ee. exists st', evs. split.
  - intros rest. rewrite Ew. replace (enc_frame (FData t d)) with (wire [FData t d]) by (cbn [wire map concat]; apply app_nil_r). rewrite cli_loop_frames, Ee; [done| |by apply Forall_singleton]. cbn [server_frames]. split; [|done].
    split; [cbn; by rewrite Hd|]. done.
  - cbn [cli_effects cli_effect] in Ee. rewrite Hw in Ee. injection Ee as <- <-. cbn [c_delivered map concat w_take]. rewrite decide_True by done. rewrite decide_False by done. split; [apply app_nil_r|done].
Qed.
(* The last task of a closing tunnel writes a close signal behind its own torn frame: the visitor gets its bytes. *)
Theorem C102_last_word_refuted T t p deadline env st : 0 < T -> tid_ok t -> 4 <= length p -> (blen p < 4294967296)%N -> acts (se_acts env) (sTasks st) !! t = Some None ->
  exists tr s, krun (kst0 T false true [([FData t p], false)]) tr = Some s /\
    exists st' evs, (forall rest, s_run (srv_loop deadline [env] st) (map B (kWire s) ++ rest) = ((SRunning st', evs), rest)) /\ s_delivered t evs = take (length p - 4) p ++ [255; 255; 255; 254]%N.
Proof.
  intros HT Ht Hl Hp Hw. set (k := length p - 4). exists (tear 0 (10 + k) T ++ [KWord 0] ++ whole 0 (FSignal CloseSignal) ++ [KShut 0]). set (d := take k p ++ [255; 255; 255; 254]%N).
  assert (Hd : blen d = blen p). { unfold blen, d. f_equal. rewrite app_length, take_length. cbn [length]. lia. }
  destruct (srv_effects [env] st [FData t d]) as [st' evs] eqn:Ee.
  eexists. rewrite krun_app. change T with (kT (kst0 T false true [([FData t p], false)])) at 2. rewrite (run_tear _ 0 (mkW [FData t p] PIdle false false) (FData t p)); [|try done..].
  2: { cbn [enc_frame]. unfold be32, be16. cbn [app length]. lia. }
  cbn [mbind option_bind]. rewrite krun_app. rewrite (run_word _ 0 (mkW [FData t p] PFailed false false)) by done. cbn [mbind option_bind]. rewrite krun_app.
  rewrite (run_whole _ 0 (mkW [FSignal CloseSignal] PIdle false true) (FSignal CloseSignal)); [|done..]. cbn [mbind option_bind]. rewrite (run_shut _ 0 (mkW [] PIdle false true)) by (try done; by right). split; [reflexivity|].
  exists st', evs. split.
  - intros rest. cbn [shut withw kWire kst0]. rewrite ?app_nil_l. rewrite take_torn by (try done; cbn; lia). change (enc_frame (FSignal CloseSignal)) with [255; 255; 255; 254]%N.
    replace (length p - k) with 4 by lia. cbn [take drop]. rewrite app_nil_r. replace (enc_frame (FData t _)) with (wire [FData t d]) by (cbn [wire map concat]; apply app_nil_r).
    rewrite srv_loop_frames, Ee; [done|]. cbn [client_frames]. split; [|done]. split; [cbn; by rewrite Hd|]. right; right. by rewrite Hw.
  - cbn [srv_effects srv_effect] in Ee. rewrite Hw in Ee. injection Ee as <- <-. cbn [s_delivered map concat w_take]. rewrite decide_True by done. apply app_nil_r.
Qed.
