(* Props_Keep.v -- C99: a working tunnel stays up *)
From Verif Require Import GoBase KeepModel.
Local Open Scope N_scope.

(* the pings on their way, oldest first: until when the answer is there *)
Definition fl (d : N) (l : list (N * bool)) : list N := omap (fun x => if x.2 : bool then Some (x.1 + d) else None) l.
Definition vs (D : N) (up down : list (N * bool)) : list N := fl 0 down ++ fl D up.
Fixpoint late (T u : N) (l : list N) : Prop := match l with [] => True | v :: r => v + T * (1 + N.of_nat (length r)) <= u /\ late T u r end.
Lemma fl_app d l l' : fl d (l ++ l') = fl d l ++ fl d l'.
Proof. apply omap_app. Qed.
Lemma fl_cons d x (p : bool) l : fl d ((x, p) :: l) = (if p then [x + d] else []) ++ fl d l.
Proof. by destruct p. Qed.
Lemma late_mono T u u' l : u <= u' -> late T u l -> late T u' l.
Proof. intros Hu. induction l as [|v r IH]; [done|]. intros [H1 H2]. split; [lia|auto]. Qed.
Lemma late_snoc T u l v : late T u l -> v <= u -> late T (u + T) (l ++ [v]).
Proof. induction l as [|x r IH]; intros H Hv; cbn [late app] in *; [cbn; split; [lia|done]|]. destruct H as [H1 H2]. split; [rewrite app_length; cbn [length]; lia|auto]. Qed.
Lemma late_tail T u v l : late T u (v :: l) -> late T u l.
Proof. intros [_ H]. exact H. Qed.
Lemma late_mid T u a x y b : y <= x -> late T u (a ++ x :: b) -> late T u (a ++ y :: b).
Proof. intros Hy. induction a as [|v r IH]; cbn [late app]; [intros [H1 H2]; split; [lia|done]|]. intros [H1 H2]. split; [|auto]. rewrite app_length in *. cbn [length] in *. lia. Qed.
Lemma fl_ge t d l : Forall (fun x : N * bool => t <= x.1) l -> Forall (fun v => t <= v) (fl d l).
Proof. induction 1 as [|[x []] l H1 H2 IH]; cbn; [constructor| |exact IH]. constructor; [cbn in *; lia|exact IH]. Qed.

Section Inv.
Variables (c : kconf) (f b : N).
Notation D := (kDelay c).
Notation T := (half f).
Notation G := (N.max f (2 * D + T)).
Record inv (s : kst) (z w cd : N) : Prop := Inv {
  i_end : kEnd s = None;
  i_cd : kCDead s = Some cd;
  i_now : kNow s <= cd /\ cd <= kNow s + G;
  i_z : z <= kNow s;
  i_w : w <= cd /\ w <= kNow s + T;
  i_up : Forall (fun x => kNow s <= x.1 /\ x.1 <= z + D) (kUp s);
  i_dn : Forall (fun x => kNow s <= x.1 /\ x.1 <= kNow s + D) (kDown s);
  i_owed0 : kUni c = false \/ kOwed s = [] -> cd <= z + G /\ Forall (fun x => x.1 <= z + 2 * D) (kDown s);
  i_owed1 : kUni c = true -> match kOwed s with [] => True | o :: _ => kNow s <= o /\ o <= z + G + b end;
  i_pings : kPings s = N.of_nat (length (vs D (kUp s) (kDown s)));
  i_late : late T (w + 2 * D) (vs D (kUp s) (kDown s));
  i_srv : match kServer c, kSDead s with
          | None, None => True
          | Some ts, Some sd => sd <= kNow s + ts /\ match kUp s with [] => z + G + b + D < sd | x :: _ => x.1 < sd end
          | _, _ => False end }.
Lemma half_le : half f <= f.
Proof. unfold half. destruct (N.eqb_spec (f / 2) 0); [lia|]. apply N.div_le_upper_bound; lia. Qed.
Lemma inv0 : kRemote c = Some f -> (match kServer c with Some ts => G + b + D < ts | None => True end) -> inv (kst0 c) 0 T T.
Proof.
  intros Hf Hs. pose proof half_le. unfold kst0, wait. rewrite Hf. split; cbn [kEnd kCDead kNow kUp kDown kOwed kPings kSDead]; try done; try lia; try constructor.
  - lia.
  - constructor.
  - destruct (kServer c); [split_and!; lia|done].
Qed.
Lemma now_le s z w cd : inv s z w cd -> kNow s <= z + G + b.
Proof.
  intros I. destruct (i_now _ _ _ _ I). destruct (kUni c) eqn:Hu.
  - pose proof (i_owed1 _ _ _ _ I Hu) as H1. destruct (kOwed s) as [|o l] eqn:Ho; [|lia]. destruct (i_owed0 _ _ _ _ I) as [H2 _]; [by right|lia].
  - destruct (i_owed0 _ _ _ _ I) as [H2 _]; [by left|lia].
Qed.
Lemma srv_ok s z w cd : inv s z w cd -> kSDead s <> Some (kNow s).
Proof.
  intros I Hs. pose proof (now_le _ _ _ _ I) as Hn. pose proof (i_srv _ _ _ _ I) as H. pose proof (i_up _ _ _ _ I) as Hu. rewrite Hs in H.
  destruct (kServer c); [|done]. destruct H as [_ H]. destruct (kUp s) as [|[x p] l]; [lia|]. apply Forall_cons in Hu as [[Hu _] _]. cbn [fst snd] in *. lia.
Qed.
Hypothesis Hf : kRemote c = Some f.
Hypothesis HT : 2 * D < 3 * T.
Hypothesis Hs : match kServer c with Some ts => G + b + D < ts | None => True end.

Lemma inv_recv_bound s z w cd t p l : inv s z w cd -> kUp s = (t, p) :: l -> kNow s <= t.
Proof. intros I E. pose proof (i_up _ _ _ _ I) as H. rewrite E in H. apply Forall_cons in H as [[H _] _]. exact H. Qed.

Ltac fall := match goal with H : Forall _ ?l |- Forall _ ?l => apply (Forall_impl _ _ _ H); intros [? ?]; cbn [fst snd]; lia end.
Ltac rec := split; cbn [set_c set_s send_up send_down kEnd kCDead kNow kUp kDown kOwed kPings kSDead].
(* a message to the server *)
Lemma inv_send s z w cd cd' :
  inv s z w cd -> (cd' = cd \/ cd' = kNow s + f) -> inv (set_c (send_up c s false) (Some cd')) (kNow s) w cd'.
Proof.
  intros I Hc. pose proof half_le. pose proof (now_le _ _ _ _ I) as Hn. destruct I as [I1 I2 [I3 I3'] I4 [I5 I5'] I6 I7 I8 I9 I10 I11 I12].
  rec; try done; try lia.
  - apply Forall_app. split; [fall|]. repeat constructor; cbn [fst snd]; lia.
  - intros _. split; [lia|fall].
  - rewrite I10. unfold vs. rewrite fl_app. cbn [fl omap list_omap]. change (omap _ []) with (@nil N). rewrite app_nil_r. done.
  - unfold vs in *. rewrite fl_app. cbn [fl omap list_omap]. change (omap _ []) with (@nil N). rewrite app_nil_r. done.
  - destruct (kServer c), (kSDead s); try done. destruct I12 as [H1 H2]. split; [lia|]. destruct (kUp s); cbn [app]; [cbn [fst snd]; lia|exact H2].
Qed.
Lemma inv_step s z w cd e s' : inv s z w cd -> kQuic c = false -> (kUni c = true -> kAnswer c = Some b \/ e <> SFrame) -> kstep c s e s' -> exists z' w' cd', inv s' z' w' cd'.
Proof.
  intros I Hq HA E. pose proof half_le as Hh. pose proof (now_le _ _ _ _ I) as Hn. pose proof (srv_ok _ _ _ _ I) as Hok. pose proof I as I0.
  destruct I as [I1 I2 [I3 I3'] I4 [I5 I5'] I6 I7 I8 I9 I10 I11 I12].
  destruct E as [d Ht| | | |t pong l Hl|t ping l Hl|Ht|Ht].
  - (* Tick *) destruct Ht as (H1 & H2 & H3 & H4 & H5). rewrite I2 in H1. cbn in H1. exists z, w, cd. rec; try done; try lia.
    + rewrite Forall_forall in *. intros x Hx. specialize (I6 x Hx). specialize (H3 x Hx). cbn [fst snd] in *. lia.
    + rewrite Forall_forall in *. intros x Hx. specialize (I7 x Hx). specialize (H4 x Hx). cbn [fst snd] in *. lia.
    + intros Hu. specialize (I9 Hu). destruct (kOwed s); [done|]. apply Forall_cons in H5 as [H5 _]. lia.
    + destruct (kServer c), (kSDead s); try done. destruct I12 as [H6 H7]. split; [lia|exact H7].
  - (* SFrame *) destruct (kUni c) eqn:Hu.
    + exists z, w, cd. destruct (HA eq_refl) as [Ha|Ha]; [|done]. rewrite Ha. rec; try done; try lia.
      * apply Forall_app. split; [fall|]. repeat constructor; cbn [fst snd]; lia.
      * intros [H|H]; [congruence|]. destruct (kOwed s); cbn in H; discriminate H.
      * intros _. specialize (I9 eq_refl). destruct (kOwed s) eqn:Ho; cbn [app]; [|exact I9]. destruct I8 as [H8 _]; [by right|]. lia.
      * rewrite I10. unfold vs. rewrite fl_app. cbn [fl omap list_omap]. change (omap _ []) with (@nil N). rewrite app_nil_r. done.
      * unfold vs in *. rewrite fl_app. cbn [fl omap list_omap]. change (omap _ []) with (@nil N). rewrite app_nil_r. done.
    + destruct I8 as [H8 H8']; [by left|]. exists (kNow s), w, cd. rec; try done; try lia.
      * fall.
      * apply Forall_app. split; [fall|]. repeat constructor; cbn [fst snd]; lia.
      * intros _. split; [lia|]. apply Forall_app. split; [fall|]. repeat constructor; cbn [fst snd]; lia.
      * congruence.
      * rewrite I10. unfold vs. rewrite fl_app. cbn [fl omap list_omap]. change (omap _ []) with (@nil N). rewrite app_nil_r. done.
      * unfold vs in *. rewrite fl_app. cbn [fl omap list_omap]. change (omap _ []) with (@nil N). rewrite app_nil_r. done.
      * destruct (kServer c), (kSDead s); cbn [later]; try done. destruct I12 as [H1 H2]. split; [lia|]. destruct (kUp s); lia.
  - (* CFrame *) rewrite Hf. cbn [later]. exists (kNow s), w, (kNow s + f). apply (inv_send s z w cd); auto.
  - (* CEnd *) exists (kNow s), w, cd. pose proof (inv_send s z w cd cd I0 (or_introl eq_refl)) as H. unfold set_c in H. cbn [send_up kNow kSDead kUp kDown kPings kOwed kEnd] in H. unfold send_up. rewrite I2. exact H.
  - (* CRecv *) rewrite Hl in *. apply Forall_cons in I7 as [I7a I7]. exists z, w, (kNow s + T). unfold wait. rewrite Hf. cbn [later]. rec; try done; try lia.
    + intros Ho. destruct (I8 Ho) as [H8 H8']. apply Forall_cons in H8' as [H8a H8']. cbn in *. split; [lia|done].
    + unfold vs in *. rewrite I10, fl_cons. destruct pong; cbn [app length]; [|done]. lia.
    + unfold vs in *. rewrite fl_cons in I11. destruct pong; cbn [app] in I11; [|exact I11]. apply (late_tail _ _ (t + 0)). exact I11.
  - (* SRecv *) rewrite Hl in *. apply Forall_cons in I6 as [I6a I6]. cbn in I6a. exists z, w, cd.
    assert (Hsrv : match kServer c, later (kNow s) (kServer c) with
          | None, None => True
          | Some ts, Some sd => sd <= kNow s + ts /\ match l with [] => z + G + b + D < sd | x :: _ => x.1 < sd end
          | _, _ => False end).
    { destruct (kServer c); cbn [later]; [|done]. split; [lia|]. destruct l as [|[x p] l]; [lia|]. apply Forall_cons in I6 as [H6 _]. cbn [fst snd] in *. lia. }
    destruct ping.
    + rec; try done; try lia.
      * apply Forall_app. split; [done|]. repeat constructor; cbn [fst snd]; lia.
      * intros Ho. destruct (I8 Ho) as [H8 H8']. split; [lia|]. apply Forall_app. split; [done|]. repeat constructor; cbn [fst snd]; lia.
      * rewrite I10. unfold vs. rewrite fl_app, !fl_cons. cbn [app]. rewrite !app_length. cbn [app length]. change (length (fl 0 [])) with O. lia.
      * unfold vs in *. rewrite fl_app, !fl_cons in *. change (fl 0 []) with (@nil N). cbn [app] in *. rewrite <- app_assoc. cbn [app]. eapply late_mid; [|exact I11]. lia.
    + rec; try done; try lia.
  - (* CTimeout *) rewrite Hq. rewrite I2 in Ht. injection Ht as Ht. subst cd.
    assert (Hall : Forall (fun v => kNow s <= v) (vs D (kUp s) (kDown s))).
    { unfold vs. apply Forall_app. split; apply fl_ge; fall. }
    assert (Hlen : N.of_nat (length (vs D (kUp s) (kDown s))) <= 2).
    { destruct (vs D (kUp s) (kDown s)) as [|v r]; [cbn; lia|]. cbn [late] in I11. destruct I11 as [H11 _]. apply Forall_cons in Hall as [Hv _]. cbn [length].
      destruct (N.leb_spec (N.of_nat (length r)) 1); [lia|]. exfalso.
      assert (T * 3 <= T * (1 + N.of_nat (length r))) by (apply N.mul_le_mono_l; lia). lia. }
    unfold send_up, wait. rewrite Hf. cbn [later kPings kNow kCDead kSDead kUp kDown kOwed kEnd].
    destruct (N.ltb_spec 3 (kPings s + 1)) as [H3|H3]; [exfalso; lia|].
    exists (kNow s), (kNow s + T), (kNow s + T). rec; try done; try lia.
    + apply Forall_app. split; [fall|]. repeat constructor; cbn [fst snd]; lia.
    + intros _. split; [lia|fall].
    + rewrite I10. unfold vs. rewrite fl_app, !fl_cons. cbn [app]. rewrite !app_length. cbn [app length]. change (length (fl D [])) with O. lia.
    + unfold vs in *. rewrite fl_app, !fl_cons. change (fl D []) with (@nil N). cbn [app]. rewrite app_assoc.
      replace (kNow s + T + 2 * D) with ((kNow s + 2 * D) + T) by lia. apply late_snoc; [|lia]. eapply late_mono; [|exact I11]. lia.
    + destruct (kServer c), (kSDead s); try done. destruct I12 as [H1 H2]. split; [lia|]. destruct (kUp s); cbn [app]; [cbn [fst snd]; lia|exact H2].
  - destruct (Hok Ht).
Qed.
End Inv.

Lemma keep c f b s evs :
  kRemote c = Some f -> kQuic c = false -> 2 * kDelay c < 3 * half f ->
  (match kServer c with Some ts => N.max f (2 * kDelay c + half f) + b + kDelay c < ts | None => True end) ->
  (kUni c = true -> kAnswer c = Some b \/ SFrame ∉ evs) -> kreach c s evs -> exists z w cd, inv c f b s z w cd.
Proof.
  intros Hf Hq HT Hs HA Hr. induction Hr as [|s evs e s' Hr IH He E].
  - exists 0, (half f), (half f). apply inv0; done.
  - destruct IH as (z & w & cd & I). { intros Hu. destruct (HA Hu) as [H|H]; [by left|]. right. set_solver. }
    refine (inv_step c f b Hf HT Hs s z w cd e s' I Hq _ E). intros Hu. destruct (HA Hu) as [H|H]; [by left|]. right. intros ->. apply H. set_solver.
Qed.

(* A tunnel over TCP or TLS stays up, whatever is sent and whenever, if the server's timeout leaves the client the time to send something: its remote timeout, or the time of
   a message there and back and half of the remote timeout, and one message more.  No ping counts as lost if a message there and back takes less than three times half of the
   remote timeout. *)
Theorem C99_stays_up_partial c f s evs :
  kQuic c = false -> kUni c = false -> kRemote c = Some f ->
  2 * kDelay c < 3 * half f ->
  (match kServer c with Some ts => f + kDelay c < ts /\ 3 * kDelay c + half f < ts | None => True end) ->
  kreach c s evs -> kEnd s = None.
Proof.
  intros Hq Hu Hf HT Hs Hr. destruct (keep c f 0 s evs Hf Hq HT) as (z & w & cd & I); [|by rewrite Hu|done|by apply I].
  destruct (kServer c); [lia|done].
Qed.

(* With -timeoutOnUnidirectionalTraffic the server waits for something from the client even while a visitor sends: it has to come in time, or no visitor sends anything. *)
Theorem C99_unidirectional_partial c f r s evs :
  kQuic c = false -> kUni c = true -> kRemote c = Some f ->
  2 * kDelay c < 3 * half f ->
  (match kServer c with Some ts => f + r + kDelay c < ts /\ 3 * kDelay c + half f + r < ts | None => True end) ->
  kAnswer c = Some r \/ r = 0 /\ SFrame ∉ evs ->
  kreach c s evs -> kEnd s = None.
Proof.
  intros Hq Hu Hf HT Hs HA Hr. destruct (keep c f r s evs Hf Hq HT) as (z & w & cd & I); [| |done|by apply I].
  - destruct (kServer c); [lia|done].
  - intros _. destruct HA as [H|[_ H]]; auto.
Qed.

(* Otherwise it does not.  Over QUIC a tunnel on which nothing is sent for half of the remote timeout ends, even if every message arrives at once. *)
Theorem C99_quic_refuted c f : kQuic c = true -> kRemote c = Some f -> (match kServer c with Some ts => half f <= ts | None => True end) ->
  exists s, kreach c s [Tick (half f); CTimeout] /\ kEnd s = Some ClientTimeout.
Proof.
  intros Hq Hf Hs. eexists. split.
  - change [Tick (half f); CTimeout] with (([] ++ [Tick (half f)]) ++ [CTimeout]). eapply KStep; [eapply KStep; [apply KInit|done|]| |].
    + apply KTick. unfold may_tick, kst0, wait. rewrite Hf. cbn [kNow kCDead kSDead kUp kDown kOwed within]. split_and!; [lia|destruct (kServer c); cbn; [lia|done]|constructor|constructor|constructor].
    + done.
    + apply KCTimeout. unfold kst0, wait. rewrite Hf. cbn [kCDead kNow]. f_equal; lia.
  - rewrite Hq. done.
Qed.
(* Any state whose client has waited long enough will do. *)
Theorem C99_quic_any_refuted c s evs : kQuic c = true -> kreach c s evs -> kEnd s = None -> kCDead s = Some (kNow s) ->
  exists s', kreach c s' (evs ++ [CTimeout]) /\ kEnd s' = Some ClientTimeout.
Proof. intros Hq Hr He Hd. eexists. split; [eapply KStep; [exact Hr|exact He|apply KCTimeout; exact Hd]|]. rewrite Hq. done. Qed.

(* The server's timeout has to be longer than the remote timeout of the client: otherwise a tunnel on which a service has sent something ends, whatever it runs over
   and however fast it is. *)
Theorem C99_timeouts_refuted c f ts : kRemote c = Some f -> kServer c = Some ts -> ts <= f -> kDelay c = 0 ->
  exists s, kreach c s [CFrame; SRecv; Tick ts; STimeout] /\ kEnd s = Some ServerTimeout.
Proof.
  intros Hf Hs Hle HD. eexists. split.
  - change [CFrame; SRecv; Tick ts; STimeout] with (((([] ++ [CFrame]) ++ [SRecv]) ++ [Tick ts]) ++ [STimeout]).
    eapply KStep; [eapply KStep; [eapply KStep; [eapply KStep; [apply KInit|done|apply KCFrame]|done|eapply KSRecv; cbn [set_c send_up kst0 kUp app]; reflexivity]|done|apply KTick]|done|].
    + unfold may_tick. rewrite Hs, Hf. cbn [set_c send_up kst0 kNow kCDead kSDead kUp kDown kOwed within later]. split_and!; try lia; constructor.
    + apply KSTimeout. cbn [kSDead kNow set_c send_up kst0]. rewrite Hs. reflexivity.
  - done.
Qed.
(* A client without a remote timeout sends no pings: a tunnel nobody uses ends. *)
Theorem C99_no_pings_refuted c ts : kRemote c = None -> kServer c = Some ts -> exists s, kreach c s [Tick ts; STimeout] /\ kEnd s = Some ServerTimeout.
Proof.
  intros Hf Hs. eexists. split.
  - change [Tick ts; STimeout] with (([] ++ [Tick ts]) ++ [STimeout]). eapply KStep; [eapply KStep; [apply KInit|done|apply KTick]|done|].
    + unfold may_tick, kst0, wait. rewrite Hf, Hs. cbn. split_and!; try constructor. lia.
    + apply KSTimeout. cbn [kSDead kNow kst0]. rewrite Hs. f_equal; lia.
  - done.
Qed.

(* With -timeoutOnUnidirectionalTraffic a visitor's upload that nothing is said to ends the tunnel, and with it everybody else's connections, though every message arrives at
   once: while the client has something to read it does not ping. *)
Definition upload (n : nat) : list kev := concat (replicate n [Tick 1; SFrame; CRecv]).
Theorem C99_upload_refuted c ts : kUni c = true -> kServer c = Some ts -> kAnswer c = None -> (match kRemote c with Some f => 1 <= f | None => True end) ->
  exists s, kreach c s (upload (N.to_nat ts) ++ [STimeout]) /\ kEnd s = Some ServerTimeout.
Proof.
  intros Hu Hs Ha Hf.
  assert (Hw : match wait c with Some w => 1 <= w | None => True end).
  { unfold wait. destruct (kRemote c) as [f|]; [|done]. unfold half. destruct (N.eqb_spec (f / 2) 0); lia. }
  assert (H : forall n, N.of_nat n <= ts -> kreach c (mkS (N.of_nat n) (later (N.of_nat n) (wait c)) (Some ts) [] [] 0 [] None) (upload n)).
  { induction n as [|n IH]; intros Hn.
    - assert (E : kst0 c = mkS (N.of_nat 0) (later (N.of_nat 0) (wait c)) (Some ts) [] [] 0 [] None) by (unfold kst0; rewrite Hs; destruct (wait c); reflexivity).
      rewrite <- E. constructor.
    - replace (upload (S n)) with (((upload n ++ [Tick 1]) ++ [SFrame]) ++ [CRecv]).
      2: { unfold upload. rewrite replicate_S_end, concat_app. cbn [concat]. rewrite app_nil_r, <- !app_assoc. reflexivity. }
      replace (N.of_nat (S n)) with (N.of_nat n + 1) by lia.
      eapply KStep; [eapply KStep; [eapply KStep; [apply IH; lia|done|apply KTick]|done|apply KSFrame]|rewrite Hu, Ha; done|].
      + unfold may_tick. cbn [kNow kCDead kSDead kUp kDown kOwed]. split_and!; try constructor; [|cbn; lia]. destruct (wait c); cbn; [lia|done].
      + rewrite Hu, Ha. exact (KCRecv c (mkS (N.of_nat n + 1) (later (N.of_nat n) (wait c)) (Some ts) [] [(N.of_nat n + 1 + kDelay c, false)] 0 [] None) (N.of_nat n + 1 + kDelay c) false [] eq_refl). }
  eexists. split.
  - eapply KStep; [apply H; lia|done|]. apply KSTimeout. cbn. f_equal; lia.
  - done.
Qed.

(* A client that is busy with one visitor's message -- a service whose host does not answer, or one that does not take its data -- keeps no tunnel up: if that takes as long as
   the server's timeout the server ends it, and with it everybody's connections; *)
Theorem C99_busy_refuted c ts rest : kServer c = Some ts ->
  exists s, breach c (s, Some rest) [Ev SFrame; Ev CRecv; Busy rest; Ev (Tick ts); Ev STimeout] /\ kEnd s = Some ServerTimeout.
Proof.
  intros Hs. eexists. split.
  - change [Ev SFrame; Ev CRecv; Busy rest; Ev (Tick ts); Ev STimeout] with ((((([] ++ [Ev SFrame]) ++ [Ev CRecv]) ++ [Busy rest]) ++ [Ev (Tick ts)]) ++ [Ev STimeout]).
    eapply BStep; [eapply BStep; [eapply BStep; [eapply BStep; [eapply BStep; [apply BInit|done|apply BEv, KSFrame]|destruct (kUni c); done|apply BEv; eapply KCRecv; destruct (kUni c); reflexivity]|destruct (kUni c); done|apply BBusy]|destruct (kUni c); done|apply BTick]|destruct (kUni c); done|].
    + unfold may_tick_busy. cbn [kNow kSDead kUp]. destruct (kUni c); cbn [send_down set_s kst0 kNow kSDead kUp later]; rewrite Hs; cbn [within later]; split; try constructor; lia.
    + apply BOther; [done|done|]. apply KSTimeout. destruct (kUni c); cbn [kSDead kNow send_down set_s kst0 later]; rewrite Hs; reflexivity.
  - done.
Qed.
(* and if a part of the message was still to be read, half of the remote timeout is enough for the client to end it. *)
Theorem C99_busy_rest_refuted c f : kRemote c = Some f -> (match kServer c with Some ts => half f <= ts | None => True end) ->
  exists s, breach c (s, None) [Ev SFrame; Ev CRecv; Busy true; Ev (Tick (half f)); Free] /\ kEnd s = Some ClientTimeout.
Proof.
  intros Hf Hs. eexists. split.
  - change [Ev SFrame; Ev CRecv; Busy true; Ev (Tick (half f)); Free] with ((((([] ++ [Ev SFrame]) ++ [Ev CRecv]) ++ [Busy true]) ++ [Ev (Tick (half f))]) ++ [Free]).
    eapply BStep; [eapply BStep; [eapply BStep; [eapply BStep; [eapply BStep; [apply BInit|done|apply BEv, KSFrame]|destruct (kUni c); done|apply BEv; eapply KCRecv; destruct (kUni c); reflexivity]|destruct (kUni c); done|apply BBusy]|destruct (kUni c); done|apply BTick]|destruct (kUni c); done|apply BFree].
    + unfold may_tick_busy. cbn [kNow kSDead kUp]. destruct (kUni c); cbn [send_down set_s kst0 kNow kSDead kUp later]; (split; [destruct (kServer c); cbn [within later]; [lia|done]|constructor]).
  - unfold overdue. cbn [kCDead kNow]. destruct (kUni c); cbn [kNow send_down set_s kst0]; unfold wait; rewrite Hf; cbn [later]; rewrite (proj2 (N.leb_le _ _)) by lia; reflexivity.
Qed.
(* A client that is never busy is the one of the theorems above. *)
Theorem C99_never_busy c x evs : breach c x evs -> (forall r, Busy r ∉ evs) -> x.2 = None /\ exists kevs, evs = Ev <$> kevs /\ kreach c x.1 kevs.
Proof.
  induction 1 as [|x evs e x' Hr IH He E]; intros Hb; [split; [done|]; exists []; split; [done|constructor]|].
  destruct IH as [Hx (kevs & -> & Hk)]; [intros r Hr'; apply (Hb r); set_solver|].
  destruct E as [s e s' E|s rest|s rest d|s rest e s'|s rest]; cbn [fst snd] in *; try discriminate Hx.
  - split; [done|]. exists (kevs ++ [e]). split; [by rewrite fmap_app|]. eapply KStep; eassumption.
  - exfalso. apply (Hb rest). set_solver.
Qed.

Lemma ksnoc c s evs e s' s2 : kreach c s evs -> kEnd s = None -> kstep c s e s' -> s' = s2 -> kreach c s2 (evs ++ [e]).
Proof. intros H He E <-. eapply KStep; eassumption. Qed.
(* gt's own settings, in milliseconds, and messages that take up to five seconds: what the theorems ask for holds; the client pings a tunnel nobody uses and keeps it, after a
   visitor has come and gone *)
Definition defaults (quic : bool) : kconf := mkK quic (Some 45000) (Some 90000) false 5000 None.
Theorem C99_witness :
  kQuic (defaults false) = false /\ kUni (defaults false) = false /\ half 45000 = 22500 /\ 2 * kDelay (defaults false) < 3 * half 45000 /\ 45000 + kDelay (defaults false) < 90000 /\ 3 * kDelay (defaults false) + half 45000 < 90000 /\
  (exists s, kreach (defaults false) s [SFrame; Tick 5000; CRecv; CFrame; Tick 5000; SRecv; Tick 40000; CTimeout; Tick 5000; SRecv; CRecv; Tick 22500; CTimeout] /\ kNow s = 77500 /\ kEnd s = None /\ kPings s = 1) /\
  (exists s, kreach (defaults true) s [Tick 22500; CTimeout] /\ kEnd s = Some ClientTimeout).
Proof.
  split_and!; try (vm_compute; reflexivity).
  - eexists. split.
    + change [SFrame; Tick 5000; CRecv; CFrame; Tick 5000; SRecv; Tick 40000; CTimeout; Tick 5000; SRecv; CRecv; Tick 22500; CTimeout] with
        (((((((((((((([] ++ [SFrame]) ++ [Tick 5000]) ++ [CRecv]) ++ [CFrame]) ++ [Tick 5000]) ++ [SRecv]) ++ [Tick 40000]) ++ [CTimeout]) ++ [Tick 5000]) ++ [SRecv]) ++ [CRecv]) ++ [Tick 22500]) ++ [CTimeout])).
      Ltac st := first [apply KSFrame | apply KCFrame | apply KTick; vm_compute; split_and!; repeat constructor; discriminate | eapply KCRecv; vm_compute; reflexivity | eapply KSRecv; vm_compute; reflexivity | apply KCTimeout; vm_compute; reflexivity].
      Ltac go := first [match goal with |- kreach _ _ [] => apply KInit end | eapply ksnoc; [go|vm_compute; reflexivity|st|vm_compute; reflexivity]].
      go.
    + vm_compute. split_and!; reflexivity.
  - destruct (C99_quic_refuted (defaults true) 45000) as (s & Hr & He); [done|done|vm_compute; discriminate|]. exists s. split; [exact Hr|exact He].
Qed.
