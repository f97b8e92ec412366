(* Props_Worker.v -- C76: the life of a worker process, as the process that started it and an operator see it *)
From Verif Require Import GoBase GoBaseLemmas WorkerModel.
Local Open Scope N_scope.

(* what was asked for on stdin, in order *)
(* which messages on stdin ask for what, and how long a shutdown may take *)
Definition wish (o : op) : option sig := match o with OGraceful => Some QUIT | OShutdown => Some TERM | _ => None end.
Definition patience (k : kind) : N := match k with KServer => 3 * 60 | KClient => 30 end.
Lemma asks_wish o : asks o = wish o. Proof. by destruct o. Qed.
Lemma limit_patience k : limit k = patience k. Proof. by destruct k. Qed.
Definition asked (tr : list wevt) : list sig := omap (fun e => match e with VOp o => wish o | _ => None end) tr.
Definition opt {A} (o : option A) : list A := match o with Some x => [x] | None => [] end.
Definition from_stdin (l : list (sig * bool)) : list sig := (filter (fun s => s.2 = true) l).*1.
Definition os_signal (e : wevt) : bool := match e with VOs _ => true | _ => false end.
(* a message that says a shutdown is done *)
Definition is_done (o : op) : bool := match o with OGracefulDone | OShutdownDone => true | _ => false end.
Definition last_taken (w : worker) : option sig := fst <$> last (wTaken w).

Lemma wrun_snoc c w tr e w' : wrun c w (tr ++ [e]) = Some w' <-> exists w1, wrun c w tr = Some w1 /\ wstep c w1 e = Some w'.
Proof.
  revert w. induction tr as [|e1 tr IH]; intros w; cbn [app wrun].
  - cbn [mbind option_bind]. destruct (wstep c w e) eqn:E; cbn; split; [intros [= <-]|intros (? & [= <-] & ?)|done|intros (? & [= <-] & ?)]; [eauto|congruence|congruence].
  - destruct (wstep c w e1) as [w1|]; cbn [mbind option_bind]; [apply IH|]. split; [done|by intros (? & ? & ?)].
Qed.
Lemma wrun_app c w tr tr' : wrun c w (tr ++ tr') = w1 ← wrun c w tr; wrun c w1 tr'.
Proof. revert w. induction tr as [|e tr IH]; intros w; [done|]. cbn [app wrun]. destruct (wstep c w e); cbn [mbind option_bind]; [apply IH|done]. Qed.

Record winv (c : wconf) (tr : list wevt) (al : list sig) (w : worker) : Prop := {
  wi_chan : wChan w = None -> wBlocked w = None;
  wi_asked : from_stdin (wTaken w ++ opt (wChan w) ++ opt (wBlocked w)) = al;
  wi_out : exists r d, wOut w = r ++ d /\ (r = [] \/ r = [OReady] /\ wTries w = 0%nat) /\
      (d = [] \/ exists s o, d = [o] /\ done_op s = Some o /\ wPhase w = WExit (XCode 0) /\ last_taken w = Some s);
  wi_init : wPhase w = WInit -> wOut w = [] /\ wTries w = 0%nat /\ wTaken w = [];
  wi_early : wPhase w = WNotify -> wTaken w = [];
  wi_ready : OReady ∈ wOut w -> (wKind c = KServer /\ VStart true true ∈ tr) \/ (wKind c = KClient /\ (exists b, VStart true b ∈ tr) /\ VTry true true ∈ tr);
  wi_tries : wTries w <> 0%nat -> wKind c = KClient /\ exists b, VStart true b ∈ tr;
  wi_shut : forall s t, wPhase w = WShut s t -> last_taken w = Some s /\ t <= wNow w /\ on_signal (wKind c) t s = WShut s t;
  wi_close : wPhase w = WClose -> last_taken w = Some INT;
}.
Lemma from_stdin_app a b : from_stdin (a ++ b) = from_stdin a ++ from_stdin b.
Proof. unfold from_stdin. by rewrite filter_app, fmap_app. Qed.
Lemma asked_snoc tr e : asked (tr ++ [e]) = asked tr ++ asked [e].
Proof. unfold asked. by rewrite omap_app. Qed.
Lemma last_snoc' {A} (l : list A) x : last (l ++ [x]) = Some x.
Proof. apply last_snoc. Qed.

Lemma winv_run c tr w : wrun c w0 tr = Some w -> winv c tr (asked tr) w.
Proof.
  revert w. induction tr as [|e tr IH] using rev_ind; intros w H.
  - injection H as <-. constructor; cbn; try done; [by exists [], []; auto|by rewrite elem_of_nil].
  - apply wrun_snoc in H as (w1 & H & E). specialize (IH _ H). clear H. destruct w1 as [ph now ch bl rd tries out taken]. destruct IH as [Ic Ia Io Ii Ie Ir It Is Il].
    cbn [wPhase wNow wChan wBlocked wReading wTries wOut wTaken] in *. unfold wstep in E. destruct (running ph) eqn:Er; cbn [negb] in E; [|done].
    assert (Nd : forall P : Prop, (exists s o d, d = [o] /\ done_op s = Some o /\ ph = WExit (XCode 0) /\ last_taken (mkW ph now ch bl rd tries out taken) = Some s) -> P) by (intros P (? & ? & ? & _ & _ & -> & _); done).
    assert (Io' : out = [] \/ out = [OReady] /\ tries = 0%nat).
    { destruct Io as (r & d & -> & Hr & Hd). destruct Hd as [->|(s & o & ? & ? & -> & ?)]; [|done]. rewrite app_nil_r. naive_solver. }
    clear Nd Io.
    assert (Hr' : forall P : Prop, (OReady ∈ out -> P) -> (out = [] \/ out = [OReady] /\ tries = 0%nat)) by auto. clear Hr'.
    assert (Mono : (OReady ∈ out -> wKind c = KServer ∧ VStart true true ∈ tr ++ [e] ∨ wKind c = KClient ∧ (∃ b : bool, VStart true b ∈ tr ++ [e]) ∧ VTry true true ∈ tr ++ [e])).
    { intros Hi. destruct (Ir Hi) as [[? ?]|(? & (b & ?) & ?)]; [left|right]; (split; [done|]); [by apply elem_of_app; left|split; [exists b|]; apply elem_of_app; by left]. }
    assert (MonoT : tries <> 0%nat -> wKind c = KClient ∧ (∃ b : bool, VStart true b ∈ tr ++ [e])).
    { intros Hi. destruct (It Hi) as [? (b & ?)]. split; [done|]. exists b. apply elem_of_app. by left. }
    assert (Hlast : VStart true true ∈ [VStart true true] /\ VTry true true ∈ [VTry true true]) by (split; by apply elem_of_list_singleton).
    destruct e as [|ok wr|ok wr| |s|o| | | |wr| | |d]; rewrite asked_snoc; unfold asked at 2; cbn [omap list_omap].
    + destruct ph; try done. destruct (wWeb c && negb (wFile c)); [|done]. injection E as <-. constructor; cbn [wPhase wNow wChan wBlocked wReading wTries wOut wTaken]; try done.
      * by rewrite app_nil_r.
      * exists out, []. rewrite app_nil_r. naive_solver.
      * intros _. by apply Ii.
    + destruct ph; try done. destruct (wWeb c && negb (wFile c)); [done|]. destruct (Ii eq_refl) as (-> & -> & ->). destruct ok.
      * destruct (wKind c) eqn:Ek; injection E as <-; constructor; cbn [wPhase wNow wChan wBlocked wReading wTries wOut wTaken]; try done; try (by rewrite (app_nil_r (asked _))).
        -- destruct wr; cbn [say app]; [exists [OReady], []|exists [], []]; rewrite ?app_nil_r; naive_solver.
        -- destruct wr; cbn [say app]; [|by rewrite elem_of_nil]. intros _. left. split; [done|]. apply elem_of_app. right. by apply elem_of_list_singleton.
        -- exists [], []. naive_solver.
        -- by rewrite elem_of_nil.
        -- intros _. split; [done|]. exists wr. apply elem_of_app. right. by apply elem_of_list_singleton.
      * destruct (wWeb c); injection E as <-; constructor; cbn [wPhase wNow wChan wBlocked wReading wTries wOut wTaken]; try done; try (by rewrite (app_nil_r (asked _))); try (by rewrite elem_of_nil); exists [], []; naive_solver.
    + destruct tries as [|n]; [done|]. injection E as <-. destruct Io' as [->|[_ ?]]; [|done]. destruct ok; constructor; cbn [wPhase wNow wChan wBlocked wReading wTries wOut wTaken]; try done; try (by rewrite (app_nil_r (asked _))).
      * destruct wr; cbn [say app]; [exists [OReady], []|exists [], []]; rewrite ?app_nil_r; naive_solver.
      * intros ->. by destruct (Ii eq_refl) as (_ & ? & _).
      * destruct wr; cbn [say app]; [|by rewrite elem_of_nil]. intros _. destruct (MonoT ltac:(done)) as [? ?]. right. split; [done|]. split; [done|]. apply elem_of_app. right. by apply elem_of_list_singleton.
      * exists [], []. naive_solver.
      * intros ->. by destruct (Ii eq_refl) as (_ & ? & _).
      * intros _. apply MonoT. done.
    + destruct ph; try done. injection E as <-. constructor; cbn [wPhase wNow wChan wBlocked wReading wTries wOut wTaken]; try done; try (by rewrite (app_nil_r (asked _))). exists out, []. rewrite app_nil_r. naive_solver.
    + assert (E' : w = mkW (WExit XKilled) now ch bl rd tries out taken /\ (ph = WInit \/ ph = WNotify) \/ w = mkW ph now (match ch with None => Some (s, false) | _ => ch end) bl rd tries out taken /\ ph <> WInit /\ ph <> WNotify)
        by (destruct ph; injection E as <-; naive_solver). clear E.
      destruct E' as [[-> _]|(-> & N1 & N2)]; constructor; cbn [wPhase wNow wChan wBlocked wReading wTries wOut wTaken]; try done; try (by rewrite (app_nil_r (asked _))).
      * exists out, []. rewrite app_nil_r. naive_solver.
      * by destruct ch.
      * rewrite app_nil_r. destruct ch as [|]; [done|]. rewrite (Ic eq_refl) in *. cbn [opt app] in *. rewrite app_nil_r in *. rewrite from_stdin_app, Ia. by rewrite app_nil_r.
      * exists out, []. rewrite app_nil_r. naive_solver.
    + destruct rd; [|done]. destruct bl as [|]; [done|]. rewrite (asks_wish o) in *. destruct (wish o) as [s|] eqn:Ea.
      * injection E as <-. destruct ch as [x|]; constructor; cbn [wPhase wNow wChan wBlocked wReading wTries wOut wTaken]; try done; try (exists out, []; rewrite app_nil_r; naive_solver).
        -- cbn [opt app] in *. change [x; (s, true)] with ([x] ++ [(s, true)]). rewrite app_assoc, from_stdin_app. by rewrite Ia.
        -- cbn [opt app] in *. rewrite !app_nil_r in *. by rewrite from_stdin_app, Ia.
      * injection E as <-. constructor; cbn [wPhase wNow wChan wBlocked wReading wTries wOut wTaken]; try done; try (by rewrite (app_nil_r (asked _))); exists out, []; rewrite app_nil_r; naive_solver.
    + destruct rd; [|done]. destruct bl as [|]; [done|]. injection E as <-. constructor; cbn [wPhase wNow wChan wBlocked wReading wTries wOut wTaken]; try done; try (by rewrite (app_nil_r (asked _))); exists out, []; rewrite app_nil_r; naive_solver.
    + destruct ph; try done. destruct ch as [s|]; [|done]. injection E as <-.
      assert (P : forall p, p = on_signal (wKind c) now s.1 -> p <> WInit /\ p <> WNotify /\ (forall t q, p = WShut t q -> t = s.1 /\ q = now) /\ (p = WClose -> s.1 = INT)).
      { intros p ->. destruct s as [[] ?], (wKind c); cbn; repeat split; try done; by injection H. }
      destruct (P _ eq_refl) as (P1 & P2 & P3 & P4). constructor; cbn [wPhase wNow wChan wBlocked wReading wTries wOut wTaken]; try done.
      * rewrite app_nil_r. cbn [opt app] in *. rewrite !app_nil_r. rewrite <- Ia. rewrite <- app_assoc. done.
      * exists out, []. rewrite app_nil_r. naive_solver.
      * intros t q Hp. destruct (P3 _ _ Hp) as [-> ->]. split; [|split; [lia|done]]. unfold last_taken. cbn [wTaken]. by rewrite last_snoc'.
      * intros Hp. unfold last_taken. cbn [wTaken]. rewrite last_snoc'. cbn. by rewrite P4.
    + destruct ph; try done. injection E as <-. constructor; cbn [wPhase wNow wChan wBlocked wReading wTries wOut wTaken]; try done; try (by rewrite (app_nil_r (asked _))). exists out, []. rewrite app_nil_r. naive_solver.
    + destruct ph as [| | | |s t| |]; try done. injection E as <-. destruct (Is _ _ eq_refl) as (L1 & _ & _).
      assert (Ho : (match done_op s with Some o => say wr o out | None => out end) = out \/ exists o, done_op s = Some o /\ (match done_op s with Some o => say wr o out | None => out end) = out ++ [o] /\ o <> OReady)
        by (destruct s; cbn [done_op]; auto; destruct wr; cbn [say]; eauto).
      constructor; cbn [wPhase wNow wChan wBlocked wReading wTries wOut wTaken]; try done; try (by rewrite (app_nil_r (asked _))).
      * destruct Ho as [->|(o & Eo & -> & _)]; [exists out, []; rewrite app_nil_r; naive_solver|]. exists out, [o]. split; [done|]. split; [naive_solver|]. right. exists s, o. done.
      * destruct Ho as [->|(o & Eo & -> & No)]; [done|]. intros [?|?%elem_of_list_singleton]%elem_of_app; [auto|congruence].
    + destruct ph as [| | | |s t| |]; try done. destruct (limit (wKind c) <=? now - t); [|done]. injection E as <-.
      constructor; cbn [wPhase wNow wChan wBlocked wReading wTries wOut wTaken]; try done; try (by rewrite (app_nil_r (asked _))). exists out, []. rewrite app_nil_r. naive_solver.
    + destruct ph; try done. injection E as <-.
      constructor; cbn [wPhase wNow wChan wBlocked wReading wTries wOut wTaken]; try done; try (by rewrite (app_nil_r (asked _))). exists out, []. rewrite app_nil_r. naive_solver.
    + injection E as <-. constructor; cbn [wPhase wNow wChan wBlocked wReading wTries wOut wTaken]; try done; try (by rewrite (app_nil_r (asked _))).
      * exists out, []. rewrite app_nil_r. naive_solver.
      * intros s t Hp. destruct (Is _ _ Hp) as (? & ? & ?). split; [done|]. split; [lia|done].
Qed.

(* ---- Ready ---- *)
(* Ready is said at most once, and only by a process whose Start has succeeded; a client's also only once it has reached a server *)
Theorem C76_ready : forall c tr w, wrun c w0 tr = Some w ->
  (length (filter (eq OReady) (wOut w)) <= 1)%nat /\
  (OReady ∈ wOut w -> (wKind c = KServer /\ VStart true true ∈ tr) \/ (wKind c = KClient /\ (exists b, VStart true b ∈ tr) /\ VTry true true ∈ tr)).
Proof.
  intros c tr w H. apply winv_run in H as I. split; [|apply (wi_ready _ _ _ _ I)]. destruct (wi_out _ _ _ _ I) as (r & d & -> & Hr & Hd). rewrite filter_app, app_length.
  assert (length (filter (eq OReady) r) <= 1)%nat by (destruct Hr as [->|[-> _]]; vm_compute; lia).
  assert (length (filter (eq OReady) d) = 0)%nat; [|lia]. destruct Hd as [->|(s & o & -> & Ho & _)]; [done|]. destruct s; cbn in Ho; simplify_eq; done.
Qed.
(* A server that starts says so before it takes any request *)
Theorem C76_server_ready : forall c tr w, wKind c = KServer -> wrun c w0 tr = Some w -> VStart true true ∈ tr -> hd_error (wOut w) = Some OReady.
Proof.
  intros c tr w Hk H Hi. assert (G : forall w1 e w2, wstep c w1 e = Some w2 -> hd_error (wOut w1) = Some OReady -> hd_error (wOut w2) = Some OReady).
  { intros [ph now ch bl rd tries out taken] e w2 E Hh. cbn [wOut] in Hh. destruct out as [|o out]; [done|]. injection Hh as ->. unfold wstep in E. destruct (running ph); [|done]. cbn [negb] in E.
    assert (Hs : forall b o, hd_error (say b o (OReady :: out)) = Some OReady) by (by intros []). destruct e; simplify_eq; repeat (case_match; simplify_eq; try done); cbn [wOut]; try done; apply Hs. }
  apply elem_of_list_split in Hi as (a & b & ->). rewrite wrun_app in H. destruct (wrun c w0 a) as [w1|] eqn:Ea; [|done]. cbn [mbind option_bind wrun] in H.
  apply winv_run in Ea as I. destruct (wstep c w1 (VStart true true)) as [w2|] eqn:E2; [|done]. cbn [mbind option_bind] in H.
  assert (hd_error (wOut w2) = Some OReady) as H2.
  { destruct w1 as [ph now ch bl rd tries out taken]. unfold wstep in E2. destruct ph; try done. cbn [running negb] in E2. destruct (wWeb c && negb (wFile c)); [done|]. rewrite Hk in E2.
    injection E2 as <-. destruct (wi_init _ _ _ _ I eq_refl) as (E & _). cbn [wOut] in E. subst out. done. }
  clear -H H2 G. revert w2 H H2. induction b as [|e b IH]; intros w2 H H2; [by injection H as <-|]. cbn [wrun] in H. destruct (wstep c w2 e) eqn:E; [|done]. eapply IH; [exact H|]. by eapply G.
Qed.
(* A process whose Start failed keeps running for its web page, and never says Ready; without a web page it ends with an error *)
Lemma start_once c w e w' : wPhase w <> WInit -> wstep c w e = Some w' -> wPhase w' <> WInit /\ (forall ok b, e <> VStart ok b).
Proof.
  intros N E. destruct w as [ph now ch bl rd tries out taken]. cbn [wPhase] in N. unfold wstep in E. destruct (running ph); [|done]. cbn [negb] in E.
  assert (Hs : forall s, on_signal (wKind c) now s <> WInit) by (intros []; by destruct (wKind c)).
  destruct e; split; try done; simplify_eq; repeat (case_match; simplify_eq; try done); cbn [wPhase]; try done; apply Hs.
Qed.
Theorem C76_failed_start : forall c b w, wstep c w0 (VStart false b) = Some w ->
  if wWeb c then wPhase w = WNotify /\ forall tr w', wrun c w tr = Some w' -> OReady ∉ wOut w' else wPhase w = WExit (XCode 1).
Proof.
  intros c b w E. cbn in E. destruct (wWeb c) eqn:Ew; cbn [andb] in E; [destruct (wFile c) eqn:Ef; [cbn [negb] in E|done]|]; injection E as <-; [|done]. split; [done|].
  intros tr w' H Hi. assert (R : wrun c w0 (VStart false b :: tr) = Some w') by (cbn [wrun wstep w0 running negb]; rewrite Ew, Ef; exact H).
  destruct (C76_ready _ _ _ R) as [_ Hr]. specialize (Hr Hi). assert (X : exists b', VStart true b' ∈ VStart false b :: tr) by naive_solver. destruct X as [b' X]. apply elem_of_cons in X as [?|X]; [done|].
  clear -H X. assert (G : forall w1 w2, wPhase w1 <> WInit -> wrun c w1 tr = Some w2 -> VStart true b' ∉ tr).
  { clear. induction tr as [|e tr IH]; intros w1 w2 N H; [apply not_elem_of_nil|]. cbn [wrun] in H. destruct (wstep c w1 e) as [w3|] eqn:E; [|done]. cbn [mbind option_bind] in H.
    destruct (start_once _ _ _ _ N E) as [N3 Ne].
    intros [Hx|Hx]%elem_of_cons; [by destruct (Ne true b')|]. by eapply IH. }
  eapply (G _ w'); [|exact H|exact X]. done.
Qed.

(* ---- ending ---- *)
(* Done is the last thing said, by a process that has shut down; GracefulShutdownDone after SIGQUIT or its message, ShutdownDone after SIGTERM or its *)
Theorem C76_done : forall c tr w o, wrun c w0 tr = Some w -> o ∈ wOut w -> is_done o = true ->
  last (wOut w) = Some o /\ wPhase w = WExit (XCode 0) /\ last_taken w = Some (match o with OGracefulDone => QUIT | _ => TERM end).
Proof.
  intros c tr w o H Hi Hd. apply winv_run in H as I. destruct (wi_out _ _ _ _ I) as (r & d & E & Hr & Hx). rewrite E in *.
  destruct Hx as [->|(s & o' & -> & Ho & Hp & Ht)].
  - rewrite app_nil_r in Hi. destruct Hr as [->|[-> _]]; [by apply elem_of_nil in Hi|]. apply elem_of_list_singleton in Hi as ->. done.
  - apply elem_of_app in Hi as [Hi|Hi%elem_of_list_singleton]; [destruct Hr as [->|[-> _]]; [by apply elem_of_nil in Hi|]; apply elem_of_list_singleton in Hi as ->; done|]. subst o'.
    split; [by rewrite last_snoc|]. split; [done|]. rewrite Ht. destruct s; cbn in Ho; simplify_eq; done.
Qed.
(* A process ends with 0 only by SIGINT or after Shutdown has returned; with 1 only if it never started or Shutdown took the whole time it is given *)
Theorem C76_exit : forall c tr e w, wrun c w0 (tr ++ [e]) = Some w -> forall w1, wrun c w0 tr = Some w1 -> running (wPhase w1) = true -> wPhase w = WExit (XCode 0) ->
  (e = VClosed /\ last_taken w = Some INT) \/ (exists b s, e = VShutDone b /\ last_taken w = Some s /\ s <> INT /\ (s = HUP -> wKind c = KServer)).
Proof.
  intros c tr e w H w1 H1 Hr Hp. apply wrun_snoc in H as (w1' & H' & E). rewrite H1 in H'. injection H' as <-. apply winv_run in H1 as I. destruct w1 as [ph now ch bl rd tries out taken]. cbn [wPhase] in Hr.
  unfold wstep in E. rewrite Hr in E. cbn [negb] in E. destruct e; simplify_eq; repeat (case_match; simplify_eq; try done); cbn [wPhase] in *; simplify_eq; try done.
  - exfalso. revert Hp. match goal with |- on_signal _ _ ?x = _ -> _ => destruct x, (wKind c); done end.
  - right. exists written, s. destruct (wi_shut _ _ _ _ I _ _ eq_refl) as (? & ? & Hs). split; [done|]. split; [done|]. split; [intros ->; by destruct (wKind c)|intros ->; by destruct (wKind c)].
  - right. exists written, s. destruct (wi_shut _ _ _ _ I _ _ eq_refl) as (? & ? & Hs). split; [done|]. split; [done|]. split; [intros ->; by destruct (wKind c)|intros ->; by destruct (wKind c)].
  - left. split; [done|]. by apply (wi_close _ _ _ _ I).
Qed.
Theorem C76_cut_off : forall c tr e w1 w, wrun c w0 tr = Some w1 -> running (wPhase w1) = true -> wstep c w1 e = Some w -> wPhase w = WExit (XCode 1) ->
  (exists b, e = VStart false b /\ wWeb c = false) \/ (e = VForce /\ exists s t, wPhase w1 = WShut s t /\ t + patience (wKind c) <= wNow w1).
Proof.
  intros c. rewrite <- (limit_patience (wKind c)). revert c.
  intros c tr e w1 w H1 Hr E Hp. apply winv_run in H1 as I. destruct w1 as [ph now ch bl rd tries out taken]. cbn [wPhase wNow] in *.
  unfold wstep in E. rewrite Hr in E. cbn [negb] in E. destruct e; simplify_eq; repeat (case_match; simplify_eq; try done); cbn [wPhase] in *; simplify_eq; try done.
  - left. eauto.
  - exfalso. revert Hp. match goal with |- on_signal _ _ ?x = _ -> _ => destruct x, (wKind c); done end.
  - right. split; [done|]. eexists _, _. split; [done|]. destruct (wi_shut _ _ _ _ I _ _ eq_refl) as (_ & ? & _). cbn in *. match goal with H : (_ <=? _) = true |- _ => apply N.leb_le in H end. lia.
Qed.
(* However long Shutdown takes, the process can end once its time is over *)
Theorem C76_forced : forall c tr w s t, wrun c w0 tr = Some w -> wPhase w = WShut s t -> t + patience (wKind c) <= wNow w -> exists w', wstep c w VForce = Some w' /\ wPhase w' = WExit (XCode 1).
Proof.
  intros c. rewrite <- (limit_patience (wKind c)). revert c.
  intros c tr [ph now ch bl rd tries out taken] s t H Hp Hl. cbn in *. subst ph. cbn [running negb]. rewrite (proj2 (N.leb_le _ _)) by lia. eauto.
Qed.

(* ---- requests on stdin ---- *)
(* None is lost, and they are taken in the order they came, whatever signals come in between *)
Theorem C76_requests_kept : forall c tr w, wrun c w0 tr = Some w -> from_stdin (wTaken w ++ opt (wChan w) ++ opt (wBlocked w)) = asked tr.
Proof. intros c tr w H. apply (wi_asked _ _ _ _ (winv_run _ _ _ H)). Qed.
(* Without signals a process that says GracefulShutdownDone was asked to shut down gracefully, and so for ShutdownDone *)
Theorem C76_done_asked : forall c tr w o, wrun c w0 tr = Some w -> Forall (fun e => os_signal e = false) tr -> o ∈ wOut w -> is_done o = true ->
  VOp (match o with OGracefulDone => OGraceful | _ => OShutdown end) ∈ tr.
Proof.
  intros c tr w o H F Hi Hd. destruct (C76_done _ _ _ _ H Hi Hd) as (_ & _ & Hl).
  assert (A : forall tr w, wrun c w0 tr = Some w -> Forall (fun e => os_signal e = false) tr -> Forall (fun s => s.2 = true) (wTaken w ++ opt (wChan w) ++ opt (wBlocked w))).
  { clear. intros tr. induction tr as [|e tr IH] using rev_ind; intros w H F; [injection H as <-; constructor|]. apply wrun_snoc in H as (w1 & H & E). apply Forall_app in F as [F Fe]. apply Forall_singleton in Fe.
    specialize (IH _ H F). destruct w1 as [ph now ch bl rd tries out taken]. cbn [wTaken wChan wBlocked] in *. apply Forall_app in IH as [IH1 IH2]. apply Forall_app in IH2 as [IH2 IH3].
    unfold wstep in E. destruct (running ph); [|done]. cbn [negb] in E.
    destruct e; simplify_eq; repeat (case_match; simplify_eq; try done); cbn [wTaken wChan wBlocked opt app] in *; rewrite ?Forall_app, ?Forall_cons, ?Forall_nil in *; cbn [snd]; naive_solver. }
  specialize (A _ _ H F). assert (Hin : match o with OGracefulDone => QUIT | _ => TERM end ∈ asked tr).
  { rewrite <- (C76_requests_kept _ _ _ H). unfold last_taken in Hl. destruct (last (wTaken w)) as [[s b]|] eqn:El; [|done]. cbn in Hl. injection Hl as <-. apply last_Some in El as [l El].
    assert (Hi2 : (s, b) ∈ wTaken w) by (rewrite El; apply elem_of_app; right; by apply elem_of_list_singleton). unfold from_stdin. apply elem_of_list_fmap. exists (s, b). split; [done|]. apply elem_of_list_filter. split; [|by apply elem_of_app; left].
    rewrite Forall_forall in A. apply (A (s, b)). by apply elem_of_app; left. }
  unfold asked in Hin. apply elem_of_list_omap in Hin as (e & He & Ho). destruct e as [| | | | |x| | | | | | |]; try done. destruct x, o; cbn in Ho; simplify_eq; done.
Qed.
(* A process that was asked to shut down, whatever it is doing, does so: its own steps bring it to its end *)
Record winv2 (c : wconf) (w : worker) : Prop := {
  wj_quiet : wPhase w = WInit \/ wPhase w = WNotify -> wReading w = false /\ wChan w = None /\ wTaken w = [];
  wj_taken : wPhase w = WLoop \/ wPhase w = WReload -> Forall (fun s => s.1 = HUP /\ wKind c = KClient) (wTaken w);
  wj_stdin : Forall (fun s => s.2 = true -> s.1 = QUIT \/ s.1 = TERM) (wTaken w ++ opt (wChan w) ++ opt (wBlocked w)) }.
Lemma asks_cases o s : asks o = Some s -> s = QUIT \/ s = TERM.
Proof. destruct o; cbn; naive_solver. Qed.
Lemma winv2_run c tr w : wrun c w0 tr = Some w -> winv2 c w.
Proof.
  revert w. induction tr as [|e tr IH] using rev_ind; intros w H; [injection H as <-; constructor; cbn; try done; naive_solver|].
  apply wrun_snoc in H as (w1 & H & E). specialize (IH _ H). destruct IH as [Iq It Is]. destruct w1 as [ph now ch bl rd tries out taken]. cbn [wPhase wNow wChan wBlocked wReading wTries wOut wTaken] in *.
  rewrite !Forall_app in Is. destruct Is as (Is1 & Is2 & Is3). unfold wstep in E. destruct (running ph) eqn:Er; [|done]. cbn [negb] in E.
  assert (HT : forall s, on_signal (wKind c) now s <> WInit /\ on_signal (wKind c) now s <> WNotify /\ on_signal (wKind c) now s <> WLoop /\ (on_signal (wKind c) now s = WReload -> s = HUP /\ wKind c = KClient))
    by (intros []; destruct (wKind c); cbn; repeat split; done).
  constructor.
  - assert (HT' : forall s, on_signal (wKind c) now s = WInit \/ on_signal (wKind c) now s = WNotify -> False) by (intros x [X|X]; destruct (HT x) as (? & ? & _); auto). clear HT It Is1 Is2 Is3.
    destruct e; simplify_eq; repeat (case_match; simplify_eq; try done); cbn [wPhase wNow wChan wBlocked wReading wTries wOut wTaken] in *; try done; try (intros [?|?]; done).
    all: try (intros X; exfalso; by apply (HT' _ X)). all: try (intros X; destruct (Iq X) as (? & ? & ?); done). all: try (intros _; apply Iq; auto).
  - clear Is1 Is2 Is3. destruct e; simplify_eq; repeat (case_match; simplify_eq; try done); cbn [wPhase wNow wChan wBlocked wReading wTries wOut wTaken] in *; try done; try (intros [?|?]; done).
    all: try (intros _; apply It; auto; fail).
    + intros _. destruct Iq as (_ & _ & ->); [by right|done].
    + intros [X|X]; destruct (HT p.1) as (_ & _ & ? & HR); [done|]. apply Forall_app. split; [apply It; by left|]. apply Forall_singleton. by apply HR.
  - clear Iq It HT. destruct e; simplify_eq; repeat (case_match; simplify_eq; try done); cbn [wPhase wNow wChan wBlocked wReading wTries wOut wTaken opt] in *; rewrite ?Forall_app, ?Forall_cons, ?Forall_nil in *; cbn [fst snd].
    all: try tauto. all: repeat split; try done; try tauto; intros _; by eapply asks_cases.
Qed.
Definition own_step (e : wevt) : Prop := e = VTake \/ e = VReloaded \/ e = VShutDone true \/ e = VClosed.
Definition ends (c : wconf) (w : worker) : Prop := exists own w', Forall own_step own /\ wrun c w own = Some w' /\ running (wPhase w') = false.
Lemma ends_step c w e w1 : own_step e -> wstep c w e = Some w1 -> ends c w1 -> ends c w.
Proof. intros O E (own & w' & F & H & Hr). exists (e :: own), w'. split; [by constructor|]. split; [cbn [wrun]; by rewrite E|done]. Qed.
Lemma ends_loop c now s bl rd tries out taken : s.1 <> HUP -> ends c (mkW WLoop now (Some s) bl rd tries out taken).
Proof.
  intros N. eapply ends_step; [by left|reflexivity|]. destruct s as [[] b]; try done; cbn [on_signal fst].
  - eapply ends_step; [by do 3 right|reflexivity|]. by exists [], (mkW (WExit (XCode 0)) now bl None rd tries out (taken ++ [(INT, b)])).
  - eapply ends_step; [right; right; by left|reflexivity|]. eexists [], _. split; [done|]. split; reflexivity.
  - eapply ends_step; [right; right; by left|reflexivity|]. eexists [], _. split; [done|]. split; reflexivity.
Qed.
Theorem C76_honoured : forall c tr w, wrun c w0 tr = Some w -> running (wPhase w) = true -> asked tr <> [] ->
  exists own w', Forall own_step own /\ wrun c w own = Some w' /\ running (wPhase w') = false.
Proof.
  intros c tr w H Hr Ha. change (ends c w). pose proof (winv_run _ _ _ H) as [Ic Ia _ _ _ _ _ _ _]. pose proof (winv2_run _ _ _ H) as [Iq It Is]. destruct w as [ph now ch bl rd tries out taken].
  cbn [wPhase wNow wChan wBlocked wReading wTries wOut wTaken] in *. rewrite !Forall_app in Is. destruct Is as (Is1 & Is2 & Is3). rewrite <- Ia in Ha. clear Ia.
  assert (L : Forall (fun s => s.1 = HUP /\ wKind c = KClient) taken -> ends c (mkW WLoop now ch bl rd tries out taken)).
  { intros F. rewrite from_stdin_app in Ha. assert (E : from_stdin taken = []).
    { unfold from_stdin. clear -F Is1. induction taken as [|[s b] l IH]; [done|]. apply Forall_cons in F as [[Fs _] F]. apply Forall_cons in Is1 as [Hs Is1]. cbn in Fs, Hs. rewrite filter_cons_False; [by apply IH|]. cbn. intros ->. naive_solver. }
    rewrite E in Ha. clear E. cbn [app] in Ha. destruct ch as [s|]; [|by rewrite (Ic eq_refl) in Ha]. destruct (decide (s.1 = HUP)) as [Es|Ns]; [|by apply ends_loop].
    eapply ends_step; [by left|reflexivity|]. rewrite Es. destruct (wKind c) eqn:Ek; cbn [on_signal].
    - eapply ends_step; [right; right; by left|reflexivity|]. eexists [], _. split; [done|]. split; reflexivity.
    - eapply ends_step; [right; by left|reflexivity|]. destruct bl as [b|].
      + apply ends_loop. cbn [opt app] in *. apply Forall_cons in Is3 as [Is3 _]. apply Forall_cons in Is2 as [Is2 _]. intros Eb. destruct s as [x sb], b as [y bb]; cbn in *; subst. destruct sb; [by destruct (Is2 eq_refl)|]. destruct bb; [by destruct (Is3 eq_refl)|]. by apply Ha.
      + cbn [opt app] in *. apply Forall_cons in Is2 as [Is2 _]. destruct s as [x sb]; cbn in *; subst. destruct sb; [by destruct (Is2 eq_refl)|]. by destruct Ha. }
  destruct ph; try done.
  - destruct Iq as (_ & -> & ->); [by left|]. by rewrite (Ic eq_refl) in Ha.
  - destruct Iq as (_ & -> & ->); [by right|]. by rewrite (Ic eq_refl) in Ha.
  - apply L, It. by left.
  - eapply ends_step; [right; by left|reflexivity|]. apply L, It. by right.
  - eapply ends_step; [right; right; by left|reflexivity|]. eexists [], _. split; [done|]. split; reflexivity.
  - eapply ends_step; [by do 3 right|reflexivity|]. eexists [], _. split; [done|]. split; reflexivity.
Qed.

(* ---- what does not hold ---- *)
(* SIGHUP, which reloads a client's services, shuts a server down, without a Done message *)
Theorem C76_client_reloads : forall c tr w b, wKind c = KClient -> wrun c w0 tr = Some w -> wPhase w = WLoop -> wChan w = Some (HUP, b) ->
  exists w', wrun c w [VTake; VReloaded] = Some w' /\ wPhase w' = WLoop /\ wOut w' = wOut w.
Proof. intros c tr [] b Hk H Hp Hc. cbn in *. subst. cbn. rewrite Hk. cbn. eauto. Qed.
Theorem C76_server_reload_refuted : forall c tr w b, wKind c = KServer -> wrun c w0 tr = Some w -> wPhase w = WLoop -> wChan w = Some (HUP, b) ->
  forall tr' w', wrun c w (VTake :: tr') = Some w' -> wPhase w' <> WLoop /\ wPhase w' <> WReload /\ forall o, o ∈ wOut w' -> is_done o = false.
Proof.
  intros c tr w b Hk H Hp Hc tr' w' H'. assert (R : wrun c w0 (tr ++ VTake :: tr') = Some w') by (rewrite wrun_app, H; done).
  assert (G : (exists t, wPhase w' = WShut HUP t) \/ running (wPhase w') = false /\ last_taken w' = Some HUP).
  { destruct w as [ph now ch bl rd tries out taken]. cbn in Hp, Hc. subst. cbn [wrun wstep running negb fst] in H'. rewrite Hk in H'. cbn [on_signal mbind option_bind] in H'.
    assert (X : forall tr' w, (exists t, wPhase w = WShut HUP t) \/ running (wPhase w) = false -> last_taken w = Some HUP -> wrun c w tr' = Some w' -> (exists t, wPhase w' = WShut HUP t) \/ running (wPhase w') = false /\ last_taken w' = Some HUP).
    { clear. induction tr' as [|e tr' IH]; intros w Hw Hl H; [injection H as <-; naive_solver|]. cbn [wrun] in H. destruct (wstep c w e) as [w1|] eqn:E; [|done]. cbn [mbind option_bind] in H. destruct w as [ph now ch bl rd tries out taken]. cbn [wPhase] in Hw. unfold wstep in E.
      destruct Hw as [[t ->]|Hr]; [|by rewrite Hr in E]. cbn [running negb] in E. apply (IH w1); [| |exact H]; clear H IH; destruct e; simplify_eq; repeat (case_match; simplify_eq; try done); cbn [wPhase]; eauto. }
    refine (X tr' _ _ _ H'); [left; cbn; eauto|unfold last_taken; cbn [wTaken]; by rewrite last_snoc']. }
  split; [intros E; rewrite E in G; naive_solver|]. split; [intros E; rewrite E in G; naive_solver|].
  intros o Ho. destruct (is_done o) eqn:Ed; [|done]. destruct (C76_done _ _ _ _ R Ho Ed) as (_ & Ep & El). destruct G as [[t G]|[_ G]]; [congruence|]. rewrite El in G. by destruct o.
Qed.
(* Once a process is shutting down, no signal makes it end sooner *)
Theorem C76_no_hurry_refuted : forall c tr w s t sigs, wrun c w0 tr = Some w -> wPhase w = WShut s t -> exists w', wrun c w (VOs <$> sigs) = Some w' /\ wPhase w' = WShut s t.
Proof.
  intros c tr w s t sigs _ Hp. revert w Hp. induction sigs as [|x sigs IH]; intros [ph now ch bl rd tries out taken] Hp; [eauto|]. cbn [wPhase] in Hp. subst ph. cbn [fmap list_fmap wrun wstep running negb mbind option_bind]. by apply IH.
Qed.
(* A signal is lost if another one is waiting, for example one that came while services were being reloaded: SIGTERM after two SIGHUP *)
Theorem C76_signal_lost_refuted : exists w, wrun (mkWC KClient false false) w0 [VStart true true; VNotify; VOs HUP; VTake; VOs HUP; VOs TERM; VReloaded; VTake; VReloaded] = Some w /\
  wPhase w = WLoop /\ wChan w = None /\ (TERM, false) ∉ wTaken w.
Proof. eexists. split; [vm_compute; reflexivity|]. split; [done|]. split; [done|]. cbn. set_solver. Qed.
(* A signal sent to a server after it said Ready may end it at once, without shutting down *)
Theorem C76_early_signal_refuted : exists w w', wrun (mkWC KServer false false) w0 [VStart true true] = Some w /\ OReady ∈ wOut w /\ wstep (mkWC KServer false false) w (VOs TERM) = Some w' /\ wPhase w' = WExit XKilled.
Proof. eexists _, _. split; [vm_compute; reflexivity|]. split; [cbn; set_solver|]. split; [vm_compute; reflexivity|done]. Qed.
(* A client that did not reach a server within ten attempts never says Ready, even if it does later *)
Theorem C76_late_client_refuted : forall c b, wKind c = KClient -> (wWeb c = false \/ wFile c = true) ->
  exists w, wrun c w0 (VStart true b :: VNotify :: replicate 10 (VTry false b)) = Some w /\ wPhase w = WLoop /\ forall ok b', wstep c w (VTry ok b') = None.
Proof. intros [k wb fl] b Hk Hs. cbn in Hk. subst k. cbn in Hs. assert (E : wb && negb fl = false) by (destruct Hs as [->| ->]; [done|by destruct wb]). cbn. rewrite E. cbn. eexists. split; [reflexivity|]. done. Qed.
Theorem C76_witness : exists w w', wrun (mkWC KClient true true) w0 [VStart true true; VTry false true; VNotify; VTry true true; VOs HUP; VTake; VOp OReady; VOp OGraceful; VReloaded; VTick 5; VTake; VTick 29] = Some w /\
  wPhase w = WShut QUIT 5 /\ wOut w = [OReady] /\ wstep (mkWC KClient true true) w VForce = None /\ wstep (mkWC KClient true true) w (VShutDone true) = Some w' /\ wOut w' = [OReady; OGracefulDone].
Proof. eexists _, _. split; [vm_compute; reflexivity|]. split; [done|]. split; [done|]. split; [done|]. split; [vm_compute; reflexivity|done]. Qed.
