(* Props_Accept.v -- C80: a server goes on accepting connections *)
From Verif Require Import GoBase GoBaseLemmas AcceptModel.
Local Open Scope N_scope.

(* ---- specification ---- *)
Definition conns (rs : list (N + errno)) : list N := omap (fun r => match r with inl c => Some c | inr _ => None end) rs.
(* errors that pass: no room for more files, interrupted, try again (syscall.Errno.Temporary) *)
Definition passing (e : errno) : bool := match e with EINVAL => false | _ => true end.
Definition streams (fs : list fate) : list N := omap (fun f => match f with FStream c => Some c | _ => None end) fs.

Lemma lrun_app s a b : lrun s (a ++ b) = lrun (lrun s a) b.
Proof. apply foldl_app. Qed.
Lemma stopped es : forall s, lRunning s = false -> lHandled (lrun s es) = lHandled s /\ lRunning (lrun s es) = false.
Proof. induction es as [|e es IH]; intros s H; [done|]. unfold lrun. cbn [foldl]. change (foldl lstep ?x es) with (lrun x es). destruct e as [a|]; cbn [lstep]; [rewrite H; by apply IH|]. by apply (IH (mkL _ _ _ _ _)). Qed.
(* While Accept fails with timeouts only, every connection is handled, in order, and the loop goes on *)
Lemma goes_on : forall rs s, lRunning s = true -> lClosing s = false -> Forall (fun a => match a with AErr t => t = true | _ => True end) rs ->
  lRunning (lrun s (LAcc <$> rs)) = true /\ lClosing (lrun s (LAcc <$> rs)) = false /\ lHandled (lrun s (LAcc <$> rs)) = lHandled s ++ omap (fun a => match a with AConn c => Some c | _ => None end) rs.
Proof.
  induction rs as [|a rs IH]; intros s H1 H2 F; [cbn; by rewrite app_nil_r|]. apply Forall_cons in F as [Fa F]. cbn [fmap list_fmap]. unfold lrun. cbn [foldl lstep]. rewrite H1. change (foldl lstep ?x ?es) with (lrun x es). destruct a as [c|t].
  - rewrite H2. destruct (IH (mkL (negb false) false (lDelay s) (lSlept s) (lHandled s ++ [c])) eq_refl eq_refl F) as (A & B & C). cbn [negb] in *. rewrite A, B, C. cbn. by rewrite <- app_assoc.
  - rewrite H2. subst t. destruct (IH (mkL true false (next_delay (lDelay s)) (lSlept s ++ [next_delay (lDelay s)]) (lHandled s)) eq_refl eq_refl F) as (A & B & C). rewrite A, B, C. done.
Qed.
Theorem C80_goes_on_partial : forall rs, Forall (fun r => match r with inr e => timeout e = true | _ => True end) rs ->
  let s := lrun l0 (LAcc <$> (tcp_acc <$> rs)) in lRunning s = true /\ lHandled s = conns rs.
Proof.
  intros rs F. destruct (goes_on (tcp_acc <$> rs) l0 eq_refl eq_refl) as (A & _ & C).
  - apply Forall_fmap. eapply Forall_impl; [exact F|]. intros [c|e] H; done.
  - split; [done|]. etransitivity; [exact C|]. cbn [lHandled l0 app]. clear. unfold conns. induction rs as [|[c|e] rs IH]; cbn; [done|by f_equal|done].
Qed.
(* One accept that fails for want of file descriptors: no connection is ever accepted again *)
Theorem C80_too_many_files_refuted : forall rs e rs', Forall (fun r => match r with inr e => timeout e = true | _ => True end) rs -> passing e = true -> timeout e = false ->
  let s := lrun l0 (LAcc <$> (tcp_acc <$> (rs ++ inr e :: rs'))) in lRunning s = false /\ lHandled s = conns rs.
Proof.
  intros rs e rs' F P T. cbv zeta. rewrite !fmap_app, lrun_app. destruct (goes_on (tcp_acc <$> rs) l0 eq_refl eq_refl) as (A & B & C).
  { apply Forall_fmap. eapply Forall_impl; [exact F|]. intros [c|x] H; done. }
  destruct (C80_goes_on_partial rs F) as [_ D]. set (s := lrun l0 (LAcc <$> (tcp_acc <$> rs))) in *. cbn [fmap list_fmap tcp_acc]. unfold lrun. cbn [foldl lstep]. rewrite A, B, T. change (foldl lstep ?x ?es) with (lrun x es).
  destruct (stopped (LAcc <$> (tcp_acc <$> rs')) (mkL false false (lDelay s) (lSlept s) (lHandled s)) eq_refl) as [X Y]. split; [done|]. by rewrite X.
Qed.
Theorem C80_too_many_files_witness : passing EMFILE = true /\ timeout EMFILE = false /\ lHandled (lrun l0 (LAcc <$> (tcp_acc <$> [inl 1; inr EAGAIN; inl 2; inr EMFILE; inl 3; inl 4]))) = [1; 2].
Proof. done. Qed.
(* It never waits more than a second after a failure, and at least five milliseconds *)
Theorem C80_delay : forall es, Forall (fun d => 5 <= d <= 1000) (lSlept (lrun l0 es)).
Proof.
  intros es. assert (G : forall s, (lDelay s = 0 \/ 5 <= lDelay s <= 1000) -> Forall (fun d => 5 <= d <= 1000) (lSlept s) -> Forall (fun d => 5 <= d <= 1000) (lSlept (lrun s es))).
  { induction es as [|e es IH]; intros s D F; [done|]. unfold lrun. cbn [foldl]. change (foldl lstep ?x ?es) with (lrun x es). apply IH.
    - destruct e as [a|]; [|done]. cbn [lstep]. destruct (lRunning s); [|done]. destruct a as [c|t]; [done|]. destruct (lClosing s); [done|]. destruct t; [|done]. right. cbn [lDelay]. unfold next_delay. destruct (N.eqb_spec (lDelay s) 0); [cbn; lia|]. destruct (N.ltb_spec 1000 (lDelay s * 2)); lia.
    - destruct e as [a|]; [|done]. cbn [lstep]. destruct (lRunning s); [|done]. destruct a as [c|t]; [done|]. destruct (lClosing s); [done|]. destruct t; [|done]. cbn [lSlept]. apply Forall_app. split; [done|]. constructor; [|done].
      unfold next_delay. destruct (N.eqb_spec (lDelay s) 0); [cbn; lia|]. destruct (N.ltb_spec 1000 (lDelay s * 2)); lia. }
  apply G; [by left|constructor].
Qed.
(* Once the server is closing at most one more connection is handled, and the loop has ended when Accept returns *)
Theorem C80_closing : forall es1 es2, exists k, lHandled (lrun l0 (es1 ++ LClose :: es2)) = lHandled (lrun l0 es1) ++ k /\ (length k <= 1)%nat /\ ((exists a, LAcc a ∈ es2) -> lRunning (lrun l0 (es1 ++ LClose :: es2)) = false).
Proof.
  intros es1 es2. rewrite lrun_app. set (s := lrun l0 es1). change (lrun s (LClose :: es2)) with (lrun (mkL (lRunning s) true (lDelay s) (lSlept s) (lHandled s)) es2).
  assert (G : forall s, lClosing s = true -> exists k, lHandled (lrun s es2) = lHandled s ++ k /\ (length k <= 1)%nat /\ ((exists a, LAcc a ∈ es2) -> lRunning (lrun s es2) = false)).
  { clear s. induction es2 as [|e es IH]; intros s Hc; [exists []; split; [by rewrite app_nil_r|]; split; [cbn; lia|]; intros [a Ha]; by apply elem_of_nil in Ha|].
    unfold lrun. cbn [foldl]. change (foldl lstep ?x ?es) with (lrun x es). destruct e as [a|].
    - cbn [lstep]. destruct (lRunning s) eqn:R.
      + destruct a as [c|t]; rewrite Hc.
        * destruct (stopped es (mkL (negb true) true (lDelay s) (lSlept s) (lHandled s ++ [c])) eq_refl) as [X Y]. exists [c]. rewrite X, Y. done.
        * destruct (stopped es (mkL false true (lDelay s) (lSlept s) (lHandled s)) eq_refl) as [X Y]. exists []. rewrite X, Y. cbn. rewrite app_nil_r. split; [done|]. split; [lia|done].
      + destruct (stopped es s R) as [X Y]. exists []. rewrite X, Y, app_nil_r. split; [done|]. split; [cbn; lia|done].
    - destruct (IH (lstep s LClose)) as (k & K1 & K2 & K3); [done|]. exists k. split; [done|]. split; [done|]. intros [a Ha]. apply K3. exists a. by apply elem_of_cons in Ha as [?|?]. }
  by apply (G (mkL (lRunning s) true (lDelay s) (lSlept s) (lHandled s))).
Qed.

(* ---- QUIC ---- *)
(* Every connection that opens its stream is served, if no other is closed by its peer, or stays open, without one *)
Theorem C80_quic_partial : forall fs, Forall (fun f => f <> FClosed /\ f <> FOpen) fs -> lRunning (quic_served false fs) = true /\ lHandled (quic_served false fs) = streams fs.
Proof.
  intros fs F. destruct (goes_on (quic_acc false fs) l0 eq_refl eq_refl) as (A & _ & C).
  - induction F as [|f fs [F1 F2] _ IH]; [constructor|]. destruct f; try done; cbn [quic_acc]; by constructor.
  - split; [done|]. unfold quic_served. rewrite C. cbn [lHandled l0 app]. clear A C. unfold streams. induction F as [|f fs [F1 F2] _ IH]; [done|]. destruct f; try done; cbn; by rewrite IH.
Qed.
(* A peer that closes its connection without opening a stream ends the loop, one that keeps it open holds it up: nobody who comes later is served *)
Theorem C80_quic_refuted : forall fs f fs', Forall (fun f => f <> FClosed /\ f <> FOpen) fs -> f = FClosed \/ f = FOpen -> lHandled (quic_served false (fs ++ f :: fs')) = streams fs.
Proof.
  intros fs f fs' F Hf. destruct (C80_quic_partial fs F) as [A C]. unfold quic_served in *.
  assert (E : quic_acc false (fs ++ f :: fs') = quic_acc false fs ++ quic_acc false (f :: fs')).
  { clear -F. induction F as [|g fs [F1 F2] _ IH]; [done|]. destruct g; try done; cbn [app quic_acc]; by rewrite IH. }
  rewrite E, fmap_app, lrun_app. assert (B : lClosing (lrun l0 (LAcc <$> quic_acc false fs)) = false). { apply goes_on; [done|done|]. clear -F. induction F as [|g fs [F1 F2] _ IH]; [constructor|]. destruct g; try done; cbn [quic_acc]; by constructor. }
  set (s := lrun l0 (LAcc <$> quic_acc false fs)) in *. destruct Hf as [-> | ->]; cbn [quic_acc fmap list_fmap]; [|done].
  unfold lrun. cbn [foldl lstep]. rewrite A, B. change (foldl lstep ?x ?es) with (lrun x es). destruct (stopped (LAcc <$> quic_acc false fs') (mkL false false (lDelay s) (lSlept s) (lHandled s)) eq_refl) as [X Y]. by rewrite X.
Qed.
(* With -bbr a connection that ends for idleness is enough *)
Theorem C80_bbr_refuted : forall fs f fs', Forall (fun f => exists c, f = FStream c) fs -> (forall c, f <> FStream c) -> lHandled (quic_served true (fs ++ f :: fs')) = streams fs.
Proof.
  intros fs f fs' F Hf. unfold quic_served. assert (E : quic_acc true (fs ++ f :: fs') = quic_acc true fs ++ quic_acc true (f :: fs')).
  { clear -F. induction F as [|g fs [c ->] _ IH]; [done|]. cbn [app quic_acc]. by rewrite IH. }
  rewrite E, fmap_app, lrun_app. destruct (goes_on (quic_acc true fs) l0 eq_refl eq_refl) as (A & B & C). { clear -F. induction F as [|g fs [c ->] _ IH]; [constructor|]. cbn [quic_acc]. by constructor. }
  assert (D : lHandled (lrun l0 (LAcc <$> quic_acc true fs)) = streams fs). { rewrite C. cbn [lHandled l0 app]. clear -F. unfold streams. induction F as [|g fs [c ->] _ IH]; [done|]. cbn. by f_equal. }
  set (s := lrun l0 (LAcc <$> quic_acc true fs)) in *. destruct f as [c| | |]; [by destruct (Hf c)| | |done]; cbn [quic_acc fmap list_fmap negb]; unfold lrun; cbn [foldl lstep]; rewrite A, B; change (foldl lstep ?x ?es) with (lrun x es);
    (destruct (stopped (LAcc <$> quic_acc true fs') (mkL false false (lDelay s) (lSlept s) (lHandled s)) eq_refl) as [X Y]; by rewrite X).
Qed.
Theorem C80_witness : lHandled (quic_served false [FStream 1; FIdle; FStream 2]) = [1; 2] /\ lHandled (quic_served false [FStream 1; FClosed; FStream 2]) = [1] /\ lHandled (quic_served false [FOpen; FStream 2]) = [] /\ lHandled (quic_served true [FIdle; FStream 2]) = [].
Proof. done. Qed.
