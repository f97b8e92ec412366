(* Props_Stop.v -- C95: a client can be stopped at any time without crashing, and until then every peer-to-peer visitor is handed to its HTTP server (StopModel) *)
From Verif Require Import GoBase StopModel.
Local Open Scope N_scope.
Local Ltac sx := simplify_eq; try done; repeat (case_match; simplify_eq; try done).

Lemma exec_app tm s t1 t2 : exec tm s (t1 ++ t2) = (s1 ← exec tm s t1; exec tm s1 t2).
Proof. revert s. induction t1 as [|e t1 IH]; intros s; [done|]. cbn. destruct (step tm s e); cbn; [apply IH|done]. Qed.
Lemma exec_inv tm (I : st -> Prop) : (forall s e s', I s -> step tm s e = Some s' -> I s') -> forall tr s s', I s -> exec tm s tr = Some s' -> I s'.
Proof. intros HI. induction tr as [|e tr IH]; intros s s' H0 H; cbn in H; [by simplify_eq|]. apply bind_Some in H as (s1 & E & H). eauto. Qed.

(* ---- Shutdown ---- *)
Definition only_shutdown (tr : list ev) : Prop := ECall true ∉ tr.
Definition safe (s : st) : Prop := pPanic s = false /\ (forall b, pCloser s = KCalled b \/ pCloser s = KTold b \/ pCloser s = KApi b -> b = false)
  /\ (pShut s = true -> forall i l, pLoops s !! i = Some l -> l = LDone).
Lemma safe_step tm s e s' : safe s -> e <> ECall true -> step tm s e = Some s' -> safe s'.
Proof.
  intros (Hp & Hk & Hd) He H. unfold step in H. rewrite Hp in H. destruct s as [L K q sh sn ac nx pn]. cbn [pPanic pCloser pShut pLoops pQueue pSent pAccepted pNext] in *. subst pn.
  assert (Hin : forall i x, L !! i = Some x -> x <> LDone -> sh = false) by (intros i x Hi Hx; destruct sh; [exfalso; apply Hx; by eapply (Hd eq_refl)|done]).
  assert (Hat : forall i x y, L !! i = Some x -> x <> LDone -> safe (at_ (mkSt L K q sh sn ac nx false) i y)).
  { intros i x y Hi Hx. rewrite (Hin i x Hi Hx). split; [done|]. split; [exact Hk|done]. }
  destruct e; cbn -[N.add] in H; try (sx; by eapply Hat).
  - destruct (L !! i) as [[|o []|]|] eqn:E; try done. rewrite (Hin _ _ E ltac:(done)) in *. destruct q; [|done]. simplify_eq. split; [done|]. split; [exact Hk|done].
  - sx. split; [done|]. split; [|exact Hd]. cbn. intros b Hb. destruct force; [done|]. destruct_or!; congruence.
  - destruct K as [|f| |]; try done. simplify_eq. assert (f = false) as -> by (apply Hk; by left). split; [done|]. split; [|exact Hd]. cbn. intros b Hb. destruct_or!; congruence.
  - destruct K as [| |f|]; try done. assert (f = false) as -> by (apply Hk; auto). cbn in H. destruct (all_done L) eqn:E; [|done]. simplify_eq. split; [done|]. split; [cbn; intros b Hb; destruct_or!; congruence|].
    cbn. intros _ i l Hl. unfold all_done in E. apply bool_decide_eq_true in E. specialize (E i l Hl). by destruct l.
Qed.
(* However and whenever Shutdown is called, with whatever else going on, the client does not crash. *)
Theorem C95_shutdown_safe : forall tm loops tr s, exec tm (st0 loops) tr = Some s -> only_shutdown tr -> pPanic s = false.
Proof.
  intros tm loops tr s H Hn. assert (G : forall a, safe a -> exec tm a tr = Some s -> safe s).
  { clear H. unfold only_shutdown in Hn. induction tr as [|e tr IH]; intros a Ha H; cbn in H; [by simplify_eq|]. apply bind_Some in H as (a1 & E & H). apply not_elem_of_cons in Hn as [Hne Hn].
    refine (IH Hn a1 _ H). refine (safe_step tm a e a1 Ha _ E). congruence. }
  refine (proj1 (G (st0 loops) _ H)). split; [done|]. split; [|done]. cbn. intros b Hb. destruct_or!; done.
Qed.
(* So does a client that nobody stops. *)

(* ---- Close ---- *)
(* A visitor's first frame has been read when Close is called: the client crashes, with and without a timeout. *)
Theorem C95_close_crash_refuted : forall tm, exists s, exec tm (st0 {[1]}) [EConnect 1; EDeadline 1; EVisitor 1; ECall true; ETell; ETask 1; EApi; ESend 1] = Some s /\ pPanic s = true.
Proof. intros []; eexists; (split; [vm_compute; reflexivity|done]). Qed.
(* Nor is it enough that Close has returned: a loop that was connecting then makes a tunnel (C54_leak_refuted), and its first peer-to-peer visitor is the crash. *)
Theorem C95_after_close_refuted : forall tm, exists s1 s2, exec tm (st0 {[1]}) [ECall true; ETell; EApi] = Some s1 /\ pPanic s1 = false /\
  exec tm s1 [EConnect 1; EDeadline 1; EVisitor 1; ETask 1; ESend 1] = Some s2 /\ pPanic s2 = true.
Proof. intros []; do 2 eexists; (split; [vm_compute; reflexivity|]); (split; [done|]); (split; [vm_compute; reflexivity|done]). Qed.
(* Exactly when: with a timeout, if at the moment the API server is closed every loop has ended or is about to ask for the next frame on a connection that Close has closed
   (or hands over a visitor's bytes), and no loop connects later, there is no crash; if one has a frame to come, a crash can follow. *)
Definition harmless (l : lpc) : Prop := match l with LOut | LDone | LIn false PTop | LIn false PPump => True | _ => False end.
#[global] Instance harmless_dec l : Decision (harmless l). Proof. destruct l as [|[] []|]; cbn; apply _. Defined.
Definition no_connect (tr : list ev) : Prop := Forall (fun e => forall i, e <> EConnect i) tr.
Lemma harmless_step s e s' : pPanic s = false -> map_Forall (fun _ l => harmless l) (pLoops s) -> (forall i, e <> EConnect i) -> step true s e = Some s' -> pPanic s' = false /\ map_Forall (fun _ l => harmless l) (pLoops s').
Proof.
  intros Hp Hh Hc H. unfold step in H. rewrite Hp in H. destruct s as [L K q sh sn ac nx pn]. cbn [pPanic pCloser pShut pLoops pQueue pSent pAccepted pNext] in *. subst pn.
  assert (Hat : forall i y, harmless y -> pPanic (at_ (mkSt L K q sh sn ac nx false) i y) = false /\ map_Forall (fun _ l => harmless l) (pLoops (at_ (mkSt L K q sh sn ac nx false) i y))).
  { intros i y Hy. split; [done|]. by apply map_Forall_insert_2. }
  destruct e; try (by exfalso; exact (Hc _ eq_refl)); try (destruct (L !! i) as [[|[] []|]|] eqn:E; try done; try (by specialize (Hh _ _ E))); cbn in H.
  - destruct (closing _); [|done]. simplify_eq. by apply Hat.
  - simplify_eq. by apply Hat.
  - simplify_eq. by apply Hat.
  - sx.
  - sx.
  - destruct K as [|f| |]; try done. simplify_eq. split; [done|]. cbn. destruct f; [|done]. intros i l Hl. unfold shut_all in Hl. rewrite lookup_fmap_Some in Hl. destruct Hl as (l0 & <- & Hl). specialize (Hh _ _ Hl). by destruct l0 as [|[] []|].
  - destruct K as [| |f|]; try done. destruct (f || _); [|done]. by simplify_eq.
Qed.
Theorem C95_close_partial : forall s s1 tr s2, step true s EApi = Some s1 -> map_Forall (fun _ l => harmless l) (pLoops s1) -> no_connect tr -> exec true s1 tr = Some s2 -> pPanic s2 = false.
Proof.
  intros s s1 tr s2 H Hh Hn H2. assert (Hp : pPanic s1 = false). { unfold step in H. destruct (pPanic s); [done|]. sx. }
  clear H. assert (G : pPanic s2 = false /\ map_Forall (fun _ l => harmless l) (pLoops s2)); [|apply G].
  revert s1 Hp Hh H2. induction tr as [|e tr IH]; intros s1 Hp Hh H2; cbn in H2; [by simplify_eq|]. apply bind_Some in H2 as (sm & E & H2). inversion Hn; subst.
  destruct (harmless_step s1 e sm Hp Hh ltac:(done) E). eapply IH; eauto.
Qed.
Theorem C95_close_exact_refuted : forall tm s s1 i l, step tm s EApi = Some s1 -> pLoops s1 !! i = Some l ->
  match l with LIn _ PRead | LIn _ PFrame | LIn _ PSend | LIn true _ | LOut => True | _ => False end -> exists tr s2, exec tm s1 tr = Some s2 /\ pPanic s2 = true.
Proof.
  intros tm s s1 i l H Hl Hm. assert (Hp : pPanic s1 = false /\ pShut s1 = true). { unfold step in H. destruct (pPanic s); [done|]. sx. } destruct Hp as [Hp Hsh]. clear H.
  destruct s1 as [L K q sh sn ac nx pn]. cbn in *. subst.
  assert (G : forall L o, L !! i = Some (LIn o PSend) -> exists s2, exec tm (mkSt L K q true sn ac nx false) [ESend i] = Some s2 /\ pPanic s2 = true) by (intros L' o HL; cbn; rewrite HL; cbn; eauto).
  assert (GF : forall L o, L !! i = Some (LIn o PFrame) -> exists s2, exec tm (mkSt L K q true sn ac nx false) [ETask i; ESend i] = Some s2 /\ pPanic s2 = true)
    by (intros L' o HL; cbn; rewrite HL; cbn; rewrite lookup_insert; cbn; eauto).
  assert (GR : forall L o, L !! i = Some (LIn o PRead) -> exists s2, exec tm (mkSt L K q true sn ac nx false) [EVisitor i; ETask i; ESend i] = Some s2 /\ pPanic s2 = true)
    by (intros L' o HL; cbn; rewrite HL; cbn; rewrite lookup_insert; cbn; rewrite lookup_insert; cbn; eauto).
  assert (GT : forall L, L !! i = Some (LIn true PTop) -> exists s2, exec tm (mkSt L K q true sn ac nx false) [EDeadline i; EVisitor i; ETask i; ESend i] = Some s2 /\ pPanic s2 = true)
    by (intros L' HL; cbn; rewrite HL; cbn; rewrite andb_false_r; cbn; rewrite lookup_insert; cbn; rewrite lookup_insert; cbn; rewrite lookup_insert; cbn; eauto).
  destruct l as [|o p|]; [|destruct p|done].
  - exists [EConnect i; EDeadline i; EVisitor i; ETask i; ESend i]. cbn. rewrite Hl. cbn. rewrite lookup_insert. cbn. rewrite andb_false_r. cbn. do 3 (rewrite lookup_insert; cbn). eauto.
  - destruct o; [|done]. by eexists; eapply GT.
  - by eexists; eapply GR.
  - by eexists; eapply GF.
  - by eexists; eapply G.
  - destruct o; [|done]. exists [EPumped i; EDeadline i; EVisitor i; ETask i; ESend i]. cbn. rewrite Hl. cbn. rewrite lookup_insert. cbn. rewrite andb_false_r. cbn. do 3 (rewrite lookup_insert; cbn). eauto.
Qed.

(* ---- the visitors until then ---- *)
(* No visitor is lost between a tunnel and the HTTP server, none is served twice, and they come in the order in which they were handed over; *)
Theorem C95_handed_over : forall tm loops tr s, exec tm (st0 loops) tr = Some s -> pSent s = pAccepted s ++ pQueue s /\ (length (pQueue s) <= 1)%nat /\ NoDup (pSent s).
Proof.
  intros tm loops tr s H. set (I := fun s => pSent s = pAccepted s ++ pQueue s /\ (length (pQueue s) <= 1)%nat /\ NoDup (pSent s) /\ Forall (fun v => v < pNext s) (pSent s)).
  assert (G : I s); [|destruct G as (? & ? & ? & _); done].
  refine (exec_inv tm I _ tr (st0 loops) s _ H); [|split; [done|]; split; [cbn; lia|]; split; constructor].
  clear. intros s e s' (H1 & H2 & H3 & H4) H. unfold step in H. destruct (pPanic s); [done|]. destruct s as [L K q sh sn ac nx pn]. unfold I, at_ in *. cbn in *.
  destruct e; cbn -[N.add] in H; sx; cbn; try (by split_and!).
  - rewrite app_nil_r in *. split; [done|]. split; [lia|]. split.
    + apply NoDup_app. split; [done|]. split; [|apply NoDup_singleton]. intros x Hx ->%elem_of_list_singleton. rewrite Forall_forall in H4. specialize (H4 _ Hx). lia.
    + apply Forall_app. split; [|constructor; [lia|constructor]]. eapply Forall_impl; [exact H4|]. cbn. lia.
  - cbn in H2. rewrite <- app_assoc. cbn. split; [done|]. split; [lia|]. split; done.
Qed.
(* and a tunnel that has one to hand over waits only for the HTTP server's Accept. *)
Theorem C95_not_held_up : forall tm loops tr s i o, exec tm (st0 loops) tr = Some s -> pPanic s = false -> pShut s = false -> pLoops s !! i = Some (LIn o PSend) ->
  exists tr' s', (tr' = [ESend i] \/ tr' = [EAccept; ESend i]) /\ exec tm s tr' = Some s' /\ pLoops s' !! i = Some (LIn o PPump) /\ pPanic s' = false.
Proof.
  intros tm loops tr s i o H Hp Hs Hl. destruct (C95_handed_over _ _ _ _ H) as (_ & Hq & _). destruct s as [L K q sh sn ac nx pn]. cbn in *. subst.
  destruct q as [|c [|]]; [| |cbn in Hq; lia].
  - exists [ESend i]. eexists. split; [by left|]. cbn -[N.add]. rewrite Hl. cbn -[N.add]. split; [done|]. cbn. split; [apply lookup_insert|done].
  - exists [EAccept; ESend i]. eexists. split; [by right|]. cbn -[N.add]. rewrite Hl. cbn -[N.add]. split; [done|]. cbn. split; [apply lookup_insert|done].
Qed.

(* two tunnels, three visitors, then Shutdown; and a Close that meets the hypotheses of C95_close_partial *)
Theorem C95_witness :
  (exists s, exec true (st0 {[1; 2]}) [EConnect 1; EConnect 2; EDeadline 1; EVisitor 1; ETask 1; ESend 1; EDeadline 2; EVisitor 2; ETask 2; EAccept; ESend 2; ECall false; ETell; EPumped 1;
     EDeadline 1; EBroken 1; ELoopEnd 1; EAccept; EPumped 2; EDeadline 2; EBroken 2; ELoopEnd 2; EApi] = Some s /\ pPanic s = false /\ pAccepted s = [0; 1] /\ pShut s = true) /\
  (exists s s1, exec true (st0 {[1]}) [EConnect 1; EDeadline 1; EVisitor 1; ETask 1; ESend 1; EAccept; ECall true; ETell] = Some s /\ step true s EApi = Some s1 /\ map_Forall (fun _ l => harmless l) (pLoops s1)).
Proof.
  split.
  - eexists. split; [vm_compute; reflexivity|]. by split_and!.
  - do 2 eexists. split; [vm_compute; reflexivity|]. split; [vm_compute; reflexivity|]. apply (bool_decide_unpack _). vm_compute. exact I.
Qed.
