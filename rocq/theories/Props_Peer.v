(* Props_Peer.v -- C55: the messages of a peer-to-peer visitor *)
From Verif Require Import GoBase PeerModel.
Local Open Scope N_scope.

(* ---- specification ---- *)
(* a message on the wire *)
Definition wire (m : bytes) : bytes := [N.of_nat (length m) / 256; N.of_nat (length m) mod 256] ++ m.
Definition wires (ms : list bytes) : bytes := concat (map wire ms).
(* what was read, what was accepted, in order *)
Definition read_of (tr : list pevt) : bytes := concat (map (fun e => match e with PRead b => b | _ => [] end) tr).
Definition accepted (tr : list pevt) : list bytes := concat (map (fun e => match e with POffer m true => [m] | PCand m true => [m] | _ => [] end) tr).
Definition refused (e : pevt) : bool := match e with POffer _ false => true | PCand _ false => true | _ => false end.

Lemma read_app a b : read_of (a ++ b) = read_of a ++ read_of b.
Proof. unfold read_of. by rewrite map_app, concat_app. Qed.
Lemma acc_app a b : accepted (a ++ b) = accepted a ++ accepted b.
Proof. unfold accepted. by rewrite map_app, concat_app. Qed.
Lemma wires_app a b : wires (a ++ b) = wires a ++ wires b.
Proof. unfold wires. by rewrite map_app, concat_app. Qed.

(* the bytes of the message under way *)
Definition pending (st : pstate) : bytes := match st with PLen l => l | PBody hi lo d => [hi; lo] ++ d | PProc hi lo d => [hi; lo] ++ d end.
Definition bytes_ok (l : bytes) : Prop := Forall (fun b => b < 256) l.

Lemma wire_of hi lo d : lo < 256 -> N.of_nat (length d) = want hi lo -> wire d = [hi; lo] ++ d.
Proof.
  intros Hl Hd. unfold wire. rewrite Hd. unfold want. rewrite N.div_add_l by done. rewrite (N.div_small lo) by done.
  rewrite N.add_0_r. rewrite N.add_comm, N.mod_add by done. by rewrite N.mod_small.
Qed.
Record pinv (tr : list pevt) (s : pst) : Prop := {
  pi_wire : read_of tr = wires (accepted tr) ++ pending (pSt s);
  pi_proc : forall hi lo d, pSt s = PProc hi lo d -> N.of_nat (length d) = want hi lo;
  pi_body : forall hi lo d, pSt s = PBody hi lo d -> N.of_nat (length d) <= want hi lo;
  pi_len : forall l, pSt s = PLen l -> (length l <= 2)%nat }.
Lemma ok_pending tr s : pinv tr s -> bytes_ok (read_of tr) -> bytes_ok (pending (pSt s)).
Proof. intros [H _ _ _] Hb. rewrite H in Hb. by apply Forall_app in Hb as [_ ?]. Qed.

Lemma pinv_step tr s l s' : bytes_ok (read_of tr) -> pinv tr s -> pstep s l s' -> pinv (tr ++ l) s'.
Proof.
  intros Hb Hi Hs. pose proof (ok_pending _ _ Hi Hb) as Hp. destruct Hi as [Hw Hpr Hbo Hle].
  inversion Hs; subst; cbn [pSt pending] in *; (split; cbn [pSt]; [rewrite read_app, acc_app, Hw, wires_app| intros; try discriminate..]).
  all: try (unfold read_of, accepted, wires; try (destruct r); try (destruct e); cbn [map concat app pending];
            rewrite ?app_nil_r, <- ?app_assoc; cbn [app]; try congruence; fail).
  all: try (match goal with X : PLen _ = PLen _ |- _ => injection X as <- end).
  all: try (match goal with X : PBody _ _ _ = PBody _ _ _ |- _ => injection X as <- <- <- end).
  all: try (match goal with X : PProc _ _ _ = PProc _ _ _ |- _ => injection X as <- <- <- end).
  all: try (cbn [length]; lia); eauto.
  all: try (match goal with X : _ ++ _ = [_; _] |- _ => rewrite <- ?X end).
  all: try (unfold read_of, accepted, wires; cbn [map concat app pending]; rewrite ?app_nil_r, <- ?app_assoc; cbn [app];
            match goal with X : ?l ++ ?b = [_; _] |- _ => rewrite X end; reflexivity).
  all: apply Forall_cons in Hp as [_ Hp]; apply Forall_cons in Hp as [Hlo _].
  all: unfold read_of, accepted, wires; try (destruct e); cbn [map concat app pending]; rewrite ?app_nil_r;
       rewrite (wire_of hi lo d Hlo (Hpr _ _ _ eq_refl)); rewrite ?app_nil_r; reflexivity.
Qed.
Lemma pexec_ok s tr s' : pexec s tr s' -> forall tr0, bytes_ok (read_of (tr0 ++ tr)) -> pinv tr0 s -> pinv (tr0 ++ tr) s'.
Proof.
  induction 1 as [s|s tr s1 l s2 H IH Hs]; intros tr0 Hb Hi; [by rewrite app_nil_r|].
  rewrite app_assoc in *. assert (Hb1 : bytes_ok (read_of (tr0 ++ tr))) by (rewrite read_app in Hb; by apply Forall_app in Hb as [? _]).
  eapply pinv_step; eauto.
Qed.
Lemma pinv0 : pinv [] pst0.
Proof. split; [done| done | done |]. intros l [= <-]. cbn. lia. Qed.
Lemma pinv_exec tr s : pexec pst0 tr s -> bytes_ok (read_of tr) -> pinv tr s.
Proof. intros H Hb. apply (pexec_ok _ _ _ H []); [done|exact pinv0]. Qed.

Lemma wire_len m m' x y : wire m ++ x = wire m' ++ y -> m = m' /\ x = y.
Proof.
  unfold wire. cbn [app]. intros [= E1 E2 E3].
  assert (El : N.of_nat (length m) = N.of_nat (length m')).
  { rewrite (N.div_mod' (N.of_nat (length m)) 256), (N.div_mod' (N.of_nat (length m')) 256). congruence. }
  apply app_inj_1 in E3; [done|lia].
Qed.
(* Whatever the pieces in which the bytes arrive and however they are spread over requests: when the visitor has sent (at
   least) the messages ms and what was read so far is within them, the accepted messages are the first ones of ms, in order,
   unchanged. *)
Lemma wires_prefix ms : forall a x y, wires a ++ x ++ y = wires ms -> a `prefix_of` ms.
Proof.
  induction ms as [|m ms IH]; intros a x y E.
  - destruct a as [|m a]; [done|]. cbn in E. discriminate E.
  - destruct a as [|m' a]; [apply prefix_nil|]. unfold wires in *. cbn [map concat] in *. rewrite <- app_assoc in E.
    apply wire_len in E as [-> E]. apply prefix_cons. by eapply IH.
Qed.
Theorem C55_in_order : forall tr s ms rest, pexec pst0 tr s -> bytes_ok (read_of tr) -> read_of tr ++ rest = wires ms -> accepted tr `prefix_of` ms.
Proof. intros tr s ms rest H Hb E. pose proof (pinv_exec _ _ H Hb) as [Hw _ _ _]. rewrite Hw, <- app_assoc in E. by eapply wires_prefix. Qed.

Lemma wires_eq ms : forall a x, wires a ++ x = wires ms -> (length x < 2)%nat -> a = ms /\ x = [].
Proof.
  induction ms as [|m ms IH]; intros a x E Hx.
  - destruct a as [|m a]; [|discriminate E]. done.
  - destruct a as [|m' a].
    + exfalso. cbn in E. unfold wires in E. cbn in E. rewrite E in Hx. cbn in Hx. lia.
    + unfold wires in *. cbn [map concat] in *. rewrite <- app_assoc in E. apply wire_len in E as [-> E].
      destruct (IH a x E Hx) as [-> ->]. done.
Qed.
(* And when a request ends well, no message having been refused, nothing was left out. *)
Lemma last_return tr s : pexec pst0 tr s -> Forall (fun e => refused e = false) tr -> forall tr0, tr = tr0 ++ [PReturn true] -> exists l, pSt s = PLen l /\ (length l < 2)%nat.
Proof.
  intros H Hf tr0 E. destruct H as [|s tr s1 l s2 H Hs]; [by destruct tr0|].
  apply Forall_app in Hf as [_ Hf].
  assert (Hl : l = [] \/ exists l0, l = l0 ++ [PReturn true]).
  { destruct l as [|e l] using rev_ind; [auto|]. right. rewrite app_assoc in E. apply app_inj_tail in E as [_ ->]. eauto. }
  destruct Hl as [->|[l0 ->]]; [inversion Hs|].
  inversion Hs; subst; cbn [pSt];
    try (match goal with X : _ = l0 ++ [PReturn true] |- _ => apply (f_equal last) in X; rewrite last_snoc in X; cbn in X;
         try (destruct r); try (destruct e); discriminate X end).
  all: try (eexists; split; [done|]; done).
  all: try (exists []; split; [done|cbn; lia]).
  exfalso. match goal with X : [PCand _ false; _] = l0 ++ _ |- _ => rewrite <- X in Hf end. apply Forall_cons in Hf as [Hf _]. done.
Qed.
Theorem C55_complete_partial : forall tr s ms, pexec pst0 (tr ++ [PReturn true]) s -> bytes_ok (read_of tr) -> read_of tr = wires ms ->
  Forall (fun e => refused e = false) tr -> accepted tr = ms.
Proof.
  intros tr s ms H Hb E Hf.
  assert (E1 : read_of (tr ++ [PReturn true]) = read_of tr) by (rewrite read_app; apply app_nil_r).
  assert (E2 : accepted (tr ++ [PReturn true]) = accepted tr) by (rewrite acc_app; apply app_nil_r).
  destruct (last_return _ _ H) with (tr0 := tr) as (l & Hl & Hlen); [apply Forall_app; split; [done|by repeat constructor]|done|].
  pose proof (pinv_exec _ _ H) as [Hw _ _ _]; [by rewrite E1|]. rewrite E1, E2, Hl in Hw. cbn [pending] in Hw. rewrite E in Hw.
  symmetry in Hw. apply wires_eq in Hw as [-> _]; done.
Qed.

(* The first message, and only that one, is taken as the offer (or answer). *)
Definition is_handled (e : pevt) : bool := match e with POffer _ _ | PCand _ _ => true | _ => false end.
Definition handled (tr : list pevt) : list pevt := filter (fun e => is_handled e = true) tr.
Definition shape (i : bool) (h : list pevt) : Prop :=
  match h with
  | [] => i = false
  | POffer _ _ :: h => i = true /\ Forall (fun e => exists m ok, e = PCand m ok) h
  | _ => False
  end.
Lemma handled_app a b : handled (a ++ b) = handled a ++ handled b.
Proof. apply filter_app. Qed.
Lemma shape_exec tr s : pexec pst0 tr s -> shape (pInit s) (handled tr).
Proof.
  intros H. remember pst0 as s0 eqn:E. induction H as [|s tr s1 l s2 H IH Hs]; subst; [done|]. specialize (IH eq_refl).
  rewrite handled_app.
  assert (Hsame : handled l = [] -> pInit s2 = pInit s1 -> shape (pInit s2) (handled tr ++ handled l)) by (intros -> ->; by rewrite app_nil_r).
  inversion Hs; subst; cbn [pInit] in *; try (apply Hsame; [try (destruct r); reflexivity|reflexivity]).
  - destruct (handled tr) as [|[] h]; cbn in IH; try done; [|destruct IH; done]. cbn. split; [done|constructor].
  - destruct (handled tr) as [|[] h]; cbn in IH; try done; [|destruct IH; done]. cbn. split; [done|constructor].
  - destruct (handled tr) as [|[] h]; cbn in IH; try done. destruct IH as [_ IH]. cbn. split; [done|]. apply Forall_app. split; [done|]. repeat constructor; eauto.
  - destruct (handled tr) as [|[] h]; cbn in IH; try done. destruct IH as [_ IH].
    replace (handled _) with [PCand d true] by (destruct e; reflexivity). cbn. split; [done|]. apply Forall_app. split; [done|]. repeat constructor; eauto.
Qed.
Theorem C55_first_is_offer : forall tr s, pexec pst0 tr s ->
  handled tr = [] \/ exists m ok h, handled tr = POffer m ok :: h /\ Forall (fun e => exists m ok, e = PCand m ok) h.
Proof.
  intros tr s H. apply shape_exec in H. destruct (handled tr) as [|[] h]; cbn in H; try done; [auto|]. right. destruct H as [_ H]. eauto 6.
Qed.

(* ---- where it fails ---- *)
(* A refused candidate stays where it is: every later request of the task begins with it again; until it is accepted nothing
   more is read. *)
Theorem C55_refused_blocks : forall hi lo d tr s, pexec (mkP (PProc hi lo d) true None) tr s -> PCand d true ∉ tr ->
  accepted tr = [] /\ read_of tr = [].
Proof.
  intros hi lo d tr s H Hn. remember (mkP (PProc hi lo d) true None) as s0 eqn:E0.
  assert (G : accepted tr = [] /\ read_of tr = [] /\ exists e, s = mkP (PProc hi lo d) true e); [|by destruct_and?].
  induction H as [s|s tr s1 l s2 H IH Hs]; subst; [eauto|].
  destruct (IH eq_refl) as (I1 & I2 & e & ->); [set_solver|]. rewrite acc_app, read_app, I1, I2.
  inversion Hs; subst; [eauto|eauto|]. exfalso. set_solver.
Qed.
Theorem C55_too_long_blocks : forall hi lo i tr s, maxBuffer < want hi lo -> pexec (mkP (PLen [hi; lo]) i None) tr s -> accepted tr = [] /\ read_of tr = [].
Proof.
  intros hi lo i tr s Hw H. remember (mkP (PLen [hi; lo]) i None) as s0 eqn:E0.
  assert (G : accepted tr = [] /\ read_of tr = [] /\ exists e, s = mkP (PLen [hi; lo]) i e); [|by destruct_and?].
  induction H as [s|s tr s1 l s2 H IH Hs]; subst; [eauto|].
  destruct IH as (I1 & I2 & e & ->); [done|]. rewrite acc_app, read_app, I1, I2.
  inversion Hs; subst; [eauto| | |].
  - exfalso. rewrite app_length in *. cbn in *. lia.
  - exfalso. match goal with X : [hi; lo] ++ b = _ |- _ => injection X as -> -> -> end. lia.
  - match goal with X : [hi; lo] ++ b = _ |- _ => injection X as <- <- -> end. cbn. eauto.
Qed.
(* Offer [1] accepted; candidate [2] refused; the visitor's next request carries candidate [3], which is never looked at; and
   the request with the refused candidate was answered as a success. *)
Theorem C55_refused_candidate_refuted : exists tr s, pexec pst0 tr s /\ read_of tr = wires [[1]; [2]] /\ accepted tr = [[1]] /\
  tr = [PRequest; PRead [0; 1]; PRead [1]; POffer [1] true; PRead [0; 1]; PRead [2]; PCand [2] false; PReturn true] /\
  forall tr' s', pexec s tr' s' -> PCand [2] true ∉ tr' -> accepted tr' = [] /\ read_of tr' = [].
Proof.
  exists ([PRequest; PRead [0; 1]; PRead [1]; POffer [1] true; PRead [0; 1]; PRead [2]] ++ [PCand [2] false; PReturn true]), (mkP (PProc 0 1 [2]) true None).
  split; [|split; [done|split; [done|split; [done|]]]].
  - eapply px_snoc; [|apply (ps_cand_fails 0 1 [2] ROk)].
    change [PRequest; PRead [0; 1]; PRead [1]; POffer [1] true; PRead [0; 1]; PRead [2]]
      with (((((([] ++ [PRequest]) ++ [PRead [0; 1]]) ++ [PRead [1]]) ++ [POffer [1] true]) ++ [PRead [0; 1]]) ++ [PRead [2]]).
    eapply px_snoc; [|apply (ps_body_done 0 1 [] true ROk [2] ROk); reflexivity].
    eapply px_snoc; [|apply (ps_len_done [] true ROk [0; 1] ROk 0 1); [reflexivity|by vm_compute]].
    eapply px_snoc; [|apply (ps_offer 0 1 [1] ROk)].
    eapply px_snoc; [|apply (ps_body_done 0 1 [] false ROk [1] ROk); reflexivity].
    eapply px_snoc; [|apply (ps_len_done [] false ROk [0; 1] ROk 0 1); [reflexivity|by vm_compute]].
    eapply px_snoc; [|apply ps_request]. apply px_nil.
  - intros tr' s' H Hn. by eapply C55_refused_blocks.
Qed.
(* an offer and a candidate in two requests, the candidate's length split between them *)
Theorem C55_witness : exists tr s, pexec pst0 (tr ++ [PReturn true]) s /\ read_of tr = wires [[7; 8]; [9]] /\ bytes_ok (read_of tr) /\
  Forall (fun e => refused e = false) tr /\ accepted tr = [[7; 8]; [9]].
Proof.
  exists [PRequest; PRead [0]; PRead [2]; PRead [7]; PRead [8]; POffer [7; 8] true; PRead [0]; PReturn true; PRequest; PRead [1]; PRead [9]; PCand [9] true].
  eexists. split; [|split; [done|split; [repeat constructor; done|split; [repeat constructor|done]]]].
  change ([PRequest; PRead [0]; PRead [2]; PRead [7]; PRead [8]; POffer [7; 8] true; PRead [0]; PReturn true; PRequest; PRead [1]; PRead [9]; PCand [9] true] ++ [PReturn true])
    with ((((((((((([] ++ [PRequest]) ++ [PRead [0]]) ++ [PRead [2]]) ++ [PRead [7]]) ++ [PRead [8]]) ++ [POffer [7; 8] true]) ++ [PRead [0]; PReturn true]) ++ [PRequest]) ++ [PRead [1]]) ++ [PRead [9]]) ++ [PCand [9] true; PReturn true]).
  eapply px_snoc; [|apply (ps_cand 0 1 [9] REof)].
  eapply px_snoc; [|apply (ps_body_done 0 1 [] true ROk [9] REof); reflexivity].
  eapply px_snoc; [|apply (ps_len_done [0] true ROk [1] ROk 0 1); [reflexivity|by vm_compute]].
  eapply px_snoc; [|apply ps_request].
  eapply px_snoc; [|apply (ps_len [] true ROk [0] REof); cbn; lia].
  eapply px_snoc; [|apply (ps_offer 0 2 [7; 8] ROk)].
  eapply px_snoc; [|apply (ps_body_done 0 2 [7] false ROk [8] ROk); reflexivity].
  eapply px_snoc; [|apply (ps_body 0 2 [] false ROk [7] ROk); reflexivity].
  eapply px_snoc; [|apply (ps_len_done [0] false ROk [2] ROk 0 2); [reflexivity|by vm_compute]].
  eapply px_snoc; [|apply (ps_len [] false ROk [0] ROk); cbn; lia].
  eapply px_snoc; [|apply ps_request]. apply px_nil.
Qed.
