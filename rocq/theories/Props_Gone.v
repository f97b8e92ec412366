(* Props_Gone.v -- C103: a tunnel that this end has closed ends (GoneModel) *)
From Verif Require Import GoBase FrameModel FrameSpec GoneModel.
Local Open Scope nat_scope.

Lemma grun_app s a b : grun s (a ++ b) = (s' ← grun s a; grun s' b).
Proof. revert s. induction a as [|e a IH]; intros s; cbn [grun app]; [done|]. destruct (gstep s e); cbn [mbind option_bind]; [apply IH|done]. Qed.
Lemma wire_cons_len f fs : length (wire (f :: fs)) = size f + length (wire fs).
Proof. unfold wire. cbn [map concat]. by rewrite app_length. Qed.
Lemma wire_snoc_len fs f : length (wire (fs ++ [f])) = length (wire fs) + size f.
Proof. unfold wire. rewrite map_app, concat_app, app_length. cbn [map concat]. by rewrite app_nil_r. Qed.
Lemma size_pos f : 0 < size f.
Proof. unfold size. destruct f; cbn [enc_frame]; unfold be32; cbn [app length]; lia. Qed.
Definition head_size (l : list frame) : nat := match l with f :: _ => size f | [] => 0 end.

(* ---- over TCP and TLS ---- *)
Definition inv (s : gst) : Prop :=
  gQuic s = false /\ gGot s <= length (wire (gNet s)) /\ (gClosed s = false -> gGot s <= gCap s + head_size (gNet s)) /\
  (gClosed s = true -> match gAfter s with [] => gGot s <= gCap s + head_size (gNet s) | _ :: fs => length (wire fs) + gGot s <= gCap s end /\
     (gTimer s = true -> gAfter s = [] \/ (length (gAfter s) = 1 /\ gMid s = false))).
Ltac split_ifs H := repeat match type of H with context[if ?b then _ else _] => destruct b eqn:?; try discriminate H end.
Ltac gs := cbn [gset gQuic gTimer gCap gNet gGot gFin gClosed gEnded gMid gAfter].
Lemma inv_step s e s' : inv s -> gstep s e = Some s' -> inv s' /\ gCap s' = gCap s /\ gTimer s' = gTimer s.
Proof.
  intros (I1 & I2 & I3 & I4) E. unfold inv. destruct e as [f| | | |k| | |]; cbn [gstep] in E.
  - destruct (gFin s); [discriminate E|]. injection E as <-. gs. rewrite wire_snoc_len. assert (Hh : gGot s <= gCap s + head_size (gNet s) -> gGot s <= gCap s + head_size (gNet s ++ [f])) by (destruct (gNet s); cbn in *; lia).
    split_and!; try done; [lia|by intros; apply Hh, I3|]. intros Hc. destruct (I4 Hc) as [I5 I6]. split; [|exact I6]. destruct (gAfter s); [by apply Hh|done].
  - injection E as <-. gs. done.
  - destruct (gClosed s) eqn:Ec; [discriminate E|]. injection E as <-. gs. split_and!; try done. intros _. split; [by apply I3|by left].
  - destruct (gEnded s || gMid s) eqn:Em; [discriminate E|]. apply orb_false_iff in Em as [_ Em]. destruct (gTimer s && cut s) eqn:Et; injection E as <-; gs; split_and!; try done; intros Hc; destruct (I4 Hc) as [I5 I6]; (split; [done|]).
    + intros Ht. destruct (I6 Ht) as [|[]]; [by left|by right].
    + intros Ht. unfold cut in Et. rewrite Ht, I1, Hc in Et. discriminate Et.
  - destruct (_ && _) eqn:Eb in E; [|discriminate E]. injection E as <-. repeat (apply andb_true_iff in Eb as [Eb ?]). assert (Hc : gClosed s = false) by (unfold cut in *; rewrite I1 in *; by destruct (gClosed s)).
    gs. rewrite Hc. split_and!; try done.
    + by apply Nat.leb_le.
    + intros _. unfold need in *. destruct (gNet s) as [|f fs] eqn:En.
      * assert (gGot s + k <= length (wire [])) as Hk by (by apply Nat.leb_le). change (length (wire [])) with 0 in Hk. assert (gGot s + k <= 0) by by apply Nat.leb_le. lia.
      * cbn [head_size]. assert (k <= gCap s) by by apply Nat.leb_le. assert (gGot s < size f) by by apply Nat.ltb_lt. lia.
  - destruct (_ || _) eqn:Eb in E; [discriminate E|]. apply orb_false_iff in Eb as [Eb En]. apply orb_false_iff in Eb as [_ Em]. destruct (gNet s) as [|f fs] eqn:Ef; [discriminate E|]. injection E as <-. gs.
    unfold need in En. rewrite Ef in En. apply Nat.ltb_ge in En. rewrite wire_cons_len in I2. cbn [head_size] in *. split_and!; try done; [lia|intros Hc; specialize (I3 Hc); lia|].
    intros Hc. rewrite Hc. destruct (I4 Hc) as [I5 I6]. split.
    + destruct (gAfter s) as [|g l]; cbn [app]; [unfold wire; cbn [map concat length]; lia|]. rewrite wire_snoc_len. lia.
    + intros Ht. right. split; [|done]. destruct (I6 Ht) as [->|[_ Hm]]; [done|]. rewrite Hm in Em. done.
  - destruct (_ && _) eqn:Eb in E; [|discriminate E]. injection E as <-. gs. split_and!; try done. intros Hc. destruct (I4 Hc) as [I5 I6]. split; [done|]. intros Ht. destruct (I6 Ht) as [|[]]; [by left|by right].
  - destruct (_ && _) eqn:Eb in E; [|discriminate E]. injection E as <-. gs. split_and!; try done. intros Hc. destruct (I4 Hc) as [I5 I6]. split; [done|]. intros Ht. destruct (I6 Ht) as [|[]]; [by left|by right].
Qed.
Lemma inv_run tr : forall s s', inv s -> grun s tr = Some s' -> inv s' /\ gCap s' = gCap s /\ gTimer s' = gTimer s.
Proof.
  induction tr as [|e tr IH]; intros s s' I H; cbn [grun] in H; [by injection H as <-|]. apply bind_Some in H as (s1 & E & H). destruct (inv_step _ _ _ I E) as (I1 & E1 & E2).
  destruct (IH _ _ I1 H) as (I2 & E3 & E4). split_and!; [done|congruence|congruence].
Qed.
Lemma inv0 timer cap : inv (gst0 false timer cap).
Proof. split_and!; cbn; try done; lia. Qed.
(* After a tunnel over TCP or TLS has been closed, whatever the peer goes on sending: with a read timeout at most the message in hand is still treated; without one, that one and what the reader's buffer (4096 bytes) held. *)
Theorem C103_little_more_partial timer cap tr s : grun (gst0 false timer cap) tr = Some s -> gClosed s = true ->
  length (wire (tail (gAfter s))) <= cap /\ (timer = true -> length (gAfter s) <= 1).
Proof.
  intros H Hc. destruct (inv_run _ _ _ (inv0 timer cap) H) as ((I1 & I2 & I3 & I4) & E1 & E2). destruct (I4 Hc) as [I5 I6]. cbn in E1, E2. rewrite E1 in I5. rewrite E2 in I6. split.
  - destruct (gAfter s); [change (0 <= cap); lia|cbn [tail]; lia].
  - intros Ht. destruct (I6 Ht) as [->|[-> _]]; cbn; lia.
Qed.
(* And its read loop ends without anything from the peer: it always has a step to do, and only so many. *)
Definition left (s : gst) : nat := if gEnded s then 0 else 2 * length (gNet s) + (if gMid s then 1 else 2).
Lemma own_less s e s' : own e = true -> gstep s e = Some s' -> gClosed s' = gClosed s /\ gQuic s' = gQuic s /\ left s' < left s.
Proof.
  intros Ho E. destruct e as [f| | | |k| | |]; try discriminate Ho; cbn [gstep] in E; unfold left.
  - destruct (gEnded s) eqn:E1; [discriminate E|]. destruct (gMid s) eqn:E2; [discriminate E|]. cbn in E. destruct (_ && _) in E; injection E as <-; cbn; split_and!; try done; lia.
  - destruct (gEnded s) eqn:E1; [discriminate E|]. destruct (gMid s) eqn:E2; [|discriminate E]. cbn in E. destruct (need s); [discriminate E|]. destruct (gNet s); [discriminate E|]. injection E as <-. cbn. split_and!; try done; lia.
  - destruct (_ && _) eqn:Eb in E; [|discriminate E]. injection E as <-. repeat (apply andb_true_iff in Eb as [Eb ?]). cbn. apply negb_true_iff in Eb. rewrite Eb. split_and!; try done. destruct (gMid s); lia.
Qed.
Theorem C103_loop_ends_partial timer cap tr s : grun (gst0 false timer cap) tr = Some s -> gClosed s = true ->
  (forall tr' s', grun s tr' = Some s' -> Forall (fun e => own e = true) tr' -> gEnded s' = false -> exists e, own e = true /\ is_Some (gstep s' e)) /\
  exists n, forall tr' s', grun s tr' = Some s' -> Forall (fun e => own e = true) tr' -> length tr' <= n.
Proof.
  intros H Hc. destruct (inv_run _ _ _ (inv0 timer cap) H) as ((I1 & _) & _).
  assert (G : forall tr' s s', grun s tr' = Some s' -> Forall (fun e => own e = true) tr' -> gClosed s' = gClosed s /\ gQuic s' = gQuic s /\ left s' + length tr' <= left s).
  { clear. induction tr' as [|e tr' IH]; intros s s' H Ho; cbn [grun] in H; [injection H as <-; cbn; split_and!; try done; lia|]. apply bind_Some in H as (s1 & E & H). apply Forall_cons_1 in Ho as [Ho1 Ho].
    destruct (own_less _ _ _ Ho1 E) as (E1 & E2 & E3). destruct (IH _ _ H Ho) as (E4 & E5 & E6). cbn [length]. split_and!; [congruence|congruence|lia]. }
  split.
  - intros tr' s' H' Ho He. destruct (G _ _ _ H' Ho) as (E1 & E2 & _). destruct (gMid s') eqn:Em.
    + assert (Hcut : cut s' = true) by (unfold cut; by rewrite E1, E2, Hc, I1). destruct (need s') eqn:En.
      * exists GErr. split; [done|]. cbn [gstep]. rewrite He, Em, En, Hcut. cbn. eauto.
      * exists GHand. split; [done|]. cbn [gstep]. rewrite He, Em, En. cbn. unfold need in En. destruct (gNet s'); [discriminate En|]. eauto.
    + exists GTop. split; [done|]. cbn [gstep]. rewrite He, Em. cbn. eauto.
  - exists (left s). intros tr' s' H' Ho. destruct (G _ _ _ H' Ho) as (_ & _ & E). lia.
Qed.

(* ---- over QUIC ---- *)
(* Whatever the peer sends after the tunnel has been closed is treated as before. *)
Lemma fills m : forall s, gEnded s = false -> gMid s = true -> need s = true -> cut s = false -> 0 < gCap s -> gGot s + m <= length (wire (gNet s)) -> gGot s + m <= head_size (gNet s) -> grun s (replicate m (GFill 1)) = Some (gset s (gNet s) (gGot s + m) false true).
Proof.
  induction m as [|m IH]; intros s He Hm Hn Hc Hcap Hl Hh.
  - cbn. rewrite Nat.add_0_r. destruct s. cbn in *. by subst.
  - cbn [replicate grun gstep]. rewrite He, Hm, Hn, Hc. cbn [negb andb]. destruct (Nat.leb_spec 1 (gCap s)); [|lia]. destruct (Nat.leb_spec (gGot s + 1) (length (wire (gNet s)))); [|lia]. cbn [Nat.ltb Nat.leb andb mbind option_bind].
    destruct m as [|m]; [cbn; do 2 f_equal|]. rewrite IH; [|done|done| |exact Hc|exact Hcap|gs; lia|gs; lia].
    + unfold gset. gs. do 2 f_equal. lia.
    + unfold need in *. gs. destruct (gNet s) as [|f fs]; [done|]. cbn [head_size] in Hh. apply Nat.ltb_lt. lia.
Qed.
Theorem C103_goes_on_refuted timer cap fs : 0 < cap -> exists tr s, grun (gst0 true timer cap) (GClose :: tr) = Some s /\ gAfter s = fs /\ gEnded s = false /\ gClosed s = true.
Proof.
  intros Hcap. assert (G : exists tr, grun (gst0 true timer cap) (GClose :: tr) = Some (mkG true timer cap [] 0 false true false false fs)).
  { induction fs as [|f fs [tr IH]] using rev_ind; [by exists []|]. exists (tr ++ [GSend f; GTop] ++ replicate (size f) (GFill 1) ++ [GHand]). change (GClose :: tr ++ ?x) with ((GClose :: tr) ++ x). rewrite grun_app, IH. cbn [mbind option_bind app grun gstep gFin gset gEnded gMid gTimer cut gClosed gQuic gNet gGot gCap gAfter negb andb orb].
    rewrite ?andb_false_r. cbn [mbind option_bind grun gstep gset gQuic gTimer gCap gNet gGot gFin gClosed gEnded gMid gAfter negb andb orb]. unfold cut. cbn [gClosed gQuic negb andb]. rewrite ?andb_false_r. cbn [mbind option_bind gset gQuic gTimer gCap gNet gGot gFin gClosed gEnded gMid gAfter]. rewrite grun_app.
    pose proof (size_pos f) as Hp. rewrite fills; cbn [gset gQuic gTimer gCap gNet gGot gFin gClosed gEnded gMid gAfter head_size]; try done.
    - cbn [mbind option_bind grun gstep gset gQuic gTimer gCap gNet gGot gFin gClosed gEnded gMid gAfter negb orb need]. unfold need. cbn [gset gNet gGot]. rewrite Nat.add_0_l, Nat.ltb_irrefl. cbn [mbind option_bind]. by rewrite Nat.sub_diag.
    - unfold need. cbn. destruct (size f); [lia|done].
    - cbn [app]. rewrite wire_cons_len. lia. }
  destruct G as [tr G]. exists tr. eexists. split; [exact G|]. done.
Qed.
(* Without a read timeout its read loop ends only after the peer has ended. *)
Theorem C103_peer_decides_refuted cap tr s : grun (gst0 true false cap) tr = Some s -> GFin ∉ tr -> gEnded s = false.
Proof.
  assert (G : forall tr s s', gQuic s = true -> gTimer s = false -> gFin s = false -> gEnded s = false -> grun s tr = Some s' -> GFin ∉ tr -> gEnded s' = false).
  { clear. induction tr as [|e tr IH]; intros s s' H1 H2 H3 H4 H Hn; cbn [grun] in H; [by injection H as <-|]. apply bind_Some in H as (s1 & E & H). apply not_elem_of_cons in Hn as [Hne Hn].
    assert (K : gQuic s1 = true /\ gTimer s1 = false /\ gFin s1 = false /\ gEnded s1 = false).
    { destruct e as [f| | | |k| | |]; cbn [gstep] in E; rewrite ?H1, ?H2, ?H3, ?H4 in E; try done.
      - injection E as <-. done.
      - destruct (gClosed s); [discriminate E|]. by injection E as <-.
      - cbn in E. destruct (gMid s); [discriminate E|]. by injection E as <-.
      - destruct (_ && _) in E; [|discriminate E]. by injection E as <-.
      - cbn in E. destruct (_ || _) in E; [discriminate E|]. destruct (gNet s); [discriminate E|]. by injection E as <-.
      - unfold cut in E. rewrite H1 in E. rewrite andb_false_r in E. cbn in E. rewrite andb_false_r in E. discriminate E.
      - by rewrite andb_false_r in E. }
    destruct K as (K1 & K2 & K3 & K4). by apply (IH s1). }
  intros H Hn. by apply (G tr (gst0 true false cap)).
Qed.

(* ---- the visitors ---- *)
Lemma trun_app s a b : trun s (a ++ b) = (s' ← trun s a; trun s' b).
Proof. revert s. induction a as [|e a IH]; intros s; cbn [trun app]; [done|]. destruct (tstep s e); cbn [mbind option_bind]; [apply IH|done]. Qed.
(* Over TCP and TLS a visitor is given a closed tunnel only while that tunnel's loop has still to notice; when no loop has a step to do, every visitor is served. *)
Lemma quics_step s e s' : tstep s e = Some s' -> tQuic <$> tsTuns s' = tQuic <$> tsTuns s.
Proof.
  intros E. assert (G : forall i t u, tsTuns s !! i = Some t -> tQuic u = tQuic t -> tQuic <$> <[i := u]> (tsTuns s) = tQuic <$> tsTuns s).
  { intros i t u Ht Hu. rewrite list_fmap_insert, list_insert_id; [done|]. rewrite list_lookup_fmap, Ht. cbn. by rewrite Hu. }
  destruct e as [i|i|i|i|i]; cbn [tstep] in E; apply bind_Some in E as (t & Et & E).
  - destruct (can_pick _ _); [|discriminate E]. destruct (tClosed t); injection E as <-; cbn; [done|]. by eapply G.
  - destruct (tTasks t); [discriminate E|]. injection E as <-. by eapply G.
  - destruct (tTasks t); [discriminate E|]. injection E as <-. by eapply G.
  - destruct (_ && _); [|discriminate E]. injection E as <-. by eapply G.
  - destruct (tListed t); [|discriminate E]. injection E as <-. by eapply G.
Qed.
Theorem C103_served_partial n tr s i s' : trun (tst0 (replicate n false)) tr = Some s -> tstep s (TVisit i) = Some s' ->
  (tsServed s' = S (tsServed s) /\ tsLost s' = tsLost s) \/ (tsLost s' = S (tsLost s) /\ is_Some (tstep s (TLoop i))).
Proof.
  intros H E. assert (Hq : tQuic <$> tsTuns s = replicate n false).
  { assert (K : forall tr s s', trun s tr = Some s' -> tQuic <$> tsTuns s' = tQuic <$> tsTuns s).
    { clear. induction tr as [|e tr IH]; intros s s' H; cbn [trun] in H; [by injection H as <-|]. apply bind_Some in H as (s1 & E & H). rewrite (IH _ _ H). by eapply quics_step. }
    rewrite (K _ _ _ H). cbn. clear. induction n as [|n IH]; [done|]. cbn. by rewrite IH. }
  cbn [tstep] in *. apply bind_Some in E as (t & Et & E). destruct (can_pick _ _) eqn:Ep; [|discriminate E]. rewrite Et. cbn [mbind option_bind]. destruct (tClosed t) eqn:Ec; injection E as <-; cbn; [right|by left]. split; [done|].
  assert (Ht : tQuic t = false). { assert (X : (tQuic <$> tsTuns s) !! i = Some (tQuic t)) by (rewrite list_lookup_fmap, Et; done). rewrite Hq in X. by apply lookup_replicate_1 in X as [-> _]. }
  unfold can_pick in Ep. apply andb_true_iff in Ep as [El _]. rewrite El, Ht. cbn. eauto.
Qed.
(* Over QUIC the tunnel that a Write to has failed, and on which no visitor is waiting any more, is the one every new visitor is given, and all are lost, although a working tunnel is there, whatever the read loops do by themselves: until the peer ends it or the timeout passes. *)
Definition is_visit (e : tev) : bool := match e with TVisit _ => true | _ => false end.
Theorem C103_black_hole_refuted n : exists tr s, trun (tst0 [true; true]) tr = Some s /\
  (exists t, tsTuns s !! 1 = Some t /\ tClosed t = false /\ tListed t = true) /\
  (forall tr' s', Forall (fun e => exists i, e = TVisit i \/ e = TLoop i) tr' -> trun s tr' = Some s' -> tsLost s' = tsLost s + length (List.filter is_visit tr') /\ tsServed s' = tsServed s) /\
  exists s', trun s (replicate n (TVisit 0)) = Some s'.
Proof.
  exists [TVisit 0; TVisit 1; TFail 0]. eexists. split; [reflexivity|]. split; [by eexists|]. split.
  - assert (G : forall tr' s s', tsTuns s = [mkT true true true 0; mkT true false true 1] -> Forall (fun e => exists i, e = TVisit i \/ e = TLoop i) tr' -> trun s tr' = Some s' -> tsLost s' = tsLost s + length (List.filter is_visit tr') /\ tsServed s' = tsServed s).
    { clear. induction tr' as [|e tr' IH]; intros s s' Hs Hf H; [injection H as <-; cbn; lia|]. cbn [trun] in H. apply bind_Some in H as (s1 & E & H). apply Forall_cons_1 in Hf as [[i [-> | ->]] Hf]; cbn [tstep] in E; rewrite Hs in E.
      - destruct i as [|[|i]]; cbn in E; try discriminate E. injection E as <-. pose proof (fun X => IH _ s' X Hf H) as K. destruct K as [E1 E2]; [reflexivity|]. cbn [tsLost tsServed] in E1, E2. cbn [List.filter is_visit length]. lia.
      - destruct i as [|[|i]]; cbn in E; discriminate E. }
    intros tr' s' Hf H. by eapply (G tr').
  - match goal with |- exists s', trun (mkTS ?ts ?l ?v) _ = _ => generalize l end. induction n as [|n IH]; intros l; [by eexists|]. cbn [replicate trun tstep]. cbn. apply IH.
Qed.

(* what a visitor's service gets when the client has closed its QUIC tunnel already; over TCP the loop ends *)
Theorem C103_witness :
  (exists s, grun (gst0 false true 4096) [GSend (FData 1 [104; 105]%N); GTop; GFill 12; GClose; GHand; GSend (FData 1 [1]%N); GTop] = Some s /\ gEnded s = true /\ gAfter s = [FData 1 [104; 105]%N]) /\
  (exists s, grun (gst0 false false 4096) [GSend (FData 1 [104; 105]%N); GSend (FServices 2 0 [71; 69]%N); GTop; GFill 20; GClose; GHand; GTop; GErr] = Some s /\ gEnded s = true /\ gAfter s = [FData 1 [104; 105]%N]) /\
  (exists s, trun (tst0 [false; false]) [TVisit 0; TVisit 1; TFail 0; TLoop 0; TVisit 1] = Some s /\ tsServed s = 3 /\ tsLost s = 0).
Proof. split_and!; eexists; (split; [vm_compute; reflexivity|]); done. Qed.
