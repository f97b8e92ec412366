(* Props_Forward.v -- C68: a local port forwarded over peer connections. *)
From Verif Require Import GoBase PeerModel Props_Peer ForwardModel.
Local Open Scope N_scope.

Record rinv (n : N) (s : rr) : Prop := {
  ri_c : rCounter s <= n;
  ri_l : forall t i, rLoaded s !! t = Some i -> i < n;
  ri_g : Forall (fun i => i < n) (rGot s)
}.
Lemma rinv_step n s e r : 1 <= n < 2 ^ 32 -> rinv n s -> rstep n s e = Some r -> exists s', r = RSt s' /\ rinv n s'.
Proof.
  intros Hn [R1 R2 R3] H. destruct e as [t|t]; cbn [rstep] in H.
  - case_bool_decide; [done|]. destruct (N.eqb_spec n 0); [lia|]. injection H as <-. eexists. split; [done|]. constructor; cbn; [done| |done].
    intros u i Hu. apply lookup_insert_Some in Hu as [[<- <-]|[_ Hu]]; [apply N.mod_lt; lia|by eapply R2].
  - destruct (rLoaded s !! t) as [i|] eqn:E; cbn [mbind option_bind] in H; [|done]. pose proof (R2 _ _ E) as Hi. destruct (N.ltb_spec i n); [|lia]. injection H as <-.
    eexists. split; [done|]. constructor; cbn; [rewrite N.mod_small by lia; lia| |].
    + intros u j Hu. apply lookup_delete_Some in Hu as [_ Hu]. by eapply R2.
    + apply Forall_app. split; [done|by repeat constructor].
Qed.
(* Whatever the number configured (the number of peer connections is at least 1) and however many local connections are opened at the
   same time: no panic, and each gets one of the peer connections. *)
Theorem C68_in_range : forall configured tr r, configured < 2 ^ 32 -> rrun (connections configured) rr0 tr = Some r ->
  exists s, r = RSt s /\ Forall (fun i => i < connections configured) (rGot s).
Proof.
  intros configured tr r Hc. set (n := connections configured).
  assert (Hn : 1 <= n < 2 ^ 32) by (unfold n, connections; destruct (N.ltb_spec configured 1); lia).
  assert (G : forall s, rinv n s -> rrun n s tr = Some r -> exists s', r = RSt s' /\ rinv n s').
  { induction tr as [|e tr IH]; intros s I H; cbn [rrun] in H; [injection H as <-; eauto|]. destruct (rstep n s e) as [r1|] eqn:E; [|done].
    destruct (rinv_step _ _ _ _ Hn I E) as (s' & -> & I'). by eapply IH. }
  intros H. destruct (G rr0) as (s & -> & [_ _ ?]); [constructor; cbn; [lia| |constructor]; intros t i; by rewrite lookup_empty|done|]. by exists s.
Qed.
(* opened one after the other they take turns *)
Definition calls (ts : list nat) : list revt := flat_map (fun t => [RLoad t; RStore t]) ts.
Theorem C68_in_turn : forall configured ts, configured < 2 ^ 32 ->
  exists s, rrun (connections configured) rr0 (calls ts) = Some (RSt s) /\ rGot s = (fun k => N.of_nat k `mod` connections configured) <$> seq 0 (length ts).
Proof.
  intros configured ts Hc. set (n := connections configured). assert (Hn : 1 <= n < 2 ^ 32) by (unfold n, connections; destruct (N.ltb_spec configured 1); lia). clearbody n. clear Hc configured.
  assert (G : forall ts k c got, c <= n -> c `mod` n = N.of_nat k `mod` n ->
     exists s, rrun n (mkR c ∅ got) (calls ts) = Some (RSt s) /\ rGot s = got ++ ((fun k => N.of_nat k `mod` n) <$> seq k (length ts))).
  { clear ts. induction ts as [|t ts IH]; intros k c got Hcn Hk; [exists (mkR c ∅ got); split; [done|by rewrite app_nil_r]|].
    change (calls (t :: ts)) with (RLoad t :: RStore t :: calls ts). cbn [rrun rstep rLoaded rCounter rGot]. rewrite bool_decide_false by (rewrite lookup_empty; by intros []).
    destruct (N.eqb_spec n 0); [lia|]. cbn [rstep rLoaded rCounter rGot rrun]. rewrite lookup_insert. cbn [mbind option_bind].
    assert (Hm : c `mod` n < n) by (apply N.mod_lt; lia). destruct (N.ltb_spec (c `mod` n) n); [|lia]. rewrite delete_insert by (by rewrite lookup_empty).
    rewrite (N.mod_small (_ + 1)) by lia. destruct (IH (S k) (c `mod` n + 1) (got ++ [c `mod` n])) as (s & Hs & Es); [lia| |].
    - rewrite Hk. rewrite N.add_mod_idemp_l by lia. f_equal. lia.
    - exists s. split; [done|]. rewrite Es. cbn [length seq fmap list_fmap]. rewrite <- app_assoc. cbn [app]. by rewrite Hk. }
  destruct (G ts 0%nat 0 []) as (s & Hs & Es); [lia|done|]. exists s. split; [exact Hs|exact Es].
Qed.
(* opened at the same time they may all get the same one *)
Theorem C68_at_once_refuted : forall (configured : N) (k : nat), 1 <= configured < 2 ^ 32 ->
  exists s, rrun (connections configured) rr0 (map RLoad (seq 0 k) ++ map RStore (seq 0 k)) = Some (RSt s) /\ rGot s = replicate k 0.
Proof.
  intros configured k Hc. assert (En : connections configured = configured) by (unfold connections; destruct (N.ltb_spec configured 1); lia). rewrite En. clear En.
  assert (Run : forall n a b s, rrun n s (a ++ b) = match rrun n s a with Some (RSt s) => rrun n s b | r => r end).
  { intros n a b. induction a as [|e a IH]; intros s; [done|]. cbn [app rrun]. destruct (rstep n s e) as [[]|]; [apply IH|done|done]. }
  assert (L : forall k j m got, (forall t, (j <= t)%nat -> m !! t = None) ->
    rrun configured (mkR 0 m got) (map RLoad (seq j k)) = Some (RSt (mkR 0 (list_to_map (map (fun t => (t, 0)) (seq j k)) ∪ m) got))).
  { clear k. induction k as [|k IH]; intros j m got Hm; [cbn; f_equal; f_equal; f_equal; by rewrite (left_id_L ∅ (∪))|].
    cbn [seq map rrun rstep rLoaded rCounter rGot]. rewrite bool_decide_false by (rewrite Hm by lia; by intros []). destruct (N.eqb_spec configured 0); [lia|]. rewrite N.mod_0_l by lia.
    rewrite IH by (intros t Ht; rewrite lookup_insert_ne by lia; apply Hm; lia). do 3 f_equal. cbn [list_to_map fold_right map fst snd foldr]. unfold list_to_map. cbn [foldr map fst snd].
    rewrite <- insert_union_l. rewrite insert_union_r; [done|]. apply not_elem_of_list_to_map_1. rewrite elem_of_list_fmap. intros ([a b] & E & Hi). cbn in E. subst a. apply elem_of_list_In, in_map_iff in Hi as (x & [= -> _] & Hx). apply in_seq in Hx. lia. }
  assert (S1 : forall ts c m got, NoDup ts -> (forall t, t ∈ ts -> m !! t = Some 0) -> exists s, rrun configured (mkR c m got) (map RStore ts) = Some (RSt s) /\ rGot s = got ++ replicate (length ts) 0).
  { induction ts as [|t ts IH]; intros c m got ND Hm; [eexists; split; [done|by rewrite app_nil_r]|]. cbn [map rrun rstep rLoaded rCounter rGot]. rewrite Hm by left. cbn [mbind option_bind].
    destruct (N.ltb_spec 0 configured); [|lia]. apply NoDup_cons in ND as [Hn ND]. destruct (IH ((0 + 1) `mod` 2 ^ 32) (delete t m) (got ++ [0])) as (s & Hs & Es); [done| |].
    - intros u Hu. rewrite lookup_delete_ne by (by intros ->). apply Hm. by right.
    - exists s. split; [done|]. rewrite Es, <- app_assoc. done. }
  rewrite Run. unfold rr0. rewrite (L k 0%nat ∅ []) by (intros; by rewrite lookup_empty). destruct (S1 (seq 0 k) 0 (list_to_map (map (fun t => (t, 0)) (seq 0 k)) ∪ ∅) []) as (s & Hs & Es).
  - apply NoDup_seq.
  - intros t Ht. rewrite (right_id_L ∅ (∪)). apply elem_of_list_to_map_1; [|apply elem_of_list_In, in_map_iff; exists t; split; [done|by apply elem_of_list_In]].
    assert (E : (map (fun t => (t, 0)) (seq 0 k)).*1 = seq 0 k) by (clear; generalize 0%nat; induction k as [|k IH]; intros j; [done|]; cbn; by rewrite IH). rewrite E. apply NoDup_seq.
  - exists s. split; [done|]. rewrite Es. cbn. by rewrite seq_length.
Qed.

(* What is sent over the data channel is what was read from the local connection, in order; nothing is left out unless the channel refuses. *)
Theorem C68_bytes_in_order : forall reads accepts, concat (pump reads accepts) `prefix_of` concat (reads.*1).
Proof.
  intros reads. induction reads as [|[b ok] reads IH]; intros accepts; [done|]. cbn [pump fmap list_fmap concat fst]. destruct b as [|x b].
  - cbn [app]. destruct ok; [apply IH|apply prefix_nil].
  - destruct accepts as [|[] accepts]; [apply prefix_nil| |apply prefix_nil]. cbn [concat]. apply prefix_app. destruct ok; [apply IH|apply prefix_nil].
Qed.
Theorem C68_all_bytes : forall reads last accepts, (length reads < length accepts)%nat -> Forall (eq true) accepts ->
  concat (pump (map (fun b => (b, true)) reads ++ [(last, false)]) accepts) = concat reads ++ last.
Proof.
  induction reads as [|b reads IH]; intros last accepts Hl F; cbn [map app pump concat].
  - destruct last as [|x l]; [done|]. destruct accepts as [|a accepts]; [cbn in Hl; lia|]. apply Forall_cons in F as [<- F]. cbn. by rewrite app_nil_r.
  - destruct b as [|x b]; [cbn [app]; apply IH; [cbn in Hl; lia|done]|]. destruct accepts as [|a accepts]; [cbn in Hl; lia|]. apply Forall_cons in F as [<- F]. cbn [concat]. rewrite IH; [by rewrite app_assoc|cbn in Hl; lia|done].
Qed.

(* An offer is read by the other side as it was sent, if it is shorter than 64 KiB. *)
Theorem C68_offer_partial : forall m rest, N.of_nat (length m) < 65536 -> read_msg (offer_wire m ++ rest) = CMsg m rest.
Proof.
  intros m rest Hm. unfold offer_wire. cbn [app read_msg]. assert (E : want ((N.of_nat (length m) / 256) `mod` 256) (N.of_nat (length m) `mod` 256) = N.of_nat (length m)).
  { unfold want. rewrite (N.mod_small (_ / _)) by (apply N.div_lt_upper_bound; lia). rewrite N.mul_comm. symmetry. by apply N.div_mod'. }
  rewrite E, Nat2N.id. rewrite app_length. destruct (Nat.ltb_spec (length m + length rest) (length m)); [lia|]. by rewrite take_app, drop_app.
Qed.
Theorem C68_long_offer_refuted : forall m, length m = N.to_nat 65536 -> read_msg (offer_wire m) = CMsg [] m.
Proof. intros m Hm. unfold offer_wire. rewrite Hm. cbn [read_msg]. rewrite N2Nat.id. by replace (N.to_nat (want _ _)) with 0%nat by (by vm_compute). Qed.

Lemma offer_wire_eq m : N.of_nat (length m) < 65536 -> offer_wire m = wire m.
Proof. intros H. unfold offer_wire, wire. rewrite (N.mod_small (_ / _)) by (apply N.div_lt_upper_bound; lia). done. Qed.
Lemma candidates_all accept ms f : Forall (fun m => N.of_nat (length m) < 65536 /\ accept m = true) ms -> (length ms <= f)%nat -> candidates f accept (wires ms) = (ms, true).
Proof.
  revert f. induction ms as [|m ms IH]; intros f F Hf; [by destruct f|]. apply Forall_cons in F as [[Hm Ha] F]. destruct f as [|f]; [cbn in Hf; lia|].
  change (wires (m :: ms)) with (wire m ++ wires ms). cbn [candidates]. rewrite <- offer_wire_eq by done. rewrite C68_offer_partial by done. rewrite Ha, IH; [done|done|cbn in Hf; lia].
Qed.
Lemma wires_len ms : (length ms <= length (wires ms))%nat.
Proof. induction ms as [|m ms IH]; [done|]. change (wires (m :: ms)) with (wire m ++ wires ms). rewrite app_length. cbn. lia. Qed.
(* The answer and all candidates the other side sends are handed to the connection, in order *)
Theorem C68_answer : forall accept answer ms, Forall (fun m => N.of_nat (length m) < 65536 /\ accept m = true) (answer :: ms) ->
  read_answer accept (wires (answer :: ms)) = (answer :: ms, true).
Proof.
  intros accept a ms F. apply Forall_cons in F as [[Ha Ea] F]. change (wires (a :: ms)) with (wire a ++ wires ms). unfold read_answer. rewrite <- offer_wire_eq by done. rewrite C68_offer_partial by done. rewrite Ea, candidates_all; [done|done|apply wires_len].
Qed.
(* Only messages that were sent reach it, in order, wherever the body is cut off *)
Lemma read_msg_inv body m rest : bytes_ok body -> read_msg body = CMsg m rest -> body = wire m ++ rest.
Proof.
  intros B H. destruct body as [|hi [|lo body]]; [done|done|]. cbn [read_msg] in H. destruct (Nat.ltb_spec (length body) (N.to_nat (want hi lo))); [done|]. injection H as <- <-.
  apply Forall_cons in B as [_ B]. apply Forall_cons in B as [Bl _]. rewrite (wire_of hi lo) by (done || (rewrite take_length; lia)). cbn. by rewrite take_drop.
Qed.
Lemma candidates_wires accept f body ms ok : bytes_ok body -> candidates f accept body = (ms, ok) -> wires ms `prefix_of` body.
Proof.
  revert body ms ok. induction f as [|f IH]; intros body ms ok B H; cbn [candidates] in H; [injection H as <- <-; apply prefix_nil|].
  destruct (read_msg body) as [m rest| |] eqn:E; [|injection H as <- <-; apply prefix_nil|injection H as <- <-; apply prefix_nil].
  apply read_msg_inv in E as ->; [|done]. destruct (accept m); [|injection H as <- <-; apply prefix_nil]. destruct (candidates f accept rest) as [ms' ok'] eqn:Er. injection H as <- <-.
  change (wires (m :: ms')) with (wire m ++ wires ms'). apply prefix_app. eapply IH; [|exact Er]. by apply Forall_app in B as [_ ?].
Qed.
Theorem C68_only_sent : forall accept body ms ok, bytes_ok body -> read_answer accept body = (ms, ok) -> wires ms `prefix_of` body.
Proof.
  intros accept body ms ok B H. unfold read_answer in H. destruct (read_msg body) as [m rest| |] eqn:E; [|injection H as <- <-; apply prefix_nil|injection H as <- <-; apply prefix_nil].
  apply read_msg_inv in E as ->; [|done]. destruct (accept m); [|injection H as <- <-; apply prefix_nil]. destruct (candidates _ accept rest) as [ms' ok'] eqn:Er. injection H as <- <-.
  change (wires (m :: ms')) with (wire m ++ wires ms'). apply prefix_app. eapply candidates_wires; [|exact Er]. by apply Forall_app in B as [_ ?].
Qed.
(* The connection counts as set up exactly when an answer came complete and the library accepted it and every candidate that came
   complete after it *)
Lemma read_msg_none body : bytes_ok body -> (forall m rest, read_msg body <> CMsg m rest) <-> (forall m rest, N.of_nat (length m) < 65536 -> body <> wire m ++ rest).
Proof.
  intros B. split.
  - intros H m rest Hm ->. apply (H m rest). rewrite <- offer_wire_eq by done. by apply C68_offer_partial.
  - intros H m rest E. pose proof (read_msg_inv _ _ _ B E) as Eb. refine (H m rest _ Eb). destruct body as [|hi [|lo body]]; [done|done|]. cbn [read_msg] in E.
    destruct (Nat.ltb_spec (length body) (N.to_nat (want hi lo))); [done|]. injection E as <- <-. apply Forall_cons in B as [Bh B]. apply Forall_cons in B as [Bl _]. rewrite take_length.
    assert (want hi lo < 65536) by (unfold want; lia). lia.
Qed.
Lemma read_msg_len body m rest : read_msg body = CMsg m rest -> (length rest < length body)%nat.
Proof. intros E. destruct body as [|hi [|lo body]]; [done|done|]. cbn [read_msg] in E. destruct (Nat.ltb_spec (length body) (N.to_nat (want hi lo))); [done|]. injection E as <- <-. rewrite drop_length. cbn. lia. Qed.
Definition no_more (rest : bytes) : Prop := forall m rest', N.of_nat (length m) < 65536 -> rest <> wire m ++ rest'.
Lemma candidates_ok accept f body ms ok : bytes_ok body -> (length body <= f)%nat -> candidates f accept body = (ms, ok) ->
  Forall (fun m => accept m = true) ms /\ exists rest, body = wires ms ++ rest /\ (ok = true <-> no_more rest).
Proof.
  revert body ms. induction f as [|f IH]; intros body ms B Hl H.
  - destruct body; [|cbn in Hl; lia]. injection H as <- <-. split; [done|]. exists []. split; [done|]. split; [|done]. intros _ m r _. unfold wire. by destruct m.
  - cbn [candidates] in H. destruct (read_msg body) as [m rest| |] eqn:E.
    + pose proof (read_msg_len _ _ _ E) as L. pose proof (read_msg_inv _ _ _ B E) as Eb. destruct (accept m) eqn:Ea.
      * destruct (candidates f accept rest) as [ms' ok'] eqn:Er. injection H as <- <-. apply IH in Er as (F & r & Er & Hr); [|subst body; by apply Forall_app in B as [_ ?]|lia].
        split; [by constructor|]. exists r. split; [|done]. change (wires (m :: ms')) with (wire m ++ wires ms'). rewrite <- app_assoc, <- Er. done.
      * injection H as <- <-. split; [done|]. exists body. split; [done|]. split; [done|]. intros N. unfold no_more in N. rewrite <- read_msg_none in N by done. by destruct (N _ _ E).
    + injection H as <- <-. split; [done|]. exists body. split; [done|]. split; [|done]. intros _. unfold no_more. rewrite <- read_msg_none by done. by rewrite E.
    + injection H as <- <-. split; [done|]. exists body. split; [done|]. split; [|done]. intros _. unfold no_more. rewrite <- read_msg_none by done. by rewrite E.
Qed.
Theorem C68_reported : forall accept body ms ok, bytes_ok body -> read_answer accept body = (ms, ok) ->
  Forall (fun m => accept m = true) ms /\ exists rest, body = wires ms ++ rest /\ (ok = true <-> ms <> [] /\ no_more rest).
Proof.
  intros accept body ms ok B H. unfold read_answer in H. destruct (read_msg body) as [m rest| |] eqn:E.
  - pose proof (read_msg_inv _ _ _ B E) as Eb. destruct (accept m) eqn:Ea.
    + destruct (candidates _ accept rest) as [ms' ok'] eqn:Er. injection H as <- <-. apply candidates_ok in Er as (F & r & Er & Hr); [|subst body; by apply Forall_app in B as [_ ?]|lia].
      split; [by constructor|]. exists r. split; [|by rewrite Hr; naive_solver]. change (wires (m :: ms')) with (wire m ++ wires ms'). rewrite <- app_assoc, <- Er. done.
    + injection H as <- <-. split; [done|]. exists body. split; [done|]. split; [done|]. by intros [? _].
  - injection H as <- <-. split; [done|]. exists body. split; [done|]. split; [done|]. by intros [? _].
  - injection H as <- <-. split; [done|]. exists body. split; [done|]. split; [done|]. by intros [? _].
Qed.
(* An answer cut off within a candidate is not reported: the connection counts as set up *)
Theorem C68_cut_off_refuted : exists body, body `prefix_of` wires [[1]; [2]; [3]] /\ body <> wires [[1]; [2]; [3]] /\ read_answer (fun _ => true) body = ([[1]; [2]], true).
Proof. exists (wires [[1]; [2]] ++ [0; 1]). split; [by exists [3]|]. done. Qed.
Theorem C68_witness : (exists s, rrun (connections 2) rr0 (calls [7; 8; 9]%nat) = Some (RSt s) /\ rGot s = [0; 1; 0]) /\
  pump [([1; 2], true); ([], true); ([3], false)] [true; true] = [[1; 2]; [3]] /\ bytes_ok (wires [[1]; [2]]).
Proof. split; [|split; [done|repeat constructor; lia]]. destruct (C68_in_turn 2 [7; 8; 9]%nat) as (s & H & E); [lia|]. exists s. split; [exact H|]. rewrite E. done. Qed.
