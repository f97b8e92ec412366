(* Props_First.v -- C12: what the hypothesis "the first payload is not one byte" of the tunnel theorems (FrameSpec.honest_server) rests on.

   The client looks at two bytes of a visitor's first frame to tell a peer-to-peer request (client/conn.go 391-397); with one byte in the frame it would look into the next
   frame.  The server never sends such a frame: the first frame carries what is buffered when the visitor has been routed (server/conn.go 1009-1046).  *)
From Verif Require Import GoBase GoBaseLemmas BufioModel BufioProofs HostRewriteSpec HostRewriteModel HttpSpec HttpModel FrameModel FrameSpec.
Local Open Scope N_scope.

Lemma peek_prefix cap n b d b' : peek cap n b = Some (d, None, b') -> blen d <= blen (rbuf b').
Proof.
  unfold peek. destruct (peek_fill _ _ _ _) as [b1|]; [|done]. destruct (cap <? n); [done|]. destruct (N.ltb_spec (blen (rbuf b1)) n) as [Hl|Hl]; [by destruct (readErr b1)|].
  intros [= <- <-]. rewrite blen_ntake. lia.
Qed.
Lemma hscan_long trim target headers rest : forall s i v, hscan trim target headers s i rest = VDec (DValue v) -> blen headers = i + blen rest -> blen target < blen headers.
Proof.
  induction rest as [|c rest IH]; intros s i v; cbn [hscan]; [done|]. rewrite blen_cons. destruct (c =? NL).
  - destruct ((blen target <=? i - s) && _) eqn:E.
    + apply andb_true_iff in E as [E%N.leb_le _]. intros _ Hl. lia.
    + case_match; [done|]. intros Hh Hl. eapply IH; [exact Hh|]. lia.
  - intros H Hl. eapply IH; [exact H|]. lia.
Qed.
Lemma peek_header_long trim target fuel : forall b v b', peek_header_loop 4096 trim target fuel b = Some (inl v, b') -> blen target < blen (rbuf b').
Proof.
  induction fuel as [|fuel IH]; intros b v b'; cbn [peek_header_loop]; [done|]. destruct (peek 4096 _ b) as [[[h [e|]] b1]|] eqn:E; [done| |done].
  destruct (hscan trim target h 0 0 h) as [[v'| |]|] eqn:Es; try done.
  - intros [= -> ->]. apply hscan_long in Es; [|by rewrite N.add_0_l]. apply peek_prefix in E. lia.
  - destruct (2048 <? _); [done|]. destruct (peek 4096 _ b1) as [[[h2 [e|]] b2]|] eqn:E2; [done| |done]. apply IH.
Qed.
Lemma peek_header_long1 trim target b v b' : peek_header 4096 trim target b = Some (inl v, b') -> blen target < blen (rbuf b').
Proof. unfold peek_header. generalize 2051%nat. intros n. apply peek_header_long. Qed.
(* A visitor routed by its Host field (or the configured header) has more than one byte buffered: *)
Theorem C12_first_http : forall trim is_host mux b id b', http_id 4096 trim is_host mux b = Some (Some id, b') -> 2 <= blen (rbuf b').
Proof.
  intros trim is_host mux b id b'. unfold http_id. destruct (peek_header _ _ _ b) as [[[v|e] b1]|] eqn:E; [|done|done]. intros H.
  assert (b' = b1) as -> by (clear E; repeat (case_match; simplify_eq; try done)). clear H. apply peek_header_long1 in E.
  assert (1 <= blen (if is_host then header_host_prefix else mux ++ [58])); [|lia]. destruct is_host; [by vm_compute|]. rewrite blen_app. cbn. lia.
Qed.
(* one routed by the name in its TLS hello too; *)
Theorem C12_first_tls : forall b n b', peek_tls_host 4096 b = Some (inl (TName n), b') -> 2 <= blen (rbuf b').
Proof.
  intros b n b'. unfold peek_tls_host. destruct (peek 4096 1 b) as [[[d [e|]] b1]|]; [done| |done]. destruct (peek 4096 _ b1) as [[[h [e|]] b2]|] eqn:E; [done| |done].
  intros [= Hs ->]. apply peek_prefix in E. assert (2 <= blen h); [|lia]. clear E. unfold tls_scan in Hs.
  destruct (N.ltb_spec (blen h) (0 + 1)); [done|]. unfold at_ in Hs at 1. destruct (nnth 0 h); [|done]. destruct (negb _); [done|].
  destruct (N.ltb_spec (blen h) (1 + (2 + 2) + 1)); [done|]. lia.
Qed.
(* and one of a TCP port, whose bytes nobody has looked at, has none.  So the payload of the first frame is empty or has at least two bytes. *)
Definition routed (b : reader) : Prop :=
  (exists trim is_host mux b0 id, http_id 4096 trim is_host mux b0 = Some (Some id, b)) \/ (exists b0 n, peek_tls_host 4096 b0 = Some (inl (TName n), b)) \/ rbuf b = [].
Theorem C12_first_payload : forall b fuel t si cr fs e, routed b -> srv_process fuel t si cr b = (fs, e) -> exists p more, fs = FServices t si p :: more /\ blen p <> 1 /\ forall si' p', FServices t si' p' ∉ more.
Proof.
  intros b fuel t si cr fs e Hr. unfold srv_process. destruct (srv_data_frames _ _ _) as [fs' e'] eqn:E. intros [= <- <-]. do 2 eexists. split; [done|]. split.
  - rewrite blen_ntake. destruct Hr as [(trim & h & mux & b0 & id & H)|[(b0 & n & H)| ->]]; [apply C12_first_http in H; lia|apply C12_first_tls in H; lia|cbn; lia].
  - intros si' p' H. apply elem_of_app in H as [H|H].
    + clear - E H. revert E H. generalize (mkReader (ndrop 4084 (rbuf b)) (rerr b) (rsrc b)). revert fs' e'. induction fuel as [|fuel IH]; intros fs e r; cbn [srv_data_frames]; [intros [= <- <-] H; by apply elem_of_nil in H|].
      destruct (rd_read 4096 4086 r) as [[d er] r']. assert (Hd : FServices t si' p' ∉ match d with [] => [] | _ => [FData t d] end) by (destruct d; [apply not_elem_of_nil|intros Hx%elem_of_list_singleton; done]).
      destruct er as [er|]; [intros [= <- <-]; done|]. destruct (srv_data_frames fuel t r') as [fs2 e2] eqn:E2. intros [= <- <-] Hx. apply elem_of_app in Hx as [Hx|Hx]; [done|]. by eapply IH.
    + destruct cr; [by apply elem_of_nil in H|]. by apply elem_of_list_singleton in H.
Qed.
(* a request, in one piece, and what is read of it *)
Theorem C12_first_witness : exists b', http_id 4096 (fun x => filter (fun c => c <> 13) x) true [] (mkReader [] None [EvData [71;32;47;13;10;72;111;115;116;58;32;97;46;98;46;99;13;10]]) = Some (Some [97], b') /\ blen (rbuf b') = 18.
Proof. eexists. split; [vm_compute; reflexivity|]. done. Qed.
