(* Props_Answer.v -- C73: a peer-to-peer visitor gets the answer and the candidates, whole and in order *)
From Coq Require Import Strings.String.
From Verif Require Import GoBase GoBaseLemmas FlagsModel PeerModel Props_Peer ForwardModel Props_Forward AnswerModel.
Local Open Scope N_scope.

(* what a visitor should get: each message with its length (two bytes) in front *)
Lemma reply_whole m : blen m <= 4094 -> reply m = wire m.
Proof.
  intros H. unfold reply, wire. unfold blen in *. rewrite u16_id by lia. apply take_ge. rewrite app_length. cbn. lia.
Qed.
Definition short (m : bytes) : Prop := blen m <= 4094.
Definition ends (evs : list tev) : Prop := match evs with TCand (_ :: _) :: _ => False | _ => True end.

(* With -webrtcThread: the answer (or the offer) and every candidate found before the last one or before the task is closed, whole
   and in order, if none is longer than 4094 bytes *)
Theorem C73_answered_partial sdp cs evs : short sdp -> Forall (fun c => short c /\ c <> []) cs -> ends evs ->
  concat (thread_response sdp (map TCand cs ++ evs) []) = wires (sdp :: cs).
Proof.
  intros Hs Hc He. unfold thread_response, wires. cbn [next concat map]. rewrite reply_whole by done. f_equal.
  induction Hc as [|c cs [H1 H2] _ IH]; cbn [map app].
  - destruct evs as [|[[|]|] ?]; done.
  - destruct c as [|b c]; [done|]. cbn [thread_loop next concat]. rewrite reply_whole by done. by rewrite IH.
Qed.
(* If the connection to the visitor breaks, it has got the first of them *)
Theorem C73_broken_prefix_partial sdp cs evs oks : short sdp -> Forall (fun c => short c /\ c <> []) cs -> ends evs ->
  exists k, concat (thread_response sdp (map TCand cs ++ evs) oks) = wires (take k (sdp :: cs)).
Proof.
  intros Hs Hc He. unfold thread_response. destruct (next oks) as [ok oks'] eqn:E. assert (exists k, concat (thread_loop (map TCand cs ++ evs) oks') = wires (take k cs)) as (k & Hk).
  { clear E. revert oks'. induction Hc as [|c cs [H1 H2] _ IH]; intros oks'; cbn [map app].
    - exists 0%nat. destruct evs as [|[[|]|] ?]; done.
    - destruct c as [|b c]; [done|]. cbn [thread_loop]. destruct (next oks') as [ok2 oks2]. destruct (IH oks2) as (k & Hk). destruct ok2.
      + exists (S k). cbn [concat take]. rewrite Hk, reply_whole by done. done.
      + exists 1%nat. cbn [concat take]. rewrite reply_whole by done. unfold wires. cbn. destruct cs; done. }
  destruct ok.
  - exists (S k). cbn [concat take]. rewrite Hk, reply_whole by done. done.
  - exists 1%nat. cbn [concat take]. rewrite reply_whole by done. unfold wires. cbn. destruct cs; done.
Qed.
(* End to end: gt's own visitor side (-tcpForward..., C68) hands exactly these to its WebRTC library *)
Theorem C73_end_to_end_partial sdp cs evs accept : short sdp -> Forall (fun c => short c /\ c <> []) cs -> ends evs -> Forall (fun m => accept m = true) (sdp :: cs) ->
  read_answer accept (concat (thread_response sdp (map TCand cs ++ evs) [])) = (sdp :: cs, true).
Proof.
  intros Hs Hc He Ha. rewrite C73_answered_partial by done. apply C68_answer. apply Forall_cons in Ha as [Ha1 Ha]. constructor; [split; [unfold short, blen in Hs; lia|done]|].
  rewrite Forall_forall in *. intros m Hm. destruct (Hc m Hm) as [H _]. split; [unfold short, blen in H; lia|by apply Ha].
Qed.
(* A longer answer is cut, though its length is announced: the visitor waits for more, or takes what follows for the rest *)
Theorem C73_long_refuted sdp : 4094 < blen sdp < 65536 -> reply sdp = take 4096 (wire sdp) /\ reply sdp <> wire sdp /\ forall accept, read_answer accept (reply sdp) = ([], false).
Proof.
  intros H. unfold blen in H. assert (reply sdp = take 4096 (wire sdp)) as E. { unfold reply, wire, blen. by rewrite u16_id by lia. }
  assert (length (wire sdp) = (2 + length sdp)%nat) as Hl by (unfold wire; rewrite app_length; done). split; [done|]. split.
  - intros Hc. rewrite E in Hc. apply (f_equal length) in Hc. rewrite take_length, Hl in Hc. lia.
  - intros accept. rewrite E. unfold wire. cbn [app]. replace 4096%nat with (S (S 4094)) by done. cbn [take]. unfold read_answer, read_msg.
    assert (want (N.of_nat (length sdp) / 256) (N.of_nat (length sdp) mod 256) = N.of_nat (length sdp)) as ->. { unfold want. pose proof (N.div_mod' (N.of_nat (length sdp)) 256). lia. }
    rewrite Nat2N.id, take_length. destruct (Nat.ltb_spec (4094 `min` length sdp) (length sdp)); [done|lia].
Qed.
(* Without -webrtcThread (the default) no visitor ever gets an answer, whatever it offers and whatever the peer process finds: the
   first thing the process writes, the configuration, is taken for the answer, and the answer for the last candidate *)
Theorem C73_process_refuted offer sdp cs out oks : out `prefix_of` peer_writes (OOffer offer) sdp cs -> concat (proc_offer out oks) = [] \/ concat (proc_offer out oks) = [0; 0].
Proof.
  intros [rest E]. destruct out as [|o out]; [by left|]. right. injection E as <- E. unfold proc_offer, proc_response. destruct (next oks) as [ok oks']. cbn [f_answer].
  destruct ok; [|done]. destruct out as [|o2 out]; [done|]. injection E as <- E. done.
Qed.
Theorem C73_process_offer_refuted id sdp cs out oks : out `prefix_of` peer_writes OGetOffer sdp cs -> concat (proc_get_offer id out oks) = [] \/ concat (proc_get_offer id out oks) = [0; 0] ++ id.
Proof.
  intros [rest E]. destruct out as [|o out]; [by left|]. right. injection E as <- E. unfold proc_get_offer, proc_response. destruct (next oks) as [ok oks']. cbn [f_offer].
  destruct ok; [|cbn; by rewrite app_nil_r]. destruct out as [|o2 out]; [cbn; by rewrite app_nil_r|]. injection E as <- E. cbn. by rewrite app_nil_r.
Qed.
(* so gt's own visitor fails, unless its library accepts an empty description *)
Theorem C73_process_visitor_refuted offer sdp cs out oks accept : out `prefix_of` peer_writes (OOffer offer) sdp cs -> accept [] = false ->
  read_answer accept (concat (proc_offer out oks)) = ([], false).
Proof. intros H Ha. destruct (C73_process_refuted offer sdp cs out oks H) as [-> | ->]; [done|]. unfold read_answer. change (read_msg [0; 0]) with (CMsg [] []). cbv iota beta. by rewrite Ha. Qed.
(* Without that first message everything would be passed on: the answer (or the offer) and the candidates up to the empty one *)
Theorem C73_process_passes_on sdp cs rest id : short sdp -> Forall (fun c => short c /\ c <> []) cs ->
  concat (proc_offer (OAnswer sdp :: map OCand cs ++ OCand [] :: rest) []) = wires (sdp :: cs) /\
  concat (proc_get_offer id (OOffer sdp :: map OCand cs ++ OCand [] :: rest) []) = wires (sdp :: cs) ++ id.
Proof.
  intros Hs Hc. assert (L : concat (proc_loop (map OCand cs ++ OCand [] :: rest) []) = wires cs).
  { induction Hc as [|c cs [H1 H2] _ IH]; [done|]. destruct c as [|b c]; [done|]. cbn [map app proc_loop f_cand next concat]. rewrite reply_whole by done. rewrite IH. done. }
  unfold proc_offer, proc_get_offer, proc_response. cbn [f_answer f_offer next]. rewrite concat_app. cbn [concat]. rewrite app_nil_r, L, reply_whole by done. done.
Qed.
Theorem C73_witness : concat (thread_response (bs "answer") [TCand (bs "c1"); TCand (bs "c2"); TCand []; TClose] []) = wires [bs "answer"; bs "c1"; bs "c2"] /\
  read_answer (fun _ => true) (concat (thread_response (bs "answer") [TCand (bs "c1"); TClose] [])) = ([bs "answer"; bs "c1"], true) /\
  concat (thread_response (bs "answer") [TCand (bs "c1"); TCand (bs "c2")] [true; false]) = wires [bs "answer"; bs "c1"] /\
  concat (proc_offer (peer_writes (OOffer (bs "offer")) (bs "answer") [bs "c1"]) []) = [0; 0].
Proof. by vm_compute. Qed.
