(* Props_Frames.v -- C12 to C17, C20, C21, C47: the multiplexed tunnel. *)
From Verif Require Import GoBase GoBaseLemmas BufioModel BufioProofs HandshakeModel HandshakeProofs
  FrameModel FrameSpec FrameProofs FrameProofsC FrameProofsD FrameProofsE FrameInv.
Local Open Scope N_scope.

(* A tunnel as its reader sees it: some bytes buffered, the rest arriving in any pieces; the stream is
   the wire image of the frames [fs] followed by anything. *)
Definition carries (r : reader) (fs : list frame) (rest : stream) : Prop :=
  r_ok 4096 r /\ Forall item_ok rest /\ r_stream r = map B (wire fs) ++ rest.

Lemma run_on {A} (m : prog A) r fs rest a : carries r fs rest -> Forall frame_bytes fs -> peeks_ok 4096 m ->
  s_run m (map B (wire fs) ++ rest) = (a, rest) -> exists r', run 4096 m r = Some (a, r') /\ r_stream r' = rest.
Proof.
  intros (Hr & Hi & Hs) Hf Hm Hrun.
  destruct (run_refines 4096 eq_refl m r Hr) as (a' & b' & H1 & _ & H2).
  - rewrite Hs. apply Forall_app; split; [|done]. apply Forall_item_B. by apply wire_bytes.
  - done.
  - rewrite Hs, Hrun in H2. injection H2 as -> ->. eauto.
Qed.

(* ---- C12: visitor to service ---- *)

(* The frames of visitor t (as produced by the server from the visitor's connection b, whatever way its
   bytes arrive) are interleaved in any way with other frames; the client reads the tunnel in any pieces.
   The connection made for t is to the service with the visitor's index, and it receives the visitor's
   bytes exactly (up to the point where it stops accepting data). *)
Theorem C12_visitor_to_service fuel t si cr b fs_t e fs rest svcs s w envs st r :
  rerr b = None -> src_ok (rsrc b) ->
  srv_process fuel t si cr b = (fs_t, Some e) ->
  frames_of t fs = fs_t -> Forall (honest_server svcs) fs -> carries r fs rest ->
  client_up svcs envs st -> length envs = length fs ->
  nnth si svcs = Some s -> is_p2p (rbuf b) = false ->
  Forall (fun env => ce_dial env s = Some w) envs -> Forall (fun env => leaves_alone t (ce_acts env)) envs ->
  exists st' evs r', run 4096 (cli_loop envs st) r = Some ((CRunning st', evs), r') /\ r_stream r' = rest /\
    c_delivered t evs = w_take w (rbuf b ++ src_bytes (rsrc b)) /\
    (forall s', CNew t s' ∈ evs <-> s' = s).
Proof.
  intros He Hok Hp Hfs Hh Hc Hu Hl Hsi Hp2 Hd Ha.
  apply srv_process_spec in Hp as (p & ps & -> & Hcat & _ & Hpt & _); [|done|done].
  pose proof (honest_server_frames svcs envs fs st Hl Hu Hh) as Hsf.
  pose proof (cli_loop_frames envs st fs rest Hsf (honest_server_bytes _ _ Hh)) as Hrun.
  destruct (run_on (cli_loop envs st) r fs rest _ Hc (honest_server_bytes _ _ Hh) (cli_loop_peeks 4096 envs st ltac:(done)) Hrun)
    as (r' & H1 & H2).
  destruct (cli_visitor t si p ps (if cr then [] else [FClose t]) svcs s w ltac:(destruct cr; auto) envs st fs Hl Hu Hh Hsi)
    as [H3 H4]; try done.
  { rewrite Hpt, is_p2p_ntake; done. }
  destruct (cli_effects envs st fs) as [st' evs]. cbn [snd] in *.
  exists st', evs, r'. rewrite Hcat in H3. done.
Qed.
(* At every moment (the tunnel has carried only part of the visitor's frames), whatever fails (dialling the
   service, the service's connection, the task being removed): what the service has received is a prefix. *)
Theorem C12_visitor_to_service_prefix fuel t si b fs_t e fs rest svcs envs st r :
  rerr b = None -> src_ok (rsrc b) ->
  srv_process fuel t si false b = (fs_t, Some e) ->
  frames_of t fs `prefix_of` fs_t -> Forall (honest_server svcs) fs -> carries r fs rest ->
  client_up svcs envs st -> length envs = length fs -> cTasks st !! t = None ->
  Forall (fun env => only_stops t (ce_acts env)) envs ->
  exists st' evs r', run 4096 (cli_loop envs st) r = Some ((CRunning st', evs), r') /\ r_stream r' = rest /\
    c_delivered t evs `prefix_of` rbuf b ++ src_bytes (rsrc b).
Proof.
  intros He Hok Hp Hfs Hh Hc Hu Hl Hnone Ha.
  apply srv_process_spec in Hp as (p & ps & -> & Hcat & _ & _ & _); [|done|done].
  pose proof (honest_server_frames svcs envs fs st Hl Hu Hh) as Hsf.
  pose proof (cli_loop_frames envs st fs rest Hsf (honest_server_bytes _ _ Hh)) as Hrun.
  destruct (run_on (cli_loop envs st) r fs rest _ Hc (honest_server_bytes _ _ Hh) (cli_loop_peeks 4096 envs st ltac:(done)) Hrun)
    as (r' & H1 & H2).
  pose proof (cli_visitor_prefix t si p ps envs st fs Hsf Ha ltac:(by left) Hfs) as H3.
  destruct (cli_effects envs st fs) as [st' evs]. cbn [snd] in *.
  exists st', evs, r'. rewrite Hcat in H3. done.
Qed.

(* ---- C13: service to visitor ---- *)
Theorem C13_service_to_visitor_partial deadline fuel t cr src fs_t e fs rest w envs st r :
  src_ok src -> cli_process fuel t cr src = (fs_t, Some e) ->
  frames_of t fs = fs_t -> Forall honest_client fs -> carries r fs rest ->
  server_up envs -> length envs = length fs -> sTasks st !! t = Some w ->
  Forall (fun env => leaves_alone t (se_acts env)) envs ->
  exists st' evs r', run 4096 (srv_loop deadline envs st) r = Some ((SRunning st', evs), r') /\ r_stream r' = rest /\
    s_delivered t evs = w_take w (src_bytes src).
Proof.
  intros Hok Hp Hfs Hh Hc Hu Hl Ht Ha. unfold cli_process in Hp.
  destruct (cli_data_frames fuel t src) as [fs0 e0] eqn:Hd. injection Hp as <- ->.
  apply cli_data_frames_spec in Hd as (ps & -> & Hcat & _); [|done].
  pose proof (honest_client_frames deadline envs fs st Hl Hu Hh) as Hsf.
  pose proof (srv_loop_frames deadline envs st fs rest Hsf) as Hrun.
  destruct (run_on (srv_loop deadline envs st) r fs rest _ Hc (honest_client_bytes _ Hh) (srv_loop_peeks 4096 deadline envs st ltac:(done)) Hrun)
    as (r' & H1 & H2).
  pose proof (srv_deliver_cap t (if cr then [] else [FClose t]) ltac:(destruct cr; auto) envs st fs ps w Ha Hl Ht Hfs) as H3.
  destruct (srv_effects envs st fs) as [st' evs]. cbn [snd] in *.
  exists st', evs, r'. rewrite Hcat in H3. done.
Qed.
Theorem C13_service_to_visitor_prefix_partial deadline fuel t src fs_t e fs rest envs st r :
  src_ok src -> cli_process fuel t false src = (fs_t, Some e) ->
  frames_of t fs `prefix_of` fs_t -> Forall honest_client fs -> carries r fs rest ->
  server_up envs -> length envs = length fs ->
  Forall (fun env => only_stops t (se_acts env)) envs ->
  exists st' evs r', run 4096 (srv_loop deadline envs st) r = Some ((SRunning st', evs), r') /\ r_stream r' = rest /\
    s_delivered t evs `prefix_of` src_bytes src.
Proof.
  intros Hok Hp Hfs Hh Hc Hu Hl Ha. unfold cli_process in Hp.
  destruct (cli_data_frames fuel t src) as [fs0 e0] eqn:Hd. injection Hp as <- ->.
  apply cli_data_frames_spec in Hd as (ps & -> & Hcat & _); [|done].
  pose proof (honest_client_frames deadline envs fs st Hl Hu Hh) as Hsf.
  pose proof (srv_loop_frames deadline envs st fs rest Hsf) as Hrun.
  destruct (run_on (srv_loop deadline envs st) r fs rest _ Hc (honest_client_bytes _ Hh) (srv_loop_peeks 4096 deadline envs st ltac:(done)) Hrun)
    as (r' & H1 & H2).
  pose proof (srv_deliver_prefix t envs st fs ps Ha Hfs) as H3.
  destruct (srv_effects envs st fs) as [st' evs]. cbn [snd] in *.
  exists st', evs, r'. rewrite Hcat in H3. done.
Qed.

(* ---- C14 ---- *)
(* Server: for every task table, whatever other goroutines do to it between frames and however many bytes
   each destination accepts, the frames are consumed exactly; and what task t's visitor receives is
   determined by t's own frames and t's own destination: the other tasks (unknown, finished, failing)
   do not matter. *)
Theorem C14_server_in_sync deadline fs rest envs st r :
  Forall honest_client fs -> carries r fs rest -> server_up envs -> length envs = length fs ->
  exists st' evs r', run 4096 (srv_loop deadline envs st) r = Some ((SRunning st', evs), r') /\ r_stream r' = rest /\
    forall t, Forall (fun env => leaves_alone t (se_acts env)) envs ->
      s_delivered t evs = task_view (sTasks st !! t) (frames_of t fs).
Proof.
  intros Hh Hc Hu Hl.
  pose proof (honest_client_frames deadline envs fs st Hl Hu Hh) as Hsf.
  pose proof (srv_loop_frames deadline envs st fs rest Hsf) as Hrun.
  destruct (run_on (srv_loop deadline envs st) r fs rest _ Hc (honest_client_bytes _ Hh) (srv_loop_peeks 4096 deadline envs st ltac:(done)) Hrun)
    as (r' & H1 & H2).
  pose proof (fun t => srv_task_view t envs st fs Hl) as H3.
  destruct (srv_effects envs st fs) as [st' evs]. cbn [snd] in *. exists st', evs, r'. done.
Qed.
Theorem C14_client_in_sync svcs fs rest envs st r :
  Forall (honest_server svcs) fs -> carries r fs rest -> client_up svcs envs st -> length envs = length fs ->
  exists st' evs r', run 4096 (cli_loop envs st) r = Some ((CRunning st', evs), r') /\ r_stream r' = rest /\
    forall t, Forall (fun env => leaves_alone t (ce_acts env)) envs ->
      Forall (fun f => forall si p, f <> FServices t si p) fs ->
      c_delivered t evs = task_view (cTasks st !! t) (frames_of t fs).
Proof.
  intros Hh Hc Hu Hl.
  pose proof (honest_server_frames svcs envs fs st Hl Hu Hh) as Hsf.
  pose proof (cli_loop_frames envs st fs rest Hsf (honest_server_bytes _ _ Hh)) as Hrun.
  destruct (run_on (cli_loop envs st) r fs rest _ Hc (honest_server_bytes _ _ Hh) (cli_loop_peeks 4096 envs st ltac:(done)) Hrun)
    as (r' & H1 & H2).
  pose proof (fun t => cli_task_view t envs st fs Hsf) as H3.
  destruct (cli_effects envs st fs) as [st' evs]. cbn [snd] in *. exists st', evs, r'. split; [done|]. split; [done|].
  intros t Ha Hns. apply H3; [done|]. unfold frames_of. apply Forall_forall. intros f Hf%elem_of_list_filter.
  rewrite Forall_forall in Hns. apply Hns. tauto.
Qed.

(* ---- C15 ---- *)
(* With a data-frame of length 0 for a task that does not exist (any more) the server's loop dereferences a
   nil task when a read timeout is configured. *)
Theorem C15_zero_frame_panics_refuted : forall env st t rest, tid_ok t ->
  acts (se_acts env) (sTasks st) !! t = None ->
  s_run (srv_loop true [env] st) (map B (enc_frame (FData t [])) ++ rest) = ((SStopped StPanic, []), rest).
Proof.
  intros env st t rest Ht Hm. destruct (tid_not_signal t Ht) as (Ht32 & H1 & H2 & H3 & _).
  cbn [srv_loop]. rewrite s_run_bind. unfold srv_iter. cbv zeta. cbn [enc_frame].
  rewrite !map_app, <- !app_assoc. rewrite s_run_peekd_be32. rewrite p32_be32 by done.
  rewrite H1, H2, H3. rewrite s_run_peekd_be16. change (p16 (be16 OpData)) with 0.
  change (0 =? OpData) with true. cbn iota. rewrite s_run_peekd_be32. rewrite Hm. done.
Qed.
(* That is the only panic, for every stream of bytes and errors and every behaviour of the environment:
   a panicking iteration started at a data frame of length 0 for an unknown task, with a read timeout. *)
Theorem C15_only_zero_frames_partial deadline env st s ev s' :
  s_run (srv_iter deadline env st) s = (inr (StPanic, ev), s') ->
  deadline = true /\ exists d1 d2 d3, s = map B (d1 ++ d2 ++ d3) ++ s' /\ blen d1 = 4 /\ blen d2 = 2 /\ blen d3 = 4 /\
    p16 d2 = OpData /\ p32 d3 = 0 /\ acts (se_acts env) (sTasks st) !! (p32 d1) = None.
Proof. apply srv_iter_panic. Qed.
Theorem C15_no_panic_without_timeout_partial envs st s : fst (fst (s_run (srv_loop false envs st) s)) <> SStopped StPanic.
Proof.
  pose proof (always_run _ _ s (srv_loop_post false envs st)) as H.
  destruct (s_run (srv_loop false envs st) s) as [[o evs] s']. cbn [fst] in *. destruct H as [_ H].
  intros ->. destruct H as [_ H]. by specialize (H eq_refl).
Qed.

(* ---- C16 ---- *)
(* ping, ready, services, info and all task frames: the next frame is found at its boundary *)
Theorem C16_signals_in_sync_partial env st f rest : server_frame env st f -> frame_bytes f ->
  s_run (cli_iter env st) (map B (enc_frame f) ++ rest) = (inl (cli_effect env st f), rest).
Proof. apply cli_iter_frame. Qed.
(* the close signal *)
Theorem C16_close_in_sync env st rest : cClosing st = false -> acts (ce_acts env) (cTasks st) <> ∅ ->
  s_run (cli_iter env st) (map B (enc_frame (FSignal CloseSignal)) ++ rest) =
  (inl (mkCstate (cPings st) (cLastPing st) true (cSvcs st) (acts (ce_acts env) (cTasks st)), [CCloseRecv]), rest).
Proof.
  intros Hc Ht. unfold cli_iter. cbv zeta. unfold with_tasks. cbn [cPings cLastPing cClosing cSvcs cTasks enc_frame].
  cbn [s_run]. rewrite s_peek_B by done. rewrite ntake_all by done. cbn [s_run].
  rewrite s_discard_full by done. change (p32 (be32 CloseSignal) =? PingSignal) with false.
  change (p32 (be32 CloseSignal) =? CloseSignal) with true. cbn iota. rewrite Hc.
  rewrite bool_decide_false by done. done.
Qed.
(* After the reconnect signal the client takes the first bytes of the next frame for the rest of a task
   frame: every data frame of a task below 65536 with a length below 65536 that follows it is lost, together
   with the next 65536 * task - 2 bytes of the tunnel. *)
Theorem C16_reconnect_refuted env st t p rest :
  ce_peer env ReconnectSignal = None -> acts (ce_acts env) (cTasks st) !! ReconnectSignal = None ->
  0 < t < 65536 -> blen p < 65536 ->
  s_run (cli_iter env st) (map B (enc_frame (FSignal ReconnectSignal) ++ enc_frame (FData t p)) ++ rest) =
  s_run (cli_after (mkCstate (cPings st) 0 (cClosing st) (cSvcs st) (acts (ce_acts env) (cTasks st))) [CReconnect] (t * 65536) None)
    (map B (be32 (blen p) ++ p) ++ rest).
Proof.
  intros Hp Hm Ht Hl. unfold cli_iter. cbv zeta. unfold with_tasks. cbn [cPings cLastPing cClosing cSvcs cTasks enc_frame].
  rewrite !map_app, <- !app_assoc.
  cbn [s_run]. rewrite s_peek_B by done. rewrite ntake_all by done. cbn [s_run].
  rewrite s_discard_full by done. change (p32 (be32 ReconnectSignal) =? PingSignal) with false.
  change (p32 (be32 ReconnectSignal) =? CloseSignal) with false.
  change (p32 (be32 ReconnectSignal) =? ReconnectSignal) with true. cbn iota.
  rewrite s_run_bind.
  assert (Hbe : be32 t = be16 0 ++ be16 t).
  { unfold be32, be16. cbn [app]. unfold u8. rewrite !N.shiftr_div_pow2. change (2^24) with 16777216. change (2^16) with 65536.
    change (2^8) with 256. repeat (apply f_equal2; [lia|]). done. }
  rewrite Hbe, !map_app, <- !app_assoc. rewrite s_run_peekd_be16. change (p16 (be16 0)) with 0.
  change (0 =? OpServicesData) with false. change (0 =? OpData) with true. cbn iota.
  assert (Hp4 : forall (fail : err -> prog cres) k s, s_run (peekd 4 fail k) (map B (be16 t) ++ map B (be16 OpData) ++ s) =
    s_run (k (be32 (t * 65536))) s).
  { intros. rewrite app_assoc, <- map_app. replace (be16 t ++ be16 OpData) with (be32 (t * 65536)); [apply s_run_peekd_be32|].
    unfold be32, be16. cbn [app]. unfold u8. rewrite !N.shiftr_div_pow2. change (2^24) with 16777216. change (2^16) with 65536.
    change (2^8) with 256. change OpData with 0. repeat (apply f_equal2; [lia|]). done. }
  rewrite Hp4. change (p32 (be32 ReconnectSignal)) with ReconnectSignal. rewrite p32_be32 by lia.
  unfold cli_data. cbn [cTasks]. rewrite Hm, Hp. unfold cli_after. destruct (0 <? t * 65536) eqn:Hz; [|lia].
  cbn [s_run]. destruct (s_discard _ _) as [[c e] s2]. destruct e; done.
Qed.
(* ... with short traffic the tunnel dies and the data is lost: *)
Definition ex_env : cenv := mkCenv true true [] [] (fun _ => None) false (fun _ => None) None.
Example C16_reconnect_loses_data :
  let st := mkCstate 0 0 false (Some []) {[ 5 := None ]} in
  fst (s_run (cli_loop [ex_env; ex_env] st) (map B (wire [FSignal ReconnectSignal; FData 5 [104; 105]]))) =
    (CStopped (CsRead EEOF), [CReconnect]) /\
  snd (fst (s_run (cli_loop [ex_env; ex_env] st) (map B (wire [FSignal ReadySignal; FData 5 [104; 105]])))) =
    [CReady; CDeliver 5 [104; 105]].
Proof. split; vm_compute; reflexivity. Qed.

(* ---- C17 ---- *)
(* For every stream: a connection is made only for a new-visitor frame, to the service at that frame's index *)
Theorem C17_routed_to_index env st s r s' t sv :
  s_run (cli_iter env st) s = (r, s') ->
  CNew t sv ∈ (match r with inl (_, ev) => ev | inr (_, ev) => ev end) ->
  exists d1 d2 d3 rest svcs, s = map B (d1 ++ d2 ++ d3) ++ rest /\ blen d1 = 4 /\ blen d2 = 2 /\ blen d3 = 2 /\
    p32 d1 = t /\ p16 d2 = OpServicesData /\ cSvcs st = Some svcs /\ p16 d3 < u16 (blen svcs) /\ nnth (p16 d3) svcs = Some sv.
Proof. apply cli_iter_new. Qed.
(* an index out of range ends the tunnel, nothing is connected *)
Theorem C17_out_of_range env envs st t si p rest svcs : tid_ok t -> si < 65536 -> (cPings st <= 3)%Z ->
  cSvcs st = Some svcs -> u16 (blen svcs) <= si ->
  fst (s_run (cli_loop (env :: envs) st) (map B (enc_frame (FServices t si p)) ++ rest)) = (CStopped CsIndex, []).
Proof.
  intros Ht Hsi Hp Hsv Hge. destruct (tid_not_signal t Ht) as (Ht32 & H1 & H2 & H3 & H4 & H5 & H6 & H7).
  cbn [cli_loop]. destruct (3 <? cPings st)%Z eqn:Hx; [lia|]. rewrite s_run_bind.
  unfold cli_iter. cbv zeta. unfold with_tasks. cbn [cPings cLastPing cClosing cSvcs cTasks enc_frame].
  rewrite !map_app, <- !app_assoc. cbn [s_run]. rewrite s_peek_B by done. rewrite ntake_all by done. cbn [s_run].
  rewrite s_discard_full by done. rewrite p32_be32 by done. rewrite H1, H2, H3, H4, H5, H6, H7.
  rewrite s_run_peekd_be16. change (p16 (be16 OpServicesData)) with 2. change (2 =? OpServicesData) with true. cbn iota.
  rewrite s_run_peekd_be16, p16_be16 by done. rewrite Hsv. destruct (u16 (blen svcs) <=? si) eqn:Hy; [done|lia].
Qed.

(* ---- C20: closing a tunnel ---- *)
(* Server: in every run from a fresh tunnel the tunnel is withdrawn (no new visitors) at the first close signal,
   once; the loop ends because of close signals only after that. *)
Theorem C20_server_close deadline envs m s :
  let '((o, evs), _) := s_run (srv_loop deadline envs (mkSstate false m)) s in
  match o with
  | SRunning st' => sClosing st' = true <-> SRemoveTunnel ∈ evs
  | SStopped StClosed => SRemoveTunnel ∈ evs
  | SStopped _ => True
  end.
Proof.
  pose proof (always_run _ _ s (srv_loop_post deadline envs (mkSstate false m))) as H.
  destruct (s_run _ s) as [[o evs] s']. cbn [fst] in H. destruct H as [_ H]. cbn [sClosing] in H.
  destruct o as [st'|why].
  - rewrite H. split; [by intros [?|?]|by right].
  - destruct why; try done. destruct H as [H _]. by destruct (H eq_refl).
Qed.
(* and while closing, frames are handled as before *)
Theorem C20_server_drains deadline fs rest envs b1 b2 m r :
  Forall honest_client fs -> carries r fs rest -> server_up envs -> length envs = length fs ->
  exists st1 st2 evs r1 r2, run 4096 (srv_loop deadline envs (mkSstate b1 m)) r = Some ((SRunning st1, evs), r1) /\
     run 4096 (srv_loop deadline envs (mkSstate b2 m)) r = Some ((SRunning st2, evs), r2) /\
     sTasks st1 = sTasks st2 /\ r_stream r1 = rest /\ r_stream r2 = rest.
Proof.
  intros Hh Hc Hu Hl.
  assert (Heff : forall envs fs b1 b2 m, length envs = length fs ->
    sTasks (fst (srv_effects envs (mkSstate b1 m) fs)) = sTasks (fst (srv_effects envs (mkSstate b2 m) fs)) /\
    snd (srv_effects envs (mkSstate b1 m) fs) = snd (srv_effects envs (mkSstate b2 m) fs)).
  { clear. induction envs as [|env envs IH]; intros [|f fs] b1 b2 m Hl; try done. cbn [srv_effects].
    assert (Hone : exists m' ev, forall b, srv_effect env (mkSstate b m) f = (mkSstate b m', ev)).
    { unfold srv_effect. cbn [sTasks sClosing]. destruct f; try (eexists _, _; done).
      - destruct (acts _ _ !! _); eexists _, _; done.
      - destruct (acts _ _ !! _); eexists _, _; done. }
    destruct Hone as (m' & ev & Hone). rewrite !Hone.
    assert (Hl' : length envs = length fs) by (cbn in Hl; lia). destruct (IH fs b1 b2 m' Hl') as [H1 H2].
    destruct (srv_effects envs (mkSstate b1 m') fs), (srv_effects envs (mkSstate b2 m') fs). cbn [fst snd] in *. by subst. }
  destruct (Heff envs fs b1 b2 m Hl) as [He1 He2].
  pose proof (srv_loop_frames deadline envs (mkSstate b1 m) fs rest (honest_client_frames deadline envs fs _ Hl Hu Hh)) as R1.
  pose proof (srv_loop_frames deadline envs (mkSstate b2 m) fs rest (honest_client_frames deadline envs fs _ Hl Hu Hh)) as R2.
  assert (Hconv : forall b a, s_run (srv_loop deadline envs (mkSstate b m)) (map B (wire fs) ++ rest) = (a, rest) ->
     exists r', run 4096 (srv_loop deadline envs (mkSstate b m)) r = Some (a, r') /\ r_stream r' = rest).
  { intros b a Hr. eapply run_on; [exact Hc|by apply honest_client_bytes|by apply srv_loop_peeks|exact Hr]. }
  destruct (srv_effects envs (mkSstate b1 m) fs) as [st1 evs1]. destruct (srv_effects envs (mkSstate b2 m) fs) as [st2 evs2].
  cbn [fst snd] in *. subst evs2.
  destruct (Hconv b1 _ R1) as (r1 & H1 & S1). destruct (Hconv b2 _ R2) as (r2 & H2 & S2).
  exists st1, st2, evs1, r1, r2. done.
Qed.
(* Client: in every run from a fresh tunnel, at most two close signals are acted on, the second ends the tunnel;
   the tunnel goes away as idle only after a close signal ... *)
Theorem C20_client_close envs svcs m s :
  let '((o, evs), _) := s_run (cli_loop envs (mkCstate 0 0 false svcs m)) s in
  match o with
  | CRunning st' => cnt CCloseRecv evs = (if cClosing st' then 1 else 0)%Z
  | CStopped why => (cnt CCloseRecv evs <= 2)%Z /\ (cnt CCloseRecv evs = 2%Z -> why = CsClosed) /\
      (why = CsIdle -> cnt CCloseRecv evs = 1%Z)
  end.
Proof.
  pose proof (always_run _ _ s (cli_loop_post envs (mkCstate 0 0 false svcs m) ltac:(done))) as H.
  destruct (s_run _ s) as [[o evs] s']. cbn [fst] in H. destruct H as [_ H]. cbn [cClosing cPings] in H.
  destruct o as [st'|why].
  - destruct H as [_ H]. rewrite H. destruct (cClosing st'); done.
  - destruct H as (_ & H1 & H2 & H3). repeat split; [lia|..].
    + intros. apply H3. lia.
    + intros Hw. specialize (H1 Hw). lia.
Qed.
(* ... and while it has tasks neither a first close signal nor idleness ends it *)
Theorem C20_client_keeps_tasks env st s why ev s' :
  s_run (cli_iter env st) s = (inr (why, ev), s') -> acts (ce_acts env) (cTasks st) <> ∅ ->
  why <> CsIdle /\ (why = CsClosed -> cClosing st = true).
Proof.
  intros H Hne. pose proof (always_run _ _ s (cli_iter_post env st)) as Hp. rewrite H in Hp. cbn [fst cli_post] in Hp.
  destruct Hp as (_ & _ & Hc & _ & Hi). split.
  - intros Hw. destruct (Hi Hw) as (_ & ? & _). done.
  - intros Hw. destruct (Hc Hw) as (_ & _ & [?|?]); done.
Qed.

(* ---- C21: pings ---- *)
(* From a fresh tunnel, on every stream (bytes, timeouts, errors): sent minus answered pings never exceeds 4, the
   loop gives up for missing answers exactly at 4, and is running with [sent - answered] outstanding otherwise. *)
Theorem C21_dead_server envs svcs m s :
  let '((o, evs), _) := s_run (cli_loop envs (mkCstate 0 0 false svcs m)) s in
  (cnt CPing evs - cnt CPong evs <= 4)%Z /\
  match o with
  | CStopped CsPings => (cnt CPing evs = cnt CPong evs + 4)%Z
  | CRunning st' => cPings st' = (cnt CPing evs - cnt CPong evs)%Z
  | CStopped _ => True
  end.
Proof.
  pose proof (always_run _ _ s (cli_loop_post envs (mkCstate 0 0 false svcs m) ltac:(done))) as H.
  destruct (s_run _ s) as [[o evs] s']. cbn [fst] in H. destruct H as [H0 H]. cbn [cClosing cPings] in *.
  split; [lia|]. destruct o as [st'|why].
  - destruct H as [H _]. lia.
  - destruct H as [H _]. destruct why; try done. specialize (H eq_refl). lia.
Qed.
(* with 4 outstanding it does give up at once *)
Theorem C21_gives_up env envs st s : (cPings st = 4)%Z -> s_run (cli_loop (env :: envs) st) s = ((CStopped CsPings, []), s).
Proof. intros H. cbn [cli_loop]. rewrite H. done. Qed.

(* ---- C47: frames before the ready signal ---- *)
(* The server makes a tunnel available to visitors before it sends the ready signal; a visitor's first frame that
   overtakes the ready signal makes the client dereference a nil service list. *)
Theorem C47_frame_before_ready_refuted env envs t si p rest m : tid_ok t -> si < 65536 ->
  fst (s_run (cli_loop (env :: envs) (mkCstate 0 0 false None m)) (map B (enc_frame (FServices t si p)) ++ rest)) = (CStopped CsPanic, []).
Proof.
  intros Ht Hsi. destruct (tid_not_signal t Ht) as (Ht32 & H1 & H2 & H3 & H4 & H5 & H6 & H7).
  cbn [cli_loop cPings]. change (3 <? 0)%Z with false. cbn iota. rewrite s_run_bind.
  unfold cli_iter. cbv zeta. unfold with_tasks. cbn [cPings cLastPing cClosing cSvcs cTasks enc_frame].
  rewrite !map_app, <- !app_assoc. cbn [s_run]. rewrite s_peek_B by done. rewrite ntake_all by done. cbn [s_run].
  rewrite s_discard_full by done. rewrite p32_be32 by done. rewrite H1, H2, H3, H4, H5, H6, H7.
  rewrite s_run_peekd_be16. change (p16 (be16 OpServicesData)) with 2. change (2 =? OpServicesData) with true. cbn iota.
  rewrite s_run_peekd_be16. done.
Qed.

(* ---- concrete cases meeting the hypotheses ---- *)
Definition ex_svc (n : N) : service := mkService SchHTTP [n] 0 false.
Definition ex_svcs : list service := [ex_svc 97; ex_svc 98].
Definition ex_cenv : cenv := mkCenv true true ex_svcs [TDel 99] (fun _ => None) false (fun _ => Some None) None.
Definition ex_visitor : reader := mkReader [71; 69; 84] None [EvData [32; 47]; EvData [10]].
Definition ex_fs : list frame :=
  [FSignal PingSignal; FServices 7 0 [65; 66]; FServices 8 1 [71; 69; 84]; FData 7 [67]; FData 8 [32; 47];
   FClose 7; FSignal ServicesSignal; FData 8 [10]; FData 99 [1; 2; 3]; FClose 8].
Example C12_nonvacuous :
  exists fs_t, srv_process 10 8 1 false ex_visitor = (fs_t, Some EEOF) /\ frames_of 8 ex_fs = fs_t /\
   Forall (honest_server ex_svcs) ex_fs /\
   carries (mkReader (ntake 5 (wire ex_fs)) None [EvData (ndrop 5 (wire ex_fs)); EvData [1]]) ex_fs [B 1] /\
   client_up ex_svcs (replicate 10 ex_cenv) (mkCstate 0 0 false (Some ex_svcs) ∅) /\
   nnth 1 ex_svcs = Some (ex_svc 98) /\ is_p2p (rbuf ex_visitor) = false /\
   Forall (fun env => ce_dial env (ex_svc 98) = Some None) (replicate 10 ex_cenv) /\
   Forall (fun env => leaves_alone 8 (ce_acts env)) (replicate 10 ex_cenv).
Proof.
  eexists. split; [vm_compute; reflexivity|]. split; [vm_compute; reflexivity|].
  split; [unfold ex_fs; repeat (apply Forall_cons_2); try (apply Forall_nil_2); unfold honest_server, frame_ok, tid_ok, all_bytes, is_byte;
          repeat split; try done; try (right; right; done); try (left; done); repeat constructor|].
  split.
  - split; [|split; [repeat constructor|vm_compute; reflexivity]].
    split; [done|]. split; [|vm_compute; done].
    apply Forall_cons_2; [vm_compute; done|]. apply Forall_cons_2; [done|]. apply Forall_nil_2.
  - split; [split; [done|]; split; [done|]; split; [done|]; by apply Forall_replicate|].
    split; [done|]. split; [done|]. split; apply Forall_replicate; [done|].
    unfold leaves_alone. cbn. apply Forall_singleton. done.
Qed.
Definition ex_senv : senv := mkSenv true true [TAdd 12 None].
Example C13_nonvacuous :
  exists fs_t, cli_process 10 5 false [EvData [72; 105]; EvErr EOther] = (fs_t, Some EOther) /\
   let fs := [FData 6 [1]; FData 5 [72; 105]; FSignal PingSignal; FClose 6; FClose 5] in
   frames_of 5 fs = fs_t /\ Forall honest_client fs /\ server_up (replicate 5 ex_senv) /\
   carries (mkReader [] None [EvData (wire fs)]) fs [] /\
   Forall (fun env => leaves_alone 5 (se_acts env)) (replicate 5 ex_senv).
Proof.
  eexists. split; [vm_compute; reflexivity|]. cbv zeta. split; [vm_compute; reflexivity|].
  split; [repeat (apply Forall_cons_2); try (apply Forall_nil_2); unfold honest_client, frame_ok, tid_ok, all_bytes, is_byte;
          repeat split; try done; repeat constructor|].
  split; [by apply Forall_replicate|]. split.
  - split; [|split; [repeat constructor|vm_compute; reflexivity]].
    split; [done|]. split; [|vm_compute; done]. apply Forall_singleton. vm_compute. done.
  - apply Forall_replicate. apply Forall_singleton. done.
Qed.
Example C16_nonvacuous : server_frame ex_cenv (mkCstate 0 5 false (Some ex_svcs) ∅) (FSignal PingSignal) /\
  snd (cli_effect ex_cenv (mkCstate 0 5 false (Some ex_svcs) ∅) (FSignal PingSignal)) = [CPong; CSendClose].
Proof. split; [|vm_compute; reflexivity]. split; [done|]. split; [done|]. left. split; [done|]. left. done. Qed.
(* a client that misses four answers gives up; with an answer it does not *)
Example C21_nonvacuous :
  fst (s_run (cli_loop (replicate 9 ex_cenv) (mkCstate 0 0 false None ∅)) (replicate 4 (E ETimeout))) =
    (CStopped CsPings, [CPing; CPing; CPing; CPing]) /\
  (match fst (fst (s_run (cli_loop (replicate 5 ex_cenv) (mkCstate 0 0 false None ∅))
    (replicate 3 (E ETimeout) ++ map B (enc_frame (FSignal PingSignal)) ++ [E ETimeout]))) with
   | CRunning st => cPings st | _ => 9%Z end) = 3%Z.
Proof. split; vm_compute; reflexivity. Qed.
Example C20_nonvacuous :
  fst (s_run (cli_loop (replicate 3 ex_cenv) (mkCstate 0 0 false None {[ 4 := None ]}))
    (map B (wire [FSignal CloseSignal; FData 4 [9]; FSignal CloseSignal]))) =
    (CStopped CsClosed, [CCloseRecv; CDeliver 4 [9]; CCloseRecv]) /\
  fst (s_run (srv_loop true (replicate 3 ex_senv) (mkSstate false {[ 4 := None ]}))
    (map B (wire [FSignal CloseSignal; FData 4 [9]; FSignal CloseSignal]))) =
    (SStopped StClosed, [SRemoveTunnel; SSendClose; SDeliver 4 [9]]).
Proof. split; vm_compute; reflexivity. Qed.

Print Assumptions C12_visitor_to_service.
Print Assumptions C12_visitor_to_service_prefix.
Print Assumptions C13_service_to_visitor_partial.
Print Assumptions C13_service_to_visitor_prefix_partial.
Print Assumptions C14_server_in_sync.
Print Assumptions C14_client_in_sync.
Print Assumptions C15_zero_frame_panics_refuted.
Print Assumptions C15_only_zero_frames_partial.
Print Assumptions C15_no_panic_without_timeout_partial.
Print Assumptions C16_signals_in_sync_partial.
Print Assumptions C16_close_in_sync.
Print Assumptions C16_reconnect_refuted.
Print Assumptions C17_routed_to_index.
Print Assumptions C17_out_of_range.
Print Assumptions C20_server_close.
Print Assumptions C20_server_drains.
Print Assumptions C20_client_close.
Print Assumptions C20_client_keeps_tasks.
Print Assumptions C21_dead_server.
Print Assumptions C21_gives_up.
Print Assumptions C47_frame_before_ready_refuted.
