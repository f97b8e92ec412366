(* FrameSpec.v -- what the multiplexed tunnel is supposed to do, frame by frame. *)
From Verif Require Import GoBase BufioModel HandshakeModel FrameModel.
Local Open Scope N_scope.

(* Task identifiers a peer may use (C10 shows the server only allocates such). *)
Definition tid_ok (t : N) : Prop := t < PreservedSignal.
Definition frame_ok (f : frame) : Prop :=
  match f with
  | FServices t si p => tid_ok t /\ si < 65536 /\ blen p < 4294967296
  | FData t p => tid_ok t /\ blen p < 4294967296
  | FClose t => tid_ok t
  | FSignal s => s < 4294967296
  | FError c => c < 65536
  | FErrorPort si => si < 65536
  | FInfoPort si port => si < 65536 /\ port < 65536
  end.
Definition frame_task (f : frame) : option N :=
  match f with FServices t _ _ | FData t _ | FClose t => Some t | _ => None end.
Definition wire (fs : list frame) : bytes := concat (map enc_frame fs).

(* the data a list of frames carries for task t *)
Definition payload (t : N) (f : frame) : bytes :=
  match f with
  | FServices t' _ p | FData t' p => if decide (t' = t) then p else []
  | _ => []
  end.
Definition payloads (t : N) (fs : list frame) : bytes := concat (map (payload t) fs).
(* the subsequence of the frames of task t *)
Definition frames_of (t : N) (fs : list frame) : list frame := filter (fun f => frame_task f = Some t) fs.

(* the bytes handed to the destination of task t *)
Definition s_delivered (t : N) (evs : list sevent) : bytes :=
  concat (map (fun e => match e with SDeliver t' p => if decide (t' = t) then p else [] | _ => [] end) evs).
Definition c_delivered (t : N) (evs : list cevent) : bytes :=
  concat (map (fun e => match e with CDeliver t' p => if decide (t' = t) then p else [] | _ => [] end) evs).

(* the bytes a source produces before its first error *)
Fixpoint src_bytes (s : list rdev) : bytes :=
  match s with EvData d :: s => d ++ src_bytes s | _ => [] end.

(* what a destination that accepts [w] takes of p, and what it accepts afterwards *)
Definition w_take (w : wcap) (p : bytes) : bytes := match w with None => p | Some k => ntake k p end.
Definition w_after (w : wcap) (p : bytes) : wcap := match w with None => None | Some k => Some (k - blen p) end.

(* Tasks other than t are not touched by an action list *)
Definition act_task (a : tact) : N := match a with TAdd t _ | TDel t | TCap t _ => t end.
Definition leaves_alone (t : N) (l : list tact) : Prop := Forall (fun a => act_task a <> t) l.

(* The effect of one frame on the server: which task gets what. *)
Definition srv_effect (env : senv) (st : sstate) (f : frame) : sstate * list sevent :=
  let m := acts (se_acts env) (sTasks st) in
  match f with
  | FData t p =>
      match m !! t with
      | None => (mkSstate (sClosing st) m, [])
      | Some w => (mkSstate (sClosing st) (<[t := w_after w p]> m), [SDeliver t (w_take w p)])
      end
  | FClose t =>
      match m !! t with
      | None => (mkSstate (sClosing st) m, [])
      | Some _ => (mkSstate (sClosing st) (<[t := Some 0]> m), [SCloseTask t])
      end
  | _ => (mkSstate (sClosing st) m, [SPong])
  end.

(* ---- client ---- *)
(* a first payload that asks for a peer-to-peer connection: "XP" *)
Definition is_p2p (p : bytes) : bool := match p with 88 :: 80 :: _ => true | _ => false end.

(* The effect of one frame on the client. *)
Definition cli_effect (env : cenv) (st : cstate) (f : frame) : cstate * list cevent :=
  let m := acts (ce_acts env) (cTasks st) in
  let busy m' := mkCstate (cPings st) 0 (cClosing st) (cSvcs st) m' in
  match f with
  | FServices t si p =>
      match cSvcs st with
      | None => (busy m, [])
      | Some svcs =>
          match nnth si svcs with
          | None => (busy m, [])
          | Some s =>
              if is_p2p p then
                match ce_stuns env, ce_newpeer env with
                | true, Some w => (busy m, [CPeer t (w_take w p)])
                | _, _ => (busy m, [CForbidden t])
                end
              else
                match ce_dial env s with
                | None => (busy m, [CDialFail t])
                | Some w => (busy (<[t := w_after w p]> m),
                             CNew t s :: (if decide (p = []) then [] else [CDeliver t (w_take w p)]))
                end
          end
      end
  | FData t p =>
      match m !! t with
      | Some w => (busy (<[t := w_after w p]> m), [CDeliver t (w_take w p)])
      | None =>
          match ce_peer env t with
          | Some w => (busy m, [if ce_stuns env then CPeer t (w_take w p) else CForbidden t])
          | None => (busy m, [])
          end
      end
  | FClose t =>
      match m !! t with
      | Some _ => (busy (<[t := Some 0]> m), [CCloseTask t])
      | None => (busy m, [])
      end
  | FSignal s =>
      if s =? PingSignal then
        (if 6 <=? cLastPing st + 1
         then (mkCstate (cPings st - 1) 0 (cClosing st) (cSvcs st) m, CPong :: if ce_wait env then [CSendClose] else [])
         else (mkCstate (cPings st - 1) (cLastPing st + 1) (cClosing st) (cSvcs st) m, [CPong]))
      else
        (mkCstate (cPings st) (cLastPing st) (cClosing st) (Some (ce_services env)) m,
         [if s =? ReadySignal then CReady else CServices])
  | FInfoPort si port => (mkCstate (cPings st) (cLastPing st) (cClosing st) (cSvcs st) m, [CPort si port])
  | _ => (st, [])
  end.

(* Frames an honest server sends on a running tunnel (error signals, close signals and the reconnect
   signal are treated separately). *)
Definition server_frame (env : cenv) (st : cstate) (f : frame) : Prop :=
  frame_ok f /\ (cPings st <= 3)%Z /\
  match f with
  | FServices t si p => blen p <> 1 /\ exists svcs, cSvcs st = Some svcs /\ si < u16 (blen svcs)
  | FData t p => True
  | FClose t => True
  | FSignal s => (s = PingSignal /\ (cClosing st = false \/ acts (ce_acts env) (cTasks st) <> ∅)) \/ s = ReadySignal \/ s = ServicesSignal
  | FInfoPort _ _ => True
  | _ => False
  end.

(* The only things that may happen to task t behind the loop's back: it ends or its connection fails. *)
Definition only_stops (t : N) (l : list tact) : Prop :=
  Forall (fun a => act_task a <> t \/ a = TDel t \/ a = TCap t (Some 0)) l.

(* What an honest server puts on a running tunnel whose services are [svcs]: data and close frames of any
   tasks, new visitors for existing services (their first payload is empty or at least 2 bytes long),
   pings, ready / services signals, opened ports.  (Error, close and reconnect signals apart.) *)
Definition honest_server (svcs : list service) (f : frame) : Prop :=
  frame_ok f /\
  match f with
  | FServices t si p => blen p <> 1 /\ si < u16 (blen svcs) /\ all_bytes p
  | FData t p => all_bytes p
  | FClose t => True
  | FSignal s => s = PingSignal \/ s = ReadySignal \/ s = ServicesSignal
  | FInfoPort _ _ => True
  | _ => False
  end.
(* A client tunnel that is up, with configuration [svcs], not closing and not missing its pings. *)
Definition client_up (svcs : list service) (envs : list cenv) (st : cstate) : Prop :=
  cSvcs st = Some svcs /\ cClosing st = false /\ (cPings st <= 3)%Z /\
  Forall (fun env => ce_services env = svcs) envs.

(* What an honest client puts on the tunnel: non-empty data, close frames, pings. *)
Definition honest_client (f : frame) : Prop :=
  frame_ok f /\
  match f with
  | FData t p => p <> [] /\ all_bytes p
  | FClose t => True
  | FSignal s => s = PingSignal
  | _ => False
  end.
(* The tunnel stays registered and the server's answers to pings can be written. *)
Definition server_up (envs : list senv) : Prop :=
  Forall (fun env => se_registered env = true /\ se_ping_ok env = true) envs.

(* What the destination of a task gets from the task's own frames, given how much it accepts. *)
Fixpoint task_view (x : option wcap) (fs : list frame) : bytes :=
  match fs with
  | [] => []
  | FData _ p :: fs =>
      match x with Some w => w_take w p ++ task_view (Some (w_after w p)) fs | None => task_view None fs end
  | FClose _ :: fs => task_view (match x with Some _ => Some (Some 0) | None => None end) fs
  | _ :: fs => task_view x fs
  end.
