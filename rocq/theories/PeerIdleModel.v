(* PeerIdleModel.v -- when the process that serves a peer-to-peer visitor gives up: bin/src/peer/conn.rs 133-134 (the timeout),
   163-169 (a channel opens), 189-225 (a channel is served to its end), 352-385 (the loop with its timer); client/peerproc.go 125
   (the timeout it is given).  The process has one thread (mod.rs 35), so that the callback of a channel, the end of its service and
   one round of the loop are steps; that the timer may fire late is not excluded.  usize is not bounded. *)
From Verif Require Import GoBase.
Local Open Scope N_scope.

(* peerproc.go 125: whole seconds, as uint16; conn.rs 134 *)
Definition sent_timeout (ns : N) : N := u16 (ns / 1000000000).
Definition peer_timeout (ns : N) : N := N.max (sent_timeout ns) 5.

Inductive pev :=
  | POpen        (* the visitor opens a data channel (165-166) *)
  | PDone        (* its service has ended (216-224) *)
  | PMsg         (* a message for the process has been read (358-360) *)
  | PFire        (* the timer (372-384) *)
  | PEnd         (* the peer connection has failed or was closed, or a message could not be read (361-371, 359) *)
  | PTick.       (* a second passes *)
Inductive pend := NoChannel | Other.
Record pst := mkPst { pCount : N;     (* channel_count *)
                      pNid : N;       (* no_channel_id of the handler *)
                      pSeen : N;      (* no_channel_id of the loop *)
                      pNow : N; pStart : N;   (* the time, and when the timer was set (354) *)
                      pEnded : option pend }.
Definition pst0 : pst := mkPst 0 0 0 0 0 None.
Definition pstep (T : N) (s : pst) (e : pev) : option pst :=
  match pEnded s with
  | Some _ => None
  | None =>
    match e with
    | POpen => Some (mkPst (pCount s + 1) (pNid s) (pSeen s) (pNow s) (pStart s) None)
    | PDone => if pCount s =? 0 then None
               else Some (mkPst (pCount s - 1) (if pCount s =? 1 then pNid s + 1 else pNid s) (pSeen s) (pNow s) (pStart s) None)
    | PMsg => Some (mkPst (pCount s) (pNid s) (pSeen s) (pNow s) (pNow s) None)
    | PFire => if pNow s <? pStart s + T then None
               else if pCount s =? 0 then
                 if pSeen s =? pNid s then Some (mkPst (pCount s) (pNid s) (pSeen s) (pNow s) (pNow s) (Some NoChannel))
                 else Some (mkPst (pCount s) (pNid s) (pNid s) (pNow s) (pNow s) None)
               else Some (mkPst (pCount s) (pNid s) (pSeen s) (pNow s) (pNow s) None)
    | PEnd => Some (mkPst (pCount s) (pNid s) (pSeen s) (pNow s) (pStart s) (Some Other))
    | PTick => Some (mkPst (pCount s) (pNid s) (pSeen s) (pNow s + 1) (pStart s) None)
    end
  end.
Definition prun (T : N) (tr : list pev) : option pst := fold_left (fun o e => o ≫= fun s => pstep T s e) tr (Some pst0).
