(* StopModel.v -- stopping a client while peer-to-peer visitors arrive: client/client.go 571-630 (Close, Shutdown), 649-707 (connect, connectLoop), client/conn.go 169-197 and
   298-318 (readLoop up to processServiceData), 389-405, 508-531 (processP2P), client/api/listener.go 22-51 (the listener of the client's own HTTP server: a channel with
   room for one), client/api/server.go 54-62 (Start) and net/http's Server.Serve and Server.Close, which closes the listener.

   A send on a closed channel is a panic; no goroutine here recovers, so the process ends.  Left out: the other frames; the services' tasks; the lock on the peers. *)
From Verif Require Import GoBase.
Local Open Scope N_scope.

(* where a connectLoop is: between connections (client.go 699-707); with a connection, [open] until Close closes it, whose readLoop is
   PTop: before SetReadDeadline (conn.go 192-197); PRead: after it, before the frame is read; PFrame: it has a first frame that begins with "XP", before newPeerTask;
   PSend: before the send (524); PPump: in WriteTo (527); or it has ended *)
Inductive rpc := PTop | PRead | PFrame | PSend | PPump.
Inductive lpc := LOut | LIn (open : bool) (p : rpc) | LDone.
(* Close (force) or Shutdown: not called; closing is set; the tunnels are closed / told; the API server is closed *)
Inductive kpc := KNot | KCalled (force : bool) | KTold (force : bool) | KApi (force : bool).
Record st := mkSt {
  pLoops : gmap N lpc;
  pCloser : kpc;
  pQueue : list N;          (* the listener's channel: which visitors' connections are in it *)
  pShut : bool;             (* the channel is closed *)
  pSent : list N; pAccepted : list N;   (* all that were put into it, and all that Accept has returned *)
  pNext : N;                (* numbers the visitors *)
  pPanic : bool }.
Definition st0 (loops : gset N) : st := mkSt (gset_to_gmap LOut loops) KNot [] false [] [] 0 false.
Definition closing (s : st) : bool := match pCloser s with KNot => false | _ => true end.
Inductive ev :=
  | EConnect (i : N) | ELoopEnd (i : N)
  | EDeadline (i : N)       (* SetReadDeadline *)
  | EVisitor (i : N)        (* a peer-to-peer visitor's first frame is read *)
  | EOther (i : N)          (* another frame, or this visitor is refused (403) *)
  | ETask (i : N)           (* newPeerTask / newPeerProcTask *)
  | ESend (i : N)
  | EPumped (i : N)
  | EBroken (i : N)         (* readLoop ends: the connection is broken or closed *)
  | EAccept
  | ECall (force : bool) | ETell | EApi.
Definition at_ (s : st) (i : N) (l : lpc) : st := mkSt (<[i := l]> (pLoops s)) (pCloser s) (pQueue s) (pShut s) (pSent s) (pAccepted s) (pNext s) (pPanic s).
Definition all_done (m : gmap N lpc) : bool := bool_decide (map_Forall (fun _ l => match l with LDone => true | _ => false end = true) m).
(* client.go 577-580: the connections that have a readLoop are closed *)
Definition shut_all (m : gmap N lpc) : gmap N lpc := (fun l => match l with LIn _ p => LIn false p | l => l end) <$> m.
(* timeout: remoteTimeout > 0 (45 s unless configured): SetReadDeadline on a closed connection is an error; otherwise what is buffered is still read *)
Definition step (timeout : bool) (s : st) (e : ev) : option st :=
  if pPanic s then None else
  match e with
  | EConnect i => match pLoops s !! i with Some LOut => Some (at_ s i (LIn true PTop)) | _ => None end
  | ELoopEnd i => match pLoops s !! i with Some LOut => if closing s then Some (at_ s i LDone) else None | _ => None end
  | EDeadline i => match pLoops s !! i with
                   | Some (LIn open PTop) => if timeout && negb open then Some (at_ s i LOut) else Some (at_ s i (LIn open PRead))
                   | _ => None end
  | EVisitor i => match pLoops s !! i with Some (LIn open PRead) => Some (at_ s i (LIn open PFrame)) | _ => None end
  | EOther i => match pLoops s !! i with Some (LIn open PRead) | Some (LIn open PFrame) => Some (at_ s i (LIn open PTop)) | _ => None end
  | ETask i => match pLoops s !! i with Some (LIn open PFrame) => Some (at_ s i (LIn open PSend)) | _ => None end
  | ESend i => match pLoops s !! i with
               | Some (LIn open PSend) =>
                   if pShut s then Some (mkSt (pLoops s) (pCloser s) (pQueue s) true (pSent s) (pAccepted s) (pNext s) true)
                   else match pQueue s with
                        | [] => Some (mkSt (<[i := LIn open PPump]> (pLoops s)) (pCloser s) [pNext s] false (pSent s ++ [pNext s]) (pAccepted s) (pNext s + 1) false)
                        | _ => None
                        end
               | _ => None end
  | EPumped i => match pLoops s !! i with Some (LIn open PPump) => Some (at_ s i (LIn open PTop)) | _ => None end
  | EBroken i => match pLoops s !! i with Some (LIn open PRead) => Some (at_ s i LOut) | _ => None end
  | EAccept => match pQueue s with c :: q => Some (mkSt (pLoops s) (pCloser s) q (pShut s) (pSent s) (pAccepted s ++ [c]) (pNext s) false) | [] => None end
  | ECall force => match pCloser s with KNot => Some (mkSt (pLoops s) (KCalled force) (pQueue s) (pShut s) (pSent s) (pAccepted s) (pNext s) false) | _ => None end   (* 572, 604 *)
  | ETell => match pCloser s with
             | KCalled force => Some (mkSt (if force then shut_all (pLoops s) else pLoops s) (KTold force) (pQueue s) (pShut s) (pSent s) (pAccepted s) (pNext s) false)
             | _ => None end
  | EApi => match pCloser s with
            | KTold force => if force || all_done (pLoops s)      (* Shutdown waits for the loops first: 622 *)
                             then Some (mkSt (pLoops s) (KApi force) (pQueue s) true (pSent s) (pAccepted s) (pNext s) false) else None
            | _ => None end
  end.
Fixpoint exec (timeout : bool) (s : st) (tr : list ev) : option st := match tr with [] => Some s | e :: tr => s' ← step timeout s e; exec timeout s' tr end.
