(* ReconnModel.v -- how a client keeps its connections: client/client.go 631-707 (initConn, connect, connectLoop) with client/idle.go's
   statuses (IdleModel), client/task.go 246-270 (the statuses set by visitors' tasks) and conn/quicConn.go 32-47 (QuicDial panics).
   One loop for each connection; initMtx is a mutex, everything under statusMtx is one step; sync.Cond's wait and broadcast in WaitIdle are
   kept.  Simplified: the outcome of a dial and of the handshake is one choice; time is a counter; Close and Shutdown set closing and wake
   the waiting loops in one step (C36 and C54 look inside). *)
From Verif Require Import GoBase IdleModel.
Local Open Scope N_scope.

Inductive lpc :=
  | LTop                (* 700: before connect *)
  | LWant               (* 658: initMtx.Lock() *)
  | LDial               (* 662: has initMtx *)
  | LRead               (* 666: the connection is up *)
  | LAfter              (* 675 *)
  | LSleep (until : N)  (* 679 *)
  | LWait               (* 683 and each turn of WaitIdle's loop *)
  | LBlocked            (* in statusCond.Wait *)
  | LApi                (* 685 *)
  | LExit.              (* 704 *)
#[global] Instance lpc_dec : EqDecision lpc. Proof. solve_decision. Defined.
Record rconf := mkRC {
  rLoops : N;            (* loops 1 .. rLoops, 520-528 *)
  rMin : N;              (* idleManager.min *)
  rQuic : N -> bool;     (* the loop's dialer uses QUIC *)
  rDelay : N;            (* ReconnectDelay *)
  rApi : bool;           (* RemoteAPI is set *)
  rFirst : N -> N }.     (* the address of the loop's dialer when it is started *)
Record rst := mkR {
  rPc : N -> lpc;
  rMtx : option N;       (* who locked initMtx *)
  rPool : pool;
  rTasks : N -> N;       (* visitors on the loop's connection *)
  rOld : N -> N;         (* ended connections of the loop that still have visitors' tasks *)
  rLoopAddr : N -> N;    (* connectLoop's d *)
  rAddr : N -> N;        (* connect's own copy of d, 649 *)
  rNow : N;
  rClosing : bool;
  rDials : list (N * N * N) }.   (* newest first: loop, address, time *)
Definition loop_of (c : rconf) (i : N) : Prop := 1 <= i <= rLoops c.
#[global] Instance loop_of_dec c i : Decision (loop_of c i). Proof. unfold loop_of. apply _. Defined.
Definition r0 (c : rconf) : rst := mkR (fun i => if decide (loop_of c i) then LTop else LExit) None ∅ (fun _ => 0) (fun _ => 0) (rFirst c) (rFirst c) 0 false [].

Definition up {A} (f : N -> A) (i : N) (x : A) : N -> A := fun j => if decide (j = i) then x else f j.
Definition wake_all (f : N -> lpc) : N -> lpc := fun j => match f j with LBlocked => LWait | p => p end.
Definition set_rpc (s : rst) (i : N) (p : lpc) (m : option N) (q : pool) : rst :=
  mkR (up (rPc s) i p) m q (rTasks s) (rOld s) (rLoopAddr s) (rAddr s) (rNow s) (rClosing s) (rDials s).

Inductive outcome := DOk | DErr | DPanic.
Inductive rev :=
  | RTop (i : N) | RLock (i : N) | RDial (i : N) (o : outcome) | REnd (i : N) | RAfter (i : N) | RSleep (i : N) | RWait (i : N)
  | RApi (i : N) (a : option N)       (* the answer of the remote API, None: none *)
  | RStart (i : N) | RFinish (i : N)  (* a visitor's task on the connection *)
  | RLate (i : N)                     (* the last task of an ended connection *)
  | RToWait (i : N)                   (* conn.go 227 *)
  | RTick | RClose.

Definition rstep (c : rconf) (s : rst) (e : rev) : option rst :=
  match e with
  | RTop i => match rPc s i with
              | LTop => if rClosing s then Some (set_rpc s i LExit (rMtx s) (rPool s))
                        else Some (mkR (up (rPc s) i LWant) (rMtx s) (rPool s) (rTasks s) (rOld s) (rLoopAddr s) (up (rAddr s) i (rLoopAddr s i)) (rNow s) (rClosing s) (rDials s))
              | _ => None
              end
  (* 658-659, 671-674 *)
  | RLock i => match rPc s i, rMtx s with
               | LWant, None => match init_conn (rMin c) i (rPool s) with
                                | (true, q) => Some (set_rpc s i LAfter None q)
                                | (false, q) => Some (set_rpc s i LDial (Some i) q)
                                end
               | _, _ => None
               end
  (* 662-670; QuicDial panics, connect's deferred function recovers and connect returns false: initMtx stays locked *)
  | RDial i o => match rPc s i with
                 | LDial =>
                     let s' := mkR (rPc s) (rMtx s) (rPool s) (rTasks s) (rOld s) (rLoopAddr s) (rAddr s) (rNow s) (rClosing s) ((i, rAddr s i, rNow s) :: rDials s) in
                     match o with
                     | DOk => Some (set_rpc s' i LRead None (set_idle i (rPool s)))
                     | DErr => Some (set_rpc s' i LAfter None (rPool s))
                     | DPanic => if rQuic c i then Some (set_rpc s' i LTop (rMtx s) (rPool s)) else None
                     end
                 | _ => None
                 end
  (* readLoop returns *)
  | REnd i => match rPc s i with
              | LRead => Some (mkR (up (rPc s) i LAfter) (rMtx s) (rPool s) (up (rTasks s) i 0) (if 0 <? rTasks s i then up (rOld s) i (rOld s i + 1) else rOld s) (rLoopAddr s) (rAddr s) (rNow s) (rClosing s) (rDials s))
              | _ => None
              end
  (* 675-679 *)
  | RAfter i => match rPc s i with
                | LAfter => Some (set_rpc s i (if rClosing s then LExit else LSleep (rNow s + rDelay c)) (rMtx s) (set_wait i (rPool s)))
                | _ => None
                end
  (* 680-682 *)
  | RSleep i => match rPc s i with
                | LSleep t => if t <=? rNow s then Some (set_rpc s i (if rClosing s then LExit else LWait) (rMtx s) (rPool s)) else None
                | _ => None
                end
  (* idle.go 178-202 *)
  | RWait i => match rPc s i with
               | LWait => if rClosing s then Some (set_rpc s i LApi (rMtx s) (rPool s))
                          else if other_idle i (rPool s) then Some (set_rpc s i LBlocked (rMtx s) (<[i := Waiting]> (rPool s)))
                          else Some (set_rpc s i LApi (rMtx s) (<[i := Connecting]> (rPool s)))
               | _ => None
               end
  (* 685-696: d is connect's own copy *)
  | RApi i a => match rPc s i with
                | LApi => if rApi c then
                            if rClosing s then Some (set_rpc s i LExit (rMtx s) (rPool s))
                            else match a with
                                 | None => Some s
                                 | Some a => Some (mkR (up (rPc s) i LTop) (rMtx s) (rPool s) (rTasks s) (rOld s) (rLoopAddr s) (up (rAddr s) i a) (rNow s) (rClosing s) (rDials s))
                                 end
                          else match a with None => Some (set_rpc s i LTop (rMtx s) (rPool s)) | Some _ => None end
                | _ => None
                end
  (* task.go 246-247, idle.go 147-164: broadcast if it was running and has three tasks *)
  | RStart i => match rPc s i with
                | LRead => let f := if bool_decide (default Running (rPool s !! i) = Running) && (3 <=? rTasks s i + 1) then wake_all (rPc s) else rPc s in
                           Some (mkR f (rMtx s) (set_running i (rPool s)) (up (rTasks s) i (rTasks s i + 1)) (rOld s) (rLoopAddr s) (rAddr s) (rNow s) (rClosing s) (rDials s))
                | _ => None
                end
  (* task.go 264-265 *)
  | RFinish i => match rPc s i with
                 | LRead => if rTasks s i =? 0 then None
                            else Some (mkR (rPc s) (rMtx s) (if rTasks s i =? 1 then set_idle i (rPool s) else rPool s) (up (rTasks s) i (rTasks s i - 1)) (rOld s) (rLoopAddr s) (rAddr s) (rNow s) (rClosing s) (rDials s))
                 | _ => None
                 end
  | RLate i => if rOld s i =? 0 then None
               else Some (mkR (rPc s) (rMtx s) (set_idle i (rPool s)) (rTasks s) (up (rOld s) i (rOld s i - 1)) (rLoopAddr s) (rAddr s) (rNow s) (rClosing s) (rDials s))
  | RToWait i => match rPc s i with
                 | LRead => Some (mkR (rPc s) (rMtx s) (change_to_wait (rMin c) i (rPool s)).2 (rTasks s) (rOld s) (rLoopAddr s) (rAddr s) (rNow s) (rClosing s) (rDials s))
                 | _ => None
                 end
  | RTick => Some (mkR (rPc s) (rMtx s) (rPool s) (rTasks s) (rOld s) (rLoopAddr s) (rAddr s) (rNow s + 1) (rClosing s) (rDials s))
  | RClose => Some (mkR (wake_all (rPc s)) (rMtx s) (rPool s) (rTasks s) (rOld s) (rLoopAddr s) (rAddr s) (rNow s) true (rDials s))
  end.
Fixpoint rrun (c : rconf) (s : rst) (es : list rev) : option rst :=
  match es with [] => Some s | e :: es => s' ← rstep c s e; rrun c s' es end.
