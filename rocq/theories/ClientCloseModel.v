(* ClientCloseModel.v -- how a client stops: client/client.go 571-630 (Close, Shutdown), 632-707 (initConn, connect,
   connectLoop), 709-724 (addTunnel, removeTunnel), client/conn.go 150-180, 243-248 (Close, the end of readLoop, ReadySignal).
   Left out: the peers, the API server, the TCP forward listener and the logger that Close and Shutdown close as well; that
   WaitIdle may miss its wake-up (that is C36); Start's "go connectLoop" before "Add(1)" (514-520): all loops are started. *)
From Verif Require Import GoBase.
Local Open Scope N_scope.

(* a connectLoop goroutine.  LTop: before 703; LGo: before 659; LDial: in initConn (663); LTun: in readLoop (667) of tunnel
   t -- ready: it has read ReadySignal and is in c.tunnels; closed: its connection was closed by Close; told: a close signal
   was sent on it; LAfter: before 677; LSlept: before 681; LIdle: in WaitIdle (684); LRemote: 686-697; LEnd: 707 done *)
Inductive lpc :=
  | LTop | LGo | LDial
  | LTun (t : N) (ready closed : bool)
  | LAfter | LSlept | LIdle | LRemote | LEnd.
#[global] Instance lpc_eq_dec : EqDecision lpc. Proof. solve_decision. Defined.

(* the goroutine that calls Close (force = true) or Shutdown (force = false): not called; 572/607 done; the loop over
   c.tunnels done; the idle manager closed; returned *)
Inductive kpc := KNot | KCalled (force : bool) | KTold (force : bool) | KIdle (force : bool) | KRet (force : bool).

Record kst := mkK { kLoops : gmap N lpc; kClosing : bool; kIdleClosed : bool; kCloser : kpc; kSeen : gset N }.
(* 512-521: the connect loops [ids] are running *)
Definition kst0 (ids : gset N) : kst := mkK (gset_to_gmap LTop ids) false false KNot ∅.

Inductive kevt :=
  | EDial (i : N)              (* loop i begins to connect to the server *)
  | EOpen (t : N)              (* the handshake is sent: tunnel t exists *)
  | EReady (t : N)             (* the server has accepted it *)
  | EServe (t : N)             (* data of a visitor arrives on t and is handed to the local service *)
  | ESignal (t : N)            (* a close signal is sent to the server on t *)
  | EClosed (t : N)            (* the connection of t is closed by Close *)
  | EEnd (t : N) (self : bool) (* the readLoop of t ends: its connection was closed by Close (self), or the server or the network ended it *)
  | ECall (force : bool) | ERet (force : bool)
  | ETau.

(* 577-580 / 612-614: what the loop over c.tunnels does to one tunnel *)
Definition tell (force : bool) (p : lpc) : lpc := match p with LTun t true c => LTun t true (c || force) | p => p end.
Definition tell_events (force : bool) (p : lpc) : list kevt :=
  match p with LTun t true _ => ESignal t :: (if force then [EClosed t] else []) | _ => [] end.
Definition is_end (p : lpc) : bool := match p with LEnd => true | _ => false end.

Inductive kstep : kst -> list kevt -> kst -> Prop :=
  | k_top L cl ic k sn i : L !! i = Some LTop -> kstep (mkK L cl ic k sn) [ETau] (mkK (<[i := if cl then LEnd else LGo]> L) cl ic k sn)
  (* 658-663; which of the two is up to the idle manager *)
  | k_connect L cl ic k sn i : L !! i = Some LGo -> kstep (mkK L cl ic k sn) [EDial i] (mkK (<[i := LDial]> L) cl ic k sn)
  | k_wait L cl ic k sn i : L !! i = Some LGo -> kstep (mkK L cl ic k sn) [ETau] (mkK (<[i := LAfter]> L) cl ic k sn)
  (* 664-672 *)
  | k_dialed L cl ic k sn i t : L !! i = Some LDial -> t ∉ sn ->
      kstep (mkK L cl ic k sn) [EOpen t] (mkK (<[i := LTun t false false]> L) cl ic k ({[ t ]} ∪ sn))
  | k_dial_fails L cl ic k sn i : L !! i = Some LDial -> kstep (mkK L cl ic k sn) [ETau] (mkK (<[i := LAfter]> L) cl ic k sn)
  (* conn.go 245-248; tunnelsRWMtx is free, since the loop over c.tunnels is a single step here *)
  | k_ready L cl ic k sn i t c : L !! i = Some (LTun t false c) ->
      kstep (mkK L cl ic k sn) [EReady t] (mkK (<[i := LTun t true c]> L) cl ic k sn)
  | k_serve L cl ic k sn i t r : L !! i = Some (LTun t r false) -> kstep (mkK L cl ic k sn) [EServe t] (mkK L cl ic k sn)
  (* conn.go 174-181 *)
  | k_end L cl ic k sn i t r c : L !! i = Some (LTun t r c) -> kstep (mkK L cl ic k sn) [EEnd t c] (mkK (<[i := LAfter]> L) cl ic k sn)
  (* 676-683 *)
  | k_after L cl ic k sn i : L !! i = Some LAfter -> kstep (mkK L cl ic k sn) [ETau] (mkK (<[i := if cl then LEnd else LSlept]> L) cl ic k sn)
  | k_slept L cl ic k sn i : L !! i = Some LSlept -> kstep (mkK L cl ic k sn) [ETau] (mkK (<[i := if cl then LEnd else LIdle]> L) cl ic k sn)
  | k_idle L cl ic k sn i : L !! i = Some LIdle -> kstep (mkK L cl ic k sn) [ETau] (mkK (<[i := LRemote]> L) cl ic k sn)
  (* 686-698 *)
  | k_remote L cl ic k sn i : L !! i = Some LRemote -> kstep (mkK L cl ic k sn) [ETau] (mkK (<[i := LTop]> L) cl ic k sn)
  | k_remote_closing L ic k sn i : L !! i = Some LRemote -> kstep (mkK L true ic k sn) [ETau] (mkK (<[i := LEnd]> L) true ic k sn)
  (* 572-574 / 607-609 *)
  | k_call L ic sn f : kstep (mkK L false ic KNot sn) [ECall f] (mkK L true ic (KCalled f) sn)
  (* 576-581 / 611-615 *)
  | k_tell L cl ic sn f : kstep (mkK L cl ic (KCalled f) sn) (ETau :: concat (tell_events f <$> (map_to_list L).*2)) (mkK (tell f <$> L) cl ic (KTold f) sn)
  (* 587-589 / 622-624 *)
  | k_idle_close L cl ic sn f : kstep (mkK L cl ic (KTold f) sn) [ETau] (mkK L cl true (KIdle f) sn)
  (* 594 *)
  | k_close_returns L cl ic sn : kstep (mkK L cl ic (KIdle true) sn) [ERet true] (mkK L cl ic (KRet true) sn)
  (* 625: waitTunnelsShutdown is zero when every loop has executed 706 *)
  | k_shutdown_returns L cl ic sn : map_Forall (fun _ p => is_end p = true) L ->
      kstep (mkK L cl ic (KIdle false) sn) [ERet false] (mkK L cl ic (KRet false) sn).

Inductive kexec : kst -> list kevt -> kst -> Prop :=
  | kx_nil s : kexec s [] s
  | kx_snoc s tr s1 l s2 : kexec s tr s1 -> kstep s1 l s2 -> kexec s (tr ++ l) s2.
