(* WaitModel.v -- client/client.go 709-748: addTunnel, removeTunnel, WaitUntilReady, with the read-write mutex, the condition
   variable (on the read side of the mutex: client.go 102) and the timers. *)
From Verif Require Import GoBase.
Local Open Scope N_scope.

(* one call of WaitUntilReady.  QIn: has the read lock, the timer is set, before the test 735; QReg: the test found no
   tunnel, before 736 (still with the read lock); QSleep: on the list of the condition variable, lock released; QWoken: off
   the list, wants the read lock; QDone: returned *)
Inductive qpc := QIn | QReg | QSleep | QWoken | QDone.
#[global] Instance qpc_eq_dec : EqDecision qpc. Proof. solve_decision. Defined.
Definition holds_rlock (p : qpc) : bool := match p with QIn | QReg => true | _ => false end.

(* who is about to call Broadcast: the readLoop of a tunnel that has added it (713 done, 714 not), the timer function of a
   call (731 done, 732 not) *)
Inductive qsrc := QAdder (t : N) | QTimer (w : N).
#[global] Instance qsrc_eq_dec : EqDecision qsrc. Proof. solve_decision. Defined.

Record qst := mkQ { qTun : gset N; qCalls : gmap N qpc; qFired : gset N; qPend : list qsrc }.
Definition qst0 : qst := mkQ ∅ ∅ ∅ [].

Inductive qevt :=
  | VCall (w : N)             (* WaitUntilReady is called; w names the call *)
  | VFire (w : N)             (* its timeout has passed: the timer function has run line 731 *)
  | VAdd (t : N)              (* tunnel t is ready: addTunnel has put it into the set *)
  | VRemove (t : N)           (* tunnel t is taken out of the set *)
  | VRet (w : N) (ok : bool)  (* the call returns nil (ok) or errTimeout *)
  | VTau.

(* Broadcast: everybody on the list is taken off it; it does not take the mutex *)
Definition qwake (p : qpc) : qpc := match p with QSleep => QWoken | p => p end.
(* nobody has the read lock *)
Definition no_reader (m : gmap N qpc) : Prop := map_Forall (fun _ p => holds_rlock p = false) m.

Inductive qstep : qst -> list qevt -> qst -> Prop :=
  (* 727-733; the write lock is only held inside q_add and q_remove, which are single steps here *)
  | q_call tun cs fd pd w : cs !! w = None -> qstep (mkQ tun cs fd pd) [VCall w] (mkQ tun (<[w := QIn]> cs) fd pd)
  (* 735, 747 *)
  | q_there tun cs fd pd w : cs !! w = Some QIn -> tun <> ∅ -> qstep (mkQ tun cs fd pd) [VRet w true] (mkQ tun (<[w := QDone]> cs) fd pd)
  | q_test tun cs fd pd w : cs !! w = Some QIn -> tun = ∅ -> qstep (mkQ tun cs fd pd) [VTau] (mkQ tun (<[w := QReg]> cs) fd pd)
  (* 736: Wait puts the caller on the list, then unlocks *)
  | q_sleep tun cs fd pd w : cs !! w = Some QReg -> qstep (mkQ tun cs fd pd) [VTau] (mkQ tun (<[w := QSleep]> cs) fd pd)
  (* the end of Wait (read lock), 737-744: e is this call's own variable.  The lock is free whenever no q_add or q_remove is
     in progress. *)
  | q_return tun cs fd pd w : cs !! w = Some QWoken ->
      qstep (mkQ tun cs fd pd) [VRet w (bool_decide (w ∉ fd))] (mkQ tun (<[w := QDone]> cs) fd pd)
  (* 730-731: at any time after the call; Stop (734) prevents it after the return *)
  | q_fire tun cs fd pd w p : cs !! w = Some p -> p <> QDone -> w ∉ fd ->
      qstep (mkQ tun cs fd pd) [VFire w] (mkQ tun cs ({[ w ]} ∪ fd) (QTimer w :: pd))
  (* 714, 732 *)
  | q_broadcast tun cs fd pd1 pd2 x : qstep (mkQ tun cs fd (pd1 ++ x :: pd2)) [VTau] (mkQ tun (qwake <$> cs) fd (pd1 ++ pd2))
  (* 710-713 *)
  | q_add tun cs fd pd t : no_reader cs -> t ∉ tun -> qstep (mkQ tun cs fd pd) [VAdd t] (mkQ ({[ t ]} ∪ tun) cs fd (QAdder t :: pd))
  (* 717-721; conn.go 174-176: the same goroutine as the addTunnel of t, so 714 is done *)
  | q_remove tun cs fd pd t : no_reader cs -> t ∈ tun -> QAdder t ∉ pd -> qstep (mkQ tun cs fd pd) [VRemove t] (mkQ (tun ∖ {[ t ]}) cs fd pd).

Inductive qexec : qst -> list qevt -> qst -> Prop :=
  | qx_nil s : qexec s [] s
  | qx_snoc s tr s1 l s2 : qexec s tr s1 -> qstep s1 l s2 -> qexec s (tr ++ l) s2.
