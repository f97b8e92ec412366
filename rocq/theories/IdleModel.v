(* IdleModel.v -- client/idle.go: the pool of tunnel connections of a client *)
From Verif Require Import GoBase.
Local Open Scope N_scope.

(* client/idle.go 23-28 *)
Inductive status := Running | Idle | Waiting | Connecting.
#[global] Instance status_eq_dec : EqDecision status.
Proof. solve_decision. Defined.
Notation pool := (gmap N status).
Definition idle_count (m : pool) : N := N.of_nat (size (filter (fun kv : N * status => snd kv = Idle) m)).

(* client/client.go 501-505: the minimum, from RemoteIdleConnections and RemoteConnections *)
Definition norm_min (remoteIdle remoteConns : N) : N := if remoteIdle <? 1 then 1 else if remoteConns <? remoteIdle then remoteConns else remoteIdle.

(* Each of these runs under statusMtx. *)
(* 66-84 [Init]: true = do not connect *)
Definition init_conn (min id : N) (m : pool) : bool * pool :=
  let m := <[id := Connecting]> m in
  if idle_count m <? min then (false, m) else (true, <[id := Waiting]> m).
(* 86-103 [ChangeToWait] *)
Definition change_to_wait (min id : N) (m : pool) : bool * pool :=
  if idle_count m <=? min then (false, m) else (true, <[id := Waiting]> m).
(* 147-164 [SetRunningWithTaskCount], the critical section 159-163 (the broadcast is in the step relation below); a missing
   entry of the map reads as running, the zero Status *)
Definition set_running (id : N) (m : pool) : pool := if decide (default Running (m !! id) = Running) then m else <[id := Running]> m.
Definition set_idle (id : N) (m : pool) : pool := <[id := Idle]> m.                 (* 166-170 *)
Definition set_wait (id : N) (m : pool) : pool := <[id := Waiting]> m.              (* 172-176 *)
(* 184-193: is another connection idle *)
Definition other_idle (id : N) (m : pool) : bool := existsb (fun kv : N * status => negb (fst kv =? id) && bool_decide (snd kv = Idle)) (map_to_list m).

(* ---- WaitIdle (178-202) and Close (204-207) with the mutex and the condition variable.  sync.Cond.Wait adds the caller to
   the list of waiters, then unlocks the mutex, sleeps, and locks the mutex again; Broadcast wakes those on the list and
   does not take the mutex. *)
Inductive wpc :=
  | WOut            (* not in WaitIdle, or returned *)
  | WWant           (* at 179, or woken in Wait: wants the mutex *)
  | WLoad           (* 182: has the mutex, before m.close.Load() *)
  | WScan           (* 183: the load gave false *)
  | WReg            (* 195: before Wait *)
  | WSleep.         (* in Wait, on the list *)
#[global] Instance wpc_eq_dec : EqDecision wpc.
Proof. solve_decision. Defined.
Inductive cphase := CNot | CStored | CDone.       (* Close: before 205, between 205 and 206, after 206 *)
Record ist := mkIst { iPool : pool; iHolder : option N; iPc : N -> wpc; iClose : cphase }.
Definition set_pc (f : N -> wpc) (i : N) (p : wpc) : N -> wpc := fun j => if decide (j = i) then p else f j.
Definition wake (f : N -> wpc) : N -> wpc := fun j => match f j with WSleep => WWant | p => p end.
Definition ist0 (m : pool) : ist := mkIst m None (fun _ => WOut) CNot.
Inductive istep : ist -> ist -> Prop :=
| is_call m h f c i : f i = WOut -> istep (mkIst m h f c) (mkIst m h (set_pc f i WWant) c)
| is_lock m f c i : f i = WWant -> istep (mkIst m None f c) (mkIst m (Some i) (set_pc f i WLoad) c)
| is_load_closed m h f c i : f i = WLoad -> c <> CNot -> istep (mkIst m h f c) (mkIst m None (set_pc f i WOut) c)
| is_load_open m h f i : f i = WLoad -> istep (mkIst m h f CNot) (mkIst m h (set_pc f i WScan) CNot)
| is_scan_busy m h f c i : f i = WScan -> other_idle i m = true -> istep (mkIst m h f c) (mkIst (<[i := Waiting]> m) h (set_pc f i WReg) c)
| is_scan_free m h f c i : f i = WScan -> other_idle i m = false -> istep (mkIst m h f c) (mkIst (<[i := Connecting]> m) None (set_pc f i WOut) c)
| is_wait m h f c i : f i = WReg -> istep (mkIst m h f c) (mkIst m None (set_pc f i WSleep) c)
(* the other methods: any change of the statuses while nobody has the mutex *)
| is_status m f c m' : istep (mkIst m None f c) (mkIst m' None f c)
(* 151-153 *)
| is_broadcast m h f c : istep (mkIst m h f c) (mkIst m h (wake f) c)
| is_store m h f : istep (mkIst m h f CNot) (mkIst m h f CStored)
| is_close_broadcast m h f : istep (mkIst m h f CStored) (mkIst m h (wake f) CDone).
