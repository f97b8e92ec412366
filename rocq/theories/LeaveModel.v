(* LeaveModel.v -- how a server that is told to stop takes leave of its clients: server/server.go 647-673 (Close), 681-729 (Shutdown), server/client.go 319-341 (close, reconnect),
   269-286 (removeTunnel), 288-317 (getTunnel), conn/conn.go 40-57, 216-236 (the signals are Writes, with a deadline if the server's timeout is not 0: server/conn.go 63; over QUIC with -bbr there is none either,
   C81), server/conn.go 327-348 (a tunnel that ends is removed), 849-856 (a ping takes the client's lock).
   A Write to a connection whose peer does not read, and whose buffers are full, returns when there is room, at its deadline, or when the connection is closed.  What such a Write leaves
   of a signal on the connection is not modelled.  Left out: the listeners and counters (C43), TCP ports, clients and tunnels that are added meanwhile. *)
From Verif Require Import GoBase.
Local Open Scope nat_scope.

Record tun := mkT {
  tOwn : nat;      (* its client *)
  tFull : bool;    (* there is no room for a signal *)
  tDead : bool;    (* the connection is closed: a Write returns an error *)
  tIn : bool;      (* in its client's table of tunnels *)
  tTold : bool }.  (* a signal (reconnect or close) has been written *)
Inductive spc :=
  | SIdle
  | SRec (i : nat)                              (* Shutdown, server.go 702-707: client i is next *)
  | SRecW (i j : nat)                           (* reconnect, client.go 332-336: client i is locked, the signal is being written to tunnel j *)
  | SWait (k : nat)                             (* 708-721: k rounds are over *)
  | SCl (i : nat)                               (* 666-671, 722-727: client i is next *)
  | SClT (i : nat) (rest : list nat)            (* close, client.go 321-325: client i is locked, these tunnels are to be closed *)
  | SClW (i j : nat) (rest : list nat)          (* 323: the signal is being written to tunnel j *)
  | SDone.
Record sst := mkS { sTimed : bool; sN : nat; sTuns : list tun; sPc : spc }.    (* sTimed: Writes have a deadline *)
Inductive sev :=
  | XStop (graceful : bool)
  | XRec (j : option nat) | XWrote | XLate (j : nat) | XRound (served : bool) | XLock (order : list nat) | XNext
  | XFill (j : nat) | XDrain (j : nat) | XDie (j : nat)
  | XGone (j : nat)      (* the handler of a dead tunnel calls removeTunnel *)
  | XVisitor (i : nat)   (* a visitor for client i is given a tunnel: getTunnel *)
  | XPing (i : nat).     (* a ping of client i is answered, and what follows it on its tunnel is read *)
Definition upd (f : tun -> tun) (j : nat) (s : sst) : sst := mkS (sTimed s) (sN s) (alter f j (sTuns s)) (sPc s).
Definition go (pc : spc) (s : sst) : sst := mkS (sTimed s) (sN s) (sTuns s) pc.
(* the tunnels in client i's table *)
Definition table (s : sst) (i : nat) : list nat := filter (fun j => match sTuns s !! j with Some t => (tOwn t =? i) && tIn t | None => false end = true) (seq 0 (length (sTuns s))).
Definition locked (s : sst) : option nat := match sPc s with SRecW i _ | SClT i _ | SClW i _ _ => Some i | _ => None end.
Definition room (t : tun) : bool := tDead t || negb (tFull t).
Definition tell (t : tun) : tun := if tDead t then t else mkT (tOwn t) (tFull t) (tDead t) (tIn t) true.
Definition kill (t : tun) : tun := mkT (tOwn t) (tFull t) true (tIn t) (tTold t).
Definition rounds : nat := 40.
Definition same (a b : list nat) : Prop := NoDup a /\ Forall (fun j => j ∈ b) a /\ Forall (fun j => j ∈ a) b.
Global Instance same_dec a b : Decision (same a b). Proof. unfold same. apply _. Defined.
Definition sstep (s : sst) (e : sev) : option sst :=
  match e with
  | XStop g => match sPc s with SIdle => Some (go (if g then SRec 0 else SCl 0) s) | _ => None end
  (* 702-707; client.go 332-337: the first tunnel the map's iteration gives, any one *)
  | XRec o => match sPc s with
      | SRec i => if sN s <=? i then match o with None => Some (go (SWait 0) s) | Some _ => None end
                  else match o with Some j => if bool_decide (j ∈ table s i) then Some (go (SRecW i j) s) else None
                                  | None => if bool_decide (table s i = []) then Some (go (SRec (S i)) s) else None end
      | _ => None end
  (* the Write returns; client.go 323-324: then the tunnel is closed *)
  | XWrote => match sPc s with
      | SRecW i j => t ← sTuns s !! j; if room t then Some (go (SRec (S i)) (upd tell j s)) else None
      | SClW i j r => t ← sTuns s !! j; if room t then Some (go (SClT i r) (upd (fun t => kill (tell t)) j s)) else None
      | _ => None end
  (* the Write to tunnel j ends at its deadline; the error is ignored (conn.go 217-224, 227-236) *)
  | XLate j => match sPc s with
      | SRecW i k => if sTimed s && (j =? k) then t ← sTuns s !! j; if room t then None else Some (go (SRec (S i)) s) else None
      | SClW i k r => if sTimed s && (j =? k) then t ← sTuns s !! j; if room t then None else Some (go (SClT i r) (upd kill j s)) else None
      | _ => None end
  (* 708-721 *)
  | XRound ok => match sPc s with SWait k => Some (go (if ok || (rounds <=? S k) then SCl 0 else SWait (S k)) s) | _ => None end
  | XLock l => match sPc s with
      | SCl i => if sN s <=? i then (if bool_decide (l = []) then Some (go SDone s) else None) else if bool_decide (same l (table s i)) then Some (go (SClT i l) s) else None
      | _ => None end
  | XNext => match sPc s with SClT i (j :: r) => Some (go (SClW i j r) s) | SClT i [] => Some (go (SCl (S i)) s) | _ => None end
  | XFill j => Some (upd (fun t => mkT (tOwn t) true (tDead t) (tIn t) (tTold t)) j s)
  | XDrain j => Some (upd (fun t => mkT (tOwn t) false (tDead t) (tIn t) (tTold t)) j s)
  | XDie j => Some (upd kill j s)
  | XGone j => t ← sTuns s !! j; if tDead t && negb (bool_decide (locked s = Some (tOwn t))) then Some (upd (fun t => mkT (tOwn t) (tFull t) (tDead t) false (tTold t)) j s) else None
  | XVisitor i | XPing i => if bool_decide (locked s = Some i) then None else Some s
  end.
Fixpoint srun (s : sst) (tr : list sev) : option sst := match tr with [] => Some s | e :: tr => s' ← sstep s e; srun s' tr end.
(* the server's own steps *)
Definition mine (e : sev) : bool := match e with XStop _ | XRec _ | XWrote | XLate _ | XRound _ | XLock _ | XNext => true | _ => false end.
(* n clients, with these tunnels: the client of each, and whether it is stalled *)
Definition sst0 (timed : bool) (n : nat) (l : list (nat * bool)) : sst := mkS timed n ((fun x => mkT x.1 x.2 false true false) <$> l) SIdle.
Definition writing (s : sst) : option nat := match sPc s with SRecW _ j | SClW _ j _ => Some j | _ => None end.
