(* PlaceModel.v -- how long a peer-to-peer visitor keeps one of the client's places: client/conn.go 533-614 (the limit, the timer of two minutes), 365-373 (a close frame is looked up among the tasks only, not among the peers),
   client/peer.go 97-106 (a connection that is made stops the timer, one that fails or ends gives the place back), 168-186 (CloseWithLock), client/peerproc.go 118-120 (init stops the timer as soon as the process runs),
   91-107, 215-230 (the end of the process gives the place back).
   Simplified: identifiers of visitors are not used twice and the lock is held for one step (for both see PeerPoolModel); seconds; a timer acts before the second after its time is over;
   after a connection has been made the place ends with it (the idle timer of a connection is C75). *)
From Verif Require Import GoBase.
Local Open Scope N_scope.

Record place := mkP { pId : N; pBorn : N; pTimed : bool; pLeft : bool }.        (* pLeft: ghost, the visitor has left *)
Record plst := mkL { lLimit : nat; lProc : bool; lNow : N; lPl : list place; lTaken : list N; lRefused : list N }.   (* lProc: without -webrtcThread *)
Inductive plev := LVisit (id : N) | LLeave (id : N) | LStart (id : N) | LConn (id : N) | LGone (id : N) | LTimer (id : N) | LTick.
Definition minutes2 : N := 120.
Definition is (id : N) (p : place) : bool := pId p =? id.
Definition upd (f : place -> place) (id : N) (l : list place) : list place := map (fun p => if is id p then f p else p) l.
Definition drop_place (id : N) (l : list place) : list place := List.filter (fun p => negb (is id p)) l.
Definition set_pl (s : plst) (l : list place) : plst := mkL (lLimit s) (lProc s) (lNow s) l (lTaken s) (lRefused s).
Definition plstep (s : plst) (e : plev) : option plst :=
  match e with
  (* 536-544, 574-582: 403; otherwise the task is made and its timer started *)
  | LVisit id => if existsb (N.eqb id) (lTaken s ++ lRefused s) then None
                 else if (lLimit s <=? length (lPl s))%nat then Some (mkL (lLimit s) (lProc s) (lNow s) (lPl s) (lTaken s) (lRefused s ++ [id]))
                 else Some (mkL (lLimit s) (lProc s) (lNow s) (lPl s ++ [mkP id (lNow s) true false]) (lTaken s ++ [id]) (lRefused s))
  (* the server writes a close frame; the client does not find it among its tasks *)
  | LLeave id => Some (set_pl s (upd (fun p => mkP (pId p) (pBorn p) (pTimed p) true) id (lPl s)))
  (* init: the offer has arrived and the process runs *)
  | LStart id => Some (set_pl s (if lProc s then upd (fun p => mkP (pId p) (pBorn p) false (pLeft p)) id (lPl s) else lPl s))
  | LConn id => Some (set_pl s (upd (fun p => mkP (pId p) (pBorn p) false (pLeft p)) id (lPl s)))
  | LGone id => Some (set_pl s (drop_place id (lPl s)))
  | LTimer id => if existsb (fun p => is id p && pTimed p && (pBorn p + minutes2 <=? lNow s)) (lPl s) then Some (set_pl s (drop_place id (lPl s))) else None
  | LTick => if existsb (fun p => pTimed p && (pBorn p + minutes2 <=? lNow s)) (lPl s) then None else Some (mkL (lLimit s) (lProc s) (lNow s + 1) (lPl s) (lTaken s) (lRefused s))
  end.
Fixpoint plrun (s : plst) (tr : list plev) : option plst := match tr with [] => Some s | e :: tr => s' ← plstep s e; plrun s' tr end.
Definition plst0 (limit : nat) (proc : bool) : plst := mkL limit proc 0 [] [] [].
