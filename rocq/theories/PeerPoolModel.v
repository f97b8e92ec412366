(* PeerPoolModel.v -- the peer-to-peer tasks of a client: client/conn.go 533-614 (newPeerProcTask, newPeerTask), 460-480
   (processData), client/peer.go 152-190 and peerproc.go 180-232 (Close, CloseWithLock, closeWithLock), client/client.go
   582-586 (Close).  peersRWMtx is modelled as one exclusive lock.  The map is one for the whole client; the ids come from
   the servers, each with its own counter (server/client.go 79-83). *)
From Verif Require Import GoBase.
Local Open Scope N_scope.

(* a task: live; closing -- CloseWithLock has set pt.closing and wants the lock; closed *)
Inductive tphase := TLive | TClosing | TClosed.
#[global] Instance tphase_eq_dec : EqDecision tphase. Proof. solve_decision. Defined.

(* who has the lock across steps: nobody; the readLoop of a tunnel in newPeerTask, before the test of the limit (537) or
   before the look-up of the id (605); the same, inside ot.CloseWithLock() at line 176 -- which wants the lock *)
Inductive tholder := HNone | HCheck (id : N) | HLook (id : N) | HStuck (id : N).

Record ppool := mkPP { pPeers : gmap N N;              (* client.peers: id -> task *)
                       pTasks : gmap N (N * tphase);   (* all tasks ever made: task -> id, phase *)
                       pHolder : tholder }.
Definition ppool0 : ppool := mkPP ∅ ∅ HNone.

Inductive ppevt :=
  | PReq (id : N)                (* a peer-to-peer request arrives on a tunnel (first frame with id) *)
  | PAccept (id task : N)        (* a task is made for it *)
  | PForbid (id : N)             (* it is answered 403 *)
  | PClose (task : N)            (* the task is closed: timer, WebRTC state, end of its process, or another request with its id *)
  | PData (id : N) (task : option N)   (* a further data frame with this id arrives: the task it is given to *)
  | PCloseAll                    (* Client.Close or Shutdown has closed the peers *)
  | PPTau.

Definition closed_by_all (peers : gmap N N) (n : N) (x : N * tphase) : N * tphase :=
  match snd x with TLive => if bool_decide (peers !! fst x = Some n) then (fst x, TClosed) else x | _ => x end.

Definition closing (T : gmap N (N * tphase)) (n : N) : bool := match T !! n with Some (_, TClosing) => true | _ => false end.

Inductive ppstep (limit : N) : ppool -> list ppevt -> ppool -> Prop :=
  (* 534 / 574 *)
  | pp_req P T id : ppstep limit (mkPP P T HNone) [PReq id] (mkPP P T (HCheck id))
  (* 536-544 *)
  | pp_forbid P T id : limit <= N.of_nat (size P) -> ppstep limit (mkPP P T (HCheck id)) [PForbid id] (mkPP P T HNone)
  | pp_check P T id : N.of_nat (size P) < limit -> ppstep limit (mkPP P T (HCheck id)) [PPTau] (mkPP P T (HLook id))
  (* 605-613; CloseWithLock returns at once when the old task is closing already *)
  | pp_new P T id n : T !! n = None ->
      match P !! id with None => True | Some o => closing T o = true end ->
      ppstep limit (mkPP P T (HLook id)) [PAccept id n] (mkPP (<[id := n]> P) (<[n := (id, TLive)]> T) HNone)
  (* 607, peer.go 171-176: CloseWithLock of a live task locks the mutex that its caller has locked *)
  | pp_same P T id o x : P !! id = Some o -> T !! o = Some (x, TLive) ->
      ppstep limit (mkPP P T (HLook id)) [PClose o] (mkPP P (<[o := (x, TClosing)]> T) (HStuck id))
  (* CloseWithLock, from the timer, from WebRTC, from the end of the process *)
  | pp_close P T h o x : T !! o = Some (x, TLive) -> ppstep limit (mkPP P T h) [PClose o] (mkPP P (<[o := (x, TClosing)]> T) h)
  (* peer.go 176-178: the entry of the id is deleted, whoever it belongs to *)
  | pp_delete P T o x : T !! o = Some (x, TClosing) -> ppstep limit (mkPP P T HNone) [PPTau] (mkPP (delete x P) (<[o := (x, TClosed)]> T) HNone)
  (* conn.go 465-467 *)
  | pp_data P T id : ppstep limit (mkPP P T HNone) [PData id (P !! id)] (mkPP P T HNone)
  (* client.go 582-586: Close of every task in the map; it deletes the entry of a task that was live *)
  | pp_all P T : ppstep limit (mkPP P T HNone) [PCloseAll]
      (mkPP (filter (fun kv : N * N => closing T (snd kv) = true) P) (map_imap (fun n x => Some (closed_by_all P n x)) T) HNone).

Inductive ppexec (limit : N) : ppool -> list ppevt -> ppool -> Prop :=
  | ppx_nil s : ppexec limit s [] s
  | ppx_snoc s tr s1 l s2 : ppexec limit s tr s1 -> ppstep limit s1 l s2 -> ppexec limit s (tr ++ l) s2.
