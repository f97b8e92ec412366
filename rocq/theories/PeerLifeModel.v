(* PeerLifeModel.v -- the peer connection behind one peer-to-peer task with -webrtcThread: client/webrtc/peerconnection.go 157-213 (NewPeerConnection), 377-465
   (CreateOffer, CreateAnswer, SetRemoteDescription, SetLocalDescription and their callbacks), 468-500 (Get...Description, AddICECandidate), 538-547 (Close),
   client/peer.go 83-87 (OnNegotiationNeeded), 127-150 (init), 152-187 (Close, CloseWithLock), 239-338 (process), 380-413 (processOffer), 415-475 (getOffer),
   477-520 (processAnswer), client/conn.go 573-613 (newPeerTask).
   One message of a request is one event; how messages are cut out of the stream is PeerModel, how the response is written AnswerModel.  CloseWithLock is one
   event.  A request is handled by the goroutine of its HTTP connection; requests on the connection of the task itself are those of visitor 0, and
   processAnswer lets any other visitor's request act on the task by naming its id, as long as the task is in the client's table.
   A call of C code with a null pointer or with a freed object ends the process (in C anything may happen), and so does a Go panic in a callback, which
   nobody recovers.  Panics in a handler are recovered (process 247-251, net/http). *)
From Verif Require Import GoBase.
Local Open Scope N_scope.

Inductive callk := KSetRemote | KSetLocal | KOffer | KAnswer.        (* one result channel each, of capacity 1 *)
#[global] Instance callk_dec : EqDecision callk. Proof. solve_decision. Defined.
(* what a handler has still to do: NewPeerConnection; a call that answers at once; one that is answered by a callback; wait for the negotiation event *)
Inductive act := AInit | ASync | AAsync (k : callk) | ANeg.
(* process 301-321 with processOffer's function; getOffer; processAnswer's function *)
Definition prog_offer : list act := [AInit; AAsync KSetRemote; AAsync KAnswer; AAsync KSetLocal; ASync].
Definition prog_get : list act := [AInit; ASync; ASync; ANeg; AAsync KOffer; AAsync KSetLocal; ASync].
Definition prog_answer : list act := [AAsync KSetRemote].
Definition prog_candidate : list act := [ASync].

Record pconn := mkC {
  cPtr : bool;                              (* the C object has been made and its pointer stored *)
  cDel : nat;                               (* how often DeletePeerConnection has been called for it *)
  cRef : bool;                              (* pointer.Restore still finds the Go object *)
  cPend : list (callk * nat);               (* calls not yet called back; every call has a number *)
  cRes : list (callk * nat * bool) }.       (* results in the channels: which call's, and whether it went well *)
Inductive hstate := HRun (l : list act) | HMaking (c : nat) (l : list act) | HWait (c : nat) (k : callk) (n : nat) (l : list act).
Inductive fault := NullPointer | Freed | ClosedTwice.
Record pst := mkP {
  pClosed : bool;                           (* closing *)
  pNeg : bool;                              (* waitNegotiationNeeded has been closed *)
  pInit : bool;                             (* initDone *)
  pConns : list pconn;                      (* all that were made for this task *)
  pCur : option nat;                        (* pt.conn *)
  pHands : gmap nat hstate;
  pNext : nat;                              (* number of the next call *)
  pGot : list (nat * nat * bool);           (* a call, the call whose result it was given, the result *)
  pFault : option fault }.                  (* the process has ended *)
Definition pst0 : pst := mkP false false false [] None ∅ 0 [] None.

Inductive req := RGetOffer | ROffer | RAnswer.
Inductive pev :=
  | EMsg (h : nat) (r : req)                (* visitor h: a get-offer request, or a message of an offer or of an answer *)
  | EStep (h : nat)
  | EMade (h : nat) (ok : bool)             (* C.NewPeerConnection returns *)
  | EBack (c : nat) (k : callk) (n : nat) (ok : bool)   (* libwebrtc calls back *)
  | ERecv (h : nat)                         (* the handler receives from the channel *)
  | ENeg (c : nat)                          (* libwebrtc: negotiation needed *)
  | EClose.                                 (* the timer, the end of the connection, the client's Close ... *)

Definition set_hand (s : pst) (h : nat) (x : hstate) : pst := mkP (pClosed s) (pNeg s) (pInit s) (pConns s) (pCur s) (<[h := x]> (pHands s)) (pNext s) (pGot s) (pFault s).
Definition set_conn (s : pst) (c : nat) (x : pconn) : pst := mkP (pClosed s) (pNeg s) (pInit s) (<[c := x]> (pConns s)) (pCur s) (pHands s) (pNext s) (pGot s) (pFault s).
Definition fail (s : pst) (f : fault) : pst := mkP (pClosed s) (pNeg s) (pInit s) (pConns s) (pCur s) (pHands s) (pNext s) (pGot s) (Some f).
Definition with_init (s : pst) : pst := mkP (pClosed s) (pNeg s) true (pConns s) (pCur s) (pHands s) (pNext s) (pGot s) (pFault s).
Definition with_neg (s : pst) : pst := mkP (pClosed s) true (pInit s) (pConns s) (pCur s) (pHands s) (pNext s) (pGot s) (pFault s).

Definition idle (s : pst) (h : nat) : bool := match pHands s !! h with None | Some (HRun []) => true | _ => false end.

(* EMsg: process 305 compares and swaps initDone for offers and answers alike; getOffer does not look at it *)
Definition msg (s : pst) (h : nat) (r : req) : option pst :=
  if negb (idle s h) then None else
  match r with
  | RGetOffer => if bool_decide (h = 0%nat) then Some (set_hand s h (HRun prog_get)) else None
  | ROffer => if bool_decide (h = 0%nat) then Some (if pInit s then set_hand s h (HRun prog_candidate) else set_hand (with_init s) h (HRun prog_offer)) else None
  | RAnswer => if bool_decide (h = 0%nat) || negb (pClosed s)                        (* 492-504: found in the table, or the task itself *)
               then Some (if pInit s then set_hand s h (HRun prog_candidate) else set_hand (with_init s) h (HRun prog_answer)) else None
  end.
(* the object a call goes to: pt.conn at that moment.  inl: the handler goes on with what is left; inr: the process ends; None: nil pt.conn, a panic that is recovered *)
Definition use (s : pst) : option (nat * pconn + fault) :=
  c ← pCur s; x ← pConns s !! c;
  Some (if negb (cPtr x) then inr NullPointer else if bool_decide (cDel x = 0%nat) then inl (c, x) else inr Freed).
Definition hstep (s : pst) (h : nat) : option pst :=
  match pHands s !! h with
  | Some (HRun (a :: l)) =>
      match a with
      | AInit => let c := List.length (pConns s) in                                  (* 180-194: *peerConnectionPointer is set before C is called *)
          Some (set_hand (mkP (pClosed s) (pNeg s) (pInit s) (pConns s ++ [mkC false 0 true [] []]) (Some c) (pHands s) (pNext s) (pGot s) (pFault s)) h (HMaking c l))
      | ASync => match use s with
                 | None => Some (set_hand s h (HRun []))
                 | Some (inr f) => Some (fail s f)
                 | Some (inl _) => Some (set_hand s h (HRun l))
                 end
      | AAsync k => match use s with
                    | None => Some (set_hand s h (HRun []))
                    | Some (inr f) => Some (fail s f)
                    | Some (inl (c, x)) =>
                        let s' := set_conn s c (mkC (cPtr x) (cDel x) (cRef x) (cPend x ++ [(k, pNext s)]) (cRes x)) in
                        Some (set_hand (mkP (pClosed s') (pNeg s') (pInit s') (pConns s') (pCur s') (pHands s') (S (pNext s')) (pGot s') (pFault s')) h (HWait c k (pNext s) l))
                    end
      | ANeg => if pNeg s then Some (set_hand s h (HRun l)) else if pClosed s then Some (set_hand s h (HRun [])) else None   (* 450-455 *)
      end
  | _ => None
  end.
(* the first result in a channel *)
Fixpoint take_res (k : callk) (l : list (callk * nat * bool)) : option (nat * bool * list (callk * nat * bool)) :=
  match l with
  | [] => None
  | (k', n, b) :: l' => if bool_decide (k' = k) then Some (n, b, l') else '(m, b', r) ← take_res k l'; Some (m, b', (k', n, b) :: r)
  end.
Definition pstep (s : pst) (e : pev) : option pst :=
  match pFault s with Some _ => None | None =>
  match e with
  | EMsg h r => msg s h r
  | EStep h => hstep s h
  | EMade h ok => match pHands s !! h with
      | Some (HMaking c l) => x ← pConns s !! c;
          Some (if ok then set_hand (set_conn s c (mkC true (cDel x) (cRef x) (cPend x) (cRes x))) h (HRun l) else set_hand s h (HRun []))   (* 195-211 *)
      | _ => None end
  | EBack c k n ok => x ← pConns s !! c;
      if bool_decide ((k, n) ∈ cPend x) && (negb (cRef x) || bool_decide (take_res k (cRes x) = None)) then      (* a full channel holds the callback up *)
        Some (set_conn s c (mkC (cPtr x) (cDel x) (cRef x) (filter (fun p => p <> (k, n)) (cPend x)) (if cRef x then cRes x ++ [(k, n, ok)] else cRes x)))
      else None
  | ERecv h => match pHands s !! h with
      | Some (HWait c k n l) => x ← pConns s !! c; '(m, b, r) ← take_res k (cRes x);
          let s' := set_conn s c (mkC (cPtr x) (cDel x) (cRef x) (cPend x) r) in
          Some (set_hand (mkP (pClosed s') (pNeg s') (pInit s') (pConns s') (pCur s') (pHands s') (pNext s') (pGot s' ++ [(n, m, b)]) (pFault s')) h (HRun (if b then l else [])))
      | _ => None end
  | ENeg c => x ← pConns s !! c;
      if cPtr x && bool_decide (cDel x = 0%nat) then Some (if cRef x then if pNeg s then fail s ClosedTwice else with_neg s else s) else None
  | EClose => if pClosed s then None else
      let s' := mkP true (pNeg s) (pInit s) (pConns s) (pCur s) (pHands s) (pNext s) (pGot s) (pFault s) in
      Some (match (c ← pCur s; x ← pConns s !! c; Some (c, x)) with
            | None => s'
            | Some (c, x) => set_conn s' c (mkC (cPtr x) (if cPtr x then S (cDel x) else cDel x) false (cPend x) (cRes x))    (* 540-546 *)
            end)
  end end.
Fixpoint prun (s : pst) (es : list pev) : option pst := match es with [] => Some s | e :: es' => s' ← pstep s e; prun s' es' end.
