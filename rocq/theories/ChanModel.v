(* ChanModel.v -- the data channels of a peer-to-peer visitor with -webrtcThread: client/peer.go 96-104 (OnConnectionChange), 508-583
   (OnOpen), 585-598 (OnStateChange), 600-622 (OnMessage), client/conn.go 600-603 (the timer of 120 s), client/client.go 105 (the
   threads that the WebRTC library calls back on).  The library is left out but for the order of its calls: those of one peer
   connection come one after the other on one thread of the pool, and a call that does not return blocks the thread. *)
From Verif Require Import GoBase.
Local Open Scope N_scope.

(* ---- the timer: one peer connection ---- *)
Inductive aev :=
  | AConnected          (* 98-100: timer.Stop *)
  | AAdd (c : nat)      (* OnOpen of channel c: channelCount + 1 (510) *)
  | AStop (c : nat)     (* ... timer.Stop (511) *)
  | ADrop (c : nat)     (* the end of OnOpen: channelCount - 1 (515) *)
  | AReset (c : nat)    (* ... if it was the last: timer.Reset (516-518) *)
  | AFire.              (* the timer closes the task (client/conn.go 600-603) *)
Inductive aphase := AAdded | AOpen | ALast | AGone.   (* between 510 and 511; being served; between 515 and 517; ended *)
Record ast := mkAst { aArmed : bool; aChans : gmap nat aphase; aCount : N; aClosed : bool }.
#[global] Instance aphase_dec : EqDecision aphase. Proof. solve_decision. Defined.
#[global] Instance ast_dec : EqDecision ast. Proof. solve_decision. Defined.
#[global] Instance aev_dec : EqDecision aev. Proof. solve_decision. Defined.
Definition astep (s : ast) (e : aev) : option ast :=
  if aClosed s then None else
  match e with
  | AConnected => Some (mkAst false (aChans s) (aCount s) false)
  | AAdd c => if bool_decide (aChans s !! c = None) then Some (mkAst (aArmed s) (<[c := AAdded]> (aChans s)) (aCount s + 1) false) else None
  | AStop c => if bool_decide (aChans s !! c = Some AAdded) then Some (mkAst false (<[c := AOpen]> (aChans s)) (aCount s) false) else None
  | ADrop c => if bool_decide (aChans s !! c = Some AOpen)
               then Some (mkAst (aArmed s) (<[c := if aCount s =? 1 then ALast else AGone]> (aChans s)) (aCount s - 1) false) else None
  | AReset c => if bool_decide (aChans s !! c = Some ALast) then Some (mkAst true (<[c := AGone]> (aChans s)) (aCount s) false) else None
  | AFire => if aArmed s then Some (mkAst false (aChans s) (aCount s) true) else None
  end.
Definition ast0 : ast := mkAst true ∅ 0 false.
Definition arun (tr : list aev) : option ast := fold_left (fun o e => o ≫= fun s => astep s e) tr (Some ast0).

(* ---- the threads: all peer connections of a client ---- *)
(* A channel is identified by a number; [owner] gives the thread its peer connection is called back on. *)
Inductive tcall := CMsg (m : bytes) | CClosed.          (* OnMessage; OnStateChange(Close) *)
Inductive dev :=
  | DDial (c : nat) (ok : bool)      (* dial of OnOpen returns (536): Set on success (541), nothing on failure (537-539) *)
  | DCall (c : nat) (x : tcall).     (* the library calls back *)
Record dst := mkDst { dTask : gmap nat bool;            (* the outcome of dial *)
                      dWait : gmap nat (nat * tcall);   (* by thread: the channel and call whose httpTask.Get (591, 611) waits *)
                      dGot : list (nat * bytes);        (* what the services were sent, the last first *)
                      dEnd : list nat }.                (* tasks closed by the visitor *)
#[global] Instance tcall_dec : EqDecision tcall. Proof. solve_decision. Defined.
#[global] Instance dst_dec : EqDecision dst. Proof. solve_decision. Defined.
Definition perform (s : dst) (c : nat) (x : tcall) : dst :=
  match x with
  | CMsg m => mkDst (dTask s) (dWait s) ((c, m) :: dGot s) (dEnd s)     (* 618 *)
  | CClosed => mkDst (dTask s) (dWait s) (dGot s) (c :: dEnd s)         (* 593 *)
  end.
Definition dstep (owner : nat -> nat) (s : dst) (e : dev) : option dst :=
  match e with
  | DDial c ok => if bool_decide (dTask s !! c = None) then
        let s := mkDst (<[c := ok]> (dTask s)) (dWait s) (dGot s) (dEnd s) in
        Some (match dWait s !! owner c with
              | Some (c', x) => if bool_decide (c' = c) && ok then perform (mkDst (dTask s) (delete (owner c) (dWait s)) (dGot s) (dEnd s)) c x else s
              | None => s
              end)
      else None
  | DCall c x => match dWait s !! owner c with
      | Some _ => None                                                    (* the thread is busy *)
      | None => Some (match dTask s !! c with
                      | Some true => perform s c x
                      | _ => mkDst (dTask s) (<[owner c := (c, x)]> (dWait s)) (dGot s) (dEnd s)
                      end)
      end
  end.
Definition dst0 : dst := mkDst ∅ ∅ [] [].
Definition drun (owner : nat -> nat) (tr : list dev) : option dst := fold_left (fun o e => o ≫= fun s => dstep owner s e) tr (Some dst0).
