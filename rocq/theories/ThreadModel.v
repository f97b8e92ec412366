(* ThreadModel.v -- the threads of libwebrtc behind peer-to-peer visitors with -webrtcThread: client/webrtc/threadpool.cpp 29-103, client/client.go 105
   (three threads), client/peer.go 107-150 (the callbacks OnICEGatheringChange and OnICECandidate, and init), 341-378 (response), client/conn.go 594
   (candidateOutChan, room for 16), client/webrtc/peerconnection.cpp 117-121 (Delete), 206-265 (calls of the signalling thread).
   libwebrtc runs the callbacks and BlockingCall one at a time on the peer's signalling thread, in order (its documented contract; Close of a peer
   connection is such a call too).  Left out: what is said in the calls before the answer is ready; the other two threads' work. *)
From Verif Require Import GoBase.
Local Open Scope N_scope.

(* ---------- the pool.  GetThread and GetSocketThread have one index in common.  A caller's steps: CShared: holds the shared lock, before the test of
   line 39; CExcl: waits for the exclusive lock, 41; CAgain: waits for the shared lock, 47; CTake: holds it, before 51; CNext: has the result and is before
   52; CWrite: has read the index there. *)
Inductive cphase := CShared | CExcl | CAgain | CTake | CNext (r : option nat) | CWrite (r : option nat) (v : nat).
#[global] Instance cphase_dec : EqDecision cphase. Proof. solve_decision. Defined.
Record pool := mkPool {
  oN : nat;                        (* threads.size() *)
  oIdx : nat;
  oThreads : gset nat; oSockets : gset nat;            (* those that have been made *)
  oCalls : gmap nat (bool * cphase);                   (* caller -> GetSocketThread?, where it is *)
  oGot : list (nat * bool * option nat) }.             (* who got what; None: a null pointer *)
Definition pool0 (n : nat) : pool := mkPool n 0 ∅ ∅ ∅ [].
Definition made (o : pool) (sock : bool) : gset nat := if sock then oSockets o else oThreads o.
Definition holds_shared (p : cphase) : bool := match p with CShared | CTake | CNext _ | CWrite _ _ => true | _ => false end.
Inductive pev := PCall (c : nat) (sock : bool) | PStep (c : nat).
Definition at_ (o : pool) (c : nat) (sock : bool) (p : cphase) : pool :=
  mkPool (oN o) (oIdx o) (oThreads o) (oSockets o) (<[c := (sock, p)]> (oCalls o)) (oGot o).
Definition make1 (o : pool) (sock : bool) (i : nat) : pool :=
  mkPool (oN o) (oIdx o) (if sock then oThreads o else {[i]} ∪ oThreads o) (if sock then {[i]} ∪ oSockets o else oSockets o) (oCalls o) (oGot o).
Definition pstep (o : pool) (e : pev) : option pool :=
  match e with
  | PCall c sock => match oCalls o !! c with None => Some (at_ o c sock CShared) | Some _ => None end
  | PStep c => '(sock, p) ← oCalls o !! c;
      match p with
      | CShared => Some (at_ o c sock (if bool_decide (oIdx o ∈ made o sock) then CTake else CExcl))
      | CExcl => if bool_decide (map_Forall (fun _ x => holds_shared x.2 = false) (oCalls o)) then Some (at_ (make1 o sock (oIdx o)) c sock CAgain) else None
      | CAgain => Some (at_ o c sock CTake)
      | CTake => Some (at_ o c sock (CNext (if bool_decide (oIdx o ∈ made o sock) then Some (oIdx o) else None)))
      | CNext r => Some (at_ o c sock (CWrite r (oIdx o)))
      | CWrite r v => Some (mkPool (oN o) (S v `mod` oN o)%nat (oThreads o) (oSockets o) (delete c (oCalls o)) (oGot o ++ [(c, sock, r)]))
      end
  end.
Definition prun (o : pool) (tr : list pev) : option pool := fold_left (fun o e => o ≫= fun s => pstep s e) tr (Some o).
(* peer.go 145-147: one after the other, by one caller: the signalling thread, the network thread, the worker thread *)
Definition init_calls : list bool := [false; true; false].

(* ---------- the signalling thread *)
Definition ROOM : nat := 16.                                                (* conn.go 594 *)
(* PNew: gathering has begun (SetLocalDescription).  PAsked: the task waits for GetLocalDescription.  PRun: in the loop of response.  PEnd: out of it. *)
Inductive pphase := PNew | PAsked | PRun | PEnd.
#[global] Instance pphase_dec : EqDecision pphase. Proof. solve_decision. Defined.
Record peer := mkPeer { pPh : pphase; pChan : list bytes; pGot : list bytes }.   (* pGot: taken out of the channel by the loop *)
#[global] Instance peer_dec : EqDecision peer. Proof. solve_decision. Defined.
(* JCand p c: OnICECandidate, or with c empty OnICEGatheringChange(complete).  JGet: GetLocalDescription.  JDel: Close of the peer connection *)
Inductive job := JCand (p : nat) (c : bytes) | JGet (p : nat) | JDel (p : nat).
#[global] Instance job_dec : EqDecision job. Proof. solve_decision. Defined.
Record sig := mkSig { gJobs : list job; gPeers : gmap nat peer; gDone : list job }.
#[global] Instance sig_dec : EqDecision sig. Proof. solve_decision. Defined.
Definition sig0 : sig := mkSig [] ∅ [].
Inductive gev :=
  | GOpen (p : nat)              (* SetLocalDescription of peer p has been done *)
  | GFound (p : nat) (c : bytes) (* libwebrtc hands over a candidate, or the end of gathering *)
  | GAsk (p : nat)               (* the task calls GetLocalDescription *)
  | GWork                        (* the signalling thread does its next job *)
  | GTake (p : nat)              (* the loop of response takes one out, 363 *)
  | GLeave (p : nat)             (* the loop ends: a write failed, 371, or the task is closed, 375 *)
  | GClose (p : nat).            (* some goroutine calls Close of the peer connection *)
Definition gstep (s : sig) (e : gev) : option sig :=
  match s with mkSig js ps dn =>
  match e with
  | GOpen p => match ps !! p with None => Some (mkSig js (<[p := mkPeer PNew [] []]> ps) dn) | Some _ => None end
  | GFound p c => match ps !! p with Some _ => Some (mkSig (js ++ [JCand p c]) ps dn) | None => None end
  | GAsk p => match ps !! p with Some (mkPeer PNew ch gt) => Some (mkSig (js ++ [JGet p]) (<[p := mkPeer PAsked ch gt]> ps) dn) | _ => None end
  | GWork => match js with
      | [] => None
      | JCand p c as j :: js => match ps !! p with
          | Some (mkPeer ph ch gt) => if (length ch <? ROOM)%nat then Some (mkSig js (<[p := mkPeer ph (ch ++ [c]) gt]> ps) (dn ++ [j])) else None
          | None => None
          end
      | JGet p as j :: js => match ps !! p with
          | Some (mkPeer PAsked ch gt) => Some (mkSig js (<[p := mkPeer PRun ch gt]> ps) (dn ++ [j]))
          | _ => None
          end
      | JDel p as j :: js => Some (mkSig js ps (dn ++ [j]))
      end
  | GTake p => match ps !! p with
      | Some (mkPeer PRun (c :: ch) gt) => Some (mkSig js (<[p := mkPeer (if bool_decide (c = []) then PEnd else PRun) ch (gt ++ [c])]> ps) dn)
      | _ => None
      end
  | GLeave p => match ps !! p with Some (mkPeer PRun ch gt) => Some (mkSig js (<[p := mkPeer PEnd ch gt]> ps) dn) | _ => None end
  | GClose p => match ps !! p with Some _ => Some (mkSig (js ++ [JDel p]) ps dn) | None => None end
  end end.
Definition grun (s : sig) (tr : list gev) : option sig := fold_left (fun o e => o ≫= fun s => gstep s e) tr (Some s).
