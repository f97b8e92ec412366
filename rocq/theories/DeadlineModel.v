(* DeadlineModel.v -- deadlines on the virtual connection that carries a peer-to-peer visitor's requests to the client's own HTTP server: client/api/conn.go 65-72 (Read),
   147-166 (SetDeadline, SetReadDeadline), client/std/pipe.go 67-84 (Read's select), 171-173 (StopPending), client/client.go 103-104 (ReadTimeout of 30 s), and how
   Go 1.20's net/http uses the connection (server.go: connReader.startBackgroundRead, backgroundRead, abortPendingRead).

   Reads come one at a time, as net/http makes them.  Time is in any unit.  Left out: what is read (C39); the data race on c.timer between two goroutines. *)
From Verif Require Import GoBase.
Local Open Scope N_scope.

(* ---- one connection ---- *)
Inductive tmst := Armed | Sending | Over.            (* waits for its time; its function is in StopPending (pipe.go 172), which waits for a Read; stopped or done *)
Record tm := mkTm { mDue : N; mSt : tmst }.
Inductive rres := RData | RTimeout | RClosed.
Inductive rdst := RNone | RPending | RGot (r : rres).  (* no Read; in the select of pipe.go 74; PipeReader.Read has returned, conn.go 67 *)
Record dst := mkD {
  dNow : N;
  dTimer : option nat;      (* c.timer *)
  dTms : list tm;           (* the timers made so far *)
  dRd : rdst;
  dAbort : bool;            (* a caller of SetReadDeadline(aLongTimeAgo) is in StopPending *)
  dClosed : bool }.
Definition dst0 : dst := mkD 0 None [] RNone false false.
Inductive dev :=
  | ETick (n : N)
  | ESet (d : N)            (* SetReadDeadline of a time to come *)
  | EZero                   (* SetReadDeadline of the zero time, or of one that has passed *)
  | EAbort                  (* SetReadDeadline(aLongTimeAgo) *)
  | EFire (i : nat)         (* a timer's time has come *)
  | EStop (i : nat)         (* its StopPending meets the Read *)
  | EAbortStop              (* the caller's StopPending meets the Read *)
  | ERead | EData | EClose | EClosed
  | ERet.                   (* Read returns: conn.go 67-71 *)
Definition set_st (l : list tm) (i : nat) (x : tmst) : list tm := match l !! i with Some t => <[i := mkTm (mDue t) x]> l | None => l end.
(* time.Timer.Stop: a timer that has fired is not stopped *)
Definition stop_timer (l : list tm) (i : nat) : list tm := match l !! i with Some (mkTm d Armed) => <[i := mkTm d Over]> l | _ => l end.
Definition dstep (s : dst) (e : dev) : option dst :=
  match s with mkD now tp tms rd ab cl =>
  match e with
  | ETick n => Some (mkD (now + n) tp tms rd ab cl)
  | ESet d => if (now <? d) && negb ab then Some (mkD now (Some (length tms)) (tms ++ [mkTm d Armed]) rd ab cl) else None       (* 158-164 *)
  | EZero => if ab then None else Some s                                                                                         (* 159-161 *)
  | EAbort => if ab then None else Some (mkD now tp tms rd true cl)                                                              (* 154-157 *)
  | EFire i => match tms !! i with Some (mkTm d Armed) => if d <=? now then Some (mkD now tp (set_st tms i Sending) rd ab cl) else None | _ => None end
  | EStop i => match tms !! i, rd with Some (mkTm d Sending), RPending => Some (mkD now tp (set_st tms i Over) (RGot RTimeout) ab cl) | _, _ => None end
  | EAbortStop => match rd with RPending => if ab then Some (mkD now tp tms (RGot RTimeout) false cl) else None | _ => None end
  | ERead => match rd with RNone => Some (mkD now tp tms (if cl then RGot RClosed else RPending) ab cl) | _ => None end
  | EData => match rd with RPending => Some (mkD now tp tms (RGot RData) ab cl) | _ => None end
  | EClose => Some (mkD now tp tms rd ab true)
  | EClosed => match rd with RPending => if cl then Some (mkD now tp tms (RGot RClosed) ab cl) else None | _ => None end
  | ERet => match rd with
            | RGot _ => Some (mkD now None (match tp with Some i => stop_timer tms i | None => tms end) RNone ab cl)
            | _ => None
            end
  end end.
Fixpoint drun (s : dst) (tr : list dev) : option dst := match tr with [] => Some s | e :: tr => s' ← dstep s e; drun s' tr end.

(* ---- the end of a request: net/http's two goroutines and the lock between them ---- *)
Inductive mpc := MWant | MIn | MStop | MWait | MAgain | MDone.   (* before cr.lock(); looks at inRead; in SetReadDeadline(aLongTimeAgo), i.e. StopPending; cond.Wait; woken, wants the lock; returned *)
Inductive bpc := BRead | BWant | BHas | BDone.                    (* in Read; it returned, before cr.lock(); has the lock; done *)
Record ast := mkA { aMain : mpc; aBg : bpc; aLock : option bool; aIn : bool }.   (* aLock: true = the handler's goroutine has it; aIn: inRead *)
Definition ast0 : ast := mkA MWant BRead None true.
Inductive aev := ALock | ALook | AMeet | AWake | ADataIn | ABLock | ABSet.
Definition astep (s : ast) (e : aev) : option ast :=
  match s with mkA m b l i =>
  match e with
  | ALock => match m, l with MWant, None => Some (mkA MIn b (Some true) i) | _, _ => None end
  | ALook => match m with MIn => Some (if i then mkA MStop b l i else mkA MDone b None i) | _ => None end
  | AMeet => match m, b with MStop, BRead => Some (mkA MWait BWant None i) | _, _ => None end       (* Read ends with the error; then cond.Wait gives the lock back *)
  | ADataIn => match b with BRead => Some (mkA m BWant l i) | _ => None end                          (* Read ends by data or because the connection is closed *)
  | ABLock => match b, l with BWant, None => Some (mkA m BHas (Some false) i) | _, _ => None end
  | ABSet => match b with BHas => Some (mkA (match m with MWait => MAgain | _ => m end) BDone None false) | _ => None end
  | AWake => match m, l with MAgain, None => Some (mkA MIn b (Some true) i) | _, _ => None end
  end end.
Fixpoint arun (s : ast) (tr : list aev) : option ast := match tr with [] => Some s | e :: tr => s' ← astep s e; arun s' tr end.
