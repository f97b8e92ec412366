(* WorkerModel.v -- the life of a worker process: lib/export/lib.go 36-62 (handleStdIO), 64-135 (RunServer), 137-220 (RunClient).
   Simplified: New and StartWebServer have succeeded (69-70, 75-76: otherwise log.Fatal before anything else); what Start, WaitUntilReady,
   ReloadServices, Shutdown and Close do is in other models and is here an event with its result; a message is written whole or
   not at all; time is in seconds.  Signals before signal.Notify have the default action, which for these four ends the
   process.  signal.Notify does not wait: a signal that finds the channel full is dropped. *)
From Verif Require Import GoBase.
Local Open Scope N_scope.

Inductive sig := HUP | INT | QUIT | TERM.
#[global] Instance sig_dec : EqDecision sig. Proof. solve_decision. Defined.
(* util/stdio.go 33-40 *)
Inductive op := OReady | OGraceful | OGracefulDone | OShutdown | OShutdownDone | OReconnect.
#[global] Instance op_dec : EqDecision op. Proof. solve_decision. Defined.
Inductive kind := KServer | KClient.
#[global] Instance kind_dec : EqDecision kind. Proof. solve_decision. Defined.
(* WInit: before Start.  WNotify: before signal.Notify.  WLoop: waiting for a signal, 106, 186.  WReload: ReloadServices, 190.  WShut: after
   taking the signal, Shutdown runs, 111-118, 195-203.  WClose: return, the deferred Close runs, 109, 193.  WExit: has ended. *)
Inductive exit := XCode (n : N) | XKilled.
#[global] Instance exit_dec : EqDecision exit. Proof. solve_decision. Defined.
Inductive wphase := WInit | WNotify | WLoop | WReload | WShut (s : sig) (since : N) | WClose | WExit (x : exit).
#[global] Instance wphase_dec : EqDecision wphase. Proof. solve_decision. Defined.
Record wconf := mkWC { wKind : kind; wWeb : bool (* WebAddr given *); wFile : bool (* CheckConfigFile *) }.
(* a signal and whether it was asked for on stdin *)
Notation tsig := (sig * bool)%type.
Record worker := mkW {
  wPhase : wphase; wNow : N;
  wChan : option tsig;        (* osSig, room for one *)
  wBlocked : option tsig;     (* handleStdIO waits to send *)
  wReading : bool;            (* handleStdIO runs *)
  wTries : nat;               (* attempts left to the goroutine of 168-178 *)
  wOut : list op;             (* written to stdout *)
  wTaken : list tsig          (* received by the loop *) }.
Definition w0 : worker := mkW WInit 0 None None false 0 [] [].

Inductive wevt :=
  | VNoStart | VStart (ok written : bool) | VTry (ok written : bool) | VNotify
  | VOs (s : sig)               (* a signal of the operating system *)
  | VOp (o : op)                (* a message read from stdin *)
  | VOpEnd                      (* ReadJson or Unmarshal fails *)
  | VTake | VReloaded | VShutDone (written : bool) | VForce | VClosed | VTick (d : N).

Definition limit (k : kind) : N := match k with KServer => 180 | KClient => 30 end.  (* 113, 197 *)
Definition running (p : wphase) : bool := match p with WExit _ => false | _ => true end.
Definition say (written : bool) (o : op) (out : list op) : list op := if written then out ++ [o] else out.
(* 52-57 *)
Definition asks (o : op) : option sig := match o with OGraceful => Some QUIT | OShutdown => Some TERM | _ => None end.
(* 119-130, 204-215 *)
Definition done_op (s : sig) : option op := match s with QUIT => Some OGracefulDone | TERM => Some OShutdownDone | _ => None end.
(* 106-134, 186-219 *)
Definition on_signal (k : kind) (now : N) (s : sig) : wphase :=
  match s, k with
  | INT, _ => WClose
  | HUP, KClient => WReload
  | _, _ => WShut s now
  end.

Definition wstep (c : wconf) (w : worker) (e : wevt) : option worker :=
  match w with mkW ph now ch bl rd tries out taken =>
  if negb (running ph) then None else
  match e with
  (* 84, 159: neither without web page nor with a configuration file *)
  | VNoStart => match ph with WInit => if wWeb c && negb (wFile c) then Some (mkW WNotify now ch bl rd tries out taken) else None | _ => None end
  (* 85-99, 160-181 *)
  | VStart ok written =>
      match ph with
      | WInit => if wWeb c && negb (wFile c) then None else
          if ok then match wKind c with
                     | KServer => Some (mkW WNotify now ch bl rd tries (say written OReady out) taken)
                     | KClient => Some (mkW WNotify now ch bl rd 10 out taken)
                     end
          else if wWeb c then Some (mkW WNotify now ch bl rd tries out taken) else Some (mkW (WExit (XCode 1)) now ch bl rd tries out taken)
      | _ => None
      end
  (* 168-178 *)
  | VTry ok written =>
      match tries with
      | O => None
      | S n => Some (if ok then mkW ph now ch bl rd 0 (say written OReady out) taken else mkW ph now ch bl rd n out taken)
      end
  (* 102-104, 182-184 *)
  | VNotify => match ph with WNotify => Some (mkW WLoop now ch bl true tries out taken) | _ => None end
  | VOs s => match ph with
             | WInit | WNotify => Some (mkW (WExit XKilled) now ch bl rd tries out taken)
             | _ => Some (mkW ph now (match ch with None => Some (s, false) | _ => ch end) bl rd tries out taken)
             end
  (* 40-59 *)
  | VOp o => match rd, bl with
             | true, None => match asks o with
                             | None => Some w
                             | Some s => Some (match ch with
                                               | None => mkW ph now (Some (s, true)) bl rd tries out taken
                                               | Some _ => mkW ph now ch (Some (s, true)) rd tries out taken
                                               end)
                             end
             | _, _ => None
             end
  | VOpEnd => match rd, bl with true, None => Some (mkW ph now ch bl false tries out taken) | _, _ => None end
  | VTake => match ph, ch with
             | WLoop, Some s => Some (mkW (on_signal (wKind c) now s.1) now bl None rd tries out (taken ++ [s]))
             | _, _ => None
             end
  | VReloaded => match ph with WReload => Some (mkW WLoop now ch bl rd tries out taken) | _ => None end
  (* 118-131, 203-216 *)
  | VShutDone written =>
      match ph with
      | WShut s _ => Some (mkW (WExit (XCode 0)) now ch bl rd tries (match done_op s with Some o => say written o out | None => out end) taken)
      | _ => None
      end
  (* 113-115, 197-199 *)
  | VForce => match ph with WShut _ t => if limit (wKind c) <=? now - t then Some (mkW (WExit (XCode 1)) now ch bl rd tries out taken) else None | _ => None end
  | VClosed => match ph with WClose => Some (mkW (WExit (XCode 0)) now ch bl rd tries out taken) | _ => None end
  | VTick d => Some (mkW ph (now + d) ch bl rd tries out taken)
  end
  end.
Fixpoint wrun (c : wconf) (w : worker) (tr : list wevt) : option worker :=
  match tr with [] => Some w | e :: tr => w ← wstep c w e; wrun c w tr end.
