(* CommandModel.v -- commands to running gt processes: bin/src/manager.rs 499-594 (run_manager: the watcher and the wait for one
   command), 785-814 (create_signal_files, send_signal), main.rs 75-82.  `gt -s c` creates (or empties) the file c in a folder
   of the system's temporary directory that every manager on the machine watches.
   Simplified: only creating the files reload, restart, stop is seen there; the folder exists; a watcher sees every change made since
   it began to watch, in order, each as one or more events; ctrl-c is left out; time is in seconds; what is done on a command
   is in ManagerModel. *)
From Verif Require Import GoBase.
Local Open Scope N_scope.

Inductive cmd := CReload | CRestart | CStop.
#[global] Instance cmd_dec : EqDecision cmd. Proof. solve_decision. Defined.
(* GOff: not started, or not watching yet (522-557).  GWait: select, 558.  GBusy: acts on a command, 561-590.  GEnd: run_manager has returned *)
Inductive gphase := GOff | GWait | GBusy (c : cmd) | GEnd.
#[global] Instance gphase_dec : EqDecision gphase. Proof. solve_decision. Defined.
Record man := mkMan {
  nPhase : gphase; nNow : N;
  nLast : option N;          (* process_signal_time, 536 *)
  nSeen : list cmd;          (* events the watcher has not handled yet *)
  nChan : option cmd         (* the channel, room for one, 535; None after it was received *) }.
Definition man0 : man := mkMan GOff 0 None [] None.

Inductive gevt := GWatch | GSee | GTake | GDone.
(* 502-519: one event; a full channel stops the watcher, 512 *)
Definition see (m : man) : option man :=
  match m with mkMan ph now last seen ch =>
  match ph, seen with
  | GOff, _ | GEnd, _ | _, [] => None
  | _, c :: seen =>
      match last with
      | Some t => if now - t <? 3 then Some (mkMan ph now last seen ch)
                  else match ch with None => Some (mkMan ph now (Some now) seen (Some c)) | Some _ => None end
      | None => match ch with None => Some (mkMan ph now (Some now) seen (Some c)) | Some _ => None end
      end
  end
  end.
Definition gstep (m : man) (e : gevt) : option man :=
  match m with mkMan ph now last seen ch =>
  match e with
  | GWatch => match ph with GOff => Some (mkMan GWait now last seen ch) | _ => None end
  | GSee => see m
  (* 558-590: once *)
  | GTake => match ph, ch with GWait, Some c => Some (mkMan (GBusy c) now last seen None) | _, _ => None end
  | GDone => match ph with GBusy _ => Some (mkMan GEnd now last seen ch) | _ => None end
  end
  end.
(* all managers of the machine.  XCmd: `gt -s c`, seen as n + 1 events *)
Inductive xevt := XCmd (c : cmd) (n : nat) | XTick (d : N) | XStep (i : nat) (e : gevt).
Definition watching (ph : gphase) : bool := match ph with GWait | GBusy _ => true | _ => false end.
Definition told (c : cmd) (n : nat) (m : man) : man :=
  match m with mkMan ph now last seen ch => mkMan ph now last (if watching ph then seen ++ replicate (S n) c else seen) ch end.
Definition later (d : N) (m : man) : man := match m with mkMan ph now last seen ch => mkMan ph (now + d) last seen ch end.
Definition xstep (ms : list man) (e : xevt) : option (list man) :=
  match e with
  | XCmd c n => Some (told c n <$> ms)
  | XTick d => Some (later d <$> ms)
  | XStep i e => m ← ms !! i; m' ← gstep m e; Some (<[i := m']> ms)
  end.
Fixpoint xrun (ms : list man) (tr : list xevt) : option (list man) :=
  match tr with [] => Some ms | e :: tr => ms ← xstep ms e; xrun ms tr end.
