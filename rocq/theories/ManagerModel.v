(* ManagerModel.v -- the process that looks after the worker processes: bin/src/manager.rs 150-192 (process_signal), 220-292
   (handle_stdout), 294-452 (run), 455-489 (run_configs), 525-594 (run_manager), 597-624 (process_shutdown), 766-776 (send_op).
   A configuration is a number, a worker process is a number (never used twice).  One event of the model is one step of one
   task; [cmd_map] is locked while process_shutdown runs in process_signal (the guard lives as long as the match, 166, and
   as the loop, 189) and cannot be written meanwhile.
   Simplified: spawning a process succeeds; a worker does not end before it is registered in the map; Ready, Done and
   Reconnect are read at once, and nothing is read of a worker after Done or Reconnect (271, 280: pending); the 120 s of
   process_shutdown may pass at any time; whether a kill that was sent is carried out is left open; ctrl-c is not modelled. *)
From Coq Require Import Strings.String.
From Verif Require Import GoBase.
Local Open Scope N_scope.

(* 651-654: what a manager tells the one that started it *)
Inductive msg := MReady (c : nat) | MDone.
#[global] Instance msg_dec : EqDecision msg. Proof. solve_decision. Defined.
(* a task of run, 353-449.  TSpawned: the process is started, not yet in the map (358).  TRun: select, 376.  TWait: sleeping
   before a restart, 417-447.  TOut: will return when its process has ended.  TEnd: has returned. *)
Inductive tstate := TSpawned | TRun | TWait | TOut | TEnd.
#[global] Instance tstate_dec : EqDecision tstate. Proof. solve_decision. Defined.
Record task := mkT { tConf : nat; tGrp : nat; tPid : nat; tSt : tstate }.
(* PRun: waiting for a signal, 555.  PRead: process_signal reads the new manager's messages, 157.  PTell: process_shutdown,
   inside the drain or not.  PDrain: 188, 584.  PEnd: the manager has ended *)
Inductive phase := PRun | PRead | PTell (p : nat) (drain : bool) | PDrain | PEnd.
#[global] Instance phase_dec : EqDecision phase. Proof. solve_decision. Defined.
Record mgr := mkM {
  gTasks : list task;
  gMap : gmap nat nat;      (* cmds: configuration -> worker *)
  gCnt : list N;            (* the ready_done_counters, 350 *)
  gLive : gset nat;         (* workers running *)
  gTold : gset nat;         (* workers that were sent (Graceful)Shutdown, 766-776 *)
  gSaid : gset nat;         (* workers that said Ready *)
  gNext : nat;
  gPhase : phase;
  gOut : list msg }.

(* 455-489, 331-350: one counter for each kind; k: 0 server, 1 client, 2 connect *)
Definition spawned (cs : list (nat * nat)) (from : nat) : list task := imap (fun i ck => mkT ck.1 ck.2 (from + i) TSpawned) cs.
Definition of_kind (k : nat) (cs : list (nat * nat)) : list (nat * nat) := filter (fun ck => ck.2 = k) cs.
Definition mstart (cs : list (nat * nat)) : mgr :=
  mkM (spawned cs 0) ∅ ((fun k => N.of_nat (length (of_kind k cs))) <$> [0; 1; 2]%nat) (list_to_set (seq 0 (length cs))) ∅ ∅ (length cs) PRun [].

Inductive mevt :=
  | EReady (i : nat)      (* the worker of task i says Ready *)
  | EDone (i : nat)       (* ShutdownDone or GracefulShutdownDone *)
  | EReconnect (i : nat)
  | EExit (i : nat)       (* the worker of task i has ended *)
  | ERestart (i : nat)    (* 419-438 *)
  | EInsert (i : nat)     (* 358-367 *)
  | ESignal (stop : bool) (* stop, or reload/restart, 560-590 *)
  | ERead (m : msg)       (* 159-177 *)
  | EEnd                  (* 180-186: the 120 s are over, or nothing more can be read *)
  | EReturn               (* process_shutdown returns *)
  | EDrain (c : nat)      (* the drain takes the entry of c *)
  | EQuit                 (* the drain is done, 593 *)
  | EGone (p : nat).      (* a worker ends after the manager *)

Definition set_task (i : nat) (st : tstate) (pid : nat) (l : list task) : list task := alter (fun t => mkT (tConf t) (tGrp t) pid st) i l.
Definition is_free (ph : phase) : bool := match ph with PRun | PRead => true | _ => false end.
Definition is_end (ph : phase) : bool := match ph with PEnd => true | _ => false end.
(* fetch_sub of an AtomicUsize *)
Definition minus1 (n : N) : N := if n =? 0 then 2 ^ 64 - 1 else n - 1.
(* after process_shutdown the Cmd is dropped: kill_rx is Err (or the kill is taken), 395-413 *)
Definition leave (p : nat) (l : list task) : list task :=
  (fun t => if bool_decide (tPid t = p) then match tSt t with TRun => mkT (tConf t) (tGrp t) p TOut | _ => t end else t) <$> l.

Definition on_task (s : mgr) (i : nat) (e : task -> option mgr) : option mgr := if is_end (gPhase s) then None else gTasks s !! i ≫= e.

Definition mstep (s : mgr) (e : mevt) : option mgr :=
  match s with mkM ts mp cnt live told said next ph out =>
  match e with
  (* 240-258 *)
  | EReady i => on_task s i (fun t =>
      match tSt t with
      | TRun => if bool_decide (tPid t ∈ said) then None else
          n ← cnt !! tGrp t;
          Some (mkM ts mp (<[tGrp t := minus1 n]> cnt) live told ({[tPid t]} ∪ said) next ph (out ++ [if n =? 1 then MDone else MReady (tConf t)]))
      | _ => None
      end)
  (* 259-273 *)
  | EDone i => on_task s i (fun t =>
      match tSt t with TRun => Some (mkM (set_task i TOut (tPid t) ts) mp cnt live told said next ph out) | _ => None end)
  (* 274-282, 368-374: run again with this one configuration *)
  | EReconnect i => on_task s i (fun t =>
      match tSt t with
      | TRun => Some (mkM (set_task i TOut (tPid t) ts ++ [mkT (tConf t) (length cnt) next TSpawned]) mp (cnt ++ [1]) ({[next]} ∪ live) told said (S next) ph out)
      | _ => None
      end)
  (* 382-391, 416 *)
  | EExit i => on_task s i (fun t =>
      match tSt t with
      | TRun => Some (mkM (set_task i TWait (tPid t) ts) mp cnt (live ∖ {[tPid t]}) told said next ph out)
      | TOut => Some (mkM (set_task i TEnd (tPid t) ts) mp cnt (live ∖ {[tPid t]}) told said next ph out)
      | _ => None
      end)
  | ERestart i => on_task s i (fun t =>
      match tSt t with TWait => Some (mkM (set_task i TSpawned next ts) mp cnt ({[next]} ∪ live) told said (S next) ph out) | _ => None end)
  | EInsert i => on_task s i (fun t =>
      match tSt t with
      | TSpawned => if is_free ph then
          Some (mkM (set_task i TRun (tPid t) ts) (<[tConf t := tPid t]> mp) cnt live
                  (match mp !! tConf t with Some p => {[p]} ∪ told | None => told end) said next ph out)
          else None
      | _ => None
      end)
  | ESignal stop => match ph with PRun => Some (mkM ts mp cnt live told said next (if stop then PDrain else PRead) out) | _ => None end
  | ERead (MReady c) => match ph with
      | PRead => match mp !! c with
                 | Some p => Some (mkM ts (delete c mp) cnt live ({[p]} ∪ told) said next (PTell p false) out)
                 | None => Some s
                 end
      | _ => None end
  | ERead MDone => match ph with PRead => Some (mkM ts mp cnt live told said next PDrain out) | _ => None end
  | EEnd => match ph with
      | PRead => Some (mkM ts mp cnt live told said next PDrain out)
      | PTell p false => Some (mkM (leave p ts) mp cnt live told said next PDrain out)
      | _ => None end
  | EReturn => match ph with PTell p d => Some (mkM (leave p ts) mp cnt live told said next (if d then PDrain else PRead) out) | _ => None end
  | EDrain c => match ph with
      | PDrain => p ← mp !! c; Some (mkM ts (delete c mp) cnt live ({[p]} ∪ told) said next (PTell p true) out)
      | _ => None end
  | EQuit => match ph with PDrain => if bool_decide (mp = ∅) then Some (mkM ts mp cnt live told said next PEnd out) else None | _ => None end
  | EGone p => match ph with PEnd => if bool_decide (p ∈ live) then Some (mkM ts mp cnt (live ∖ {[p]}) told said next ph out) else None | _ => None end
  end end.
Definition mrun (s : mgr) (tr : list mevt) : option mgr := fold_left (fun o e => o ≫= fun s => mstep s e) tr (Some s).

(* A reload: the old manager, the new one and the pipe from the new one's standard output; k messages have been read *)
Record pair := mkP { pOld : mgr; pNew : mgr; pK : nat }.
Inductive pevt := Old (e : mevt) | New (e : mevt).
Definition pstep (x : pair) (e : pevt) : option pair :=
  match e with
  | New e => n ← mstep (pNew x) e; Some (mkP (pOld x) n (pK x))
  | Old (ERead m) => if bool_decide (gOut (pNew x) !! pK x = Some m) then o ← mstep (pOld x) (ERead m); Some (mkP o (pNew x) (S (pK x))) else None
  | Old e => o ← mstep (pOld x) e; Some (mkP o (pNew x) (pK x))
  end.
