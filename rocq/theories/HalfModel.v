(* HalfModel.v -- how a visitor's connection ends, and what becomes of the bytes that are then on their way: server/conn.go 980-1003, 1055-1095 (process: a visitor's bytes, his end),
   820-960 and 968-976 (readLoop: data and close frames; getTask 88-93, removeTask 82-86), 95-110, 175-190 (handle, handleTCP: the connection is closed when process returns),
   client/conn.go 460-506 (processData), 363-369 (close frames), client/task.go 215-240 (Close, CloseByRemote), 242-317 (process).
   From when the service's connection is there.  Bytes go one by one (C12, C13 have the frames and how they are cut), no Write fails or waits, and the tunnel stays.
   Closing a TCP connection that holds unread input sends a reset, after which what the other end has not yet got of the output may be lost: [keep] says how much stays.
   Collapsed: the steps of process from the end of its loop to the close frame. *)
From Verif Require Import GoBase.
Local Open Scope N_scope.

Record est := mkE {
  vOut : list N; vFin : bool;               (* sent by the visitor, not yet read by the server; he has finished sending (closed, or shut down that direction) *)
  vIn : list N; vGot : list N; vEof : bool; (* written to the visitor, not yet taken by him; taken; he has seen the end *)
  sRun : bool;                              (* the server's process runs: the task is in its table *)
  sClosed : option bool;                    (* the visitor's connection is closed at the server; by the client's close frame? *)
  down : list (option N);                   (* frames for the client; None: close *)
  up : list (option N);
  cRun : bool; cClosed : option bool;       (* the same at the client, with the service's connection *)
  tOut : list N; tFin : bool; tIn : list N; tGot : list N; tEof : bool;    (* the service, like the visitor *)
  vSaid : list N; tSaid : list N;           (* all they have sent so far *)
  vLost : bool; tLost : bool }.             (* a reset has cost the visitor, the service some bytes *)
Definition est0 : est := mkE [] false [] [] false true None [] [] true None [] false [] [] false [] [] false false.
Inductive eev :=
  | VSend (b : N) | VFin | VTake | VSeeEnd
  | TSend (b : N) | TFin | TTake | TSeeEnd
  | SRead | SEof | SErr | SClose | SFrame (keep : nat)
  | CRead | CEof | CErr | CFrame (keep : nat).
Definition cut (unread out : list N) (keep : nat) : list N := match unread with [] => out | _ => take keep out end.
Definition loses (unread out : list N) (keep : nat) : bool := match unread with [] => false | _ => (keep <? length out)%nat end.
Definition estep (s : est) (e : eev) : option est :=
  match s with mkE vo vf vi vg ve sr sc dn u cr cc t_o tf ti tg te vs ts vl tl =>
  match e with
  | VSend b => if vf then None else Some (mkE (vo ++ [b]) vf vi vg ve sr sc dn u cr cc t_o tf ti tg te (vs ++ [b]) ts vl tl)
  | VFin => if vf then None else Some (mkE vo true vi vg ve sr sc dn u cr cc t_o tf ti tg te vs ts vl tl)
  | VTake => match vi with b :: r => Some (mkE vo vf r (vg ++ [b]) ve sr sc dn u cr cc t_o tf ti tg te vs ts vl tl) | [] => None end
  | VSeeEnd => match vi, sc with [], Some _ => if ve then None else Some (mkE vo vf vi vg true sr sc dn u cr cc t_o tf ti tg te vs ts vl tl) | _, _ => None end
  | TSend b => if tf then None else Some (mkE vo vf vi vg ve sr sc dn u cr cc (t_o ++ [b]) tf ti tg te vs (ts ++ [b]) vl tl)
  | TFin => if tf then None else Some (mkE vo vf vi vg ve sr sc dn u cr cc t_o true ti tg te vs ts vl tl)
  | TTake => match ti with b :: r => Some (mkE vo vf vi vg ve sr sc dn u cr cc t_o tf r (tg ++ [b]) te vs ts vl tl) | [] => None end
  | TSeeEnd => match ti, cc with [], Some _ => if te then None else Some (mkE vo vf vi vg ve sr sc dn u cr cc t_o tf ti tg true vs ts vl tl) | _, _ => None end
  (* server 1065-1083: a byte is read and sent on *)
  | SRead => match sr, sc, vo with true, None, b :: r => Some (mkE r vf vi vg ve sr sc (dn ++ [Some b]) u cr cc t_o tf ti tg te vs ts vl tl) | _, _, _ => None end
  (* 1092-1094, 985-990: the visitor's end is read: the task is removed, a close frame is sent *)
  | SEof => match sr, sc, vo, vf with true, None, [], true => Some (mkE vo vf vi vg ve false sc (dn ++ [None]) u cr cc t_o tf ti tg te vs ts vl tl) | _, _, _, _ => None end
  (* the connection was closed by a close frame: the same without a frame *)
  | SErr => match sr, sc with true, Some _ => Some (mkE vo vf vi vg ve false sc dn u cr cc t_o tf ti tg te vs ts vl tl) | _, _ => None end
  (* 99-100, 179-180: handle returns *)
  | SClose => match sr, sc with false, None => Some (mkE vo vf vi vg ve sr (Some false) dn u cr cc t_o tf ti tg te vs ts vl tl) | _, _ => None end
  (* readLoop: data for a task that is gone is dropped (922-936), as is what cannot be written (944-954); 968-976: close *)
  | SFrame k => match u with
      | Some b :: r => Some (if sr then match sc with None => mkE vo vf (vi ++ [b]) vg ve sr sc dn r cr cc t_o tf ti tg te vs ts vl tl | Some _ => mkE vo vf vi vg ve sr sc dn r cr cc t_o tf ti tg te vs ts vl tl end
                             else mkE vo vf vi vg ve sr sc dn r cr cc t_o tf ti tg te vs ts vl tl)
      | None :: r => Some (match sr, sc with
                           | true, None => mkE vo vf (cut vo vi k) vg ve sr (Some true) dn r cr cc t_o tf ti tg te vs ts (vl || loses vo vi k) tl
                           | _, _ => mkE vo vf vi vg ve sr sc dn r cr cc t_o tf ti tg te vs ts vl tl end)
      | [] => None end
  (* task.go 288-304; 315-317, 249-263: the end: a close frame, the task is removed, the connection closed *)
  | CRead => match cr, cc, t_o with true, None, b :: r => Some (mkE vo vf vi vg ve sr sc dn (u ++ [Some b]) cr cc r tf ti tg te vs ts vl tl) | _, _, _ => None end
  | CEof => match cr, cc, t_o, tf with true, None, [], true => Some (mkE vo vf vi vg ve sr sc dn (u ++ [None]) false (Some false) t_o tf ti tg te vs ts vl tl) | _, _, _, _ => None end
  | CErr => match cr, cc with true, Some _ => Some (mkE vo vf vi vg ve sr sc dn u false cc t_o tf ti tg te vs ts vl tl) | _, _ => None end
  (* client/conn.go 480-506, 363-369 *)
  | CFrame k => match dn with
      | Some b :: r => Some (match cr, cc with true, None => mkE vo vf vi vg ve sr sc r u cr cc t_o tf (ti ++ [b]) tg te vs ts vl tl | _, _ => mkE vo vf vi vg ve sr sc r u cr cc t_o tf ti tg te vs ts vl tl end)
      | None :: r => Some (match cr, cc with
                           | true, None => mkE vo vf vi vg ve sr sc r u cr (Some true) t_o tf (cut t_o ti k) tg te vs ts vl (tl || loses t_o ti k)
                           | _, _ => mkE vo vf vi vg ve sr sc r u cr cc t_o tf ti tg te vs ts vl tl end)
      | [] => None end
  end end.
Fixpoint erun (s : est) (tr : list eev) : option est := match tr with [] => Some s | e :: tr => s' ← estep s e; erun s' tr end.
(* what gt, the visitor's reading and the service's reading do of themselves *)
Definition own (e : eev) : bool := match e with VSend _ | VFin | TSend _ | TFin => false | _ => true end.
Definition quiet (s : est) : Prop := forall e, own e = true -> estep s e = None.
Global Instance eev_eq_dec : EqDecision eev. Proof. solve_decision. Defined.
