(* TornModel.v -- several goroutines writing to one tunnel whose peer does not always read: conn/conn.go 43-57 (Write: the deadline, then net.Conn's Write), the writers' reactions to an error:
   server/conn.go 984-1006, 1042-1045, 1080-1083, client/task.go 249-277, 302-305, client/peer.go 190-204, 224-227 (data and close frames: the connection is closed), conn/conn.go 227-236 (reconnect
   signal: ignored), 217-224 with server/conn.go 999-1001 and client/task.go 267-271 (a closing tunnel's last task: a close signal is still written, then the connection is closed).
   net.Conn: the deadline belongs to the connection, a Write holds the connection's write lock from its first byte to its return, and at the deadline it returns with what has been taken by then staying
   taken.  kSticky: a connection on which a Write has failed takes nothing more (crypto/tls); a TCP connection does (net: the next Write with a new deadline starts afresh).
   Simplified: bytes are taken one at a time; any failed writer of a closing tunnel may be its last one; that last signal is written once, not twice (forceCloseBytes). *)
From Verif Require Import GoBase FrameModel FrameSpec.
Local Open Scope nat_scope.

Inductive wph :=
  | PIdle        (* not writing *)
  | PArmed       (* has set the deadline: waits for the write lock, or has it *)
  | PFailed      (* its Write has returned an error *)
  | POver.       (* has closed the connection *)
(* a goroutine: the frames it has to write, one per Write; whether it ignores errors *)
Record wtr := mkW { wTodo : list frame; wPh : wph; wQuiet : bool; wWord : bool }.
Record kst := mkK {
  kT : nat; kSticky : bool; kClosing : bool;      (* the timeout (0: none), the transport, whether the tunnel is closing *)
  kNow : nat; kDl : nat;
  kWire : bytes;                                  (* taken by the transport so far *)
  kHold : option (nat * nat);                     (* who has the write lock, and how many bytes of the frame are taken *)
  kBad : bool;                                    (* a Write has failed *)
  kShut : bool;                                   (* the connection is closed at this end *)
  kWs : list wtr;
  kLog : list (nat * frame) }.                    (* ghost: the Writes that have succeeded, and whose they were *)
Inductive kev := KTick | KArm (i : nat) | KTake (i : nat) | KPut | KOk | KFail | KShut (i : nat) | KWord (i : nat) | KEnd.
Global Instance kev_eq_dec : EqDecision kev. Proof. solve_decision. Defined.
Definition begins (e : kev) : bool := match e with KArm _ => true | _ => false end.    (* a Write begins *)
Definition late (s : kst) : bool := (0 <? kT s) && (kDl s <=? kNow s).
Definition dead (s : kst) : bool := kShut s || (kSticky s && kBad s).
Definition setw (s : kst) (i : nat) (f : wtr -> wtr) : list wtr := alter f i (kWs s).
Definition ph (p : wph) (w : wtr) : wtr := mkW (wTodo w) p (wQuiet w) (wWord w).
Definition hold (h : option (nat * nat)) (s : kst) : kst := mkK (kT s) (kSticky s) (kClosing s) (kNow s) (kDl s) (kWire s) h (kBad s) (kShut s) (kWs s) (kLog s).
Definition put (w : bytes) (s : kst) : kst := mkK (kT s) (kSticky s) (kClosing s) (kNow s) (kDl s) (kWire s ++ w) (kHold s) (kBad s) (kShut s) (kWs s) (kLog s).
Definition withw (ws : list wtr) (s : kst) : kst := mkK (kT s) (kSticky s) (kClosing s) (kNow s) (kDl s) (kWire s) (kHold s) (kBad s) (kShut s) ws (kLog s).
Definition bad (s : kst) : kst := mkK (kT s) (kSticky s) (kClosing s) (kNow s) (kDl s) (kWire s) (kHold s) true (kShut s) (kWs s) (kLog s).
Definition shut (s : kst) : kst := mkK (kT s) (kSticky s) (kClosing s) (kNow s) (kDl s) (kWire s) (kHold s) (kBad s) true (kWs s) (kLog s).
Definition logw (i : nat) (f : frame) (s : kst) : kst := mkK (kT s) (kSticky s) (kClosing s) (kNow s) (kDl s) (kWire s) (kHold s) (kBad s) (kShut s) (kWs s) (kLog s ++ [(i, f)]).
Definition next (w : wtr) : wtr := mkW (tail (wTodo w)) PIdle (wQuiet w) (wWord w).
Definition holder (s : kst) : option (nat * nat * frame) := '(i, n) ← kHold s; w ← kWs s !! i; f ← head (wTodo w); Some (i, n, f).
Definition kstep (s : kst) (e : kev) : option kst :=
  match e with
  | KTick => Some (mkK (kT s) (kSticky s) (kClosing s) (S (kNow s)) (kDl s) (kWire s) (kHold s) (kBad s) (kShut s) (kWs s) (kLog s))
  (* 45-51: SetWriteDeadline, which fails on a closed connection *)
  | KArm i => w ← kWs s !! i; match wPh w, wTodo w with
      | PIdle, f :: _ => Some (if kShut s then withw (setw s i (fun w => if wQuiet w then next w else ph PFailed w)) s
                               else mkK (kT s) (kSticky s) (kClosing s) (kNow s) (if 0 <? kT s then kNow s + kT s else kDl s) (kWire s) (kHold s) (kBad s) (kShut s) (setw s i (ph PArmed)) (kLog s))
      | _, _ => None end
  (* 52: the write lock *)
  | KTake i => w ← kWs s !! i; match kHold s, wPh w with None, PArmed => Some (hold (Some (i, 0)) s) | _, _ => None end
  (* a byte is taken *)
  | KPut => '(i, n, f) ← holder s; b ← enc_frame f !! n; if late s || dead s then None else Some (hold (Some (i, S n)) (put [b] s))
  | KOk => '(i, n, f) ← holder s; if n =? length (enc_frame f) then Some (logw i f (hold None (withw (setw s i next) s))) else None
  (* the deadline has passed, or the connection is closed *)
  | KFail => '(i, n, f) ← holder s; if (n <? length (enc_frame f)) && (late s || dead s)
             then Some (bad (hold None (withw (setw s i (fun w => if wQuiet w then next w else ph PFailed w)) s))) else None
  | KShut i => w ← kWs s !! i; match wPh w with PFailed => Some (shut (withw (setw s i (ph POver)) s)) | PIdle => if wWord w && bool_decide (wTodo w = []) then Some (shut (withw (setw s i (ph POver)) s)) else None | _ => None end
  | KWord i => w ← kWs s !! i; match wPh w with PFailed => if kClosing s && negb (wWord w) then Some (withw (setw s i (fun w => mkW [FSignal CloseSignal] PIdle (wQuiet w) true)) s) else None | _ => None end
  (* it is closed by somebody else: the read loop's end, Close *)
  | KEnd => Some (shut s)
  end.
Fixpoint krun (s : kst) (tr : list kev) : option kst := match tr with [] => Some s | e :: tr => s' ← kstep s e; krun s' tr end.
Definition kst0 (T : nat) (sticky closing : bool) (l : list (list frame * bool)) : kst := mkK T sticky closing 0 0 [] None false false ((fun x => mkW x.1 PIdle x.2 false) <$> l) [].
(* the whole frames of writer i in a log *)
Definition of_writer (i : nat) (l : list (nat * frame)) : list frame := (filter (fun x => x.1 = i) l).*2.
