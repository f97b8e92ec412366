(* GoneModel.v -- a tunnel that this end has closed: conn/conn.go 66-88 (Close), conn/quicConn.go 20-30 (a QUIC tunnel without -bbr), the read loops server/conn.go 820-957, client/conn.go 183-387,
   server/conn.go 979-1008 with client/task.go 246-276 (who closes it), server/client.go 269-317 (getTunnel, removeTunnel), 78-130 (the tunnel a visitor is given).
   net.TCPConn, tls.Conn: Close ends a Read that waits, later ones and SetReadDeadline fail.  quic-go 0.40: QuicConnection embeds a Connection, which has no Close, and a Stream, whose Close ends the
   writing direction only: reads and SetReadDeadline go on as before, until the peer ends its direction, the deadline passes or nothing at all comes from the peer.
   Simplified: the peer's frames are whole (C102); a read takes any number of bytes up to the reader's capacity, also for a frame that does not fit (its bytes are passed on as they come);
   a deadline that passes ends the loop (server; client over QUIC, C99); the client's ping over TCP is left out, a closed TCP connection does not get there. *)
From Verif Require Import GoBase FrameModel FrameSpec.
Local Open Scope nat_scope.

Record gst := mkG {
  gQuic : bool; gTimer : bool; gCap : nat;        (* the transport, whether there is a read timeout, the reader's capacity (4096) *)
  gNet : list frame; gGot : nat;                  (* sent by the peer and not handled; how many of their bytes have been read from the connection *)
  gFin : bool;                                    (* the peer has ended *)
  gClosed : bool; gEnded : bool;                  (* closed at this end; the read loop has returned *)
  gMid : bool;                                    (* the loop is past SetReadDeadline *)
  gAfter : list frame }.                          (* ghost: handled after the tunnel was closed *)
Inductive gev := GSend (f : frame) | GFin | GClose | GTop | GFill (k : nat) | GHand | GErr | GTime.
Definition own (e : gev) : bool := match e with GTop | GHand | GErr => true | _ => false end.     (* steps of the loop that wait for nothing *)
Definition size (f : frame) : nat := length (enc_frame f).
Definition need (s : gst) : bool := match gNet s with f :: _ => gGot s <? size f | [] => true end.
(* a Read fails at once *)
Definition cut (s : gst) : bool := gClosed s && negb (gQuic s).
Definition gset (s : gst) (net : list frame) (got : nat) (ended mid : bool) : gst := mkG (gQuic s) (gTimer s) (gCap s) net got (gFin s) (gClosed s) ended mid (gAfter s).
Definition gstep (s : gst) (e : gev) : option gst :=
  match e with
  | GSend f => if gFin s then None else Some (gset s (gNet s ++ [f]) (gGot s) (gEnded s) (gMid s))
  | GFin => Some (mkG (gQuic s) (gTimer s) (gCap s) (gNet s) (gGot s) true (gClosed s) (gEnded s) (gMid s) (gAfter s))
  | GClose => if gClosed s then None else Some (mkG (gQuic s) (gTimer s) (gCap s) (gNet s) (gGot s) (gFin s) true (gEnded s) (gMid s) [])
  (* server 834-840, client 191-197 *)
  | GTop => if gEnded s || gMid s then None else Some (if gTimer s && cut s then gset s (gNet s) (gGot s) true false else gset s (gNet s) (gGot s) false true)
  | GFill k => if negb (gEnded s) && gMid s && need s && negb (cut s) && (0 <? k) && (k <=? gCap s) && (gGot s + k <=? length (wire (gNet s)))
               then Some (gset s (gNet s) (gGot s + k) false true) else None
  | GHand => if gEnded s || negb (gMid s) || need s then None else
      match gNet s with
      | [] => None
      | f :: fs => Some (mkG (gQuic s) (gTimer s) (gCap s) fs (gGot s - size f) (gFin s) (gClosed s) false false (if gClosed s then gAfter s ++ [f] else gAfter s))
      end
  | GErr => if negb (gEnded s) && gMid s && need s && (cut s || (gFin s && (gGot s =? length (wire (gNet s))))) then Some (gset s (gNet s) (gGot s) true false) else None
  | GTime => if negb (gEnded s) && gMid s && need s && negb (cut s) && gTimer s then Some (gset s (gNet s) (gGot s) true false) else None
  end.
Fixpoint grun (s : gst) (tr : list gev) : option gst := match tr with [] => Some s | e :: tr => s' ← gstep s e; grun s' tr end.
Definition gst0 (quic timer : bool) (cap : nat) : gst := mkG quic timer cap [] 0 false false false false [].

(* ---- the tunnels of one client at the server, and the visitors ---- *)
Record tun := mkT { tQuic : bool; tClosed : bool; tListed : bool; tTasks : nat }.
Record tst := mkTS { tsTuns : list tun; tsLost : nat; tsServed : nat }.
Inductive tev := TVisit (i : nat) | TDone (i : nat) | TFail (i : nat) | TLoop (i : nat) | TPeer (i : nat).
(* 290-317: the one with the fewest tasks; map order decides among equals *)
Definition can_pick (ts : list tun) (t : tun) : bool := tListed t && forallb (fun u => negb (tListed u) || (tTasks t <=? tTasks u)) ts.
Definition tset (s : tst) (i : nat) (t : tun) : list tun := <[i := t]> (tsTuns s).
Definition tstep (s : tst) (e : tev) : option tst :=
  match e with
  (* on a closed tunnel process's first Write fails: server/conn.go 1041-1045, 993-996 *)
  | TVisit i => t ← tsTuns s !! i; if can_pick (tsTuns s) t then
      Some (if tClosed t then mkTS (tsTuns s) (S (tsLost s)) (tsServed s) else mkTS (tset s i (mkT (tQuic t) false true (S (tTasks t)))) (tsLost s) (S (tsServed s))) else None
  | TDone i => t ← tsTuns s !! i; match tTasks t with 0 => None | S n => Some (mkTS (tset s i (mkT (tQuic t) (tClosed t) (tListed t) n)) (tsLost s) (tsServed s)) end
  (* a visitor's Write fails: 1003-1007 *)
  | TFail i => t ← tsTuns s !! i; match tTasks t with 0 => None | S n => Some (mkTS (tset s i (mkT (tQuic t) true (tListed t) n)) (tsLost s) (tsServed s)) end
  (* the loop of a closed tunnel ends by itself, and the tunnel is removed *)
  | TLoop i => t ← tsTuns s !! i; if tClosed t && tListed t && negb (tQuic t) then Some (mkTS (tset s i (mkT (tQuic t) true false (tTasks t))) (tsLost s) (tsServed s)) else None
  (* the peer ends, or its silence *)
  | TPeer i => t ← tsTuns s !! i; if tListed t then Some (mkTS (tset s i (mkT (tQuic t) true false (tTasks t))) (tsLost s) (tsServed s)) else None
  end.
Fixpoint trun (s : tst) (tr : list tev) : option tst := match tr with [] => Some s | e :: tr => s' ← tstep s e; trun s' tr end.
Definition tst0 (quics : list bool) : tst := mkTS ((fun q => mkT q false true 0) <$> quics) 0 0.
