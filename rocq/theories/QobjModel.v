(* QobjModel.v -- what a QUIC connection with -bbr holds, and when it is released: conn/msquic/msquicConn.go 15-39 (Close, MsquicDial), conneciton.go 31-71 (NewConnection), 124-152
   (Close, OpenStream), 187-206 (OnPeerStreamStarted), stream.go 33-76 (Close, Read, Write), connection.cpp 12-22, 146-157 (the C++ objects), conn/conn.go 43-57 (Connection.Write),
   67-88 (Close).

   A C++ object is made with new and deleted by DeleteStream / DeleteConnection; go-pointer's table keeps a Go object until Unref.  msquic calls back for one connection
   and its streams from one thread, one call at a time.  Left out: what is sent and received (C81); the buffers of Write; the configuration handles. *)
From Verif Require Import GoBase.
Local Open Scope N_scope.

(* ---- dialling ---- *)
Inductive obj := PtrConn | CppConn | PtrStream | CppStream.   (* entries of the table, C++ objects *)
Record world := mkW { wLive : gmap N obj; wNext : N; wConns : list (N * N * N * N) }.   (* the connections given out and not closed: their four objects *)
Definition w0 : world := mkW ∅ 0 [].
(* how a dial goes: net.SplitHostPort, strconv.Atoi, ConnectionStart; connected before it is closed; StreamStart; started before it is closed *)
Record fate := mkF { fSplit : bool; fPort : bool; fStart : bool; fConnected : bool; fStream : bool; fStarted : bool }.
Definition put (w : world) (o : obj) : N * world := (wNext w, mkW (<[wNext w := o]> (wLive w)) (wNext w + 1) (wConns w)).
(* 24-39 with 31-71 and 133-152; a C++ object whose Start fails is deleted by NewConnection / OpenStream *)
Definition dial (f : fate) (w : world) : bool * world :=
  let '(a, w) := put w PtrConn in
  if negb (fSplit f) then (false, w) else
  if negb (fPort f) then (false, w) else
  if negb (fStart f) then (false, w) else
  let '(b, w) := put w CppConn in
  if negb (fConnected f) then (false, w) else
  let '(c, w) := put w PtrStream in
  if negb (fStream f) then (false, w) else
  let '(d, w) := put w CppStream in
  if negb (fStarted f) then (false, w) else (true, mkW (wLive w) (wNext w) (wConns w ++ [(a, b, c, d)])).
(* msquicConn.go 15-22: of the i-th connection that is open *)
Definition hang_up (i : nat) (w : world) : world :=
  match wConns w !! i with
  | Some (a, b, c, d) => mkW (delete a (delete b (delete c (delete d (wLive w))))) (wNext w) (delete i (wConns w))
  | None => w
  end.
Inductive wev := WDial (f : fate) | WClose (i : nat).
Definition wstep (w : world) (e : wev) : world := match e with WDial f => snd (dial f w) | WClose i => hang_up i w end.
Definition wrun (es : list wev) : world := foldl wstep w0 es.

(* ---- using and closing one connection ---- *)
(* a goroutine in Write: before SetWriteDeadline (conn.go 45, if there is a timeout), before StreamSend, waiting for the end; in Read: waiting for data, before ReceiveComplete *)
Inductive opc := WDeadline | WSend | WWait | RWait | RComplete.
(* Close: the CAS of conn.go 79; close(onClose); DeleteStream; DeleteConnection *)
Inductive cpc := CNot | CWon | CTold | CStreamGone | CGone.
Record ust := mkU { uOps : gmap N opc; uClose : cpc; uStream : bool; uConn : bool; uFreed : nat (* deletes so far *); uFault : bool (* memory was used after it was freed, or freed twice *) }.
Definition ust0 : ust := mkU ∅ CNot true true 0 false.
Inductive uev :=
  | UWrite (g : N) (timeout : bool) | URead (g : N)    (* a goroutine calls Write, Read *)
  | UGo (g : N)                                        (* it goes on *)
  | UData (g : N)                                      (* data or room for it: the callback wakes it *)
  | UEnd (g : N)                                       (* it sees onClose closed *)
  | UClose                                             (* some goroutine calls Close *)
  | UCloseGo.
Definition with_ops (u : ust) (m : gmap N opc) (fault : bool) : ust := mkU m (uClose u) (uStream u) (uConn u) (uFreed u) (uFault u || fault).
Definition told (c : cpc) : bool := match c with CNot | CWon => false | _ => true end.
Definition ustep (u : ust) (e : uev) : option ust :=
  match e with
  | UWrite g t => match uOps u !! g with None => Some (with_ops u (<[g := if t then WDeadline else WSend]> (uOps u)) false) | _ => None end
  | URead g => match uOps u !! g with None => Some (with_ops u (<[g := RWait]> (uOps u)) false) | _ => None end
  | UGo g => match uOps u !! g with
             | Some WDeadline => Some (with_ops u (<[g := WSend]> (uOps u)) (negb (uConn u)))       (* SetConnectionIdleTimeout(c.cppConn) *)
             | Some WSend => Some (with_ops u (<[g := WWait]> (uOps u)) (negb (uStream u)))         (* StreamSend(s.cppStream) *)
             | Some RComplete => Some (with_ops u (delete g (uOps u)) (negb (uStream u)))           (* StreamReceiveComplete(s.cppStream) *)
             | _ => None
             end
  | UData g => match uOps u !! g with
               | Some WWait => Some (with_ops u (delete g (uOps u)) false)
               | Some RWait => Some (with_ops u (<[g := RComplete]> (uOps u)) false)
               | _ => None
               end
  | UEnd g => match uOps u !! g with
              | Some WWait | Some RWait => if told (uClose u) then Some (with_ops u (delete g (uOps u)) false) else None
              | _ => None
              end
  | UClose => Some (match uClose u with CNot => mkU (uOps u) CWon (uStream u) (uConn u) (uFreed u) (uFault u) | _ => u end)
  | UCloseGo => match uClose u with
                | CWon => Some (mkU (uOps u) CTold (uStream u) (uConn u) (uFreed u) (uFault u))
                | CTold => Some (mkU (uOps u) CStreamGone false (uConn u) (S (uFreed u)) (uFault u || negb (uStream u)))
                | CStreamGone => Some (mkU (uOps u) CGone false false (S (uFreed u)) (uFault u || negb (uConn u)))
                | _ => None
                end
  end.
Fixpoint urun (u : ust) (es : list uev) : option ust := match es with [] => Some u | e :: es => u' ← ustep u e; urun u' es end.

(* ---- streams a client opens ---- *)
(* the callback thread: free, or in OnPeerStreamStarted, which waits for room in the channel (one place) or for the connection's end (201-204) *)
Record sst := mkS { sQueue : list N; sBlocked : option N; sServed : list N (* returned by PeerStreamStarted *); sEnded : bool; sData : list N (* what the thread has delivered *) }.
Definition sst0 : sst := mkS [] None [] false [].
Inductive sev := SOpen (i : N) | SAccept | SData (i : N) | SShut | SClose | SFree.
Definition sstep (s : sst) (e : sev) : option sst :=
  match s with mkS q b sv en d =>
  match e with
  | SOpen i => match b with Some _ => None | None => Some (match q with [] => mkS [i] None sv en d | _ => mkS q (Some i) sv en d end) end
  | SAccept => match q, sv with i :: q', [] => Some (mkS q' b [i] en d) | _, _ => None end      (* Listener.Accept asks once per connection: listener.go 67 *)
  | SFree => match b with Some i => match q with [] => Some (mkS [i] None sv en d) | _ => if en then Some (mkS q None sv en d) else None end | None => None end
  | SData i => match b with None => Some (mkS q None sv en (d ++ [i])) | Some _ => None end     (* any callback for a stream of this connection *)
  | SShut => match b with None => Some (mkS q None sv true d) | Some _ => None end              (* OnConnectionShutdownComplete *)
  | SClose => Some (mkS q b sv true d)                                                          (* gt closes the connection *)
  end end.
Fixpoint srun (s : sst) (es : list sev) : option sst := match es with [] => Some s | e :: es => s' ← sstep s e; srun s' es end.
