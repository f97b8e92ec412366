(* PipeModel.v -- client/std/pipe.go: the synchronous in-memory pipe (a copy of io.Pipe with StopPending) *)
From stdpp Require Import relations.
From Verif Require Import GoBase.
Local Open Scope N_scope.

(* Every call of Read and Write has an identifier of its own (a goroutine that calls twice counts as two).  The program
   counter keeps the arguments. *)
Inductive rresult := ROk (d : bytes) | RClosed | RStopped.      (* 72, 60/74, 76; the error values are not modelled *)
Inductive ppc :=
  | POut
  | RCheck (cap : N)                              (* 58: the first select, len(b) = cap *)
  | RSel (cap : N)                                (* 64: the second select *)
  | RAck (w : N) (cap : N) (d : bytes)            (* 67: d was copied out of the slice of write w (ghost); before rdCh <- nr *)
  | RDone (cap : N) (r : rresult)
  | WCheck (b : bytes)                            (* 96 *)
  | WMu (b : bytes)                               (* 100: wants wrMu *)
  | WSel (b rest : bytes) (n : N)                 (* 105: b the argument, rest what line 108 left of it *)
  | WAck (b rest : bytes) (n : N)                 (* 107: rest was sent on wrCh *)
  | WDone (b : bytes) (n : N) (ok : bool).
(* pDone: done is closed; pMu: wrMu; pLog (ghost): the hand-overs so far: write call, read call, bytes *)
Record pst := mkPst { pDone : bool; pMu : option N; pPc : N -> ppc; pLog : list (N * N * bytes) }.
Definition pset (f : N -> ppc) (i : N) (p : ppc) : N -> ppc := fun j => if decide (j = i) then p else f j.
Definition pst0 : pst := mkPst false None (fun _ => POut) [].
Inductive pstep : pst -> pst -> Prop :=
| ps_call_read c m f l i cap : f i = POut -> pstep (mkPst c m f l) (mkPst c m (pset f i (RCheck cap)) l)
| ps_call_write c m f l i b : f i = POut -> pstep (mkPst c m f l) (mkPst c m (pset f i (WCheck b)) l)
| ps_rcheck_done m f l i cap : f i = RCheck cap -> pstep (mkPst true m f l) (mkPst true m (pset f i (RDone cap RClosed)) l)
| ps_rcheck_open m f l i cap : f i = RCheck cap -> pstep (mkPst false m f l) (mkPst false m (pset f i (RSel cap)) l)
| ps_rsel_done m f l i cap : f i = RSel cap -> pstep (mkPst true m f l) (mkPst true m (pset f i (RDone cap RClosed)) l)
(* StopPending, 189-191, meets the read *)
| ps_rsel_stop c m f l i cap : f i = RSel cap -> pstep (mkPst c m f l) (mkPst c m (pset f i (RDone cap RStopped)) l)
(* wrCh: a write and a read meet; 66: nr := copy(b, bw) *)
| ps_xfer c m f l w r b rest n cap : f w = WSel b rest n -> f r = RSel cap ->
    pstep (mkPst c m f l) (mkPst c m (pset (pset f w (WAck b rest n)) r (RAck w cap (ntake cap rest))) (l ++ [(w, r, ntake cap rest)]))
(* rdCh: whoever sends and whoever receives *)
| ps_ack c m f l w r w0 cap d b rest n : f w = WAck b rest n -> f r = RAck w0 cap d ->
    pstep (mkPst c m f l)
      (if decide (ndrop (blen d) rest = [])
       then mkPst c None (pset (pset f w (WDone b (n + blen d) true)) r (RDone cap (ROk d))) l          (* 104, 114, unlock 101 *)
       else mkPst c m (pset (pset f w (WSel b (ndrop (blen d) rest) (n + blen d))) r (RDone cap (ROk d))) l)
| ps_wcheck_done m f l i b : f i = WCheck b -> pstep (mkPst true m f l) (mkPst true m (pset f i (WDone b 0 false)) l)
| ps_wcheck_open m f l i b : f i = WCheck b -> pstep (mkPst false m f l) (mkPst false m (pset f i (WMu b)) l)
| ps_lock c f l i b : f i = WMu b -> pstep (mkPst c None f l) (mkPst c (Some i) (pset f i (WSel b b 0)) l)
| ps_wsel_done m f l i b rest n : f i = WSel b rest n -> pstep (mkPst true m f l) (mkPst true None (pset f i (WDone b n false)) l)   (* 110-111 *)
(* CloseRead 86-92, CloseWrite 125-131 *)
| ps_close c m f l : pstep (mkPst c m f l) (mkPst true m f l).
