(* BbrModel.v -- QUIC connections with -bbr: conn/msquic/stream.go (Close, Read, Write and the callbacks of msquic), stream.cpp 38-44
   (Send), 46-80 (callback), conneciton.go 116-121 (SetDeadline).  msquic calls back one event at a time for a stream, SHUTDOWN_COMPLETE last; it
   keeps a pointer to the array of QUIC_BUFFER given to StreamSend until SEND_COMPLETE (its documented contract), here the one sendBuffer of the
   Stream object.  Left out: ReceiveComplete's flow control; memory freed by Close. *)
From Verif Require Import GoBase.
Local Open Scope N_scope.

(* ---- receiving ---- *)
Record rstream := mkRs {
  sBuf : bytes;            (* receiveBuf *)
  sQueue : option bytes;   (* onReceive, room for one *)
  sBack : option bytes;    (* OnStreamReceive waits to send this *)
  sClosed : bool;          (* onClose is closed *)
  sGot : bytes;            (* all that msquic has delivered *)
  sRead : bytes;           (* all that Read has returned *)
  sEof : bool }.           (* Read has returned EOF *)
Definition rs0 : rstream := mkRs [] None None false [] [] false.
Inductive sev :=
  | SRecv (c : bytes)      (* OnStreamReceive is called *)
  | SBack                  (* ... its send goes on: the channel has room *)
  | SGiveUp                (* ... its select finds onClose closed *)
  | SRead (n : N)          (* Read of a buffer with n bytes returns data *)
  | SReadEof               (* Read's select finds onClose closed *)
  | SShut                  (* OnStreamShutdownComplete *)
  | SClose.                (* Close *)
Definition sstep (s : rstream) (e : sev) : option rstream :=
  match s with mkRs buf q b cl got rd eof =>
  match e with
  | SRecv c => if cl then None else match b with
               | Some _ => None
               | None => Some (match q with None => mkRs buf (Some c) None cl (got ++ c) rd eof | Some _ => mkRs buf q (Some c) cl (got ++ c) rd eof end)
               end
  | SBack => match b, q with Some c, None => Some (mkRs buf (Some c) None cl got rd eof) | _, _ => None end
  | SGiveUp => match b with Some _ => if cl then Some (mkRs buf q None cl got rd eof) else None | None => None end
  (* 42-60 *)
  | SRead n => match buf, q with
               | _ :: _, _ => Some (mkRs (drop (N.to_nat n) buf) q b cl got (rd ++ take (N.to_nat n) buf) eof)
               | [], Some c => Some (mkRs (drop (N.to_nat n) c) None b cl got (rd ++ take (N.to_nat n) c) eof)
               | [], None => None
               end
  | SReadEof => match buf with [] => if cl then Some (mkRs buf q b cl got rd true) else None | _ => None end
  | SShut => match b with None => Some (mkRs buf q b true got rd eof) | Some _ => None end
  | SClose => Some (mkRs buf q b true got rd eof)
  end
  end.
Fixpoint srun (s : rstream) (es : list sev) : option rstream :=
  match es with [] => Some s | e :: es => s ← sstep s e; srun s es end.

(* ---- sending ---- *)
Record wstream := mkWs {
  wDesc : bytes;                     (* sendBuffer: what it points to *)
  wPend : nat;                       (* requests msquic has not yet sent *)
  wDone : nat;                       (* SEND_COMPLETE events whose OnStreamSendComplete has not been taken by a Write *)
  wWait : list (N * bytes);          (* Writes that wait at 68 *)
  wRet : list (N * bytes);           (* Writes that have returned without error *)
  wSent : list bytes }.              (* what went to the network, a request each *)
Definition ws0 : wstream := mkWs [] 0 0 [] [] [].
Inductive xev :=
  | XWrite (i : N) (d : bytes) (ok : bool)  (* Write is called: CBytes, StreamSend, ok: it succeeds.  Send's result is dropped, stream.cpp 95 *)
  | XSend                                   (* msquic sends the oldest request: it reads the descriptor now *)
  | XRet (i : N).                           (* the Write of i takes from onSend *)
Definition xstep (s : wstream) (e : xev) : option wstream :=
  match s with mkWs desc pend dn w ret sent =>
  match e with
  | XWrite i d ok => Some (mkWs d (if ok then S pend else pend) dn (w ++ [(i, d)]) ret sent)
  | XSend => match pend with O => None | S p => Some (mkWs desc p (S dn) w ret (sent ++ [desc])) end
  | XRet i => match dn, list_find (fun x => x.1 = i) w with
              | S k, Some (p, x) => Some (mkWs desc pend k (delete p w) (ret ++ [x]) sent)
              | _, _ => None
              end
  end
  end.
Fixpoint xrun (s : wstream) (es : list xev) : option wstream :=
  match es with [] => Some s | e :: es => s ← xstep s e; xrun s es end.

(* ---- deadlines ---- *)
(* conneciton.go 118-119: time.Since(t)/time.Millisecond in an uint64_t; now and t in nanoseconds *)
Definition idle_ms (now t : Z) : Z := (Z.quot (now - t) 1000000 mod 2 ^ 64)%Z.
