(* PeerModel.v -- client/peer.go 248-333, peerproc.go 236-317 (process): the messages of a peer-to-peer visitor (an offer or an
   answer, then candidates), each with a two-byte length, in the bodies of one or more requests.  The reader is
   std.NewChunkedReader (modelled in ChunkedModel); here it is any reader that hands out the body in pieces. *)
From Verif Require Import GoBase.
Local Open Scope N_scope.

Definition maxBuffer : N := 4096.                       (* pool/pool.go: MaxBufferSize *)

(* pt.state with pt.dataLen, pt.n, pt.data: in dataLength the bytes of the length that were read (at most 2); in dataBody
   and processData the two bytes and the bytes of the message that were read *)
Inductive pstate := PLen (len : bytes) | PBody (hi lo : N) (data : bytes) | PProc (hi lo : N) (data : bytes).
Definition want (hi lo : N) : N := hi * 256 + lo.       (* 273, 282: both bytes below 256 *)

(* what a Read returns next to its bytes: nil, io.EOF or io.ErrUnexpectedEOF, another error *)
Inductive rerr := ROk | REof | ROther.
#[global] Instance rerr_eq_dec : EqDecision rerr. Proof. solve_decision. Defined.

(* [qIn]: a request is being processed, and the error of the last Read; [qInit]: pt.initDone *)
Record pst := mkP { pSt : pstate; pInit : bool; pIn : option rerr }.
Definition pst0 : pst := mkP (PLen []) false None.

Inductive pevt :=
  | PRequest                         (* a request begins: process is called *)
  | PRead (b : bytes)                (* Read has handed out b *)
  | POffer (m : bytes) (ok : bool)   (* initFn is called with m; did it succeed *)
  | PCand (m : bytes) (ok : bool)    (* m is handed on as a candidate; did that succeed *)
  | PReturn (ok : bool)              (* process returns; not ok: status 400 *)
  | PTau.

Inductive pstep : pst -> list pevt -> pst -> Prop :=
  | ps_request st i : pstep (mkP st i None) [PRequest] (mkP st i (Some ROk))
  (* 254-270: the length *)
  | ps_len l i e b r : (length (l ++ b) < 2)%nat ->
      pstep (mkP (PLen l) i (Some e)) (PRead b :: (match r with ROk => [] | REof => [PReturn true] | ROther => [PReturn false] end))
            (mkP (PLen (l ++ b)) i (match r with ROk => Some ROk | _ => None end))
  | ps_len_done l i e b r hi lo : l ++ b = [hi; lo] -> want hi lo <= maxBuffer ->
      pstep (mkP (PLen l) i (Some e)) [PRead b] (mkP (PBody hi lo []) i (Some r))
  (* 274-277; the state and the length stay *)
  | ps_len_too_long l i e b hi lo : l ++ b = [hi; lo] -> maxBuffer < want hi lo ->
      pstep (mkP (PLen l) i (Some e)) [PRead b; PReturn false] (mkP (PLen [hi; lo]) i None)
  (* 280-293: the message *)
  | ps_body hi lo d i e b r : N.of_nat (length (d ++ b)) < want hi lo ->
      pstep (mkP (PBody hi lo d) i (Some e)) (PRead b :: (match r with ROk => [] | _ => [PReturn false] end))
            (mkP (PBody hi lo (d ++ b)) i (match r with ROk => Some ROk | _ => None end))
  | ps_body_done hi lo d i e b r : N.of_nat (length (d ++ b)) = want hi lo ->
      pstep (mkP (PBody hi lo d) i (Some e)) [PRead b] (mkP (PProc hi lo (d ++ b)) i (Some r))
  (* 296-302: the first message.  initDone is set in any case; err becomes that of initFn. *)
  | ps_offer hi lo d e : pstep (mkP (PProc hi lo d) false (Some e)) [POffer d true] (mkP (PLen []) true (Some ROk))
  | ps_offer_fails hi lo d e : pstep (mkP (PProc hi lo d) false (Some e)) [POffer d false; PReturn false] (mkP (PProc hi lo d) true None)
  (* 303-316; the error of 305 and 310 is a new variable, err is still that of the Read *)
  | ps_cand_fails hi lo d e : pstep (mkP (PProc hi lo d) true (Some e)) [PCand d false; PReturn (bool_decide (e = ROk))] (mkP (PProc hi lo d) true None)
  (* 318-330 *)
  | ps_cand hi lo d e :
      pstep (mkP (PProc hi lo d) true (Some e))
            (PCand d true :: (match e with ROk => [] | REof => [PReturn true] | ROther => [PReturn false] end))
            (mkP (PLen []) true (match e with ROk => Some ROk | _ => None end)).

Inductive pexec : pst -> list pevt -> pst -> Prop :=
  | px_nil s : pexec s [] s
  | px_snoc s tr s1 l s2 : pexec s tr s1 -> pstep s1 l s2 -> pexec s (tr ++ l) s2.
