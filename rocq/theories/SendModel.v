(* SendModel.v -- client/webrtc/datachannel.go: SendOnce 114-139, Send 141-157, Close 159-165, onBufferedAmountChange 103-112, and the loop of
   client/peer.go 566-592 that calls Send with what it has read from the service.  One sender, as in that loop.  Simplified: libwebrtc takes a
   message (DataChannelSend is true) only if it fits into the send queue, and calls onBufferedAmountChange whenever it has sent some of it. *)
From Verif Require Import GoBase.
Local Open Scope N_scope.

Inductive dpc :=
  | DTop (k : nat)      (* Send, try k; before 116 *)
  | DPre (k : nat)      (* before 120 *)
  | DWait (k : nat)     (* 120 done, Wait not yet begun *)
  | DAsleep (k : nat)   (* in Wait *)
  | DWoken (k : nat)    (* Wait returns *)
  | DSend (k : nat)     (* before 135 *)
  | DPause (k : nat)    (* 146-154: not sent *)
  | DEnd.               (* the loop has ended *)
Record dst := mkDs {
  dMax : N; dBuf : N;          (* MaxSendQueueSize, BufferedAmount *)
  dQueue : list bytes;         (* what the channel has taken *)
  dLeft : list bytes;          (* what is still to be sent, the current message first *)
  dPc : dpc; dWaiting : bool; dClosed : bool;
  dFreed : bool;               (* the channel was used after DeleteDataChannel *)
  dRes : list bool }.          (* what Send has returned *)
Inductive dev := KCheck | KMark | KSleep | KWoken | KSend (ok : bool) | KPause (open : bool) | KNet (n : N) | KClose.
Definition fits (s : dst) (m : bytes) : bool := blen m <=? dMax s - dBuf s.
Definition dstep (s : dst) (e : dev) : option dst :=
  match s with mkDs mx b q l pc w c fr res =>
  match e, pc with
  | KCheck, DTop k => match l with
      | [] => Some (mkDs mx b q l DEnd w c fr res)
      | m :: _ => if fits s m then Some (mkDs mx b q l (DSend k) w c (fr || c) res) else Some (mkDs mx b q l (DPre k) w c (fr || c) res)
      end
  | KMark, DPre k => Some (mkDs mx b q l (DWait k) true c fr res)
  | KSleep, DWait k => Some (mkDs mx b q l (DAsleep k) w c fr res)
  | KWoken, DWoken k => if c then Some (mkDs mx b q l DEnd w c fr (res ++ [false])) else match l with
      | m :: _ => if fits s m then Some (mkDs mx b q l (DSend k) false c fr res) else Some (mkDs mx b q l (DPre k) w c fr res)
      | [] => None
      end
  | KSend ok, DSend k => match l with
      | m :: l' => if ok then if negb c && (b + blen m <=? mx) then Some (mkDs mx (b + blen m) (q ++ [m]) l' (DTop 0) w c fr (res ++ [true])) else None
                   else Some (mkDs mx b q l (DPause k) w c (fr || c) res)
      | [] => None
      end
  | KPause open, DPause k => if open && (k <? 9)%nat then Some (mkDs mx b q l (DTop (S k)) w c (fr || c) res) else Some (mkDs mx b q l DEnd w c (fr || c) (res ++ [false]))
  | KNet n, _ => if negb c && (0 <? n) && (n <=? b) then Some (mkDs mx (b - n) q l (match pc with DAsleep k => if w then DWoken k else DAsleep k | _ => pc end) w c fr res) else None
  | KClose, _ => Some (mkDs mx b q l (match pc with DAsleep k => DWoken k | _ => pc end) w true fr res)
  | _, _ => None
  end
  end.
Fixpoint drun (s : dst) (es : list dev) : option dst :=
  match es with [] => Some s | e :: es => s ← dstep s e; drun s es end.
Definition d0 (mx : N) (ms : list bytes) : dst := mkDs mx 0 [] ms (DTop 0) false false false [].
