(* AcceptModel.v -- the server's accept loops: server/server.go 290-338 (acceptLoop), conn/quicConn.go 61-69 (QuicListener.Accept) and
   conn/msquic/listener.go 60-80 (Listener.Accept, with -bbr), msquic/conneciton.go 154-161.  The TCP listeners return errors of the operating
   system (Go's syscall.Errno, whose Timeout and Temporary are modelled).  quic-go: AcceptStream waits until the peer opens a stream or
   the connection ends; a connection that ends for idleness is an IdleTimeoutError, whose Timeout() is true, one closed by the peer an ApplicationError or
   TransportError without Timeout.  Simplified: what a handler does with a connection is elsewhere; times in milliseconds. *)
From Verif Require Import GoBase.
Local Open Scope N_scope.

(* Errors of accept(2) *)
Inductive errno := EAGAIN | ETIMEDOUT | EINTR | EMFILE | ENFILE | ENOBUFS | EINVAL.
#[global] Instance errno_dec : EqDecision errno. Proof. solve_decision. Defined.
(* syscall.Errno.Timeout: EAGAIN, EWOULDBLOCK, ETIMEDOUT *)
Definition timeout (e : errno) : bool := match e with EAGAIN | ETIMEDOUT => true | _ => false end.

(* what Accept returns *)
Inductive acc := AConn (c : N) | AErr (is_timeout : bool).
Record aloop := mkL { lRunning : bool; lClosing : bool; lDelay : N (* tempDelay *); lSlept : list N; lHandled : list N }.
Definition l0 : aloop := mkL true false 0 [] [].
Inductive aev := LAcc (a : acc) | LClose.
(* 317-325 *)
Definition next_delay (d : N) : N := let d := if d =? 0 then 5 else d * 2 in if 1000 <? d then 1000 else d.
(* one turn of the loop, and the test of closing at the beginning of the next one *)
Definition lstep (s : aloop) (e : aev) : aloop :=
  match e with
  | LClose => mkL (lRunning s) true (lDelay s) (lSlept s) (lHandled s)
  | LAcc a =>
      if lRunning s then
        match a with
        | AConn c => mkL (negb (lClosing s)) (lClosing s) (lDelay s) (lSlept s) (lHandled s ++ [c])
        | AErr t => if lClosing s then mkL false true (lDelay s) (lSlept s) (lHandled s)
                    else if t then mkL true false (next_delay (lDelay s)) (lSlept s ++ [next_delay (lDelay s)]) (lHandled s)
                    else mkL false false (lDelay s) (lSlept s) (lHandled s)
        end
      else s
  end.
Definition lrun (s : aloop) (es : list aev) : aloop := foldl lstep s es.
(* a TCP listener *)
Definition tcp_acc (r : N + errno) : acc := match r with inl c => AConn c | inr e => AErr (timeout e) end.

(* A QUIC connection, in the order they arrive: opens its stream, ends for idleness, is closed by the peer without a stream, or
   stays open without one *)
Inductive fate := FStream (c : N) | FIdle | FClosed | FOpen.
#[global] Instance fate_dec : EqDecision fate. Proof. solve_decision. Defined.
(* what the successive calls of Accept return: none after a connection that stays open, Accept waits for its stream *)
Fixpoint quic_acc (bbr : bool) (fs : list fate) : list acc :=
  match fs with
  | [] => []
  | FStream c :: fs => AConn c :: quic_acc bbr fs
  | FIdle :: fs => AErr (negb bbr) :: quic_acc bbr fs        (* msquic: errors.New, listener.go 69-71 *)
  | FClosed :: fs => AErr false :: quic_acc bbr fs
  | FOpen :: _ => []
  end.
Definition quic_served (bbr : bool) (fs : list fate) : aloop := lrun l0 (LAcc <$> quic_acc bbr fs).
