(* KeepModel.v -- what keeps a working tunnel up: client/conn.go 138-148 (IsTimeout), 183-212, 219-238 (the deadline of readLoop, the pings it sends and counts),
   client/task.go 300-312 and client/peer.go 228-235 (sending a service's bytes moves the deadline, sending the end of one does not: task.go 250-256),
   server/conn.go 834-869 (the server's deadline, its answer to a ping), 990-996, 1046-1052, 1084-1090 (sending a visitor's bytes, or his end, moves the deadline, unless
   -timeoutOnUnidirectionalTraffic), conn/conn.go 43-57 and conn/quicConn.go 20-30 (what a tunnel runs over).  Time is a number (say of milliseconds); a message arrives in
   order and at most [kDelay] after it was sent.  A deadline that has come is met before time goes on.
   A read that runs into its deadline returns a *net.OpError on a TCP connection and, handed through, on a TLS one; a stream of quic-go 0.40 returns an error of its
   own type, which IsTimeout does not know.  With -bbr a deadline is not what it says (C81) and is left out.  Also left out: the closing of surplus tunnels after
   six pings (C35), reloads, a message that arrives in parts, and the time either end takes to handle a message (a service that does not take its data: below, C87). *)
From Verif Require Import GoBase.
Local Open Scope N_scope.

Record kconf := mkK {
  kQuic : bool;             (* the tunnel runs over QUIC *)
  kRemote : option N;       (* -remoteTimeout of the client; None: no timeout *)
  kServer : option N;       (* -timeout of the server *)
  kUni : bool;              (* -timeoutOnUnidirectionalTraffic of the server *)
  kDelay : N;               (* a message arrives within this time *)
  kAnswer : option N }.     (* within this time of a visitor's frame the client sends something, if anything is known about that *)
(* 183-189: time.Duration is a whole number (of nanoseconds) *)
Definition half (f : N) : N := if f / 2 =? 0 then f else f / 2.
Inductive whyend := ClientTimeout | ClientPings | ServerTimeout.
Record kst := mkS {
  kNow : N;
  kCDead : option N;        (* the client's read deadline *)
  kSDead : option N;
  kUp : list (N * bool);    (* on the way to the server: arrives until; is it a ping *)
  kDown : list (N * bool);  (* on the way to the client: arrives until; is it the answer to a ping *)
  kPings : N;               (* pings sent and not answered; the program's counter can also go below zero, by answers nobody asked for *)
  kOwed : list N;           (* until when the client answers what visitors have sent (kAnswer) *)
  kEnd : option whyend }.
Definition later (now : N) (o : option N) : option N := match o with Some d => Some (now + d) | None => None end.
Definition wait (c : kconf) : option N := match kRemote c with Some f => Some (half f) | None => None end.
Definition kst0 (c : kconf) : kst := mkS 0 (wait c) (kServer c) [] [] 0 [] None.
(* SFrame: a visitor's bytes or his end; CFrame: a service's bytes; CEnd: a service's end *)
Inductive kev := Tick (d : N) | SFrame | CFrame | CEnd | CRecv | SRecv | CTimeout | STimeout.
Definition within (t : N) (o : option N) : Prop := match o with Some x => t <= x | None => True end.
(* time does not pass a deadline, the arrival of a message or an answer that is due *)
Definition may_tick (s : kst) (t : N) : Prop := within t (kCDead s) /\ within t (kSDead s) /\ Forall (fun x => t <= x.1) (kUp s) /\ Forall (fun x => t <= x.1) (kDown s) /\ Forall (fun x => t <= x) (kOwed s).
Definition send_up (c : kconf) (s : kst) (ping : bool) : kst := mkS (kNow s) (kCDead s) (kSDead s) (kUp s ++ [(kNow s + kDelay c, ping)]) (kDown s) (kPings s) [] (kEnd s).
Definition send_down (c : kconf) (s : kst) (pong : bool) : kst := mkS (kNow s) (kCDead s) (kSDead s) (kUp s) (kDown s ++ [(kNow s + kDelay c, pong)]) (kPings s) (kOwed s) (kEnd s).
Definition set_c (s : kst) (d : option N) : kst := mkS (kNow s) d (kSDead s) (kUp s) (kDown s) (kPings s) (kOwed s) (kEnd s).
Definition set_s (s : kst) (d : option N) : kst := mkS (kNow s) (kCDead s) d (kUp s) (kDown s) (kPings s) (kOwed s) (kEnd s).
Definition ended (s : kst) (w : whyend) : kst := mkS (kNow s) (kCDead s) (kSDead s) (kUp s) (kDown s) (kPings s) (kOwed s) (Some w).
Inductive kstep (c : kconf) (s : kst) : kev -> kst -> Prop :=
  | KTick d : may_tick s (kNow s + d) -> kstep c s (Tick d) (mkS (kNow s + d) (kCDead s) (kSDead s) (kUp s) (kDown s) (kPings s) (kOwed s) (kEnd s))
  | KSFrame : kstep c s SFrame                                                                                                                 (* server 1041-1052, 1079-1090, 987-996 *)
      (let s := if kUni c then send_down c s false else set_s (send_down c s false) (later (kNow s) (kServer c)) in
       mkS (kNow s) (kCDead s) (kSDead s) (kUp s) (kDown s) (kPings s) (match kAnswer c with Some r => kOwed s ++ [kNow s + r] | None => kOwed s end) (kEnd s))
  | KCFrame : kstep c s CFrame (set_c (send_up c s false) (later (kNow s) (kRemote c)))                                                        (* task.go 302-312, peer.go 223-235 *)
  | KCEnd : kstep c s CEnd (send_up c s false)                                                                                                 (* task.go 251-254 *)
  | KCRecv t pong l : kDown s = (t, pong) :: l ->                                                                                              (* 191-197, 219-221 *)
      kstep c s CRecv (mkS (kNow s) (later (kNow s) (wait c)) (kSDead s) (kUp s) l (if pong then kPings s - 1 else kPings s) (kOwed s) (kEnd s))
  | KSRecv t (ping : bool) l : kUp s = (t, ping) :: l ->                                                                                       (* server 834-840, 854-869 *)
      kstep c s SRecv (let s := mkS (kNow s) (kCDead s) (later (kNow s) (kServer c)) l (kDown s) (kPings s) (kOwed s) (kEnd s) in if ping then send_down c s true else s)
  | KCTimeout : kCDead s = Some (kNow s) ->                                                                                                    (* 138-148, 191, 201-208 *)
      kstep c s CTimeout (if kQuic c then ended s ClientTimeout
        else let s := send_up c (mkS (kNow s) (later (kNow s) (wait c)) (kSDead s) (kUp s) (kDown s) (kPings s + 1) (kOwed s) (kEnd s)) true in if 3 <? kPings s then ended s ClientPings else s)
  | KSTimeout : kSDead s = Some (kNow s) -> kstep c s STimeout (ended s ServerTimeout).                                                        (* server 841-844 *)
Inductive kreach (c : kconf) : kst -> list kev -> Prop :=
  | KInit : kreach c (kst0 c) []
  | KStep s evs e s' : kreach c s evs -> kEnd s = None -> kstep c s e s' -> kreach c s' (evs ++ [e]).

(* ---- a client that is busy with a message: client/conn.go 376-387 (net.Dial has no timeout of its own), 407-412 (tried three times), 426, 483 (a write to a service has no deadline).
   All this happens in readLoop: until it is done nothing is read and no ping is sent; the deadline passes unnoticed, unless a part of the message is still to be read. ---- *)
Inductive bev := Ev (e : kev) | Busy (rest : bool) | Free.
Definition client_reads (e : kev) : bool := match e with CRecv | CTimeout => true | _ => false end.
Definition may_tick_busy (s : kst) (t : N) : Prop := within t (kSDead s) /\ Forall (fun x => t <= x.1) (kUp s).
Definition overdue (s : kst) : bool := match kCDead s with Some d => d <=? kNow s | None => false end.
Inductive bstep (c : kconf) : kst * option bool -> bev -> kst * option bool -> Prop :=
  | BEv s e s' : kstep c s e s' -> bstep c (s, None) (Ev e) (s', None)
  | BBusy s rest : bstep c (s, None) (Busy rest) (s, Some rest)
  | BTick s rest d : may_tick_busy s (kNow s + d) ->
      bstep c (s, Some rest) (Ev (Tick d)) (mkS (kNow s + d) (kCDead s) (kSDead s) (kUp s) (kDown s) (kPings s) (kOwed s) (kEnd s), Some rest)
  | BOther s rest e s' : client_reads e = false -> (forall d, e <> Tick d) -> kstep c s e s' -> bstep c (s, Some rest) (Ev e) (s', Some rest)
  | BFree s rest : bstep c (s, Some rest) Free (if rest && overdue s then ended s ClientTimeout else set_c s (later (kNow s) (wait c)), None).     (* 191-197, 343-350 *)
Inductive breach (c : kconf) : kst * option bool -> list bev -> Prop :=
  | BInit : breach c (kst0 c, None) []
  | BStep x evs e x' : breach c x evs -> kEnd x.1 = None -> bstep c x e x' -> breach c x' (evs ++ [e]).
