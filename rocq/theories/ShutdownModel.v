(* ShutdownModel.v -- the counters of the server and its graceful shutdown:
   server/server.go 290-338 (acceptLoop), 681-729 (Shutdown), server/conn.go 95-173, 327-348 (handle, handleTunnelLoop).
   The counters are uint64; their wrap-around after 2^64 connections is not modelled. *)
From Verif Require Import GoBase.
Local Open Scope nat_scope.

(* an accepted connection, from the counting of it (server.go 331) on *)
Inductive cphase :=
  | PVisitor    (* handle is running and the connection is not (or not yet) a tunnel: conn.go 95-160, 170-172 *)
  | PTunnel     (* between conn.go 337 and 335 *)
  | PEnded      (* a tunnel after conn.go 335, whose handler has not ended yet *)
  | PServed.    (* the deferred increment of server.go 334 is done *)
Global Instance cphase_eq_dec : EqDecision cphase. Proof. solve_decision. Defined.

(* an acceptLoop goroutine: before the load of closing (307), blocked in Accept (311), with a connection in hand before
   line 331, ended *)
Inductive lphase := LCheck | LAccept | LGot | LDone.

(* the goroutine of Shutdown: not called; about to read accepted in round k (708-709); having read accepted (710); having
   read accepted and served (711); asleep after round k (720); past the loop because the condition held (717-719);
   past the loop after the 40th round *)
Inductive sphase :=
  | SNot | SRead (k : nat) | SGotA (k a : nat) | SGotS (k a s : nat) | SSleep (k : nat) | SExit | SGaveUp.

Record sst := mkS { accepted : nat; served : nat; tunneling : nat; closing : bool;
                    conns : list cphase; loops : list lphase; shut : sphase }.
Definition sinit : sst := mkS 0 0 0 false [] [] SNot.

Definition maxRounds : nat := 40.

Inductive sstep : sst -> sst -> Prop :=
  (* a listener is opened: at the start or, for a TCP port, at any time (server.go 230-286, client.go 445) *)
  | st_listen a s t c cs ls sh : sstep (mkS a s t c cs ls sh) (mkS a s t c cs (ls ++ [LCheck]) sh)
  (* 307-309 *)
  | st_check a s t c cs ls sh i : ls !! i = Some LCheck ->
      sstep (mkS a s t c cs ls sh) (mkS a s t c cs (<[i := if c then LDone else LAccept]> ls) sh)
  (* 311: Accept returns a connection.  It may do so after the listener was closed (the connection was queued), and
     quicListener and the TCP ports are not closed at this point. *)
  | st_accept a s t c cs ls sh i : ls !! i = Some LAccept -> sstep (mkS a s t c cs ls sh) (mkS a s t c cs (<[i := LGot]> ls) sh)
  (* 312-330: Accept fails; the loop goes on after a timeout, ends otherwise *)
  | st_fail a s t c cs ls sh i (again : bool) : ls !! i = Some LAccept ->
      sstep (mkS a s t c cs ls sh) (mkS a s t c cs (<[i := if again && negb c then LCheck else LDone]> ls) sh)
  (* 331-337 *)
  | st_count a s t c cs ls sh i : ls !! i = Some LGot ->
      sstep (mkS a s t c cs ls sh) (mkS (S a) s t c (cs ++ [PVisitor]) (<[i := LCheck]> ls) sh)
  (* conn.go 337 *)
  | st_tunnel a s t c cs ls sh j : cs !! j = Some PVisitor ->
      sstep (mkS a s t c cs ls sh) (mkS a s (S t) c (<[j := PTunnel]> cs) ls sh)
  (* conn.go 335 *)
  | st_untunnel a s t c cs ls sh j : cs !! j = Some PTunnel ->
      sstep (mkS a s t c cs ls sh) (mkS a s (pred t) c (<[j := PEnded]> cs) ls sh)
  (* server.go 334: the handler of a visitor, or of an ended tunnel, returns (or panics) *)
  | st_served a s t c cs ls sh j p : cs !! j = Some p -> p = PVisitor \/ p = PEnded ->
      sstep (mkS a s t c cs ls sh) (mkS a (S s) t c (<[j := PServed]> cs) ls sh)
  (* 682-707 *)
  | st_shutdown a s t cs ls : sstep (mkS a s t false cs ls SNot) (mkS a s t true cs ls (SRead 0))
  (* 709, 710, 711-719 *)
  | st_read_a a s t c cs ls k : sstep (mkS a s t c cs ls (SRead k)) (mkS a s t c cs ls (SGotA k a))
  | st_read_s a s t c cs ls k va : sstep (mkS a s t c cs ls (SGotA k va)) (mkS a s t c cs ls (SGotS k va s))
  | st_read_t a s t c cs ls k va vs :
      sstep (mkS a s t c cs ls (SGotS k va vs)) (mkS a s t c cs ls (if va =? vs + t then SExit else SSleep k))
  (* 708, 720 *)
  | st_sleep a s t c cs ls k :
      sstep (mkS a s t c cs ls (SSleep k)) (mkS a s t c cs ls (if S k <? maxRounds then SRead (S k) else SGaveUp)).
Definition sreach := rtc sstep.
