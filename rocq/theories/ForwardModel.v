(* ForwardModel.v -- client/tcpforward.go: a local port forwarded over peer connections.  134-156 (createPeerConnections, the choice
   of a connection), 122-141 of tcpForwardStart (the loop that sends what is read), 262-332 of createPeerConnection (the
   offer sent, the answer and candidates read); client/client.go 529-531.  The WebRTC library is left out: it accepts or
   refuses a description or candidate, and a data channel accepts or refuses a message. *)
From Verif Require Import GoBase PeerModel.
Local Open Scope N_scope.

(* client.go 529-531: TCPForwardConnections, at least 1; one peer connection each, 136-144 *)
Definition connections (configured : N) : N := if configured <? 1 then 1 else configured.

(* 146-152: getPeerConnection called by any number of goroutines; gLoaded t: goroutine t is between Load and Store *)
Record rr := mkR { rCounter : N; rLoaded : gmap nat N; rGot : list N }.
Inductive revt := RLoad (t : nat) | RStore (t : nat).
(* n peer connections; a modulus of 0 or an index out of range would be a panic: Panic *)
Inductive rres := RSt (s : rr) | RPanic.
Definition rstep (n : N) (s : rr) (e : revt) : option rres :=
  match e with
  | RLoad t => if bool_decide (is_Some (rLoaded s !! t)) then None
               else Some (if n =? 0 then RPanic else RSt (mkR (rCounter s) (<[t := rCounter s `mod` n]> (rLoaded s)) (rGot s)))
  | RStore t => i ← rLoaded s !! t;
               Some (if i <? n then RSt (mkR ((i + 1) `mod` 2 ^ 32) (delete t (rLoaded s)) (rGot s ++ [i])) else RPanic)
  end.
Definition rr0 : rr := mkR 0 ∅ [].
Fixpoint rrun (n : N) (s : rr) (tr : list revt) : option rres :=
  match tr with
  | [] => Some (RSt s)
  | e :: tr => match rstep n s e with Some (RSt s) => rrun n s tr | Some RPanic => Some RPanic | None => None end
  end.

(* 122-141: what is read from the local connection (ok: without an error; a last read may have both bytes and an error), and
   whether Send accepts each message *)
Fixpoint pump (reads : list (bytes * bool)) (accepts : list bool) : list bytes :=
  match reads with
  | [] => []
  | (b, ok) :: reads =>
      match b, accepts with
      | [], _ => if ok then pump reads accepts else []
      | _, true :: accepts => b :: (if ok then pump reads accepts else [])
      | _, _ => []   (* refused: the connection is closed *)
      end
  end.

(* 272: the offer with its length in front *)
Definition offer_wire (m : bytes) : bytes := (N.of_nat (length m) / 256) `mod` 256 :: N.of_nat (length m) `mod` 256 :: m.
(* 288-332: the body of the response, its bytes and whether it ends with io.EOF or another error; accept: does the library
   accept a message.  Results: the messages accepted, and whether createPeerConnection reports success.  resp.Body.Close gives no error. *)
Inductive creading := CMsg (m rest : bytes) | CNone | CShort.
Definition read_msg (body : bytes) : creading :=
  match body with
  | [] => CNone
  | [_] => CShort
  | hi :: lo :: rest => let n := N.to_nat (want hi lo) in if (length rest <? n)%nat then CShort else CMsg (take n rest) (drop n rest)
  end.
(* 310-331 *)
Fixpoint candidates (fuel : nat) (accept : bytes -> bool) (body : bytes) : list bytes * bool :=
  match fuel with
  | O => ([], true)
  | S f =>
      match read_msg body with
      | CNone | CShort => ([], true)     (* 313-320, 323-326: err = resp.Body.Close() *)
      | CMsg m rest => if accept m then let '(ms, ok) := candidates f accept rest in (m :: ms, ok) else ([], false)
      end
  end.
Definition read_answer (accept : bytes -> bool) (body : bytes) : list bytes * bool :=
  match read_msg body with
  | CNone | CShort => ([], false)        (* 288-297 *)
  | CMsg m rest => if accept m then let '(ms, ok) := candidates (length rest) accept rest in (m :: ms, ok) else ([], false)
  end.
