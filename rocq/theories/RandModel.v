(* RandModel.v -- util/rand.go: the strings and ports gt makes up (client secret, client/client.go 452; signing key, admin and
   password of the web pages, server/web/web.go 99, 310, 314 and client/web/web.go 96, 310, 314; the id and secret the server's API
   uses, server/api/server.go 111, 116; temporary keys, web/server/tokenManager.go 84), with math/rand's Rand.Intn and Int31n.
   The generator of math/rand is any function from a seed to a sequence of Int31 values. *)
From Coq Require Import Strings.String.
From Verif Require Import GoBase FlagsModel.
Local Open Scope N_scope.

(* math/rand: the k-th value of Int31 (0 <= v < 2^31) after Seed *)
Definition generator := Z -> nat -> N.
(* rand.Int31n for n not a power of two: values above max are thrown away.  For a power of two Go masks instead. *)
Definition pow2 (n : N) : bool := N.land n (n - 1) =? 0.
Definition int31_max (n : N) : N := 2 ^ 31 - 1 - (2 ^ 31) `mod` n.
Fixpoint int31n (fuel : nat) (src : nat -> N) (k : nat) (n : N) : option (N * nat) :=
  if pow2 n then Some (N.land (src k) (n - 1), S k) else
  match fuel with
  | O => None
  | S f => if int31_max n <? src k then int31n f src (S k) n else Some (src k `mod` n, S k)
  end.
(* rand.go 34 *)
Definition letters : bytes := bs "abcdefghijklmnopqrstuvwxyzABCDEFGHIJKLMNOPQRSTUVWXYZ0123456789".
(* rand.go 33-43; Intn(62) is int(Int31n(62)) *)
Fixpoint random_string (fuel : nat) (src : nat -> N) (k : nat) (n : nat) : option (bytes * nat) :=
  match n with
  | O => Some ([], k)
  | S n => '(i, k) ← int31n fuel src k (N.of_nat (length letters)); b ← letters !! N.to_nat i; '(s, k) ← random_string fuel src k n; Some (b :: s, k)
  end.
(* rand.go 45-49 *)
Definition random_port (fuel : nat) (src : nat -> N) (k : nat) : option (N * nat) := '(v, k) ← int31n fuel src k (65535 - 1024); Some (v + 1024, k).
(* rand.go 28-30: the process is started at the time t (in ns since 1970) *)
Definition started (g : generator) (t : Z) : nat -> N := g (t `div` 1000000000)%Z.
(* one request after the other (the lock), of any lengths *)
Fixpoint requests (fuel : nat) (src : nat -> N) (k : nat) (ns : list nat) : option (list bytes) :=
  match ns with
  | [] => Some []
  | n :: ns => '(s, k) ← random_string fuel src k n; ss ← requests fuel src k ns; Some (s :: ss)
  end.
