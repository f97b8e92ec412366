(* PortsSpec.v -- which ports a range string denotes (C30), independently of the code *)
From Verif Require Import GoBase.
Local Open Scope N_scope.

(* a non-empty string of ASCII decimal digits and its value *)
Definition digit_val (c : N) : N := c - 48.
Definition decimal (s : bytes) (v : N) : Prop :=
  s <> [] /\ Forall (fun c => 48 <= c <= 57) s /\ v = fold_left (fun a c => a * 10 + digit_val c) s 0.
Definition port_string (s : bytes) (v : N) : Prop := decimal s v /\ v <= 65535.

(* "p" is p, "0" is every port, "a-b" is a..b where a = 0 is read as 1 *)
Definition denotes (s : bytes) (lo hi : N) : Prop :=
  (exists p, port_string s p /\ ((p = 0 /\ lo = 1 /\ hi = 65535) \/ (p <> 0 /\ lo = p /\ hi = p))) \/
  (exists sa sb a b, s = sa ++ [45] ++ sb /\ port_string sa a /\ port_string sb b /\ a <= b /\ lo = N.max 1 a /\ hi = b).
Definition in_range (s : bytes) (p : N) : Prop := exists lo hi, denotes s lo hi /\ lo <= p <= hi.
Definition valid_range (s : bytes) : Prop := exists lo hi, denotes s lo hi.
Definition in_ranges (ss : list bytes) (p : N) : Prop := exists s, s ∈ ss /\ in_range s p.
