(* GoBase.v -- conventions for modelling Go values.

   A Go [byte] is an [N] (the model writes the truncation [byte(x)] as [u8 x]);
   a [[]byte] or [string] is a [list N].  Go's unsigned conversions are written
   out as [mod]. *)
From stdpp Require Export prelude list numbers gmap.
From Coq Require Export ZArith NArith Lia ZifyBool ZifyNat ZifyN.
Global Open Scope N_scope.
Ltac Zify.zify_post_hook ::= Z.div_mod_to_equations.

Notation bytes := (list N).

(* len(l) *)
Definition blen {A} (l : list A) : N := N.of_nat (length l).
(* l[:n] and l[n:] with an N index (total; callers check bounds where Go would panic) *)
Definition ntake {A} (n : N) (l : list A) : list A := take (N.to_nat n) l.
Definition ndrop {A} (n : N) (l : list A) : list A := drop (N.to_nat n) l.
Definition nnth {A} (n : N) (l : list A) : option A := l !! N.to_nat n.

(* byte(x), uint16(x), uint32(x) *)
Definition u8 (x : N) : N := x mod 256.
Definition u16 (x : N) : N := x mod 65536.
Definition u32 (x : N) : N := x mod 4294967296.

Definition is_byte (b : N) : Prop := b < 256.
Definition all_bytes (l : bytes) : Prop := Forall is_byte l.

(* byte(v>>8), byte(v)                      e.g. conn/conn.go 260-261 *)
Definition be16 (v : N) : bytes := [u8 (N.shiftr v 8); u8 v].
(* byte(v>>24), byte(v>>16), byte(v>>8), byte(v)    e.g. server/conn.go 1009-1012 *)
Definition be32 (v : N) : bytes :=
  [u8 (N.shiftr v 24); u8 (N.shiftr v 16); u8 (N.shiftr v 8); u8 v].

(* uint16(p[1]) | uint16(p[0])<<8            e.g. server/conn.go 706 *)
Definition rd16 (p0 p1 : N) : N := N.lor (u16 p1) (u16 (N.shiftl (u16 p0) 8)).
(* uint32(p[3]) | uint32(p[2])<<8 | uint32(p[1])<<16 | uint32(p[0])<<24   e.g. server/conn.go 846 *)
Definition rd32 (p0 p1 p2 p3 : N) : N :=
  N.lor (N.lor (N.lor (u32 p3) (u32 (N.shiftl (u32 p2) 8)))
               (u32 (N.shiftl (u32 p1) 16)))
        (u32 (N.shiftl (u32 p0) 24)).

(* Errors that the modelled code distinguishes. *)
Inductive err : Type :=
  | EEOF          (* io.EOF *)
  | EBufferFull   (* bufio.ErrBufferFull *)
  | ETimeout      (* a net.Error with Timeout() = true *)
  | EOther        (* any other read error *)
  | EWrite.       (* bufio.WriteErr: the destination failed *)
Global Instance err_eq_dec : EqDecision err.
Proof. solve_decision. Defined.
