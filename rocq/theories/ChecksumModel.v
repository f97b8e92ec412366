(* ChecksumModel.v -- server/conn.go 783-818 [calChecksum]: the bytes that are hashed *)
From Verif Require Import GoBase HandshakeModel.
From stdpp Require Import sorting.
Local Open Scope N_scope.

(* a value of the btree: a string, or an openTCPOption (port, random) *)
Inductive cval := CStr (s : bytes) | CPort (port : N) (random : bool).
#[global] Instance cval_eq_dec : EqDecision cval.
Proof. solve_decision. Defined.
Definition tls_suffix : bytes := [45; 116; 108; 115].    (* "-tls" *)

Section C.
Context (shuf : nat -> forall A : Type, list A -> list A).    (* the order in which each "range" visits a map *)
(* 784-794; btree.Put replaces the value of an equal key *)
Definition cs_tree (ids : hpopts) (ports : tcpopts) : gmap N cval :=
  foldl (fun m (e : N * (N * bool)) => <[fst e := CPort (fst (snd e)) (snd (snd e))]> m)
    (foldl (fun m (e : bytes * (N * bool)) => <[fst (snd e) := CStr (if snd (snd e) then fst e ++ tls_suffix else fst e)]> m) ∅
           (shuf 0%nat _ (map_to_list ids)))
    (shuf 1%nat _ (map_to_list ports)).
End C.
(* 799-814: one entry *)
Definition cs_val (v : cval) : bytes :=
  match v with
  | CStr s => s
  | CPort p r => be16 p ++ [if r then 1 else 0]
  end.
Definition cs_entry (e : N * cval) : bytes := be16 (fst e) ++ cs_val (snd e).
(* 796-815: the tree iterates in the order of the keys *)
Definition key_le (a b : N * cval) : Prop := fst a <= fst b.
#[global] Instance key_le_dec : RelDecision key_le.
Proof. intros a b. unfold key_le. apply _. Defined.
Definition cs_bytes (m : gmap N cval) : bytes := concat (map cs_entry (merge_sort key_le (map_to_list m))).
(* the preimage of the checksum; the checksum is SHA-256 of it *)
Definition preimage (shuf : nat -> forall A : Type, list A -> list A) (ids : hpopts) (ports : tcpopts) : bytes := cs_bytes (cs_tree shuf ids ports).
