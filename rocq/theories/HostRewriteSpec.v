(* HostRewriteSpec.v -- what "the Host line is replaced" means (C34), independently of the code *)
From Verif Require Import GoBase.
Local Open Scope N_scope.

(* the line terminator, and "Host:" (client/task.go 33) *)
Definition NL : N := 10.
Definition HOST : bytes := [72; 111; 115; 116; 58].

Definition line_start (pre : bytes) : Prop := pre = [] \/ last pre = Some NL.
(* no line of s starts with "Host:" *)
Definition host_free (s : bytes) : Prop :=
  forall pre q, s = pre ++ q -> line_start pre -> ~ HOST `prefix_of` q.
(* out is s with its first line starting with "Host:" (if any) replaced by [hl]; that line may still be incomplete *)
Definition rewritten (hl s out : bytes) : Prop :=
  (host_free s /\ out = s) \/
  (exists pre line rest, s = pre ++ line ++ rest /\ line_start pre /\ host_free pre /\ HOST `prefix_of` line /\
     out = pre ++ hl ++ rest /\
     ((exists l, line = l ++ [NL] /\ NL ∉ l) \/ (NL ∉ line /\ rest = []))).
