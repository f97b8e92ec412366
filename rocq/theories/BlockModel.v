(* BlockModel.v -- util/blockvalue.go: a value whose reader waits for the first Set *)
From Verif Require Import GoBase.
Local Open Scope N_scope.

(* A value is a pointer: None = nil.  Every atomic operation and every channel operation is a step; calls and returns
   are visible in the label. *)
Inductive bpc :=
  | BOut
  | GLoad                      (* 36: before initialized.Load() *)
  | GWait                      (* 37: it was false; receives from waitSet *)
  | GRead                      (* 39: before v.Load() *)
  | SStore (x : option N)      (* 43 *)
  | SLoad (x : option N)       (* 44 *)
  | SInit (x : option N)       (* 47 *)
  | SClose (x : option N).     (* 48 *)
#[global] Instance bpc_eq_dec : EqDecision bpc.
Proof. solve_decision. Defined.
(* 22-26, 28-32: bClosed = waitSet is closed (nothing is ever sent on it); bPanic = a goroutine has panicked *)
Record bst := mkBst { bV : option N; bInit : bool; bClosed : bool; bPanic : bool; bPc : N -> bpc }.
Definition bst0 : bst := mkBst None false false false (fun _ => BOut).
Definition bset (f : N -> bpc) (i : N) (p : bpc) : N -> bpc := fun j => if decide (j = i) then p else f j.
Inductive blabel := LTau | LCallGet (i : N) | LRetGet (i : N) (r : option N) | LCallSet (i : N) (x : option N) | LRetSet (i : N).
Inductive bstep : bst -> blabel -> bst -> Prop :=
| bs_call_get v a c p f i : f i = BOut -> bstep (mkBst v a c p f) (LCallGet i) (mkBst v a c p (bset f i GLoad))
| bs_load_t v c p f i : f i = GLoad -> bstep (mkBst v true c p f) LTau (mkBst v true c p (bset f i GRead))
| bs_load_f v c p f i : f i = GLoad -> bstep (mkBst v false c p f) LTau (mkBst v false c p (bset f i GWait))
| bs_recv v a p f i : f i = GWait -> bstep (mkBst v a true p f) LTau (mkBst v a true p (bset f i GRead))
| bs_ret_get v a c p f i : f i = GRead -> bstep (mkBst v a c p f) (LRetGet i v) (mkBst v a c p (bset f i BOut))
| bs_call_set v a c p f i x : f i = BOut -> bstep (mkBst v a c p f) (LCallSet i x) (mkBst v a c p (bset f i (SStore x)))
| bs_store v a c p f i x : f i = SStore x -> bstep (mkBst v a c p f) LTau (mkBst x a c p (bset f i (SLoad x)))
| bs_sload_t v c p f i x : f i = SLoad x -> bstep (mkBst v true c p f) (LRetSet i) (mkBst v true c p (bset f i BOut))
| bs_sload_f v c p f i x : f i = SLoad x -> bstep (mkBst v false c p f) LTau (mkBst v false c p (bset f i (SInit x)))
| bs_init v a c p f i x : f i = SInit x -> bstep (mkBst v a c p f) LTau (mkBst v true c p (bset f i (SClose x)))
| bs_close v a p f i x : f i = SClose x -> bstep (mkBst v a false p f) (LRetSet i) (mkBst v a true p (bset f i BOut))
| bs_panic v a p f i x : f i = SClose x -> bstep (mkBst v a true p f) LTau (mkBst v a true true (bset f i BOut)).  (* close of closed channel *)
Inductive bexec : bst -> list blabel -> bst -> Prop :=
| be_nil s : bexec s [] s
| be_cons s l s1 tr s' : bstep s l s1 -> bexec s1 tr s' -> bexec s (l :: tr) s'.
