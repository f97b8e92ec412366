(* BufModel.v -- the shared buffers: pool/pool.go 29-34 (a sync.Pool of 4096-byte slices) and its users.  A user takes a buffer
   (server/conn.go 984, client/task.go 250, client/peer.go 190, 566, client/conn.go 553, 593, ...), copies bytes into it, sends bytes
   from it, and gives it back (998, 257, 197, 567; for the tasks of peer-to-peer visitors: when the task is closed, client/peer.go
   156, 173, peerproc.go 183, 200, 219 -- by a timer, a state change of the connection or another request, whatever the task
   itself is doing).  sync.Pool may return any buffer that was given back, or a new one. *)
From Verif Require Import GoBase.
Local Open Scope N_scope.

Record user := mkUser { uBuf : nat; uMine : bytes; uBack : bool }.   (* its buffer, what it last copied there, given back *)
Record bst := mkBst { bFree : gset nat; bData : gmap nat bytes; bUsers : gmap nat user;
                      bSent : list (nat * bytes) }.                   (* who sent what, the last first *)
#[global] Instance user_dec : EqDecision user. Proof. solve_decision. Defined.
#[global] Instance bst_dec : EqDecision bst. Proof. solve_decision. Defined.
Inductive bev :=
  | BGet (u b : nat)               (* buffer b: one that is free, or a new one *)
  | BCopy (u : nat) (m : bytes)    (* copy(buf, m); what is longer than m stays behind it *)
  | BSend (u : nat)                (* Write(buf[:len(m)]) *)
  | BPut (u : nat).
Definition overwrite (m old : bytes) : bytes := m ++ drop (length m) old.
Definition bstep (s : bst) (e : bev) : option bst :=
  match e with
  | BGet u b => if bool_decide (is_Some (bUsers s !! u)) then None
                else if bool_decide (b ∈ bFree s) || negb (bool_decide (is_Some (bData s !! b)))
                then Some (mkBst (bFree s ∖ {[b]}) (<[b := default [] (bData s !! b)]> (bData s)) (<[u := mkUser b [] false]> (bUsers s)) (bSent s))
                else None
  | BCopy u m => x ← bUsers s !! u;
                Some (mkBst (bFree s) (<[uBuf x := overwrite m (default [] (bData s !! uBuf x))]> (bData s)) (<[u := mkUser (uBuf x) m (uBack x)]> (bUsers s)) (bSent s))
  | BSend u => x ← bUsers s !! u;
                Some (mkBst (bFree s) (bData s) (bUsers s) ((u, take (length (uMine x)) (default [] (bData s !! uBuf x))) :: bSent s))
  | BPut u => x ← bUsers s !! u;
                if uBack x then None     (* once: the compare-and-swap of peer.go 153, 170 *)
                else Some (mkBst (bFree s ∪ {[uBuf x]}) (bData s) (<[u := mkUser (uBuf x) (uMine x) true]> (bUsers s)) (bSent s))
  end.
Definition bst0 : bst := mkBst ∅ ∅ ∅ [].
Definition brun (tr : list bev) : option bst := fold_left (fun o e => o ≫= fun s => bstep s e) tr (Some bst0).
