(* BlackModel.v -- the replaced configurations a client's object remembers: server/client.go 67 (an LRU cache of 3), 122-147
   (the test), 226-229 (Add, and RemoveOldest 60 s later).  golang-lru: Add of a key that is present moves it to the front;
   RemoveOldest drops the last.  Times in seconds; a timer never fires early, but perhaps late. *)
From Verif Require Import GoBase TcpModel RegModel.
Local Open Scope N_scope.

Record blst := mkBl { bNow : N; bList : list bytes; bTimers : list N }.
Definition blst0 : blst := mkBl 0 [] [].
Inductive blevt := BlAdd (x : bytes) | BlFire | BlTick.
Inductive blstep : blst -> blevt -> blst -> Prop :=
  | bl_add now l ts x : blstep (mkBl now l ts) (BlAdd x) (mkBl now (black_add x l) (ts ++ [now + 60]))
  | bl_fire now l ts1 d ts2 : d <= now -> blstep (mkBl now l (ts1 ++ d :: ts2)) BlFire (mkBl now (removelast l) (ts1 ++ ts2))
  | bl_tick now l ts : blstep (mkBl now l ts) BlTick (mkBl (now + 1) l ts).
(* a history with the time of each event *)
Inductive blexec : list (N * blevt) -> blst -> Prop :=
  | ble_nil : blexec [] blst0
  | ble_snoc h s e s' : blexec h s -> blstep s e s' -> blexec (h ++ [(bNow s, e)]) s'.
