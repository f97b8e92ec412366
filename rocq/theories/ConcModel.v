(* ConcModel.v -- small concurrent protocols: task identifiers (server/client.go 78-97), closing a connection
   (conn/conn.go 66-98, client/task.go 229-243, client/conn.go 150-161), ending a task (server/conn.go 980-1010,
   client/task.go 245-275), choosing a tunnel (server/client.go 290-317), the speed limit (server/client.go 466-484).
   Goroutines are interleaved at the granularity of Go's atomic operations and locked sections. *)
From Verif Require Import GoBase.
Local Open Scope N_scope.

(* ---------------------------------------------------------------- task identifiers *)
(* conn/conn.go 120 *)
Definition PreservedSignal : N := 4294967295 - 3000.
(* a visitor's goroutine inside client.process *)
Inductive tid :=
  | TStart               (* server/client.go 79 not executed yet *)
  | TWrap                (* 80 was true, 81 not executed yet *)
  | TGot (id : N)        (* has its identifier; it is alive *)
  | TDone (id : N).      (* the visitor has gone *)
Record tidst := mkTid { tSeed : N; tVis : list tid }.
Inductive tid_step : tidst -> tidst -> Prop :=
  | ts_spawn s l : tid_step (mkTid s l) (mkTid s (l ++ [TStart]))
  (* 79-80: taskID := atomic.AddUint32(&c.taskIDSeed, 1); if taskID >= PreservedSignal *)
  | ts_add s l i : l !! i = Some TStart ->
      tid_step (mkTid s l)
               (mkTid (u32 (s + 1)) (<[i := if PreservedSignal <=? u32 (s + 1) then TWrap else TGot (u32 (s + 1))]> l))
  (* 81-82: atomic.StoreUint32(&c.taskIDSeed, 1); taskID = 1 *)
  | ts_store s l i : l !! i = Some TWrap -> tid_step (mkTid s l) (mkTid 1 (<[i := TGot 1]> l))
  | ts_end s l i id : l !! i = Some (TGot id) -> tid_step (mkTid s l) (mkTid s (<[i := TDone id]> l)).
Definition tid_init : tidst := mkTid 0 [].

(* ---------------------------------------------------------------- closing *)
(* One goroutine's call of CloseWithValue(v): the compare-and-swap, then (if it won) the close of the net.Conn. *)
Inductive cl := CCall (v : N) | CWon | CRet.
(* [kClosing]: c.Closing; [kCloses]: how many times the net.Conn was closed *)
Record clst := mkCl { kClosing : N; kCloses : N; kCalls : list cl }.
Inductive cl_step : clst -> clst -> Prop :=
  (* somebody calls Close (v = 1) or CloseByRemote (v = 2): conn/conn.go 66-75 *)
  | cs_call k n l v : v = 1 \/ v = 2 -> cl_step (mkCl k n l) (mkCl k n (l ++ [CCall v]))
  (* conn/conn.go 79: if c.Closing.CompareAndSwap(0, value) *)
  | cs_cas k n l i v : l !! i = Some (CCall v) ->
      cl_step (mkCl k n l) (if k =? 0 then mkCl v n (<[i := CWon]> l) else mkCl k n (<[i := CRet]> l))
  (* conn/conn.go 80, 86: c.CloseOnce() *)
  | cs_close k n l i : l !! i = Some CWon -> cl_step (mkCl k n l) (mkCl k (n + 1) (<[i := CRet]> l)).
Definition cl_init : clst := mkCl 0 0 [].

(* ---------------------------------------------------------------- the end of a task *)
(* The process goroutine of a task (server/conn.go 980-1096, client/task.go 245-318), with the goroutine reading the
   tunnel, which may close the task (CloseByRemote on a close frame, Close when the tunnel dies).  [eFrames] counts the
   close frames sent for the task.  The loop ends on a read error (the visitor ended or its connection was closed
   under it) or on a write error of the tunnel. *)
Inductive ep := PRun | PReadErr | PWriteErr | PSend | PEnd (tunnelFailed : bool).
Record est := mkE { ePc : ep; eClosing : N; eFrames : N }.
Inductive e_step : est -> est -> Prop :=
  (* task.CloseByRemote() / task.Close() by another goroutine: a compare-and-swap *)
  | es_close pc k n v : v = 1 \/ v = 2 -> e_step (mkE pc k n) (mkE pc (if k =? 0 then v else k) n)
  (* rErr != nil; return *)
  | es_rerr k n : e_step (mkE PRun k n) (mkE PReadErr k n)
  (* wErr != nil; return *)
  | es_werr k n : e_step (mkE PRun k n) (mkE PWriteErr k n)
  (* if wErr == nil && !task.IsClosingByRemote() { write the close frame }   server/conn.go 986-989, client/task.go 252-256 *)
  | es_check k n : e_step (mkE PReadErr k n) (mkE (if k =? 2 then PEnd false else PSend) k n)
  | es_send k n : e_step (mkE PSend k n) (mkE (PEnd false) k (n + 1))
  | es_werr_end k n : e_step (mkE PWriteErr k n) (mkE (PEnd true) k n).
Definition e_init : est := mkE PRun 0 0.

(* ---------------------------------------------------------------- choosing a tunnel *)
(* server/client.go 290-317 [getTunnel].  [l]: the tunnels in the order in which "range c.tunnels" delivers them, each
   with the value its TasksCount.Load() returns. *)
Fixpoint get_loop {T} (l : list (T * N)) (conn : option T) (min : N) : option T :=
  match l with
  | [] => conn
  | (t, count) :: l =>
      if count =? 0 then Some t
      else if (count <? min) || match conn with None => true | Some _ => false end
           then get_loop l (Some t) count else get_loop l conn min
  end.
Definition get_tunnel {T} (l : list (T * N)) : option T :=
  match l with
  | [(t, _)] => Some t
  | _ => get_loop l None 0
  end.

(* Concurrent calls: the tunnels' counts and the visitors that have chosen a tunnel (holding only the read lock) and not
   yet executed TasksCount.Add(1).  Simplification: one visitor's loads happen at one instant. *)
Record gst := mkG { gCounts : gmap N N; gChosen : list N }.
Inductive g_step : gst -> gst -> Prop :=
  | gs_choose m ch order t : Permutation order (map_to_list m) -> get_tunnel order = Some t ->
      g_step (mkG m ch) (mkG m (ch ++ [t]))
  | gs_add m ch1 t ch2 c : m !! t = Some c -> g_step (mkG m (ch1 ++ t :: ch2)) (mkG (<[t := c + 1]> m) (ch1 ++ ch2)).

(* ---------------------------------------------------------------- the speed limit *)
(* server/client.go 466-484 [speedLimit]: new counter and seconds slept.  bufLen is a uint32. *)
Definition speed_limit (speed count bufLen : N) : N * N :=
  let count := u32 (count + bufLen) in
  if count <? speed then (count, 0)
  else let sleepSeconds := count / speed in
       (u32 (count + 4294967296 - u32 (sleepSeconds * speed)), sleepSeconds).
(* the calls of one client, in the order in which they get speedMutex: (isUpload, bufLen); the state is
   (uploadCount, downloadCount, seconds slept for uploads, for downloads) *)
Fixpoint speed_run (speed : N) (st : N * N * (N * N)) (calls : list (bool * N)) : N * N * (N * N) :=
  match calls with
  | [] => st
  | (up, b) :: calls =>
      let '(u, d, (su, sd)) := st in
      let '(c, s) := speed_limit speed (if up : bool then u else d) b in
      speed_run speed (if up then (c, d, (su + s, sd)) else (u, c, (su, sd + s))) calls
  end.
