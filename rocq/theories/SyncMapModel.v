(* SyncMapModel.v -- server/sync/map.go and server/sync/create.go: the concurrent map behind the server's table of clients.

   A small-step machine.  Every goroutine is at a point of the program ([pc]); one step is one access to memory that other
   goroutines can touch: an atomic load or store of Map.read, an atomic load, store or compare-and-swap of an entry's
   pointer, Lock, Unlock.  Accesses protected by Map.mu (the dirty map, misses, and stores to Map.read, which are made
   with mu held) are taken together with an adjacent such access.  Any goroutine may move next.

   Simplifications.
   - Memory is sequentially consistent for these accesses (Go's sync/atomic and sync.Mutex promise that).
   - A pointer to a value is the value: a compare-and-swap against a value succeeds whenever the cell holds an equal value
     and may also fail then (the cell may hold another pointer to an equal value).  The machine thus has every behaviour of
     the code and some more.
   - The read-only maps are values: a map once stored in Map.read is never written again (map.go 336-341, 352-360).
   - The functions passed to LoadOrCreate and Range are the environment's: the first may return anything, the second may
     stop the iteration at any pair.  Calls they make to the same map appear as calls of other goroutines.
   - An entry carries the key it was made for, which the code does not store; the machine never looks at it. *)
From Verif Require Import GoBase SyncMapSpec.
Local Open Scope N_scope.

Notation eid := nat.
(* map.go 69-91: entry.p *)
Inductive cell := Nil | Exp | Val (v : V).
Definition val_of (c : cell) : option V := match c with Val v => Some v | _ => None end.

(* map.go 28-62: Map (without misses and mu); [readm], [amended]: the readOnly struct (map.go 64-68); [dirty = None]: a nil map *)
Record core := mkC { heap : gmap eid (K * cell); readm : gmap K eid; amended : bool; dirty : option (gmap K eid) }.
Definition set_cell (c : core) (e : eid) (k : K) (x : cell) : core := mkC (<[e := (k, x)]> (heap c)) (readm c) (amended c) (dirty c).
Definition set_dirty (c : core) (d : option (gmap K eid)) : core := mkC (heap c) (readm c) (amended c) d.
(* a nil map reads as empty *)
Definition dirty_get (c : core) (k : K) : option eid := match dirty c with Some d => d !! k | None => None end.
(* map.go 357-359, 332-335: the dirty map becomes the read-only map *)
Definition promote (c : core) : core := mkC (heap c) (default ∅ (dirty c)) false None.

(* what a call of Store / LoadOrStore / LoadOrCreate brings along *)
Inductive act := AStore (v : V) | ALos (v : V) | ALoc.
(* the part of an operation that runs with mu held *)
Inductive inop := ILoad (k : K) | IDel (k : K) | IPut (a : act) (k : K) | IRange.

(* points of the program.  [lk]: None = not holding mu; Some miss = holding mu, and missLocked is to follow iff [miss] *)
Inductive pc :=
  | PLoad0 (k : K)                              (* map.go 104: before the first load of m.read *)
  | PLoadE (k : K) (e : eid)                    (* map.go 129: before the load of e.p *)
  | PDel0 (k : K)                               (* map.go 270 *)
  | PDelE (k : K) (e : eid)                     (* map.go 299 *)
  | PDelCas (k : K) (e : eid) (w : V)           (* map.go 303 *)
  | PPut0 (a : act) (k : K)                     (* map.go 138, 202; create.go 26 *)
  | PTry (lk : option bool) (a : act) (k : K) (e : eid)              (* map.go 172, 241, 193; create.go 59 *)
  | PCasS (v : V) (k : K) (e : eid) (c0 : cell)                      (* map.go 176 *)
  | PMk (lk : option bool) (k : K) (e : eid)                         (* create.go 67 *)
  | PCasN (lk : option bool) (a : act) (k : K) (e : eid) (v : V)     (* map.go 254; create.go 69 *)
  | PRe (lk : option bool) (a : act) (k : K) (e : eid) (v : V)       (* map.go 257; create.go 72 *)
  | PLock (i : inop)                            (* before m.mu.Lock() *)
  | PIn (i : inop)                              (* behind m.mu.Lock() *)
  | PUnexp (a : act) (k : K) (e : eid)          (* map.go 146, 214; create.go 38: before unexpungeLocked *)
  | PCopy (a : act) (k : K) (todo : gmap K eid) (* map.go 369: in the loop of dirtyLocked, [todo] left *)
  | PAmend (a : act) (k : K)                    (* map.go 159, 227; create.go 48 *)
  | PMkI (k : K)                                (* create.go 50 *)
  | PIns (k : K) (v : V) (r : res)              (* map.go 161, 229; create.go 51 *)
  | PMiss (q : pc)                              (* before missLocked; then unlock and go on with q *)
  | PUnl (q : pc)                               (* before m.mu.Unlock(); then q *)
  | PR0                                         (* map.go 325 *)
  | PRIter (todo : gmap K eid) (acc : list (K * V))  (* map.go 341: [todo] left, [acc] passed to f so far *)
  | PRet (r : res)                              (* about to return *)
  | PBad.                                       (* assignment to a nil map, or a nil result: never reached, see C37_no_panic *)

(* where an operation starts *)
Definition start (o : op) : pc :=
  match o with
  | OLoad k => PLoad0 k | OStore k v => PPut0 (AStore v) k | OLoadOrStore k v => PPut0 (ALos v) k
  | OLoadOrCreate k => PPut0 ALoc k | OLoadAndDelete k => PDel0 k | ORange => PR0
  end.
(* map.go 141, 206-209, 216, 219: after tryStore / tryLoadOrStore / tryLoadOrCreate succeeded with result r *)
Definition fin (lk : option bool) (r : res) : pc :=
  match lk with None => PRet r | Some false => PUnl (PRet r) | Some true => PMiss (PRet r) end.
(* map.go 144, 211, 216: ... or found the entry expunged *)
Definition expunged_at (lk : option bool) (a : act) (k : K) : pc := match lk with None => PLock (IPut a k) | Some _ => PBad end.
(* map.go 161, 229-230; create.go 50-52 *)
Definition ins (a : act) (k : K) : pc :=
  match a with AStore v => PIns k v RUnit | ALos v => PIns k v (RPair v false) | ALoc => PMkI k end.
(* map.go 180, 258: the pointer of e *)
Definition cell_at (c : core) (e : eid) (x : cell) : Prop := exists k, heap c !! e = Some (k, x).

(* the steps that touch neither mu nor misses *)
Inductive lstep : core -> pc -> core -> pc -> Prop :=
  (* Load, map.go 103-133 *)
  | s_load_read c k e : readm c !! k = Some e -> lstep c (PLoad0 k) c (PLoadE k e)
  | s_load_dirty c k : readm c !! k = None -> amended c = true -> lstep c (PLoad0 k) c (PLock (ILoad k))
  | s_load_none c k : readm c !! k = None -> amended c = false -> lstep c (PLoad0 k) c (PRet (ROpt None))
  | s_load_in_read c k e : readm c !! k = Some e -> lstep c (PIn (ILoad k)) c (PUnl (PLoadE k e))
  | s_load_in_dirty c k e : readm c !! k = None -> amended c = true -> dirty_get c k = Some e -> lstep c (PIn (ILoad k)) c (PMiss (PLoadE k e))
  | s_load_in_nodirty c k : readm c !! k = None -> amended c = true -> dirty_get c k = None -> lstep c (PIn (ILoad k)) c (PMiss (PRet (ROpt None)))
  | s_load_in_none c k : readm c !! k = None -> amended c = false -> lstep c (PIn (ILoad k)) c (PUnl (PRet (ROpt None)))
  | s_load_e c k e x : cell_at c e x -> lstep c (PLoadE k e) c (PRet (ROpt (val_of x)))
  (* LoadAndDelete, map.go 269-306 *)
  | s_del_read c k e : readm c !! k = Some e -> lstep c (PDel0 k) c (PDelE k e)
  | s_del_dirty c k : readm c !! k = None -> amended c = true -> lstep c (PDel0 k) c (PLock (IDel k))
  | s_del_none c k : readm c !! k = None -> amended c = false -> lstep c (PDel0 k) c (PRet (ROpt None))
  | s_del_in_read c k e : readm c !! k = Some e -> lstep c (PIn (IDel k)) c (PUnl (PDelE k e))
  | s_del_in_dirty c k e d : readm c !! k = None -> amended c = true -> dirty c = Some d -> d !! k = Some e ->
      lstep c (PIn (IDel k)) (set_dirty c (Some (delete k d))) (PMiss (PDelE k e))
  | s_del_in_nodirty c k : readm c !! k = None -> amended c = true -> dirty_get c k = None ->
      lstep c (PIn (IDel k)) c (PMiss (PRet (ROpt None)))
  | s_del_in_none c k : readm c !! k = None -> amended c = false -> lstep c (PIn (IDel k)) c (PUnl (PRet (ROpt None)))
  | s_del_gone c k e x : cell_at c e x -> val_of x = None -> lstep c (PDelE k e) c (PRet (ROpt None))
  | s_del_val c k e w : cell_at c e (Val w) -> lstep c (PDelE k e) c (PDelCas k e w)
  | s_del_cas c k e w k' : heap c !! e = Some (k', Val w) -> lstep c (PDelCas k e w) (set_cell c e k' Nil) (PRet (ROpt (Some w)))
  | s_del_casf c k e w : lstep c (PDelCas k e w) c (PDelE k e)
  (* Store, LoadOrStore, LoadOrCreate: map.go 138-141, 202-209; create.go 26-32 *)
  | s_put_read c a k e : readm c !! k = Some e -> lstep c (PPut0 a k) c (PTry None a k e)
  | s_put_lock c a k : readm c !! k = None -> lstep c (PPut0 a k) c (PLock (IPut a k))
  (* tryStore, map.go 170-180; storeLocked 193-195 *)
  | s_store_exp c k v e : cell_at c e Exp -> lstep c (PTry None (AStore v) k e) c (PLock (IPut (AStore v) k))
  | s_store_ok c k v e x : cell_at c e x -> x <> Exp -> lstep c (PTry None (AStore v) k e) c (PCasS v k e x)
  | s_store_cas c k v e x k' : heap c !! e = Some (k', x) -> lstep c (PCasS v k e x) (set_cell c e k' (Val v)) (PRet RUnit)
  | s_store_casf c k v e x : lstep c (PCasS v k e x) c (PTry None (AStore v) k e)
  | s_store_locked c k v e x k' miss : heap c !! e = Some (k', x) ->
      lstep c (PTry (Some miss) (AStore v) k e) (set_cell c e k' (Val v)) (PUnl (PRet RUnit))
  (* tryLoadOrStore, map.go 240-264; tryLoadOrCreate, create.go 58-80 *)
  | s_try_exp c lk a k e : (forall v, a <> AStore v) -> cell_at c e Exp -> lstep c (PTry lk a k e) c (expunged_at lk a k)
  | s_try_val c lk a k e w : (forall v, a <> AStore v) -> cell_at c e (Val w) -> lstep c (PTry lk a k e) c (fin lk (RPair w true))
  | s_try_nil_los c lk k e v : cell_at c e Nil -> lstep c (PTry lk (ALos v) k e) c (PCasN lk (ALos v) k e v)
  | s_try_nil_loc c lk k e : cell_at c e Nil -> lstep c (PTry lk ALoc k e) c (PMk lk k e)
  | s_cas c lk a k e v k' : heap c !! e = Some (k', Nil) -> lstep c (PCasN lk a k e v) (set_cell c e k' (Val v)) (fin lk (RPair v false))
  | s_casf c lk a k e v x : cell_at c e x -> x <> Nil -> lstep c (PCasN lk a k e v) c (PRe lk a k e v)
  | s_re_exp c lk a k e v : cell_at c e Exp -> lstep c (PRe lk a k e v) c (expunged_at lk a k)
  | s_re_val c lk a k e v w : cell_at c e (Val w) -> lstep c (PRe lk a k e v) c (fin lk (RPair w true))
  | s_re_nil c lk a k e v : cell_at c e Nil -> lstep c (PRe lk a k e v) c (PCasN lk a k e v)
  (* the locked part: map.go 143-163, 211-232; create.go 34-53 *)
  | s_in_read c a k e : readm c !! k = Some e -> lstep c (PIn (IPut a k)) c (PUnexp a k e)
  | s_in_dirty c a k e : readm c !! k = None -> dirty_get c k = Some e -> lstep c (PIn (IPut a k)) c (PTry (Some true) a k e)
  | s_in_new c a k : readm c !! k = None -> dirty_get c k = None -> amended c = true -> lstep c (PIn (IPut a k)) c (ins a k)
  (* dirtyLocked, map.go 362-374 *)
  | s_in_copy c a k : readm c !! k = None -> dirty_get c k = None -> amended c = false -> dirty c = None ->
      lstep c (PIn (IPut a k)) (set_dirty c (Some ∅)) (PCopy a k (readm c))
  | s_in_nocopy c a k d : readm c !! k = None -> dirty_get c k = None -> amended c = false -> dirty c = Some d ->
      lstep c (PIn (IPut a k)) c (PAmend a k)
  (* unexpungeLocked, map.go 186-188, with the assignment that follows: 146-150 *)
  | s_unexp c a k e k' d : heap c !! e = Some (k', Exp) -> dirty c = Some d ->
      lstep c (PUnexp a k e) (set_dirty (set_cell c e k' Nil) (Some (<[k := e]> d))) (PTry (Some false) a k e)
  | s_unexp_panic c a k e : cell_at c e Exp -> dirty c = None -> lstep c (PUnexp a k e) c PBad
  | s_unexp_no c a k e x : cell_at c e x -> x <> Exp -> lstep c (PUnexp a k e) c (PTry (Some false) a k e)
  (* one round of the loop with tryExpungeLocked, map.go 369-385 (its own loop ends at the access taken here) *)
  | s_copy_nil c a k todo k' e k2 : todo !! k' = Some e -> heap c !! e = Some (k2, Nil) ->
      lstep c (PCopy a k todo) (set_cell c e k2 Exp) (PCopy a k (delete k' todo))
  | s_copy_exp c a k todo k' e : todo !! k' = Some e -> cell_at c e Exp -> lstep c (PCopy a k todo) c (PCopy a k (delete k' todo))
  | s_copy_val c a k todo k' e w d : todo !! k' = Some e -> cell_at c e (Val w) -> dirty c = Some d ->
      lstep c (PCopy a k todo) (set_dirty c (Some (<[k' := e]> d))) (PCopy a k (delete k' todo))
  | s_copy_end c a k : lstep c (PCopy a k ∅) c (PAmend a k)
  | s_amend c a k : lstep c (PAmend a k) (mkC (heap c) (readm c) true (dirty c)) (ins a k)
  | s_ins c k v r e d : heap c !! e = None -> dirty c = Some d ->
      lstep c (PIns k v r) (mkC (<[e := (k, Val v)]> (heap c)) (readm c) (amended c) (Some (<[k := e]> d))) (PUnl (PRet r))
  | s_ins_panic c k v r : dirty c = None -> lstep c (PIns k v r) c PBad
  (* Range, map.go 319-350 *)
  | s_range_clean c : amended c = false -> lstep c PR0 c (PRIter (readm c) [])
  | s_range_lock c : amended c = true -> lstep c PR0 c (PLock IRange)
  | s_range_in_clean c : amended c = false -> lstep c (PIn IRange) c (PUnl (PRIter (readm c) []))
  | s_range_gone c todo acc k e x : todo !! k = Some e -> cell_at c e x -> val_of x = None ->
      lstep c (PRIter todo acc) c (PRIter (delete k todo) acc)
  | s_range_val c todo acc k e v : todo !! k = Some e -> cell_at c e (Val v) ->
      lstep c (PRIter todo acc) c (PRIter (delete k todo) (acc ++ [(k, v)]))
  | s_range_stop c todo acc k e v : todo !! k = Some e -> cell_at c e (Val v) ->
      lstep c (PRIter todo acc) c (PRet (RRange (acc ++ [(k, v)]) false))
  | s_range_end c acc : lstep c (PRIter ∅ acc) c (PRet (RRange acc true)).

(* the constructor runs: create.go 50, 67 *)
Inductive mkstep (v : V) : pc -> pc -> Prop :=
  | m_try lk k e : mkstep v (PMk lk k e) (PCasN lk ALoc k e v)
  | m_ins k : mkstep v (PMkI k) (PIns k v (RPair v false)).

Record conf := mkConf { cco : core; cmiss : nat; cmu : option tid; cthr : gmap tid pc }.
(* the zero Map, map.go 27 *)
Definition c_init : conf := mkConf (mkC ∅ ∅ false None) 0 None ∅.
Definition dirty_size (c : core) : nat := match dirty c with Some d => size d | None => 0%nat end.

Inductive cstep : conf -> option event -> conf -> Prop :=
  | c_call c n mu th t o : th !! t = None -> cstep (mkConf c n mu th) (Some (EvCall t o)) (mkConf c n mu (<[t := start o]> th))
  | c_local c n mu th t q c' q' : th !! t = Some q -> lstep c q c' q' -> cstep (mkConf c n mu th) None (mkConf c' n mu (<[t := q']> th))
  | c_create c n mu th t q q' v : th !! t = Some q -> mkstep v q q' -> cstep (mkConf c n mu th) (Some (EvCreate t v)) (mkConf c n mu (<[t := q']> th))
  | c_lock c n th t i : th !! t = Some (PLock i) -> cstep (mkConf c n None th) None (mkConf c n (Some t) (<[t := PIn i]> th))
  | c_unlock c n mu th t q : th !! t = Some (PUnl q) -> cstep (mkConf c n mu th) None (mkConf c n None (<[t := q]> th))
  (* missLocked, map.go 352-360 *)
  | c_miss c n mu th t q : th !! t = Some (PMiss q) -> (S n < dirty_size c)%nat ->
      cstep (mkConf c n mu th) None (mkConf c (S n) mu (<[t := PUnl q]> th))
  | c_miss_promote c n mu th t q : th !! t = Some (PMiss q) -> (dirty_size c <= S n)%nat ->
      cstep (mkConf c n mu th) None (mkConf (promote c) 0 mu (<[t := PUnl q]> th))
  (* Range with keys in the dirty map, map.go 331-337 *)
  | c_range_promote c n mu th t : th !! t = Some (PIn IRange) -> amended c = true ->
      cstep (mkConf c n mu th) None (mkConf (promote c) 0 mu (<[t := PUnl (PRIter (default ∅ (dirty c)) [])]> th))
  | c_ret c n mu th t r : th !! t = Some (PRet r) -> cstep (mkConf c n mu th) (Some (EvRet t r)) (mkConf c n mu (delete t th)).
