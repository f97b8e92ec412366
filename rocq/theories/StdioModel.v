(* StdioModel.v -- util/stdio.go (messages to and from the parent process) and client/api/conn.go (the virtual
   connection of a peer-to-peer negotiation) *)
From Verif Require Import GoBase BufioModel FrameModel.
Local Open Scope N_scope.

(* ---- util/stdio.go ---- *)
(* 45-57 [WriteJson]: the two writes to stdout, which writeMtx keeps together.  uint32(len(json)) wraps. *)
Definition write_json (json : bytes) : bytes := be32 (u32 (blen json)) ++ json.

(* io.ReadFull: reads until it has n bytes (0 bytes: no read); an end of the stream in between is ErrUnexpectedEOF, an
   end before the first byte EOF *)
Fixpoint read_full (n : N) (s : list rdev) : bytes * option err * list rdev :=
  if n =? 0 then ([], None, s)
  else match s with
  | [] => ([], Some EEOF, [])
  | EvErr e :: s' => ([], Some e, s')
  | EvData d :: s' =>
      if blen d <=? n then let '(r, e, s'') := read_full (n - blen d) s' in (d ++ r, e, s'')
      else (ntake n d, None, EvData (ndrop n d) :: s')
  end.

Inductive json_result := JMessage (json : bytes) | JTooLarge | JError (e : err).
(* 59-73 [ReadJson].  Line 61 is one call of Read, so it may bring fewer than four bytes; the array l is zero there.
   (That an error of line 71 also returns the bytes read so far is dropped: the only caller, lib/export/lib.go 43-46,
   ignores them.) *)
Definition read_json (s : list rdev) : json_result * list rdev :=
  let '(d, e, s) := src_read 4 s in
  match e with
  | Some e => (JError e, s)
  | None =>
      let l := d ++ replicate (4 - length d) 0 in
      let jl := p32 l in
      if 8 * 1024 <? jl then (JTooLarge, s)
      else let '(j, e, s) := read_full jl s in
           match e with Some e => (JError e, s) | None => (JMessage j, s) end
  end.
(* the loop of lib/export/lib.go 41-60 for n messages; it stops at the first error *)
Fixpoint read_jsons (n : nat) (s : list rdev) : list json_result * list rdev :=
  match n with
  | O => ([], s)
  | S n => let '(r, s) := read_json s in
           match r with JMessage _ => let '(rs, s) := read_jsons n s in (r :: rs, s) | _ => ([r], s) end
  end.

(* ---- client/api/conn.go ---- *)
(* 74-99 [Write]: one element per call of c.writer.Write, with the returned n.  c.buf is pool.MaxBufferSize bytes; the fuel
   is more than the number of iterations. *)
Fixpoint api_write_loop (fuel : nat) (id : N) (b : bytes) (n : N) : list bytes * N :=
  match fuel with
  | O => ([], n)
  | S fuel =>
      let p := ntake (4096 - 10) b in                                       (* 83: copy(c.buf[10:], b[i:]) *)
      let out := be32 id ++ be16 OpData ++ be32 (u32 (blen p)) ++ p in       (* 78-79, 85-87 *)
      let n := n + blen out in                                              (* 91: counts the header *)
      let b := ndrop (4096 - 10) b in
      if blen b =? 0 then ([out], n)                                        (* 92-94 *)
      else let '(outs, n) := api_write_loop fuel id b n in (out :: outs, n)
  end.
Definition api_write (id : N) (b : bytes) : list bytes * N := api_write_loop (S (length b)) id b 0.
(* 101-108 [writeClose] *)
Definition api_write_close (id : N) : bytes := be32 id ++ be16 OpClose.
(* calls of Write and Close (111-130: once) in any order; the tunnel accepts every write *)
Inductive api_op := AWrite (b : bytes) | AClose.
Fixpoint api_run (id : N) (closed : bool) (ops : list api_op) : list bytes :=
  match ops with
  | [] => []
  | AWrite b :: ops => fst (api_write id b) ++ api_run id closed ops
  | AClose :: ops => (if closed then [] else [api_write_close id]) ++ api_run id true ops
  end.
