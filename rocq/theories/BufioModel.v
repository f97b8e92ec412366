(* BufioModel.v -- libcs/bufio/bufio.go and libcs/bufio/reader.go.

   A [Reader] is modelled by the unread part [buf[r:w]] of its buffer, its
   pending error and the reader underneath.  The positions r and w themselves
   are not observable: every function that needs free space first slides the
   unread bytes to the front (bufio.go 89-93), so only [w-r] matters.
   lastByte/lastRuneSize (UnreadByte, UnreadRune) are not modelled: no modelled
   caller uses them. *)
From Verif Require Import GoBase.
Local Open Scope N_scope.

(* The io.Reader underneath, as the list of what its successive Read calls have
   to offer: some bytes, or an error (n = 0, err <> nil).  A chunk longer than
   the space offered by the caller is delivered in part and the rest stays
   (net.Conn semantics).  After the last event every Read returns io.EOF.
   Reads returning (0, nil) and reads returning bytes together with an error
   are not modelled (net.Conn does neither for non-empty p). *)
Inductive rdev := EvData (d : bytes) | EvErr (e : err).

Record reader := mkReader { rbuf : bytes; rerr : option err; rsrc : list rdev }.

(* One call rd.Read(p) with len(p) = space > 0: bytes, error, new source. *)
Definition src_read (space : N) (s : list rdev) : bytes * option err * list rdev :=
  match s with
  | [] => ([], Some EEOF, [])
  | EvErr e :: s' => ([], Some e, s')
  | EvData d :: s' =>
      if blen d <=? space then (d, None, s')
      else (ntake space d, None, EvData (ndrop space d) :: s')
  end.

(* how many bytes a destination still accepts before it fails (None: it never fails) *)
Notation wcap := (option N).

Section WithCap.
Context (cap : N).   (* len(b.buf); pool.MaxBufferSize = 4096 in pool/pool.go 26 *)

(* bufio.go 87-115 [fill]: one Read into the free space.  The loop over empty reads never repeats
   because (0, nil) reads are not modelled; the panic of line 96 is [None]. *)
Definition fill (b : reader) : option reader :=
  if cap <=? blen (rbuf b) then None
  else
    let '(d, e, s') := src_read (cap - blen (rbuf b)) (rsrc b) in
    Some (mkReader (rbuf b ++ d) (match e with Some e => Some e | None => rerr b end) s').

(* bufio.go 117-121 *)
Definition readErr (b : reader) : option err * reader := (rerr b, mkReader (rbuf b) None (rsrc b)).

(* bufio.go 138-140: for b.w-b.r < n && b.w-b.r < len(b.buf) && b.err == nil { b.fill() } *)
Fixpoint peek_fill (fuel : nat) (n : N) (b : reader) : option reader :=
  if (blen (rbuf b) <? n) && (blen (rbuf b) <? cap) && (match rerr b with None => true | _ => false end)
  then match fuel with
       | O => None
       | S f => match fill b with Some b' => peek_fill f n b' | None => None end
       end
  else Some b.

(* bufio.go 130-157 [Peek]; [None] = panic or out of fuel (shown impossible). *)
Definition peek (n : N) (b : reader) : option (bytes * option err * reader) :=
  match peek_fill (S (length (rsrc b)) + N.to_nat n) n b with
  | None => None
  | Some b =>
      if cap <? n then Some (rbuf b, Some EBufferFull, b)
      else if blen (rbuf b) <? n then
        let '(e, b') := readErr b in
        Some (rbuf b, Some (match e with Some e => e | None => EBufferFull end), b')
      else Some (ntake n (rbuf b), None, b)
  end.

(* bufio.go 164-190 [Discard] (n > 0 part: the loop) *)
Fixpoint discard_loop (fuel : nat) (n remain : N) (b : reader) : option (N * option err * reader) :=
  match fuel with
  | O => None
  | S f =>
      match (if blen (rbuf b) =? 0 then fill b else Some b) with
      | None => None
      | Some b =>
          let skip := N.min (blen (rbuf b)) remain in
          let b := mkReader (ndrop skip (rbuf b)) (rerr b) (rsrc b) in
          let remain := remain - skip in
          if remain =? 0 then Some (n, None, b)
          else match rerr b with
               | Some e => let '(e', b') := readErr b in Some (n - remain, e', b')
               | None => discard_loop f n remain b
               end
      end
  end.
Definition discard (n : N) (b : reader) : option (N * option err * reader) :=
  if n =? 0 then Some (0, None, b)
  else discard_loop (S (S (length (rsrc b)) + N.to_nat n)) n n b.

(* bufio.go 247-259 [ReadByte] *)
Fixpoint readbyte_loop (fuel : nat) (b : reader) : option ((N + err) * reader) :=
  match rbuf b with
  | c :: rest => Some (inl c, mkReader rest (rerr b) (rsrc b))
  | [] =>
      match rerr b with
      | Some e => Some (inr e, mkReader (rbuf b) None (rsrc b))
      | None => match fuel with
                | O => None
                | S f => match fill b with Some b' => readbyte_loop f b' | None => None end
                end
      end
  end.
Definition readbyte (b : reader) : option ((N + err) * reader) := readbyte_loop 2 b.

(* The destination of a copy: it accepts [Some k] more bytes and then fails (a failing
   write consumes what still fits), or never fails ([None]). An empty write succeeds. *)
Definition w_write (w : wcap) (p : bytes) : N * bool * wcap :=   (* nw, failed?, new state *)
  match w with
  | None => (blen p, false, None)
  | Some k => if blen p <=? k then (blen p, false, Some (k - blen p)) else (k, true, Some 0)
  end.

(* reader.go 93-109 [writeBuf]: n written bytes, error, new N, new reader, new writer *)
Definition writeBuf (w : wcap) (n : N) (b : reader) : bytes * bool * N * reader * wcap :=
  let p := if n <? blen (rbuf b) then ntake n (rbuf b) else rbuf b in
  let '(nw, failed, w') := w_write w p in
  (ntake nw p, failed, n - nw, mkReader (ndrop nw (rbuf b)) (rerr b) (rsrc b), w').

(* reader.go 64-72: the copy loop; [out] accumulates what was written *)
Fixpoint writeTo_loop (fuel : nat) (w : wcap) (n : N) (out : bytes) (b : reader)
  : option (bytes * N * option err * reader * wcap) :=
  match rbuf b with
  | [] =>
      (* reader.go 74-78 *)
      let e := match rerr b with Some EEOF => None | x => x end in
      Some (out, n, e, mkReader (rbuf b) None (rsrc b), w)
  | _ =>
      match fuel with
      | O => None
      | S f =>
          let '(o, failed, n', b', w') := writeBuf w n b in
          if (n' =? 0) || failed
          then Some (out ++ o, n', if failed then Some EWrite else None, b', w')
          else match fill b' with
               | None => None
               | Some b'' => writeTo_loop f w' n' (out ++ o) b''
               end
      end
  end.

(* reader.go 51-79 [LimitedReader.WriteTo] with N = n: bytes written, remaining N, error *)
Definition writeTo (w : wcap) (n : N) (b : reader) : option (bytes * N * option err * reader * wcap) :=
  if n =? 0 then Some ([], 0, None, b, w)
  else
    let '(o, failed, n', b', w') := writeBuf w n b in
    if (n' =? 0) || failed
    then Some (o, n', if failed then Some EWrite else None, b', w')
    else
      match (if blen (rbuf b') <? cap then fill b' else Some b') with
      | None => None
      | Some b'' => writeTo_loop (S (length (rsrc b'')) + N.to_nat n) w' n' o b''
      end.

(* Programs over a reader: what handshake and frame parsing are made of. *)
Inductive prog (A : Type) : Type :=
  | PRet (a : A)
  | PByte (k : N + err -> prog A)                       (* ReadByte *)
  | PPeek (n : N) (k : bytes * option err -> prog A)    (* Peek n *)
  | PDiscard (n : N) (k : N * option err -> prog A)     (* Discard n *)
  | PCopy (n : N) (w : wcap) (k : bytes * N * option err * wcap -> prog A).  (* LimitedReader{N:n}.WriteTo *)
Arguments PRet {A}. Arguments PByte {A}. Arguments PPeek {A}. Arguments PDiscard {A}. Arguments PCopy {A}.

Fixpoint pbind {A B} (m : prog A) (f : A -> prog B) : prog B :=
  match m with
  | PRet a => f a
  | PByte k => PByte (fun r => pbind (k r) f)
  | PPeek n k => PPeek n (fun r => pbind (k r) f)
  | PDiscard n k => PDiscard n (fun r => pbind (k r) f)
  | PCopy n w k => PCopy n w (fun r => pbind (k r) f)
  end.

(* Running a program on the buffered reader. *)
Fixpoint run {A} (m : prog A) (b : reader) : option (A * reader) :=
  match m with
  | PRet a => Some (a, b)
  | PByte k => match readbyte b with Some (r, b') => run (k r) b' | None => None end
  | PPeek n k => match peek n b with Some (d, e, b') => run (k (d, e)) b' | None => None end
  | PDiscard n k => match discard n b with Some (c, e, b') => run (k (c, e)) b' | None => None end
  | PCopy n w k => match writeTo w n b with
                   | Some (o, n', e, b', w') => run (k (o, n', e, w')) b' | None => None end
  end.
End WithCap.
Arguments PRet {A}. Arguments PByte {A}. Arguments PPeek {A}. Arguments PDiscard {A}. Arguments PCopy {A}.
Arguments pbind {A B}. Arguments run cap {A}.

(* ---- Specification: the same operations on a plain stream ---- *)

(* A stream is a list of bytes and read errors in order of arrival; its end is io.EOF for ever. *)
Inductive item := B (b : N) | E (e : err).
Definition stream := list item.

(* The first n bytes of the stream, stopping at an error: the bytes, whether an error (or the end)
   stopped it and which, and what is left (the bytes taken excluded, the error consumed). *)
Fixpoint s_take (n : nat) (s : stream) : bytes * option err * stream :=
  match n with
  | O => ([], None, s)
  | S n' =>
      match s with
      | [] => ([], Some EEOF, [])
      | E e :: s' => ([], Some e, s')
      | B b :: s' => let '(d, e, r) := s_take n' s' in (b :: d, e, r)
      end
  end.

Definition s_peek (n : N) (s : stream) : bytes * option err * stream :=
  let '(d, e, r) := s_take (N.to_nat n) s in (d, e, map B d ++ r).
Definition s_discard (n : N) (s : stream) : N * option err * stream :=
  let '(d, e, r) := s_take (N.to_nat n) s in (blen d, e, r).
Definition s_byte (s : stream) : (N + err) * stream :=
  match s with [] => (inr EEOF, []) | E e :: s' => (inr e, s') | B b :: s' => (inl b, s') end.
(* Copy n bytes to a destination accepting w: bytes delivered, how many of n are missing, error. *)
Definition s_copy (n : N) (w : wcap) (s : stream) : bytes * N * option err * stream * wcap :=
  match w with
  | Some k =>
      if k <? n then
        (* the destination can fail before n bytes: it does iff one byte more than k is available *)
        let '(d, e, r) := s_take (N.to_nat (k + 1)) s in
        match e with
        | None => (ntake k d, n - k, Some EWrite, map B (ndrop k d) ++ r, Some 0)
        | Some e => (d, n - blen d, (if decide (e = EEOF) then None else Some e), r, Some (k - blen d))
        end
      else
        let '(d, e, r) := s_take (N.to_nat n) s in
        (d, n - blen d, match e with Some EEOF => None | x => x end, r, Some (k - blen d))
  | None =>
      let '(d, e, r) := s_take (N.to_nat n) s in
      (d, n - blen d, match e with Some EEOF => None | x => x end, r, None)
  end.

Fixpoint s_run {A} (m : prog A) (s : stream) : A * stream :=
  match m with
  | PRet a => (a, s)
  | PByte k => let '(r, s') := s_byte s in s_run (k r) s'
  | PPeek n k => let '(d, e, s') := s_peek n s in s_run (k (d, e)) s'
  | PDiscard n k => let '(c, e, s') := s_discard n s in s_run (k (c, e)) s'
  | PCopy n w k => let '(o, n', e, s', w') := s_copy n w s in s_run (k (o, n', e, w')) s'
  end.

(* The stream a source / reader stands for. *)
Definition ev_items (e : rdev) : stream := match e with EvData d => map B d | EvErr e => [E e] end.
Definition src_stream (s : list rdev) : stream := flat_map ev_items s.
Definition r_stream (b : reader) : stream := map B (rbuf b) ++ src_stream (rsrc b).

(* Chunks are not empty (a Read never returns (0, nil)). *)
Definition src_ok (s : list rdev) : Prop := Forall (fun e => match e with EvData d => d <> [] | _ => True end) s.
(* The items are bytes. *)
Definition item_ok (i : item) : Prop := match i with B b => is_byte b | E _ => True end.
(* Every Peek of the program asks for at most the buffer size, whatever bytes it has read before. *)
Fixpoint peeks_ok (cap : N) {A} (m : prog A) : Prop :=
  match m with
  | PRet _ => True
  | PByte k => forall r, match r with inl b => is_byte b | inr _ => True end -> peeks_ok cap (k r)
  | PPeek n k => n <= cap /\ forall d e, all_bytes d -> peeks_ok cap (k (d, e))
  | PDiscard _ k => forall r, peeks_ok cap (k r)
  | PCopy _ _ k => forall r, peeks_ok cap (k r)
  end.
