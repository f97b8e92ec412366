(* ChunkedModel.v -- client/std/chunked.go: HTTP chunked coding *)
From Verif Require Import GoBase.
Local Open Scope N_scope.

(* ---- writer ---- *)
Definition hexdigit (d : N) : N := if d <? 10 then 48 + d else 87 + d.
Fixpoint hex_aux (fuel : nat) (n : N) : bytes :=
  match fuel with O => [] | S f => if n =? 0 then [] else hex_aux f (n / 16) ++ [hexdigit (n mod 16)] end.
(* fmt "%x" of a length (at most 64 bits) *)
Definition to_hex (n : N) : bytes := if n =? 0 then [48] else hex_aux 16 n.
(* chunked.go 218-240 [Write] to a writer that does not fail *)
Definition chunk_write (data : bytes) : bytes :=
  if blen data =? 0 then [] else to_hex (blen data) ++ [13; 10] ++ data ++ [13; 10].
(* 242-245 [Close]: "0\r\n" *)
Definition chunk_close : bytes := [48; 13; 10].

(* ---- reader ---- *)
Inductive cerr := CEOF | CUnexpectedEOF | CLineTooLong | CMalformed | CInvalidByte | CTooLarge.
#[global] Instance cerr_eq_dec : EqDecision cerr.
Proof. solve_decision. Defined.

(* 255-274 [parseHexUint], from index i with value n; n <<= 4 drops the bits above 64 *)
Definition hexval (b : N) : option N :=
  if (48 <=? b) && (b <=? 57) then Some (b - 48)
  else if (97 <=? b) && (b <=? 102) then Some (b - 97 + 10)
  else if (65 <=? b) && (b <=? 70) then Some (b - 65 + 10)
  else None.
Fixpoint parse_hex (i n : N) (v : bytes) : N + cerr :=
  match v with
  | [] => inl n
  | b :: v =>
      match hexval b with
      | None => inr CInvalidByte
      | Some d => if i =? 16 then inr CTooLarge else parse_hex (i + 1) (N.lor (N.shiftl n 4 mod 2 ^ 64) d) v
      end
  end.

(* b.ReadSlice('\n') on the whole stream: the line with its end, and the rest *)
Fixpoint cut_line (s : bytes) : option (bytes * bytes) :=
  match s with
  | [] => None
  | b :: s => if b =? 10 then Some ([b], s) else match cut_line s with Some (l, r) => Some (b :: l, r) | None => None end
  end.
Definition isASCIISpace (b : N) : bool := (b =? 32) || (b =? 9) || (b =? 10) || (b =? 13).        (* 167-169 *)
(* 160-165 [trimTrailingWhitespace], on the reversed list *)
Fixpoint drop_space (r : bytes) : bytes := match r with b :: r' => if isASCIISpace b then drop_space r' else r | [] => [] end.
Definition trim (b : bytes) : bytes := rev (drop_space (rev b)).
(* 179-185 [removeChunkExtension]: what precedes the first ';' *)
Fixpoint cut_semi (p : bytes) : bytes := match p with [] => [] | b :: p => if b =? 59 then [] else b :: cut_semi p end.
(* 136-158 [readChunkLine] and 71: the buffer of the bufio.Reader is 4096 bytes *)
Definition chunk_size (s : bytes) : (N * bytes) + cerr :=
  match cut_line s with
  | None => inr (if 4096 <=? blen s then CLineTooLong else CUnexpectedEOF)
  | Some (l, r) =>
      if 4096 <=? blen l then inr CLineTooLong
      else match parse_hex 0 0 (cut_semi (trim l)) with inl n => inl (n, r) | inr e => inr e end
  end.

(* 51-57: crRest is the unread stream, which ends with EOF *)
Record crst := mkCr { crRest : bytes; crN : N; crErr : option cerr; crCheckEnd : bool }.
Definition cr0 (s : bytes) : crst := mkCr s 0 None false.
(* 59-74 [beginChunk] *)
Definition begin_chunk (s : bytes) : crst :=
  match chunk_size s with
  | inr e => mkCr s 0 (Some e) false
  | inl (n, r) => mkCr r n (if n =? 0 then Some CEOF else None) false
  end.

(* 85-132 [Read] with room for [cap] bytes; [got] = some bytes have been read in this call.  The relation covers every
   behaviour of the buffered reader below: how many bytes one of its Reads brings, and what happens to be buffered when
   the code decides to return early (88-93, 110-114).  Result: the bytes put into b, and the reader afterwards; the
   error returned is its crErr. *)
Inductive cread : N -> bool -> crst -> bytes -> crst -> Prop :=
| cr_err cap g s n e c : cread cap g (mkCr s n (Some e) c) [] (mkCr s n (Some e) c)
| cr_end_early cap s n : cread cap true (mkCr s n None true) [] (mkCr s n None true)                                  (* 88-93 *)
| cr_end_ok cap g s n d st : cread cap g (mkCr s n None false) d st -> cread cap g (mkCr (13 :: 10 :: s) n None true) d st
| cr_end_bad cap g a b s n : (a, b) <> (13, 10) -> cread cap g (mkCr (a :: b :: s) n None true) [] (mkCr s n (Some CMalformed) true)   (* 95-98 *)
| cr_end_eof cap g s n : blen s < 2 -> cread cap g (mkCr s n None true) [] (mkCr [] n (Some CUnexpectedEOF) true)      (* 99-104 *)
| cr_head_early cap s : cread cap true (mkCr s 0 None false) [] (mkCr s 0 None false)                                (* 110-114 *)
| cr_head cap g s d st : cread cap g (begin_chunk s) d st -> cread cap g (mkCr s 0 None false) d st                   (* 115-116 *)
| cr_full g s n : 0 < n -> cread 0 g (mkCr s n None false) [] (mkCr s n None false)                                   (* 118-120 *)
| cr_data cap g s n k d st : 0 < k -> k <= cap -> k <= n -> k <= blen s ->                                            (* 121-131 *)
    cread (cap - k) true (mkCr (ndrop k s) (n - k) None (n - k =? 0)) d st -> cread cap g (mkCr s n None false) (ntake k s ++ d) st
| cr_data_eof cap g n : 0 < n -> 0 < cap -> cread cap g (mkCr [] n None false) [] (mkCr [] n (Some CUnexpectedEOF) false).

(* any number of Reads, with buffers of any sizes *)
Inductive creads : crst -> list (N * bytes) -> crst -> Prop :=
| crs_nil st : creads st [] st
| crs_cons st cap d st1 l st2 : cread cap false st d st1 -> creads st1 l st2 -> creads st ((cap, d) :: l) st2.
