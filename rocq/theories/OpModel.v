(* OpModel.v -- messages between gt's processes, on the Rust side: bin/src/manager.rs 660-743 (read_json, write_json,
   read_hex_len_json, write_hex_len_json) and bin/src/peer/mod.rs 131-172 (read_json, write_json: the same with a lock around them).
   A message is the text of a JSON value; that serde understands the text is not modelled.  tokio's read_exact is [read_full]. *)
From Verif Require Import GoBase BufioModel FrameModel StdioModel.
Local Open Scope N_scope.

Definition MAX_JSON_LENGTH : N := 8 * 1024.                                  (* manager.rs 660, mod.rs 135 *)

(* manager.rs 684-701, mod.rs 155-172: two writes, the length and the text *)
Definition op_head (m : bytes) : bytes := be32 (u32 (blen m)).
Definition op_write (m : bytes) : bytes := op_head m ++ m.
(* manager.rs 662-682, mod.rs 131-153 *)
Definition op_read (s : list rdev) : json_result * list rdev :=
  let '(h, e, s) := read_full 4 s in
  match e with
  | Some e => (JError e, s)
  | None => let l := p32 h in
      if MAX_JSON_LENGTH <? l then (JTooLarge, s)
      else let '(j, e, s) := read_full l s in match e with Some e => (JError e, s) | None => (JMessage j, s) end
  end.

(* manager.rs 725-743: format!("{:08x}") *)
Definition hexd (d : N) : N := if d <? 10 then 48 + d else 87 + d.
Definition hex8 (n : N) : bytes := (fun k => hexd (n / 16 ^ k mod 16)) <$> [7; 6; 5; 4; 3; 2; 1; 0].
Definition hex_head (m : bytes) : bytes := hex8 (u32 (blen m)).
Definition hex_write (m : bytes) : bytes := hex_head m ++ m.
(* u32::from_str_radix(s, 16): digits of either case, a leading + *)
Definition hexv (b : N) : option N :=
  if (48 <=? b) && (b <=? 57) then Some (b - 48)
  else if (97 <=? b) && (b <=? 102) then Some (b - 87)
  else if (65 <=? b) && (b <=? 70) then Some (b - 55) else None.
Fixpoint digits (acc : N) (s : bytes) : option N :=
  match s with
  | [] => Some acc
  | b :: s => d ← hexv b; if 4294967295 <? acc * 16 + d then None else digits (acc * 16 + d) s
  end.
Definition from_hex (s : bytes) : option N :=
  match s with [] => None | b :: r => if b =? 43 then (match r with [] => None | _ => digits 0 r end) else digits 0 s end.
(* manager.rs 703-723 *)
Definition hex_read (s : list rdev) : json_result * list rdev :=
  let '(h, e, s) := read_full 8 s in
  match e with
  | Some e => (JError e, s)
  | None => match from_hex h with
      | None => (JError EOther, s)
      | Some l => if MAX_JSON_LENGTH <? l then (JTooLarge, s)
                  else let '(j, e, s) := read_full l s in match e with Some e => (JError e, s) | None => (JMessage j, s) end
      end
  end.
(* one message after the other, up to the first error *)
Fixpoint reads (read : list rdev -> json_result * list rdev) (n : nat) (s : list rdev) : list json_result * list rdev :=
  match n with
  | O => ([], s)
  | S n => let '(r, s) := read s in
           match r with JMessage _ => let '(rs, s) := reads read n s in (r :: rs, s) | _ => ([r], s) end
  end.

(* Several tasks write to the same pipe.  [lock]: with the lock of mod.rs 159; manager.rs has none, and each of its writers
   (handle_stdout, 241-258) makes a handle of its own. *)
Record wst := mkWst { wPend : gmap nat bytes;    (* tasks that have written the length of their message and not yet the text *)
                      wStream : bytes;
                      wMsgs : list bytes }.      (* the messages, in the order in which their lengths were written *)
#[global] Instance wst_dec : EqDecision wst. Proof. solve_decision. Defined.
Inductive wev := WHead (t : nat) (m : bytes) | WBody (t : nat).
Definition wstep (lock : bool) (head : bytes -> bytes) (s : wst) (e : wev) : option wst :=
  match e with
  | WHead t m => if bool_decide (is_Some (wPend s !! t)) || lock && negb (bool_decide (wPend s = ∅)) then None
                 else Some (mkWst (<[t := m]> (wPend s)) (wStream s ++ head m) (wMsgs s ++ [m]))
  | WBody t => m ← wPend s !! t; Some (mkWst (delete t (wPend s)) (wStream s ++ m) (wMsgs s))
  end.
Definition wst0 : wst := mkWst ∅ [] [].
Definition wrun (lock : bool) (head : bytes -> bytes) (tr : list wev) : option wst := fold_left (fun o e => o ≫= fun s => wstep lock head s e) tr (Some wst0).

(* peer/conn.rs 352-385: the loop of the peer process reads with select!; when the timer fires first, the read that is under way
   is dropped, with the bytes it has taken, and the loop begins anew.  [acc]: what the read under way has taken. *)
Inductive lev := LByte (b : N) | LTimer.
Record lst := mkLst { lAcc : bytes; lGot : list bytes; lEnd : bool }.   (* lEnd: the loop has ended with "json too large" *)
Definition lstep (s : lst) (e : lev) : lst :=
  if lEnd s then s else
  match e with
  | LTimer => mkLst [] (lGot s) false
  | LByte b =>
      let acc := lAcc s ++ [b] in
      match acc with
      | a :: b :: c :: d :: body =>
          let l := rd32 a b c d in
          if MAX_JSON_LENGTH <? l then mkLst [] (lGot s) true
          else if l =? blen body then mkLst [] (lGot s ++ [body]) false else mkLst acc (lGot s) false
      | _ => mkLst acc (lGot s) false
      end
  end.
Definition lrun (tr : list lev) : lst := fold_left lstep tr (mkLst [] [] false).
