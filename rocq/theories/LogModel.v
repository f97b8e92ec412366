(* LogModel.v -- the log files: logger/logger.go 66-76, logger/file-rotatelogs/rotatelogs.go 100-234 (genFilename, Write,
   getWriter_nolock), 280-391 (rotate_nolock).
   One directory, with inodes: a file that is unlinked while it is open goes on receiving what is written to it, and is lost.
   Simplified: the file system does not fail; the path has no metacharacter of filepath.Glob and no directory part; a call of
   Write is one step with respect to the goroutines that unlink old files (383-388), each unlink is a step of its own; the
   process is not killed inside rotate_nolock (a left-over _lock or _symlink makes later rotations to the same file name
   skip the clean-up); logFileMaxCount is not 0 (config: 0 means the default 7).  The symbolic link is not modelled. *)
From Coq Require Import Strings.String.
From stdpp Require Import sorting.
From Verif Require Import GoBase FlagsModel.
Local Open Scope N_scope.

(* sort.Strings: the order of bytes *)
Fixpoint lexle (a b : bytes) : bool :=
  match a, b with
  | [], _ => true
  | _, [] => false
  | x :: a, y :: b => if x <? y then true else if y <? x then false else lexle a b
  end.
(* fmt.Sprintf("%d") *)
Fixpoint dec_go (fuel : nat) (n : N) (acc : bytes) : bytes :=
  match fuel with
  | O => acc
  | S f => let acc := (48 + n mod 10) :: acc in if n / 10 =? 0 then acc else dec_go f (n / 10) acc
  end.
Definition dec (n : N) : bytes := dec_go (S (N.to_nat (N.log2 n))) n [].
(* the day d (year * 10000 + month * 100 + day), as strftime %Y%m%d prints it: eight digits *)
Definition dec8 (d : N) : bytes := (fun k => 48 + d / 10 ^ k mod 10) <$> [7; 6; 5; 4; 3; 2; 1; 0].
(* logger.go 68, rotatelogs.go 100-122: a new file every day, local time *)
Definition bname (path : bytes) (d : N) : bytes := path ++ bs "." ++ dec8 d.
(* 179-183 *)
Definition gname (base : bytes) (g : nat) : bytes := match g with O => base | _ => base ++ bs "." ++ dec (N.of_nat g) end.

Record lcfg := mkLCfg { lPath : bytes; lLimit : N; lCount : nat }.
(* lDir: the directory, name -> inode; lData: the contents by inode; lBase, lCur, lGen: curBaseFn, curFn, generation; lHandle:
   outFh; lPend: what the unlinking goroutines have still to do *)
Record lst := mkL { lDir : gmap bytes nat; lData : list bytes; lBase : bytes; lCur : bytes; lGen : nat; lHandle : option nat; lPend : list (list bytes) }.
Definition lst0 (dir : gmap bytes nat) (data : list bytes) : lst := mkL dir data [] [] 0 None [].

(* 178-189 *)
Fixpoint free_gen (fuel : nat) (dir : gmap bytes nat) (base : bytes) (g : nat) : option nat :=
  match fuel with
  | O => None
  | S f => match dir !! gname base g with None => Some g | Some _ => free_gen f dir base (S g) end
  end.
Definition ends_with (s n : bytes) : bool := bool_decide (drop (length n - length s) n = s).
(* 29-31: "%Y%m%d" becomes "***" and then "*"; 336, 345 *)
Definition is_log (path n : bytes) : bool :=
  bool_decide (take (length path + 1) n = path ++ bs ".") && negb (ends_with (bs "_lock") n || ends_with (bs "_symlink") n).
Definition ordered (a b : bytes) : Prop := lexle a b = true.
#[global] Instance ordered_dec a b : Decision (ordered a b). Proof. unfold ordered. apply _. Defined.
Definition matches (path : bytes) (dir : gmap bytes nat) : list bytes := merge_sort ordered (filter (fun n => is_log path n = true) (map_to_list dir).*1).

(* 128-234; d: today *)
Definition lwrite (c : lcfg) (d : N) (p : bytes) (s : lst) : option lst :=
  let base := bname (lPath c) d in
  (* 151-156 *)
  let big := match lDir s !! lCur s with Some i => (0 <? lLimit c) && (lLimit c <=? blen (lData s !!! i)) | None => false end in
  if bool_decide (base = lBase s) && negb big then
    (* 166-169, 138 *)
    i ← lHandle s; Some (mkL (lDir s) (alter (fun x => x ++ p) i (lData s)) (lBase s) (lCur s) (lGen s) (lHandle s) (lPend s))
  else
    (* 158-172 *)
    let g0 := if bool_decide (base = lBase s) then S (lGen s) else O in
    (* 173-190 *)
    g ← (if big then free_gen (S (size (lDir s))) (lDir s) base g0 else Some g0);
    let fn := if big then gname base g else base in
    (* 198 *)
    let '(dir, data, i) := match lDir s !! fn with Some i => (lDir s, lData s, i) | None => (<[fn := length (lData s)]> (lDir s), lData s ++ [[]], length (lData s)) end in
    (* 336-388 *)
    let m := matches (lPath c) dir in
    let pend := if (length m <=? lCount c)%nat then lPend s else lPend s ++ [take (length m - lCount c) m] in
    Some (mkL dir (alter (fun x => x ++ p) i data) base fn g (Some i) pend).

Inductive levt :=
  | LWrite (d : N) (p : bytes)  (* Write returns without an error; d: today *)
  | LUnlink                     (* an unlinking goroutine goes on *)
  | LRestart.                   (* the process ends, a new one is started *)
Inductive lstep (c : lcfg) : lst -> levt -> lst -> Prop :=
  | l_write s d p s' : lwrite c d p s = Some s' -> lstep c s (LWrite d p) s'
  | l_unlink dir data b u g h p1 n r p2 : lstep c (mkL dir data b u g h (p1 ++ (n :: r) :: p2)) LUnlink (mkL (delete n dir) data b u g h (p1 ++ r :: p2))
  | l_restart dir data b u g h pd : lstep c (mkL dir data b u g h pd) LRestart (mkL dir data [] [] 0 None []).
