(* HostRewriteModel.v -- client/task.go 36-219: httpTask.Write with a replacement Host header *)
From Verif Require Import GoBase BufioModel HostRewriteSpec.
Local Open Scope N_scope.

(* bytes.IndexByte(p, c); None is -1 *)
Fixpoint index_byte (c : N) (p : bytes) : option N :=
  match p with
  | [] => None
  | x :: p => if x =? c then Some 0 else match index_byte c p with Some i => Some (i + 1) | None => None end
  end.

(* The fields Write uses.  [hOwn]: tempBuf still stores its bytes in the pool buffer t.buf (bytes.Buffer moves to
   fresh memory when it has to grow).  t.conn is represented by how much it still accepts and what it received. *)
Record htask := mkHtask {
  hTmp : option bytes;      (* tempBuf: None is nil *)
  hSkip : bool; hPass : bool; hOwn : bool }.

(* client/task.go 55-66 [setHost], for len(host) <= 200 *)
Definition host_line (h : bytes) : bytes := [72; 111; 115; 116; 58; 32] ++ h ++ [13; 10].
Definition set_host (h : bytes) : option htask :=
  if 200 <? blen h then None else Some (mkHtask (Some []) false false true).

Inductive verdict := Good | Unsure | Replace.
(* 207-219 [isGoodToWrite] *)
Definition is_good (p : bytes) : verdict :=
  let l := if 5 <? blen p then 5 else blen p in
  if decide (ntake l p = ntake l HOST) then if l <? 5 then Unsure else Replace
  else Good.

(* n, failed, task, destination, bytes the destination received *)
Notation hres := (N * bool * htask * option N * bytes)%type.

Section W.
(* [buf]: t.buf.  [room]: cap(t.buf) - len(t.buf), the space of tempBuf inside the pool buffer.
   [steal]: what the bytes of a buffer already returned to the pool have become when they are read
   (identity if nobody reused it). *)
Context (buf : bytes) (room : N) (steal : bytes -> bytes).

(* t.conn.Write(p) *)
Definition cwrite (w : wcap) (p : bytes) : N * bool * wcap * bytes :=
  let '(nw, failed, w') := w_write w p in (nw, failed, w', ntake nw p).

(* 127-196: the loop over the lines of p[s:] = q; [updated] as in the code; [alias]: q lies in the pool buffer *)
Fixpoint write_loop (fuel : nat) (t : htask) (w : wcap) (updated alias : bool) (q : bytes) (n : N) (out : bytes) : hres :=
  match fuel with
  | O => (n, false, t, w, out)
  | S fuel =>
      if blen q <? 1 then (n, false, t, w, out)
      else
        match is_good q with
        | Good =>
            match index_byte NL q with
            | None =>
                let '(nw, f, w', o) := cwrite w q in
                (if updated then n else n + nw, f, mkHtask (hTmp t) (hSkip t) true (hOwn t), w', out ++ o)
            | Some i =>
                let '(nw, f, w', o) := cwrite w (ntake (i + 1) q) in
                let n := if updated then n else n + nw in
                if (f : bool) then (n, true, t, w', out ++ o)
                else write_loop fuel t w' updated alias (ndrop (i + 1) q) n (out ++ o)
            end
        | Unsure =>
            (if updated then n else n + blen q, false,
             mkHtask (match hTmp t with Some x => Some (x ++ q) | None => None end) (hSkip t) (hPass t) (hOwn t), w, out)
        | Replace =>
            let '(_, f, w', o) := cwrite w buf in
            if (f : bool) then (n, true, t, w', out ++ o)
            else
              match index_byte NL q with
              | None => (if updated then n else n + blen q, false, mkHtask (hTmp t) true (hPass t) (hOwn t), w', out ++ o)
              | Some i =>
                  let q' := ndrop (i + 1) q in
                  let n := if updated then n else n + (i + 1) in
                  let t := mkHtask None (hSkip t) (hPass t) (hOwn t) in
                  (* 183: the buffer goes back to the pool; 184-190: what is left of q is written afterwards *)
                  if 0 <? blen q' then
                    let '(nw, f, w'', o') := cwrite w' (if alias then steal q' else q') in
                    (if updated then n else n + nw, f, t, w'', out ++ o ++ o')
                  else (n, false, t, w', out ++ o)
              end
        end
  end.

(* 106-196, for tempBuf <> nil, with what is already in n and out *)
Definition write_lines (t : htask) (tmp : bytes) (w : wcap) (p : bytes) (n : N) (out : bytes) : hres :=
  if blen p + blen tmp <? 5 then
    (n + blen p, false, mkHtask (Some (tmp ++ p)) (hSkip t) (hPass t) (hOwn t), w, out)
  else if 0 <? blen tmp then
    let own := hOwn t && (blen tmp + blen p <=? room) in
    let t := mkHtask (Some []) (hSkip t) (hPass t) own in
    write_loop (S (length (tmp ++ p))) t w true own (tmp ++ p) (n + blen p) out
  else write_loop (S (length p)) t w false false p n out.

(* 68-196 [Write] *)
Definition hwrite (t : htask) (w : wcap) (p : bytes) : hres :=
  match hTmp t with
  | None => let '(nw, f, w', o) := cwrite w p in (nw, f, t, w', o)
  | Some tmp =>
      if hSkip t then
        match index_byte NL p with
        | None => (blen p, false, t, w, [])
        | Some i =>
            let t := mkHtask None false (hPass t) (hOwn t) in
            if blen p <=? i + 1 then (blen p, false, t, w, [])
            else let '(nw, f, w', o) := cwrite w (ndrop (i + 1) p) in (nw + (i + 1), f, t, w', o)
        end
      else if hPass t then
        match index_byte NL p with
        | None => let '(nw, f, w', o) := cwrite w p in (nw, f, t, w', o)
        | Some i =>
            let t := mkHtask (hTmp t) (hSkip t) false (hOwn t) in
            let '(nw, f, w', o) := cwrite w (ntake (i + 1) p) in
            if (f : bool) then (nw, true, t, w', o)
            else
              let p := ndrop (i + 1) p in
              if blen p <=? 0 then (nw, false, t, w', o)
              else write_lines t tmp w' p nw o
        end
      else write_lines t tmp w p 0 []
  end.

(* successive Write calls, stopping at the first that fails: the counts returned and all the output *)
Fixpoint hwrites (t : htask) (w : wcap) (ps : list bytes) : list N * bool * htask * bytes :=
  match ps with
  | [] => ([], false, t, [])
  | p :: ps =>
      let '(n, f, t', w', o) := hwrite t w p in
      if (f : bool) then ([n], true, t', o)
      else let '(ns, f', t'', o') := hwrites t' w' ps in (n :: ns, f', t'', o ++ o')
  end.
End W.
