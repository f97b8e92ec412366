(* ClogModel.v -- what one end of a tunnel does with the frames for its visitors when they read slowly.  The server's end: server/conn.go readLoop 836-978
   (one goroutine per tunnel takes frame after frame and writes each to its visitor's connection, 919-952), conn/conn.go Write 43-56 (every Write has a
   new deadline, WriteTimeout after its begin, set in server/conn.go 63), bufio/reader.go WriteTo 47-78 (a frame is handed on in as many Writes as the
   tunnel's buffer is filled) and writeBuf 93-109.  The client's end: client/conn.go readLoop 192-374, processServiceData 435-449, processData 483-497; there
   the writes to the service's connection have no deadline (client/task.go: Write of t.conn).
   Simplified: the visitors (services) are there from the start; a connection takes B bytes that have not been read; the answer to a ping never waits;
   a Write whose deadline has come ends before time goes on; frames with no bytes write nothing (C15 has what happens there). *)
From Verif Require Import GoBase.
Local Open Scope N_scope.

Inductive fr := FrData (i : N) (p : bytes) | FrPing | FrEnd (i : N).
#[global] Instance fr_dec : EqDecision fr. Proof. solve_decision. Defined.
Record vis := mkV { vGot : bytes; vRead : nat }.                    (* what its connection has taken; how much of it was read *)
Record tn := mkT {
  tQ : list fr;                                                     (* what has come and is not yet taken *)
  tW : option (N * bytes * bytes * option N);                       (* to whom, rest of this Write, rest of the frame after it, deadline *)
  tV : gmap N vis;
  tNow : N;
  tPongs : list N }.                                                (* when pings were answered *)
Definition room (B : nat) (v : vis) : nat := (B - (length (vGot v) - vRead v))%nat.
Inductive cev :=
  | VArrive (f : fr)
  | VTake (k : nat)            (* the next frame; a data frame's first Write is of k bytes *)
  | VPush (k : nat)            (* the connection takes k bytes of the Write *)
  | VNext (k : nat)            (* the next Write of the same frame *)
  | VTimeout                   (* server/conn.go 933-952: the rest of the frame is discarded and the loop goes on *)
  | VRead (i : N) (k : nat) | VLeave (i : N) | VTick.
Definition cstep (B : nat) (T : option N) (s : tn) (e : cev) : option tn :=
  match s with mkT q w v now po =>
  match e with
  | VArrive f => Some (mkT (q ++ [f]) w v now po)
  | VTake k => match w, q with
      | None, FrData i p :: q => match v !! i, p with
          | Some _, _ :: _ => if (0 <? k)%nat && (k <=? length p)%nat then Some (mkT q (Some (i, take k p, drop k p, (fun t => now + t) <$> T)) v now po) else None
          | _, _ => Some (mkT q None v now po)
          end
      | None, FrPing :: q => Some (mkT q None v now (po ++ [now]))
      | None, FrEnd i :: q => Some (mkT q None (delete i v) now po)
      | _, _ => None
      end
  | VPush k => match w with
      | Some (i, c, l, d) => match v !! i with
          | Some x => if (0 <? k)%nat && (k <=? length c)%nat && (k <=? room B x)%nat then
                        Some (mkT q (match drop k c, l with [], [] => None | c', _ => Some (i, c', l, d) end) (<[i := mkV (vGot x ++ take k c) (vRead x)]> v) now po)
                      else None
          | None => None
          end
      | None => None
      end
  | VNext k => match w with
      | Some (i, [], l, _) => if (0 <? k)%nat && (k <=? length l)%nat then Some (mkT q (Some (i, take k l, drop k l, (fun t => now + t) <$> T)) v now po) else None
      | _ => None
      end
  | VTimeout => match w with
      | Some (i, _ :: _, _, Some d) => if d <=? now then Some (mkT q None v now po) else None
      | _ => None
      end
  | VRead i k => match v !! i with
      | Some x => if (0 <? k)%nat && (k <=? length (vGot x) - vRead x)%nat then Some (mkT q w (<[i := mkV (vGot x) (vRead x + k)]> v) now po) else None
      | None => None
      end
  | VLeave i => match v !! i with
      | Some _ => Some (mkT q (match w with Some (j, _, _, _) => if bool_decide (j = i) then None else w | None => None end) (delete i v) now po)
      | None => None
      end
  | VTick => match w with
      | Some (_, _ :: _, _, Some d) => if now <? d then Some (mkT q w v (now + 1) po) else None
      | _ => Some (mkT q w v (now + 1) po)
      end
  end end.
Definition crun (B : nat) (T : option N) (s : tn) (tr : list cev) : option tn := fold_left (fun o e => o ≫= fun s => cstep B T s e) tr (Some s).
Definition t0 (ids : gset N) : tn := mkT [] None (gset_to_gmap (mkV [] 0) ids) 0 [].
