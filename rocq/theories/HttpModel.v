(* HttpModel.v -- server/http.go and server/tls.go: what routes a visitor *)
From Verif Require Import GoBase BufioModel HostRewriteSpec HostRewriteModel HttpSpec.
Local Open Scope N_scope.

Inductive herr := HRead (e : err) | HInvalidHeaderLength | HInvalidHTTPProtocol | HEOF.
Inductive hverdict := VDec (d : hdec) | VMore.

Section P.
Context (cap : N) (trim : bytes -> bytes) (target : bytes).
(* [trim] is bytes.TrimSpace, left abstract. *)

(* server/http.go 54-74: one pass over the buffered bytes; [rest] = headers[i:] *)
Fixpoint hscan (headers : bytes) (s i : N) (rest : bytes) : hverdict :=
  match rest with
  | [] => VMore
  | b :: rest =>
      if b =? NL then
        if (blen target <=? i - s) && bool_decide (ntake (blen target) (ndrop s headers) = target) then
          let line := trim (ntake (i - (s + blen target)) (ndrop (s + blen target) headers)) in
          let hl := blen line in
          if (hl <? 1) || (512 <? hl) then VDec DBadLen else VDec (DValue line)
        else if (3 <=? i) && (match ndrop (i - 3) headers with
                              | h3 :: h2 :: h1 :: h0 :: _ => rd32 h3 h2 h1 h0 =? 0x0D0A0D0A
                              | _ => false end) then VDec DEnd
        else hscan headers (if i <? blen headers then i + 1 else s) (i + 1) rest
      else hscan headers s (i + 1) rest
  end.

(* server/http.go 44-84 [peekHeader]; the outer None is a panic of the reader or lack of fuel (shown impossible) *)
Fixpoint peek_header_loop (fuel : nat) (b : reader) : option ((bytes + herr) * reader) :=
  match fuel with
  | O => None
  | S fuel =>
      let n := blen (rbuf b) in
      match peek cap n b with
      | None => None
      | Some (_, Some e, b) => Some (inr (HRead e), b)
      | Some (headers, None, b) =>
          match hscan headers 0 0 headers with
          | VDec (DValue v) => Some (inl v, b)
          | VDec DBadLen => Some (inr HInvalidHeaderLength, b)
          | VDec DEnd => Some (inr HEOF, b)
          | VMore =>
              if 2048 <? n then Some (inr HInvalidHTTPProtocol, b)
              else match peek cap (n + 1) b with
                   | None => None
                   | Some (_, Some e, b) => Some (inr (HRead e), b)
                   | Some (_, None, b) => peek_header_loop fuel b
                   end
          end
      end
  end.
Definition peek_header (b : reader) : option ((bytes + herr) * reader) := peek_header_loop 2051 b.
End P.

(* server/http.go 86-103 [parseIDFromHost]; None = ErrInvalidHost *)
Definition parse_id_from_host (host : bytes) : option bytes :=
  match index_byte DOT host with
  | None => None
  | Some i =>
      if blen host <=? i + 1 then None
      else match index_byte DOT (ndrop (i + 1) host) with
           | None => None
           | Some j => if j <=? 0 then None else Some (ntake i host)
           end
  end.

(* server/http.go 35 "Host: " *)
Definition header_host_prefix : bytes := HOST ++ [32].
(* server/conn.go 289-312 (handleHTTP): the ID a request is routed by; [mux] = config.HTTPMUXHeader, [is_host] = (mux == "Host") *)
Definition http_id (cap : N) (trim : bytes -> bytes) (is_host : bool) (mux : bytes) (b : reader) : option (option bytes * reader) :=
  match peek_header cap trim (if is_host then header_host_prefix else mux ++ [58]) b with
  | None => None
  | Some (inr _, b) => Some (None, b)
  | Some (inl v, b) =>
      let id := if is_host then (if blen v <? 1 then None else parse_id_from_host v) else Some v in
      match id with
      | Some id => if blen id <? 1 then Some (None, b) else Some (Some id, b)
      | None => Some (None, b)
      end
  end.

(* ---- server/tls.go 23-119 [peekTLSHost] ---- *)
Inductive tres := TName (n : bytes) | TErr | TPanic.
(* buf[i] *)
Definition at_ (buf : bytes) (i : N) (k : N -> tres) : tres :=
  match nnth i buf with Some b => k b | None => TPanic end.
(* uint16(buf[i+1]) | uint16(buf[i])<<8 *)
Definition at16 (buf : bytes) (i : N) (k : N -> tres) : tres :=
  at_ buf (i + 1) (fun lo => at_ buf i (fun hi => k (rd16 hi lo))).

(* 71-117: the loop over the extensions.  extensionsLen is an int that can become negative: truncated subtraction
   gives the same answer to the only test made on it (> 0).  Running out of fuel counts as a panic (shown impossible). *)
Fixpoint ext_loop (fuel : nat) (buf : bytes) (i extlen : N) : tres :=
  let n := blen buf in
  match fuel with
  | O => TPanic
  | S fuel =>
      if extlen =? 0 then TErr
      else if n <? i + 2 then TErr
      else at16 buf i (fun ty =>
        if n <? i + 2 + 2 then TErr
        else at16 buf (i + 2) (fun len =>
          if negb (ty =? 0) then ext_loop fuel buf (i + 4 + len) (extlen - 2 - 2 - len)
          else
            let i := i + 4 + 2 in
            if n <? i + 1 then TErr
            else at_ buf i (fun nt =>
              if negb (nt =? 0) then TErr
              else
                let i := i + 1 in
                if n <? i + 2 then TErr
                else at16 buf i (fun nl =>
                  let i := i + 2 in
                  if n <? i + nl then TErr else TName (ntake nl (ndrop i buf))))))
  end.

(* 30-118 on the buffered bytes *)
Definition tls_scan (buf : bytes) : tres :=
  let n := blen buf in
  if n <? 0 + 1 then TErr
  else at_ buf 0 (fun rt =>
    if negb (rt =? 22) then TErr
    else
      let i := 1 + (2 + 2) in
      if n <? i + 1 then TErr
      else at_ buf i (fun ht =>
        if negb (ht =? 1) then TErr
        else
          let i := i + 1 + (3 + 2 + 32) in
          if n <? i + 1 then TErr
          else at_ buf i (fun sl =>
            let i := i + (1 + sl) in
            if n <? i + 2 then TErr
            else at16 buf i (fun cl =>
              let i := i + (2 + cl) in
              if n <? i + 1 then TErr
              else at_ buf i (fun ml =>
                let i := i + (1 + ml) in
                if n <? i + 2 then TErr
                else at16 buf i (fun el => ext_loop (S (length buf)) buf (i + 2) el)))))).

(* 23-33 *)
Definition peek_tls_host (cap : N) (b : reader) : option ((tres + err) * reader) :=
  match peek cap 1 b with
  | None => None
  | Some (_, Some e, b) => Some (inr e, b)
  | Some (_, None, b) =>
      match peek cap (blen (rbuf b)) b with
      | None => None
      | Some (_, Some e, b) => Some (inr e, b)
      | Some (buf, None, b) => Some (inl (tls_scan buf), b)
      end
  end.
