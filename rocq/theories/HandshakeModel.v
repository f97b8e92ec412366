(* HandshakeModel.v -- the tunnel handshake: client side encoding (libcs/client/conn.go)
   and server side decoding (libcs/server/conn.go). *)
From Verif Require Import GoBase BufioModel.
Local Open Scope N_scope.

(* predef/const.go 67-74 *)
Definition IDAsHostPrefix : bytes := [0].
Definition OpenTCPPort : bytes := [1].
Definition OptionAndNextOption : bytes := [2].
Definition OpenHost : bytes := [3].
Definition IDAsTLSHostPrefix : bytes := [4].
Definition OpenTLSHost : bytes := [5].
(* predef/const.go 77 *)
Definition MagicNumber : N := 240.

(* ---------- client ---------- *)

(* service.LocalURL.Scheme; client/conn.go 92-133 has no default case *)
Inductive scheme := SchTCP | SchHTTP | SchHTTPS | SchOther.
(* the fields of client/config.go's service that gen reads *)
Record service := mkService {
  svScheme : scheme; svHostPrefix : bytes; svTCPPort : N; svTCPRandom : bool }.

(* A []byte of fixed length [cap] being filled from the front: the state is buf[:n].
   [put] is buf[n] = byte(x); n++ (index out of range = panic = None);
   [cpy] is n += copy(buf[n:], s) (truncates silently). *)
Section Gen.
Context (cap : N).
Definition put (x : N) (w : bytes) : option bytes :=
  if blen w <? cap then Some (w ++ [u8 x]) else None.
Definition cpy (s : bytes) (w : bytes) : option bytes := Some (w ++ ntake (cap - blen w) s).

(* client/conn.go 92-133, one iteration of the switch *)
Definition gen_service (id : bytes) (s : service) (w : bytes) : option bytes :=
  match svScheme s with
  | SchTCP =>
      w ← cpy OpenTCPPort w;
      w ← put (if svTCPRandom s then 1 else 0) w;
      w ← put (N.shiftr (svTCPPort s) 8) w;
      put (svTCPPort s) w
  | SchHTTP =>
      if decide (svHostPrefix s = id) then cpy IDAsHostPrefix w
      else
        w ← cpy OpenHost w;
        w ← put (blen (svHostPrefix s)) w;
        cpy (svHostPrefix s) w
  | SchHTTPS =>
      if decide (svHostPrefix s = id) then cpy IDAsTLSHostPrefix w
      else
        w ← cpy OpenTLSHost w;
        w ← put (blen (svHostPrefix s)) w;
        cpy (svHostPrefix s) w
  | SchOther => Some w
  end.

(* client/conn.go 87-134: OptionAndNextOption before every service but the last *)
Fixpoint gen_services (id : bytes) (ss : list service) (w : bytes) : option bytes :=
  match ss with
  | [] => Some w
  | [s] => gen_service id s w
  | s :: ss' => w ← cpy OptionAndNextOption w; w ← gen_service id s w; gen_services id ss' w
  end.

(* client/conn.go 73-136 [gen] with len(buf) = cap *)
Definition gen (id secret : bytes) (ss : list service) : option bytes :=
  w ← put (blen id) [];
  w ← cpy id w;
  w ← put (blen secret) w;
  w ← cpy secret w;
  gen_services id ss w.
End Gen.

(* client/conn.go 60-71 [init]: magic, version 1, then gen into the rest of the 4096-byte buffer.
   What is written to the connection. *)
Definition init_wire (bufsize : N) (id secret : bytes) (ss : list service) : option bytes :=
  w ← gen (bufsize - 2) id secret ss; Some (MagicNumber :: 1 :: w).

(* ---------- server ---------- *)

(* Peek(n) followed by Discard(n), the idiom used throughout server/conn.go and client/conn.go *)
Definition peekd {A} (n : N) (fail : err -> prog A) (k : bytes -> prog A) : prog A :=
  PPeek n (fun '(d, e) =>
    match e with
    | Some e => fail e
    | None => PDiscard n (fun '(_, e) => match e with Some e => fail e | None => k d end)
    end).
Definition rbyte {A} (fail : err -> prog A) (k : N -> prog A) : prog A :=
  PByte (fun r => match r with inl b => k b | inr e => fail e end).

(* The part of a user (server/config.go) and of the configuration that parseOptions reads.
   Regular expressions are an oracle: each is the function r.MatchString. *)
Record ucfg := mkUcfg {
  uHostNumber : N;                   (* *u.Host.Number, uint32 *)
  uTCPNumber : N;                    (* *u.TCPNumber, uint16 *)
  uRegex : list (bytes -> bool);     (* *u.Host.Regex *)
  uWithID : bool }.                  (* *u.Host.WithID *)

(* hostPrefixOption (server/conn.go 608-611): service index and tls *)
Notation hpopt := (N * bool)%type.
Notation hpopts := (gmap (list N) (N * bool)).
(* openTCPOption (server/conn.go 603-606): port and random *)
Notation tcpopts := (gmap N (N * bool)).
Record opts := mkOpts { oIds : hpopts; oPorts : tcpopts }.

Inductive perr :=
  | PeRead (e : err)          (* the connection failed while reading *)
  | PeMaxOptions | PeHostNumber | PeTCPNumber | PeRegex   (* with the corresponding error signal *)
  | PeInvalidOption
  | PeOutOfFuel.              (* artefact of the model, excluded by the theorems *)

Definition dash : bytes := [45].   (* "-" *)

(* server/conn.go 633-781 [parseOptions].  [left] is leftOptions, [cnt] optionsCount, [si] serviceIndex
   (both uint16).  The body of the Go loop is one unfolding; fuel bounds the number of iterations. *)
Section ParseOptions.
Context (maxOptions : N) (idStr : bytes) (u : ucfg).

(* 674 and 722: num != 0 && uint32(len(ids))+1 > num *)
Definition host_full (ids : hpopts) : bool :=
  negb (uHostNumber u =? 0) && (uHostNumber u <? u32 (u32 (N.of_nat (size ids)) + 1)).
(* 688: tcpNum != 0 && uint16(len(ports))+1 > tcpNum *)
Definition tcp_full (ports : tcpopts) : bool :=
  negb (uTCPNumber u =? 0) && (uTCPNumber u <? u16 (u16 (N.of_nat (size ports)) + 1)).
(* 746-760 *)
Definition regex_ok (p : bytes) : bool :=
  match uRegex u with [] => true | rs => existsb (fun r => r p) rs end.
(* 761-763 *)
Definition full_prefix (p : bytes) : bytes := if uWithID u then idStr ++ dash ++ p else p.

Fixpoint parse_options (fuel : nat) (left : nat) (cnt si : N) (ids : hpopts) (ports : tcpopts)
  : prog (opts + perr) :=
  match left with
  | O => PRet (inl (mkOpts ids ports))
  | S left' =>
    match fuel with
    | O => PRet (inr PeOutOfFuel)
    | S fuel =>
      if maxOptions <? u16 (cnt + 1) then PRet (inr PeMaxOptions) else
      let cnt := u16 (cnt + 1) in
      let bad := fun e => PRet (inr (PeRead e)) in
      rbyte bad (fun first =>
      peekd (N.shiftr first 6) bad (fun more =>
      let option := first :: more in
      let id_prefix := fun tls : bool =>
        if host_full ids then PRet (inr PeHostNumber)
        else parse_options fuel left' cnt (u16 (si + 1)) (<[idStr := (si, tls)]> ids) ports in
      let open_host := fun tls : bool =>
        if host_full ids then PRet (inr PeHostNumber)
        else
          rbyte bad (fun n =>
          peekd n bad (fun p =>
          if regex_ok p
          then parse_options fuel left' cnt (u16 (si + 1)) (<[full_prefix p := (si, tls)]> ids) ports
          else PRet (inr PeRegex))) in
      if decide (option = IDAsTLSHostPrefix) then id_prefix true
      else if decide (option = IDAsHostPrefix) then id_prefix false
      else if decide (option = OpenTCPPort) then
        if tcp_full ports then PRet (inr PeTCPNumber)
        else
          rbyte bad (fun random =>
          peekd 2 bad (fun pb =>
          match pb with
          | [p0; p1] =>
              parse_options fuel left' cnt (u16 (si + 1)) ids
                (<[si := (rd16 p0 p1, negb (random =? 0))]> ports)
          | _ => PRet (inr PeOutOfFuel)   (* impossible: Peek(2) without error gives 2 bytes *)
          end))
      else if decide (option = OptionAndNextOption) then
        parse_options fuel (S left) cnt si ids ports      (* leftOptions += 2; continue; leftOptions-- *)
      else if decide (option = OpenTLSHost) then open_host true
      else if decide (option = OpenHost) then open_host false
      else PRet (inr PeInvalidOption)))
    end
  end.
End ParseOptions.

(* What the server does with a tunnel connection after the 2 magic bytes, up to the point where the
   options are known. server/conn.go 350-484 [handleTunnel]. *)
Inductive auth_mode :=
  | AuthLocal (f : bytes -> bytes -> option ucfg)
      (* c.server.authUser: authUserWithConfig or authUserOrCreateUser; None = error *)
  | AuthAPI (dflt : ucfg) (f : bytes -> bytes -> list bytes -> option (list bytes)).
      (* authUserWithAPI: the host prefixes the platform grants (possibly none) *)

Inductive hs_result :=
  | HsOk (id secret : bytes) (o : opts)
  | HsReadErr (e : err)
  | HsBadLength
  | HsAuthFailed (id secret : bytes)
  | HsOptErr (id secret : bytes) (e : perr).

(* 469-483: keep only the prefixes the platform knows, or the id itself if it knows none *)
Definition api_filter (id : bytes) (granted : list bytes) (ids : hpopts) : hpopts :=
  match granted with
  | [] => filter (fun kv => kv.1 = id) ids
  | _ => filter (fun kv => kv.1 ∈ granted) ids
  end.

Definition handle_tunnel (fuel : nat) (maxOptions : N) (mode : auth_mode) : prog hs_result :=
  let bad := fun e => PRet (HsReadErr e) in
  rbyte bad (fun idLen =>
  (* 359: idLen < predef.MinIDSize && idLen > predef.MaxIDSize *)
  if (idLen <? 1) && (200 <? idLen) then PRet HsBadLength else
  peekd idLen bad (fun id =>
  rbyte bad (fun secretLen =>
  (* 381 *)
  if (secretLen <? 1) && (200 <? secretLen) then PRet HsBadLength else
  peekd secretLen bad (fun secret =>
  match mode with
  | AuthLocal f =>
      match f id secret with
      | None => PRet (HsAuthFailed id secret)
      | Some u =>
          pbind (parse_options maxOptions id u fuel 1 0 0 ∅ ∅) (fun r =>
          match r with
          | inl o => PRet (HsOk id secret o)
          | inr e => PRet (HsOptErr id secret e)
          end)
      end
  | AuthAPI dflt f =>
      pbind (parse_options maxOptions id dflt fuel 1 0 0 ∅ ∅) (fun r =>
      match r with
      | inl o =>
          match f id secret (map fst (map_to_list (oIds o))) with
          | None => PRet (HsAuthFailed id secret)
          | Some granted => PRet (HsOk id secret (mkOpts (api_filter id granted (oIds o)) (oPorts o)))
          end
      | inr e => PRet (HsOptErr id secret e)
      end)
  end)))).

(* server/conn.go 119-171 [handle]: dispatch on the first two bytes *)
Inductive first_bytes := FbTunnel | FbProbe | FbVisitor | FbReadErr (e : err).
Definition handle_dispatch : prog first_bytes :=
  PPeek 2 (fun '(v, e) =>
    match e with
    | Some e => PRet (FbReadErr e)
    | None =>
        match v with
        | [v0; v1] =>
            if v0 =? MagicNumber then
              if v1 =? 1 then PDiscard 2 (fun '(_, e) => match e with Some e => PRet (FbReadErr e) | None => PRet FbTunnel end)
              else if v1 =? 2 then PDiscard 2 (fun '(_, e) => match e with Some e => PRet (FbReadErr e) | None => PRet FbProbe end)
              else PRet FbVisitor
            else PRet FbVisitor
        | _ => PRet (FbReadErr EOther)  (* impossible *)
        end
    end).

(* server/conn.go 119-171 followed by 350-484: everything up to the decoded options; None = not a tunnel *)
Definition hs_prog fuel maxOptions mode : prog (option hs_result) :=
  pbind handle_dispatch (fun d => match d with
    | FbTunnel => pbind (handle_tunnel fuel maxOptions mode) (fun r => PRet (Some r))
    | _ => PRet None end).
