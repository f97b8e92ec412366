(* RegModel.v -- clients, tunnels and the host-prefix registry: server/client.go 61-76, 105-288,
   server/conn.go 327-348, 478-595, server/server.go 731-780, 882-899 *)
From Verif Require Import GoBase HandshakeModel TcpModel.
Local Open Scope N_scope.

(* What a handshake asks for: server/conn.go 597-601 [options].  The checksum is an opaque value here (C29 is about how
   it is computed). *)
Record sopts := mkSo { soIds : hpopts; soPorts : tcpopts; soChk : bytes }.
Definition zero_chk : bytes := replicate 32 0.

(* Client objects, tunnel connections and ports managers are identified by numbers (pointers in Go). *)
(* server/client.go 33-53 [client]; [kTunnels] = None is the nil map.  lastProcessedChecksum is initially zero. *)
Record client := mkCli { kId : bytes; kTunnels : option (gset N); kLimit : N; kBlack : list bytes; kLast : bytes; kPool : option N }.
(* server/conn.go 50-58 [conn]: ids, configChecksum *)
Record tun := mkTun { tIds : hpopts; tChk : bytes }.
(* hostPrefix2Client (tls = false) and tlsHostPrefix2Client (tls = true): (prefix, tls) -> (client, service index) *)
Notation regmap := (gmap (list N * bool) (N * N)).
Record srv := mkSrv {
  sReg : regmap;
  sIds : gmap (list N) N;         (* id2Client *)
  sCli : gmap N client;
  sTun : gmap N tun;
  sTcp : gmap N tcpst }.
Definition srv0 : srv := mkSrv ∅ ∅ ∅ ∅ ∅.
Definition tun_of (st : srv) (t : N) : tun := default (mkTun ∅ zero_chk) (sTun st !! t).

Inductive reg_err := EMaxConnections | EDifferentConfig | EHostConflict | ETcp.
Inductive ares := AOk | ARetry | AErr (e : reg_err).

Section R.
Context (shuf : nat -> forall A : Type, list A -> list A).    (* the order in which each "range" visits a map *)
Context (listen : N -> N -> bool -> bool).

(* server/conn.go 527-565: the first loop of processHostPrefixes, with rollback on conflict *)
Fixpoint hp_add (c : N) (l : list (bytes * (N * bool))) (reg : regmap) (rollback : list (bytes * bool)) : bool * regmap :=
  match l with
  | [] => (true, reg)
  | (p, (si, tls)) :: l =>
      match reg !! (p, tls) with
      | None => hp_add c l (<[(p, tls) := (c, si)]> reg) ((p, tls) :: rollback)
      | Some (c', _) => if c' =? c then hp_add c l reg rollback
                        else (false, foldl (fun r k => delete k r) reg (shuf 3%nat _ rollback))
      end
  end.
(* server/conn.go 567-587: the second loop *)
Fixpoint hp_old (c : N) (new : hpopts) (l : list (bytes * (N * bool))) (reg : regmap) : regmap :=
  match l with
  | [] => reg
  | (p, (osi, otls)) :: l =>
      hp_old c new l
        (match new !! p with
         | None => delete (p, otls) reg
         | Some (si, tls) => if negb (Bool.eqb otls tls) then delete (p, otls) reg
                             else if negb (osi =? si) then <[(p, otls) := (c, si)]> reg else reg
         end)
  end.
(* server/client.go 201-224: the changes of the old tunnels' prefixes, by checksum; None = remove *)
Notation change := ((N * bool) * option (N * bool))%type.
Fixpoint tun_changes (new : hpopts) (l : list (bytes * (N * bool))) (m : gmap (list N) change) : gmap (list N) change :=
  match l with
  | [] => m
  | (p, osi) :: l =>
      tun_changes new l
        (match new !! p with
         | None => <[p := (osi, None)]> m
         | Some si => if decide (osi = si) then m else <[p := (osi, Some si)]> m
         end)
  end.
Fixpoint old_changes (new : hpopts) (ts : list tun) (m : gmap (list N) (gmap (list N) change)) : gmap (list N) (gmap (list N) change) :=
  match ts with
  | [] => m
  | t :: ts => old_changes new ts (<[tChk t := tun_changes new (shuf 4%nat _ (map_to_list (tIds t))) (default ∅ (m !! tChk t))]> m)
  end.
(* server/client.go 236-262 *)
Fixpoint apply_changes (c : N) (l : list (bytes * change)) (reg : regmap) : regmap :=
  match l with
  | [] => reg
  | (p, ((osi, otls), new)) :: l =>
      apply_changes c l
        (match new with
         | None => delete (p, otls) reg
         | Some (si, tls) => if negb (Bool.eqb otls tls) then delete (p, otls) reg else <[(p, tls) := (c, si)]> reg
         end)
  end.
(* lru.Add with capacity 3, most recent first (server/client.go 226) *)
Definition black_add (x : bytes) (l : list bytes) : list bytes := take 3 (x :: filter (fun y => y <> x) l).

Definition set_cli (st : srv) (c : N) (k : client) : srv := mkSrv (sReg st) (sIds st) (<[c := k]> (sCli st)) (sTun st) (sTcp st).
Definition set_tun (st : srv) (t : N) (v : tun) : srv := mkSrv (sReg st) (sIds st) (sCli st) (<[t := v]> (sTun st)) (sTcp st).
Definition set_reg (st : srv) (r : regmap) : srv := mkSrv r (sIds st) (sCli st) (sTun st) (sTcp st).
Definition set_tcp (st : srv) (p : N) (x : tcpst) : srv := mkSrv (sReg st) (sIds st) (sCli st) (sTun st) (<[p := x]> (sTcp st)).
Definition with_tunnels (k : client) (ts : option (gset N)) : client := mkCli (kId k) ts (kLimit k) (kBlack k) (kLast k) (kPool k).

(* server/client.go 164-179: the TCP part of addTunnel *)
Definition add_tcp (c : N) (k : client) (o : sopts) (st : srv) : bool * srv :=
  match kPool k with
  | Some p =>
      let '(b, x, _) := process_tcp c shuf listen (soPorts o) (default (mkTcp ∅ ∅) (sTcp st !! p)) in (b, set_tcp st p x)
  | None => (bool_decide (soPorts o = ∅), st)
  end.

(* server/client.go 105-267 [addTunnel], under the client's lock.  Simplification: the steps on the registry, which is
   shared with other clients, happen at one instant. *)
Definition add_tunnel (t : N) (reload : bool) (o : sopts) (c : N) (st : srv) : ares * srv :=
  match sCli st !! c with
  | None => (ARetry, st)            (* no such object *)
  | Some k =>
      (* 110: an object that is not initialised yet has connections = 0 and nil tunnels *)
      if kLimit k <=? N.of_nat (size (default ∅ (kTunnels k))) then (AErr EMaxConnections, st)
      else match kTunnels k with
      | None => (ARetry, st)
      | Some ts =>
          (* 122-147 *)
          if bool_decide (soChk o ∈ kBlack k) && bool_decide (Exists (fun t' => soChk o <> tChk (tun_of st t')) (elements ts))
          then (AErr EDifferentConfig, st)
          (* 149-156 *)
          else if decide (kLast k = soChk o)
          then (AOk, set_tun (set_cli st c (with_tunnels k (Some ({[ t ]} ∪ ts)))) t (mkTun (soIds o) (soChk o)))
          else
            (* 158 *)
            let ts := {[ t ]} ∪ ts in
            let st := set_cli st c (with_tunnels k (Some ts)) in
            (* 160-163 *)
            match hp_add c (shuf 5%nat _ (map_to_list (soIds o))) (sReg st) [] with
            | (false, r) => (AErr EHostConflict, set_reg st r)
            | (true, r) =>
                let r := hp_old c (soIds o) (shuf 6%nat _ (map_to_list (tIds (tun_of st t)))) r in
                let st := set_tun (set_reg st r) t (mkTun (soIds o) (soChk o)) in
                (* 164-179 *)
                match add_tcp c k o st with
                | (false, st) => (AErr ETcp, st)
                | (true, st) =>
                    (* 181 *)
                    let k := mkCli (kId k) (Some ts) (kLimit k) (kBlack k) (soChk o) (kPool k) in
                    (* 183-186 *)
                    if reload then (AOk, set_cli st c k)
                    else
                      (* 189-264 *)
                      let old := filter (fun t' => soChk o <> tChk (tun_of st t')) (shuf 7%nat _ (elements ts)) in
                      let oldIds := old_changes (soIds o) (map (tun_of st) old) ∅ in
                      let order := shuf 8%nat _ (map_to_list oldIds) in
                      let r := foldl (fun r cm => apply_changes c (shuf 9%nat _ (map_to_list (snd cm))) r) (sReg st) order in
                      let k := mkCli (kId k) (Some (ts ∖ list_to_set old)) (kLimit k) (foldl (fun b cm => black_add (fst cm) b) (kBlack k) order)
                                     (kLast k) (kPool k) in
                      (AOk, set_cli (set_reg st r) c k)
                end
            end
      end
  end.

(* server/client.go 269-288 [removeTunnel] *)
Definition remove_tunnel (t : N) (c : N) (st : srv) : srv :=
  match sCli st !! c with
  | None => st
  | Some k =>
      match kTunnels k with
      | None => st
      | Some ts =>
          if decide (t ∈ ts) then
            let ts := ts ∖ {[ t ]} in
            if decide (ts = ∅) then
              let r := foldl (fun r (e : bytes * (N * bool)) => delete (fst e, snd (snd e)) r) (sReg st)
                             (shuf 10%nat _ (map_to_list (tIds (tun_of st t)))) in
              let st := mkSrv r (delete (kId k) (sIds st)) (<[c := with_tunnels k None]> (sCli st)) (sTun st) (sTcp st) in
              match kPool k with
              | Some p => match sTcp st !! p with
                          | Some x => set_tcp st p (drop_client c (close_listeners c x))
                          | None => st
                          end
              | None => st
              end
            else set_cli st c (with_tunnels k (Some ts))
          else st
      end
  end.
(* server/conn.go 331-334: the connection ends; it is removed from every client it was added to *)
Definition gone (t : N) (st : srv) : srv :=
  foldl (fun st c => remove_tunnel t c st) st
        (shuf 11%nat _ (elements (dom (filter (fun ck : N * client => t ∈ default ∅ (kTunnels (snd ck))) (sCli st))))).

(* server/client.go 57-59 and server/server.go 731-735: newClient is an object without tunnels and with limit 0 *)
Definition get_or_create (id : bytes) (st : srv) : N * bool * srv :=
  match sIds st !! id with
  | Some c => (c, true, st)
  | None => let c := fresh (dom (sCli st)) in
            (c, false, mkSrv (sReg st) (<[id := c]> (sIds st)) (<[c := mkCli id None 0 [] zero_chk None]> (sCli st)) (sTun st) (sTcp st))
  end.
(* server/client.go 61-76 [init] *)
Definition init_client (c : N) (id : bytes) (limit : N) (pool : option N) (st : srv) : srv :=
  set_cli st c (mkCli id (Some ∅) limit [] zero_chk pool).
(* server/conn.go 485-500 *)
Fixpoint hand_loop (tries : nat) (t : N) (reload : bool) (id : bytes) (limit : N) (pool : option N) (o : sopts) (st : srv) : ares * srv :=
  match tries with
  | O => (ARetry, st)
  | S tries =>
      let '(c, exists_, st) := get_or_create id st in
      let st := if exists_ : bool then st else init_client c id limit pool st in
      match add_tunnel t reload o c st with
      | (ARetry, st) => hand_loop tries t reload id limit pool o st
      | r => r
      end
  end.
(* server/conn.go 481-500: one handshake (first: reload = false; later ones on the same connection: reload = true) *)
Definition hand := hand_loop 5.
End R.
(* server/client.go 227-229: a blacklisted checksum is forgotten after 60 s *)
Definition black_timer (c : N) (st : srv) : srv :=
  match sCli st !! c with
  | Some k => set_cli st c (mkCli (kId k) (kTunnels k) (kLimit k) (removelast (kBlack k)) (kLast k) (kPool k))
  | None => st
  end.
