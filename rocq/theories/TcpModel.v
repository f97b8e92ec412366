(* TcpModel.v -- the TCP ports of the services: server/client.go 343-434, server/conn.go 1103-1172 *)
From Verif Require Import GoBase HandshakeModel.
Local Open Scope N_scope.

(* server/client.go 388-391 [tcpListener].  [tlL]: the listener, with its port and whether it is still open (Close does
   not reset the field); [tlPort], [tlRandom]: the option the entry was created with. *)
Record tl := mkTl { tlL : option (N * bool); tlPort : N; tlRandom : bool }.
(* A ports manager (383-386) and the tcpListeners of the clients that share it: entry (c, si) is the service index si of
   client object c. *)
Record tcpst := mkTcp { tPool : gset N; tLs : gmap (N * N) tl }.

Section T.
Context (c : N).                                    (* the client *)
Context (shuf : nat -> forall A : Type, list A -> list A).    (* the order in which each "range" visits a map *)
Context (listen : N -> N -> bool -> bool).          (* does reuseport.Listen succeed: service index, port, second try *)

(* 363-381 [deleteTCPListener] *)
Definition delete_listener (st : tcpst) (si : N) : tcpst :=
  match tLs st !! (c, si) with
  | None => st
  | Some v => mkTcp (match tlL v with Some (p, _) => {[ p ]} ∪ tPool st | None => tPool st end) (delete (c, si) (tLs st))
  end.
(* 418-431: at most three ports of the pool, in map order *)
Fixpoint open_random (si : N) (ps : list N) (retry : nat) : option N :=
  match ps, retry with
  | p :: ps, S retry => if listen si p true then Some p else open_random si ps retry
  | _, _ => None
  end.
(* 393-434 [openTCPPort]: asks for the port of the listener entry [v] *)
Definition open_tcp_port (si : N) (v : tl) (st : tcpst) : option N * tcpst :=
  let pool := tPool st in
  let opened p := (Some p, mkTcp (pool ∖ {[ p ]}) (<[(c, si) := mkTl (Some (p, true)) (tlPort v) (tlRandom v)]> (tLs st))) in
  if decide (pool = ∅) then (None, st)
  else if bool_decide (tlPort v ∈ pool) && listen si (tlPort v) false then opened (tlPort v)
  else if negb (tlRandom v) then (None, st)
  else match open_random si (shuf 0%nat _ (elements pool)) 3 with
       | Some p => opened p
       | None => (None, st)
       end.
(* server/conn.go 1112-1154: the loop; [success] are the service indices opened by this call; the ports reported to the
   client (InfoTCPPortOpened) are collected in [told] *)
Fixpoint tcp_loop (l : list (N * (N * bool))) (st : tcpst) (success : list N) (told : list (N * N))
  : bool * tcpst * list N * list (N * N) :=
  match l with
  | [] => (true, st, success, told)
  | (si, (port, random)) :: l =>
      let existing := tLs st !! (c, si) in
      (* LoadOrCreate *)
      let v := default (mkTl None port random) existing in
      let st := mkTcp (tPool st) (<[(c, si) := v]> (tLs st)) in
      let go v st :=
        match open_tcp_port si v st with
        | (Some p, st) => tcp_loop l st (success ++ [si]) (told ++ [(si, p)])
        | (None, st) => (false, st, success, told)
        end in
      match existing, tlL v with
      | Some _, Some (p, _) =>
          if (p =? port) || random then tcp_loop l st success (told ++ [(si, p)])
          else let v := mkTl (Some (p, false)) (tlPort v) (tlRandom v) in
               go v (mkTcp ({[ p ]} ∪ tPool st) (<[(c, si) := v]> (tLs st)))
      | _, _ => go v st
      end
  end.
(* server/conn.go 1103-1172 [processTCPOptions] *)
Definition process_tcp (ports : tcpopts) (st : tcpst) : bool * tcpst * list (N * N) :=
  match tcp_loop (shuf 1%nat _ (map_to_list ports)) st [] [] with
  | (false, st, success, told) => (false, foldl delete_listener st success, told)
  | (true, st, _, told) =>
      let mine := filter (fun k : N * N => fst k = c /\ ports !! snd k = None) (map fst (map_to_list (tLs st))) in
      (true, foldl delete_listener st (map snd (shuf 2%nat _ mine)), told)
  end.
(* server/client.go 343-361 [closeTCPListeners]: every entry of the client is visited once; the order does not matter
   because each visit only adds a port to the pool and closes that entry's listener *)
Definition close_listeners (st : tcpst) : tcpst :=
  mkTcp (list_to_set (omap (fun kv : (N * N) * tl => if decide (fst (fst kv) = c) then option_map fst (tlL (snd kv)) else None)
                           (map_to_list (tLs st))) ∪ tPool st)
        (map_imap (fun (k : N * N) v => Some (if decide (fst k = c)
                     then mkTl (match tlL v with Some (p, _) => Some (p, false) | None => None end) (tlPort v) (tlRandom v) else v)) (tLs st)).
(* what becomes of the entries when the client object is dropped (removeClient) *)
Definition drop_client (st : tcpst) : tcpst := mkTcp (tPool st) (filter (fun kv : (N * N) * tl => fst (fst kv) <> c) (tLs st)).
End T.
