(* HandshakeSpec.v -- what the handshake is supposed to mean; independent of how either side
   computes it. *)
From Verif Require Import GoBase BufioModel HandshakeModel.
Local Open Scope N_scope.

(* A service the client may be configured with (parseServices guarantees it). *)
Definition service_ok (s : service) : Prop :=
  svScheme s <> SchOther /\ blen (svHostPrefix s) <= 255 /\ svTCPPort s < 65536.

Definition is_host_service (s : service) : bool :=
  match svScheme s with SchHTTP | SchHTTPS => true | _ => false end.
Definition is_tcp_service (s : service) : bool :=
  match svScheme s with SchTCP => true | _ => false end.

(* Number of bytes the handshake needs. *)
Definition service_size (id : bytes) (s : service) : N :=
  match svScheme s with
  | SchTCP => 4
  | SchHTTP | SchHTTPS => if decide (svHostPrefix s = id) then 1 else 2 + blen (svHostPrefix s)
  | SchOther => 0
  end.
Definition handshake_size (id secret : bytes) (ss : list service) : N :=
  2 + (1 + blen id) + (1 + blen secret)
  + foldr (fun s n => service_size id s + n) 0 ss + (blen ss - 1).

(* The public name a host service asks for. *)
Definition public_name (id : bytes) (withID : bool) (s : service) : bytes :=
  if decide (svHostPrefix s = id) then id
  else if withID then id ++ [45] ++ svHostPrefix s else svHostPrefix s.

(* The configuration the server should end up with: service number i (in configuration order)
   claims its public name, or its TCP port. *)
Fixpoint wanted_ids (id : bytes) (withID : bool) (i : N) (ss : list service) (m : hpopts) : hpopts :=
  match ss with
  | [] => m
  | s :: ss' =>
      wanted_ids id withID (i + 1) ss'
        (match svScheme s with
         | SchHTTP => <[public_name id withID s := (i, false)]> m
         | SchHTTPS => <[public_name id withID s := (i, true)]> m
         | _ => m
         end)
  end.
Fixpoint wanted_ports (i : N) (ss : list service) (m : tcpopts) : tcpopts :=
  match ss with
  | [] => m
  | s :: ss' =>
      wanted_ports (i + 1) ss'
        (match svScheme s with
         | SchTCP => <[i := (svTCPPort s, svTCPRandom s)]> m
         | _ => m
         end)
  end.

(* The server's limits admit the service list. *)
Definition admitted (maxOptions : N) (u : ucfg) (id : bytes) (ss : list service) : Prop :=
  2 * blen ss - 1 <= maxOptions /\
  (uHostNumber u = 0 \/ blen (filter (fun s => is_host_service s = true) ss) <= uHostNumber u < 4294967296) /\
  (uTCPNumber u = 0 \/ blen (filter (fun s => is_tcp_service s = true) ss) <= uTCPNumber u < 65536) /\
  Forall (fun s => is_host_service s = true -> svHostPrefix s <> id ->
     uRegex u = [] \/ exists r, r ∈ uRegex u /\ r (svHostPrefix s) = true) ss.

(* p occurs in the stream of bytes the peer sent *)
Definition sent (p : bytes) (s : stream) : Prop := exists pre post, s = pre ++ map B p ++ post.
