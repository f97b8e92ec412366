(* LocalModel.v -- which address the local URL of a service comes to: client/client.go 844-866 (the default port; ServicesModel), client/conn.go 376-387 (dial), 412-421 (the three tries), 331-338 (what becomes of the failure),
   client/task.go 55-66 (setHost), client/peerproc.go 120-132 (the URL is handed to the peer process), bin/src/peer/conn.rs 227-243, bin/src/peer/connect.rs 290-306 (connect_target).
   Libraries as they are: Go's net/url takes the host of a URL as it stands and looks only at what follows the last colon (parseHost, validOptionalPort); net.Dial takes an address apart as net.Listen does (PageRulesModel);
   the crate url 2 reads host[:port] up to the first colon outside brackets, takes an absent or empty port as the scheme's, refuses an empty host and a port above 65535 (parse_host, parse_port, socket_addrs).
   Simplified: schemes in lower case, no user name in the URL; names are compared as texts (no DNS, no spelling of numbers); connections that nobody holds are counted as open: Go closes them when it collects garbage. *)
From Coq Require Import Strings.String.
From Verif Require Import GoBase FlagsModel WebStartModel PageRulesModel ServicesModel.
Local Open Scope N_scope.

(* ---- net/url ---- *)
Fixpoint after_last (x : N) (l : bytes) : option bytes :=
  match l with [] => None | c :: l => match after_last x l with Some r => Some r | None => if c =? x then Some l else None end end.
Definition port_or_none (l : bytes) : bool := match l with [] => true | c :: d => (c =? COLON) && forallb is_digit d end.
Definition url_host_ok (a : bytes) : bool :=
  match a with
  | c :: _ => if c =? LBRK then match after_last RBRK a with Some l => port_or_none l | None => false end
              else match after_last COLON a with Some d => forallb is_digit d | None => true end
  | [] => true
  end.
Fixpoint strip (p s : bytes) : option bytes := match p, s with [], _ => Some s | a :: p, b :: s => if a =? b then strip p s else None | _, _ => None end.
Fixpoint authority (s : bytes) : bytes * bytes :=
  match s with [] => ([], []) | c :: s' => if (c =? 47) || (c =? 63) || (c =? 35) then ([], s) else let '(a, b) := authority s' in (c :: a, b) end.
Definition go_parse (s : bytes) : option url :=
  let go sch := r ← strip (sch ++ bs "://") s; let '(a, b) := authority r in if url_host_ok a then Some (mkUrl sch a b) else None in
  match go B_https with Some u => Some u | None => match go B_http with Some u => Some u | None => go B_tcp end end.

(* ---- the client: net.Dial("tcp", s.LocalURL.Host), 377 ---- *)
Definition dial_target (svc : bytes -> option N) (u : url) : option (bytes * N) := net_listen svc (uHost u).
(* 376-387, 412-421: [ks]: whether the service takes the connections; [long]: setHost fails (384, task.go 56-58), and the connection made before is forgotten.
   Whether the visitor is served, and how many connections are left over.  After a failure nothing is written to the tunnel: 419-421, 331-338 *)
Fixpoint attempts (n : nat) (long : bool) (ks : list bool) : bool * nat :=
  match n, ks with
  | S n, k :: ks => if k then if long then let '(r, m) := attempts n long ks in (r, S m) else (true, 0%nat) else attempts n long ks
  | _, _ => (false, 0%nat)
  end.
Definition serve (svc : bytes -> option N) (s : service) (ks : list bool) : bool * nat :=
  match sURL s with
  | None => (false, 0%nat)
  | Some u => match dial_target svc u with None => (false, 0%nat) | Some _ => attempts 3 (sUseLocal s && (200 <? blen (uHost u))) ks end
  end.

(* ---- the peer process: connect_target ---- *)
Definition known_port (sch : bytes) : N := if beqb sch B_https then 443 else 80.
Definition peer_port (sch d : bytes) : option N := match d with [] => Some (known_port sch) | _ => n ← port_digits d; in_range n end.
Definition peer_target (u : url) : option (bytes * N) :=
  match uHost u with
  | [] => None
  | c :: a => if c =? LBRK then '(h, rest) ← cut_at RBRK a; match rest with [] => Some (h, known_port (uScheme u)) | x :: d => if x =? COLON then n ← peer_port (uScheme u) d; Some (h, n) else None end
              else match cut_at COLON (uHost u) with None => Some (uHost u, known_port (uScheme u)) | Some ([], _) => None | Some (h, d) => n ← peer_port (uScheme u) d; Some (h, n) end
  end.
