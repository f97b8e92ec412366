(* WebListModel.v -- the web page's list of connections and its buttons: web/server/util/net.go 11-103, client/web/service/service.go 181-191,
   server/web/service/service.go 174-188, server/client.go 492-503, client/client.go 558-568, web/server/util/system.go 27-51,
   client/web/api/api.go 158-226, server/web/api/api.go 156-211.
   An IPv6 address is its text, as net.IP.String prints it; IPv4 addresses in IPv6 form are printed as IPv4 by both libraries, so they are V4 here.
   Left out: unix sockets; zones. *)
From Coq Require Import Strings.String.
From Verif Require Import GoBase FlagsModel LogModel.
Local Open Scope N_scope.

Inductive ip := V4 (a b c d : N) | V6 (text : bytes).
Record addr := mkAddr { aIp : ip; aPort : N }.
Definition ip_text (i : ip) : bytes := match i with V4 a b c d => dec a ++ bs "." ++ dec b ++ bs "." ++ dec c ++ bs "." ++ dec d | V6 t => t end.
(* net.TCPAddr.String, net.UDPAddr.String: JoinHostPort *)
Definition go_str (a : addr) : bytes := match aIp a with V4 _ _ _ _ => ip_text (aIp a) ++ bs ":" ++ dec (aPort a) | V6 t => bs "[" ++ t ++ bs "]:" ++ dec (aPort a) end.
(* net.go 11-13 *)
Definition ps_str (a : addr) : bytes := ip_text (aIp a) ++ bs ":" ++ dec (aPort a).
(* a socket of the process, as gopsutil reports it: its ends; cFd tells apart sockets *)
Record sock := mkSock { cFd : N; cL : addr; cR : addr }.
(* server.ConnectionInfo: a tunnel *)
Record tun := mkTun { tId : bytes; tL : addr; tR : addr }.
Definition tun_key (t : tun) : bytes := go_str (tL t) ++ bs "-" ++ go_str (tR t).      (* 22, 44 *)
Definition sock_key (c : sock) : bytes := ps_str (cL c) ++ bs "-" ++ ps_str (cR c).    (* 27, 49 *)
(* 41-46: a later tunnel overwrites *)
Definition id_of (ts : list tun) (k : bytes) : option bytes := tId <$> last (List.filter (fun t => bool_decide (tun_key t = k)) ts).
(* 17-34 *)
Definition external (cs : list sock) (ts : list tun) : list sock := List.filter (fun c => match id_of ts (sock_key c) with Some _ => false | None => true end) cs.
(* 38-56 and 74-91: ids is the order in which range goes through the map, its keys *)
Definition selected (cs : list sock) (ts : list tun) (id : bytes) : list sock := List.filter (fun c => bool_decide (id_of ts (sock_key c) = Some id)) cs.
Definition ids_of (cs : list sock) (ts : list tun) : list bytes := omap (fun c => id_of ts (sock_key c)) cs.
Definition pool (ids : list bytes) (cs : list sock) (ts : list tun) : list (bytes * sock) := id ← ids; (fun c => (id, c)) <$> selected cs ts id.

(* ---- the buttons ---- *)
Inductive button := BRestart | BReload | BStop | BKill.
Definition word (b : button) : string := match b with BRestart => "restart" | BReload => "reload" | BStop => "stop" | BKill => "kill" end.
(* system.go 27-51: gt -s word; can tells whether the process can be started.  (the command started, error) *)
Definition send_signal (w : string) (can : bool) : option string * bool :=
  if String.eqb w "reload" || String.eqb w "restart" || String.eqb w "stop" then if can then (Some w, false) else (None, true) else (None, true).
(* a handler: the commands it started and the JSON documents it wrote, by their code *)
Definition press (b : button) (can : bool) : list string * list N :=
  let '(c, err) := send_signal (word b) can in (match c with Some w => [w] | None => [] end, [if err then 500 else 200]).
(* SaveConfigToFile: the first failing step of reading, binding, writing, if any *)
Definition save_server (fails : bool) : list string * list N := if fails then ([], [500]) else ([], [200]).
Definition save_client (fails can : bool) : list string * list N := if fails then ([], [500]) else let '(cmds, docs) := press BReload can in (cmds, docs ++ [200]).
