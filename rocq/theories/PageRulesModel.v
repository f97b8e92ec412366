(* PageRulesModel.v -- what the settings page lets through and what gt makes of it: web/front/src/utils/eleValidate.ts 15-27 (validatorRange), 43-69 (validatorAddr),
   web/front/src/components/ServerConfigForm/components/NetworkSetting.vue 132-137, APISetting.vue 81, TCPSetting.vue 56-60, ClientConfigForm/components/TCPForwardSetting.vue 68
   (which option has which validator); server/server.go 384-388, 398-401, 426-429, 436-439, 474-477 (what gt puts before an
   address), client/client.go 532-537; net.Listen as in Go 1.20 (net.SplitHostPort as in WebStartModel, net.LookupPort below); util/portrange.go is PortsModel.
   An input is text in ASCII; a JavaScript RegExp is the regular language of its pattern; whether the host resolves and the kernel has the port free is left out. *)
From Coq Require Import Strings.String.
From Verif Require Import GoBase FlagsModel WebStartModel PortsModel.
Local Open Scope N_scope.

(* ---- regular expressions, matched by derivatives ---- *)
Inductive re := Void | Eps | Cls (f : N -> bool) | Cat (a b : re) | Alt (a b : re) | Star (a : re).
Fixpoint nullable (r : re) : bool := match r with Void | Cls _ => false | Eps | Star _ => true | Cat a b => nullable a && nullable b | Alt a b => nullable a || nullable b end.
Fixpoint deriv (c : N) (r : re) : re :=
  match r with
  | Void | Eps => Void
  | Cls f => if f c then Eps else Void
  | Cat a b => if nullable a then Alt (Cat (deriv c a) b) (deriv c b) else Cat (deriv c a) b
  | Alt a b => Alt (deriv c a) (deriv c b)
  | Star a => Cat (deriv c a) (Star a)
  end.
Fixpoint rmatch (r : re) (s : bytes) : bool := match s with [] => nullable r | c :: s => rmatch (deriv c r) s end.
Definition Opt (r : re) : re := Alt r Eps.
Definition Plus (r : re) : re := Cat r (Star r).
Fixpoint upto (n : nat) (r : re) : re := match n with O => Eps | S n => Opt (Cat r (upto n r)) end.
Fixpoint exactly (n : nat) (r : re) : re := match n with O => Eps | S n => Cat r (exactly n r) end.
Definition between (n m : nat) (r : re) : re := Cat (exactly n r) (upto (m - n) r).     (* r{n,m} *)
Definition chr (c : N) : re := Cls (N.eqb c).
Definition digit (c : N) : bool := (48 <=? c) && (c <=? 57).
Definition letter (c : N) : bool := ((65 <=? c) && (c <=? 90)) || ((97 <=? c) && (c <=? 122)).
Definition hexdigit (c : N) : bool := digit c || ((65 <=? c) && (c <=? 70)) || ((97 <=? c) && (c <=? 102)).
Definition DOT : N := 46.
Definition DASH : N := 45.
Definition label_char (c : N) : bool := letter c || digit c || (c =? DASH).

(* ---- eleValidate.ts ---- *)
(* 15-27: /^\d+-\d+$/; an empty input passes *)
Definition RANGE : re := Cat (Plus (Cls digit)) (Cat (chr DASH) (Plus (Cls digit))).
Definition page_range (s : bytes) : bool := bool_decide (s = []) || rmatch RANGE s.
(* 46-51 *)
Definition PORT : re := between 1 5 (Cls digit).
Definition OCTET : re := between 1 3 (Cls digit).
Definition IPV4 : re := Cat OCTET (Cat (chr DOT) (Cat OCTET (Cat (chr DOT) (Cat OCTET (Cat (chr DOT) OCTET))))).
Definition IPV6 : re := Cat (chr LBRK) (Cat (between 2 7 (Cat (between 0 4 (Cls hexdigit)) (chr COLON))) (Cat (between 0 4 (Cls hexdigit)) (chr RBRK))).
Definition DOMAIN : re := Cat (Star (Cat (Plus (Cls label_char)) (chr DOT))) (Plus (Cls label_char)).
Definition ADDR : re := Cat (Cat (Opt (Alt IPV4 (Alt IPV6 DOMAIN))) (Opt (chr COLON))) PORT.
(* parseInt: sign, 0x, digits; None is NaN *)
Fixpoint js_digits (base : N) (val : N -> option N) (acc : N) (s : bytes) : N :=
  match s with [] => acc | c :: s' => match val c with Some d => js_digits base val (acc * base + d) s' | None => acc end end.
Definition dec_val (c : N) : option N := if digit c then Some (c - 48) else None.
Definition hex_val (c : N) : option N := if digit c then Some (c - 48) else if (65 <=? c) && (c <=? 70) then Some (c - 55) else if (97 <=? c) && (c <=? 102) then Some (c - 87) else None.
Definition js_number (base : N) (val : N -> option N) (s : bytes) : option N := match s with c :: _ => if val c then Some (js_digits base val 0 s) else None | [] => None end.
Definition js_unsigned (s : bytes) : option N :=
  match s with
  | z :: x :: s' => if (z =? 48) && ((x =? 120) || (x =? 88)) then js_number 16 hex_val s' else js_number 10 dec_val s
  | _ => js_number 10 dec_val s
  end.
Definition js_parse_int (s : bytes) : option Z :=
  match s with
  | c :: s' => if c =? DASH then n ← js_unsigned s'; Some (- Z.of_N n)%Z else if c =? 43 then n ← js_unsigned s'; Some (Z.of_N n) else n ← js_unsigned s; Some (Z.of_N n)
  | [] => None
  end.
(* 55-69; value.split(":"), the last part *)
Definition last_part (s : bytes) : bytes := match last_colon s with Some (_, p) => p | None => s end.
Definition page_addr (s : bytes) : bool :=
  bool_decide (s = []) || (rmatch ADDR s && match js_parse_int (last_part s) with Some p => ((1 <=? p) && (p <=? 65535))%Z | None => false end).

(* ---- gt ---- *)
(* net.parsePort, net.LookupPort; [svc]: the services the machine knows by name *)
Definition in_range (n : N) : option N := if n <=? 65535 then Some n else None.
Definition port_digits (s : bytes) : option N := parse_digits 0 s.
Definition look_up_port (svc : bytes -> option N) (s : bytes) : option N :=
  match s with
  | c :: s' =>
      if c =? 43 then match port_digits s' with Some n => in_range n | None => svc s end
      else if c =? DASH then match port_digits s' with Some n => if n =? 0 then Some 0 else None | None => svc s end
      else match port_digits s with Some n => in_range n | None => svc s end
  | [] => Some 0
  end.
(* net.Listen: the host and the port it listens on, or an error *)
Definition net_listen (svc : bytes -> option N) (s : bytes) : option (bytes * N) :=
  h ← split_host_port s; '(_, p) ← last_colon s; n ← look_up_port svc p; Some (h, n).
(* server.go: addr, tlsAddr, sniAddr, apiAddr, stunAddr *)
Definition server_listen (svc : bytes -> option N) (s : bytes) : option (bytes * N) := net_listen svc (if bool_decide (COLON ∈ s) then s else COLON :: s).
(* client.go 533: tcpForwardAddr as it is; go-reuseport listens by a net.ListenConfig, which takes an address apart as net.Listen does *)
Definition forward_listen (svc : bytes -> option N) (s : bytes) : option (bytes * N) := net_listen svc s.
