(* DialerModel.v -- which servers a client connects to, and how: client/client.go 214-238 (dialer, isReady), 240-308 (init), 361-381
   (dial), 383-416 (processRemotes), 499-513, 520-528 (the numbers of connections).  Simplified: url.Parse is a function [parse] from the
   text to a scheme and the host part; net/url's Port and Hostname and net.JoinHostPort are modelled byte by byte; the certificate
   file is absent, unusable or its content.  dialer.preferQuic and dialer.bbr are set nowhere in the code and are left out. *)
From Coq Require Import Strings.String.
From Verif Require Import GoBase FlagsModel.
Local Open Scope N_scope.

Inductive scheme := STls | STcp | SQuic | SOther.
#[global] Instance scheme_dec : EqDecision scheme. Proof. solve_decision. Defined.
Record url := mkUrl { uScheme : scheme; uHost : bytes (* url.URL.Host *) }.
#[global] Instance url_dec : EqDecision url. Proof. solve_decision. Defined.

(* net/url splitHostPort: the last colon, if only digits follow it *)
Definition digit (b : N) : bool := (48 <=? b) && (b <=? 57).
Fixpoint split_last (l : bytes) : option (bytes * bytes) :=
  match l with
  | [] => None
  | b :: l => match split_last l with
              | Some (h, p) => Some (b :: h, p)
              | None => if b =? 58 then Some ([], l) else None
              end
  end.
Definition host_port (h : bytes) : bytes * bytes :=
  match split_last h with Some (a, p) => if forallb digit p then (a, p) else (h, []) | None => (h, []) end.
Definition port_of (h : bytes) : bytes := (host_port h).2.
(* ... without the brackets of an IPv6 address *)
Definition unbracket (h : bytes) : bytes :=
  match h with
  | 91 :: r => match rev r with 93 :: m => rev m | _ => h end
  | _ => h
  end.
Definition hostname (h : bytes) : bytes := unbracket (host_port h).1.
(* net.JoinHostPort *)
Definition join (h p : bytes) : bytes := if existsb (N.eqb 58) h then bs "[" ++ h ++ bs "]:" ++ p else h ++ bs ":" ++ p.

Inductive certfile := CNone | CBad | CGood (c : bytes).   (* -remoteCert *)
#[global] Instance certfile_dec : EqDecision certfile. Proof. solve_decision. Defined.
Record dconf := mkDC { cCert : certfile; cInsecure : bool }.
Record tlsconf := mkTC { tRoots : option bytes; tInsecure : bool }.
#[global] Instance tlsconf_dec : EqDecision tlsconf. Proof. solve_decision. Defined.
Record dialer := mkD { dTcp : bytes; dTls : bytes; dQuic : bytes; dConf : option tlsconf }.
#[global] Instance dialer_dec : EqDecision dialer. Proof. solve_decision. Defined.
Definition dialer0 : dialer := mkD [] [] [] None.

(* 251-253, 275-277, 280-282 *)
Definition with_port (h dflt : bytes) : bytes := match port_of h with [] => join h dflt | _ => h end.
(* 254-271, 283-300 *)
Definition tls_of (c : dconf) : option tlsconf :=
  match cCert c with CNone => Some (mkTC None (cInsecure c)) | CBad => None | CGood x => Some (mkTC (Some x) (cInsecure c)) end.
(* 242-307: Some (d, err) after the loop; None: return in the loop.  An unknown scheme sets err and goes on, 304 *)
Fixpoint init (parse : bytes -> option url) (c : dconf) (d : dialer) (err : bool) (remotes : list bytes) : option (dialer * bool) :=
  match remotes with
  | [] => Some (d, err)
  | r :: rs =>
      u ← parse r;
      match uScheme u with
      | STls => t ← tls_of c; init parse c (mkD (dTcp d) (with_port (uHost u) (bs "443")) (dQuic d) (Some t)) false rs
      | STcp => init parse c (mkD (with_port (uHost u) (bs "80")) (dTls d) (dQuic d) (dConf d)) false rs
      | SQuic => t ← tls_of c; init parse c (mkD (dTcp d) (dTls d) (with_port (uHost u) (bs "443")) (Some t)) false rs
      | SOther => init parse c d true rs
      end
  end.
Definition dinit (parse : bytes -> option url) (c : dconf) (remotes : list bytes) : option dialer :=
  match init parse c dialer0 false remotes with Some (d, false) => Some d | _ => None end.

(* 365-381 *)
Inductive way := WTls (a : bytes) (t : option tlsconf) | WQuic (a : bytes) (t : option tlsconf) | WTcp (a : bytes) | WNone.
#[global] Instance way_dec : EqDecision way. Proof. solve_decision. Defined.
Definition dial (d : dialer) : way :=
  match dTls d, dQuic d, dTcp d with
  | _ :: _, _, _ => WTls (dTls d) (dConf d)
  | [], _ :: _, _ => WQuic (dQuic d) (dConf d)
  | [], [], _ :: _ => WTcp (dTcp d)
  | [], [], [] => WNone
  end.

(* 386-389: strings.Contains(remote, "://") *)
Fixpoint has_scheme (r : bytes) : bool :=
  match r with 58 :: 47 :: 47 :: _ => true | _ :: r => has_scheme r | [] => false end.
Definition full (r : bytes) : bytes := if has_scheme r then r else bs "tcp://" ++ r.
(* 385-403: the map from host names to remotes; None: a remote cannot be parsed *)
Fixpoint group (parse : bytes -> option url) (rs : list bytes) (m : gmap bytes (list bytes)) : option (gmap bytes (list bytes)) :=
  match rs with
  | [] => Some m
  | r :: rs => u ← parse (full r); group parse rs (<[hostname (uHost u) := default [] (m !! hostname (uHost u)) ++ [full r]]> m)
  end.
(* 404-415: one dialer for each host name; the order of the map is arbitrary: a list of the entries in any order *)
Definition process_remotes (parse : bytes -> option url) (c : dconf) (rs : list bytes) (order : gmap bytes (list bytes) -> list (bytes * list bytes)) : option (list dialer) :=
  m ← group parse rs ∅; mapM (fun e => dinit parse c e.2) (order m).
(* 499-508, 520-526: connections for each dialer, and how many of them are kept when idle *)
Definition clamp (n hi : N) : N := if n <? 1 then 1 else if hi <? n then hi else n.
(* 520-528 *)
Fixpoint spawn {A} (k : nat) (ds : list A) (connID : N) : list (A * N) :=
  match ds with [] => [] | d :: ds => ((fun i => (d, connID + N.of_nat i)) <$> seq 1 k) ++ spawn k ds (connID + N.of_nat k) end.
Definition connections {A} (configured : N) (ds : list A) : list (A * N) := spawn (N.to_nat (clamp configured 10)) ds 0.
