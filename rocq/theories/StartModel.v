(* StartModel.v -- what a server listens on and whom it admits: server/server.go 214-288 (tlsListen, listen, quicListen, sniListen),
   341-470 (Start), 472-476 and 548-592 (startSTUNServer, startAPIServer as far as listening goes), 516-545 (newTLSConfig), 645-672 (Close).
   Options are byte strings.  What the system decides is a parameter: whether the users, TCP and host options are valid
   (Props_Auth, Props_Ports treat them), whether a certificate can be loaded and whether an address can be listened on. *)
From Coq Require Import Strings.String.
From Verif Require Import GoBase FlagsModel.
Local Open Scope N_scope.

Record scfg := mkSC {
  oAddr : bytes; oTLSAddr : bytes; oCert : bytes; oKey : bytes; oQuic : bytes; oSNI : bytes; oSTUN : bytes;
  oAPI : bytes; oAPICert : bytes; oAPIKey : bytes; oMux : bytes; oAuthAPI : bytes; oAllowAny : bool }.
Inductive lkind := LTCP | LTLS | LQUIC | LSNI | LSTUN | LAPI.
#[global] Instance lkind_dec : EqDecision lkind. Proof. solve_decision. Defined.
(* s.authUser and s.removeClient, 370-384 *)
Inductive mode := MAuthAPI | MAnyNoUsers | MConfigured | MAnyAndConfigured.
Record world := mkW {
  wUsersOk : bool;            (* 342-364: mergeUsers, Yaml2Interface, parseTCPs, parseHost give no error *)
  wNoUsers : bool;            (* s.users.empty() *)
  wCert : bytes -> bytes -> bool;
  wListen : lkind -> bytes -> bool }.

Definition has_colon (a : bytes) : bool := bool_decide (58 ∈ a).
Definition ne (a : bytes) : bool := negb (bool_decide (a = [])).
(* 397, 417, 427, 473, 387 *)
Definition norm (a : bytes) : bytes := if has_colon a then a else 58 :: a.
(* 408-414 *)
Definition norm_quic (a : bytes) : bytes :=
  if bool_decide (head a = Some 58) then bs "0.0.0.0" ++ a else if has_colon a then a else bs "0.0.0.0:" ++ a.
Definition mode_of (c : scfg) (w : world) : mode :=
  if ne (oAuthAPI c) then MAuthAPI else if wNoUsers w then MAnyNoUsers else if negb (oAllowAny c) then MConfigured else MAnyAndConfigured.

(* one listener: what has been opened so far, or the failure with it *)
Notation opened := (list (lkind * bytes)).
Definition open (w : world) (k : lkind) (a : bytes) (o : opened) : opened * bool := if wListen w k a then (o ++ [(k, a)], true) else (o, false).
Definition if_on (b : bool) (f : opened -> opened * bool) (r : opened * bool) : opened * bool :=
  match r with (o, true) => if b then f o else (o, true) | r => r end.
(* 341-470.  The result: what is listening (the accept loops run), whether Start succeeded, and the mode *)
Definition start (c : scfg) (w : world) : opened * bool :=
  if negb (wUsersOk w) then ([], false) else
  if negb (ne (oMux c)) then ([], false) else
  let r := if_on (ne (oTLSAddr c) && ne (oCert c) && ne (oKey c)) (fun o => if wCert w (oCert c) (oKey c) then open w LTLS (norm (oTLSAddr c)) o else (o, false)) ([], true) in
  let r := if_on (ne (oQuic c)) (fun o => if ne (oCert c) && ne (oKey c) && negb (wCert w (oCert c) (oKey c)) then (o, false) else open w LQUIC (norm_quic (oQuic c)) o) r in
  let r := if_on (ne (oAddr c)) (open w LTCP (norm (oAddr c))) r in
  let r := if_on (ne (oSNI c)) (open w LSNI (norm (oSNI c))) r in
  match r with
  | ([], true) => ([], false)      (* 433-436 *)
  | _ =>
    let r := if_on (ne (oSTUN c)) (open w LSTUN (norm (oSTUN c))) r in
    if_on (ne (oAPI c)) (fun o => if ne (oAPICert c) && ne (oAPIKey c) && negb (wCert w (oAPICert c) (oAPIKey c)) then (o, false) else open w LAPI (norm (oAPI c)) o) r
  end.
(* 645-672: apiServer.Close closes the API's listener and stunServer.Close the STUN one; s.quicListener is not mentioned *)
Definition close_listeners (o : opened) : opened := filter (fun ka => ka.1 = LQUIC) o.

(* 527-541: the lowest version of TLS offered, with strings.ToLower for ASCII; 0x0302, 0x0303, 0x0304 *)
Definition lower (b : N) : N := if (65 <=? b) && (b <=? 90) then b + 32 else b.
Definition tls_min (v : bytes) : N :=
  let v := map lower v in if decide (v = bs "tls1.1") then 770 else if decide (v = bs "tls1.3") then 772 else 771.

(* Close against connections being set up: a tunnel is accepted, then its client is put into id2Client (conn.go 350-523), then it ends *)
Inductive tun := THandshake | TRegistered | TClosed.
#[global] Instance tun_dec : EqDecision tun. Proof. solve_decision. Defined.
Inductive cphase := CRun | CListeners | CRange | CDone.   (* before Close, 646-666, 667-672, after *)
Record cst := mkCl { cTuns : list tun; cPh : cphase; cSeen : gset nat }.
Inductive cevt := CAccept | CRegister (i : nat) | CClose | CRangeStart | CVisit (i : nat) | CEnd | CGone (i : nat).
Definition cstep (s : cst) (e : cevt) : option cst :=
  match s with mkCl ts ph seen =>
  match e with
  | CAccept => match ph with CRun => Some (mkCl (ts ++ [THandshake]) ph seen) | _ => None end   (* QUIC is left out here *)
  | CRegister i => match ts !! i with Some THandshake => Some (mkCl (<[i := TRegistered]> ts) ph seen) | _ => None end
  | CClose => match ph with CRun => Some (mkCl ts CListeners seen) | _ => None end
  (* sync.Map.Range visits at least what is in the map from its start on *)
  | CRangeStart => match ph with CListeners => Some (mkCl ts CRange (list_to_set (filter (fun i => ts !! i = Some TRegistered) (seq 0 (length ts))))) | _ => None end
  | CVisit i => match ph, ts !! i with CRange, Some TRegistered => Some (mkCl (<[i := TClosed]> ts) ph (seen ∖ {[i]})) | _, _ => None end
  | CEnd => match ph with CRange => if bool_decide (Forall (fun i => ts !! i <> Some TRegistered) (elements seen)) then Some (mkCl ts CDone seen) else None | _ => None end
  | CGone i => match ts !! i with Some _ => Some (mkCl (<[i := TClosed]> ts) ph seen) | _ => None end
  end end.
Definition cl0 : cst := mkCl [] CRun ∅.
Definition crun (tr : list cevt) : option cst := fold_left (fun o e => o ≫= fun s => cstep s e) tr (Some cl0).
