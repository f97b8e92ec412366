(* ReoptModel.v -- the options of a running client and the comparison a reload makes: client/client.go 384-391
   ([processRemotes], which rewrites the remotes in place), 448-509 and 534-536 ([Start], which rewrites some options in
   place), 900-943 ([ReloadServices] up to the comparison).  On top of FlagsModel.v.

   Left out: everything of Start that does not touch the options; predef.Debug is false. *)
From Coq Require Import Strings.String.
From Verif Require Import GoBase FlagsModel.
Local Open Scope N_scope.

(* strings.Contains(s, sub) *)
Fixpoint starts (sub s : bytes) : bool :=
  match sub, s with
  | [], _ => true
  | c :: sub, d :: s => (c =? d) && starts sub s
  | _ :: _, [] => false
  end.
Fixpoint has_sub (sub s : bytes) : bool :=
  starts sub s || match s with [] => false | _ :: s => has_sub sub s end.

(* client.go 386-390 *)
Definition fix_remote (a : atom) : atom :=
  match a with
  | AStr s => if has_sub (bs "://") s then a else AStr (bs "tcp://" ++ s)
  | _ => a
  end.

Definition num (v : val) : N := match v with One (ANum n) => n | _ => 0 end.
(* if x < 1 { x = 1 } else if x > hi { x = hi } *)
Definition clamp (hi x : N) : N := if x <? 1 then 1 else if hi <? x then hi else x.

(* what Start makes of the options; [rnd] = util.RandomString(64) *)
Definition normalise (rnd : bytes) (v : odecl -> val) (get : bytes -> val) : odecl -> val := fun o =>
  if bool_decide (oName o = bs "secret") then
    (if bool_decide (v o = One (AStr [])) then One (AStr rnd) else v o)                       (* 452-454 *)
  else if bool_decide (oName o = bs "remote") then
    match v o with Many l => Many (fix_remote <$> l) | x => x end                            (* 384-391 *)
  else if bool_decide (oName o = bs "remoteConnections") then One (ANum (clamp 10 (num (v o))))       (* 494-498 *)
  else if bool_decide (oName o = bs "remoteIdleConnections") then
    One (ANum (clamp (clamp 10 (num (get (bs "remoteConnections")))) (num (v o))))            (* 499-503 *)
  else if bool_decide (oName o = bs "webrtcConnections") then One (ANum (clamp 50 (num (v o))))       (* 504-508 *)
  else if bool_decide (oName o = bs "tcpForwardConnections") then                            (* 534-536 *)
    One (ANum (if num (v o) <? 1 then 1 else num (v o)))
  else v o.
(* c.Config().RemoteConnections, the field of that name *)
Definition by_name (sch : list odecl) (v : odecl -> val) (n : bytes) : val :=
  match find_opt sch n with Some o => v o | None => One (ANum 0) end.
Definition start_client (rnd : bytes) (sch : list odecl) (v : odecl -> val) : odecl -> val := normalise rnd v (by_name sch v).

(* the fields with the json tag "-" (client/config.go 40-110) *)
Definition unseen : list bytes :=
  bs <$> ["config"; "hostPrefix"; "remoteTCPPort"; "remoteTCPRandom"; "local"; "localTimeout"; "useLocalAsHTTPHost"; "version";
          "webCertFile"; "webKeyFile"; "pprof"; "signingKey"; "admin"; "password"; "s"]%string.
Definition web_settings : list bytes :=
  bs <$> ["webAddr"; "webKeyFile"; "webCertFile"; "pprof"; "signingKey"; "admin"; "password"]%string.
Definition seen (sch : list odecl) : list odecl := filter (fun o => oName o ∉ unseen) sch.

(* what ReloadServices answers before it looks at the services; [enc] = json.Marshal of the seen fields *)
Inductive reload_answer := RExited | RBadFile | RChanged | RGoesOn.
Definition reload (enc : list val -> bytes) (P : parsers) (sch : list odecl) (disk : bytes -> file) (dpath web : bytes)
    (noargs : bool) (args : list bytes) (running : odecl -> val) : reload_answer :=
  let start := fun o => if bool_decide (oName o ∈ web_settings) then running o                  (* 910-917 *)
                        else start_defaults dpath web noargs args o in
  match parse_flags P sch disk noargs args start with
  | None => RExited
  | Some (_, true) => RBadFile
  | Some (cur, false) =>
      if bool_decide (enc (cur <$> seen sch) = enc (running <$> seen sch)) then RGoesOn else RChanged
  end.
