(* FlagsModel.v -- how a gt process turns its command line and its config file into options: config/config.go 37-192
   ([ParseFlags], [Yaml2Interface], [copyFlagsValue], [registerFlags]), config/slice.go 44-62, config/position.go 34-50,
   config/positionslice.go 27-36, config/duration.go 19-28, client/client.go 56-132 ([New], [MergeConfig],
   [getDefaultConfig]), server/server.go 86-104 and 1116-1128, util/path.go 31-38, and Go's flag package
   ([FlagSet.Parse], [parseOne]) which they call.

   Left out: the yaml decoder (the file is whatever values it delivers), the printing of usage texts, -version and
   -s (which end the process after the options are computed). *)
From Coq Require Import Strings.String Strings.Ascii.
From Verif Require Import GoBase.
Local Open Scope N_scope.

(* a Go string literal as bytes *)
Fixpoint bs (s : string) : bytes :=
  match s with
  | EmptyString => []
  | String c s => N_of_ascii c :: bs s
  end.

(* the value of one field of Options, or of one element of a repeatable option: string, uint*, int64, bool,
   config.Duration / time.Duration (ns), float64 (its bits) *)
Inductive atom := AStr (s : bytes) | ANum (n : N) | AInt (z : Z) | ABool (b : bool) | ADur (d : Z) | AFloat (bits : N).
(* the element type of an option; [BNum w]: an unsigned integer of w bits *)
Inductive base := BStr | BNum (w : N) | BInt | BBool | BDur | BFloat.
(* the field is a plain value, a config.Slice, or a config.PositionSlice *)
Inductive shape := SOne | SMany | SPlaced.
Inductive val := One (a : atom) | Many (l : list atom) | Placed (l : list (atom * N)).
Global Instance atom_eq_dec : EqDecision atom. Proof. solve_decision. Defined.
Global Instance val_eq_dec : EqDecision val. Proof. solve_decision. Defined.

(* one field of Options: its name on the command line, its type, whether the yaml file can set it (config.go 139-147:
   the yaml tag, "-" = no) and its value in DefaultConfig *)
Record odecl := mkO { oName : bytes; oShape : shape; oBase : base; oFile : bool; oDefault : val }.

(* The text parsers of Go.  [strict]: strconv.ParseUint(s, 0, 64), ParseInt, ParseBool, ParseFloat, time.ParseDuration and the
   identity for strings, None = error.  [scan]: fmt.Sscanf(text, "%v", &x) on a zero x, whose error slice.go 59 and
   position.go 44 ignore: what x holds afterwards. *)
Record parsers := mkParsers { strict : base -> bytes -> option atom; scan : base -> bytes -> atom }.

(* flag.Value.IsBoolFlag: boolValue, Slice[bool] (slice.go 70-73) and PositionSlice[bool] (positionslice.go 44-47) *)
Definition is_bool (o : odecl) : bool := match oBase o with BBool => true | _ => false end.

(* the flag set: [f.actual] with the values, and the package variable [position] *)
Record fs := mkFs { fSet : gmap bytes val; fPos : N }.

(* the elements parsed so far of a repeatable option; registerFlags gives each flag a fresh empty value (config.go 164) *)
Definition so_far (m : gmap bytes val) (n : bytes) : list atom :=
  match m !! n with Some (Many l) => l | _ => [] end.
Definition placed_so_far (m : gmap bytes val) (n : bytes) : list (atom * N) :=
  match m !! n with Some (Placed l) => l | _ => [] end.

(* Slice.Set and Position.Set: durations are parsed strictly, the rest is scanned (slice.go 45-60, position.go 35-45) *)
Definition element (P : parsers) (b : base) (text : bytes) : option atom :=
  match b with BDur => strict P BDur text | _ => Some (scan P b text) end.

(* flag.Value.Set for the three shapes.  SOne: the standard flag types and config.Duration.  SPlaced: position.go 34-50,
   position.Add(1) is uint32 arithmetic and the wrap to 0 an error. *)
Definition set1 (P : parsers) (o : odecl) (st : fs) (text : bytes) : option fs :=
  match oShape o with
  | SOne =>
      match strict P (oBase o) text with
      | None => None
      | Some a => Some (mkFs (<[oName o := One a]> (fSet st)) (fPos st))
      end
  | SMany =>
      match element P (oBase o) text with
      | None => None
      | Some a => Some (mkFs (<[oName o := Many (so_far (fSet st) (oName o) ++ [a])]> (fSet st)) (fPos st))
      end
  | SPlaced =>
      match element P (oBase o) text with
      | None => None
      | Some a =>
          let p := u32 (fPos st + 1) in
          if p =? 0 then None
          else Some (mkFs (<[oName o := Placed (placed_so_far (fSet st) (oName o) ++ [(a, p)])]> (fSet st)) p)
      end
  end.

(* flag.parseOne: how one argument reads *)
Inductive token := Operand | Terminator | BadSyntax | IsFlag (name : bytes) (value : option bytes).
(* for i := 1; i < len(name); i++ { if name[i] == '=' ... }: split at the first '=' after the first byte *)
Fixpoint split_eq (l : bytes) : bytes * option bytes :=
  match l with
  | [] => ([], None)
  | c :: l => if c =? 61 then ([], Some l) else let '(n, v) := split_eq l in (c :: n, v)
  end.
Definition flag_body (b : bytes) : token :=
  match b with
  | [] => BadSyntax
  | c :: b => if (c =? 45) || (c =? 61) then BadSyntax
              else let '(n, v) := split_eq b in IsFlag (c :: n) v
  end.
Definition read_token (s : bytes) : token :=
  match s with
  | c0 :: c1 :: s' =>
      if negb (c0 =? 45) then Operand
      else if c1 =? 45 then match s' with [] => Terminator | _ => flag_body s' end
      else flag_body (c1 :: s')
  | _ => Operand                                     (* len(s) < 2 *)
  end.

(* f.formal[name] *)
Definition find_opt (sch : list odecl) (n : bytes) : option odecl := find (fun o => bool_decide (oName o = n)) sch.

(* FlagSet.Parse with flag.ExitOnError: None = the process exits.  Whatever stands after the first operand or after "--"
   is left in f.args, which nothing in gt reads. *)
Fixpoint parse (P : parsers) (sch : list odecl) (args : list bytes) (st : fs) : option fs :=
  match args with
  | [] => Some st
  | s :: args =>
      match read_token s with
      | Operand | Terminator => Some st
      | BadSyntax => None
      | IsFlag name value =>
          match find_opt sch name with
          | None => None                                       (* -help, -h or "flag provided but not defined" *)
          | Some o =>
              if is_bool o then
                match set1 P o st (default (bs "true") value) with
                | None => None
                | Some st => parse P sch args st
                end
              else
                match value, args with
                | Some v, _ => match set1 P o st v with None => None | Some st => parse P sch args st end
                | None, v :: args => match set1 P o st v with None => None | Some st => parse P sch args st end
                | None, [] => None                             (* flag needs an argument *)
                end
          end
      end
  end.

(* copyFlagsValue, config.go 94-129: reflect's Convert drops the high bits of an unsigned integer *)
Definition convert (o : odecl) (v : val) : val :=
  match oBase o, v with
  | BNum w, One (ANum n) => One (ANum (n mod 2 ^ w))
  | _, _ => v
  end.

(* the config file at a path: missing, unreadable or not of the right form (with the fields decoded until then), or fine *)
Inductive file := Missing | Broken (partial : bytes -> option val) | Fine (fields : bytes -> option val).
Definition with_file (f : bytes -> option val) (cur : odecl -> val) : odecl -> val :=
  fun o => if oFile o then default (cur o) (f (oName o)) else cur o.

Definition B_config : bytes := bs "config".
Definition B_webAddr : bytes := bs "-webAddr".
Definition has_arg (args : list bytes) (a : bytes) : bool := existsb (fun x => bool_decide (x = a)) args.

(* what ParseFlags leaves in options, and whether it returned an error.  None = the process exited. *)
Definition parse_flags (P : parsers) (sch : list odecl) (disk : bytes -> file) (noargs : bool) (args : list bytes)
    (cur : odecl -> val) : option ((odecl -> val) * bool) :=
  match args with
  | [] => Some (cur, false)                                                                  (* 42-44 *)
  | _ :: rest =>
      match parse P sch rest (mkFs ∅ 0) with                                                 (* 40, 45-52 *)
      | None => None
      | Some st =>
          let copied cur := fun o => match fSet st !! oName o with                            (* 64, 94-129 *)
                                     | Some v => convert o v
                                     | None => cur o
                                     end in
          let path := match find_opt sch B_config with                                       (* configPath *)
                      | None => []
                      | Some o => match default (cur o) (fSet st !! B_config) with One (AStr s) => s | _ => [] end
                      end in
          match path with
          | [] => Some (copied cur, false)                                                   (* 70-72 *)
          | _ => match disk path with
                 | Fine f => Some (copied (with_file f cur), false)
                 | Missing => if noargs || has_arg args B_webAddr then Some (copied cur, false)     (* 57-62 *)
                              else Some (cur, true)
                 | Broken f => Some (with_file f cur, true)
                 end
          end
      end
  end.

(* MergeConfig: a field that is zero and not a slice gets its default *)
Definition zero_atom (a : atom) : bool :=
  match a with AStr s => bool_decide (s = []) | ANum n => n =? 0 | AInt z => (z =? 0)%Z | ABool b => negb b
             | ADur d => (d =? 0)%Z | AFloat n => n =? 0 end.
Definition zero_val (v : val) : bool := match v with One a => zero_atom a | _ => false end.
Definition merge (cur : odecl -> val) : odecl -> val := fun o => if zero_val (cur o) then oDefault o else cur o.

(* getDefaultConfig (client.go 122-132) and server.go 87-95: [dpath] is the default path of the config file, [web] the
   default address of the web page *)
Definition start_defaults (dpath web : bytes) (noargs : bool) (args : list bytes) : odecl -> val := fun o =>
  if bool_decide (oName o = B_config) && (noargs || has_arg args B_webAddr) then One (AStr dpath)
  else if bool_decide (oName o = bs "webAddr") && noargs then One (AStr web)
  else oDefault o.

Inductive started := Exited | Failed | Options (o : odecl -> val).

(* server.New, 86-104 *)
Definition server_new P sch disk dpath web noargs args : started :=
  match parse_flags P sch disk noargs args (start_defaults dpath web noargs args) with
  | None => Exited
  | Some (cur, true) => Failed
  | Some (cur, false) => Options (merge cur)
  end.

(* client.New, 56-66: the error of ParseFlags is overwritten by that of MergeConfig, which is always nil *)
Definition client_new P sch disk dpath web noargs args : started :=
  match parse_flags P sch disk noargs args (start_defaults dpath web noargs args) with
  | None => Exited
  | Some (cur, _) => Options (merge cur)
  end.

(* client/config.go 40-110 and 112-127 *)
Definition sec : Z := 1000000000%Z.
Definition ostr n := mkO (bs n) SOne BStr true (One (AStr [])).
Definition oflag n := mkO (bs n) SOne BBool true (One (ABool false)).
Definition onum n w d := mkO (bs n) SOne (BNum w) true (One (ANum d)).
Definition odur n d := mkO (bs n) SOne BDur true (One (ADur d)).
Definition ostrs n := mkO (bs n) SMany BStr true (Many []).
Definition oplaced n b := mkO (bs n) SPlaced b false (Placed []).
Definition nofile (o : odecl) := mkO (oName o) (oShape o) (oBase o) false (oDefault o).
Definition client_options (version : bytes) : list odecl :=
  [ nofile (ostr "config"); ostr "id"; ostr "secret"; odur "reconnectDelay" (5 * sec); ostrs "remote"; ostrs "remoteSTUN";
    ostr "remoteAPI"; ostr "remoteCert"; oflag "remoteCertInsecure"; onum "remoteConnections" 64 3;
    onum "remoteIdleConnections" 64 1; odur "remoteTimeout" (45 * sec);
    oplaced "hostPrefix" BStr; oplaced "remoteTCPPort" (BNum 16); oplaced "remoteTCPRandom" BBool;
    oplaced "local" BStr; oplaced "localTimeout" BDur; oplaced "useLocalAsHTTPHost" BBool;
    ostr "sentryDSN"; ostrs "sentryLevel"; mkO (bs "sentrySampleRate") SOne BFloat true (One (AFloat 4607182418800017408));
    mkO (bs "sentryRelease") SOne BStr true (One (AStr version)); ostr "sentryEnvironment"; ostr "sentryServerName";
    oflag "sentryDebug";
    odur "webrtcConnectionIdleTimeout" (300 * sec); onum "webrtcConnections" 64 30;
    mkO (bs "webrtcLogLevel") SOne BStr true (One (AStr (bs "warning"))); onum "webrtcMinPort" 16 0; onum "webrtcMaxPort" 16 0;
    oflag "webrtcThreadMode"; ostr "tcpForwardAddr"; ostr "tcpForwardHostPrefix"; onum "tcpForwardConnections" 64 3;
    ostr "logFile"; mkO (bs "logFileMaxSize") SOne BInt true (One (AInt 536870912)); onum "logFileMaxCount" 64 7;
    mkO (bs "logLevel") SOne BStr true (One (AStr (bs "info"))); nofile (oflag "version");
    ostr "webAddr"; ostr "webCertFile"; ostr "webKeyFile"; oflag "pprof"; ostr "signingKey"; ostr "admin"; ostr "password";
    nofile (ostr "s"); oflag "bbr" ].

(* server/config.go 41-104 and 106-138 *)
Definition server_options (version : bytes) : list odecl :=
  [ nofile (ostr "config"); ostr "addr"; ostr "tlsAddr"; mkO (bs "tlsVersion") SOne BStr true (One (AStr (bs "tls1.2")));
    ostr "certFile"; ostr "keyFile"; nofile (ostrs "id"); nofile (ostrs "secret"); ostr "users"; ostr "authAPI";
    oflag "allowAnyClient"; nofile (ostrs "tcpRange"); onum "tcpNumber" 16 0; onum "speed" 32 0; onum "connections" 32 10;
    onum "reconnectTimes" 32 3; odur "reconnectDuration" (300 * sec); nofile (onum "hostNumber" 32 0); nofile (ostrs "hostRegex");
    nofile (oflag "hostWithID"); mkO (bs "httpMUXHeader") SOne BStr true (One (AStr (bs "Host")));
    onum "maxHandShakeOptions" 16 600; odur "timeout" (90 * sec); oflag "timeoutOnUnidirectionalTraffic";
    ostr "apiAddr"; ostr "apiCertFile"; ostr "apiKeyFile"; mkO (bs "apiTLSVersion") SOne BStr true (One (AStr (bs "tls1.2")));
    ostr "stunAddr"; mkO (bs "stunLogLevel") SOne BStr true (One (AStr (bs "warn"))); ostr "sniAddr";
    ostr "sentryDSN"; ostrs "sentryLevel"; mkO (bs "sentrySampleRate") SOne BFloat true (One (AFloat 4607182418800017408));
    mkO (bs "sentryRelease") SOne BStr true (One (AStr version)); ostr "sentryEnvironment"; ostr "sentryServerName";
    oflag "sentryDebug"; ostr "logFile"; mkO (bs "logFileMaxSize") SOne BInt true (One (AInt 536870912));
    onum "logFileMaxCount" 64 7; mkO (bs "logLevel") SOne BStr true (One (AStr (bs "info"))); nofile (oflag "version");
    ostr "webAddr"; ostr "webCertFile"; ostr "webKeyFile"; oflag "pprof"; ostr "signingKey"; ostr "admin"; ostr "password";
    nofile (ostr "s"); ostr "quicAddr"; oflag "bbr" ].
