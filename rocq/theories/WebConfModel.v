(* WebConfModel.v -- saving the configuration from the web page: server/web/api/api.go 60-83 and 156-187, 
   server/web/service/service.go 20-47 and 203-309 (client/web/api/api.go and client/web/service/service.go are the same but
   for the reload they ask for afterwards), util/path.go 18-33.  On top of FlagsModel.v.

   Only the Options part of the configuration is modelled (not the users, port ranges, host rules and services beside it).
   The yaml encoder and decoder are taken to be inverse on what they write (every field has omitempty: a zero value and an
   empty list are left out).  encoding/json: a field that is in the request and is not tagged "-" is overwritten. *)
From Coq Require Import Strings.String.
From Verif Require Import GoBase FlagsModel.
Local Open Scope N_scope.

(* the zero value of the field *)
Definition zero_of (o : odecl) : val :=
  match oShape o with
  | SMany => Many []
  | SPlaced => Placed []
  | SOne => One match oBase o with BStr => AStr [] | BNum _ => ANum 0 | BInt => AInt 0 | BBool => ABool false | BDur => ADur 0 | BFloat => AFloat 0 end
  end.

(* service.go 189-201 [GetConfigFromFile]: decoded into a zero Config; 253-270 [GetMergedConfig] *)
Definition merged (f : bytes -> option val) : odecl -> val := fun o =>
  let v := with_file f zero_of o in
  match oShape o with
  | SOne => if zero_val v && negb (zero_val (oDefault o)) then oDefault o else v
  | _ => v
  end.

Definition path_of (v : val) : bytes := match v with One (AStr s) => s | _ => [] end.
(* c.Config().Options.Config, the option of that name *)
Definition config_of (sch : list odecl) (v : odecl -> val) : bytes :=
  match find_opt sch B_config with Some o => path_of (v o) | None => [] end.

(* service.go 242-251 [InheritConfig] *)
Definition inherit (sch : list odecl) (disk : bytes -> file) (running : odecl -> val) : odecl -> val :=
  match config_of sch running with
  | [] => running
  | p => match disk p with Fine f => merged f | Missing | Broken _ => running end
  end.

(* service.go 225-240 [InheritImmutableConfigFields] *)
Definition kept : list bytes :=
  bs <$> ["config"; "webAddr"; "webCertFile"; "webKeyFile"; "pprof"; "signingKey"; "admin"; "password"]%string.
(* the fields with the json tag "-": server/config.go 41-104, client/config.go 40-110 *)
Definition server_hidden : list bytes :=
  bs <$> ["config"; "id"; "secret"; "tcpRange"; "hostNumber"; "hostRegex"; "hostWithID"; "version"; "webCertFile"; "webKeyFile"; "pprof";
          "signingKey"; "admin"; "password"; "s"]%string.
Definition client_hidden : list bytes :=
  bs <$> ["config"; "hostPrefix"; "remoteTCPPort"; "remoteTCPRandom"; "local"; "localTimeout"; "useLocalAsHTTPHost"; "version";
          "webCertFile"; "webKeyFile"; "pprof"; "signingKey"; "admin"; "password"; "s"]%string.

(* service.go 272-285 [SeparateConfig] *)
Definition separate (v : odecl -> val) : odecl -> val := fun o =>
  match oShape o with
  | SOne => if bool_decide (v o = oDefault o) then zero_of o else v o
  | _ => v o
  end.

(* what the yaml encoder writes *)
Definition empty_val (v : val) : bool := match v with One a => zero_atom a | Many l => bool_decide (l = []) | Placed l => bool_decide (l = []) end.
Definition encode (sch : list odecl) (v : odecl -> val) : bytes -> option val := fun n =>
  match find_opt sch n with
  | Some o => if oFile o && negb (empty_val (v o)) then Some (v o) else None
  | None => None
  end.

(* service.go 203-223 [SaveConfigToFile]: where it is written; [dpath]: util.GetDefaultServerConfigPath() *)
Definition save_path (sch : list odecl) (dpath : bytes) (v : odecl -> val) : bytes :=
  match config_of sch v with [] => dpath | p => p end.

(* util/path.go 18-33 [WriteYamlToFile]: os.Create empties the file, then the content is written.  The states the disk goes
   through, the first being the one before; decoding an empty file is an error (io.EOF) that sets nothing. *)
Definition upd (disk : bytes -> file) (p : bytes) (x : file) : bytes -> file := fun q => if bool_decide (q = p) then x else disk q.
Definition write_states (disk : bytes -> file) (p : bytes) (f : bytes -> option val) : list (bytes -> file) :=
  [disk; upd disk p (Broken (fun _ => None)); upd disk p (Fine f)].

(* api.go 156-187: the new configuration, and the states of the disk.  [req]: the fields of the request. *)
Definition save_config (sch : list odecl) (hidden : list bytes) (disk : bytes -> file) (running : odecl -> val) (req : bytes -> option val) : odecl -> val :=
  fun o =>
    let base := if bool_decide (oName o ∈ kept) then inherit sch disk running o else zero_of o in
    if bool_decide (oName o ∈ hidden) then base else default base (req (oName o)).
Definition web_save sch hidden dpath disk running req : list (bytes -> file) :=
  let cfg := separate (save_config sch hidden disk running req) in
  write_states disk (save_path sch dpath cfg) (encode sch cfg).

(* service.go 28-47, api.go 60-83 [ChangeUserInfo] *)
Definition user_config (sch : list odecl) (disk : bytes -> file) (running : odecl -> val) (user password : bytes) (pprof : bool) : odecl -> val :=
  fun o =>
    if bool_decide (oName o = bs "admin") then One (AStr user)
    else if bool_decide (oName o = bs "password") then One (AStr password)
    else if bool_decide (oName o = bs "pprof") then One (ABool pprof)
    else inherit sch disk running o.
Definition web_change_user sch dpath disk running user password pprof : list (bytes -> file) :=
  let cfg := separate (user_config sch disk running user password pprof) in
  write_states disk (save_path sch dpath cfg) (encode sch cfg).

(* service.go 20-26 [VerifyUser]: the running configuration decides *)
Definition login (sch : list odecl) (running : odecl -> val) (user password : bytes) : bool :=
  match find_opt sch (bs "admin"), find_opt sch (bs "password") with
  | Some a, Some p => bool_decide (running a = One (AStr user)) && bool_decide (running p = One (AStr password))
  | _, _ => false
  end.
