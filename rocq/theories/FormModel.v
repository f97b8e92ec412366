(* FormModel.v -- the settings page: what it makes of the configuration it is shown and sends back when the user presses "save".
   web/front/src/components/ClientConfigForm/index.vue 238-303 and interface/index.ts 231-269 (transToBackendConfig, transToFrontConfig),
   ServerConfigForm/index.vue, utils/map.ts 1-93 and 127-300 (which fields are taken from the answer), utils/eleValidate.ts 1-13,
   ClientConfigForm/components/GeneralSetting.vue 163-263 and ServiceSetting.vue (validation), client/web/api/api.go 138-187 and server/web/api/api.go (what is
   shown: the merged file, or the running configuration), client/config.go 40-100 and 160-176, server/config.go 33-104 and 150-165 (the JSON keys),
   server/web/service/service.go 286-308 and client/web/service/service.go (SeparateConfig: users, host rules, services), server/server.go 935-940 and
   1001-1035 (what a user inherits).  On top of WebConfModel.v and DurModel.v.

   Simplified.  Vue and Element Plus: an input leaves the value it was given alone unless the user edits it; a number outside the bounds of its input is
   taken as refused (Element Plus moves it to the bound).  The validators not modelled (ID required, addresses, API URL, port ranges, user id and secret) only make
   the page refuse more.  JSON: a field left out by omitempty is undefined on the page and not sent, which is the same as sending its zero value.  [js]: what an
   integer becomes on the page and back (a float64). *)
From Coq Require Import Strings.String.
From Verif Require Import GoBase FlagsModel LogModel WebConfModel DurModel.
Local Open Scope N_scope.

(* ---- the JSON keys: encoding/json uses the Go field's name, or the tag's *)
Definition client_keys : list (bytes * bytes) := (fun x => (bs x.1, bs x.2)) <$>
  [("id","ID"); ("secret","Secret"); ("reconnectDelay","ReconnectDelay"); ("remote","Remote"); ("remoteSTUN","RemoteSTUN"); ("remoteAPI","RemoteAPI");
   ("remoteCert","RemoteCert"); ("remoteCertInsecure","RemoteCertInsecure"); ("remoteConnections","RemoteConnections");
   ("remoteIdleConnections","RemoteIdleConnections"); ("remoteTimeout","RemoteTimeout"); ("sentryDSN","SentryDSN"); ("sentryLevel","SentryLevel");
   ("sentrySampleRate","SentrySampleRate"); ("sentryRelease","SentryRelease"); ("sentryEnvironment","SentryEnvironment");
   ("sentryServerName","SentryServerName"); ("sentryDebug","SentryDebug"); ("webrtcConnectionIdleTimeout","WebRTCConnectionIdleTimeout");
   ("webrtcConnections","WebRTCRemoteConnections"); ("webrtcLogLevel","WebRTCLogLevel"); ("webrtcMinPort","WebRTCMinPort");
   ("webrtcMaxPort","WebRTCMaxPort"); ("webrtcThreadMode","WebRTCThread"); ("tcpForwardAddr","TCPForwardAddr");
   ("tcpForwardHostPrefix","TCPForwardHostPrefix"); ("tcpForwardConnections","TCPForwardConnections"); ("logFile","LogFile");
   ("logFileMaxSize","LogFileMaxSize"); ("logFileMaxCount","LogFileMaxCount"); ("logLevel","LogLevel"); ("webAddr","webAddr"); ("bbr","OpenBBR")]%string.
Definition server_keys : list (bytes * bytes) := (fun x => (bs x.1, bs x.2)) <$>
  [("addr","Addr"); ("tlsAddr","TLSAddr"); ("tlsVersion","TLSMinVersion"); ("certFile","CertFile"); ("keyFile","KeyFile"); ("users","UserPath");
   ("authAPI","AuthAPI"); ("allowAnyClient","AllowAnyClient"); ("tcpNumber","TCPNumber"); ("speed","Speed"); ("connections","Connections");
   ("reconnectTimes","ReconnectTimes"); ("reconnectDuration","ReconnectDuration"); ("httpMUXHeader","HTTPMUXHeader");
   ("maxHandShakeOptions","MaxHandShakeOptions"); ("timeout","Timeout"); ("timeoutOnUnidirectionalTraffic","TimeoutOnUnidirectionalTraffic");
   ("apiAddr","APIAddr"); ("apiCertFile","APICertFile"); ("apiKeyFile","APIKeyFile"); ("apiTLSVersion","APITLSMinVersion"); ("stunAddr","STUNAddr");
   ("stunLogLevel","STUNLogLevel"); ("sniAddr","SNIAddr"); ("sentryDSN","SentryDSN"); ("sentryLevel","SentryLevel");
   ("sentrySampleRate","SentrySampleRate"); ("sentryRelease","SentryRelease"); ("sentryEnvironment","SentryEnvironment");
   ("sentryServerName","SentryServerName"); ("sentryDebug","SentryDebug"); ("logFile","LogFile"); ("logFileMaxSize","LogFileMaxSize");
   ("logFileMaxCount","LogFileMaxCount"); ("logLevel","LogLevel"); ("webAddr","webAddr"); ("quicAddr","QuicAddr"); ("bbr","OpenBBR")]%string.
(* the fields the page takes from the answer and sends: map.ts 10-73 and 205-300 *)
Definition client_page : list bytes := bs <$>
  ["ID"; "Secret"; "ReconnectDelay"; "Remote"; "RemoteSTUN"; "RemoteAPI"; "RemoteCert"; "RemoteCertInsecure"; "RemoteConnections"; "RemoteIdleConnections";
   "RemoteTimeout"; "WebAddr"; "SentryDSN"; "SentryLevel"; "SentrySampleRate"; "SentryRelease"; "SentryEnvironment"; "SentryServerName"; "SentryDebug";
   "WebRTCConnectionIdleTimeout"; "WebRTCLogLevel"; "WebRTCMinPort"; "WebRTCMaxPort"; "TCPForwardAddr"; "TCPForwardHostPrefix"; "TCPForwardConnections";
   "LogFile"; "LogFileMaxSize"; "LogFileMaxCount"; "LogLevel"]%string.
Definition server_page : list bytes := bs <$>
  ["UserPath"; "AuthAPI"; "TCPNumber"; "WebAddr"; "Addr"; "TLSAddr"; "TLSMinVersion"; "STUNAddr"; "STUNLogLevel"; "SNIAddr"; "HTTPMUXHeader";
   "MaxHandShakeOptions"; "CertFile"; "KeyFile"; "AllowAnyClient"; "Speed"; "Connections"; "ReconnectTimes"; "ReconnectDuration"; "Timeout";
   "TimeoutOnUnidirectionalTraffic"; "APIAddr"; "APICertFile"; "APIKeyFile"; "APITLSMinVersion"; "SentryDSN"; "SentryLevel"; "SentrySampleRate";
   "SentryRelease"; "SentryEnvironment"; "SentryServerName"; "SentryDebug"; "LogFile"; "LogFileMaxSize"; "LogFileMaxCount"; "LogLevel"]%string.
Definition lower (b : N) : N := if (65 <=? b) && (b <=? 90) then b + 32 else b.
(* JavaScript compares keys exactly, encoding/json without regard to case *)
Definition key_of (keys : list (bytes * bytes)) (n : bytes) : option bytes := snd <$> find (fun x => bool_decide (x.1 = n)) keys.
Definition name_of (keys : list (bytes * bytes)) (k : bytes) : option bytes := fst <$> find (fun x => bool_decide (x.2 = k)) keys.
Definition page_key (keys : list (bytes * bytes)) (page : list bytes) (n : bytes) : option bytes :=
  k ← key_of keys n; find (fun x => bool_decide (lower <$> x = lower <$> k)) page.

(* ---- one value *)
(* a duration: shown as humanizeDuration makes it, checked by validatorTimeFormat, read by UnmarshalJSON.  None: refused *)
Definition page_dur (d : Z) : option Z :=
  let t := humanize (Some (dur_string d)) in
  if re_time true t then parse_duration t else None.
(* s.split("://") and the first two parts: interface/index.ts 252, 259 *)
Definition sep : bytes := bs "://".
Fixpoint cut (s : bytes) : bytes * option bytes :=
  match strip sep s with
  | Some r => ([], Some r)
  | None => match s with [] => ([], None) | c :: s' => let '(a, b) := cut s' in (c :: a, b) end
  end.
Definition split2 (s : bytes) : bytes * option bytes := match cut s with (p, Some r) => (p, Some (cut r).1) | (p, None) => (p, None) end.
(* protocol + "://" + address, undefined being "undefined": 235, 240 *)
Definition rejoin (x : bytes * option bytes) : bytes := x.1 ++ sep ++ default (bs "undefined") x.2.
Definition blank (s : bytes) : bool := forallb (fun c => (c =? 32) || ((9 <=? c) && (c <=? 13))) s.
Definition first_ok (s : bytes) : bool := match split2 s with (p, Some a) => negb (blank p) && negb (blank a) | _ => false end.
(* interface/index.ts 248-257 (no remote is shown as [""]); GeneralSetting.vue 200-208, 221-224: the rule is made for the one entry of the form when it is set up, and
   252-262 (every stops at the first entry) *)
Definition page_remotes (l : list bytes) : option (list bytes) :=
  match l with
  | [] => None
  | s :: _ => if first_ok s then Some ((fun s => rejoin (split2 s)) <$> l) else None
  end.
Definition str_of (a : atom) : bytes := match a with AStr s => s | _ => [] end.
Definition page_atom (js : Z -> Z) (a : atom) : option atom :=
  match a with
  | ADur d => ADur <$> page_dur d
  | ANum n => Some (ANum (Z.to_N (js (Z.of_N n))))
  | AInt z => Some (AInt (js z))
  | _ => Some a
  end.
(* the bounds of the number inputs: GeneralSetting.vue 133, LogSetting.vue 23 *)
Definition in_bounds (n : bytes) (v : val) : bool :=
  match v with
  | One (ANum x) => if bool_decide (n = bs "remoteConnections") then (1 <=? x) && (x <=? 10) else true
  | One (AInt z) => (0 <=? z)%Z
  | _ => true
  end.
Definition page_val (js : Z -> Z) (n : bytes) (v : val) : option val :=
  if negb (in_bounds n v) then None else
  match v with
  | One a => One <$> page_atom js a
  | Many l => if bool_decide (n = bs "remote") then (fun l => Many (AStr <$> l)) <$> page_remotes (str_of <$> l) else Some v
  | Placed _ => Some v
  end.

(* ---- the page.  A program: its options, the fields hidden from JSON, the JSON keys and the page's fields *)
Record prog := mkProg { pOpts : list odecl; pHidden : list bytes; pKeys : list (bytes * bytes); pPage : list bytes }.
Definition client_prog (version : bytes) : prog := mkProg (client_options version) client_hidden client_keys client_page.
Definition server_prog (version : bytes) : prog := mkProg (server_options version) server_hidden server_keys server_page.
(* what is sent for an option, [shown] being what the page was given: None = the page refuses, Some None = nothing *)
Definition sent (js : Z -> Z) (P : prog) (shown : odecl -> val) (n : bytes) : option (option val) :=
  match page_key (pKeys P) (pPage P) n with
  | None => Some None                                                      (* the page has no such field *)
  | Some k => match name_of (pKeys P) k with
              | None => Some None                                          (* data.config[k] is undefined *)
              | Some n' => match find_opt (pOpts P) n' with
                           | None => Some None
                           | Some o => Some <$> page_val js n' (shown o)
                           end
              end
  end.
Definition agrees (js : Z -> Z) (P : prog) (shown : odecl -> val) : bool := forallb (fun o => match sent js P shown (oName o) with None => false | _ => true end) (pOpts P).
(* the new content of the configuration file *)
Definition page_save (js : Z -> Z) (P : prog) (disk : bytes -> file) (running : odecl -> val) : option (bytes -> option val) :=
  let shown := inherit (pOpts P) disk running in
  if agrees js P shown then
    let req n := default None (sent js P shown n) in
    Some (encode (pOpts P) (separate (save_config (pOpts P) (pHidden P) disk running req)))
  else None.
(* what a start with this file alone gives: FlagsModel, with_file and merge *)
Definition effective (f : bytes -> option val) : odecl -> val := merge (with_file f oDefault).

(* ---- the users of a server: server/config.go 150-160, 246-252 *)
Record muser := mkMuser { mSecret : bytes; mTcps : list bytes; mTcpNumber : option N; mSpeed : N; mConns : N; mHostNumber : option N; mRegex : option (list bytes); mWithID : option bool }.
(* map.ts 177-199: what the page shows and sends *)
Definition page_user (u : muser) : muser :=
  mkMuser (mSecret u) (mTcps u) (Some (default 0 (mTcpNumber u))) (mSpeed u) (mConns u) (Some (default 0 (mHostNumber u))) (Some (default [] (mRegex u))) (mWithID u).
(* service.go 296-308 *)
Definition separate_user (u : muser) : muser :=
  mkMuser (mSecret u) (mTcps u) (if bool_decide (mTcpNumber u = Some 0) then None else mTcpNumber u) (mSpeed u) (mConns u)
    (if bool_decide (mHostNumber u = Some 0) then None else mHostNumber u) (if bool_decide (mRegex u = Some []) then None else mRegex u)
    (if bool_decide (mWithID u = Some false) then None else mWithID u).
(* the server's own values *)
Record globals := mkGlobals { gTcpNumber : N; gSpeed : N; gConns : N; gHostNumber : N; gRegex : list bytes; gWithID : bool }.
(* what the user may do: server.go 935-940, 1005-1035 *)
Record rights := mkRights { rSecret : bytes; rTcps : list bytes; rTcpNumber : N; rSpeed : N; rConns : N; rHostNumber : N; rRegex : list bytes; rWithID : bool }.
Definition rights_of (g : globals) (u : muser) : rights :=
  mkRights (mSecret u) (mTcps u) (default (gTcpNumber g) (mTcpNumber u)) (if mSpeed u =? 0 then gSpeed g else mSpeed u)
    (if mConns u =? 0 then gConns g else mConns u) (default (gHostNumber g) (mHostNumber u)) (default (gRegex g) (mRegex u)) (default (gWithID g) (mWithID u)).

(* ---- the services of a client: client/config.go 166-176; [vLocal]: the URL as text *)
Record mservice := mkMservice { vHost : bytes; vTcpPort : N; vRandom : option bool; vLocal : bytes; vTimeout : Z; vUseLocal : bool }.
(* map.ts 80-93, interface/index.ts 236-243, 258-267; ServiceSetting.vue: LocalURL.Addr.trim() of an undefined address throws *)
Definition page_service (s : mservice) : option mservice :=
  match split2 (vLocal s) with
  | (_, None) => None
  | x => if negb (first_ok (vLocal s)) then None
         else if bool_decide (x.1 = bs "tcp") && (vTcpPort s =? 0) && negb (bool_decide (vRandom s = Some true)) then None
         else d ← page_dur (vTimeout s); Some (mkMservice (vHost s) (vTcpPort s) (vRandom s) (rejoin x) d (vUseLocal s))
  end.
(* client service.go: SeparateConfig *)
Definition separate_service (s : mservice) : mservice :=
  mkMservice (vHost s) (vTcpPort s) (if bool_decide (vRandom s = Some false) then None else vRandom s) (vLocal s) (vTimeout s) (vUseLocal s).
