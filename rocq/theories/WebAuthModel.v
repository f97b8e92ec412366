(* WebAuthModel.v -- who may do what on the web page: server/web/web.go 147-222 (setRoutes), 86-104 (checkConfig), 304-338
   (isFirstStart, getTempKey), server/web/api/api.go 18-83 (Login, VerifyTempKey, ChangeUserInfo), service.go 20-26,
   web/server/middleware/jwt.go 10-28, web/server/util/jwt.go; client/web is the same.

   Simplifications: gin's router is an exact match on method and path, with /static/ by prefix (GET) and the index page for
   everything else; the JWT library is ideal: a text is accepted with a key iff it was signed with that key (and the time
   fits), and nobody but the process signs with its key -- see [w_request].  Times in seconds, as in the claims. *)
From Coq Require Import Strings.String.
From Verif Require Import GoBase FlagsModel TokenModel.
Local Open Scope N_scope.

Inductive handler :=
  | HLogin | HHealth | HVerify                                   (* public *)
  | HStatic | HIndex                                             (* the page itself *)
  | HChangeUser | HUserInfo | HRunningConfig | HFileConfig | HSaveConfig
  | HServerInfo | HRestart | HStop | HKill | HConnections | HMenu
  | HPprof (what : bytes).
#[global] Instance handler_eq_dec : EqDecision handler. Proof. solve_decision. Defined.
(* what an administrator does *)
Definition administrative (h : handler) : Prop :=
  match h with HLogin | HHealth | HVerify | HStatic | HIndex => False | _ => True end.

Definition GET := bs "GET". Definition POST := bs "POST". Definition PUT := bs "PUT".
(* web.go 154-158 *)
Definition public_routes : list (bytes * bytes * handler) :=
  [(POST, bs "/api/login", HLogin); (GET, bs "/api/health", HHealth); (GET, bs "/api/verify", HVerify)].
(* web.go 161-193: behind the middleware *)
Definition guarded_routes : list (bytes * bytes * handler) :=
  [(POST, bs "/api/user/change", HChangeUser); (GET, bs "/api/user/info", HUserInfo);
   (GET, bs "/api/config/running", HRunningConfig); (GET, bs "/api/config/file", HFileConfig); (POST, bs "/api/config/save", HSaveConfig);
   (GET, bs "/api/server/info", HServerInfo); (PUT, bs "/api/server/restart", HRestart); (PUT, bs "/api/server/stop", HStop);
   (PUT, bs "/api/server/kill", HKill); (GET, bs "/api/connection/list", HConnections); (GET, bs "/api/permission/menu", HMenu)].
(* web.go 195-211 *)
Definition pprof_routes : list (bytes * bytes * handler) :=
  ((fun n => (GET, bs "/debug/pprof/" ++ n, HPprof n)) <$> (bs <$> [""; "cmdline"; "profile"; "symbol"; "trace"; "allocs"; "block"; "goroutine";
     "heap"; "mutex"; "threadcreate"]%string)) ++ [(POST, bs "/debug/pprof/symbol", HPprof (bs "symbol"))].
Definition lookup_route (rs : list (bytes * bytes * handler)) (m p : bytes) : option handler :=
  match find (fun r => bool_decide (r.1 = (m, p))) rs with Some r => Some r.2 | None => None end.
Definition is_static (m p : bytes) : bool := bool_decide (m = GET) && bool_decide (bs "/static/" `prefix_of` p).

(* jwt.go 24-46: the claims that matter: the user, NotBefore (= IssuedAt) and ExpiresAt *)
Record claims := mkClaims { jUser : bytes; jFrom : N; jUntil : N }.
Definition tokenDuration : N := 1800.                                  (* predef.DefaultTokenDuration *)
Definition new_claims (now : N) (user : bytes) : claims := mkClaims user now (now + tokenDuration).
(* jwt.go 48-60 with the validation of jwt/v5: not before NotBefore, before ExpiresAt.  [sign k c] is the text of the signed
   token; [unsign k s]: what s says if it was signed with k *)
Record codec := mkCodec { sign : bytes -> claims -> bytes; unsign : bytes -> bytes -> option claims }.
Definition ideal (J : codec) : Prop := forall k s c, unsign J k s = Some c <-> s = sign J k c.
Definition token_ok (J : codec) (key : bytes) (now : N) (tok : bytes) : bool :=
  match unsign J key tok with Some c => (jFrom c <=? now) && (now <? jUntil c) | None => false end.

(* the running process: signing key, administrator, -pprof, and the temporary keys *)
Record wproc := mkW { wKey : bytes; wAdmin : bytes; wPass : bytes; wPprof : bool }.
(* web.go 304-318 [isFirstStart]; r1, r2 are random strings of 8 letters *)
Definition first_start (r1 r2 : bytes) (w : wproc) : wproc * bool :=
  (mkW (wKey w) (if bool_decide (wAdmin w = []) then r1 else wAdmin w) (if bool_decide (wPass w = []) then r2 else wPass w) (wPprof w),
   bool_decide (wAdmin w = []) || bool_decide (wPass w = [])).

(* a request: the header x-token ("" = none), the user and password of a login or change, the key of /api/verify *)
Record request := mkRq { qMethod : bytes; qPath : bytes; qToken : bytes; qUser : bytes; qPass : bytes; qKey : bytes }.
(* the answers that matter *)
Inductive answer := Done | Handed (tok : bytes) | Unauthorised | Failed401.

(* middleware/jwt.go 11-27 and the handlers: which handler runs (None: aborted), the answer, the temporary keys *)
Definition ns (t : N) : Z := Z.of_N t * 1000000000.
Definition run_handler (J : codec) (w : wproc) (now : N) (q : request) (h : handler) (m : tm) : answer * tm :=
  match h with
  | HLogin => (if bool_decide (qUser q = wAdmin w) && bool_decide (qPass q = wPass w) then Handed (sign J (wKey w) (new_claims now (qUser q))) else Failed401, m)
  | HVerify => match qKey q with
               | [] => (Failed401, m)
               | k => match get_token (ns now) k m with (Some tok, m) => (Handed tok, m) | (None, m) => (Failed401, m) end
               end
  | HChangeUser => (Handed (sign J (wKey w) (new_claims now (qUser q))), m)   (* the file is written (C60); the running process is as before *)
  | _ => (Done, m)
  end.
Definition respond (J : codec) (w : wproc) (now : N) (q : request) (m : tm) : option handler * answer * tm :=
  let run h := let '(a, m) := run_handler J w now q h m in (Some h, a, m) in
  match lookup_route public_routes (qMethod q) (qPath q) with
  | Some h => run h
  | None =>
    match lookup_route guarded_routes (qMethod q) (qPath q) with
    | Some h => if bool_decide (qToken q = []) then (None, Unauthorised, m)
                else if token_ok J (wKey w) now (qToken q) then run h else (None, Unauthorised, m)
    | None =>
      match (if wPprof w then lookup_route pprof_routes (qMethod q) (qPath q) else None) with
      | Some h => run h
      | None => run (if is_static (qMethod q) (qPath q) then HStatic else HIndex)
      end
    end
  end.

(* the process in time.  [sNow]; [sOut]: the texts it has handed to anybody *)
Record wst := mkWs { sNow : N; sTm : tm; sOut : list bytes }.
Inductive wevt := WTick | WReq (now : N) (q : request) (h : option handler) (a : answer).
(* web.go 68-76, 320-331: at the first start a token is made and put behind a temporary key (3 uses, 3 minutes) *)
Definition wst0 (J : codec) (w : wproc) (t0 : N) (tempkey : option bytes) : wst :=
  mkWs t0 match tempkey with
          | Some k => generate (mkTmConfig 3 180000000000) (ns t0) k (sign J (wKey w) (new_claims t0 (wAdmin w))) ∅
          | None => ∅
          end [].
Inductive wstep (J : codec) (w : wproc) : wst -> wevt -> wst -> Prop :=
  | w_tick now m out : wstep J w (mkWs now m out) WTick (mkWs (now + 1) m out)
  (* a token signed with this key comes from this process: nobody else has the key *)
  | w_request now m out q h a m' : (forall c, unsign J (wKey w) (qToken q) = Some c -> qToken q ∈ out) -> respond J w now q m = (h, a, m') ->
      wstep J w (mkWs now m out) (WReq now q h a) (mkWs now m' (match a with Handed tok => [tok] | _ => [] end ++ out)).
Inductive wexec (J : codec) (w : wproc) (s0 : wst) : list wevt -> wst -> Prop :=
  | wx_nil : wexec J w s0 [] s0
  | wx_snoc tr s e s' : wexec J w s0 tr s -> wstep J w s e s' -> wexec J w s0 (tr ++ [e]) s'.
