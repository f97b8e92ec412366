(* AuthModel.v -- who may open a tunnel: server/config.go 173-240, server/server.go 341-384 and 794-899,
   server/api/server.go 52-126, server/conn.go 138-149 and 397-425 *)
From Verif Require Import GoBase.
Local Open Scope N_scope.

(* server/config.go 154-166 [user].  [uLimits] stands for TCPs, TCPNumber, Speed, Connections, Host and portsManager,
   which authentication only passes on. *)
Record user := mkUser { uSecret : bytes; uTemp : bool; uLimits : N }.
Notation users := (gmap (list N) user).

(* server/config.go 191-206 [verify]: some entry is wrong iff the result is an error, whatever the Range order *)
Definition entry_ok (id : bytes) (u : user) : bool :=
  negb ((blen id <? 1) || (200 <? blen id)) && negb ((blen (uSecret u) <? 1) || (200 <? blen (uSecret u))).
Definition verify (m : users) : bool := bool_decide (map_Forall (fun id u => entry_ok id u = true) m).

Inductive merge_res := MOk (m : users) | MErr | MPanic.
(* 174-177: for id, ud := range users { udCopy := *ud; ... } in some order; a nil *user panics *)
Fixpoint store_all (l : list (bytes * option user)) (m : users) : option users :=
  match l with
  | [] => Some m
  | (id, None) :: _ => None
  | (id, Some u) :: l => store_all l (<[id := u]> m)
  end.
(* 182-186 *)
Fixpoint store_ids (ids secrets : list bytes) (limits : N) (m : users) : users :=
  match ids, secrets with
  | id :: ids, s :: secrets => store_ids ids secrets limits (<[id := mkUser s false limits]> m)
  | _, _ => m
  end.
(* server/config.go 173-189 [mergeUsers]; limits 0 = none given *)
Definition merge_users (m : users) (l : list (bytes * option user)) (ids secrets : list bytes) : merge_res :=
  match store_all l m with
  | None => MPanic
  | Some m =>
      if negb (length ids =? length secrets)%nat then MErr
      else let m := store_ids ids secrets 0 m in
           if verify m then MOk m else MErr
  end.
(* server/server.go 343-355 (Start): the users of the configuration, then those of the users file and of the command line *)
Definition start_users (conf file : list (bytes * option user)) (ids secrets : list bytes) : merge_res :=
  match merge_users ∅ conf [] [] with
  | MOk m => merge_users m file ids secrets
  | r => r
  end.

(* server/server.go 370-383 *)
Inductive mode := ModeAPI | ModeAnyEmpty | ModeConfig | ModeAnyTable.
Definition pick_mode (authAPI allowAny : bool) (m : users) : mode :=
  if authAPI then ModeAPI
  else if decide (m = ∅) then ModeAnyEmpty
  else if negb allowAny then ModeConfig
  else ModeAnyTable.

(* api.Server: None = no API server; the ID and secret are both "" except during a self-test (server/api/server.go 52-67, 129-139) *)
Notation apisrv := (option (bytes * bytes)).
(* server/api/server.go 123-126 *)
Definition api_auth (a : apisrv) (id secret : bytes) : bool :=
  match a with None => false | Some (i, s) => bool_decide (id = i) && bool_decide (secret = s) end.

Section A.
Context (global : N).   (* the limits of the server's configuration *)
(* server/server.go 814-822 *)
Definition api_user : user := mkUser [] false global.

(* server/config.go 216-230 [users.auth] *)
Definition table_auth (m : users) (id secret : bytes) : option user :=
  match m !! id with
  | None => None
  | Some u => if decide (uSecret u = secret) then Some u else None
  end.
(* server/server.go 797-812 [authUserWithConfig] *)
Definition auth_config (m : users) (a : apisrv) (id secret : bytes) : option user :=
  if (blen id <? 1) || (blen secret <? 1) then None
  else match table_auth m id secret with
       | Some u => Some u
       | None => if api_auth a id secret then Some api_user else None
       end.
(* server/server.go 852-880 [authUserOrCreateUser]; LoadOrCreate is atomic *)
Definition auth_any (m : users) (a : apisrv) (id secret : bytes) : option user * users :=
  if api_auth a id secret then (Some api_user, m)
  else
    let '(u, m) := match m !! id with
                   | Some u => (u, m)
                   | None => let u := mkUser secret true global in (u, <[id := u]> m)
                   end in
    (if decide (uSecret u = secret) then Some u else None, m).
(* server/server.go 882-899 [removeClient], the part about users *)
Definition remove_user (md : mode) (m : users) (id : bytes) : users :=
  match md with
  | ModeAPI | ModeConfig => m
  | ModeAnyEmpty => delete id m
  | ModeAnyTable => match m !! id with
                    | Some u => if uTemp u then delete id m else m
                    | None => m
                    end
  end.

(* ---- the life of an ID in allow-any mode, as the interleaving of the atomic steps of the connections ---- *)
(* [hPending]: connections that were admitted by authUser and have not reached addTunnel (server/conn.go 401-492);
   [hLive]: the tunnels of each client, with the secret they presented. *)
Record hstate := mkH { hUsers : users; hPending : list (bytes * bytes); hLive : list (bytes * bytes) }.
Inductive hstep_ev :=
  | HAuth (id secret : bytes)     (* a connection presents its credentials *)
  | HAdd (i : nat)                (* the i-th pending connection becomes a tunnel (addTunnel) *)
  | HDrop (i : nat)               (* the i-th pending connection fails before that *)
  | HClose (i : nat).             (* the i-th live tunnel goes away (removeTunnel) *)
Definition removeNth {A} (i : nat) (l : list A) : list A := take i l ++ drop (S i) l.
(* new state and, for HAuth, whether the connection was admitted *)
Definition hstep (md : mode) (a : apisrv) (st : hstate) (e : hstep_ev) : hstate * option bool :=
  match e with
  | HAuth id secret =>
      let '(r, m) := auth_any (hUsers st) a id secret in
      match r with
      | Some _ => (mkH m (hPending st ++ [(id, secret)]) (hLive st), Some true)
      | None => (mkH m (hPending st) (hLive st), Some false)
      end
  | HAdd i => match hPending st !! i with
              | Some c => (mkH (hUsers st) (removeNth i (hPending st)) (hLive st ++ [c]), None)
              | None => (st, None)
              end
  | HDrop i => (mkH (hUsers st) (removeNth i (hPending st)) (hLive st), None)
  | HClose i => match hLive st !! i with
                | Some (id, s) =>
                    let live := removeNth i (hLive st) in
                    (* server/client.go 269-276: removeClient only when it was the last tunnel of that client *)
                    (mkH (if decide (Exists (fun c => fst c = id) live) then hUsers st else remove_user md (hUsers st) id)
                         (hPending st) live, None)
                | None => (st, None)
                end
  end.
Fixpoint hrun (md : mode) (a : apisrv) (st : hstate) (es : list hstep_ev) : hstate :=
  match es with [] => st | e :: es => hrun md a (fst (hstep md a st e)) es end.
End A.

(* ---- the brute-force limiter ---- *)
(* server/conn.go 138-149 and 402-420 (also 447-465): s.reconnect, and the pending time.AfterFunc calls *)
Record lstate := mkL { lCount : gmap N N; lTimers : list N }.
Inductive lev :=
  | LFail (ip : N)        (* one failed authentication, counted under the lock *)
  | LFire (ip : N).       (* a pending timer of that IP fires *)
Section L.
Context (times : N) (release : bool).   (* config.ReconnectTimes; config.ReconnectDuration > 0 *)
(* server/conn.go 141-147: is a connection from ip refused *)
Definition limited (st : lstate) (ip : N) : bool := times <? default 0 (lCount st !! ip).
Fixpoint remove_one (x : N) (l : list N) : list N :=
  match l with [] => [] | y :: l => if y =? x then l else y :: remove_one x l end.
Definition lstep (st : lstate) (e : lev) : lstate :=
  match e with
  | LFail ip =>
      let n := u32 (default 0 (lCount st !! ip) + 1) in
      mkL (<[ip := n]> (lCount st)) (if release && (times <? n) then lTimers st ++ [ip] else lTimers st)
  | LFire ip => mkL (<[ip := 0]> (lCount st)) (remove_one ip (lTimers st))
  end.
(* a timer can only fire if it is pending *)
Inductive lreach : list lev -> lstate -> Prop :=
  | lr_init : lreach [] (mkL ∅ [])
  | lr_fail es st ip : lreach es st -> lreach (es ++ [LFail ip]) (lstep st (LFail ip))
  | lr_fire es st ip : lreach es st -> ip ∈ lTimers st -> lreach (es ++ [LFire ip]) (lstep st (LFire ip)).
End L.
