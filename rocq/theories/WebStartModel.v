(* WebStartModel.v -- how the web interface is brought up: client/web/web.go 40-149 (NewWebServer, checkConfig, getServer), 225-303 (start), 305-322 (isFirstStart),
   server/web/web.go (the same text), web/server/util/browser.go 38-60 (the URL), lib/client/client.go 24-29, lib/server/server.go 24-29 (StartWebServer),
   lib/export/lib.go 66-69, 139-142 (what is done with its error).
   net.SplitHostPort is modelled as it is in Go's library, net.Listen refuses what SplitHostPort refuses; tls.LoadX509KeyPair, os.Stat and the answers of
   the kernel to listening are inputs.  Left out: the routes (WebAuthModel), the log file, the default config path and the signing key that checkConfig fills in. *)
From Coq Require Import Strings.String.
From Verif Require Import GoBase FlagsModel.
Local Open Scope N_scope.

Definition COLON : N := 58.
Definition LBRK : N := 91.
Definition RBRK : N := 93.
Definition AUTO : bytes := bs "auto".

(* the options that matter *)
Record wopts := mkW { wAddr : bytes; wCert : bytes; wKey : bytes; wAdmin : bytes; wPass : bytes }.

(* the machine: does os.Stat find the file; does the pair of files load; what does the kernel say to a listen on an address *)
Inductive lres := LFree            (* nobody has the address *)
                | LShared          (* others have it, with SO_REUSEPORT, as every gt does: the listen succeeds *)
                | LInUse           (* EADDRINUSE *)
                | LFail.           (* any other error *)
Record machine := mkM { mStat : bytes -> bool; mLoad : bytes -> bytes -> bool }.

(* checkConfig, web.go 85-110: None is the error; the address it leaves in the configuration *)
Definition check_config (m : machine) (w : wopts) : option bytes :=
  if bool_decide (wAddr w = []) then None
  else let addr := if bool_decide (COLON ∈ wAddr w) then wAddr w else COLON :: wAddr w in
  if negb (bool_decide (wCert w = [])) && negb (bool_decide (wKey w = [])) then
    if negb (bool_decide (wCert w = AUTO)) && negb (bool_decide (wKey w = AUTO)) then
      if mStat m (wCert w) && mStat m (wKey w) then Some addr else None
    else Some addr
  else Some addr.

(* getServer, 112-149: enableTLS, or None for the error *)
Definition get_server (m : machine) (w : wopts) : option bool :=
  if bool_decide (wCert w = []) && bool_decide (wKey w = []) then Some false
  else if bool_decide (wCert w = AUTO) && bool_decide (wKey w = AUTO) then Some true
  else if mLoad m (wCert w) (wKey w) then Some true else None.

(* net.SplitHostPort (Go 1.20): the host, or None for an error *)
Fixpoint last_colon (s : bytes) : option (bytes * bytes) :=      (* what is before and behind the last colon *)
  match s with
  | [] => None
  | c :: s' => match last_colon s' with
               | Some (a, b) => Some (c :: a, b)
               | None => if c =? COLON then Some ([], s') else None
               end
  end.
Fixpoint cut_at (x : N) (s : bytes) : option (bytes * bytes) :=  (* before and behind the first x *)
  match s with
  | [] => None
  | c :: s' => if c =? x then Some ([], s') else '(a, b) ← cut_at x s'; Some (c :: a, b)
  end.
Definition split_host_port (s : bytes) : option bytes :=
  '(h, p) ← last_colon s;
  match s with
  | c :: s' =>
      if c =? LBRK then
        '(host, rest) ← cut_at RBRK s';                              (* missing ']' *)
        match rest with
        | d :: p' => if (d =? COLON) && bool_decide (p' = p)         (* the bracket ends right before the last colon *)
                     then if bool_decide (LBRK ∈ s') || bool_decide (RBRK ∈ rest) then None else Some host
                     else None
        | [] => None
        end
      else if bool_decide (COLON ∈ h) then None
      else if bool_decide (LBRK ∈ s) || bool_decide (RBRK ∈ s) then None else Some h
  | [] => None
  end.
(* net.Listen: an address that does not split is an error, otherwise the kernel answers *)
Definition listen (addr : bytes) (r : lres) : lres := match split_host_port addr with None => LFail | Some _ => r end.

(* start, 230-259, with no arguments: the loop over the kernel's answers.  Ended: the goroutine returns and nobody serves; Listening a b: on a, others too *)
Inductive lstate := Ended | Listening (addr : bytes) (shared : bool) | Looping.
Fixpoint listen_loop (rs : list lres) (addr : bytes) : lstate :=
  match rs with
  | [] => Looping
  | r :: rs' => match listen addr r with
                | LFree => Listening addr false
                | LShared => Listening addr true
                | LInUse => match split_host_port addr with
                            | None => Ended
                            | Some host => listen_loop rs' (host ++ bs ":0")      (* 250-256 *)
                            end
                | LFail => Ended
                end
  end.

(* SwitchToValidWebURL, browser.go 38-57, without the last look of url.Parse, whose error the caller drops (66) *)
Definition web_url (addr : bytes) (tls : bool) : bytes :=
  let addr := if bool_decide (COLON ∈ addr) then addr else COLON :: addr in
  let addr := match addr with c :: _ => if c =? COLON then bs "localhost" ++ addr else addr | [] => addr end in
  if negb (bool_decide (bs "http://" `prefix_of` addr)) && negb (bool_decide (bs "https://" `prefix_of` addr))
  then (if tls then bs "https://" else bs "http://") ++ addr else addr.
(* CreateUrlWithTempKey, 58-60 *)
Definition url_with_key (url key : bytes) : bytes := url ++ bs "/#/verify?key=" ++ key.
(* isFirstStart, web.go 306-320; key is what getTempKey returns, None its error *)
Definition first_start (w : wopts) : bool := bool_decide (wAdmin w = []) || bool_decide (wPass w = []).
Definition ready_url (w : wopts) (addr : bytes) (tls : bool) (key : option bytes) : bytes :=
  let u := web_url addr tls in
  if first_start w then match key with Some k => url_with_key u k | None => u end else u.

(* What comes of StartWebServer.  Refused: an error is returned and gt ends with it; NotServed: no error, and nothing is served; Serves addr tls shared url:
   requests to addr are served, with TLS or without, and url is logged and opened in the browser *)
Inductive outcome := Absent | Refused | NotServed | StillTrying | Serves (addr : bytes) (tls shared : bool) (url : bytes).
(* lib/client/client.go 24-29; NewWebServer 40-83; start 225-303 *)
Definition start_web (m : machine) (w : wopts) (noargs : bool) (key : option bytes) (rs : list lres) : outcome :=
  if bool_decide (wAddr w = []) then Absent
  else match check_config m w with
  | None => Refused
  | Some addr =>
      match get_server m w with
      | None => Refused
      | Some tls =>
          if noargs then
            match listen_loop rs addr with
            | Ended => NotServed
            | Looping => StillTrying
            | Listening a sh => Serves a false sh (ready_url w addr tls key)      (* 258-262: Serve, and the URL of ws.server.Addr *)
            end
          else match rs with
               | [] => StillTrying
               | r :: _ => match listen addr r with
                           | LFree => Serves addr tls false (ready_url w addr tls key)  (* 266-301 *)
                           | LShared => Serves addr tls true (ready_url w addr tls key)
                           | _ => NotServed
                           end
               end
      end
  end.
