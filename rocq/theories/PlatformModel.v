(* PlatformModel.v -- authentication by the platform (-authAPI): server/server.go 588-642 (authParam, authWithAPI), 823-850 (authUserWithAPI), server/conn.go 427-484
   (handleTunnel without authUser).  The grant's filter is HandshakeModel.api_filter, the registry RegModel.hand, the limiter AuthModel.lstep.

   The platform's answer is what github.com/buger/jsonparser finds in it: GetBoolean(r, "result"), and the values that ArrayEach(r, ..., "appletTokens") visits, as
   text: a string is what stands between its quotes, escapes as they are.  A value that is not an array, null for instance, is MalformedArrayError; so is an
   array that is cut off, after its good values.  Left out: the Request-Id header, the text of the errors, how long the platform takes (http.Client.Timeout ends
   the request: NoReply). *)
From Verif Require Import GoBase HandshakeModel TcpModel RegModel AuthModel.
Local Open Scope N_scope.

(* server.go 590-594, as the platform reads it *)
Record asked := mkAsked { qId : bytes; qSecret : bytes; qPrefixes : list bytes }.
(* encoding/json writes a byte that is not part of valid UTF-8 as U+FFFD *)
Definition REPLACEMENT : bytes := [239; 191; 189].
Fixpoint to_valid (s : bytes) : bytes :=
  let tail b := (128 <=? b) && (b <=? 191) in
  match s with
  | [] => []
  | a :: s1 =>
    if a <? 128 then a :: to_valid s1 else
    match s1 with
    | [] => REPLACEMENT
    | b :: s2 =>
      if (194 <=? a) && (a <=? 223) && tail b then a :: b :: to_valid s2 else
      match s2 with
      | [] => REPLACEMENT ++ to_valid s1
      | c :: s3 =>
        if ((a =? 224) && (160 <=? b) && (b <=? 191) || (a =? 237) && (128 <=? b) && (b <=? 159)
            || (225 <=? a) && (a <=? 239) && negb (a =? 237) && tail b) && tail c then a :: b :: c :: to_valid s3 else
        match s3 with
        | [] => REPLACEMENT ++ to_valid s1
        | d :: s4 =>
          if ((a =? 240) && (144 <=? b) && (b <=? 191) || (a =? 244) && (128 <=? b) && (b <=? 143)
              || (241 <=? a) && (a <=? 243) && tail b) && tail c && tail d then a :: b :: c :: d :: to_valid s4
          else REPLACEMENT ++ to_valid s1
        end
      end
    end
  end.
(* 597-606 *)
Definition question (id secret : bytes) (prefixes : list bytes) : asked := mkAsked (to_valid id) (to_valid secret) (to_valid <$> prefixes).

Inductive tokens :=
  | TNone                                   (* no key appletTokens *)
  | TArray (l : list bytes) (whole : bool)  (* the values visited; whole: the array has an end *)
  | TOther.                                 (* not an array *)
Inductive reply :=
  | NoReply                                 (* no connection, no answer in time, or its body cannot be read *)
  | Reply (status : N) (result : option bool) (t : tokens).   (* result: None is an error of GetBoolean *)
Inductive verdict := VErr | VNo | VYes (granted : list bytes).
(* 617-641; [granted] starts with the id itself *)
Definition auth_with_api (id : bytes) (r : reply) : verdict :=
  match r with
  | NoReply => VErr
  | Reply status result t =>
      if negb (status =? 200) then VErr
      else match result with
           | None => VErr
           | Some false => VNo
           | Some true => match t with
                          | TNone => VYes [id]
                          | TArray l true => VYes (id :: l)
                          | TArray _ false | TOther => VErr
                          end
           end
  end.
(* 823-850: the prefixes of the user, none for the self-test's *)
Definition auth_user_api (a : apisrv) (platform : asked -> reply) (id secret : bytes) (prefixes : list bytes) : option (list bytes) :=
  if (blen id <? 1) || (blen secret <? 1) then None
  else match auth_with_api id (platform (question id secret prefixes)) with
       | VErr => None
       | VNo => if api_auth a id secret then Some [] else None
       | VYes granted => Some granted
       end.
(* server/conn.go 446-465: which handshakes count against their sender's address *)
Definition counted (r : hs_result) : bool := match r with HsAuthFailed _ _ => true | _ => false end.
