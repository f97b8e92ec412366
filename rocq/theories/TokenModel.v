(* TokenModel.v -- web/server/tokenManager.go: the temporary keys that open the web UI *)
From Verif Require Import GoBase.
Local Open Scope Z_scope.

(* tokenManager.go 10-15, 16-20.  Times and durations in nanoseconds; the counters are Go ints (not wrapped: UseCount never
   exceeds MaxUse, C40_at_most_max_use) *)
Record keyDetails := mkKey { kExpireAt : Z; kUseCount : Z; kMaxUse : Z; kToken : bytes }.
Record tmConfig := mkTmConfig { cMaxUse : Z; cExpire : Z }.
Notation tm := (gmap bytes keyDetails).

(* 49-61 [GenerateTempKey], at time [now]; [key] is the random string of line 53 (util/random.go 30-41: any string may
   come out, so it is an argument) *)
Definition generate (c : tmConfig) (now : Z) (key token : bytes) (m : tm) : tm :=
  <[key := mkKey (now + cExpire c) 0 (cMaxUse c) token]> m.

(* 63-84 [GetActualToken]; None = an error, which the handler (server/web/api/api.go 46-50) answers with InvalidKey *)
Definition get_token (now : Z) (key : bytes) (m : tm) : option bytes * tm :=
  match m !! key with
  | None => (None, m)                                                            (* 67-70 *)
  | Some d =>
      if kExpireAt d <? now then (None, delete key m)                            (* 72-75: Before is strict *)
      else if kUseCount d >=? kMaxUse d then (None, delete key m)                (* 77-80 *)
      else (Some (kToken d), <[key := mkKey (kExpireAt d) (kUseCount d + 1) (kMaxUse d) (kToken d)]> m)   (* 82-83 *)
  end.

(* Both run under tm.mtx, so every execution is a sequence of whole operations. *)
Inductive top := Gen (now : Z) (key token : bytes) | Use (now : Z) (key : bytes).
(* the executed operations with what each returned (a Gen returns nothing of interest) *)
Fixpoint trun (c : tmConfig) (m : tm) (ops : list top) : list (top * option bytes) :=
  match ops with
  | [] => []
  | Gen now key token :: ops => (Gen now key token, None) :: trun c (generate c now key token m) ops
  | Use now key :: ops => let '(r, m') := get_token now key m in (Use now key, r) :: trun c m' ops
  end.
