(* StatusModel.v -- server/api/server.go: status 84-95, randomIDSecret 107-120, Auth 123-126, check 128-230, by many requests and many tunnels
   that authenticate at once.  Simplified: the body is read, stored and written (223-228), and the cache tested and written (142-147), at one
   moment; times in milliseconds; a probe is an error (from client.New to ReadAll) or the response that came through the tunnel; writing to the
   one who asked does not fail. *)
From Verif Require Import GoBase.
Local Open Scope N_scope.

Inductive spc := PGen | PSec (id : bytes) | PTest | PProbe | PClrId (ok : bool) | PClrSec (ok : bool).
Record answer := mkAns { aTime : N; aReq : N; aCode : N; aBody : bytes }.
Record probe := mkProbe { pTime : N; pCode : N; pBody : bytes }.
Record sst := mkSt {
  tNow : N;
  tHolder : option (N * spc);       (* who holds checkTunnelMtx, and where *)
  tFail : list N;                   (* check has returned an error, status has not yet written it *)
  tSeen : list N;                   (* requests that have begun *)
  tId : bytes; tSec : bytes;        (* s.id, s.secret *)
  tCache : bytes; tCacheAt : option N;
  tAuth : list (N * (bytes * bytes));  (* Auth calls that have compared the id, with what they were given *)
  tAnswers : list answer;
  tProbes : list probe;             (* every response that came through the tunnel *)
  tAccepted : list (bytes * bytes) }.  (* what Auth has accepted *)
Definition st0 : sst := mkSt 0 None [] [] [] [] [] None [] [] [] [].
Inductive tev :=
  | TTick (d : N)
  | TLock (r : N)                               (* 129 *)
  | TGen (r : N) (cands table : list bytes)     (* 108-116: the strings RandomString gives, the users there are; the id is stored *)
  | TSecret (r : N) (sec : bytes)               (* 117 *)
  | TTest (r : N)                               (* 142-147 *)
  | TProbe (r : N) (out : option (N * bytes))   (* 149-229 *)
  | TClrId (r : N) | TClrSec (r : N)            (* 136-139, and the unlock *)
  | TFail (r : N)                               (* 87-90 *)
  | TAuthId (a : N) (id sec : bytes)            (* 124, the first comparison *)
  | TAuthSec (a : N).                           (* ... the second *)
Definition failed_body : bytes := [102; 97; 105; 108; 101; 100].   (* "failed", for the whole text *)
(* 108-113: the first of ten that is no user's *)
Definition choose (cands table : list bytes) : option bytes := snd <$> list_find (fun c => c ∉ table) (take 10 cands).
(* 142-144 *)
Definition fresh (s : sst) : bool := match tCache s, tCacheAt s with _ :: _, Some t => tNow s - t <=? 15000 | _, _ => false end.
Definition tstep (s : sst) (e : tev) : option sst :=
  match s with mkSt now h fl seen id sec c ct au ans pr acc =>
  match e with
  | TTick d => Some (mkSt (now + d) h fl seen id sec c ct au ans pr acc)
  | TLock r => match h with
               | None => if decide (r ∈ seen) then None else Some (mkSt now (Some (r, PGen)) fl (r :: seen) id sec c ct au ans pr acc)
               | Some _ => None
               end
  | TGen r cands table => match h with
      | Some (r', PGen) => if r =? r' then match choose cands table with
            | Some i => Some (mkSt now (Some (r, PSec i)) fl seen i sec c ct au ans pr acc)
            | None => Some (mkSt now None (r :: fl) seen id sec c ct au ans pr acc)
            end else None
      | _ => None
      end
  | TSecret r sec' => match h with Some (r', PSec i) => if r =? r' then Some (mkSt now (Some (r, PTest)) fl seen id sec' c ct au ans pr acc) else None | _ => None end
  | TTest r => match h with
      | Some (r', PTest) => if r =? r' then if fresh s
            then Some (mkSt now (Some (r, PClrId true)) fl seen id sec c ct au (ans ++ [mkAns now r 200 c]) pr acc)
            else Some (mkSt now (Some (r, PProbe)) fl seen id sec c ct au ans pr acc) else None
      | _ => None
      end
  | TProbe r out => match h with
      | Some (r', PProbe) => if r =? r' then match out with
            | None => Some (mkSt now (Some (r, PClrId false)) fl seen id sec c ct au ans pr acc)
            | Some (code, b) => Some (mkSt now (Some (r, PClrId true)) fl seen id sec b (Some now) au (ans ++ [mkAns now r 200 b]) (pr ++ [mkProbe now code b]) acc)
            end else None
      | _ => None
      end
  | TClrId r => match h with Some (r', PClrId ok) => if r =? r' then Some (mkSt now (Some (r, PClrSec ok)) fl seen [] sec c ct au ans pr acc) else None | _ => None end
  | TClrSec r => match h with Some (r', PClrSec ok) => if r =? r' then Some (mkSt now None (if ok then fl else r :: fl) seen id [] c ct au ans pr acc) else None | _ => None end
  | TFail r => if decide (r ∈ fl) then Some (mkSt now h (List.filter (fun x => negb (x =? r)) fl) seen id sec c ct au (ans ++ [mkAns now r 503 failed_body]) pr acc) else None
  | TAuthId a i k => if bool_decide (i = id) then Some (mkSt now h fl seen id sec c ct ((a, (i, k)) :: au) ans pr acc) else Some s
  | TAuthSec a => match list_find (fun x => x.1 = a) au with
      | Some (p, (_, (i, k))) => Some (mkSt now h fl seen id sec c ct (delete p au) ans pr (if bool_decide (k = sec) then acc ++ [(i, k)] else acc))
      | None => None
      end
  end
  end.
Fixpoint trun (s : sst) (es : list tev) : option sst :=
  match es with [] => Some s | e :: es => s ← tstep s e; trun s es end.
