(* ReloadModel.v -- how ReloadServices waits for the tunnels: client/client.go 900-990 (ReloadServices), client/conn.go
   169-180 (the end of readLoop), 249-268 (ServicesSignal, ErrorSignal), sync.WaitGroup. *)
From Verif Require Import GoBase.
Local Open Scope N_scope.

(* where ReloadServices stands.  RNot: not running; RLoop: before the next iteration of the loop 976-983, with the tunnels
   that are left; RWritten: 977 has written to the tunnel, 982 [reloadWaitGroup.Add(1)] has not been executed;
   RWait: in 988 [reloadWaitGroup.Wait()] *)
Inductive rpc := RNot | RLoop (todo : list N) | RWritten (t : N) (todo : list N) | RWait.

(* [wWg]: the counter of reloadWaitGroup; [wLive]: the tunnels whose readLoop is running and has seen ReadySignal;
   [wSet]: c.tunnels; [wOwed]: for each configuration that is on its way and not answered, its tunnel;
   [wExit]: the process has ended (986) *)
Record rst := mkR { wPc : rpc; wWg : Z; wLive : gset N; wSet : gset N; wOwed : list N; wExit : bool }.
Definition rst0 : rst := mkR RNot 0 ∅ ∅ [] false.

Inductive revt :=
  | VStart                      (* ReloadServices begins to write the new configuration *)
  | VWrite (t : N)              (* it was written to tunnel t *)
  | VAnswer (t : N) (ok : bool) (* the readLoop of t reads ServicesSignal (ok) or ErrorSignal *)
  | VDie (t : N)                (* the readLoop of t ends *)
  | VPanic (t : N)              (* sync: negative WaitGroup counter, in the readLoop of t (recovered in client.go 651-656; the loop ends) *)
  | VReturn (ok : bool)         (* ReloadServices returns nil (ok) or an error of Write *)
  | VExit                       (* os.Exit(1), 15 seconds after 984 *)
  | VTau.

Definition is_reloading (p : rpc) : bool := match p with RNot => false | _ => true end.

(* WaitGroup.Done: the counter goes down first; a negative counter panics *)
Definition done_event (t : N) (wg : Z) : list revt := if (wg - 1 <? 0)%Z then [VPanic t] else [].
Definition done_live (t : N) (wg : Z) (live : gset N) : gset N := if (wg - 1 <? 0)%Z then live ∖ {[ t ]} else live.

Inductive rstep : rst -> list revt -> rst -> Prop :=
  (* 904-974, with tunnelsRWMtx read-locked until the return; "range c.tunnels" in any order *)
  | r_start wg live set owed order : Permutation order (elements set) ->
      rstep (mkR RNot wg live set owed false) [VStart] (mkR (RLoop order) wg live set owed false)
  | r_write wg live set owed t todo :
      rstep (mkR (RLoop (t :: todo)) wg live set owed false) [VWrite t] (mkR (RWritten t todo) wg live set (t :: owed) false)
  (* 978-980; the deferred functions *)
  | r_write_fails wg live set owed t todo :
      rstep (mkR (RLoop (t :: todo)) wg live set owed false) [VReturn false] (mkR RNot wg live set owed false)
  | r_add wg live set owed t todo :
      rstep (mkR (RWritten t todo) wg live set owed false) [VTau] (mkR (RLoop todo) (wg + 1) live set owed false)
  | r_wait wg live set owed : rstep (mkR (RLoop []) wg live set owed false) [VTau] (mkR RWait wg live set owed false)
  | r_return live set owed : rstep (mkR RWait 0 live set owed false) [VReturn true] (mkR RNot 0 live set owed false)
  (* 984-987 *)
  | r_timeout wg live set owed : rstep (mkR RWait wg live set owed false) [VExit] (mkR RWait wg live set owed true)
  (* conn.go 253-258 *)
  | r_services p wg live set owed1 owed2 t : t ∈ live ->
      rstep (mkR p wg live set (owed1 ++ t :: owed2) false) (VAnswer t true :: done_event t wg)
            (mkR p (wg - 1) (done_live t wg live) set (owed1 ++ owed2) false)
  (* conn.go 259-267: the loop ends in any case *)
  | r_error p wg live set owed1 owed2 t : t ∈ live ->
      rstep (mkR p wg live set (owed1 ++ t :: owed2) false)
            (VAnswer t false :: (if is_reloading p then done_event t wg else []))
            (mkR p (if is_reloading p then wg - 1 else wg) (live ∖ {[ t ]}) set (owed1 ++ owed2) false)
  | r_die p wg live set owed t : t ∈ live -> rstep (mkR p wg live set owed false) [VDie t] (mkR p wg (live ∖ {[ t ]}) set owed false)
  (* client.go 709-724: addTunnel and removeTunnel need the write lock.  A tunnel that is added is a new one. *)
  | r_ready wg live set owed t : t ∉ live -> t ∉ set -> t ∉ owed ->
      rstep (mkR RNot wg live set owed false) [VTau] (mkR RNot wg ({[ t ]} ∪ live) ({[ t ]} ∪ set) owed false)
  | r_removed wg live set owed t : t ∉ live ->
      rstep (mkR RNot wg live set owed false) [VTau] (mkR RNot wg live (set ∖ {[ t ]}) owed false).

Inductive rexec : rst -> list revt -> rst -> Prop :=
  | rx_nil s : rexec s [] s
  | rx_snoc s tr s1 l s2 : rexec s tr s1 -> rstep s1 l s2 -> rexec s (tr ++ l) s2.
