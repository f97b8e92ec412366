(* DispatchModel.v -- which local service a visitor reaches while the client reloads its services.
   server/conn.go 275-325 (handleHTTP), 350-523 (handleTunnel), 525-595 (processHostPrefixes), 820-835, 880-884 (readLoop),
   980-1030 (process); server/client.go 78-97, 105-190 (process, addTunnel);
   client/client.go 650-672, 709-715, 900-990; client/conn.go 60-71, 249-304.
   One client of one server; the tunnels are reliable FIFO channels in both directions. *)
From Verif Require Import GoBase.
Local Open Scope N_scope.

(* a configuration: the list of services, each a host prefix and the local service behind it *)
Notation cfg := (list (N * N)).

(* what travels to the client on a tunnel: the first frame of a visitor, with the service index the server looked up (the
   prefix is a ghost: what the visitor asked for), or ReadySignal / ServicesSignal (server/conn.go 508-512) *)
Inductive dmsg := DTask (v : nat) (p : N) (i : N) | DReady.

(* [tSvcs]: the services pointer of the client's side, nil until the first ReadySignal (client/conn.go 39, 244-259; client.go 709-715);
   [tBegun]: the server's side has left its readLoop (or has just been accepted) and is in handleTunnel *)
Record tun := mkTun { tUp : list cfg; tDown : list dmsg; tSvcs : option cfg; tBegun : bool }.

Record dst := mkD {
  dReg : gmap N N;               (* the server's prefix table, for this client: prefix -> service index *)
  dCur : cfg;                    (* client.services *)
  dPend : list nat;              (* tunnels ReloadServices has still to write to *)
  dTuns : gmap nat tun;
  dVis : gmap nat (N * N);       (* visitors between getHostPrefix and the first frame: prefix and index *)
  dBusy : gmap nat nat;          (* visitors being served, with their tunnel *)
  dOut : list (N * N);           (* prefix asked for, local service connected to *)
  dCut : list nat;               (* visitors closed by a reload *)
  dHist : list cfg }.            (* the configurations that were ever in force *)
Definition dinit (c : cfg) : dst := mkD ∅ c [] ∅ ∅ ∅ [] [] [c].

Definition index_of (p : N) (c : cfg) : option N := N.of_nat <$> (fst <$> list_find (fun x => x.1 = p) c).
Definition ready (T : tun) : bool := match tSvcs T with Some _ => true | None => false end.

Inductive dstep : dst -> dst -> Prop :=
  (* client.go 662, conn.go 60-71: a tunnel is opened and announces the configuration in force *)
  | d_connect reg cur pd tuns vis busy out cut hist t : tuns !! t = None ->
      dstep (mkD reg cur pd tuns vis busy out cut hist)
            (mkD reg cur pd (<[t := mkTun [cur] [] None false]> tuns) vis busy out cut hist)
  (* server/conn.go 880-884 -> 823-830: reading a configuration ends readLoop, whose deferred function closes every task of
     the tunnel; handleTunnel starts *)
  | d_begin reg cur pd tuns vis busy out cut hist t c up down sv : tuns !! t = Some (mkTun (c :: up) down sv false) ->
      dstep (mkD reg cur pd tuns vis busy out cut hist)
            (mkD reg cur pd (<[t := mkTun (c :: up) down sv true]> tuns) vis (filter (fun x => x.2 <> t) busy) out
               (cut ++ (fst <$> filter (fun x => x.2 = t) (map_to_list busy))) hist)
  (* processHostPrefixes 525-580, one prefix at a time, in any order *)
  | d_update reg cur pd tuns vis busy out cut hist t c up down sv p : tuns !! t = Some (mkTun (c :: up) down sv true) ->
      dstep (mkD reg cur pd tuns vis busy out cut hist)
            (mkD (match index_of p c with Some i => <[p := i]> reg | None => delete p reg end) cur pd tuns vis busy out cut hist)
  (* 505-512: ReadySignal or ServicesSignal.  Over-approximation: it is not required that every prefix was updated. *)
  | d_answer reg cur pd tuns vis busy out cut hist t c up down sv : tuns !! t = Some (mkTun (c :: up) down sv true) ->
      dstep (mkD reg cur pd tuns vis busy out cut hist)
            (mkD reg cur pd (<[t := mkTun up (down ++ [DReady]) sv false]> tuns) vis busy out cut hist)
  (* prefixes are also removed when tunnels go (server/client.go 269-288) *)
  | d_remove reg cur pd tuns vis busy out cut hist p :
      dstep (mkD reg cur pd tuns vis busy out cut hist) (mkD (delete p reg) cur pd tuns vis busy out cut hist)
  (* handleHTTP 309-313 *)
  | d_lookup reg cur pd tuns vis busy out cut hist v p i : reg !! p = Some i ->
      dstep (mkD reg cur pd tuns vis busy out cut hist) (mkD reg cur pd tuns (<[v := (p, i)]> vis) busy out cut hist)
  (* client.process + conn.process: any tunnel the server holds; it does so from addTunnel on, before it sends ReadySignal *)
  | d_send reg cur pd tuns vis busy out cut hist v p i t T : vis !! v = Some (p, i) -> tuns !! t = Some T ->
      dstep (mkD reg cur pd tuns vis busy out cut hist)
            (mkD reg cur pd (<[t := mkTun (tUp T) (tDown T ++ [DTask v p i]) (tSvcs T) (tBegun T)]> tuns)
                 (delete v vis) (<[v := t]> busy) out cut hist)
  (* the visitor, or its service, ends it *)
  | d_end reg cur pd tuns vis busy out cut hist v :
      dstep (mkD reg cur pd tuns vis busy out cut hist) (mkD reg cur pd tuns vis (delete v busy) out cut hist)
  (* client/conn.go 288-304: the index is looked up in the services of the tunnel *)
  | d_deliver reg cur pd tuns vis busy out cut hist t up down c b v p i q l :
      tuns !! t = Some (mkTun up (DTask v p i :: down) (Some c) b) -> c !! N.to_nat i = Some (q, l) ->
      dstep (mkD reg cur pd tuns vis busy out cut hist)
            (mkD reg cur pd (<[t := mkTun up down (Some c) b]> tuns) vis busy (out ++ [(p, l)]) cut hist)
  (* client/conn.go 244-259 *)
  | d_ready reg cur pd tuns vis busy out cut hist t up down sv b : tuns !! t = Some (mkTun up (DReady :: down) sv b) ->
      dstep (mkD reg cur pd tuns vis busy out cut hist)
            (mkD reg cur pd (<[t := mkTun up down (Some cur) b]> tuns) vis busy out cut hist)
  (* a tunnel closes: 298-301 (an index out of range), the recovered nil pointer of 298 before ReadySignal, or any other reason *)
  | d_close reg cur pd tuns vis busy out cut hist t :
      dstep (mkD reg cur pd tuns vis busy out cut hist) (mkD reg cur pd (delete t tuns) vis busy out cut hist)
  (* client.go 969-977: the new services are stored; then every tunnel of c.tunnels (those that are ready) is written to *)
  | d_reload reg cur tuns vis busy out cut hist new :
      dstep (mkD reg cur [] tuns vis busy out cut hist)
            (mkD reg new (fst <$> filter (fun x => ready x.2) (map_to_list tuns)) tuns vis busy out cut (hist ++ [new]))
  | d_write reg cur pd tuns vis busy out cut hist t T : tuns !! t = Some T ->
      dstep (mkD reg cur (t :: pd) tuns vis busy out cut hist)
            (mkD reg cur pd (<[t := mkTun (tUp T ++ [cur]) (tDown T) (tSvcs T) (tBegun T)]> tuns) vis busy out cut hist)
  (* client.go 978-980: a write fails, ReloadServices returns *)
  | d_write_fails reg cur pd tuns vis busy out cut hist t :
      dstep (mkD reg cur (t :: pd) tuns vis busy out cut hist) (mkD reg cur [] tuns vis busy out cut hist).
Definition dreach := rtc dstep.
