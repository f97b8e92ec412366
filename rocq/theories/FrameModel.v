(* FrameModel.v -- the tunnel protocol after the handshake: frame writers and the two read loops.
   predef.Debug is the constant false (predef/release.go 20); the debug-only branches are not modelled.
   Logging, deadlines (other than the read errors they cause) and speed limiting do not touch the
   stream and do not appear here (the limiter is in ConcModel). *)
From Verif Require Import GoBase BufioModel HandshakeModel.
Local Open Scope N_scope.

(* predef/const.go 50-58 *)
Definition OpData : N := 0.
Definition OpClose : N := 1.
Definition OpServicesData : N := 2.
(* conn/conn.go 106-124: math.MaxUint32 - iota *)
Definition PingSignal : N := 4294967295.
Definition CloseSignal : N := 4294967294.
Definition ReadySignal : N := 4294967293.
Definition ErrorSignal : N := 4294967292.
Definition InfoSignal : N := 4294967291.
Definition ServicesSignal : N := 4294967290.
Definition ReconnectSignal : N := 4294967289.
Definition PreservedSignal : N := 4294964295.   (* math.MaxUint32 - 3000 *)

(* ---------- writers ---------- *)

(* What is written to the tunnel by one Write call. *)
Inductive frame :=
  | FServices (tid si : N) (p : bytes)   (* server/conn.go 1009-1046: first frame of a visitor *)
  | FData (tid : N) (p : bytes)          (* server/conn.go 1056-1085, client/task.go 271-301 *)
  | FClose (tid : N)                     (* server/conn.go 987-990, client/task.go 252-255 *)
  | FSignal (s : N)                      (* conn/conn.go 126-128, 200-250: a bare 4-byte signal *)
  | FError (code : N)                    (* conn/conn.go 129-139: error signal + code *)
  | FErrorPort (si : N)                  (* conn/conn.go 258-267: error 2 + service index *)
  | FInfoPort (si port : N).             (* conn/conn.go 269-281: info 1 + service index + port *)

Definition enc_frame (f : frame) : bytes :=
  match f with
  | FServices tid si p => be32 tid ++ be16 OpServicesData ++ be16 si ++ be32 (blen p) ++ p
  | FData tid p => be32 tid ++ be16 OpData ++ be32 (blen p) ++ p
  | FClose tid => be32 tid ++ be16 OpClose
  | FSignal s => be32 s
  | FError code => be32 ErrorSignal ++ be16 code
  | FErrorPort si => be32 ErrorSignal ++ be16 2 ++ be16 si
  | FInfoPort si port => be32 InfoSignal ++ be16 1 ++ be16 si ++ be16 port
  end.

(* bufio/bufio.go 198-245 [Read] for 0 < len(p) = space < len(buf): what is in the buffer, else one Read *)
Definition rd_read (cap space : N) (b : reader) : bytes * option err * reader :=
  let deliver b := (ntake space (rbuf b), None, mkReader (ndrop space (rbuf b)) (rerr b) (rsrc b)) in
  match rbuf b with
  | [] =>
      match rerr b with
      | Some e => ([], Some e, mkReader [] None (rsrc b))
      | None =>
          let '(d, e, s') := src_read cap (rsrc b) in
          match d with
          | [] => ([], e, mkReader [] None s')
          | _ => deliver (mkReader d e s')
          end
      end
  | _ => deliver b
  end.

(* server/conn.go 1059-1095: the loop turning a visitor's bytes into data frames.  len(buf) = 4096, so a
   Read offers 4096 - 10 bytes.  Each iteration produces at most one frame; the loop ends with the first
   read error (a Write error to the tunnel ends it too: then the tunnel is closed, not modelled here). *)
Fixpoint srv_data_frames (fuel : nat) (tid : N) (b : reader) : list frame * option err :=
  match fuel with
  | O => ([], None)
  | S fuel =>
      let '(d, e, b') := rd_read 4096 4086 b in
      let fs := match d with [] => [] | _ => [FData tid d] end in
      match e with
      | Some e => (fs, Some e)
      | None => let '(fs', e') := srv_data_frames fuel tid b' in (fs ++ fs', e')
      end
  end.
(* server/conn.go 1009-1046: the first frame carries what is already buffered, at most 4096 - 12 bytes *)
Definition srv_process (fuel : nat) (tid si : N) (closedByRemote : bool) (b : reader) : list frame * option err :=
  let p := ntake 4084 (rbuf b) in
  let '(fs, e) := srv_data_frames fuel tid (mkReader (ndrop 4084 (rbuf b)) (rerr b) (rsrc b)) in
  (FServices tid si p :: fs ++ (if closedByRemote then [] else [FClose tid]), e).   (* 985-990 *)

(* client/task.go 276-317 (and 252-255): the loop turning a local service's bytes into data frames;
   t.conn.Read(buf[10:]) is an unbuffered Read of at most 4086 bytes *)
Fixpoint cli_data_frames (fuel : nat) (tid : N) (s : list rdev) : list frame * option err :=
  match fuel with
  | O => ([], None)
  | S fuel =>
      let '(d, e, s') := src_read 4086 s in
      let fs := match d with [] => [] | _ => [FData tid d] end in
      match e with
      | Some e => (fs, Some e)
      | None => let '(fs', e') := cli_data_frames fuel tid s' in (fs ++ fs', e')
      end
  end.
Definition cli_process (fuel : nat) (tid : N) (closedByRemote : bool) (s : list rdev) : list frame * option err :=
  let '(fs, e) := cli_data_frames fuel tid s in
  (fs ++ (if closedByRemote then [] else [FClose tid]), e).

(* ---------- server read loop ---------- *)

(* What the rest of the server decides during one iteration of the loop: it is arbitrary. *)
Inductive tact :=
  | TAdd (tid : N) (w : wcap)        (* addTask (server/conn.go 76-80) by a visitor's process *)
  | TDel (tid : N)                   (* removeTask (82-86) *)
  | TCap (tid : N) (w : wcap).       (* the destination of the task changes how much it will still accept *)
Record senv := mkSenv {
  se_registered : bool;              (* cli.tunnels[c] exists *)
  se_ping_ok : bool;                 (* SendPingSignal succeeded *)
  se_acts : list tact }.             (* what other goroutines did to c.tasks since the last lookup *)
(* c.tasks: for each task how many more bytes its connection accepts before it fails *)
Notation ttable := (gmap N (option N)).
Definition act1 (m : ttable) (a : tact) : ttable :=
  match a with
  | TAdd t w => <[t := w]> m
  | TDel t => delete t m
  | TCap t w => match m !! t with Some _ => <[t := w]> m | None => m end
  end.
Definition acts (l : list tact) (m : ttable) : ttable := fold_left act1 l m.

Inductive sevent :=
  | SDeliver (tid : N) (p : bytes)   (* bytes written to the visitor of the task *)
  | SCloseTask (tid : N)             (* task.CloseByRemote() *)
  | SPong | SSendClose | SRemoveTunnel.

Inductive sstop :=
  | StRead (e : err) | StPing | StUnregistered | StClosed | StReload | StPanic.

Definition p32 (d : bytes) : N := match d with [a; b; c; e] => rd32 a b c e | _ => 0 end.
Definition p16 (d : bytes) : N := match d with [a; b] => rd16 a b | _ => 0 end.

Record sstate := mkSstate { sClosing : bool; sTasks : ttable }.
Notation sres := ((sstate * list sevent) + (sstop * list sevent))%type.

(* server/conn.go 834-977, one iteration.  [deadline] = Timeout > 0 && !TimeoutOnUnidirectionalTraffic.
   A task closed by the peer keeps its place in c.tasks (its process removes it later) but its
   connection accepts nothing any more. *)
Definition srv_iter (deadline : bool) (env : senv) (st : sstate) : prog sres :=
  let isClosing := sClosing st in
  let tasks := acts (se_acts env) (sTasks st) in
  let st := mkSstate isClosing tasks in
  let bad := fun e => PRet (inr (StRead e, [])) in
  peekd 4 bad (fun sb =>
  let signal := p32 sb in
  if signal =? PingSignal then
    if negb (se_registered env) then PRet (inr (StUnregistered, [SSendClose]))
    else if se_ping_ok env then PRet (inl (st, [SPong])) else PRet (inr (StPing, []))
  else if signal =? CloseSignal then
    if isClosing then PRet (inr (StClosed, []))
    else PRet (inl (mkSstate true tasks, [SRemoveTunnel; SSendClose]))
  else if signal =? ServicesSignal then PRet (inr (StReload, []))
  else
    let tid := signal in
    peekd 2 bad (fun ob =>
    let op := p16 ob in
    let task := tasks !! tid in
    if op =? OpData then
      peekd 4 bad (fun lb =>
      let l := p32 lb in
      match task with
      | None =>
          if 0 <? l then
            (* 920-934 *)
            PDiscard l (fun '(_, e) => match e with Some e => PRet (inr (StRead e, [])) | None => PRet (inl (st, [])) end)
          else
            (* r.WriteTo(nil task) returns at once because N <= 0; then line 962 dereferences task *)
            if deadline then PRet (inr (StPanic, [])) else PRet (inl (st, []))
      | Some w =>
          PCopy l w (fun '(o, n', e, w') =>
          let ev := [SDeliver tid o] in
          let st := mkSstate isClosing (<[tid := w']> tasks) in
          let after := fun e : option err =>
            match e with
            | None | Some EWrite => PRet (inl (st, ev))      (* 946-966 *)
            | Some e => PRet (inr (StRead e, ev))
            end in
          if 0 <? n' then
            PDiscard n' (fun '(_, e') => match e' with Some e' => PRet (inr (StRead e', ev)) | None => after None end)
          else after e)
      end)
    else if op =? OpClose then
      match task with
      | Some _ => PRet (inl (mkSstate isClosing (<[tid := Some 0]> tasks), [SCloseTask tid]))
      | None => PRet (inl (st, []))
      end
    else PRet (inl (st, [])))).

Inductive sout := SRunning (st : sstate) | SStopped (why : sstop).

(* one environment per iteration; when the list is used up the loop is still running *)
Fixpoint srv_loop (deadline : bool) (envs : list senv) (st : sstate) : prog (sout * list sevent) :=
  match envs with
  | [] => PRet (SRunning st, [])
  | env :: envs =>
      pbind (srv_iter deadline env st) (fun r =>
      match r with
      | inl (c, ev) => pbind (srv_loop deadline envs c) (fun '(o, evs) => PRet (o, ev ++ evs))
      | inr (why, ev) => PRet (SStopped why, ev)
      end)
  end.

(* ---------- client read loop ---------- *)

Record cenv := mkCenv {
  ce_ping_ok : bool;                       (* IsTimeout's SendPingSignal succeeded *)
  ce_wait : bool;                          (* idleManager.ChangeToWait(connID) *)
  ce_services : list service;              (* *c.client.services.Load() *)
  ce_acts : list tact;                     (* what the tasks' goroutines did to c.tasks (deletions) or to
                                              the willingness of their connections to accept data *)
  ce_peer : N -> option wcap;              (* c.client.peers[taskID] (its API pipe) *)
  ce_stuns : bool;                         (* len(c.stuns) >= 1 *)
  ce_dial : service -> option wcap;        (* dial: None = three failures *)
  ce_newpeer : option wcap }.              (* newPeerTask / newPeerProcTask *)

Inductive cevent :=
  | CNew (tid : N) (s : service)           (* connected to the service and stored in c.tasks *)
  | CDialFail (tid : N)
  | CDeliver (tid : N) (p : bytes)         (* bytes passed to the task *)
  | CPeer (tid : N) (p : bytes)            (* bytes passed to the in-process API connection *)
  | CForbidden (tid : N)                   (* respAndClose 403 *)
  | CCloseTask (tid : N)
  | CPing                                  (* ping sent *)
  | CPong                                  (* ping answer received *)
  | CCloseRecv                             (* close signal received *)
  | CSendClose | CReady | CServices | CReconnect | CErrorRead (code : N) | CPort (si port : N).

Inductive cstop :=
  | CsRead (e : err) | CsPings | CsIdle | CsClosed | CsError | CsIndex | CsPanic.

Record cstate := mkCstate {
  cPings : Z; cLastPing : N; cClosing : bool;
  cSvcs : option (list service);           (* c.services, nil until ReadySignal *)
  cTasks : ttable }.                       (* c.tasks *)
Definition with_tasks (st : cstate) (m : ttable) : cstate :=
  mkCstate (cPings st) (cLastPing st) (cClosing st) (cSvcs st) m.

Notation cres := ((cstate * list cevent) + (cstop * list cevent))%type.

(* client/conn.go 318-334 and 344-364: what happens after processServiceData / processData returned
   readErr [re] with [n'] bytes of the frame left. A writeErr only leads to [continue]. *)
Definition cli_after (st : cstate) (ev : list cevent) (n' : N) (re : option err) : prog cres :=
  match re with
  | Some e => PRet (inr (CsRead e, ev))
  | None =>
      if 0 <? n' then
        PDiscard n' (fun '(_, e) => match e with Some e => PRet (inr (CsRead e, ev)) | None => PRet (inl (st, ev)) end)
      else PRet (inl (st, ev))
  end.
(* the classification of the error of r.WriteTo(task): client/conn.go 437-449, 487-498 *)
Definition read_err (e : option err) : option err :=
  match e with Some EWrite => None | x => x end.

(* client/conn.go 389-458 [processServiceData] and its caller *)
Definition cli_service_data (env : cenv) (st : cstate) (tid : N) (s : service) (l : N) : prog cres :=
  let normal : prog cres :=
    match ce_dial env s with
    | None => cli_after st [CDialFail tid] l None
    | Some w =>
        if 0 <? l then
          PCopy l w (fun '(o, n', e, w') =>
            cli_after (with_tasks st (<[tid := w']> (cTasks st))) [CNew tid s; CDeliver tid o] n' (read_err e))
        else cli_after (with_tasks st (<[tid := w]> (cTasks st))) [CNew tid s] l None
    end in
  if 0 <? l then
    PPeek 2 (fun '(d, e) =>
      match e with
      | Some e => PRet (inr (CsRead e, []))
      | None =>
          if p16 d =? 22608 (* 0x5850 *) then
            if ce_stuns env then
              match ce_newpeer env with
              | None => cli_after st [CForbidden tid] l None
              | Some w => PCopy l w (fun '(o, n', _, _) => cli_after st [CPeer tid o] n' None)
              end
            else cli_after st [CForbidden tid] l None
          else normal
      end)
  else normal.

(* client/conn.go 460-506 [processData] and its caller *)
Definition cli_data (env : cenv) (st : cstate) (tid : N) (l : N) : prog cres :=
  match cTasks st !! tid with
  | None =>
      match ce_peer env tid with
      | Some w =>
          if ce_stuns env then PCopy l w (fun '(o, n', _, _) => cli_after st [CPeer tid o] n' None)
          else cli_after st [CForbidden tid] l None
      | None => cli_after st [] l None
      end
  | Some w => PCopy l w (fun '(o, n', e, w') =>
      cli_after (with_tasks st (<[tid := w']> (cTasks st))) [CDeliver tid o] n' (read_err e))
  end.

(* client/conn.go 191-373, one iteration (the loop test is in cli_loop) *)
Definition cli_iter (env : cenv) (st : cstate) : prog cres :=
  let st := with_tasks st (acts (ce_acts env) (cTasks st)) in
  let tasks := cTasks st in
  let no_tasks := bool_decide (tasks = ∅) in      (* tasksLen() == 0 *)
  let bad := fun e => PRet (inr (CsRead e, [])) in
  PPeek 4 (fun '(sb, e) =>
  match e with
  | Some ETimeout =>
      (* 201-208, 138-148 *)
      if ce_ping_ok env
      then PRet (inl (mkCstate (cPings st + 1) (cLastPing st) (cClosing st) (cSvcs st) tasks, [CPing]))
      else PRet (inr (CsRead ETimeout, []))
  | Some e => PRet (inr (CsRead e, []))
  | None =>
  PDiscard 4 (fun '(_, e) =>
  match e with
  | Some e => PRet (inr (CsRead e, []))
  | None =>
  let signal := p32 sb in
  let task_frame : prog cres :=
    let st := mkCstate (cPings st) 0 (cClosing st) (cSvcs st) tasks in
    let tid := signal in
    peekd 2 bad (fun ob =>
    let op := p16 ob in
    if op =? OpServicesData then
      peekd 2 bad (fun ib =>
      let si := p16 ib in
      match cSvcs st with
      | None => PRet (inr (CsPanic, []))     (* 298: *c.services.Load() with a nil pointer *)
      | Some svcs =>
          if u16 (blen svcs) <=? si then PRet (inr (CsIndex, []))
          else match nnth si svcs with
               | None => PRet (inr (CsPanic, []))   (* index out of range: excluded by the test above *)
               | Some s => peekd 4 bad (fun lb => cli_service_data env st tid s (p32 lb))
               end
      end)
    else if op =? OpData then peekd 4 bad (fun lb => cli_data env st tid (p32 lb))
    else if op =? OpClose then
      match tasks !! tid with
      | Some _ => PRet (inl (with_tasks st (<[tid := Some 0]> tasks), [CCloseTask tid]))
      | None => PRet (inl (st, []))
      end
    else PRet (inl (st, []))) in
  if signal =? PingSignal then
    let lp := cLastPing st + 1 in
    let pings := (cPings st - 1)%Z in
    if cClosing st && (3 <=? lp) && no_tasks then PRet (inr (CsIdle, [CPong]))
    else if 6 <=? lp then
      PRet (inl (mkCstate pings 0 (cClosing st) (cSvcs st) tasks, CPong :: if ce_wait env then [CSendClose] else []))
    else PRet (inl (mkCstate pings lp (cClosing st) (cSvcs st) tasks, [CPong]))
  else if signal =? CloseSignal then
    if cClosing st then PRet (inr (CsClosed, [CCloseRecv]))
    else if no_tasks then PRet (inr (CsClosed, [CCloseRecv]))
    else PRet (inl (mkCstate (cPings st) (cLastPing st) true (cSvcs st) tasks, [CCloseRecv]))
  else if signal =? ReconnectSignal then
    (* 243-248: no [continue]: the signal falls through to the task code below *)
    pbind task_frame (fun r =>
      match r with inl (st, ev) => PRet (inl (st, CReconnect :: ev)) | inr (w, ev) => PRet (inr (w, CReconnect :: ev)) end)
  else if signal =? ReadySignal then
    PRet (inl (mkCstate (cPings st) (cLastPing st) (cClosing st) (Some (ce_services env)) tasks, [CReady]))
  else if signal =? ServicesSignal then
    PRet (inl (mkCstate (cPings st) (cLastPing st) (cClosing st) (Some (ce_services env)) tasks, [CServices]))
  else if signal =? ErrorSignal then
    (* client/signal.go 8-59; then 262-267 return *)
    peekd 2 bad (fun cb =>
      let code := p16 cb in
      if code =? 2 then peekd 2 bad (fun _ => PRet (inr (CsError, [CErrorRead code])))
      else PRet (inr (CsError, [CErrorRead code])))
  else if signal =? InfoSignal then
    (* client/signal.go 61-104 *)
    peekd 2 bad (fun cb =>
      if p16 cb =? 1 then
        peekd 2 bad (fun sb => peekd 2 bad (fun pb => PRet (inl (st, [CPort (p16 sb) (p16 pb)]))))
      else PRet (inl (st, [])))
  else task_frame
  end)
  end).

Inductive cout := CRunning (st : cstate) | CStopped (why : cstop).

Fixpoint cli_loop (envs : list cenv) (st : cstate) : prog (cout * list cevent) :=
  match envs with
  | [] => PRet (CRunning st, [])
  | env :: envs =>
      if (3 <? cPings st)%Z then PRet (CStopped CsPings, [])     (* 191: for pings <= 3 *)
      else
        pbind (cli_iter env st) (fun r =>
        match r with
        | inl (st', ev) => pbind (cli_loop envs st') (fun '(o, evs) => PRet (o, ev ++ evs))
        | inr (why, ev) => PRet (CStopped why, ev)
        end)
  end.
