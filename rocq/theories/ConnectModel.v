(* ConnectModel.v -- gt sub-connect (what `gt connect` stands for): bin/src/cs.rs 77-153 (load_config, validate_config, run_connect), bin/src/peer/mod.rs
   61-88 (process_connect), bin/src/peer/connect.rs 69-213 (ConnectPeerConnHandler::new, send_http_request, forward_data_with_server), and tokio's
   lines().
   Simplified: white space is that of ASCII; making the peer connection succeeds; whether the HTTP client takes an address and a Host value is a
   given function [ok]; what handle() does after the lines (connect.rs 317-523; its answer is dropped, mod.rs 86) is left out, except that it ends. *)
From Coq Require Import Strings.String.
From Verif Require Import GoBase FlagsModel.
Local Open Scope N_scope.

(* peer/mod.rs 112-129, what is used of it *)
Record conf := mkConf { kAddr : bytes; kPrefix : bytes; kStun : bytes }.
#[global] Instance conf_dec : EqDecision conf. Proof. solve_decision. Defined.
Definition conf0 : conf := mkConf [] [] [].                                            (* ConnectConfig::default() *)
(* the file named with -c; [yaml]: what serde_yaml makes of the text *)
Inductive file := FMissing | FUnreadable | FText (content : bytes) (yaml : option conf).
Definition is_space (b : N) : bool := (b =? 32) || (9 <=? b) && (b <=? 13).
Definition blank (s : bytes) : bool := forallb is_space s.                              (* s.trim().is_empty() *)
(* cs.rs 107-116 *)
Definition validate_config (c : conf) : bool := negb (blank (kAddr c)) && negb (blank (kPrefix c)).
(* cs.rs 77-105 *)
Definition load_config (f : file) : option conf :=
  match f with
  | FText s (Some c) => if blank s then None else if validate_config c then Some c else None
  | _ => None
  end.
(* cs.rs 119-137; None: exit(1) *)
Definition run_args (a : option file) : option conf := match a with Some f => load_config f | None => Some conf0 end.
(* the beginning of what it writes on standard output; [shown]: the rest of the first line and all that follows *)
Definition parsed_ok : bytes := [232; 167; 163; 230; 158; 144; 230; 136; 144; 229; 138; 159; 58; 32].    (* cs.rs 97 *)
Definition stdout_of (a : option file) (shown : bytes) : bytes :=
  match a with
  | None => bs "No config file specified, using default configuration" ++ shown         (* 135 *)
  | Some (FText s (Some _)) => if blank s then [] else parsed_ok ++ shown
  | Some _ => []
  end.

(* peer/mod.rs 67, connect.rs 71-84: an async fn does nothing before it is awaited *)
Inductive msg := MsgConfig (stun : bytes) (http_routes : list (bytes * bytes)) | MsgOffer.
Inductive stmt := Await (does : list msg) | Forget (does : list msg).
Definition exec (p : list stmt) : list msg := concat ((fun s => match s with Await l => l | Forget _ => [] end) <$> p).
Definition startup (c : conf) : list stmt :=
  [Await [MsgConfig (kStun c) [(bs "@", bs "http://www.baidu.com")]]; Forget [MsgOffer]].

(* connect.rs 150-213 *)
Record req := mkReq { qMethod : bytes; qUrl : bytes; qHost : bytes; qHeaders : list (bytes * bytes); qBody : bytes }.
#[global] Instance req_dec : EqDecision req. Proof. solve_decision. Defined.
Definition request (c : conf) (line : bytes) : req :=
  mkReq (bs "GET") (kAddr c) (kPrefix c) [(bs "Users-Agent", bs "gt-connect")] line.
(* what comes of a request: no response, or one, whose text can be read or not *)
Inductive outcome := ONone | OResp (status : N) (text : bool).
(* 185-194: the status is only logged *)
Definition forwarded (o : outcome) : bool := match o with ONone => false | OResp _ text => text end.

(* String::from_utf8 *)
Fixpoint utf8 (s : bytes) : bool :=
  let tail b := (128 <=? b) && (b <=? 191) in
  match s with
  | [] => true
  | a :: s1 =>
    if a <? 128 then utf8 s1 else
    match s1 with
    | [] => false
    | b :: s2 =>
      if (194 <=? a) && (a <=? 223) && tail b then utf8 s2 else
      match s2 with
      | [] => false
      | c :: s3 =>
        if ((a =? 224) && (160 <=? b) && (b <=? 191) || (a =? 237) && (128 <=? b) && (b <=? 159)
            || (225 <=? a) && (a <=? 239) && negb (a =? 237) && tail b) && tail c then utf8 s3 else
        match s3 with
        | [] => false
        | d :: s4 =>
          if ((a =? 240) && (144 <=? b) && (b <=? 191) || (a =? 244) && (128 <=? b) && (b <=? 143)
              || (241 <=? a) && (a <=? 243) && tail b) && tail c && tail d then utf8 s4 else false
        end
      end
    end
  end.

(* tokio's Lines::next_line on what has arrived: up to the next line feed, or the rest at the end *)
Fixpoint cut_line (s : bytes) : option (bytes * bytes) :=
  match s with
  | [] => None
  | b :: s => if b =? 10 then Some ([], s) else '(l, r) ← cut_line s; Some (b :: l, r)
  end.
Fixpoint strip_cr (s : bytes) : bytes :=
  match s with [] => [] | [b] => if b =? 13 then [] else [b] | b :: s => b :: strip_cr s end.
Inductive nline := NLine (l rest : bytes) | NBad | NEnd | NWait.
Definition next_line (eof : bool) (s : bytes) : nline :=
  match cut_line s with
  | Some (l, rest) => if utf8 l then NLine (strip_cr l) rest else NBad
  | None => if eof then (if bool_decide (s = []) then NEnd else if utf8 s then NLine s [] else NBad) else NWait
  end.

(* mod.rs 68-87.  The task that reads: RRead at next_line, RHold at tx.send, RGone ended (of itself or by the unwrap of 72).  The main
   task: MRecv at rx.recv, MReq at forward_data_with_server, MHandle at handle(), MExit the process has ended, with status 0. *)
Inductive rphase := RRead | RHold (l : bytes) | RGone.
Inductive mphase := MRecv | MReq (l : bytes) | MHandle | MExit.
#[global] Instance rphase_dec : EqDecision rphase. Proof. solve_decision. Defined.
#[global] Instance mphase_dec : EqDecision mphase. Proof. solve_decision. Defined.
Inductive said := SReceived (l : bytes) | SForwarded (l : bytes) | SError (l : bytes).
#[global] Instance said_dec : EqDecision said. Proof. solve_decision. Defined.
Record cst := mkC {
  cPend : bytes; cEof : bool;          (* standard input: arrived and not yet read; at its end *)
  cRd : rphase; cQ : list bytes;       (* mpsc::channel(8) *)
  cMain : mphase;
  cReqs : list req;                    (* requests handed to the network *)
  cSaid : list said }.
#[global] Instance cst_dec : EqDecision cst. Proof. solve_decision. Defined.
Definition cst0 : cst := mkC [] false RRead [] MRecv [] [].
Inductive cev := EArrive (d : bytes) | EEof | ENext | EPush | ETake | EAnswer (o : outcome) | EStop | EExit.
Definition cstep (ok : bytes -> bytes -> bool) (c : conf) (s : cst) (e : cev) : option cst :=
  match s with mkC p eof rd q m rq sd =>
  match e with
  | EArrive d => if eof then None else Some (mkC (p ++ d) eof rd q m rq sd)
  | EEof => Some (mkC p true rd q m rq sd)
  | ENext => match rd with
      | RRead => match next_line eof p with
          | NLine l rest => Some (mkC rest eof (RHold l) q m rq sd)
          | NBad | NEnd => Some (mkC p eof RGone q m rq sd)
          | NWait => None
          end
      | _ => None
      end
  | EPush => match rd with RHold l => if (length q <? 8)%nat then Some (mkC p eof RRead (q ++ [l]) m rq sd) else None | _ => None end
  | ETake => match m, q with
      | MRecv, l :: q => Some (mkC p eof rd q (MReq l) (if ok (kAddr c) (kPrefix c) then rq ++ [request c l] else rq) (sd ++ [SReceived l]))
      | _, _ => None
      end
  | EAnswer o => match m with
      | MReq l => let o := if ok (kAddr c) (kPrefix c) then o else ONone in
          Some (mkC p eof rd q MRecv rq (sd ++ [if forwarded o then SForwarded l else SError l]))
      | _ => None
      end
  | EStop => match m, q, rd with MRecv, [], RGone => Some (mkC p eof rd q MHandle rq sd) | _, _, _ => None end
  | EExit => match m with MHandle => Some (mkC p eof rd q MExit rq sd) | _ => None end
  end end.
Definition crun (ok : bytes -> bytes -> bool) (c : conf) (tr : list cev) : option cst := fold_left (fun o e => o ≫= fun s => cstep ok c s e) tr (Some cst0).

(* manager.rs 651-658, 684-701, 766-767: what the manager writes to a worker's standard input to end it *)
Definition op_text (graceful : bool) : bytes := if graceful then bs "{""op"":""gracefulShutdown""}" else bs "{""op"":""shutdown""}".
