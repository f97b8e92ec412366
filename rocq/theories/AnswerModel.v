(* AnswerModel.v -- what a peer-to-peer visitor is answered: client/peer.go 115-121, 128-137 (candidates are queued), 341-378
   (response), 380-410 (processOffer), 412-465 (getOffer), with -webrtcThread; client/peerproc.go 320-358, 360-390, 392-427 (the
   same over a process) and the beginning of that process, bin/src/peer/conn.rs 66-101, 395-454.
   Left out: the text of the JSON values; the chunked encoding of the HTTP response (C38).  A pool buffer has 4096 bytes. *)
From Verif Require Import GoBase.
Local Open Scope N_scope.

(* peer.go 351-353, 365-367; peerproc.go 331-333, 350-352: length and text are copied into the buffer of the task *)
Definition reply (m : bytes) : bytes :=
  let n := u16 (blen m) in take 4096 ([n / 256; n `mod` 256] ++ m).

(* peer.go 359-377: what the select of the loop finds: a candidate (empty: all have been found, 119) or that the task is closed *)
Inductive tev := TCand (c : bytes) | TClose.
(* oks: does each Write to the visitor succeed (missing: yes) *)
Definition next (oks : list bool) : bool * list bool := match oks with [] => (true, []) | b :: oks => (b, oks) end.
Fixpoint thread_loop (evs : list tev) (oks : list bool) : list bytes :=
  match evs with
  | TCand (b :: c) :: evs => let '(ok, oks) := next oks in reply (b :: c) :: (if ok then thread_loop evs oks else [])
  | _ => []
  end.
Definition thread_response (sdp : bytes) (evs : list tev) (oks : list bool) : list bytes :=
  let '(ok, oks) := next oks in reply sdp :: (if ok then thread_loop evs oks else []).

(* the messages of the peer process (bin/src/peer/mod.rs 96-106); Go decodes them into a struct with a field for each (peerproc.go
   54-60), so that a message of another kind leaves the field wanted empty *)
Inductive opmsg := OConfig | OOffer (s : bytes) | OAnswer (s : bytes) | OCand (s : bytes) | OGetOffer.
Definition f_offer (o : opmsg) : bytes := match o with OOffer s => s | _ => [] end.
Definition f_answer (o : opmsg) : bytes := match o with OAnswer s => s | _ => [] end.
Definition f_cand (o : opmsg) : bytes := match o with OCand s => s | _ => [] end.
(* peerproc.go 338-357; the list ends where reading fails *)
Fixpoint proc_loop (out : list opmsg) (oks : list bool) : list bytes :=
  match out with
  | [] => []
  | o :: out => match f_cand o with
                | [] => []
                | c => let '(ok, oks) := next oks in reply c :: (if ok then proc_loop out oks else [])
                end
  end.
Definition proc_response (sdp : bytes) (out : list opmsg) (oks : list bool) : list bytes :=
  let '(ok, oks) := next oks in reply sdp :: (if ok then proc_loop out oks else []).
(* peerproc.go 376-387: the first message of the process is taken for the answer *)
Definition proc_offer (out : list opmsg) (oks : list bool) : list bytes :=
  match out with [] => [] | o :: out => proc_response (f_answer o) out oks end.
(* 414-427; id: the text {"id":...} *)
Definition proc_get_offer (id : bytes) (out : list opmsg) (oks : list bool) : list bytes :=
  match out with [] => [] | o :: out => proc_response (f_offer o) out oks ++ [id] end.

(* What the peer process writes.  conn.rs 80-84: first the configuration that it was sent, read back; then, for an offer (396-414),
   the answer, and the candidates as they are found (257-303), the last one empty; for GetOfferSDP (427-446) the offer instead of
   the answer.  It may end at any point: the rest is missing.  Nothing at all is written if the configuration is not understood. *)
Definition found (cs : list bytes) : list opmsg := map OCand cs ++ [OCand []].
Definition peer_writes (asked : opmsg) (sdp : bytes) (cs : list bytes) : list opmsg :=
  OConfig :: match asked with OOffer _ => OAnswer sdp :: found cs | OGetOffer => OOffer sdp :: found cs | _ => [] end.
