(* RouteModel.v -- which local service a data channel of a peer-to-peer visitor is connected to: client/peerproc.go 104-116 (init:
   the tables sent to the peer process), bin/src/peer/conn.rs 189-213 (new_data_channel_process_handler; connect.rs is the same),
   and client/peer.go 533-536 (OnOpen, with -webrtcThread). *)
From Coq Require Import Strings.String.
From stdpp Require Import sorting.
From Verif Require Import GoBase FlagsModel LogModel.
Local Open Scope N_scope.

(* a service: its host prefix (empty: a TCP service), the TCP port the server opened for it (0: none yet), the local URL *)
Record svc := mkSvc { vPrefix : bytes; vPort : N; vUrl : bytes }.
Notation table := (gmap bytes bytes).
(* peerproc.go 106-116; the index i of the loop *)
Definition add_route (i : nat) (s : svc) (t : table * table) : table * table :=
  match vPrefix s with
  | [] => (t.1, <[dec (vPort s) := vUrl s]> t.2)
  | p => (<[p := vUrl s]> (match i with O => <[bs "@" := vUrl s]> t.1 | _ => t.1 end), t.2)
  end.
Fixpoint routes_go (i : nat) (ss : list svc) (t : table * table) : table * table :=
  match ss with [] => t | s :: ss => routes_go (S i) ss (add_route i s t) end.
Definition routes (ss : list svc) : table * table := routes_go 0 ss (∅, ∅).

(* str::split_once('/') *)
Fixpoint before_slash (l : bytes) : option bytes :=
  match l with
  | [] => None
  | b :: l => if b =? 47 then Some [] else match before_slash l with Some t => Some (b :: t) | None => None end
  end.
(* conn.rs 192-213.  str::get(0..1) is None for the empty string and when the first character takes several bytes;
   get(1..) is then not None. *)
Definition target (http tcp : table) (label : bytes) : option bytes :=
  match before_slash label with
  | None => http !! bs "@"
  | Some [] => http !! bs "@"
  | Some (b :: r) =>
      if 128 <=? b then http !! bs "@"
      else if (b =? 64) && negb (bool_decide (r = [])) then http !! r
      else if (b =? 58) && negb (bool_decide (r = [])) then tcp !! r
      else http !! (b :: r)
  end.
Definition proc_target (ss : list svc) (label : bytes) : option bytes := target (routes ss).1 (routes ss).2 label.
(* peer.go 533-536: always the first service; with none, the index panics (None) *)
Definition thread_target (ss : list svc) (label : bytes) : option bytes := vUrl <$> head ss.
