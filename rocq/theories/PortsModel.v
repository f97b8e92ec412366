(* PortsModel.v -- util/portrange.go and server/server.go 901-968 [parseTCPs] *)
From Verif Require Import GoBase HostRewriteSpec HostRewriteModel.
Local Open Scope N_scope.

(* strconv.ParseUint(s, 10, 16); None stands for any of its errors *)
Fixpoint parse_digits (acc : N) (s : bytes) : option N :=
  match s with
  | [] => Some acc
  | c :: s => if (48 <=? c) && (c <=? 57) then parse_digits (acc * 10 + (c - 48)) s else None
  end.
Definition parse_uint16 (s : bytes) : option N :=
  match s with
  | [] => None
  | _ => match parse_digits 0 s with Some v => if v <=? 65535 then Some v else None | None => None end
  end.

(* util/portrange.go 66-78 [NewPortRangeFromNumber] *)
Definition port_range_num (min max : N) : option (N * N) :=
  if max <? min then None
  else let min := if min =? 0 then 1 else min in Some (min, max).
(* util/portrange.go 33-63 [NewPortRangeFromString] *)
Definition port_range_str (s : bytes) : option (N * N) :=
  match index_byte 45 s with
  | None =>
      match parse_uint16 s with
      | None => None
      | Some port => if port =? 0 then port_range_num 1 65535 else port_range_num (u16 port) (u16 port)
      end
  | Some i =>
      match parse_uint16 (ntake i s) with
      | None => None
      | Some min => match parse_uint16 (ndrop (i + 1) s) with
                    | None => None
                    | Some max => port_range_num (u16 min) (u16 max)
                    end
      end
  end.

Notation ports := (gset N).
(* 909-915: for i := pr.Min; i <= pr.Max; i++ { ports[i], all[i]; if i == MaxUint16 break }, i a uint16 *)
Fixpoint add_loop (fuel : nat) (i max : N) (p : ports) : ports :=
  match fuel with
  | O => p
  | S fuel => if i <=? max then
                let p := {[ i ]} ∪ p in
                if i =? 65535 then p else add_loop fuel (u16 (i + 1)) max p
              else p
  end.
(* 904-932: the global ranges (config.TCPs, then config.TCPRanges) *)
Fixpoint add_ranges (rs : list bytes) (p : ports) : option ports :=
  match rs with
  | [] => Some p
  | r :: rs => match port_range_str r with
               | None => None
               | Some (lo, hi) => add_ranges rs (add_loop (N.to_nat 65536) lo hi p)
               end
  end.
(* 950-960: the same for a user; ports already in [all] are an error *)
Fixpoint user_loop (fuel : nat) (i max : N) (p all : ports) : option (ports * ports) :=
  match fuel with
  | O => Some (p, all)
  | S fuel => if i <=? max then
                if decide (i ∈ all) then None
                else
                  let p := {[ i ]} ∪ p in let all := {[ i ]} ∪ all in
                  if i =? 65535 then Some (p, all) else user_loop fuel (u16 (i + 1)) max p all
              else Some (p, all)
  end.
Fixpoint user_ranges (rs : list bytes) (p all : ports) : option (ports * ports) :=
  match rs with
  | [] => Some (p, all)
  | r :: rs => match port_range_str r with
               | None => None
               | Some (lo, hi) => match user_loop (N.to_nat 65536) lo hi p all with
                                  | None => None
                                  | Some (p, all) => user_ranges rs p all
                                  end
               end
  end.

(* whose pool a user draws from *)
Inductive pool_of := Global | Own (p : ports).
(* 937-967: users.Range, in any order; u.TCPNumber is not modelled here *)
Fixpoint parse_users {K} (us : list (K * list bytes)) (all : ports) : option (list (K * pool_of)) :=
  match us with
  | [] => Some []
  | (k, rs) :: us =>
      match rs with
      | [] => match parse_users us all with Some r => Some ((k, Global) :: r) | None => None end
      | _ => match user_ranges rs ∅ all with
             | None => None
             | Some (p, all) => match parse_users us all with Some r => Some ((k, Own p) :: r) | None => None end
             end
      end
  end.
(* 901-968 *)
Definition parse_tcps {K} (tcps tcpRanges : list bytes) (us : list (K * list bytes)) : option (ports * list (K * pool_of)) :=
  match add_ranges tcps ∅ with
  | None => None
  | Some p => match add_ranges tcpRanges p with
              | None => None
              | Some p => match parse_users us p with Some r => Some (p, r) | None => None end
              end
  end.
