(* DurModel.v -- durations as text: config/duration.go 12-58 (config.Duration: String, Set, UnmarshalYAML, MarshalYAML, UnmarshalJSON, MarshalJSON, all of them
   Go's time.Duration.String and time.ParseDuration), modelled after Go 1.20's time package (time/time.go String, format, fmtFrac, fmtInt; time/format.go
   ParseDuration, leadingInt, leadingFraction), and web/front/src/utils/map.ts 95-125 (humanizeDuration), web/front/src/utils/eleValidate.ts 1-13
   (validatorTimeFormat): what the settings page makes of a duration.  Text is UTF-8.
   Simplified: the fraction of ParseDuration is computed exactly and rounded down, as the float64 arithmetic of format.go 1709 does whenever the fraction has not
   more digits than the unit (as what String writes). *)
From Coq Require Import Strings.String.
From Verif Require Import GoBase FlagsModel LogModel.
Local Open Scope N_scope.

Definition is_digit (b : N) : bool := (48 <=? b) && (b <=? 57).
Definition DOT : N := 46.
Definition MINUS : N := 45.
Definition MU : bytes := [194; 181].                              (* U+00B5 *)

(* ---- time.Duration.String *)
(* fmtFrac: v's last prec digits, without trailing zeros; nothing if they are all zero *)
Fixpoint frac_digits (prec : nat) (v : N) (print : bool) (acc : bytes) : bytes :=
  match prec with
  | O => if print then DOT :: acc else acc
  | S p => let print := print || negb (v mod 10 =? 0) in
           frac_digits p (v / 10) print (if print then (48 + v mod 10) :: acc else acc)
  end.
Definition ten (p : nat) : N := 10 ^ N.of_nat p.
(* fmtInt(fmtFrac(v, prec)) *)
Definition num_text (prec : nat) (v : N) : bytes := dec (v / ten prec) ++ frac_digits prec v false [].
Definition dur_string (d : Z) : bytes :=
  let u := Z.to_N (Z.abs d) in
  let body :=
    if u <? 1000000000 then
      if u =? 0 then bs "0s"
      else if u <? 1000 then dec u ++ bs "ns"
      else if u <? 1000000 then num_text 3 u ++ MU ++ bs "s"
      else num_text 6 u ++ bs "ms"
    else
      let s := u / 1000000000 in
      let sec := num_text 9 (u mod 60000000000) ++ bs "s" in
      let m := s / 60 in
      if m =? 0 then sec
      else let h := m / 60 in
           (if h =? 0 then [] else dec h ++ bs "h") ++ dec (m mod 60) ++ bs "m" ++ sec
  in if (d <? 0)%Z then MINUS :: body else body.

(* ---- time.ParseDuration *)
(* leadingInt: None is the overflow *)
Fixpoint leading_int (x : N) (s : bytes) : option (N * bytes) :=
  match s with
  | c :: s' => if is_digit c then
                 if 2 ^ 63 / 10 <? x then None
                 else let x := x * 10 + (c - 48) in
                      if 2 ^ 63 <? x then None else leading_int x s'
               else Some (x, s)
  | [] => Some (x, [])
  end.
(* leadingFraction: the value of the digits, how many count, and the rest; what overflows is dropped *)
Fixpoint leading_frac (over : bool) (x : N) (k : nat) (s : bytes) : N * nat * bytes :=
  match s with
  | c :: s' => if is_digit c then
                 if over then leading_frac true x k s'
                 else if (2 ^ 63 - 1) / 10 <? x then leading_frac true x k s'
                 else let y := x * 10 + (c - 48) in
                      if 2 ^ 63 <? y then leading_frac true x k s' else leading_frac false y (S k) s'
               else (x, k, s)
  | [] => (x, k, [])
  end.
Fixpoint unit_name (s : bytes) : bytes * bytes :=
  match s with
  | c :: s' => if is_digit c || (c =? DOT) then ([], s) else let '(u, r) := unit_name s' in (c :: u, r)
  | [] => ([], [])
  end.
Definition unit_of (u : bytes) : option N :=
  if bool_decide (u = bs "ns") then Some 1
  else if bool_decide (u = bs "us") || bool_decide (u = MU ++ bs "s") || bool_decide (u = [206; 188; 115]) then Some 1000
  else if bool_decide (u = bs "ms") then Some 1000000
  else if bool_decide (u = bs "s") then Some 1000000000
  else if bool_decide (u = bs "m") then Some 60000000000
  else if bool_decide (u = bs "h") then Some 3600000000000
  else None.
(* one round of the loop: the nanoseconds of one number with its unit, and the rest *)
Definition parse_one (s : bytes) : option (N * bytes) :=
  match s with
  | [] => None
  | c :: _ =>
      if negb (is_digit c || (c =? DOT)) then None else
      '(v, s1) ← leading_int 0 s;
      let pre := negb (length s1 =? length s)%nat in
      let '(f, k, post, s2) := match s1 with
                               | d :: s' => if d =? DOT then let '(f, k, r) := leading_frac false 0 0 s' in (f, k, negb (length r =? length s')%nat, r)
                                            else (0, 0%nat, false, s1)
                               | [] => (0, 0%nat, false, s1)
                               end in
      if negb pre && negb post then None else
      let '(u, s3) := unit_name s2 in
      if bool_decide (u = []) then None else
      un ← unit_of u;
      if 2 ^ 63 / un <? v then None else
      let v := v * un in
      let v := if 0 <? f then v + f * un / ten k else v in
      if 2 ^ 63 <? v then None else Some (v, s3)
  end.
Fixpoint parse_loop (fuel : nat) (d : N) (s : bytes) : option N :=
  match s with
  | [] => Some d
  | _ => match fuel with
         | O => None
         | S g => '(v, r) ← parse_one s; if 2 ^ 63 <? d + v then None else parse_loop g (d + v) r
         end
  end.
Definition parse_duration (s : bytes) : option Z :=
  let '(neg, s) := match s with c :: s' => if (c =? MINUS) || (c =? 43) then (c =? MINUS, s') else (false, s) | [] => (false, s) end in
  if bool_decide (s = bs "0") then Some 0%Z
  else if bool_decide (s = []) then None
  else d ← parse_loop (length s) 0 s;
       if neg then Some (- Z.of_N d)%Z else if 2 ^ 63 - 1 <? d then None else Some (Z.of_N d).

(* ---- the page *)
(* the regular expression of map.ts 102 and, but for "us", of eleValidate.ts 3: numbers, each with a unit *)
Fixpoint skip_digits (s : bytes) : bytes := match s with c :: s' => if is_digit c then skip_digits s' else s | [] => [] end.
Fixpoint strip (p s : bytes) : option bytes :=
  match p, s with
  | [], _ => Some s
  | a :: p, b :: s => if a =? b then strip p s else None
  | _ :: _, [] => None
  end.
Definition re_units (us : bool) : list bytes := [bs "ns"; MU ++ bs "s"; bs "ms"] ++ (if us then [bs "us"] else []) ++ [bs "s"; bs "m"; bs "h"].
Fixpoint first_unit (l : list bytes) (s : bytes) : option bytes :=
  match l with [] => None | u :: l => match strip u s with Some r => Some r | None => first_unit l s end end.
Definition re_one (us : bool) (s : bytes) : option bytes :=
  match s with
  | c :: _ => if negb (is_digit c) then None else first_unit (re_units us) (skip_digits s)
  | [] => None
  end.
Fixpoint re_more (us : bool) (fuel : nat) (s : bytes) : bool :=
  match s with [] => true | _ => match fuel with O => false | S g => match re_one us s with Some r => re_more us g r | None => false end end end.
Definition re_time (us : bool) (s : bytes) : bool := negb (bool_decide (s = [])) && re_more us (length s) s.
(* parseInt(value, 10): the digits in front, perhaps with a sign; None is NaN *)
Fixpoint js_digits (x : N) (s : bytes) : N := match s with c :: s' => if is_digit c then js_digits (x * 10 + (c - 48)) s' else x | [] => x end.
Definition parse_int (s : bytes) : option Z :=
  match s with
  | c :: s' => if c =? MINUS then match s' with e :: _ => if is_digit e then Some (- Z.of_N (js_digits 0 s'))%Z else None | [] => None end
               else if is_digit c then Some (Z.of_N (js_digits 0 s)) else None
  | [] => None
  end.
Definition units : list (N * bytes) :=
  [(3600000000000, bs "h"); (60000000000, bs "m"); (1000000000, bs "s"); (1000000, bs "ms"); (1000, MU ++ bs "s"); (1, bs "ns")].
Fixpoint humanize_go (us : list (N * bytes)) (r : N) : bytes :=
  match us with
  | [] => []
  | (v, l) :: us' => if v <=? r then dec (r / v) ++ l ++ humanize_go us' (r mod v) else humanize_go us' r
  end.
Definition humanize (value : option bytes) : bytes :=
  match value with
  | None | Some [] => bs "0s"
  | Some s => if re_time false s then s
              else match parse_int s with Some (Z0) => [] | Some (Zpos p) => humanize_go units (Npos p) | _ => [] end
  end.
