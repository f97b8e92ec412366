(* ServicesModel.v -- how the client turns its command line and its configuration file into the list of services:
   config/position.go 24-58, config/positionslice.go 27-44, client/config.go 55-60, 168-211 and
   client/client.go 751-888 ([parseServices]), 953-957 (the comparison of a reload). *)
From Verif Require Import GoBase.
Local Open Scope N_scope.

(* url.URL, reduced to what parseServices looks at: the scheme, the host and (String()) the rest of the text *)
Record url := mkUrl { uScheme : bytes; uHost : bytes; uRest : bytes }.
Global Instance url_eq_dec : EqDecision url. Proof. solve_decision. Defined.

(* The option occurrences of the command line in order, after flag.Parse has converted the values
   (client/config.go 55-60).  Timeouts in nanoseconds. *)
Inductive opt :=
  | OLocal (u : bytes)          (* -local *)
  | OPort (p : N)               (* -remoteTCPPort *)
  | ORandom (b : bool)          (* -remoteTCPRandom *)
  | OTimeout (d : Z)            (* -localTimeout *)
  | OUseLocal (b : bool)        (* -useLocalAsHTTPHost *)
  | OPrefix (h : bytes).        (* -hostPrefix *)

(* config/position.go 24-27 *)
Record position (A : Type) := mkPos { pValue : A; pPos : N }.
Arguments mkPos {A}. Arguments pValue {A}. Arguments pPos {A}.

Definition as_local (o : opt) := match o with OLocal u => Some u | _ => None end.
Definition as_port (o : opt) := match o with OPort p => Some p | _ => None end.
Definition as_random (o : opt) := match o with ORandom b => Some b | _ => None end.
Definition as_timeout (o : opt) := match o with OTimeout d => Some d | _ => None end.
Definition as_uselocal (o : opt) := match o with OUseLocal b => Some b | _ => None end.
Definition as_prefix (o : opt) := match o with OPrefix h => Some h | _ => None end.

(* positionslice.go 34-43 + position.go 35-50: every occurrence, of whatever option, takes the next value of one counter
   (its wrap-around, an error in Go, is not modelled) and is appended to the slice of its option.  [base] = the counter
   before this command line (config.go ParseFlags sets it to 0; nothing below depends on its value). *)
Fixpoint collect {A} (f : opt -> option A) (base : N) (toks : list opt) : list (position A) :=
  match toks with
  | [] => []
  | o :: toks =>
      match f o with
      | Some v => mkPos v (base + 1) :: collect f (base + 1) toks
      | None => collect f (base + 1) toks
      end
  end.

(* client/config.go 168-177.  sRandom: *bool *)
Record service := mkSvc {
  sPrefix : bytes; sPort : N; sRandom : option bool; sURL : option url; sTimeout : Z; sUseLocal : bool }.

(* client/config.go 47-60, the fields parseServices reads *)
Record config := mkConfig {
  cID : bytes; cServices : list service;
  cLocal : list (position bytes); cPort : list (position N); cRandom : list (position bool);
  cTimeout : list (position Z); cUseLocal : list (position bool); cPrefix : list (position bytes) }.

Definition cmdline (id : bytes) (file : list service) (base : N) (toks : list opt) : config :=
  mkConfig id file (collect as_local base toks) (collect as_port base toks) (collect as_random base toks)
    (collect as_timeout base toks) (collect as_uselocal base toks) (collect as_prefix base toks).

(* client.go 782-784 (and the same condition four more times): [single] = configServicesLen == 1,
   [lo] = config.Local[i].Position, [hi] = config.Local[i+1].Position, None for the last one *)
Definition belongs (single : bool) (lo : N) (hi : option N) (pos : N) : bool :=
  single || ((lo <? pos) && match hi with None => true | Some h => pos <? h end).

(* 781-787 and its copies for the timeout, useLocalAsHTTPHost and the prefix: a later match overwrites an earlier one *)
Fixpoint fill {A} (b : N -> bool) (acc : A) (xs : list (position A)) : A :=
  match xs with
  | [] => acc
  | x :: xs => fill b (if b (pPos x) then pValue x else acc) xs
  end.

(* 788-794: [&x.Value] is the address of the loop variable.  go.mod says go 1.19, where the variable is shared by all
   iterations, so whatever matched, the pointer shows the value of the last element of the slice. *)
Definition fill_random (b : N -> bool) (xs : list (position bool)) : option bool :=
  if existsb (fun x => b (pPos x)) xs then pValue <$> last xs else None.

(* 770-816; None: a url that does not parse *)
Fixpoint fill_services (parse : bytes -> option url) (c : config) (single : bool) (ls : list (position bytes)) : option (list service) :=
  match ls with
  | [] => Some []
  | l :: ls =>
      match parse (pValue l) with                                                        (* 775-779 *)
      | None => None
      | Some u =>
          let b := belongs single (pPos l) (pPos <$> head ls) in
          let s := mkSvc (fill b [] (cPrefix c)) (fill b 0 (cPort c)) (fill_random b (cRandom c)) (Some u)
                     (fill b 0%Z (cTimeout c)) (fill b false (cUseLocal c)) in
          match fill_services parse c single ls with
          | None => None
          | Some r => Some (s :: r)
          end
      end
  end.

Definition B_http : bytes := [104;116;116;112].
Definition B_https : bytes := [104;116;116;112;115].
Definition B_tcp : bytes := [116;99;112].

(* strings.Contains(h, ":") *)
Definition has_colon (h : bytes) : bool := existsb (N.eqb 58) h.
(* net/url splitHostPort: what follows the last colon, if it is all digits; [] otherwise *)
Fixpoint after_last_colon (h : bytes) : option bytes :=
  match h with
  | [] => None
  | c :: h => match after_last_colon h with
              | Some r => Some r
              | None => if c =? 58 then Some h else None
              end
  end.
Definition is_digit (c : N) : bool := (48 <=? c) && (c <=? 57).
Definition url_port (h : bytes) : bytes :=
  match after_last_colon h with
  | Some p => if forallb is_digit p then p else []
  | None => []
  end.

Inductive perr := ENilURL | EPrefixNeeded | ENoPort | ENoRemote | EScheme | EPrefixSize | EDuplicate | EBadURL.
Inductive outcome := Accepted (l : list service) | Refused (e : perr) | Panics.

Definition beqb (a b : bytes) : bool := bool_decide (a = b).
Definition maxHostPrefixSize : N := 200.     (* predef/const.go 25, 45 *)
Definition minHostPrefixSize : N := 1.       (* predef/const.go 23, 43 *)

(* one iteration of 819-869; [used] = usedIDASHostPrefix.  A nil url (a service of the file without "local") sets err
   at 821 and is then dereferenced at 832, at the latest: a panic. *)
Definition finish1 (id : bytes) (used : bool) (s : service) : (service * bool) + (perr + unit) :=
  match sURL s with
  | None => inr (inr tt)
  | Some u =>
      let timeout := if Z.eqb (sTimeout s) 0 then 120000000000%Z else sTimeout s in            (* 825-827 *)
      let random := match sRandom s with                                                  (* 828-831 *)
                    | Some b => b
                    | None => beqb (uScheme u) B_tcp && (sPort s =? 0)
                    end in
      let web := beqb (uScheme u) B_http || beqb (uScheme u) B_https in
      if web && beqb (sPrefix s) [] && used then inr (inl EPrefixNeeded)                  (* 832-841 *)
      else
        let prefix := if web && beqb (sPrefix s) [] then id else sPrefix s in
        let used' := used || (web && beqb (sPrefix s) []) in
        let with_url h := mkSvc prefix (sPort s) (Some random) (Some (mkUrl (uScheme u) h (uRest u))) timeout (sUseLocal s) in
        let check (s' : service) :=                                                       (* 865-869 *)
          if (0 <? blen prefix) && ((blen prefix <? minHostPrefixSize) || (maxHostPrefixSize <? blen prefix))
          then inr (inl EPrefixSize) else inl (s', used') in
        if beqb (uScheme u) B_http then
          check (with_url (if has_colon (uHost u) then uHost u else uHost u ++ [58;56;48]))             (* 845-848 *)
        else if beqb (uScheme u) B_https then
          check (with_url (if has_colon (uHost u) then uHost u else uHost u ++ [58;52;52;51]))          (* 849-852 *)
        else if beqb (uScheme u) B_tcp then                                               (* 853-861 *)
          if beqb (url_port (uHost u)) [] then inr (inl ENoPort)
          else if (sPort s =? 0) && negb random then inr (inl ENoRemote)
          else check (with_url (uHost u))
        else inr (inl EScheme)
  end.

Fixpoint finish (id : bytes) (used : bool) (l : list service) : list service + (perr + unit) :=
  match l with
  | [] => inl []
  | s :: l => match finish1 id used s with
              | inr e => inr e
              | inl (s', used') => match finish id used' l with
                                   | inr e => inr e
                                   | inl r => inl (s' :: r)
                                   end
              end
  end.

(* 872-881 *)
Fixpoint duplicated (l : list service) : bool :=
  match l with
  | [] => false
  | s :: l => ((0 <? blen (sPrefix s)) && existsb (fun t => beqb (sPrefix s) (sPrefix t)) l) || duplicated l
  end.

(* 770-884.  The filled list shares its pointers with nothing else, so the aliasing of 792 is settled before 818 runs. *)
Definition parseServices (parse : bytes -> option url) (c : config) : outcome :=
  match fill_services parse c (length (cLocal c) =? 1)%nat (cLocal c) with
  | None => Refused EBadURL
  | Some filled =>
      match finish (cID c) false (filled ++ cServices c) with                            (* 817 *)
      | inr (inr tt) => Panics
      | inr (inl e) => Refused e
      | inl r => if duplicated r then Refused EDuplicate else Accepted r
      end
  end.

(* ---- the comparison of a reload: config.go 179-211 [String]; [ustr] = url.URL.String *)
Definition B_service : bytes := [115;101;114;118;105;99;101;32;123;104;111;115;116;80;114;101;102;105;120;58;32].   (* "service {hostPrefix: " *)
Definition B_local : bytes := [44;32;108;111;99;97;108;58;32].                                                    (* ", local: " *)
Definition B_rport : bytes := [44;32;114;101;109;111;116;101;84;67;80;80;111;114;116;58;32].                       (* ", remoteTCPPort: " *)
Definition B_rrandom : bytes := [44;32;114;101;109;111;116;101;84;67;80;82;97;110;100;111;109;58;32].              (* ", remoteTCPRandom: " *)
Definition B_true : bytes := [116;114;117;101].
Definition B_false : bytes := [102;97;108;115;101].
(* strconv.Itoa on a uint16 *)
Fixpoint itoa_aux (fuel : nat) (v : N) : bytes :=
  match fuel with
  | O => []
  | S k => (if v / 10 =? 0 then [] else itoa_aux k (v / 10)) ++ [48 + v mod 10]
  end.
Definition itoa (v : N) : bytes := itoa_aux 5 v.
Definition service_string (ustr : url -> bytes) (s : service) : bytes :=
  B_service ++ sPrefix s ++ B_local ++ match sURL s with Some u => ustr u | None => [] end ++ B_rport ++ itoa (sPort s) ++
  match sRandom s with Some b => B_rrandom ++ (if b then B_true else B_false) | None => [] end ++ [125].
Fixpoint join_services (ustr : url -> bytes) (l : list service) : bytes :=
  match l with
  | [] => []
  | [s] => service_string ustr s
  | s :: l => service_string ustr s ++ [44] ++ join_services ustr l
  end.
Definition services_string (ustr : url -> bytes) (l : list service) : bytes := [91] ++ join_services ustr l ++ [93].

(* client.go 953-957: the reload is refused with "config did not change" when the SHA-256 of the two texts is equal.
   [hash] is any function: nothing is assumed about it. *)
Definition reload_refused_unchanged {H} (eqH : H -> H -> bool) (hash : bytes -> H) (ustr : url -> bytes) (running new : list service) : bool :=
  eqH (hash (services_string ustr new)) (hash (services_string ustr running)).
