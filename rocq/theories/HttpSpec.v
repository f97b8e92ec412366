(* HttpSpec.v -- what it means for a header to decide the routing of a request (C31), for a host name to denote an ID
   (C32) and for a ClientHello to be well formed (C33).  Nothing here refers to the code. *)
From Verif Require Import GoBase HostRewriteSpec.
Local Open Scope N_scope.

(* ---- C31 ---- *)
Inductive hdec := DValue (v : bytes) | DBadLen | DEnd.
Definition CRLFCRLF : bytes := [13; 10; 13; 10].

Section S.
Context (trim : bytes -> bytes)   (* removal of surrounding white space *)
        (target : bytes).         (* "Host: ", or "<configured name>:" *)
(* The k-th byte of s ends a line which settles the question: either it starts with the header name (the rest of the
   line, trimmed, is the value; its length must be in 1..512), or it is the empty line that ends the headers. *)
Definition decision_at (s : bytes) (k : N) (r : hdec) : Prop :=
  exists pre line, k <= blen s /\ ntake k s = pre ++ line ++ [NL] /\ line_start pre /\ NL ∉ line /\
    ((exists w, line = target ++ w /\
        ((1 <= blen (trim w) <= 512 /\ r = DValue (trim w)) \/ (~ 1 <= blen (trim w) <= 512 /\ r = DBadLen))) \/
     (~ target `prefix_of` line /\ CRLFCRLF `suffix_of` (pre ++ line ++ [NL]) /\ r = DEnd)).
(* the first such line *)
Definition decided (s : bytes) (k : N) (r : hdec) : Prop :=
  decision_at s k r /\ forall k' r', k' < k -> ~ decision_at s k' r'.
End S.

(* ---- C32 ---- *)
Definition DOT : N := 46.
(* host is  id . label . anything,  the second label not empty *)
Definition host_denotes (host id : bytes) : Prop :=
  exists label rest, host = id ++ [DOT] ++ label ++ [DOT] ++ rest /\ DOT ∉ id /\ DOT ∉ label /\ label <> [].

(* ---- C33 ---- RFC 8446 4.1.2, RFC 6066 3 *)
Definition vec8 (d : bytes) : bytes := [blen d] ++ d.
Definition vec16 (d : bytes) : bytes := be16 (blen d) ++ d.
Definition ext_bytes (e : N * bytes) : bytes := be16 (fst e) ++ vec16 (snd e).
(* the body of a server_name extension whose first name is the host_name [name] *)
Definition sni_body (listlen : bytes) (name more : bytes) : bytes := listlen ++ [0] ++ vec16 name ++ more.
Definition client_hello (rver rlen hlen hver random sid ciphers comp exts : bytes) : bytes :=
  [22] ++ rver ++ rlen ++ [1] ++ hlen ++ hver ++ random ++ vec8 sid ++ vec16 ciphers ++ vec8 comp ++ vec16 exts.
Definition hello_ok (rver rlen hlen hver random sid ciphers comp exts : bytes) : Prop :=
  blen rver = 2 /\ blen rlen = 2 /\ blen hlen = 3 /\ blen hver = 2 /\ blen random = 32 /\
  blen sid < 256 /\ blen ciphers < 65536 /\ blen comp < 256 /\ blen exts < 65536.
