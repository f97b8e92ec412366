(* Props_KeepAlive.v -- C88: every HTTP request of a visitor is treated by its own Host field.  Uses the models of C31, C32 (what the server routes by) and
   C34 (what the client rewrites); a request is any byte string, so r1 and r2 below are the first request and all that follows on the connection. *)
From Coq Require Import Strings.String.
From Verif Require Import GoBase GoBaseLemmas BufioModel BufioProofs HostRewriteSpec HostRewriteModel HostRewriteProofs HttpSpec HttpModel HttpProofs FlagsModel Props_Http Props_HostRewrite.
Local Open Scope N_scope.

Lemma ntake_app_le (k : N) (s t : bytes) : k <= blen s -> ntake k (s ++ t) = ntake k s.
Proof. intros H. unfold ntake, blen in *. apply take_app_le. lia. Qed.
Lemma decision_app trim target s t k r : k <= blen s -> decision_at trim target (s ++ t) k r <-> decision_at trim target s k r.
Proof.
  intros Hk. unfold decision_at. rewrite ntake_app_le by done. split; intros (pre & line & Hl & Hr); exists pre, line; (split; [|exact Hr]); [done|rewrite blen_app; lia].
Qed.
Lemma decided_app trim target s t k r : decided trim target s k r -> decided trim target (s ++ t) k r.
Proof.
  intros [H1 H2]. assert (k <= blen s) as Hk by (by destruct H1 as (? & ? & ? & _)). split; [by apply decision_app|]. intros k' r' Hk' H. apply (H2 k' r' Hk'). apply (decision_app _ _ _ t); [lia|done].
Qed.

(* The first request decides: all that follows on the connection goes to the same service, whatever its Host fields say. *)
Theorem C88_second_request_refuted trim b r1 r2 v k id : readable b -> received b = r1 ++ r2 ->
  decided trim header_host_prefix r1 k (DValue v) -> k <= 2049 -> host_denotes v id -> id <> [] ->
  exists b', http_id 4096 trim true [] b = Some (Some id, b') /\ r_stream b' = r_stream b.
Proof. intros Hb Hr Hd Hk Hh Hi. apply (C32_http_routing trim b v k id); [done|rewrite Hr; by apply decided_app|done..]. Qed.
(* A request none of whose lines begins with exactly "Host: " is not routed. *)
Theorem C88_spelling_refuted trim b k : readable b -> decided trim header_host_prefix (received b) k DEnd -> k <= 2049 ->
  exists b', http_id 4096 trim true [] b = Some (None, b') /\ r_stream b' = r_stream b.
Proof.
  intros Hb Hd Hk. destruct (C31_decided_early trim header_host_prefix b k _ Hb Hd Hk) as (b' & Hp & Hs). exists b'. unfold http_id. rewrite Hp. done.
Qed.

Definition CRLF : bytes := [13; 10].
Definition line (s : string) : bytes := bs s ++ CRLF.
Arguments line s%string_scope.
Definition req_a : bytes := line "GET / HTTP/1.1" ++ line "Host: aaa.x.org" ++ CRLF.
Definition req_b : bytes := line "GET / HTTP/1.1" ++ line "Host: bbb.x.org" ++ CRLF.
Lemma decided_by_scan s d : all_bytes s -> hscan ex_trim header_host_prefix s 0 0 s = VDec d -> exists k, k <= blen s /\ decided ex_trim header_host_prefix s k d.
Proof. intros Hb E. pose proof (hscan_spec ex_trim header_host_prefix s Hb) as H. rewrite E in H. destruct H as [k Hk]. exists k. split; [|done]. by destruct Hk as [(? & ? & ? & _) _]. Qed.
Ltac bytes_ok := apply (bool_decide_unpack _); vm_compute; exact I.
(* two requests on one connection, the second for bbb: both go to aaa *)
Theorem C88_second_request_witness :
  (exists k, k <= 2049 /\ decided ex_trim header_host_prefix req_a k (DValue (bs "aaa.x.org"))) /\ host_denotes (bs "aaa.x.org") (bs "aaa") /\ host_denotes (bs "bbb.x.org") (bs "bbb") /\
  (exists k, k <= 2049 /\ decided ex_trim header_host_prefix req_b k (DValue (bs "bbb.x.org"))) /\
  exists b', http_id 4096 ex_trim true [] (visitor [EvData (req_a ++ req_b)]) = Some (Some (bs "aaa"), b').
Proof.
  assert (forall r v, all_bytes r -> blen r <= 2049 -> hscan ex_trim header_host_prefix r 0 0 r = VDec (DValue v) -> exists k, k <= 2049 /\ decided ex_trim header_host_prefix r k (DValue v)) as H.
  { intros r v Hb Hl E. destruct (decided_by_scan r _ Hb E) as (k & Hk & Hd). exists k. split; [lia|done]. }
  split; [apply H; [unfold all_bytes, is_byte; bytes_ok|vm_compute; done|vm_compute; reflexivity]|].
  split; [by apply parse_id_spec|]. split; [by apply parse_id_spec|].
  split; [apply H; [unfold all_bytes, is_byte; bytes_ok|vm_compute; done|vm_compute; reflexivity]|].
  eexists. vm_compute. reflexivity.
Qed.
(* RFC 9112: field names in any case, white space after the colon optional *)
Theorem C88_spelling_witness : forall r, r ∈ [line "GET / HTTP/1.1" ++ line "host: aaa.x.org" ++ CRLF; line "GET / HTTP/1.1" ++ line "Host:aaa.x.org" ++ CRLF; line "GET / HTTP/1.1" ++ line "HOST: aaa.x.org" ++ CRLF] ->
  (exists k, k <= 2049 /\ decided ex_trim header_host_prefix r k DEnd) /\ exists b', http_id 4096 ex_trim true [] (visitor [EvData r]) = Some (None, b').
Proof.
  intros r Hr. assert (hscan ex_trim header_host_prefix r 0 0 r = VDec DEnd /\ all_bytes r /\ blen r <= 2049 /\ exists b', http_id 4096 ex_trim true [] (visitor [EvData r]) = Some (None, b')) as (E & Hb & Hl & Hx).
  { rewrite !elem_of_cons in Hr. unfold all_bytes, is_byte. destruct Hr as [-> |[-> |[-> |Hr]]]; [..|by apply elem_of_nil in Hr]; (split; [vm_compute; reflexivity|]); (split; [bytes_ok|]); (split; [vm_compute; done|]); eexists; vm_compute; reflexivity. }
  split; [|done]. destruct (decided_by_scan r _ Hb E) as (k & Hk & Hd). exists k. split; [lia|done].
Qed.

(* With useLocalAsHTTPHost only the first line of the whole connection that begins with "Host:" is replaced: what comes behind it is passed on as it is,
   the Host fields of further requests with it; and that line may as well be one of a body. *)
Theorem C88_rewrite_refuted h t room ps pre l rest r2 : set_host h = Some t -> line_start pre -> host_free pre -> NL ∉ l -> HOST `prefix_of` l ->
  concat ps = (pre ++ (l ++ [NL]) ++ rest) ++ r2 ->
  exists t', hwrites (host_line h) room not_reused t None ps = (map blen ps, false, t', pre ++ new_line h ++ rest ++ r2).
Proof.
  intros Ht Hls Hf Hl Hp Hc. destruct (C34_rewrite_partial h t room ps Ht) as (t' & o & -> & held & _ & Hr & Hn).
  assert (~ host_free (concat ps)) as Hnf.
  { intros Hfree. apply (Hfree pre (l ++ [NL] ++ rest ++ r2)); [rewrite Hc; by rewrite <- !app_assoc|done|by apply prefix_app_r]. }
  rewrite (Hn Hnf), app_nil_r in Hr. exists t'. f_equal. eapply rewritten_fun; [exact Hr|]. right. exists pre, (l ++ [NL]), (rest ++ r2).
  split; [rewrite Hc; by rewrite <- !app_assoc|]. split; [done|]. split; [done|]. split; [by apply prefix_app_r|]. split; [done|]. left. by exists l.
Qed.
Definition post : bytes := line "POST / HTTP/1.1" ++ line "host: aaa.x.org" ++ line "content-length: 15" ++ CRLF ++ line "x" ++ line "Host: y" ++ line "z".
Theorem C88_rewrite_witness : exists t, set_host (bs "l:80") = Some t /\
  (exists t', hwrites (host_line (bs "l:80")) 4000 not_reused t None [req_a; req_b] = ([blen req_a; blen req_b], false, t', (line "GET / HTTP/1.1" ++ line "Host: l:80" ++ CRLF) ++ req_b)) /\
  (exists t', hwrites (host_line (bs "l:80")) 4000 not_reused t None [post] = ([blen post], false, t', line "POST / HTTP/1.1" ++ line "host: aaa.x.org" ++ line "content-length: 15" ++ CRLF ++ line "x" ++ line "Host: l:80" ++ line "z")).
Proof. eexists. split; [vm_compute; reflexivity|]. split; eexists; vm_compute; reflexivity. Qed.
