(* Props_Http.v -- C31, C32, C33: what a visitor is routed by *)
From Verif Require Import GoBase GoBaseLemmas BufioModel BufioProofs HostRewriteSpec HostRewriteModel HostRewriteProofs HttpSpec HttpModel HttpProofs.
Local Open Scope N_scope.

(* A reader in its initial state over any split [src] of the visitor's bytes; 4096 = pool.MaxBufferSize *)
Notation visitor src := (mkReader [] None src).
Notation readable b := (r_ok 4096 b /\ Forall item_ok (r_stream b)).
(* the bytes that can be read from b before a read error *)
Notation received b := (lead (r_stream b)).

(* If the line that settles the routing ends within the first 2049 bytes, the outcome is the one that line gives,
   however the bytes are split over the reads, and nothing is consumed. *)
Theorem C31_decided_early trim target b k d : readable b ->
  decided trim target (received b) k d -> k <= 2049 ->
  exists b', peek_header 4096 trim target b = Some (res_of d, b') /\ r_stream b' = r_stream b.
Proof.
  intros [Hok Hit] Hd Hk.
  destruct (peek_header_spec 4096 trim target ltac:(lia) b Hok Hit) as (res & b' & Hp & _ & Hc). exists b'. rewrite Hp.
  destruct Hc as [(d' & k' & -> & Hd' & _ & Hs)|[(-> & Hs & _ & Hno)|(-> & Hno & _)]].
  - destruct (decided_fun _ _ _ _ _ _ _ Hd Hd') as [_ ->]. done.
  - exfalso. destruct Hd as [Hd _]. apply Hno in Hd. lia.
  - exfalso. destruct Hd as [Hd _]. by apply Hno in Hd.
Qed.

(* A value is only ever returned because the first settling line carries it (so it has 1..512 bytes, and its line
   ends within the 4096 bytes of the buffer); nothing is consumed. *)
Theorem C31_value_sound trim target b v b' : readable b ->
  peek_header 4096 trim target b = Some (inl v, b') ->
  r_stream b' = r_stream b /\ exists k, k <= 4096 /\ decided trim target (received b) k (DValue v).
Proof.
  intros [Hok Hit] Hp.
  destruct (peek_header_spec 4096 trim target ltac:(lia) b Hok Hit) as (res & b1 & Hp' & _ & Hc). rewrite Hp in Hp'.
  injection Hp' as <- <-.
  destruct Hc as [(d' & k' & Hr & Hd' & Hk & Hs)|[(Hr & _)|(Hr & _)]]; [|done..].
  destruct d'; try done. injection Hr as ->. split; [done|]. exists k'. done.
Qed.

(* Two splits of the same bytes give the same outcome, if one of them settles within 2049 bytes. *)
Theorem C31_split_independent_partial trim target b1 b2 k d : readable b1 -> readable b2 -> r_stream b1 = r_stream b2 ->
  decided trim target (received b1) k d -> k <= 2049 ->
  exists b1' b2', peek_header 4096 trim target b1 = Some (res_of d, b1') /\
    peek_header 4096 trim target b2 = Some (res_of d, b2') /\ r_stream b1' = r_stream b2'.
Proof.
  intros H1 H2 Hs Hd Hk. destruct (C31_decided_early trim target b1 k d H1 Hd Hk) as (b1' & Hp1 & Hs1).
  rewrite Hs in Hd. destruct (C31_decided_early trim target b2 k d H2 Hd Hk) as (b2' & Hp2 & Hs2).
  exists b1', b2'. split; [done|]. split; [done|]. congruence.
Qed.

(* If the visitor stops before any line settles the routing: the read error, when it sent at most 2048 bytes;
   a protocol error, when it sent more.  It always terminates, without crash. *)
Theorem C31_undecided trim target b : readable b ->
  (forall k d, ~ decision_at trim target (received b) k d) ->
  exists b', peek_header 4096 trim target b =
    Some (inr (if blen (received b) <=? 2048 then HRead (lead_err (r_stream b)) else HInvalidHTTPProtocol), b').
Proof.
  intros [Hok Hit] Hno.
  destruct (peek_header_spec 4096 trim target ltac:(lia) b Hok Hit) as (res & b' & Hp & _ & Hc). exists b'. rewrite Hp.
  destruct Hc as [(d' & k' & -> & [Hd _] & _)|[(-> & _ & Hl & _)|(-> & _ & Hl)]].
  - by apply Hno in Hd.
  - destruct (N.leb_spec (blen (received b)) 2048); [lia|done].
  - destruct (N.leb_spec (blen (received b)) 2048); [done|lia].
Qed.

(* Example: "G\r\nHost: a.b.c\r\n" in two different splits *)
Definition ex_req : bytes := [71; 13; 10; 72; 111; 115; 116; 58; 32; 97; 46; 98; 46; 99; 13; 10].
Definition ex_trim (w : bytes) : bytes := filter (fun c => c <> 13 /\ c <> 32) w.
Example C31_applies :
  (exists b', peek_header 4096 ex_trim header_host_prefix (visitor [EvData ex_req]) = Some (inl [97; 46; 98; 46; 99], b')) /\
  (exists b', peek_header 4096 ex_trim header_host_prefix (visitor [EvData (take 7 ex_req); EvData (drop 7 ex_req)]) = Some (inl [97; 46; 98; 46; 99], b')) /\
  decided ex_trim header_host_prefix ex_req 16 (DValue [97; 46; 98; 46; 99]).
Proof.
  split; [eexists; vm_compute; reflexivity|]. split; [eexists; vm_compute; reflexivity|].
  assert (all_bytes ex_req) as Hb by (unfold ex_req, all_bytes, is_byte; repeat (constructor; [lia|]); constructor).
  pose proof (hscan_spec ex_trim header_host_prefix ex_req Hb) as H.
  assert (hscan ex_trim header_host_prefix ex_req 0 0 ex_req = VDec (DValue [97; 46; 98; 46; 99])) as E by (vm_compute; reflexivity).
  rewrite E in H. destruct H as [k Hk]. assert (k = 16) as ->; [|done]. pose proof Hk as [Hd Hf].
  apply decision_at_le in Hd as (Hk1 & Hn & Hk2). change (blen ex_req) with 16 in Hk1.
  assert (k = 3 \/ k = 16) as [->| ->]; [|exfalso|done].
  { assert (k = 1 \/ k = 2 \/ k = 3 \/ k = 4 \/ k = 5 \/ k = 6 \/ k = 7 \/ k = 8 \/ k = 9 \/ k = 10 \/ k = 11 \/ k = 12 \/ k = 13 \/ k = 14 \/ k = 15 \/ k = 16) as Hc by lia.
    decompose [or] Hc; subst k; vm_compute in Hn; try done; [by left|by right]. }
  destruct Hk as [(pre & line & _ & Ht & _ & _ & [(w & -> & _)|(_ & _ & Hx)]) _]; [|done].
  change (ntake 3 ex_req) with [71; 13; 10] in Ht.
  assert (blen (pre ++ (header_host_prefix ++ w) ++ [NL]) = 3) as Hl by (by rewrite <- Ht).
  rewrite !blen_app in Hl. change (blen header_host_prefix) with 6 in Hl. lia.
Qed.

(* Refuted: beyond 2049 bytes the outcome depends on the split.  A request whose Host line ends at byte 2116: sent in
   one piece it is routed; sent in two pieces (2100 bytes first) it is refused. *)
Definition long_req : bytes := [71; 10] ++ repeat 120 2088 ++ [10] ++ header_host_prefix ++ [97; 46; 98; 46; 99; 13; 10].
Theorem C31_split_2048_refuted :
  (exists b', peek_header 4096 ex_trim header_host_prefix (visitor [EvData long_req]) = Some (inl [97; 46; 98; 46; 99], b')) /\
  (exists b', peek_header 4096 ex_trim header_host_prefix (visitor [EvData (ntake 2100 long_req); EvData (ndrop 2100 long_req)])
      = Some (inr HInvalidHTTPProtocol, b')).
Proof. split; eexists; vm_compute; reflexivity. Qed.

(* The ID extracted from a host name: exactly the first label of a name with at least two dots and a non-empty second label. *)
Theorem C32_host_to_id host id : parse_id_from_host host = Some id <-> host_denotes host id.
Proof. apply parse_id_spec. Qed.
Theorem C32_id_unique host id id' : host_denotes host id -> host_denotes host id' -> id = id'.
Proof. intros H H'. apply parse_id_spec in H, H'. congruence. Qed.
Example C32_applies : parse_id_from_host [97; 98; 46; 99; 46; 100] = Some [97; 98] /\
  parse_id_from_host [97; 98; 46; 99] = None /\ parse_id_from_host [97; 46; 46; 100] = None.
Proof. vm_compute. done. Qed.

(* The request is routed by the ID in its Host header (handleHTTP), for every split. *)
Theorem C32_http_routing trim b v k id : readable b ->
  decided trim header_host_prefix (received b) k (DValue v) -> k <= 2049 -> host_denotes v id -> id <> [] ->
  exists b', http_id 4096 trim true [] b = Some (Some id, b') /\ r_stream b' = r_stream b.
Proof.
  intros Hb Hd Hk Hh Hid. unfold http_id.
  destruct (C31_decided_early trim header_host_prefix b k _ Hb Hd Hk) as (b' & -> & Hs). cbn [res_of].
  destruct Hd as [(pre & line & _ & _ & _ & _ & [(w & _ & [[Hl [= ->]]|[_ [=]]])|(_ & _ & [=])]) _].
  destruct (N.ltb_spec (blen (trim w)) 1); [lia|]. apply parse_id_spec in Hh as ->.
  destruct (N.ltb_spec (blen id) 1) as [H0|H0]; [|by exists b'].
  exfalso. apply Hid, blen_0. lia.
Qed.

(* Conversely a request is routed by nothing else: whatever ID is looked up is not empty, and it is the first label of the
   value of the Host header (or the value of the configured header). *)
Theorem C32_never_empty trim is_host mux b id b' : http_id 4096 trim is_host mux b = Some (Some id, b') ->
  id <> [] /\ exists v b'', peek_header 4096 trim (if is_host then header_host_prefix else mux ++ [58]) b = Some (inl v, b'') /\
    (if is_host then host_denotes v id else id = v).
Proof.
  unfold http_id. destruct (peek_header _ _ _ b) as [[[v|e] b1]|] eqn:E; [|done|done].
  destruct is_host.
  - destruct (blen v <? 1); [done|]. destruct (parse_id_from_host v) as [i|] eqn:EP; [|done].
    destruct (N.ltb_spec (blen i) 1) as [H0|H0]; [done|]. intros [= <- <-].
    split; [intros ->; cbn in H0; lia|]. exists v, b1. split; [done|]. by apply parse_id_spec.
  - destruct (N.ltb_spec (blen v) 1) as [H0|H0]; [done|]. intros [= <- <-].
    split; [intros ->; cbn in H0; lia|]. by exists v, b1.
Qed.

(* For every byte sequence and every split: no index is out of range, the scan ends, and a name returned is a
   contiguous part of the bytes received so far. *)
Theorem C33_safe b : readable b ->
  exists r b', peek_tls_host 4096 b = Some (r, b') /\ r <> inl TPanic /\
    (forall name, r = inl (TName name) -> r_stream b' = r_stream b /\ exists pre post, received b = pre ++ name ++ post).
Proof.
  intros [Hok Hit]. unfold peek_tls_host.
  destruct (peek_more 4096 1 b) as (d & e & b1 & -> & Hok1 & He); [lia|done|lia|].
  destruct e as [e|]; [eexists _, _; split; [done|]; split; [done|]; intros ? [=]|].
  destruct He as [_ Hs]. rewrite peek_buffered by done.
  eexists _, _. split; [done|]. split; [intros [= H]; by apply tls_scan_safe in H|].
  intros name [= Hn]. split; [done|].
  assert (exists pre post, rbuf b1 = pre ++ name ++ post) as (pre & post & Hr).
  { unfold tls_scan in Hn. cbn zeta in Hn. destruct (_ <? _); [done|]. apply at_name in Hn as [rt Hn].
    destruct (negb _); [done|]. destruct (_ <? _); [done|]. apply at_name in Hn as [ht Hn].
    destruct (negb _); [done|]. destruct (_ <? _); [done|]. apply at_name in Hn as [sl Hn].
    destruct (_ <? _); [done|]. apply at16_name in Hn as [cl Hn]. destruct (_ <? _); [done|]. apply at_name in Hn as [ml Hn].
    destruct (_ <? _); [done|]. apply at16_name in Hn as [el Hn]. by apply ext_loop_name in Hn. }
  exists pre, (post ++ lead (src_stream (rsrc b1))). rewrite <- Hs. unfold r_stream. rewrite lead_app, Hr, <- !app_assoc. done.
Qed.

Lemma tls_scan_complete rver rlen hlen hver random sid ciphers comp es listlen name more post tail :
  let exts := concat (map ext_bytes es) ++ ext_bytes (0, sni_body listlen name more) ++ post in
  let hello := client_hello rver rlen hlen hver random sid ciphers comp exts in
  hello_ok rver rlen hlen hver random sid ciphers comp exts ->
  Forall (fun e => fst e <> 0 /\ fst e < 65536 /\ blen (snd e) < 65536) es -> blen listlen = 2 ->
  tls_scan (hello ++ tail) = TName name.
Proof.
  intros exts hello (H1 & H2 & H3 & H4 & H5 & H6 & H7 & H8 & H9) Hes Hll.
  assert (Hname : blen name < 65536 /\ blen (sni_body listlen name more) < 65536).
  { revert H9. unfold exts. rewrite !blen_app. unfold ext_bytes at 2. cbn [fst snd]. unfold vec16 at 1. rewrite !blen_app.
    unfold sni_body at 2 3. unfold vec16. rewrite !blen_app. lia. }
  unfold tls_scan. cbn zeta.
    assert (Hl : blen (hello ++ tail) = 1 + 2 + 2 + 1 + 3 + 2 + 32 + (1 + blen sid) + (2 + blen ciphers) + (1 + blen comp) + (2 + blen exts) + blen tail).
    { unfold hello, client_hello, vec8, vec16. rewrite !blen_app, !blen_be16. rewrite !blen_one. lia. }
    set (buf := hello ++ tail) in *.
    destruct (N.ltb_spec (blen buf) (0 + 1)); [lia|].
    assert (Hb : buf = [] ++ 22 :: (rver ++ rlen ++ [1] ++ hlen ++ hver ++ random ++ vec8 sid ++ vec16 ciphers ++ vec8 comp ++ vec16 exts ++ tail)).
    { unfold buf, hello, client_hello. rewrite <- !app_assoc. done. }
    rewrite Hb at 1. rewrite at_here by done. change (negb (22 =? 22)) with false. cbn iota. clear Hb.
    destruct (N.ltb_spec (blen buf) (1 + (2 + 2) + 1)); [lia|].
    assert (Hb : buf = ([22] ++ rver ++ rlen) ++ 1 :: (hlen ++ hver ++ random ++ vec8 sid ++ vec16 ciphers ++ vec8 comp ++ vec16 exts ++ tail)).
    { unfold buf, hello, client_hello. rewrite <- !app_assoc. done. }
    rewrite Hb at 1. rewrite at_here by (rewrite !blen_app, blen_one; lia). change (negb (1 =? 1)) with false. cbn iota. clear Hb.
    destruct (N.ltb_spec (blen buf) (1 + (2 + 2) + 1 + (3 + 2 + 32) + 1)); [lia|].
    set (p1 := [22] ++ rver ++ rlen ++ [1] ++ hlen ++ hver ++ random).
    assert (Hp1 : blen p1 = 43) by (unfold p1; rewrite !blen_app, !blen_one; lia).
    assert (Hb : buf = p1 ++ blen sid :: (sid ++ vec16 ciphers ++ vec8 comp ++ vec16 exts ++ tail)).
    { unfold buf, hello, client_hello, p1, vec8. rewrite <- !app_assoc. done. }
    rewrite Hb at 1. rewrite at_here by lia. clear Hb.
    destruct (N.ltb_spec (blen buf) (1 + (2 + 2) + 1 + (3 + 2 + 32) + (1 + blen sid) + 2)); [lia|].
    assert (Hb : buf = (p1 ++ vec8 sid) ++ be16 (blen ciphers) ++ (ciphers ++ vec8 comp ++ vec16 exts ++ tail)).
    { unfold buf, hello, client_hello, p1, vec8, vec16. rewrite <- !app_assoc. done. }
    rewrite Hb at 1. rewrite at16_here by (try done; unfold vec8; rewrite !blen_app, blen_one; lia). clear Hb.
    destruct (N.ltb_spec (blen buf) (1 + (2 + 2) + 1 + (3 + 2 + 32) + (1 + blen sid) + (2 + blen ciphers) + 1)); [lia|].
    assert (Hb : buf = (p1 ++ vec8 sid ++ vec16 ciphers) ++ blen comp :: (comp ++ vec16 exts ++ tail)).
    { unfold buf, hello, client_hello, p1, vec8, vec16. rewrite <- !app_assoc. done. }
    rewrite Hb at 1. rewrite at_here by (unfold vec8, vec16; rewrite !blen_app, blen_one, blen_be16; lia). clear Hb.
    destruct (N.ltb_spec (blen buf) (1 + (2 + 2) + 1 + (3 + 2 + 32) + (1 + blen sid) + (2 + blen ciphers) + (1 + blen comp) + 2)); [lia|].
    set (p2 := p1 ++ vec8 sid ++ vec16 ciphers ++ vec8 comp).
    assert (Hp2 : blen p2 = 43 + (1 + blen sid) + (2 + blen ciphers) + (1 + blen comp)).
    { unfold p2, vec8, vec16. rewrite !blen_app, !blen_one, blen_be16. lia. }
    assert (Hb : buf = p2 ++ be16 (blen exts) ++ (exts ++ tail)).
    { unfold buf, hello, client_hello, p2, p1, vec8, vec16. rewrite <- !app_assoc. done. }
    rewrite Hb at 1. rewrite at16_here by (try done; lia). clear Hb.
    assert (Hb : buf = (p2 ++ be16 (blen exts)) ++ concat (map ext_bytes es) ++ ext_bytes (0, sni_body listlen name more) ++ post ++ tail).
    { unfold buf, hello, client_hello, p2, p1, vec8. unfold vec16 at 2. unfold exts at 2. rewrite <- !app_assoc. done. }
    assert (Hfuel : (length es < S (length buf))%nat).
    { assert (length es <= length (concat (map ext_bytes es)))%nat.
      { clear. induction es as [|e es IH]; [cbn; lia|]. cbn [map concat length]. rewrite app_length.
        assert (1 <= length (ext_bytes e))%nat by (unfold ext_bytes, be16; cbn; lia). lia. }
      rewrite Hb, !app_length. lia. }
    rewrite Hb at 2.
    replace (1 + (2 + 2) + 1 + (3 + 2 + 32) + (1 + blen sid) + (2 + blen ciphers) + (1 + blen comp) + 2)
      with (blen (p2 ++ be16 (blen exts))) by (rewrite blen_app, blen_be16; lia).
    apply ext_loop_find; [done|done|done|tauto|tauto|]. unfold exts. rewrite !blen_app.
    unfold ext_bytes at 3. cbn [fst snd]. unfold vec16. rewrite !blen_app, !blen_be16. lia.
Qed.

(* Every well-formed ClientHello with a host_name that is entirely buffered when the connection is handed over
   (server/conn.go 121 peeks two bytes before that) gives exactly that name, and nothing is consumed. *)
Theorem C33_complete_partial b rver rlen hlen hver random sid ciphers comp es listlen name more post tail :
  let exts := concat (map ext_bytes es) ++ ext_bytes (0, sni_body listlen name more) ++ post in
  let hello := client_hello rver rlen hlen hver random sid ciphers comp exts in
  hello_ok rver rlen hlen hver random sid ciphers comp exts ->
  Forall (fun e => fst e <> 0 /\ fst e < 65536 /\ blen (snd e) < 65536) es -> blen listlen = 2 ->
  r_ok 4096 b -> rbuf b = hello ++ tail ->
  peek_tls_host 4096 b = Some (inl (TName name), b).
Proof.
  intros exts hello Hok Hes Hll Hb Hbuf. unfold peek_tls_host.
  assert (Hpos : 1 <= blen (rbuf b)).
  { rewrite Hbuf. unfold hello, client_hello. rewrite !blen_app, blen_one. lia. }
  assert (peek 4096 1 b = Some (ntake 1 (rbuf b), None, b)) as ->.
  { unfold peek. replace (S (length (rsrc b)) + N.to_nat 1)%nat with (S (S (length (rsrc b)))) by lia.
    cbn [peek_fill]. destruct (N.ltb_spec (blen (rbuf b)) 1); [lia|]. cbn [andb]. change (4096 <? 1) with false. cbn iota.
    destruct (N.ltb_spec (blen (rbuf b)) 1); [lia|done]. }
  rewrite peek_buffered by done. rewrite Hbuf. unfold hello, exts. by rewrite tls_scan_complete.
Qed.

(* The same when it arrives in the first read. *)
Theorem C33_complete_first_read rver rlen hlen hver random sid ciphers comp es listlen name more post tail src :
  let exts := concat (map ext_bytes es) ++ ext_bytes (0, sni_body listlen name more) ++ post in
  let hello := client_hello rver rlen hlen hver random sid ciphers comp exts in
  hello_ok rver rlen hlen hver random sid ciphers comp exts ->
  Forall (fun e => fst e <> 0 /\ fst e < 65536 /\ blen (snd e) < 65536) es -> blen listlen = 2 ->
  blen (hello ++ tail) <= 4096 ->
  exists b', peek_tls_host 4096 (visitor (EvData (hello ++ tail) :: src)) = Some (inl (TName name), b').
Proof.
  intros exts hello Hok Hes Hll Hlen.
  assert (Hscan : tls_scan (hello ++ tail) = TName name) by (unfold hello, exts; by apply tls_scan_complete).
  assert (Hne : hello ++ tail <> []) by (unfold hello, client_hello; done).
  assert (Hpos : 1 <= blen (hello ++ tail)) by (destruct (hello ++ tail); [done|rewrite blen_cons; lia]).
  clearbody hello. set (hb := hello ++ tail) in *. clearbody hb.
  unfold peek_tls_host, peek. cbn [rsrc length Nat.add]. cbn [peek_fill rbuf rerr].
  change (blen (@nil N) <? 1) with true. change (blen (@nil N) <? 4096) with true. cbn [andb].
  unfold fill at 1. change (4096 <=? blen (rbuf (visitor (EvData hb :: src)))) with false. cbn iota. cbn [rbuf rsrc src_read].
  change (4096 - blen (@nil N)) with 4096. destruct (N.leb_spec (blen hb) 4096); [|lia]. cbn [app rerr].
  replace (length src + N.to_nat 1)%nat with (S (length src)) by lia. cbn [peek_fill rbuf rerr].
  destruct (N.ltb_spec (blen hb) 1); [lia|]. cbn [andb]. change (4096 <? 1) with false. cbn iota. cbn [rbuf].
  destruct (N.ltb_spec (blen hb) 1); [lia|].
  cbn [rbuf rsrc]. rewrite N.ltb_irrefl. cbn [andb]. destruct (N.ltb_spec 4096 (blen hb)); [lia|]. cbn [rbuf]. rewrite N.ltb_irrefl.
  rewrite ntake_full, Hscan. by eexists.
Qed.

(* A hello with a key_share-like extension before the name, and one after it. *)
Example C33_complete_applies :
  let es := [(51, [1; 2; 3])] in
  let exts := concat (map ext_bytes es) ++ ext_bytes (0, sni_body (be16 8) [97; 46; 98; 46; 99] []) ++ ext_bytes (16, [0]) in
  hello_ok [3; 1] (be16 100) [0; 0; 96] [3; 3] (repeat 7 32) (repeat 8 32) [19; 1; 19; 2] [0] exts /\
  exists b', peek_tls_host 4096 (visitor [EvData (client_hello [3; 1] (be16 100) [0; 0; 96] [3; 3] (repeat 7 32) (repeat 8 32) [19; 1; 19; 2] [0] exts)])
   = Some (inl (TName [97; 46; 98; 46; 99]), b').
Proof. split; [vm_compute; repeat split|]. eexists. vm_compute. reflexivity. Qed.

(* Refuted: the name is only looked for in what the first read returned.  The same hello in two TCP segments is refused. *)
Theorem C33_fragmented_refuted :
  let exts := ext_bytes (0, sni_body (be16 8) [97; 46; 98; 46; 99] []) in
  let hello := client_hello [3; 1] (be16 100) [0; 0; 96] [3; 3] (repeat 7 32) (repeat 8 32) [19; 1; 19; 2] [0] exts in
  (exists b', peek_tls_host 4096 (visitor [EvData hello]) = Some (inl (TName [97; 46; 98; 46; 99]), b')) /\
  (exists b', peek_tls_host 4096 (visitor [EvData (ntake 60 hello); EvData (ndrop 60 hello)]) = Some (inl TErr, b')).
Proof. split; eexists; vm_compute; reflexivity. Qed.

(* Refuted: the lengths of the record, of the handshake message and of the extension are ignored, so that a name can
   be taken from bytes that follow the record (here record length 1). *)
Theorem C33_beyond_record_refuted :
  let exts := ext_bytes (0, sni_body (be16 8) [97; 46; 98; 46; 99] []) in
  exists b', peek_tls_host 4096 (visitor [EvData (client_hello [3; 1] (be16 1) [0; 0; 0] [3; 3] (repeat 7 32) [] [] [] exts)])
   = Some (inl (TName [97; 46; 98; 46; 99]), b').
Proof. eexists. vm_compute. reflexivity. Qed.

Print Assumptions C31_decided_early.
Print Assumptions C31_value_sound.
Print Assumptions C31_split_independent_partial.
Print Assumptions C31_undecided.
Print Assumptions C31_split_2048_refuted.
Print Assumptions C32_host_to_id.
Print Assumptions C32_http_routing.
Print Assumptions C33_safe.
Print Assumptions C33_complete_partial.
Print Assumptions C33_complete_first_read.
Print Assumptions C33_fragmented_refuted.
Print Assumptions C33_beyond_record_refuted.
