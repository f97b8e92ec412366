(* HandshakeProofs.v *)
From Verif Require Import GoBase GoBaseLemmas BufioModel BufioProofs HandshakeModel HandshakeSpec.
Local Open Scope N_scope.

(* ---- the reading idioms on streams ---- *)
Lemma s_run_rbyte_B {A} (fail : err -> prog A) k b s : s_run (rbyte fail k) (B b :: s) = s_run (k b) s.
Proof. done. Qed.
Lemma s_run_peekd {A} n (fail : err -> prog A) k s :
  s_run (peekd n fail k) s =
  match s_take (N.to_nat n) s with
  | (d, None, r) => s_run (k d) r
  | (d, Some e, r) => s_run (fail e) (map B d ++ r)
  end.
Proof.
  unfold peekd. simpl. unfold s_peek.
  destruct (s_take (N.to_nat n) s) as [[d [e|]] r] eqn:Ht; [done|].
  simpl. unfold s_discard. apply s_take_none in Ht as [_ Hl].
  rewrite s_take_le by lia. rewrite <- Hl, drop_all. done.
Qed.
Lemma s_run_peekd_B {A} n (fail : err -> prog A) k d s : blen d = n ->
  s_run (peekd n fail k) (map B d ++ s) = s_run (k d) s.
Proof.
  intros Hn. rewrite s_run_peekd. rewrite s_take_le by (unfold blen in *; lia).
  replace (N.to_nat n) with (length d) by (unfold blen in *; lia).
  rewrite drop_all, firstn_all. done.
Qed.

Lemma s_run_peekd_0 {A} (fail : err -> prog A) k s : s_run (peekd 0 fail k) s = s_run (k []) s.
Proof. done. Qed.
Lemma s_run_peekd_2 {A} (fail : err -> prog A) k b0 b1 s :
  s_run (peekd 2 fail k) (B b0 :: B b1 :: s) = s_run (k [b0; b1]) s.
Proof. apply (s_run_peekd_B 2 fail k [b0; b1]); done. Qed.
Lemma s_run_peekd_4 {A} (fail : err -> prog A) k b0 b1 b2 b3 s :
  s_run (peekd 4 fail k) (B b0 :: B b1 :: B b2 :: B b3 :: s) = s_run (k [b0; b1; b2; b3]) s.
Proof. apply (s_run_peekd_B 4 fail k [b0; b1; b2; b3]); done. Qed.

(* ---- the encoder without truncation ---- *)
Definition enc_service (id : bytes) (s : service) : bytes :=
  match svScheme s with
  | SchTCP => [1; if svTCPRandom s then 1 else 0; u8 (N.shiftr (svTCPPort s) 8); u8 (svTCPPort s)]
  | SchHTTP => if decide (svHostPrefix s = id) then [0] else 3 :: blen (svHostPrefix s) :: svHostPrefix s
  | SchHTTPS => if decide (svHostPrefix s = id) then [4] else 5 :: blen (svHostPrefix s) :: svHostPrefix s
  | SchOther => []
  end.
Fixpoint enc_services (id : bytes) (ss : list service) : bytes :=
  match ss with
  | [] => []
  | [s] => enc_service id s
  | s :: ss' => 2 :: enc_service id s ++ enc_services id ss'
  end.
Definition enc_handshake id secret ss : bytes :=
  blen id :: id ++ blen secret :: secret ++ enc_services id ss.

Lemma blen_enc_service id s : blen (enc_service id s) = service_size id s.
Proof.
  unfold enc_service, service_size. destruct (svScheme s); try done.
  - destruct (decide _); [done|]. rewrite !blen_cons; lia.
  - destruct (decide _); [done|]. rewrite !blen_cons; lia.
Qed.
Lemma blen_enc_services id ss :
  blen (enc_services id ss) = foldr (fun s n => service_size id s + n) 0 ss + (blen ss - 1).
Proof.
  induction ss as [|s ss IH]; [done|].
  destruct ss as [|s' ss'].
  - simpl. rewrite blen_enc_service. unfold blen; simpl. lia.
  - change (enc_services id (s :: s' :: ss')) with (2 :: enc_service id s ++ enc_services id (s' :: ss')).
    rewrite blen_cons, blen_app, IH, blen_enc_service.
    rewrite (blen_cons s), (blen_cons s'). cbn [foldr]. lia.
Qed.

Lemma put_ok cap x w : blen w < cap -> x < 256 -> put cap x w = Some (w ++ [x]).
Proof. intros. unfold put. destruct (blen w <? cap) eqn:H1; [|lia]. rewrite u8_id by done. done. Qed.
Lemma put_ok8 cap x w : blen w < cap -> put cap x w = Some (w ++ [u8 x]).
Proof. intros. unfold put. destruct (blen w <? cap) eqn:H1; [|lia]. done. Qed.
Lemma cpy_ok cap s w : blen w + blen s <= cap -> cpy cap s w = Some (w ++ s).
Proof. intros. unfold cpy. rewrite ntake_all by lia. done. Qed.

Lemma gen_service_ok cap id s w : service_ok s -> blen w + service_size id s <= cap ->
  gen_service cap id s w = Some (w ++ enc_service id s).
Proof.
  intros (Hsch & Hp & Hport) Hfit. unfold gen_service, service_size, enc_service in *.
  destruct (svScheme s) eqn:Es; [| | |done].
  - rewrite cpy_ok by (unfold OpenTCPPort; rewrite blen_cons, blen_nil; lia). simpl.
    rewrite put_ok; [|rewrite blen_app; unfold OpenTCPPort; rewrite blen_cons, blen_nil; lia|destruct (svTCPRandom s); lia]. simpl.
    rewrite put_ok8 by (rewrite !blen_app; unfold OpenTCPPort; rewrite !blen_cons, !blen_nil; lia). simpl.
    rewrite put_ok8 by (rewrite !blen_app; unfold OpenTCPPort; rewrite !blen_cons, !blen_nil; lia). simpl.
    rewrite <- !app_assoc. done.
  - destruct (decide (svHostPrefix s = id)).
    + rewrite cpy_ok; [done|]. change (blen IDAsHostPrefix) with 1; lia.
    + rewrite cpy_ok by (change (blen OpenHost) with 1; lia). simpl.
      rewrite put_ok; [|rewrite blen_app; change (blen OpenHost) with 1; lia|lia]. simpl.
      rewrite cpy_ok; [|rewrite !blen_app; change (blen OpenHost) with 1; rewrite blen_one; lia].
      rewrite <- !app_assoc. done.
  - destruct (decide (svHostPrefix s = id)).
    + rewrite cpy_ok; [done|]. change (blen IDAsTLSHostPrefix) with 1; lia.
    + rewrite cpy_ok by (change (blen OpenTLSHost) with 1; lia). simpl.
      rewrite put_ok; [|rewrite blen_app; change (blen OpenTLSHost) with 1; lia|lia]. simpl.
      rewrite cpy_ok; [|rewrite !blen_app; change (blen OpenTLSHost) with 1; rewrite blen_one; lia].
      rewrite <- !app_assoc. done.
Qed.

Lemma gen_services_ok cap id ss w : Forall service_ok ss -> blen w + blen (enc_services id ss) <= cap ->
  gen_services cap id ss w = Some (w ++ enc_services id ss).
Proof.
  revert w; induction ss as [|s ss IH]; intros w Hok Hfit.
  - simpl. rewrite app_nil_r; done.
  - apply Forall_cons_1 in Hok as [Hs Hok]. destruct ss as [|s' ss'].
    + simpl in *. apply gen_service_ok; [done|]. rewrite blen_enc_service in Hfit. lia.
    + change (gen_services cap id (s :: s' :: ss') w) with
        (w ← cpy cap OptionAndNextOption w; w ← gen_service cap id s w; gen_services cap id (s' :: ss') w).
      change (enc_services id (s :: s' :: ss')) with (2 :: enc_service id s ++ enc_services id (s' :: ss')) in *.
      rewrite blen_cons, blen_app, blen_enc_service in Hfit.
      rewrite cpy_ok by (change (blen OptionAndNextOption) with 1; lia). cbn [mbind option_bind].
      rewrite gen_service_ok; [|done|rewrite blen_app; change (blen OptionAndNextOption) with 1; lia].
      cbn [mbind option_bind].
      rewrite IH; [|done|rewrite !blen_app, blen_enc_service; change (blen OptionAndNextOption) with 1; lia].
      rewrite <- !app_assoc. done.
Qed.

Lemma gen_ok cap id secret ss : Forall service_ok ss -> blen id <= 255 -> blen secret <= 255 ->
  handshake_size id secret ss <= cap + 2 ->
  gen cap id secret ss = Some (enc_handshake id secret ss).
Proof.
  intros Hok Hid Hsec Hsz. unfold handshake_size in Hsz. rewrite <- N.add_assoc, <- blen_enc_services in Hsz.
  unfold gen. rewrite put_ok; [|blens; lia|lia]. cbn [mbind option_bind].
  rewrite cpy_ok by (blens; lia). cbn [mbind option_bind].
  rewrite put_ok; [|blens; lia|lia]. cbn [mbind option_bind].
  rewrite cpy_ok; [|blens; lia]. cbn [mbind option_bind].
  rewrite gen_services_ok; [|done|blens; lia].
  unfold enc_handshake. rewrite <- !app_assoc. done.
Qed.

(* ---- the decoder on encoded services ---- *)
Lemma regex_ok_true u p : uRegex u = [] \/ (exists r, r ∈ uRegex u /\ r p = true) -> regex_ok u p = true.
Proof.
  unfold regex_ok. intros [->|(r & Hr & Hm)]; [done|].
  destruct (uRegex u) as [|r0 rs]; [done|]. apply existsb_exists.
  exists r. split; [|done]. by apply elem_of_list_In.
Qed.

Lemma size_insert_le {V} (m : gmap bytes V) k v : (size (<[k:=v]> m) <= S (size m))%nat.
Proof. destruct (m !! k) eqn:Hk;
    [rewrite map_size_insert_Some by eauto|rewrite map_size_insert_None by eauto]; lia. Qed.
Lemma size_insert_leN {V} (m : gmap N V) k v : (size (<[k:=v]> m) <= S (size m))%nat.
Proof. destruct (m !! k) eqn:Hk;
    [rewrite map_size_insert_Some by eauto|rewrite map_size_insert_None by eauto]; lia. Qed.

Section Decode.
Context (maxOptions : N) (id : bytes) (u : ucfg) (Hid : blen id <= 255).

(* number of host / tcp services *)
Definition nh (ss : list service) : N := blen (filter (fun s => is_host_service s = true) ss).
Definition nt (ss : list service) : N := blen (filter (fun s => is_tcp_service s = true) ss).

Lemma nh_cons s ss : nh (s :: ss) = (if is_host_service s then 1 else 0) + nh ss.
Proof. unfold nh. rewrite filter_cons. destruct (is_host_service s) eqn:E; case_decide; try done.
  rewrite blen_cons. done. Qed.
Lemma nt_cons s ss : nt (s :: ss) = (if is_tcp_service s then 1 else 0) + nt ss.
Proof. unfold nt. rewrite filter_cons. destruct (is_tcp_service s) eqn:E; case_decide; try done.
  rewrite blen_cons. done. Qed.

Definition svc_ids (s : service) (i : N) (m : hpopts) : hpopts :=
  match svScheme s with
  | SchHTTP => <[public_name id (uWithID u) s := (i, false)]> m
  | SchHTTPS => <[public_name id (uWithID u) s := (i, true)]> m
  | _ => m
  end.
Definition svc_ports (s : service) (i : N) (m : tcpopts) : tcpopts :=
  match svScheme s with SchTCP => <[i := (svTCPPort s, svTCPRandom s)]> m | _ => m end.

(* one service option *)
Lemma decode_service s fuel left cnt si ids ports rest :
  service_ok s -> cnt + 1 <= maxOptions -> cnt + 1 < 65536 -> si + 1 < 65536 ->
  (uHostNumber u = 0 \/ N.of_nat (size ids) + (if is_host_service s then 1 else 0) <= uHostNumber u < 4294967296) ->
  (uTCPNumber u = 0 \/ N.of_nat (size ports) + (if is_tcp_service s then 1 else 0) <= uTCPNumber u < 65536) ->
  (is_host_service s = true -> svHostPrefix s <> id ->
     uRegex u = [] \/ exists r, r ∈ uRegex u /\ r (svHostPrefix s) = true) ->
  s_run (parse_options maxOptions id u (S fuel) (S left) cnt si ids ports) (map B (enc_service id s) ++ rest)
  = s_run (parse_options maxOptions id u fuel left (cnt + 1) (si + 1) (svc_ids s si ids) (svc_ports s si ports)) rest.
Proof.
  intros (Hsch & Hpl & Hport) Hmax Hcnt Hsi Hhn Htn Hre.
  assert (Hhf : is_host_service s = true -> host_full u ids = false).
  { intros E. rewrite E in Hhn. unfold host_full. destruct (uHostNumber u =? 0) eqn:Ez; [done|]. simpl.
    destruct Hhn as [Hhn|Hhn]; [lia|]. rewrite !u32_id by (rewrite ?u32_id; lia). lia. }
  assert (Htf : is_tcp_service s = true -> tcp_full u ports = false).
  { intros E. rewrite E in Htn. unfold tcp_full. destruct (uTCPNumber u =? 0) eqn:Ez; [done|]. simpl.
    destruct Htn as [Htn|Htn]; [lia|]. rewrite !u16_id by (rewrite ?u16_id; lia). lia. }
  cbn [parse_options]. rewrite (u16_id (cnt + 1)) by lia. rewrite (u16_id (si + 1)) by lia.
  destruct (maxOptions <? cnt + 1) eqn:Hm; [lia|].
  unfold is_host_service, is_tcp_service in *. unfold enc_service, svc_ids, svc_ports, public_name.
  destruct (svScheme s) eqn:Es; [| | |done].
  - cbn [map app]. rewrite s_run_rbyte_B. change (N.shiftr 1 6) with 0.
    rewrite s_run_peekd_0.
    repeat (rewrite decide_False by done). rewrite decide_True by done.
    rewrite Htf by done. rewrite s_run_rbyte_B.
    rewrite s_run_peekd_2.
    rewrite rd16_be16 by done. destruct (svTCPRandom s); done.
  - destruct (decide (svHostPrefix s = id)) as [He|He].
    + cbn [map app]. rewrite s_run_rbyte_B. change (N.shiftr 0 6) with 0.
      rewrite s_run_peekd_0.
      repeat (rewrite decide_False by done). rewrite decide_True by done.
      rewrite Hhf by done. done.
    + cbn [map app]. rewrite s_run_rbyte_B. change (N.shiftr 3 6) with 0.
      rewrite s_run_peekd_0.
      repeat (rewrite decide_False by done). rewrite decide_True by done.
      rewrite Hhf by done. rewrite s_run_rbyte_B. rewrite s_run_peekd_B by done.
      rewrite regex_ok_true by auto. done.
  - destruct (decide (svHostPrefix s = id)) as [He|He].
    + cbn [map app]. rewrite s_run_rbyte_B. change (N.shiftr 4 6) with 0.
      rewrite s_run_peekd_0.
      rewrite decide_True by done.
      rewrite Hhf by done. done.
    + cbn [map app]. rewrite s_run_rbyte_B. change (N.shiftr 5 6) with 0.
      rewrite s_run_peekd_0.
      repeat (rewrite decide_False by done). rewrite decide_True by done.
      rewrite Hhf by done. rewrite s_run_rbyte_B. rewrite s_run_peekd_B by done.
      rewrite regex_ok_true by auto. done.
Qed.

Lemma decode_next fuel left cnt si ids ports rest :
  cnt + 1 <= maxOptions -> cnt + 1 < 65536 ->
  s_run (parse_options maxOptions id u (S fuel) (S left) cnt si ids ports) (B 2 :: rest)
  = s_run (parse_options maxOptions id u fuel (S (S left)) (cnt + 1) si ids ports) rest.
Proof.
  intros Hmax Hcnt. cbn [parse_options]. rewrite (u16_id (cnt + 1)) by lia.
  destruct (maxOptions <? cnt + 1) eqn:Hm; [lia|].
  rewrite s_run_rbyte_B. change (N.shiftr 2 6) with 0. rewrite s_run_peekd_0.
  repeat (rewrite decide_False by done). rewrite decide_True by done. done.
Qed.

Lemma decode_services ss : forall fuel cnt si ids ports rest,
  ss <> [] -> Forall service_ok ss -> (2 * length ss <= fuel)%nat ->
  cnt + (2 * blen ss - 1) <= maxOptions -> cnt + 2 * blen ss < 65536 -> si + blen ss < 65536 ->
  (uHostNumber u = 0 \/ N.of_nat (size ids) + nh ss <= uHostNumber u < 4294967296) ->
  (uTCPNumber u = 0 \/ N.of_nat (size ports) + nt ss <= uTCPNumber u < 65536) ->
  Forall (fun s => is_host_service s = true -> svHostPrefix s <> id ->
     uRegex u = [] \/ exists r, r ∈ uRegex u /\ r (svHostPrefix s) = true) ss ->
  s_run (parse_options maxOptions id u fuel 1 cnt si ids ports) (map B (enc_services id ss) ++ rest)
  = (inl (mkOpts (wanted_ids id (uWithID u) si ss ids) (wanted_ports si ss ports)), rest).
Proof.
  induction ss as [|s ss IH]; intros fuel cnt si ids ports rest Hne Hok Hf Hmax Hcnt Hsi Hhn Htn Hre; [done|].
  apply Forall_cons_1 in Hok as [Hs Hok]. apply Forall_cons_1 in Hre as [Hres Hre].
  rewrite nh_cons in Hhn. rewrite nt_cons in Htn. rewrite blen_cons in *.
  destruct ss as [|s' ss'].
  - cbn [enc_services length] in *. rewrite (blen_nil (A:=service)) in *.
    destruct fuel as [|fuel]; [lia|].
    change (nh []) with 0 in *. change (nt []) with 0 in *.
    rewrite decode_service; [|done|lia|lia|lia|lia|lia|done].
    destruct fuel; cbn [parse_options s_run]; done.
  - change (enc_services id (s :: s' :: ss')) with (2 :: enc_service id s ++ enc_services id (s' :: ss')).
    cbn [map app]. rewrite map_app, <- app_assoc.
    destruct fuel as [|[|fuel]]; [cbn [length] in Hf; lia..|].
    assert (1 <= blen (s' :: ss')) by (rewrite blen_cons; lia).
    rewrite decode_next by lia.
    rewrite decode_service; [|done|lia|lia|lia|lia|lia|done].
    assert (Hids : (size (svc_ids s si ids) <= size ids + (if is_host_service s then 1 else 0))%nat).
    { unfold svc_ids, is_host_service. destruct (svScheme s); try lia.
      all: rewrite Nat.add_1_r; apply size_insert_le. }
    assert (Hports : (size (svc_ports s si ports) <= size ports + (if is_tcp_service s then 1 else 0))%nat).
    { unfold svc_ports, is_tcp_service. destruct (svScheme s); try lia.
      all: rewrite Nat.add_1_r; apply size_insert_leN. }
    rewrite IH; [|done|done|cbn [length] in *; lia|lia|lia|lia| | |done].
    + cbn [wanted_ids wanted_ports]. done.
    + destruct (is_host_service s); lia.
    + destruct (is_tcp_service s); lia.
Qed.
End Decode.

Lemma blen_le_size id ss : Forall service_ok ss -> blen ss <= blen (enc_services id ss).
Proof.
  induction ss as [|s ss IH]; intros Hok; [done|].
  apply Forall_cons_1 in Hok as [Hs Hok]. specialize (IH Hok).
  assert (1 <= blen (enc_service id s)).
  { unfold enc_service. destruct Hs as (Hs & _). destruct (svScheme s); try done;
    repeat case_decide; rewrite ?blen_cons; lia. }
  destruct ss as [|s' ss'].
  - simpl. rewrite blen_cons, blen_nil. lia.
  - change (enc_services id (s :: s' :: ss')) with (2 :: enc_service id s ++ enc_services id (s' :: ss')).
    rewrite (blen_cons s), (blen_cons 2), blen_app. lia.
Qed.

Lemma dispatch_tunnel s : s_run handle_dispatch (B MagicNumber :: B 1 :: s) = (FbTunnel, s).
Proof. done. Qed.

Lemma handle_tunnel_local fuel maxOptions auth u id secret s :
  blen id <= 255 -> blen secret <= 255 -> auth id secret = Some u ->
  s_run (handle_tunnel fuel maxOptions (AuthLocal auth))
    (map B (blen id :: id ++ blen secret :: secret) ++ s) =
  let '(r, s') := s_run (parse_options maxOptions id u fuel 1 0 0 ∅ ∅) s in
  (match r with inl o => HsOk id secret o | inr e => HsOptErr id secret e end, s').
Proof.
  intros Hid Hsec Hauth. unfold handle_tunnel.
  cbn [map app]. rewrite s_run_rbyte_B.
  destruct ((blen id <? 1) && (200 <? blen id)) eqn:Hc; [lia|].
  rewrite map_app, <- app_assoc. rewrite s_run_peekd_B by done.
  cbn [map app]. rewrite s_run_rbyte_B.
  destruct ((blen secret <? 1) && (200 <? blen secret)) eqn:Hc2; [lia|].
  rewrite s_run_peekd_B by done.
  rewrite Hauth, s_run_bind. destruct (s_run _ s) as [[o|e] s']; done.
Qed.

Lemma handshake_roundtrip_lemma bufsize maxOptions auth u id secret ss rest fuel :
  blen id <= 255 -> blen secret <= 255 -> ss <> [] -> Forall service_ok ss ->
  handshake_size id secret ss <= bufsize -> bufsize <= 4096 ->
  auth id secret = Some u -> admitted maxOptions u id ss -> (2 * length ss <= fuel)%nat ->
  exists w, init_wire bufsize id secret ss = Some w /\
   s_run (hs_prog fuel maxOptions (AuthLocal auth)) (map B w ++ rest) =
     (Some (HsOk id secret (mkOpts (wanted_ids id (uWithID u) 0 ss ∅) (wanted_ports 0 ss ∅))), rest).
Proof.
  intros Hid Hsec Hne Hok Hsz Hbs Hauth (Hmax & Hhn & Htn & Hre) Hfuel.
  assert (Hsz2 : handshake_size id secret ss >= 4) by (unfold handshake_size; lia).
  unfold init_wire. rewrite gen_ok; [|done|done|done|lia].
  cbn [mbind option_bind]. eexists; split; [done|].
  unfold hs_prog. rewrite s_run_bind. cbn [map app]. rewrite dispatch_tunnel.
  rewrite s_run_bind.
  unfold enc_handshake.
  change (blen id :: id ++ blen secret :: secret ++ enc_services id ss) with
    (blen id :: id ++ (blen secret :: secret) ++ enc_services id ss).
  rewrite app_assoc, app_comm_cons, map_app, <- app_assoc.
  rewrite (handle_tunnel_local _ _ _ u) by done.
  assert (Hbl : blen ss < 4096).
  { pose proof (blen_le_size id ss Hok). unfold handshake_size in Hsz.
    rewrite <- N.add_assoc, <- blen_enc_services in Hsz. lia. }
  rewrite decode_services; [done|done|done|done|done|lia|lia|lia| | |done].
  - change (N.of_nat (size ∅)) with 0. destruct Hhn as [|Hhn]; [by left|right]. unfold nh. lia.
  - change (N.of_nat (size ∅)) with 0. destruct Htn as [|Htn]; [by left|right]. unfold nt. lia.
Qed.

(* ---- peeks stay inside the buffer ---- *)
Lemma peeks_ok_peekd {A} cap n (fail : err -> prog A) k :
  n <= cap -> (forall e, peeks_ok cap (fail e)) -> (forall d, all_bytes d -> peeks_ok cap (k d)) ->
  peeks_ok cap (peekd n fail k).
Proof.
  intros Hn Hf Hk. unfold peekd. simpl. split; [done|]. intros d [e|] Hd; [done|].
  simpl. intros [c [e|]]; auto.
Qed.
Lemma peeks_ok_rbyte {A} cap (fail : err -> prog A) k :
  (forall e, peeks_ok cap (fail e)) -> (forall b, is_byte b -> peeks_ok cap (k b)) -> peeks_ok cap (rbyte fail k).
Proof. intros Hf Hk. unfold rbyte. simpl. intros [b|e] Hb; auto. Qed.

Lemma shiftr6_le x : N.shiftr x 6 <= x.
Proof. rewrite N.shiftr_div_pow2. change (2^6) with 64. lia. Qed.
Lemma shiftr6_3 x : is_byte x -> N.shiftr x 6 <= 3.
Proof. unfold is_byte. rewrite N.shiftr_div_pow2. change (2^6) with 64. lia. Qed.

Lemma parse_options_peeks cap maxOptions id u : 255 <= cap -> forall fuel left cnt si ids ports,
  peeks_ok cap (parse_options maxOptions id u fuel left cnt si ids ports).
Proof.
  intros Hcap. induction fuel as [|fuel IH]; intros [|left] cnt si ids ports; try exact I.
  cbn [parse_options]. destruct (_ <? _); [exact I|].
  apply peeks_ok_rbyte; [intros; exact I|]. intros first Hf.
  apply peeks_ok_peekd; [pose proof (shiftr6_3 first Hf); lia|intros; exact I|]. intros more Hm.
  assert (Hhost : forall tls, peeks_ok cap
    (rbyte (fun e => PRet (inr (PeRead e))) (fun n => peekd n (fun e => PRet (inr (PeRead e))) (fun p =>
      if regex_ok u p then parse_options maxOptions id u fuel left (u16 (cnt + 1)) (u16 (si + 1))
         (<[full_prefix id u p := (si, tls)]> ids) ports else PRet (inr PeRegex))))).
  { intros tls. apply peeks_ok_rbyte; [intros; exact I|]. intros n Hn.
    apply peeks_ok_peekd; [unfold is_byte in Hn; lia|intros; exact I|]. intros p Hp.
    destruct (regex_ok u p); [apply IH|exact I]. }
  repeat case_decide; repeat match goal with |- context [if ?b then _ else _] => destruct b end;
    try exact I; try apply IH; auto.
  apply peeks_ok_rbyte; [intros; exact I|]. intros rnd _.
  apply peeks_ok_peekd; [lia|intros; exact I|]. intros [|p0 [|p1 [|]]] Hp; try exact I. apply IH.
Qed.

Lemma handle_tunnel_peeks cap fuel maxOptions mode : 255 <= cap ->
  peeks_ok cap (handle_tunnel fuel maxOptions mode).
Proof.
  intros Hcap. unfold handle_tunnel.
  apply peeks_ok_rbyte; [intros; exact I|]. intros n Hn. destruct (_ && _); [exact I|].
  apply peeks_ok_peekd; [unfold is_byte in Hn; lia|intros; exact I|]. intros idd Hid.
  apply peeks_ok_rbyte; [intros; exact I|]. intros m Hm. destruct (_ && _); [exact I|].
  apply peeks_ok_peekd; [unfold is_byte in Hm; lia|intros; exact I|]. intros sec Hsec.
  destruct mode as [f|d f].
  - destruct (f idd sec); [|exact I]. apply peeks_ok_bind; [by apply parse_options_peeks|].
    intros [o|e]; exact I.
  - apply peeks_ok_bind; [by apply parse_options_peeks|].
    intros [o|e]; [|exact I]. destruct (f _ _ _); exact I.
Qed.
Lemma hs_prog_peeks cap fuel maxOptions mode : 255 <= cap -> peeks_ok cap (hs_prog fuel maxOptions mode).
Proof.
  intros Hcap. unfold hs_prog. apply peeks_ok_bind.
  - unfold handle_dispatch. simpl. split; [lia|]. intros d [e|] Hd; [exact I|].
    destruct d as [|v0 [|v1 [|]]]; try exact I.
    destruct (v0 =? _); [|exact I]. destruct (v1 =? 1); [simpl; intros [? [|]]; exact I|].
    destruct (v1 =? 2); [simpl; intros [? [|]]; exact I|]. exact I.
  - intros [| | |e]; try exact I. apply peeks_ok_bind; [by apply handle_tunnel_peeks|]. intros; exact I.
Qed.

(* ---- one iteration of parseOptions, on any stream ---- *)
Lemma s_run_rbyte_inv {A} (fail : err -> prog A) k s r s' :
  s_run (rbyte fail k) s = (r, s') ->
  (exists e s1, s_run (fail e) s1 = (r, s') /\ (length s <= length s1 + 1)%nat) \/
  (exists b s1, s = B b :: s1 /\ s_run (k b) s1 = (r, s')).
Proof.
  unfold rbyte. simpl. destruct s as [|[b|e] s1]; simpl; intros H.
  - left. exists EEOF, []. split; [done|simpl; lia].
  - right. eauto.
  - left. exists e, s1. split; [done|lia].
Qed.
Lemma s_take_some n s d e r : s_take n s = (d, Some e, r) -> (length s <= length d + length r + 1)%nat.
Proof.
  revert s d r; induction n as [|n IH]; intros s d r; simpl; [done|].
  destruct s as [|[b|e'] s']; try (intros [= <- <- <-]; simpl; lia).
  destruct (s_take n s') as [[d' e'] r'] eqn:Heq. intros [= <- -> ->]. apply IH in Heq. simpl. lia.
Qed.
Lemma s_run_peekd_inv {A} n (fail : err -> prog A) k s r s' :
  s_run (peekd n fail k) s = (r, s') ->
  (exists e s1, s_run (fail e) s1 = (r, s') /\ (length s <= length s1 + 1)%nat) \/
  (exists d s1, s = map B d ++ s1 /\ blen d = n /\ s_run (k d) s1 = (r, s')).
Proof.
  rewrite s_run_peekd. destruct (s_take (N.to_nat n) s) as [[d [e|]] s1] eqn:Ht; intros H.
  - left. exists e, (map B d ++ s1). split; [done|]. apply s_take_some in Ht.
    rewrite app_length, map_length. lia.
  - right. exists d, s1. apply s_take_none in Ht as [-> Hl]. repeat split; auto. unfold blen; lia.
Qed.

Section Inv.
Context (maxOptions : N) (id : bytes) (u : ucfg).

(* What one option does to the option tables. [c] are the bytes of the option. *)
Inductive opt_step (c : bytes) (si : N) (ids : hpopts) (ports : tcpopts) (left : nat)
  : N -> hpopts -> tcpopts -> nat -> Prop :=
  | os_next : opt_step c si ids ports left si ids ports (S (S left))
  | os_id tls : host_full u ids = false ->
      opt_step c si ids ports left (u16 (si + 1)) (<[id := (si, tls)]> ids) ports left
  | os_host tls p : host_full u ids = false -> regex_ok u p = true ->
      (exists pre, c = pre ++ p) ->
      opt_step c si ids ports left (u16 (si + 1)) (<[full_prefix id u p := (si, tls)]> ids) ports left
  | os_tcp port rnd : tcp_full u ports = false ->
      opt_step c si ids ports left (u16 (si + 1)) ids (<[si := (port, rnd)]> ports) left.

Lemma parse_step fuel left cnt si ids ports s r s' : Forall item_ok s ->
  s_run (parse_options maxOptions id u (S fuel) (S left) cnt si ids ports) s = (r, s') ->
  (exists e, r = inr e /\ e <> PeOutOfFuel /\ (length s <= length s' + 260)%nat) \/
  (exists c s1 si1 ids1 ports1 left1,
     u16 (cnt + 1) <= maxOptions /\ s = map B c ++ s1 /\ (1 <= length c <= 260)%nat /\
     opt_step c si ids ports left si1 ids1 ports1 left1 /\
     s_run (parse_options maxOptions id u fuel left1 (u16 (cnt + 1)) si1 ids1 ports1) s1 = (r, s')).
Proof.
  intros Hitems. cbn [parse_options]. destruct (_ <? u16 (cnt + 1)) eqn:Hmx.
  { simpl. intros [= <- <-]. left. exists PeMaxOptions. repeat split; [done|lia]. }
  assert (Hcnt : u16 (cnt + 1) <= maxOptions) by lia. clear Hmx.
  set (cnt' := u16 (cnt + 1)) in *.
  assert (Hbad : forall e1 s1, s_run (@PRet (opts + perr) (inr (PeRead e1))) s1 = (r, s') -> (length s <= length s1 + 260)%nat ->
    exists e, r = inr e /\ e <> PeOutOfFuel /\ (length s <= length s' + 260)%nat).
  { intros e1 s1 H Hl. exists (PeRead e1). simpl in H. injection H as <- <-. done. }
  intros H. apply s_run_rbyte_inv in H as [(e & s1 & H & Hl)|(first & s1 & -> & H)].
  { left. eapply Hbad; [done|lia]. }
  apply Forall_cons_1 in Hitems as [Hfirst Hitems].
  apply s_run_peekd_inv in H as [(e & s2 & H & Hl)|(more & s2 & -> & Hmore & H)].
  { left. eapply Hbad; [done|]. simpl. lia. }
  apply Forall_app in Hitems as [_ Hitems].
  assert (Hml : (length more <= 3)%nat).
  { pose proof (shiftr6_3 first Hfirst). unfold blen in *. lia. }
  assert (Hid : forall tls, s_run (if host_full u ids then PRet (inr PeHostNumber)
        else parse_options maxOptions id u fuel left cnt' (u16 (si + 1)) (<[id := (si, tls)]> ids) ports) s2 = (r, s') ->
    (exists e, r = inr e /\ e <> PeOutOfFuel /\ (length (B first :: map B more ++ s2) <= length s' + 260)%nat) \/
    (exists c s1 si1 ids1 ports1 left1,
     u16 (cnt + 1) <= maxOptions /\ B first :: map B more ++ s2 = map B c ++ s1 /\ (1 <= length c <= 260)%nat /\
     opt_step c si ids ports left si1 ids1 ports1 left1 /\
     s_run (parse_options maxOptions id u fuel left1 (u16 (cnt + 1)) si1 ids1 ports1) s1 = (r, s'))).
  { intros tls. destruct (host_full u ids) eqn:Hh.
    - simpl. intros [= <- <-]. left. exists PeHostNumber. repeat split; [done|].
      simpl; rewrite app_length, map_length. lia.
    - intros H1. right. exists (first :: more), s2, (u16 (si + 1)), (<[id := (si, tls)]> ids), ports, left.
      repeat split; try done; try (simpl; lia). by constructor. }
  assert (Hhost : forall tls, s_run (if host_full u ids then PRet (inr PeHostNumber)
        else rbyte (fun e => PRet (inr (PeRead e))) (fun n =>
          peekd n (fun e => PRet (inr (PeRead e))) (fun p =>
          if regex_ok u p
          then parse_options maxOptions id u fuel left cnt' (u16 (si + 1)) (<[full_prefix id u p := (si, tls)]> ids) ports
          else PRet (inr PeRegex)))) s2 = (r, s') ->
    (exists e, r = inr e /\ e <> PeOutOfFuel /\ (length (B first :: map B more ++ s2) <= length s' + 260)%nat) \/
    (exists c s1 si1 ids1 ports1 left1,
     u16 (cnt + 1) <= maxOptions /\ B first :: map B more ++ s2 = map B c ++ s1 /\ (1 <= length c <= 260)%nat /\
     opt_step c si ids ports left si1 ids1 ports1 left1 /\
     s_run (parse_options maxOptions id u fuel left1 (u16 (cnt + 1)) si1 ids1 ports1) s1 = (r, s'))).
  { intros tls. destruct (host_full u ids) eqn:Hh.
    - simpl. intros [= <- <-]. left. exists PeHostNumber. repeat split; [done|].
      simpl; rewrite app_length, map_length. lia.
    - intros H1. apply s_run_rbyte_inv in H1 as [(e & s3 & H1 & Hl)|(n & s3 & -> & H1)].
      { left. eapply Hbad; [done|]. simpl. rewrite app_length, ?map_length. lia. }
      apply Forall_cons_1 in Hitems as [Hn Hitems]. unfold item_ok, is_byte in Hn.
      apply s_run_peekd_inv in H1 as [(e & s4 & H1 & Hl)|(p & s4 & -> & Hp & H1)].
      { left. eapply Hbad; [done|]. simpl. rewrite app_length, ?map_length. simpl. lia. }
      destruct (regex_ok u p) eqn:Hre.
      + right. exists (first :: more ++ n :: p), s4, (u16 (si + 1)), (<[full_prefix id u p := (si, tls)]> ids), ports, left.
        repeat split; try done; try (simpl; lia).
        * cbn [map app]. f_equal. rewrite map_app. cbn [map]. rewrite <- app_assoc. done.
        * simpl. rewrite app_length. simpl. unfold blen in *. lia.
        * constructor; try done. exists (first :: more ++ [n]). simpl. rewrite <- app_assoc. done.
      + left. simpl in H1. injection H1 as <- <-. exists PeRegex. repeat split; [done|].
        simpl. rewrite app_length. simpl. rewrite app_length, !map_length. unfold blen in *. lia. }
  repeat case_decide.
  - apply Hid in H. tauto.
  - apply Hid in H. tauto.
  - destruct (tcp_full u ports) eqn:Hh.
    + simpl in H. injection H as <- <-. left. exists PeTCPNumber. repeat split; [done|].
      simpl; rewrite app_length, map_length. lia.
    + apply s_run_rbyte_inv in H as [(e & s3 & H & Hl)|(n & s3 & -> & H)].
      { left. eapply Hbad; [done|]. simpl. rewrite app_length, ?map_length. lia. }
      apply s_run_peekd_inv in H as [(e & s4 & H & Hl)|(p & s4 & -> & Hp & H)].
      { left. eapply Hbad; [done|]. simpl. rewrite app_length, ?map_length. simpl. lia. }
      destruct p as [|p0 [|p1 [|p2 p]]]; try (exfalso; rewrite ?blen_cons, ?blen_nil in Hp; lia).
      right. eexists (first :: more ++ n :: [p0; p1]), s4, _, _, _, _.
      split; [done|]. split; [|split; [|split; [|exact H]]].
      * cbn [map app]. f_equal. rewrite map_app. cbn [map]. rewrite <- app_assoc. done.
      * simpl. rewrite app_length. simpl. lia.
      * by constructor.
  - right. eexists (first :: more), s2, _, _, _, _.
    split; [done|]. split; [done|split; [|split; [|exact H]]].
    + simpl; lia.
    + constructor.
  - apply Hhost in H. tauto.
  - apply Hhost in H. tauto.
  - simpl in H. injection H as <- <-. left. exists PeInvalidOption. repeat split; [done|].
    simpl; rewrite app_length, map_length. lia.
Qed.
End Inv.

Lemma parse_left0 maxOptions id u fuel cnt si ids ports s :
  s_run (parse_options maxOptions id u fuel 0 cnt si ids ports) s = (inl (mkOpts ids ports), s).
Proof. destruct fuel; done. Qed.

Lemma parse_bounded maxOptions id u : maxOptions < 65535 ->
  forall fuel left cnt si ids ports s r s', Forall item_ok s -> cnt <= maxOptions ->
  (N.to_nat (maxOptions - cnt) < fuel)%nat ->
  s_run (parse_options maxOptions id u fuel left cnt si ids ports) s = (r, s') ->
  r <> inr PeOutOfFuel /\ (length s <= length s' + 260 * (N.to_nat (maxOptions - cnt) + 1))%nat.
Proof.
  intros Hmax. induction fuel as [|fuel IH]; intros left cnt si ids ports s r s' Hi Hcnt Hf H; [lia|].
  destruct left as [|left].
  { rewrite parse_left0 in H. injection H as <- <-. split; [done|lia]. }
  apply parse_step in H as [(e & -> & He & Hl)|(c & s1 & si1 & ids1 & ports1 & left1 & Hc & -> & Hl & _ & H)]; [| |done].
  { split; [congruence|lia]. }
  rewrite (u16_id (cnt + 1)) in * by lia.
  apply Forall_app in Hi as [_ Hi].
  apply IH in H as [Hr Hlen]; [|done|lia|lia]. split; [done|].
  rewrite app_length, map_length. lia.
Qed.

Lemma parse_names maxOptions id u :
  forall fuel left cnt si ids ports s o s', Forall item_ok s ->
  s_run (parse_options maxOptions id u fuel left cnt si ids ports) s = (inl o, s') ->
  forall k v, oIds o !! k = Some v ->
    ids !! k = Some v \/ k = id \/ exists p, sent p s /\ regex_ok u p = true /\ k = full_prefix id u p.
Proof.
  induction fuel as [|fuel IH]; intros left cnt si ids ports s o s' Hi H k v Hk.
  { destruct left; [|done]. rewrite parse_left0 in H. injection H as <- <-. auto. }
  destruct left as [|left].
  { rewrite parse_left0 in H. injection H as <- <-. auto. }
  apply parse_step in H as [(e & [=] & _)|(c & s1 & si1 & ids1 & ports1 & left1 & Hc & -> & Hl & Hst & H)]; [|done].
  apply Forall_app in Hi as [_ Hi].
  eapply IH in H as [H|[H|(p & Hp & Hre & ->)]]; [..|done|done].
  - inversion Hst; subst; auto.
    + rewrite lookup_insert_Some in H. naive_solver.
    + rewrite lookup_insert_Some in H. destruct H as [[<- _]|[_ H]]; [|auto].
      right; right. destruct H2 as [pre ->]. exists p. split; [|done].
      exists (map B pre), s1. rewrite map_app, <- app_assoc. done.
  - auto.
  - right; right. exists p. split; [|done]. destruct Hp as (pre & post & ->).
    exists (map B c ++ pre), post. rewrite <- app_assoc. done.
Qed.

Lemma parse_quota maxOptions id u : uHostNumber u < 4294967295 -> uTCPNumber u < 65535 ->
  forall fuel left cnt si ids ports s o s', Forall item_ok s ->
  (uHostNumber u <> 0 -> N.of_nat (size ids) <= uHostNumber u) ->
  (uTCPNumber u <> 0 -> N.of_nat (size ports) <= uTCPNumber u) ->
  s_run (parse_options maxOptions id u fuel left cnt si ids ports) s = (inl o, s') ->
  (uHostNumber u <> 0 -> N.of_nat (size (oIds o)) <= uHostNumber u) /\
  (uTCPNumber u <> 0 -> N.of_nat (size (oPorts o)) <= uTCPNumber u).
Proof.
  intros Hhn Htn. induction fuel as [|fuel IH]; intros left cnt si ids ports s o s' Hi Hh Ht H.
  { destruct left; [|done]. rewrite parse_left0 in H. injection H as <- <-. auto. }
  destruct left as [|left].
  { rewrite parse_left0 in H. injection H as <- <-. auto. }
  apply parse_step in H as [(e & [=] & _)|(c & s1 & si1 & ids1 & ports1 & left1 & Hc & -> & Hl & Hst & H)]; [|done].
  apply Forall_app in Hi as [_ Hi].
  assert (Hfull : host_full u ids = false -> uHostNumber u <> 0 -> N.of_nat (size ids) + 1 <= uHostNumber u).
  { unfold host_full. intros Hf Hz. specialize (Hh Hz). destruct (uHostNumber u =? 0) eqn:Ez; [lia|]. simpl in Hf.
    rewrite !u32_id in Hf by (rewrite ?u32_id; lia). lia. }
  assert (Htfull : tcp_full u ports = false -> uTCPNumber u <> 0 -> N.of_nat (size ports) + 1 <= uTCPNumber u).
  { unfold tcp_full. intros Hf Hz. specialize (Ht Hz). destruct (uTCPNumber u =? 0) eqn:Ez; [lia|]. simpl in Hf.
    rewrite !u16_id in Hf by (rewrite ?u16_id; lia). lia. }
  eapply IH; [exact Hi| | |exact H].
  - intros Hz. inversion Hst; subst; auto.
    + pose proof (size_insert_le ids id (si, tls)). specialize (Hfull ltac:(done) Hz). lia.
    + pose proof (size_insert_le ids (full_prefix id u p) (si, tls)). specialize (Hfull ltac:(done) Hz). lia.
  - intros Hz. inversion Hst; subst; auto.
    pose proof (size_insert_leN ports si (port, rnd)). specialize (Htfull ltac:(done) Hz). lia.
Qed.

(* maxHandShakeOptions = 65535 disables the limit: cnt is a uint16 *)
Lemma parse_unbounded id u : forall n fuel left cnt si ids ports rest,
  s_run (parse_options 65535 id u (n + fuel) (S left) cnt si ids ports) (replicate n (B 2) ++ rest)
  = s_run (parse_options 65535 id u fuel (n + S left) (match n with O => cnt | _ => u16 (cnt + N.of_nat n) end) si ids ports) rest.
Proof.
  induction n as [|n IH]; intros fuel left cnt si ids ports rest; [done|].
  cbn [replicate app plus]. cbn [parse_options].
  destruct (65535 <? u16 (cnt + 1)) eqn:Hm; [pose proof (u16_lt (cnt + 1)); lia|].
  rewrite s_run_rbyte_B. change (N.shiftr 2 6) with 0. rewrite s_run_peekd_0.
  repeat (rewrite decide_False by done). rewrite decide_True by done.
  rewrite IH. replace (n + S (S left))%nat with (S (n + S left)) by lia.
  f_equal. f_equal. unfold u16. destruct n; [f_equal; lia|].
  rewrite N.add_mod_idemp_l by done. f_equal. lia.
Qed.

(* API mode *)
Lemma handle_tunnel_api_inv fuel maxOptions dflt f s id secret o s' :
  s_run (handle_tunnel fuel maxOptions (AuthAPI dflt f)) s = (HsOk id secret o, s') ->
  exists o0 granted s1, s_run (parse_options maxOptions id dflt fuel 1 0 0 ∅ ∅) s1 = (inl o0, s') /\
    (exists c, s = map B c ++ s1) /\
    f id secret (map fst (map_to_list (oIds o0))) = Some granted /\
    o = mkOpts (api_filter id granted (oIds o0)) (oPorts o0).
Proof.
  unfold handle_tunnel. intros H.
  apply s_run_rbyte_inv in H as [(e & s1 & [=] & _)|(n & s1 & -> & H)].
  destruct (_ && _); [done|].
  apply s_run_peekd_inv in H as [(e & s2 & [=] & _)|(idd & s2 & -> & Hid & H)].
  apply s_run_rbyte_inv in H as [(e & s3 & [=] & _)|(m & s3 & -> & H)].
  destruct (_ && _); [done|].
  apply s_run_peekd_inv in H as [(e & s4 & [=] & _)|(sec & s4 & -> & Hsec & H)].
  rewrite s_run_bind in H. destruct (s_run (parse_options _ _ _ _ _ _ _ _ _) s4) as [[o0|e] s5] eqn:Hp; [|done].
  destruct (f idd sec _) as [granted|] eqn:Hf; [|done]. simpl in H. injection H as <- <- <- <-.
  exists o0, granted, s4. repeat split; try done.
  exists (n :: idd ++ m :: sec). cbn [map app]. rewrite map_app, <- app_assoc. done.
Qed.
Lemma handle_tunnel_local_inv fuel maxOptions f s id secret o s' :
  s_run (handle_tunnel fuel maxOptions (AuthLocal f)) s = (HsOk id secret o, s') ->
  exists u s1, f id secret = Some u /\ s_run (parse_options maxOptions id u fuel 1 0 0 ∅ ∅) s1 = (inl o, s') /\
    s = map B (blen id :: id ++ blen secret :: secret) ++ s1.
Proof.
  unfold handle_tunnel. intros H.
  apply s_run_rbyte_inv in H as [(e & s1 & [=] & _)|(n & s1 & -> & H)].
  destruct (_ && _); [done|].
  apply s_run_peekd_inv in H as [(e & s2 & [=] & _)|(idd & s2 & -> & Hid & H)].
  apply s_run_rbyte_inv in H as [(e & s3 & [=] & _)|(m & s3 & -> & H)].
  destruct (_ && _); [done|].
  apply s_run_peekd_inv in H as [(e & s4 & [=] & _)|(sec & s4 & -> & Hsec & H)].
  destruct (f idd sec) as [u|] eqn:Hf; [|done].
  rewrite s_run_bind in H. destruct (s_run (parse_options _ _ _ _ _ _ _ _ _) s4) as [[o0|e] s5] eqn:Hp; [|done].
  simpl in H. injection H as <- <- <- <-.
  exists u, s4. repeat split; try done.
  cbn [map app]. rewrite map_app, <- app_assoc. cbn [map app]. rewrite Hid, Hsec. done.
Qed.

Lemma enc_services_bytes id ss : all_bytes id -> Forall service_ok ss ->
  Forall (fun s => all_bytes (svHostPrefix s)) ss -> all_bytes (enc_services id ss).
Proof.
  intros Hid. assert (Hone : forall s, service_ok s -> all_bytes (svHostPrefix s) -> all_bytes (enc_service id s)).
  { intros s (Hs & Hp & Ht) Hb. unfold enc_service. destruct (svScheme s); try done.
    - constructor; [unfold is_byte; lia|]. constructor; [unfold is_byte; destruct (svTCPRandom s); lia|].
      constructor; [apply u8_lt|]. constructor; [apply u8_lt|constructor].
    - case_decide; [repeat constructor|]. repeat (constructor; [unfold is_byte; lia|]). done.
    - case_decide; [repeat constructor|]. repeat (constructor; [unfold is_byte; lia|]). done. }
  induction ss as [|s ss IH]; intros Hok Hb; [constructor|].
  apply Forall_cons_1 in Hok as [Hs Hok]. apply Forall_cons_1 in Hb as [Hb1 Hb].
  destruct ss as [|s' ss']; [simpl; auto|].
  change (enc_services id (s :: s' :: ss')) with (2 :: enc_service id s ++ enc_services id (s' :: ss')).
  constructor; [unfold is_byte; lia|]. apply Forall_app; split; [by apply Hone|by apply IH].
Qed.
Lemma init_wire_bytes id secret ss w : blen id <= 255 -> blen secret <= 255 -> Forall service_ok ss ->
  handshake_size id secret ss <= 4096 -> all_bytes id -> all_bytes secret ->
  Forall (fun s => all_bytes (svHostPrefix s)) ss -> init_wire 4096 id secret ss = Some w -> all_bytes w.
Proof.
  intros Hid Hsec Hok Hsz Hb1 Hb2 Hb3. unfold init_wire.
  rewrite gen_ok; [|done|done|done|unfold handshake_size in *; lia]. cbn [mbind option_bind]. intros [= <-].
  unfold enc_handshake. repeat (constructor; [unfold is_byte, MagicNumber; lia|]).
  apply Forall_app; split; [done|]. constructor; [unfold is_byte; lia|].
  apply Forall_app; split; [done|]. by apply enc_services_bytes.
Qed.
