(* Props_Wire.v -- C51: what becomes of a handshake that does not fit; C07, C08: credentials on the wire *)
From Verif Require Import GoBase GoBaseLemmas BufioModel BufioProofs HandshakeModel HandshakeSpec HandshakeProofs Props_Handshake AuthModel Props_Auth.
Local Open Scope N_scope.

(* ================= C51 ================= *)
(* ---- specification: the handshake as it should be on the wire, of any length ---- *)
Definition wire_service (id : bytes) (s : service) : bytes :=
  match svScheme s with
  | SchTCP => [1; if svTCPRandom s then 1 else 0; svTCPPort s / 256; svTCPPort s mod 256]
  | SchHTTP => if decide (svHostPrefix s = id) then [0] else 3 :: blen (svHostPrefix s) :: svHostPrefix s
  | SchHTTPS => if decide (svHostPrefix s = id) then [4] else 5 :: blen (svHostPrefix s) :: svHostPrefix s
  | SchOther => []
  end.
Fixpoint wire_services (id : bytes) (ss : list service) : bytes :=
  match ss with
  | [] => []
  | s :: ss' => match ss' with [] => wire_service id s | _ => 2 :: wire_service id s ++ wire_services id ss' end
  end.
Definition wire (id secret : bytes) (ss : list service) : bytes :=
  240 :: 1 :: blen id :: id ++ blen secret :: secret ++ wire_services id ss.

Lemma wire_service_enc id s : service_ok s -> wire_service id s = enc_service id s.
Proof.
  intros (_ & _ & Hp). unfold wire_service, enc_service. destruct (svScheme s); try done.
  unfold u8. rewrite N.shiftr_div_pow2. change (2 ^ 8) with 256. rewrite (N.mod_small (_ / 256)); [done|].
  apply N.div_lt_upper_bound; lia.
Qed.
Lemma wire_services_enc id ss : Forall service_ok ss -> wire_services id ss = enc_services id ss.
Proof.
  induction 1 as [|s ss Hs Hss IH]; [done|]. destruct ss as [|s' ss'].
  - by apply wire_service_enc.
  - change (wire_services id (s :: s' :: ss')) with (2 :: wire_service id s ++ wire_services id (s' :: ss')).
    change (enc_services id (s :: s' :: ss')) with (2 :: enc_service id s ++ enc_services id (s' :: ss')).
    by rewrite IH, wire_service_enc.
Qed.

(* ---- the buffer [cap] bytes long always holds the first bytes of what should be in it ---- *)
Definition cut (cap : N) (full w : bytes) : Prop := w = ntake cap full.
Lemma cut_nil cap : cut cap [] [].
Proof. unfold cut, ntake. by rewrite take_nil. Qed.
Lemma put_cut cap x full w w' : x < 256 -> cut cap full w -> put cap x w = Some w' -> cut cap (full ++ [x]) w'.
Proof.
  unfold cut, put. intros Hx -> . destruct (_ <? _) eqn:E; [|done]. intros [= <-]. apply N.ltb_lt in E.
  rewrite blen_ntake in E. assert (blen full < cap) by lia.
  rewrite ntake_all by lia. rewrite ntake_all; [by rewrite u8_id|]. rewrite blen_app, blen_cons, blen_nil. lia.
Qed.
Lemma cpy_cut cap s full w w' : cut cap full w -> cpy cap s w = Some w' -> cut cap (full ++ s) w'.
Proof.
  unfold cut, cpy. intros -> [= <-]. rewrite blen_ntake. unfold ntake, blen in *. rewrite (firstn_app _ full s). f_equal. f_equal. lia.
Qed.
Lemma service_cut cap id s full w w' : service_ok s -> cut cap full w -> gen_service cap id s w = Some w' -> cut cap (full ++ wire_service id s) w'.
Proof.
  intros Hok Hc. rewrite wire_service_enc by done. destruct Hok as (Ho & Hp & Ht). unfold gen_service, enc_service. destruct (svScheme s); [| | |done].
  - intros H. apply bind_Some in H as (w1 & H1 & H). apply bind_Some in H as (w2 & H2 & H). apply bind_Some in H as (w3 & H3 & H).
    eapply cpy_cut in H1; [|done]. eapply put_cut in H2; [|destruct (svTCPRandom s); lia|done].
    assert (H3' : put cap (u8 (N.shiftr (svTCPPort s) 8)) w2 = Some w3).
    { revert H3. unfold put. rewrite (u8_id (u8 _)) by apply u8_lt. done. }
    eapply put_cut in H3'; [|apply u8_lt|done].
    assert (H' : put cap (u8 (svTCPPort s)) w3 = Some w').
    { revert H. unfold put. rewrite (u8_id (u8 _)) by apply u8_lt. done. }
    eapply put_cut in H'; [|apply u8_lt|exact H3']. by rewrite <- !app_assoc in H'.
  - destruct (decide _); intros H; [by eapply cpy_cut|].
    apply bind_Some in H as (w1 & H1 & H). apply bind_Some in H as (w2 & H2 & H).
    eapply cpy_cut in H1; [|done]. eapply put_cut in H2; [|lia|done]. eapply cpy_cut in H; [|done]. by rewrite <- !app_assoc in H.
  - destruct (decide _); intros H; [by eapply cpy_cut|].
    apply bind_Some in H as (w1 & H1 & H). apply bind_Some in H as (w2 & H2 & H).
    eapply cpy_cut in H1; [|done]. eapply put_cut in H2; [|lia|done]. eapply cpy_cut in H; [|done]. by rewrite <- !app_assoc in H.
Qed.
Lemma services_cut cap id ss : Forall service_ok ss -> forall full w w', cut cap full w -> gen_services cap id ss w = Some w' ->
  cut cap (full ++ wire_services id ss) w'.
Proof.
  induction 1 as [|s ss Hs Hss IH]; intros full w w' Hc H.
  - cbn in H. injection H as <-. by rewrite app_nil_r.
  - destruct ss as [|s' ss']; [by eapply service_cut|].
    change (gen_services cap id (s :: s' :: ss') w) with (w ← cpy cap OptionAndNextOption w; w ← gen_service cap id s w; gen_services cap id (s' :: ss') w) in H.
    apply bind_Some in H as (w1 & H1 & H). apply bind_Some in H as (w2 & H2 & H).
    eapply cpy_cut in H1; [|done]. eapply service_cut in H2; [|done|done]. eapply IH in H; [|done].
    change (wire_services id (s :: s' :: ss')) with ([2] ++ wire_service id s ++ wire_services id (s' :: ss')).
    by rewrite <- !app_assoc in H.
Qed.

(* C51: whatever the client writes is the beginning of the handshake, at most 4096 bytes of it *)
Theorem C51_sent_is_cut : forall id secret ss w, blen id <= 255 -> blen secret <= 255 -> Forall service_ok ss ->
  init_wire 4096 id secret ss = Some w -> w = ntake 4096 (wire id secret ss).
Proof.
  intros id secret ss w Hid Hsec Hok. unfold init_wire. intros H. apply bind_Some in H as (w1 & H1 & [= <-]).
  unfold gen in H1. apply bind_Some in H1 as (v1 & H1 & H). apply bind_Some in H as (v2 & H2 & H).
  apply bind_Some in H as (v3 & H3 & H). apply bind_Some in H as (v4 & H4 & H).
  eapply put_cut in H1; [|lia|apply cut_nil]. eapply cpy_cut in H2; [|done]. eapply put_cut in H3; [|lia|done].
  eapply cpy_cut in H4; [|done]. eapply services_cut in H; [|done|done]. unfold cut in H. rewrite H.
  unfold wire, ntake. change (N.to_nat 4096) with (S (S (N.to_nat (4096 - 2)))). cbn [take]. do 3 f_equal.
  rewrite <- !app_assoc. done.
Qed.

(* ---- and a server that gets only the beginning never accepts it ---- *)
Section Trunc.
Context (maxOptions : N) (id : bytes) (u : ucfg).
Notation po := (parse_options maxOptions id u).

Definition ok_res (r : (opts + perr) * stream) : Prop := match fst r with inl _ => True | inr _ => False end.
Lemma short_peekd n (k : bytes -> prog (opts + perr)) d : blen d < n ->
  ~ ok_res (s_run (peekd n (fun e => PRet (inr (PeRead e))) k) (map B d)).
Proof.
  intros Hd. rewrite s_run_peekd. destruct (s_take (N.to_nat n) (map B d)) as [[d' [e|]] r] eqn:E; [cbn; tauto|].
  apply s_take_none in E as [E Hl]. apply (f_equal length) in E. rewrite app_length, !map_length in E. unfold blen in *. lia.
Qed.
Lemma po_cons fuel left cnt si ids ports s : ok_res (s_run (po fuel (S left) cnt si ids ports) s) ->
  exists f, fuel = S f.
Proof. destruct fuel; cbn; [tauto|eauto]. Qed.
Lemma host_trunc fuel left cnt si ids ports p (tls : bool) w x :
  blen p <= 255 -> w ++ x = (if tls : bool then 5 else 3) :: blen p :: p -> x <> [] ->
  ~ ok_res (s_run (po fuel (S left) cnt si ids ports) (map B w)).
Proof.
  intros Hp Hw Hx Hr. destruct (po_cons _ _ _ _ _ _ _ Hr) as [f ->]. revert Hr. cbn [parse_options].
  destruct (_ <? u16 _); [cbn; tauto|]. destruct w as [|b w]; [cbn; tauto|]. injection Hw as -> Hw.
  cbn [map]. rewrite s_run_rbyte_B. replace (N.shiftr (if tls then 5 else 3) 6) with 0 by (by destruct tls). rewrite s_run_peekd_0.
  destruct tls.
  - rewrite 4!decide_False by done. rewrite decide_True by done. destruct (host_full _ _); [cbn; tauto|].
    destruct w as [|n w]; [cbn; tauto|]. injection Hw as -> Hw. cbn [map]. rewrite s_run_rbyte_B.
    apply short_peekd. rewrite <- Hw, blen_app. destruct x; [done|]. rewrite blen_cons. lia.
  - rewrite 5!decide_False by done. rewrite decide_True by done. destruct (host_full _ _); [cbn; tauto|].
    destruct w as [|n w]; [cbn; tauto|]. injection Hw as -> Hw. cbn [map]. rewrite s_run_rbyte_B.
    apply short_peekd. rewrite <- Hw, blen_app. destruct x; [done|]. rewrite blen_cons. lia.
Qed.
Lemma service_trunc s fuel left cnt si ids ports w x : service_ok s -> w ++ x = wire_service id s -> x <> [] ->
  ~ ok_res (s_run (po fuel (S left) cnt si ids ports) (map B w)).
Proof.
  intros (Ho & Hp & Ht) Hw Hx. unfold wire_service in Hw. destruct (svScheme s); [| | |done].
  - intros Hr. destruct (po_cons _ _ _ _ _ _ _ Hr) as [f ->]. revert Hr. cbn [parse_options].
    destruct (_ <? u16 _); [cbn; tauto|]. destruct w as [|b w]; [cbn; tauto|]. injection Hw as -> Hw.
    cbn [map]. rewrite s_run_rbyte_B. change (N.shiftr 1 6) with 0. rewrite s_run_peekd_0.
    rewrite 2!decide_False by done. rewrite decide_True by done. destruct (tcp_full _ _); [cbn; tauto|].
    destruct w as [|n w]; [cbn; tauto|]. injection Hw as -> Hw. cbn [map]. rewrite s_run_rbyte_B.
    apply short_peekd. apply (f_equal blen) in Hw. rewrite blen_app in Hw. destruct x; [done|]. rewrite !blen_cons, blen_nil in Hw. lia.
  - destruct (decide _); [|by eapply (host_trunc _ _ _ _ _ _ (svHostPrefix s) false)].
    destruct w as [|b [|? ?]]; [|cbn in Hw; destruct x; [done|]; by injection Hw|done].
    intros Hr. destruct (po_cons _ _ _ _ _ _ _ Hr) as [f ->]. revert Hr. cbn [parse_options]. destruct (_ <? u16 _); cbn; tauto.
  - destruct (decide _); [|by eapply (host_trunc _ _ _ _ _ _ (svHostPrefix s) true)].
    destruct w as [|b [|? ?]]; [|cbn in Hw; destruct x; [done|]; by injection Hw|done].
    intros Hr. destruct (po_cons _ _ _ _ _ _ _ Hr) as [f ->]. revert Hr. cbn [parse_options]. destruct (_ <? u16 _); cbn; tauto.
Qed.
(* a whole service is consumed exactly *)
Lemma service_whole s fuel left cnt si ids ports rest : service_ok s ->
  ok_res (s_run (po fuel (S left) cnt si ids ports) (map B (wire_service id s) ++ rest)) ->
  exists fuel' cnt' si' ids' ports', ok_res (s_run (po fuel' left cnt' si' ids' ports') rest).
Proof.
  intros (Ho & Hp & Ht) Hr. destruct (po_cons _ _ _ _ _ _ _ Hr) as [f ->]. revert Hr. unfold wire_service. cbn [parse_options].
  destruct (_ <? u16 _); [cbn; tauto|].
  assert (Hh : forall tls : bool, ok_res (s_run (if host_full u ids then PRet (inr PeHostNumber)
        else rbyte (fun e => PRet (inr (PeRead e))) (fun n =>
          peekd n (fun e => PRet (inr (PeRead e))) (fun p =>
          if regex_ok u p
          then po f left (u16 (cnt + 1)) (u16 (si + 1)) (<[full_prefix id u p := (si, tls)]> ids) ports
          else PRet (inr PeRegex)))) (map B (blen (svHostPrefix s) :: svHostPrefix s) ++ rest)) ->
     exists fuel' cnt' si' ids' ports', ok_res (s_run (po fuel' left cnt' si' ids' ports') rest)).
  { intros tls. destruct (host_full _ _); [cbn; tauto|]. cbn [map app]. rewrite s_run_rbyte_B, s_run_peekd_B by done.
    destruct (regex_ok _ _); [|cbn; tauto]. eauto 10. }
  destruct (svScheme s); [| | |done].
  - cbn [map app]. rewrite s_run_rbyte_B. change (N.shiftr 1 6) with 0. rewrite s_run_peekd_0.
    rewrite 2!decide_False by done. rewrite decide_True by done. destruct (tcp_full _ _); [cbn; tauto|].
    rewrite s_run_rbyte_B, s_run_peekd_2. eauto 10.
  - destruct (decide _).
    + cbn [map app]. rewrite s_run_rbyte_B. change (N.shiftr 0 6) with 0. rewrite s_run_peekd_0.
      rewrite decide_False by done. rewrite decide_True by done. destruct (host_full _ _); [cbn; tauto|]. eauto 10.
    + intros Hr. apply (Hh false). revert Hr. cbn [map app]. rewrite s_run_rbyte_B. change (N.shiftr 3 6) with 0. rewrite s_run_peekd_0.
      rewrite 5!decide_False by done. rewrite decide_True by done. done.
  - destruct (decide _).
    + cbn [map app]. rewrite s_run_rbyte_B. change (N.shiftr 4 6) with 0. rewrite s_run_peekd_0.
      rewrite decide_True by done. destruct (host_full _ _); [cbn; tauto|]. eauto 10.
    + intros Hr. apply (Hh true). revert Hr. cbn [map app]. rewrite s_run_rbyte_B. change (N.shiftr 5 6) with 0. rewrite s_run_peekd_0.
      rewrite 4!decide_False by done. rewrite decide_True by done. done.
Qed.
Lemma services_trunc ss : Forall service_ok ss -> forall fuel left cnt si ids ports w x, w ++ x = wire_services id ss -> x <> [] ->
  ~ ok_res (s_run (po fuel (S left) cnt si ids ports) (map B w)).
Proof.
  induction 1 as [|s ss Hs Hss IH]; intros fuel left cnt si ids ports w x Hw Hx.
  - by apply app_nil in Hw as [_ ->].
  - destruct ss as [|s' ss']; [by eapply service_trunc|].
    change (wire_services id (s :: s' :: ss')) with (2 :: wire_service id s ++ wire_services id (s' :: ss')) in Hw.
    intros Hr. destruct (po_cons _ _ _ _ _ _ _ Hr) as [f ->]. revert Hr. cbn [parse_options].
    destruct (_ <? u16 _); [cbn; tauto|]. destruct w as [|b w]; [cbn; tauto|]. injection Hw as -> Hw.
    cbn [map]. rewrite s_run_rbyte_B. change (N.shiftr 2 6) with 0. rewrite s_run_peekd_0.
    rewrite 3!decide_False by done. rewrite decide_True by done. intros Hr.
    apply app_eq_inv in Hw as [(l & Hw1 & Hw2)|(l & Hw1 & Hw2)].
    + subst w. rewrite map_app in Hr. apply service_whole in Hr as (f' & c' & si' & i' & p' & Hr); [|done].
      eapply (IH f' _ c' si' i' p' l x); [|done|exact Hr]. exact (eq_sym Hw2).
    + (* the cut is inside or at the end of the first service *)
      destruct l as [|y l].
      * rewrite app_nil_r in Hw1. subst w. rewrite <- (app_nil_r (map B _)) in Hr.
        apply service_whole in Hr as (f' & c' & si' & i' & p' & Hr); [|done].
        eapply (IH f' _ c' si' i' p' [] x); [|done|exact Hr]. exact Hw2.
      * revert Hr. by eapply (service_trunc s _ _ _ _ _ _ w (y :: l)).
Qed.
End Trunc.

(* C51: if the handshake is longer than 4096 bytes, then whatever the server's limits and users are, what the client
   writes does not get it a tunnel: the server is left waiting (here: it sees the end of the stream) or refuses it. *)
Theorem C51_oversize_never_admitted : forall id secret ss w maxOptions auth fuel, blen id <= 255 -> blen secret <= 255 -> Forall service_ok ss ->
  4096 < blen (wire id secret ss) -> init_wire 4096 id secret ss = Some w ->
  forall id' secret' o s', s_run (hs_prog fuel maxOptions (AuthLocal auth)) (map B w) <> (Some (HsOk id' secret' o), s').
Proof.
  intros id secret ss w maxOptions auth fuel Hid Hsec Hok Hlen Hw id' secret' o s'. apply C51_sent_is_cut in Hw; [|done..]. subst w.
  set (n := (4096 - (4 + blen id + blen secret))%N).
  assert (Hcut : ntake 4096 (wire id secret ss) = 240 :: 1 :: (blen id :: id ++ blen secret :: secret) ++ ntake n (wire_services id ss)).
  { unfold wire, ntake, n. change (N.to_nat 4096) with (S (S (S 4093))). cbn [take app]. do 3 f_equal.
    rewrite take_app_ge by (unfold blen in *; lia). rewrite <- app_assoc. f_equal.
    replace (4093 - length id)%nat with (S (4092 - length id)) by (unfold blen in *; lia). cbn [take app]. f_equal.
    rewrite take_app_ge by (unfold blen in *; lia). f_equal. f_equal. unfold blen. lia. }
  rewrite Hcut. unfold hs_prog. rewrite s_run_bind. cbn [map]. rewrite dispatch_tunnel. rewrite s_run_bind.
  rewrite map_app. intros H.
  destruct (s_run (handle_tunnel _ _ _) _) as [r s1] eqn:E. cbn in H. injection H as -> ->.
  apply handle_tunnel_local_inv in E as (u & s1 & Hu & Hp & Hs).
  assert (Heq : id' = id /\ secret' = secret /\ s1 = map B (ntake n (wire_services id ss))).
  { cbn [map app] in Hs. injection Hs as Hl Hs. rewrite !map_app in Hs. rewrite <- !app_assoc in Hs.
    apply app_inj_1 in Hs as [Hi Hs]; [|rewrite !map_length; unfold blen in Hl; lia].
    cbn [map app] in Hs. injection Hs as Hl2 Hs. apply app_inj_1 in Hs as [Hi2 Hs]; [|rewrite !map_length; unfold blen in Hl2; lia].
    assert (Hinj : forall a b : bytes, map B a = map B b -> a = b).
    { induction a as [|x a IH]; destruct b as [|y b]; cbn; try done. intros [= -> ?]. f_equal. auto. }
    apply Hinj in Hi, Hi2. done. }
  destruct Heq as (-> & -> & ->).
  eapply (services_trunc maxOptions id u ss Hok fuel 0 0 0 ∅ ∅ (ntake n (wire_services id ss)) (ndrop n (wire_services id ss))).
  - apply ntake_ndrop.
  - intros Hd. apply (f_equal blen) in Hd. rewrite blen_ndrop, blen_nil in Hd. revert Hlen. unfold wire. rewrite !blen_cons, blen_app, blen_cons, blen_app. unfold n in Hd. lia.
  - unfold ok_res. by rewrite Hp.
Qed.
(* such a service list exists (16 services with 255-byte prefixes), and its handshake is sent *)
Theorem C51_witness : exists w, 4096 < blen (wire [105] [115] (oversize 16)) /\ init_wire 4096 [105] [115] (oversize 16) = Some w /\ Forall service_ok (oversize 16).
Proof.
  destruct (init_wire 4096 [105] [115] (oversize 16)) as [w|] eqn:Hw.
  - exists w. split; [by vm_compute|split; [done|]]. unfold oversize. apply Forall_fmap. apply Forall_forall. intros x _. split; [done|split; done].
  - exfalso. revert Hw. vm_compute. discriminate.
Qed.

(* ================= C07, C08: from the bytes of a connection to the decision ================= *)
(* the decision a server started with table m takes (server/server.go 370-383 picks it once); [lim] gives the limits of a user *)
Definition admits (global : N) (allowAny : bool) (m : users) (a : apisrv) (lim : user -> ucfg) : auth_mode :=
  match pick_mode false allowAny m with
  | ModeConfig => AuthLocal (fun id s => option_map lim (auth_config global m a id s))
  | _ => AuthLocal (fun id s => option_map lim (fst (auth_any global m a id s)))
  end.
Lemma hs_local_inv fuel maxOptions f s id secret o s' :
  s_run (hs_prog fuel maxOptions (AuthLocal f)) s = (Some (HsOk id secret o), s') ->
  exists u rest, f id secret = Some u /\ s = map B (240 :: 1 :: blen id :: id ++ blen secret :: secret) ++ rest.
Proof.
  unfold hs_prog. rewrite s_run_bind.
  assert (Hd : (exists r, s = B 240 :: B 1 :: r) \/ (forall r, fst (s_run handle_dispatch s) = FbTunnel -> s <> r)).
  { destruct s as [|[v0|e] [|[v1|e1] s]]; try (right; intros; discriminate).
    destruct (decide (v0 = 240)) as [->|H0]; [destruct (decide (v1 = 1)) as [->|H1]; [eauto|]|]; right; intros r.
    - unfold handle_dispatch. cbn [s_run]. change (s_peek 2 (B 240 :: B v1 :: s)) with ([240; v1], @None err, B 240 :: B v1 :: s). cbv iota.
      change (240 =? MagicNumber) with true. cbv iota. destruct (N.eqb_spec v1 1); [done|]. by destruct (v1 =? 2).
    - unfold handle_dispatch. cbn [s_run]. change (s_peek 2 (B v0 :: B v1 :: s)) with ([v0; v1], @None err, B v0 :: B v1 :: s). cbv iota.
      destruct (N.eqb_spec v0 MagicNumber); done. }
  destruct Hd as [[r ->]|Hd].
  - rewrite dispatch_tunnel, s_run_bind. destruct (s_run (handle_tunnel _ _ _) r) as [x s2] eqn:Eh. cbn. intros [= -> ->].
    apply handle_tunnel_local_inv in Eh as (u & s1 & Hu & _ & ->). by exists u, s1.
  - destruct (s_run handle_dispatch s) as [[] r]; try done. by destruct (Hd s).
Qed.
(* C07: a server with configured users and without allowAnyClient opens a tunnel only for a connection whose bytes are
   those of a configured pair (or of the self-test of the API server), however they arrive *)
Theorem C07_only_configured : forall global m a lim fuel maxOptions src id secret o b,
  m <> ∅ -> src_ok src -> Forall item_ok (src_stream src) ->
  run 4096 (hs_prog fuel maxOptions (admits global false m a lim)) (mkReader [] None src) = Some (Some (HsOk id secret o), b) ->
  (exists rest, src_stream src = map B (240 :: 1 :: blen id :: id ++ blen secret :: secret) ++ rest) /\
  ((exists u, m !! id = Some u /\ uSecret u = secret) \/ (a = Some (id, secret) /\ id <> [] /\ secret <> [])).
Proof.
  intros global m a lim fuel maxOptions src id secret o b Hm Hsrc Hit Hrun.
  assert (Hs : exists s', s_run (hs_prog fuel maxOptions (admits global false m a lim)) (src_stream src) = (Some (HsOk id secret o), s')).
  { destruct (C02_chunking_independent (hs_prog fuel maxOptions (admits global false m a lim)) 4096 src src (src_stream src)) as (x & r & b1 & b2 & H1 & _ & _ & _ & H3); try done.
    - apply hs_prog_peeks. lia.
    - rewrite Hrun in H1. injection H1 as <- <-. by exists r. }
  destruct Hs as [s' Hs]. unfold admits, pick_mode in Hs. rewrite decide_False in Hs by done. cbn [negb] in Hs.
  apply hs_local_inv in Hs as (u & rest & Hu & Hst). split; [by exists rest|].
  destruct (auth_config global m a id secret) as [v|] eqn:Ev; [|done]. apply C07_exact in Ev as [(_ & _ & H1 & H2)|(H1 & H2 & _ & H3 & _)]; eauto.
Qed.
(* C08: with allowAnyClient the configured users still need their secrets (the API self-test apart) *)
Theorem C08_configured_need_secret : forall global m a lim fuel maxOptions src id secret o b v,
  src_ok src -> Forall item_ok (src_stream src) -> m !! id = Some v -> a <> Some (id, secret) ->
  run 4096 (hs_prog fuel maxOptions (admits global true m a lim)) (mkReader [] None src) = Some (Some (HsOk id secret o), b) ->
  uSecret v = secret.
Proof.
  intros global m a lim fuel maxOptions src id secret o b v Hsrc Hit Hv Ha Hrun.
  assert (Hs : exists s', s_run (hs_prog fuel maxOptions (admits global true m a lim)) (src_stream src) = (Some (HsOk id secret o), s')).
  { destruct (C02_chunking_independent (hs_prog fuel maxOptions (admits global true m a lim)) 4096 src src (src_stream src)) as (x & r & b1 & b2 & H1 & _ & _ & _ & H3); try done.
    - apply hs_prog_peeks. lia.
    - rewrite Hrun in H1. injection H1 as <- <-. by exists r. }
  destruct Hs as [s' Hs]. unfold admits, pick_mode in Hs. rewrite decide_False in Hs by (intros ->; by rewrite lookup_empty in Hv). cbn [negb] in Hs.
  apply hs_local_inv in Hs as (u & rest & Hu & _). unfold auth_any in Hu.
  destruct (api_auth a id secret) eqn:Ea.
  - exfalso. unfold api_auth in Ea. destruct a as [[i s]|]; [|done]. apply andb_true_iff in Ea as [E1 E2].
    apply bool_decide_eq_true in E1, E2. by subst.
  - rewrite Hv in Hu. cbn in Hu. by destruct (decide (uSecret v = secret)).
Qed.
(* both are about something: the pair ("i", "s") gets a tunnel by them *)
Theorem C07_wire_witness : forall allowAny, exists o b,
  run 4096 (hs_prog 5 5 (admits 0 allowAny {[ [105] := mkUser [115] false 0 ]} None (fun _ => mkUcfg 0 0 [] false)))
      (mkReader [] None [EvData [240; 1; 1; 105]; EvData [1; 115; 0]]) = Some (Some (HsOk [105] [115] o), b).
Proof. intros []; eexists _, _; vm_compute; reflexivity. Qed.
