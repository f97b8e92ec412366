(* Props_Handshake.v -- C01 to C06. *)
From Verif Require Import GoBase GoBaseLemmas BufioModel BufioProofs HandshakeModel HandshakeSpec HandshakeProofs.
Local Open Scope N_scope.

(* C02: any program of Peek / ReadByte / Discard / LimitedReader copies (all the parsing code is of this
   form) returns the same value and leaves the same unread bytes for any two ways the network may split
   the same stream [s] into non-empty reads -- and the value is that of the plain stream semantics. *)
Theorem C02_chunking_independent {A} (m : prog A) (cap : N) (src1 src2 : list rdev) (s : stream) :
  0 < cap -> peeks_ok cap m -> Forall item_ok s ->
  src_ok src1 -> src_ok src2 -> src_stream src1 = s -> src_stream src2 = s ->
  exists a rest b1 b2,
    run cap m (mkReader [] None src1) = Some (a, b1) /\ r_stream b1 = rest /\
    run cap m (mkReader [] None src2) = Some (a, b2) /\ r_stream b2 = rest /\
    s_run m s = (a, rest).
Proof.
  intros Hcap Hm Hs H1 H2 E1 E2.
  assert (forall src, src_ok src -> src_stream src = s ->
     exists a b, run cap m (mkReader [] None src) = Some (a, b) /\ s_run m s = (a, r_stream b)) as Hone.
  { intros src Hok E. destruct (run_refines cap Hcap m (mkReader [] None src)) as (a & b & Hr & _ & Hs').
    - split; [done|]. split; [done|]. simpl. rewrite blen_nil. lia.
    - unfold r_stream; simpl. rewrite E. done.
    - done.
    - exists a, b. split; [done|]. unfold r_stream in Hs' at 1; simpl in Hs'. rewrite E in Hs'. done. }
  destruct (Hone src1 H1 E1) as (a1 & b1 & Hr1 & Hs1). destruct (Hone src2 H2 E2) as (a2 & b2 & Hr2 & Hs2).
  rewrite Hs1 in Hs2. injection Hs2 as -> Hb. exists a2, (r_stream b1), b1, b2. rewrite <- Hb. done.
Qed.
(* the whole server-side handshake is such a program for the 4096-byte buffer *)
Theorem C02_handshake_applies fuel maxOptions mode : peeks_ok 4096 (hs_prog fuel maxOptions mode).
Proof. apply hs_prog_peeks. lia. Qed.

(* C01: for every ID, secret and non-empty service list that fit, and any split of the stream into reads. *)
Theorem C01_handshake_roundtrip maxOptions (auth : bytes -> bytes -> option ucfg) u id secret ss fuel :
  blen id <= 255 -> blen secret <= 255 -> all_bytes id -> all_bytes secret ->
  ss <> [] -> Forall service_ok ss -> Forall (fun s => all_bytes (svHostPrefix s)) ss ->
  handshake_size id secret ss <= 4096 ->
  auth id secret = Some u -> admitted maxOptions u id ss -> (2 * length ss <= fuel)%nat ->
  exists w, init_wire 4096 id secret ss = Some w /\
    forall src rest, src_ok src -> Forall item_ok rest -> src_stream src = map B w ++ rest ->
    exists b', run 4096 (hs_prog fuel maxOptions (AuthLocal auth)) (mkReader [] None src) =
        Some (Some (HsOk id secret (mkOpts (wanted_ids id (uWithID u) 0 ss ∅) (wanted_ports 0 ss ∅))), b')
      /\ r_stream b' = rest.
Proof.
  intros Hid Hsec Hb1 Hb2 Hne Hok Hb3 Hsz Hauth Hadm Hf.
  destruct (handshake_roundtrip_lemma 4096 maxOptions auth u id secret ss [] fuel) as (w & Hw & _); try done.
  exists w. split; [done|]. intros src rest Hsrc Hrest E.
  destruct (handshake_roundtrip_lemma 4096 maxOptions auth u id secret ss rest fuel) as (w' & Hw' & Hrun); try done.
  rewrite Hw in Hw'. injection Hw' as <-.
  destruct (C02_chunking_independent (hs_prog fuel maxOptions (AuthLocal auth)) 4096 src src (map B w ++ rest))
    as (a & r & b1 & b2 & H1 & H2 & _ & _ & H3); try done.
  - apply hs_prog_peeks. lia.
  - apply Forall_app; split; [|done]. apply Forall_item_B. by apply (init_wire_bytes id secret ss).
  - rewrite Hrun in H3. injection H3 as <- <-. exists b1. done.
Qed.

(* Beyond 4096 bytes the client does not refuse the configuration: it sends a truncated handshake which the
   server cannot decode (it waits for more bytes), or panics. *)
Definition long_service (c : N) : service := mkService SchHTTP (c :: replicate 254 97) 0 false.
Definition oversize (n : nat) : list service := map long_service (N.of_nat <$> seq 0 n).
Theorem C51_oversize_refuted :
  (exists ss, Forall service_ok ss /\ Forall (fun s => all_bytes (svHostPrefix s)) ss /\
     exists w, init_wire 4096 [105] [115] ss = Some w /\
     fst (s_run (hs_prog 100 30000 (AuthLocal (fun _ _ => Some (mkUcfg 0 0 [] false)))) (map B w))
       = Some (HsOptErr [105] [115] (PeRead EEOF))) /\
  (exists ss, Forall service_ok ss /\ init_wire 4096 [105] [115] ss = None).
Proof.
  split.
  - exists (oversize 16). split; [|split].
    + unfold oversize. apply Forall_fmap. apply Forall_forall. intros x _. split; [done|split; done].
    + unfold oversize. apply Forall_fmap. apply Forall_fmap. apply Forall_forall. intros x Hx%elem_of_seq.
      cbn [compose svHostPrefix long_service]. constructor; [unfold is_byte; lia|].
      apply Forall_replicate. unfold is_byte; lia.
    + assert (Hw : exists w, init_wire 4096 [105] [115] (oversize 16) = Some w).
      { destruct (init_wire 4096 [105] [115] (oversize 16)) as [w|] eqn:Hw; [by exists w|].
        exfalso. revert Hw. vm_compute. discriminate. }
      destruct Hw as [w Hw]. exists w. split; [exact Hw|].
      assert (Hd : default [] (init_wire 4096 [105] [115] (oversize 16)) = w) by (rewrite Hw; reflexivity).
      rewrite <- Hd. vm_compute. reflexivity.
  - exists (oversize 17). split; [|vm_compute; reflexivity].
    unfold oversize. apply Forall_fmap. apply Forall_forall. intros x _. split; [done|split; done].
Qed.

(* C03 *)
Theorem C03_registered_names maxOptions id u fuel s o s' : Forall item_ok s ->
  s_run (parse_options maxOptions id u fuel 1 0 0 ∅ ∅) s = (inl o, s') ->
  forall name v, oIds o !! name = Some v ->
    name = id \/
    exists p, sent p s /\ (uRegex u = [] \/ exists r, r ∈ uRegex u /\ r p = true) /\
      name = (if uWithID u then id ++ [45] ++ p else p).
Proof.
  intros Hs H name v Hn.
  eapply parse_names in H as [H|[->|(p & Hp & Hre & ->)]]; [..|exact Hs|exact Hn]; [done|auto|].
  right. exists p. split; [done|]. split; [|unfold full_prefix; destruct (uWithID u); done].
  unfold regex_ok in Hre. destruct (uRegex u) as [|r0 rs] eqn:Er; [by left|right].
  apply existsb_exists in Hre as (r & Hr & Hm). exists r. split; [|done]. apply elem_of_list_In. done.
Qed.
(* with an authentication platform only granted prefixes (or the ID, if none is granted) remain *)
Theorem C03_api_names maxOptions dflt f fuel s id secret o s' : Forall item_ok s ->
  s_run (handle_tunnel fuel maxOptions (AuthAPI dflt f)) s = (HsOk id secret o, s') ->
  exists requested granted, f id secret requested = Some granted /\
    forall name v, oIds o !! name = Some v ->
      name ∈ requested /\ (if decide (granted = []) then name = id else name ∈ granted).
Proof.
  intros Hs H. apply handle_tunnel_api_inv in H as (o0 & granted & s1 & _ & _ & Hf & ->).
  exists (map fst (map_to_list (oIds o0))), granted. split; [done|]. intros name v. simpl.
  unfold api_filter. intros Hn. destruct granted as [|g gs].
  - apply map_filter_lookup_Some in Hn as [Hn Hp]. rewrite decide_True by done. split; [|done].
    apply elem_of_list_fmap. exists (name, v). split; [done|]. by apply elem_of_map_to_list.
  - apply map_filter_lookup_Some in Hn as [Hn Hp]. rewrite decide_False by done. split; [|done].
    apply elem_of_list_fmap. exists (name, v). split; [done|]. by apply elem_of_map_to_list.
Qed.

(* C04 *)
Theorem C04_quotas maxOptions id u fuel s o s' : Forall item_ok s ->
  uHostNumber u < 4294967295 -> uTCPNumber u < 65535 ->
  s_run (parse_options maxOptions id u fuel 1 0 0 ∅ ∅) s = (inl o, s') ->
  (uHostNumber u <> 0 -> N.of_nat (size (oIds o)) <= uHostNumber u) /\
  (uTCPNumber u <> 0 -> N.of_nat (size (oPorts o)) <= uTCPNumber u).
Proof.
  intros Hs Hh Ht H. eapply parse_quota in H; [exact H|done|done|done|..]; intros _; apply N.le_0_l.
Qed.

(* C05: the parser takes at most maxOptions + 1 rounds (fuel is never exhausted) and at most
   260 bytes for each. *)
Theorem C05_bounded_partial maxOptions id u fuel s r s' : Forall item_ok s ->
  maxOptions < 65535 -> (N.to_nat maxOptions < fuel)%nat ->
  s_run (parse_options maxOptions id u fuel 1 0 0 ∅ ∅) s = (r, s') ->
  r <> inr PeOutOfFuel /\ blen s <= blen s' + 260 * (maxOptions + 1).
Proof.
  intros Hs Hm Hf H. eapply parse_bounded in H as [H1 H2]; [|done|done|lia|lia].
  split; [done|]. unfold blen. lia.
Qed.
Theorem C05_max_65535_refuted id u n :
  s_run (parse_options 65535 id u (n + 1) 1 0 0 ∅ ∅) (replicate n (B 2)) = (inr (PeRead EEOF), []).
Proof.
  rewrite <- (app_nil_r (replicate n (B 2))). rewrite parse_unbounded.
  replace (n + 1)%nat with (S n) by lia. cbn [parse_options].
  match goal with |- context [if ?b then _ else _] => destruct b eqn:Hm end; [|done].
  match type of Hm with context [u16 ?x] => pose proof (u16_lt x) end. lia.
Qed.

(* C06: the length test of the code never rejects: the empty and the 255-byte ID and secret pass. *)
Theorem C06_length_check_refuted : forall id secret (auth : bytes -> bytes -> option ucfg) u rest,
  blen id <= 255 -> blen secret <= 255 -> auth id secret = Some u ->
  s_run (handle_tunnel 1 1 (AuthLocal auth)) (map B (blen id :: id ++ blen secret :: secret) ++ B 0 :: rest)
   = (if host_full u ∅ then HsOptErr id secret PeHostNumber
      else HsOk id secret (mkOpts {[id := (0, false)]} ∅), rest).
Proof.
  intros id secret auth u rest Hid Hsec Hauth. rewrite (handle_tunnel_local _ _ _ u) by done.
  cbn [parse_options]. change (1 <? u16 (0 + 1)) with false. cbn iota.
  rewrite s_run_rbyte_B. change (N.shiftr 0 6) with 0. rewrite s_run_peekd_0.
  repeat (rewrite decide_False by done). rewrite decide_True by done.
  destruct (host_full u ∅); done.
Qed.

(* ---- the hypotheses are met by concrete cases ---- *)
Definition ex_services : list service :=
  [mkService SchHTTP [119;101;98] 0 false; mkService SchTCP [] 2222 true; mkService SchHTTPS [105;100] 0 false].
Example C01_nonvacuous :
  ex_services <> [] /\ Forall service_ok ex_services /\
  admitted 30 (mkUcfg 2 1 [fun p => bool_decide (p = [119;101;98])] true) [105;100] ex_services /\
  handshake_size [105;100] [115] ex_services <= 4096 /\
  init_wire 4096 [105;100] [115] ex_services =
    Some [240; 1; 2; 105; 100; 1; 115; 2; 3; 3; 119; 101; 98; 2; 1; 1; 8; 174; 4].
Proof.
  split; [done|]. split; [repeat constructor; done|]. split.
  - split; [done|]. split; [right; done|]. split; [right; done|].
    constructor; [|constructor; [|constructor; [|constructor]]]; intros Hh Hne; try done.
    right. eexists. split; [apply elem_of_list_singleton; done|done].
  - split; done.
Qed.
Example C03_C04_C05_nonvacuous :
  exists o, s_run (parse_options 30 [105] (mkUcfg 2 1 [] true) 31 1 0 0 ∅ ∅)
     (map B [2; 3; 1; 97; 1; 0; 0; 80] ++ [B 7]) = (inl o, [B 7]) /\ oIds o = {[ [105;45;97] := (0, false) ]}.
Proof. eexists. split; vm_compute; reflexivity. Qed.
Example C02_nonvacuous :
  src_stream [EvData [1;2]; EvData [3]] = src_stream [EvData [1]; EvData [2;3]] /\
  src_ok [EvData [1;2]; EvData [3]] /\ src_ok [EvData [1]; EvData [2;3]].
Proof. split; [done|]. split; repeat constructor; done. Qed.

Print Assumptions C01_handshake_roundtrip.
Print Assumptions C51_oversize_refuted.
Print Assumptions C02_chunking_independent.
Print Assumptions C03_registered_names.
Print Assumptions C03_api_names.
Print Assumptions C04_quotas.
Print Assumptions C05_bounded_partial.
Print Assumptions C05_max_65535_refuted.
Print Assumptions C06_length_check_refuted.
