(* Props_TornSvc.v -- C102, continued: what the services get over a tunnel that ends in the middle of a frame (TornModel) *)
From Verif Require Import GoBase GoBaseLemmas BufioModel BufioProofs HandshakeModel HandshakeProofs FrameModel FrameSpec FrameProofs FrameProofsC FrameProofsD FrameProofsE Props_Frames TornModel Props_Torn Props_TornRead.
Local Open Scope nat_scope.

(* a frame's data end early: the rest of it cannot be skipped *)
Lemma after_short st ev n re d tl : length d < N.to_nat n -> tl = [] \/ (exists e, tl = [E e]) -> exists why r, s_run (cli_after st ev n re) (map B d ++ tl) = (inr (why, ev), r).
Proof.
  intros Hd Ht. unfold cli_after. destruct re as [e|]; [cbn [s_run]; eauto|]. destruct (N.ltb_spec 0 n); [|lia]. cbn [s_run]. unfold s_discard. rewrite s_take_ge by lia.
  destruct (N.to_nat n - length d) as [|j] eqn:Ej; [lia|]. destruct Ht as [-> |[e ->]]; cbn [s_take]; eauto.
Qed.
Lemma copy_short l w d e : length d < N.to_nat l -> exists o n' e' d' tl w', s_copy l w (map B d ++ [E e]) = (o, n', e', map B d' ++ tl, w') /\ o `prefix_of` w_take w d /\ length d' < N.to_nat n' /\ (tl = [] \/ exists e, tl = [E e]).
Proof.
  intros Hd. assert (Hge : forall n, length d < n -> s_take n (map B d ++ [E e]) = (d, Some e, [])).
  { intros n Hn. rewrite s_take_ge by lia. destruct (n - length d) as [|j] eqn:Ej; [lia|]. cbn [s_take]. by rewrite app_nil_r. }
  unfold s_copy. destruct w as [c|].
  - destruct (N.ltb_spec c l).
    + destruct (Nat.lt_ge_cases (length d) (N.to_nat (c + 1))) as [Hc|Hc].
      * rewrite Hge by done. exists d, (l - blen d)%N, (if decide (e = EEOF) then None else Some e), [], [], (Some (c - blen d)%N). split_and!; [done| |cbn; unfold blen; lia|by left].
        unfold w_take, ntake. rewrite take_ge by lia. done.
      * rewrite s_take_le by lia. exists (ntake c d), (l - c)%N, (Some EWrite), (drop (N.to_nat c) d), [E e], (Some 0%N). split_and!.
        -- unfold ntake, ndrop. rewrite take_take, Nat.min_l by lia. rewrite app_assoc, <- map_app. do 5 f_equal.
           rewrite <- (take_drop (N.to_nat (c + 1)) d) at 3. rewrite drop_app_le; [done|]. rewrite take_length. lia.
        -- done.
        -- rewrite drop_length. lia.
        -- right. eauto.
    + rewrite Hge by done. exists d, (l - blen d)%N, (match e with EEOF => None | x => Some x end), [], [], (Some (c - blen d)%N). split_and!; [destruct e; done| |cbn; unfold blen; lia|by left].
      unfold w_take, ntake. rewrite take_ge by (unfold blen in *; lia). done.
  - rewrite Hge by done. exists d, (l - blen d)%N, (match e with EEOF => None | x => Some x end), [], [], None. split_and!; [destruct e; done|done|cbn; unfold blen; lia|by left].
Qed.
Lemma w_take_mono w d p : d `prefix_of` p -> w_take w d `prefix_of` w_take w p.
Proof.
  intros [x ->]. destruct w as [c|]; cbn [w_take]; [|by eexists]. unfold ntake. rewrite firstn_app. by eexists.
Qed.
Lemma run_copy_short {st : wcap -> cstate} {ev : bytes -> list cevent} (re : option err -> option err) l w d e : length d < N.to_nat l -> exists why o r,
  s_run (PCopy l w (fun '(o, n', e, w') => cli_after (st w') (ev o) n' (re e))) (map B d ++ [E e]) = (inr (why, ev o), r) /\ o `prefix_of` w_take w d.
Proof.
  intros Hd. destruct (copy_short l w d e Hd) as (o & n' & e' & d' & tl & w' & Ec & Ho & Hn & Ht). cbn [s_run]. rewrite Ec. destruct (after_short (st w') (ev o) n' (re e') d' tl Hn Ht) as (why & r & Er).
  rewrite Er. eauto.
Qed.

Ltac short_peek :=
  match goal with |- context[s_run (peekd ?n ?bad ?kk) (map B ?d ++ [E ?e])] =>
    let r := fresh "r" in let Hr := fresh "Hr" in destruct (peekd_short n bad kk d e) as [r Hr]; [rewrite ?take_length; unfold be32, be16 in *; cbn [app length] in *; lia|];
    rewrite Hr; cbn [s_run]; do 3 eexists; split; [reflexivity|apply prefix_nil] end.
(* the client's read loop on the first k bytes of a frame, k less than all *)
Lemma cli_iter_torn env st f k e t : server_frame env st f -> frame_bytes f -> e <> ETimeout -> k < length (enc_frame f) -> exists why ev r,
  s_run (cli_iter env st) (map B (take k (enc_frame f)) ++ [E e]) = (inr (why, ev), r) /\ c_delivered t ev `prefix_of` c_delivered t (snd (cli_effect env st f)).
Proof.
  intros (Hok & Hpings & Hc) Hbytes He Hk. unfold cli_iter. cbv zeta. set (m := acts (ce_acts env) (cTasks st)) in *. unfold with_tasks. cbn [cPings cLastPing cClosing cSvcs cTasks].
  destruct (Nat.lt_ge_cases k 4) as [H4|H4].
  { cbn [s_run]. unfold s_peek. change (N.to_nat 4) with 4. rewrite s_take_ge by (rewrite take_length; lia). destruct (4 - length (take k (enc_frame f))) as [|j] eqn:Ej; [rewrite take_length in Ej; lia|]. cbn [s_take].
    destruct e; try done; cbn [s_run]; do 3 eexists; (split; [reflexivity|apply prefix_nil]). }
  assert (Hhead : forall v (kk : bytes * option err -> prog cres) s, s_run (PPeek 4 kk) (map B (be32 v) ++ s) = s_run (kk (be32 v, None)) (map B (be32 v) ++ s)).
  { intros. cbn [s_run]. rewrite s_peek_B by done. rewrite ntake_all by done. done. }
  assert (Hdisc : forall v (kk : N * option err -> prog cres) s, s_run (PDiscard 4 kk) (map B (be32 v) ++ s) = s_run (kk (4%N, None)) s).
  { intros. cbn [s_run]. rewrite s_discard_full by done. done. }
  destruct f as [t' si p|t' p|t'|sg|c|si|si port]; try done; cbn [enc_frame frame_ok frame_bytes] in *.
  - destruct Hok as (Ht & Hsi & Hl). destruct (tid_not_signal t' Ht) as (Ht32 & H1 & H2 & H3 & H4' & H5 & H6 & H7). destruct Hc as (Hlen1 & svcs & Hsv & Hsi2).
    rewrite take_app_ge by (cbn; lia). change (length (be32 t')) with 4. rewrite map_app, <- app_assoc, Hhead, Hdisc, p32_be32 by done. rewrite H1, H2, H3, H4', H5, H6, H7.
    destruct (Nat.lt_ge_cases k 6); [short_peek|]. rewrite take_app_ge by (cbn; lia). change (length (be16 OpServicesData)) with 2. rewrite map_app, <- app_assoc, s_run_peekd_be16.
    change (p16 (be16 OpServicesData)) with 2%N. change (2 =? OpServicesData)%N with true. cbn iota.
    destruct (Nat.lt_ge_cases k 8); [short_peek|]. rewrite take_app_ge by (cbn; lia). change (length (be16 si)) with 2. rewrite map_app, <- app_assoc, s_run_peekd_be16. rewrite p16_be16 by done. rewrite Hsv.
    destruct (N.leb_spec (u16 (blen svcs)) si); [lia|]. destruct (nnth si svcs) as [sv|] eqn:Hn.
    2:{ exfalso. unfold nnth in Hn. apply lookup_ge_None_1 in Hn. unfold u16, blen in Hsi2. lia. }
    destruct (Nat.lt_ge_cases k 12); [short_peek|]. rewrite take_app_ge by (cbn; lia). change (length (be32 (blen p))) with 4. rewrite map_app, <- app_assoc, s_run_peekd_be32, p32_be32 by done.
    replace (k - 4 - 2 - 2 - 4) with (k - 12) by lia. assert (Hkp : k - 12 < length p). { unfold be32, be16 in Hk. cbn [app length] in Hk. lia. }
    set (d := take (k - 12) p). assert (Hd : length d < N.to_nat (blen p)) by (unfold d, blen; rewrite take_length; lia). assert (Hdp : d `prefix_of` p) by (exists (drop (k - 12) p); symmetry; apply take_drop).
    unfold cli_service_data. cbv zeta. destruct (N.ltb_spec 0 (blen p)); [|lia]. cbn [cTasks]. unfold with_tasks. cbn [cPings cLastPing cClosing cSvcs cTasks].
    destruct (Nat.lt_ge_cases (length d) 2) as [Hd2|Hd2].
    { cbn [s_run]. unfold s_peek. change (N.to_nat 2) with 2. rewrite s_take_ge by lia. destruct (2 - length d) as [|j] eqn:Ej; [lia|]. cbn [s_take s_run]. do 3 eexists. split; [reflexivity|apply prefix_nil]. }
    set (st1 := mkCstate (cPings st) 0 (cClosing st) (Some svcs) m). cbn [s_run]. rewrite s_peek_B by (unfold blen; lia).
    assert (Hx : (p16 (ntake 2 d) =? 22608)%N = is_p2p p).
    { assert (Hdd : ntake 2 d = ntake 2 p). { unfold ntake, d. rewrite take_take, Nat.min_l; [done|]. unfold d in Hd2. rewrite take_length in Hd2. lia. }
      rewrite Hdd. assert (H2p : (2 <= blen p)%N) by (unfold blen in *; lia). rewrite <- is_p2p_take by done. destruct p as [|a [|b p]]; rewrite ?blen_cons, ?blen_nil in *; try lia.
      unfold ntake. change (N.to_nat 2) with 2. cbn [take]. apply Forall_cons_1 in Hbytes as [Ha Hbytes]. apply Forall_cons_1 in Hbytes as [Hb _]. by apply p16_xp. }
    rewrite Hx. cbn [cli_effect]. fold m. unfold cli_effect. fold m. rewrite Hsv, Hn. destruct (is_p2p p).
    + assert (Hs : forall ev, exists why r, s_run (cli_after st1 ev (blen p) None) (map B d ++ [E e]) = (inr (why, ev), r)) by (intros; apply after_short; [done|right; eauto]).
      destruct (ce_stuns env); [destruct (ce_newpeer env) as [w|]|].
      * destruct (@run_copy_short (fun _ => st1) (fun o => [CPeer t' o]) (fun _ => None) (blen p) w d e Hd) as (why & o & r & Er & Ho). cbv beta in Er. rewrite Er. do 3 eexists. split; [reflexivity|apply prefix_nil].
      * destruct (Hs [CForbidden t']) as (why & r & Er). rewrite Er. do 3 eexists. split; [reflexivity|apply prefix_nil].
      * destruct (Hs [CForbidden t']) as (why & r & Er). rewrite Er. do 3 eexists. split; [reflexivity|apply prefix_nil].
    + destruct (ce_dial env sv) as [w|].
      * destruct (@run_copy_short (fun w' => mkCstate (cPings st) 0 (cClosing st) (Some svcs) (<[t' := w']> m)) (fun o => [CNew t' sv; CDeliver t' o]) read_err (blen p) w d e Hd) as (why & o & r & Er & Ho).
        cbv beta in Er. rewrite Er. do 3 eexists. split; [reflexivity|]. rewrite decide_False by (intros ->; rewrite blen_nil in *; lia). cbn. destruct (decide (t' = t)); [|done]. rewrite !app_nil_r. etrans; [exact Ho|]. by apply w_take_mono.
      * destruct (after_short st1 [CDialFail t'] (blen p) None d [E e] Hd ltac:(right; eauto)) as (why & r & Er). rewrite Er. do 3 eexists. split; [reflexivity|apply prefix_nil].
  - destruct Hok as [Ht Hl]. destruct (tid_not_signal t' Ht) as (Ht32 & H1 & H2 & H3 & H4' & H5 & H6 & H7).
    rewrite take_app_ge by (cbn; lia). change (length (be32 t')) with 4. rewrite map_app, <- app_assoc, Hhead, Hdisc, p32_be32 by done. rewrite H1, H2, H3, H4', H5, H6, H7.
    destruct (Nat.lt_ge_cases k 6); [short_peek|]. rewrite take_app_ge by (cbn; lia). change (length (be16 OpData)) with 2. rewrite map_app, <- app_assoc, s_run_peekd_be16.
    change (p16 (be16 OpData)) with 0%N. change (0 =? OpServicesData)%N with false. change (0 =? OpData)%N with true. cbn iota.
    destruct (Nat.lt_ge_cases k 10); [short_peek|]. rewrite take_app_ge by (cbn; lia). change (length (be32 (blen p))) with 4. rewrite map_app, <- app_assoc, s_run_peekd_be32, p32_be32 by done.
    replace (k - 4 - 2 - 4) with (k - 10) by lia. assert (Hkp : k - 10 < length p). { unfold be32, be16 in Hk. cbn [app length] in Hk. lia. }
    set (d := take (k - 10) p). assert (Hd : length d < N.to_nat (blen p)) by (unfold d, blen; rewrite take_length; lia). assert (Hdp : d `prefix_of` p) by (exists (drop (k - 10) p); symmetry; apply take_drop).
    unfold cli_data, with_tasks. cbn [cPings cLastPing cClosing cSvcs cTasks]. set (st1 := mkCstate (cPings st) 0 (cClosing st) (cSvcs st) m).
    assert (Hs : forall ev, exists why r, s_run (cli_after st1 ev (blen p) None) (map B d ++ [E e]) = (inr (why, ev), r)) by (intros; apply after_short; [done|right; eauto]).
    unfold cli_effect. fold m. destruct (m !! t') as [w|] eqn:Hm.
    + destruct (@run_copy_short (fun w' => mkCstate (cPings st) 0 (cClosing st) (cSvcs st) (<[t' := w']> m)) (fun o => [CDeliver t' o]) read_err (blen p) w d e Hd) as (why & o & r & Er & Ho).
      cbv beta in Er. rewrite Er. do 3 eexists. split; [reflexivity|]. cbn. destruct (decide (t' = t)); [|done]. rewrite !app_nil_r. etrans; [exact Ho|]. by apply w_take_mono.
    + destruct (ce_peer env t') as [w|]; [destruct (ce_stuns env)|].
      * destruct (@run_copy_short (fun _ => st1) (fun o => [CPeer t' o]) (fun _ => None) (blen p) w d e Hd) as (why & o & r & Er & Ho). cbv beta in Er. rewrite Er. do 3 eexists. split; [reflexivity|apply prefix_nil].
      * destruct (Hs [CForbidden t']) as (why & r & Er). rewrite Er. do 3 eexists. split; [reflexivity|apply prefix_nil].
      * destruct (Hs []) as (why & r & Er). rewrite Er. do 3 eexists. split; [reflexivity|apply prefix_nil].
  - destruct (tid_not_signal t' Hok) as (Ht32 & H1 & H2 & H3 & H4' & H5 & H6 & H7).
    rewrite take_app_ge by (cbn; lia). change (length (be32 t')) with 4. rewrite map_app, <- app_assoc, Hhead, Hdisc, p32_be32 by done. rewrite H1, H2, H3, H4', H5, H6, H7. short_peek.
  - exfalso. unfold be32 in Hk. cbn in Hk. lia.
  - rewrite take_app_ge by (cbn; lia). change (length (be32 InfoSignal)) with 4. rewrite map_app, <- app_assoc, Hhead, Hdisc, p32_be32 by done.
    change (InfoSignal =? PingSignal)%N with false. change (InfoSignal =? CloseSignal)%N with false. change (InfoSignal =? ReconnectSignal)%N with false. change (InfoSignal =? ReadySignal)%N with false.
    change (InfoSignal =? ServicesSignal)%N with false. change (InfoSignal =? ErrorSignal)%N with false. change (InfoSignal =? InfoSignal)%N with true. cbn iota.
    destruct (Nat.lt_ge_cases k 6); [short_peek|]. rewrite take_app_ge by (cbn; lia). change (length (be16 1)) with 2. rewrite map_app, <- app_assoc, s_run_peekd_be16. change (p16 (be16 1) =? 1)%N with true. cbn iota.
    destruct (Nat.lt_ge_cases k 8); [short_peek|]. rewrite take_app_ge by (cbn; lia). change (length (be16 si)) with 2. rewrite map_app, <- app_assoc, s_run_peekd_be16. short_peek.
Qed.
Lemma cli_iter_end env st e : e <> ETimeout -> exists why r, s_run (cli_iter env st) [E e] = (inr (why, []), r).
Proof. intros He. unfold cli_iter. cbv zeta. cbn [s_run]. unfold s_peek. change (N.to_nat 4) with 4. cbn [s_take]. destruct e; try done; cbn [s_run]; eauto. Qed.
Lemma cli_loop_torn svcs t f k e : honest_server svcs f -> e <> ETimeout -> k <= length (enc_frame f) -> forall envs st fs, Forall (honest_server svcs) fs -> client_up svcs envs st ->
  c_delivered t (snd (fst (s_run (cli_loop envs st) (map B (wire fs ++ take k (enc_frame f)) ++ [E e])))) `prefix_of` c_delivered t (snd (cli_effects envs st (fs ++ [f]))).
Proof.
  intros Hf He Hk. assert (Hfb : forall g, honest_server svcs g -> frame_bytes g) by (intros g [_ Hg]; destruct g; cbn in *; tauto).
  induction envs as [|env envs IH]; intros st fs Hfs Hu; [apply prefix_nil|].
  assert (Hend : forall envs st, c_delivered t (snd (fst (s_run (cli_loop envs st) [E e]))) = []).
  { clear - He. intros [|env envs] st; [done|]. cbn [cli_loop]. destruct (3 <? cPings st)%Z; [done|]. rewrite s_run_bind. destruct (cli_iter_end env st e He) as (why & r & Er). by rewrite Er. }
  cbn [cli_loop]. pose proof Hu as (_ & _ & Hp & _). destruct (Z.ltb_spec 3 (cPings st)); [lia|]. rewrite s_run_bind. destruct fs as [|g fs].
  - destruct (cli_effect_up svcs env envs st f Hu Hf) as [Hs _]. cbn [wire map concat app]. destruct (Nat.eq_dec k (length (enc_frame f))) as [->|Hn].
    + rewrite firstn_all, cli_iter_frame by auto. cbn [cli_effects app]. destruct (cli_effect env st f) as [st' ev]. rewrite s_run_bind. cbn iota.
      specialize (Hend envs st'). destruct (s_run (cli_loop envs st') [E e]) as [[o evs] r]. cbn [fst snd s_run] in *. destruct (cli_effects envs st' []) as [st'' evs'] eqn:Ee.
      assert (evs' = []) as -> by (destruct envs; cbn in Ee; congruence). cbn [fst snd]. rewrite !c_delivered_app, Hend. done.
    + destruct (cli_iter_torn env st f k e t Hs (Hfb _ Hf) He ltac:(lia)) as (why & ev & r & Hr & Hpr). rewrite Hr. cbn [s_run fst snd cli_effects app]. destruct (cli_effect env st f) as [st' ev']. cbn [snd] in *.
      destruct (cli_effects envs st' []) as [st'' evs'] eqn:Ee. cbn [snd]. rewrite c_delivered_app. by apply prefix_app_r.
  - apply Forall_cons_1 in Hfs as [Hg Hfs]. destruct (cli_effect_up svcs env envs st g Hu Hg) as [Hs Hu']. rewrite wire_cons, <- app_assoc, map_app, <- app_assoc, cli_iter_frame by auto. cbn [cli_effects app].
    destruct (cli_effect env st g) as [st' ev]. cbn [fst] in Hu'. rewrite s_run_bind.
    specialize (IH st' fs Hfs Hu'). destruct (s_run (cli_loop envs st') _) as [[o evs] r]. cbn [fst snd s_run] in *. destruct (cli_effects envs st' (fs ++ [f])) as [st'' evs']. cbn [fst snd] in *. rewrite !c_delivered_app. by apply prefix_app.
Qed.
Lemma cli_effects_take envs : forall st fs, cli_effects envs st fs = cli_effects (take (length fs) envs) st (take (length envs) fs).
Proof. induction envs as [|env envs IH]; intros st [|f fs]; try done. cbn [cli_effects length take]. destruct (cli_effect env st f) as [st' ev]. by rewrite IH. Qed.
(* Over such a connection (TLS, or no timeout), however and whenever it ends, what the service dialled for visitor t has got is the beginning of what that visitor has sent: *)
Theorem C102_services_own_bytes_partial T sticky closing l tr s i x fuel t si b e svcs envs st e' : sticky = true \/ T = 0 -> krun (kst0 T sticky closing l) tr = Some s ->
  Forall (fun y => Forall (honest_server svcs) y.1) l -> l !! i = Some x -> rerr b = None -> src_ok (rsrc b) -> srv_process fuel t si false b = (x.1, Some e) ->
  (forall j y f, l !! j = Some y -> j <> i -> f ∈ y.1 -> frame_task f <> Some t) ->
  client_up svcs envs st -> cTasks st !! t = None -> Forall (fun env => only_stops t (ce_acts env)) envs -> e' <> ETimeout ->
  c_delivered t (snd (fst (s_run (cli_loop envs st) (map B (kWire s) ++ [E e'])))) `prefix_of` rbuf b ++ src_bytes (rsrc b).
Proof.
  intros Hsafe H Hh Hx Her Hok Hp Hothers Hu Hnone Ha He'. destruct (C102_whole_partial _ _ _ _ _ _ Hsafe H) as (log & part & Ew & Hlt & Hlog & Hpart).
  apply srv_process_spec in Hp as (p & ps & Hx1 & Hcat & _ & _ & _); [|done|done].
  assert (Hin : forall j f, (j, f) ∈ log -> exists y, l !! j = Some y /\ f ∈ y.1).
  { intros j f Hj. destruct (lookup_lt_is_Some_2 l j) as [y Ey]; [by eapply Hlt|]. exists y. split; [done|]. eapply prefix_in; [by apply Hlog|]. by apply in_of_writer. }
  assert (Hhon : Forall (honest_server svcs) log.*2).
  { apply Forall_forall. intros f ([j g] & -> & Hf)%elem_of_list_fmap. destruct (Hin _ _ Hf) as (y & Ey & Hg). rewrite Forall_forall in Hh. specialize (Hh y (elem_of_list_lookup_2 _ _ _ Ey)). rewrite Forall_forall in Hh. by apply Hh. }
  assert (Hfr : frames_of t log.*2 = frames_of t (of_writer i log)).
  { apply frames_of_writer. intros j f Hj Hn. destruct (Hin _ _ Hj) as (y & Ey & Hf). eauto. }
  assert (Hall : frames_of t x.1 = x.1).
  { rewrite Hx1. rewrite frames_of_cons, decide_True by done. f_equal. clear. induction ps as [|q ps IH]; cbn [map app]; rewrite frames_of_cons, decide_True by done; [done|]. by rewrite IH. }
  assert (Hmono : forall a b, a `prefix_of` b -> frames_of t a `prefix_of` frames_of t b). { intros a c [d ->]. rewrite frames_of_app. by eexists. }
  rewrite Ew, <- Hcat.
  assert (Hgo : forall f k, honest_server svcs f -> k <= length (enc_frame f) -> frames_of t (log.*2 ++ [f]) `prefix_of` x.1 ->
    c_delivered t (snd (fst (s_run (cli_loop envs st) (map B (wire log.*2 ++ take k (enc_frame f)) ++ [E e'])))) `prefix_of` p ++ concat ps).
  { intros f k Hf Hk Hpre. etrans; [apply (cli_loop_torn svcs); done|]. rewrite cli_effects_take. set (fs := log.*2 ++ [f]) in *.
    assert (Hfs : Forall (honest_server svcs) fs) by (apply Forall_app; split; [done|by constructor]).
    apply (cli_visitor_prefix t si).
    - apply (honest_server_frames svcs); [rewrite !take_length; lia| |by apply Forall_take]. destruct Hu as (U1 & U2 & U3 & U4). split_and!; try done. by apply Forall_take.
    - by apply Forall_take.
    - by left.
    - rewrite <- Hx1. etrans; [|exact Hpre]. apply Hmono. exists (drop (length envs) fs). symmetry. apply take_drop. }
  destruct Hpart as [->|(j & y & f & k & Ey & Hpre & ->)].
  - apply (Hgo (FSignal PingSignal) 0); [split; [done|by left]|lia|]. rewrite frames_of_app. change (frames_of t [FSignal PingSignal]) with (@nil frame). rewrite app_nil_r, Hfr, <- Hall. apply Hmono. by apply Hlog.
  - assert (Hfy : f ∈ y.1) by (eapply prefix_in; [exact Hpre|]; apply elem_of_app; right; by left).
    replace (take k (enc_frame f)) with (take (Nat.min k (length (enc_frame f))) (enc_frame f)) by (destruct (Nat.le_ge_cases k (length (enc_frame f))); [by rewrite Nat.min_l by lia|rewrite Nat.min_r by lia; by rewrite firstn_all, take_ge by lia]).
    apply Hgo; [|lia|].
    + rewrite Forall_forall in Hh. specialize (Hh y (elem_of_list_lookup_2 _ _ _ Ey)). rewrite Forall_forall in Hh. by apply Hh.
    + rewrite frames_of_app, Hfr. destruct (decide (j = i)) as [->|Hn].
      * rewrite Hx in Ey. injection Ey as <-. rewrite <- frames_of_app, <- Hall. by apply Hmono.
      * rewrite (frames_of_cons t f []), decide_False by (eapply Hothers; eauto). change (frames_of t []) with (@nil frame). rewrite app_nil_r, <- Hall. apply Hmono. by apply Hlog.
Qed.
(* a visitor's request over TLS, torn by a deadline in its second frame; what the server's goroutines had to write *)
Theorem C102_services_witness : let fs := [FServices 1 0 [71; 69]%N; FData 1 [84; 32; 47]%N; FClose 1] in
  (exists s, krun (kst0 2 true false [(fs, false); ([FClose 2], false)]) (whole 0 (FServices 1 0 [71; 69]%N) ++ tear 0 11 2 ++ [KArm 1; KTake 1; KFail; KShut 0; KShut 1]) = Some s /\
     kWire s = wire [FServices 1 0 [71; 69]%N] ++ take 11 (enc_frame (FData 1 [84; 32; 47]%N)) /\ kShut s = true) /\
  (exists fuel, srv_process fuel 1 0 false (mkReader [71; 69]%N None [EvData [84; 32; 47]%N; EvErr EEOF]) = (fs, Some EEOF)).
Proof.
  cbv zeta. split.
  - eexists. split; [vm_compute; reflexivity|]. split; reflexivity.
  - exists 5. vm_compute. reflexivity.
Qed.
