(* FrameProofsC.v -- the client side read loop *)
From Verif Require Import GoBase GoBaseLemmas BufioModel BufioProofs HandshakeModel HandshakeProofs FrameModel FrameSpec FrameProofs.
Local Open Scope N_scope.

Lemma cli_after_full st ev d n s : blen d = n ->
  s_run (cli_after st ev n None) (map B d ++ s) = (inl (st, ev), s).
Proof.
  intros Hd. unfold cli_after. destruct (0 <? n) eqn:Hn.
  - cbn [s_run]. rewrite s_discard_full by done. done.
  - destruct d; [done|]. rewrite blen_cons in Hd. lia.
Qed.

Lemma copy_after st ev p w k s :
  (forall o w', k (o, w') = (st w', ev o)) ->
  s_run (PCopy (blen p) w (fun '(o, n', e, w') => let '(st, ev) := k (o, w') in cli_after st ev n' (read_err e))) (map B p ++ s)
  = (inl (st (w_after w p), ev (w_take w p)), s).
Proof.
  intros Hk. cbn [s_run]. rewrite s_copy_full. destruct w as [c|].
  - destruct (c <? blen p) eqn:Hc.
    + rewrite Hk. cbn [read_err]. rewrite w_after_some by lia. unfold w_take.
      apply cli_after_full. rewrite blen_ndrop. done.
    + rewrite Hk. cbn [read_err]. rewrite w_take_some by lia. done.
  - rewrite Hk. done.
Qed.
Lemma copy_after_none st ev p w s :
  s_run (PCopy (blen p) w (fun '(o, n', _, _) => cli_after st (ev o) n' None)) (map B p ++ s)
  = (inl (st, ev (w_take w p)), s).
Proof.
  cbn [s_run]. rewrite s_copy_full. destruct w as [c|].
  - destruct (c <? blen p) eqn:Hc.
    + unfold w_take. apply cli_after_full. rewrite blen_ndrop. done.
    + rewrite w_take_some by lia. done.
  - done.
Qed.

Lemma s_peek_B n d s : n <= blen d -> s_peek n (map B d ++ s) = (ntake n d, None, map B d ++ s).
Proof.
  intros Hn. unfold s_peek. rewrite s_take_le by (unfold blen in *; lia).
  rewrite app_assoc, <- map_app. change (drop (N.to_nat n) d) with (ndrop n d).
  change (take (N.to_nat n) d) with (ntake n d). rewrite ntake_ndrop. done.
Qed.

Lemma p16_xp a b : is_byte a -> is_byte b -> (p16 [a; b] =? 22608) = is_p2p [a; b].
Proof.
  intros Ha Hb. unfold p16. rewrite rd16_val by done. unfold is_byte in *.
  destruct (decide (a = 88)) as [->|Hna].
  - destruct (decide (b = 80)) as [->|Hnb]; [done|].
    unfold is_p2p. destruct (88 * 256 + b =? 22608) eqn:H; [lia|].
    symmetry. repeat match goal with |- context [match ?x with _ => _ end] => destruct x end; done.
  - unfold is_p2p. destruct (a * 256 + b =? 22608) eqn:H; [lia|].
    symmetry. repeat match goal with |- context [match ?x with _ => _ end] => destruct x end; done.
Qed.

Lemma is_p2p_take p : 2 <= blen p -> is_p2p (ntake 2 p) = is_p2p p.
Proof.
  destruct p as [|a [|b p]]; rewrite ?blen_cons, ?blen_nil; try lia. intros _.
  unfold ntake, is_p2p. cbn. done.
Qed.

Definition frame_bytes (f : frame) : Prop :=
  match f with FServices _ _ p | FData _ p => all_bytes p | _ => True end.

Lemma cli_iter_frame env st f s : server_frame env st f -> frame_bytes f ->
  s_run (cli_iter env st) (map B (enc_frame f) ++ s) = (inl (cli_effect env st f), s).
Proof.
  intros (Hok & Hpings & Hc) Hbytes. unfold cli_iter, cli_effect. cbv zeta.
  set (m := acts (ce_acts env) (cTasks st)) in *.
  unfold with_tasks. cbn [cPings cLastPing cClosing cSvcs cTasks].
  assert (Hhead : forall v (k : bytes * option err -> prog cres) s, s_run (PPeek 4 k) (map B (be32 v) ++ s) =
     s_run (k (be32 v, None)) (map B (be32 v) ++ s)).
  { intros. cbn [s_run]. rewrite s_peek_B by done. rewrite ntake_all by done. done. }
  assert (Hdisc : forall v (k : N * option err -> prog cres) s, s_run (PDiscard 4 k) (map B (be32 v) ++ s) =
     s_run (k (4, None)) s).
  { intros. cbn [s_run]. rewrite s_discard_full by done. done. }
  destruct f as [t si p|t p|t|sg|c|si|si port]; try done; cbn [enc_frame frame_ok frame_bytes] in *.
  - destruct Hok as (Ht & Hsi & Hl). destruct (tid_not_signal t Ht) as (Ht32 & H1 & H2 & H3 & H4 & H5 & H6 & H7).
    destruct Hc as (Hlen1 & svcs & Hsv & Hsi2).
    rewrite !map_app, <- !app_assoc. rewrite Hhead, Hdisc. rewrite p32_be32 by done.
    rewrite H1, H2, H3, H4, H5, H6, H7. rewrite s_run_peekd_be16.
    change (p16 (be16 OpServicesData)) with 2. change (2 =? OpServicesData) with true. cbn iota.
    rewrite s_run_peekd_be16. rewrite p16_be16 by done. rewrite Hsv.
    destruct (u16 (blen svcs) <=? si) eqn:Hge; [lia|].
    destruct (nnth si svcs) as [sv|] eqn:Hn.
    2:{ exfalso. unfold nnth in Hn. apply lookup_ge_None_1 in Hn. unfold u16, blen in Hsi2. lia. }
    rewrite s_run_peekd_be32. rewrite p32_be32 by done.
    unfold cli_service_data. cbv zeta.
    destruct (decide (p = [])) as [->|Hp].
    + change (0 <? blen []) with false. cbn iota. cbn [is_p2p].
      destruct (ce_dial env sv) as [w|].
      * unfold cli_after. change (0 <? blen []) with false. cbn iota. cbn [s_run map app].
        unfold with_tasks. cbn [cPings cLastPing cClosing cSvcs cTasks].
        assert (Hwa : w_after w [] = w) by (destruct w as [k|]; [unfold w_after; rewrite blen_nil, N.sub_0_r; done|done]). rewrite Hwa. done.
      * cbn [s_run cli_after map app]. done.
    + assert (H2p : 2 <= blen p).
      { destruct p as [|a [|b p]]; [done|..]; rewrite ?blen_cons, ?blen_nil in *; lia. }
      destruct (0 <? blen p) eqn:Hlt; [|lia]. cbn [s_run]. rewrite s_peek_B by done.
      assert (Hx : (p16 (ntake 2 p) =? 22608) = is_p2p p).
      { rewrite <- is_p2p_take by done. destruct p as [|a [|b p]]; rewrite ?blen_cons, ?blen_nil in *; try lia.
        unfold ntake. change (N.to_nat 2) with 2%nat. cbn [take].
        apply Forall_cons_1 in Hbytes as [Ha Hbytes]. apply Forall_cons_1 in Hbytes as [Hb _].
        by apply p16_xp. }
      rewrite Hx. destruct (is_p2p p).
      * destruct (ce_stuns env).
        -- destruct (ce_newpeer env) as [w|].
           ++ rewrite (copy_after_none _ (fun o => [CPeer t o])). done.
           ++ rewrite cli_after_full by done. done.
        -- rewrite cli_after_full by done. done.
      * destruct (ce_dial env sv) as [w|].
        -- rewrite (copy_after (fun w' => with_tasks (mkCstate (cPings st) 0 (cClosing st) (Some svcs) m) (<[t := w']> m))
             (fun o => [CNew t sv; CDeliver t o]) p w
             (fun '(o, w') => (with_tasks (mkCstate (cPings st) 0 (cClosing st) (Some svcs) m) (<[t := w']> m), [CNew t sv; CDeliver t o]))); [|done].
           unfold with_tasks. cbn [cPings cLastPing cClosing cSvcs cTasks]. done.
        -- rewrite cli_after_full by done. done.
  - destruct Hok as [Ht Hl]. destruct (tid_not_signal t Ht) as (Ht32 & H1 & H2 & H3 & H4 & H5 & H6 & H7).
    rewrite !map_app, <- !app_assoc. rewrite Hhead, Hdisc. rewrite p32_be32 by done.
    rewrite H1, H2, H3, H4, H5, H6, H7. rewrite s_run_peekd_be16.
    change (p16 (be16 OpData)) with 0. change (0 =? OpServicesData) with false. change (0 =? OpData) with true. cbn iota.
    rewrite s_run_peekd_be32. rewrite p32_be32 by done.
    unfold cli_data, with_tasks. cbn [cPings cLastPing cClosing cSvcs cTasks]. destruct (m !! t) as [w|] eqn:Hm.
    + rewrite (copy_after (fun w' => mkCstate (cPings st) 0 (cClosing st) (cSvcs st) (<[t := w']> m))
             (fun o => [CDeliver t o]) p w
             (fun '(o, w') => (mkCstate (cPings st) 0 (cClosing st) (cSvcs st) (<[t := w']> m), [CDeliver t o]))); done.
    + destruct (ce_peer env t) as [w|].
      * destruct (ce_stuns env).
        -- rewrite (copy_after_none _ (fun o => [CPeer t o])). done.
        -- rewrite cli_after_full by done. done.
      * rewrite cli_after_full by done. done.
  - destruct (tid_not_signal t Hok) as (Ht32 & H1 & H2 & H3 & H4 & H5 & H6 & H7).
    rewrite !map_app, <- !app_assoc. rewrite Hhead, Hdisc. rewrite p32_be32 by done.
    rewrite H1, H2, H3, H4, H5, H6, H7. rewrite s_run_peekd_be16.
    change (p16 (be16 OpClose)) with 1. change (1 =? OpServicesData) with false.
    change (1 =? OpData) with false. change (1 =? OpClose) with true. cbn iota.
    destruct (m !! t); done.
  - rewrite Hhead, Hdisc. rewrite p32_be32 by done. destruct Hc as [[-> Hcl]|[->| ->]].
    + change (PingSignal =? PingSignal) with true. cbn iota.
      assert (Hcond : cClosing st && (3 <=? cLastPing st + 1) && bool_decide (m = ∅) = false).
      { destruct Hcl as [-> | Hcl]; [done|]. rewrite bool_decide_false by done. apply andb_false_r. }
      rewrite Hcond. destruct (6 <=? cLastPing st + 1); done.
    + done.
    + done.
  - destruct Hok as [Hs1 Hs2]. rewrite !map_app, <- !app_assoc. rewrite Hhead, Hdisc. rewrite p32_be32 by done.
    change (InfoSignal =? PingSignal) with false. change (InfoSignal =? CloseSignal) with false.
    change (InfoSignal =? ReconnectSignal) with false. change (InfoSignal =? ReadySignal) with false.
    change (InfoSignal =? ServicesSignal) with false. change (InfoSignal =? ErrorSignal) with false.
    change (InfoSignal =? InfoSignal) with true. cbn iota.
    rewrite s_run_peekd_be16. change (p16 (be16 1) =? 1) with true. cbn iota.
    rewrite s_run_peekd_be16, s_run_peekd_be16, !p16_be16 by done. done.
Qed.

Fixpoint cli_effects (envs : list cenv) (st : cstate) (fs : list frame) : cstate * list cevent :=
  match envs, fs with
  | env :: envs, f :: fs =>
      let '(st', ev) := cli_effect env st f in
      let '(st'', evs) := cli_effects envs st' fs in (st'', ev ++ evs)
  | _, _ => (st, [])
  end.
Fixpoint server_frames (envs : list cenv) (st : cstate) (fs : list frame) : Prop :=
  match envs, fs with
  | env :: envs, f :: fs =>
      server_frame env st f /\ server_frames envs (fst (cli_effect env st f)) fs
  | [], [] => True
  | _, _ => False
  end.
Lemma cli_loop_frames envs st fs s : server_frames envs st fs -> Forall frame_bytes fs ->
  s_run (cli_loop envs st) (map B (wire fs) ++ s) =
   (let '(st', evs) := cli_effects envs st fs in (CRunning st', evs), s).
Proof.
  revert st fs. induction envs as [|env envs IH]; intros st [|f fs] Hf Hb; try done.
  cbn [server_frames cli_loop cli_effects] in *. destruct Hf as [Hf Hfs].
  apply Forall_cons_1 in Hb as [Hb1 Hb].
  destruct (3 <? cPings st)%Z eqn:Hp; [destruct Hf as (_ & Hp' & _); lia|].
  rewrite wire_cons, map_app, <- app_assoc. rewrite s_run_bind, cli_iter_frame by done.
  destruct (cli_effect env st f) as [st' ev]. rewrite s_run_bind, IH by done.
  destruct (cli_effects envs st' fs) as [st'' evs]. done.
Qed.
