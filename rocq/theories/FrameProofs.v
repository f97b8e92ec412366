(* FrameProofs.v *)
From Verif Require Import GoBase GoBaseLemmas BufioModel BufioProofs HandshakeModel HandshakeProofs FrameModel FrameSpec.
Local Open Scope N_scope.

Lemma p32_be32 v : v < 4294967296 -> p32 (be32 v) = v.
Proof. intros. unfold be32, p32. apply rd32_be32. done. Qed.
Lemma p16_be16 v : v < 65536 -> p16 (be16 v) = v.
Proof. intros. unfold be16, p16. apply rd16_be16. done. Qed.

Lemma s_copy_full p w s :
  s_copy (blen p) w (map B p ++ s) =
  match w with
  | None => (p, 0, None, s, None)
  | Some k => if k <? blen p then (ntake k p, blen p - k, Some EWrite, map B (ndrop k p) ++ s, Some 0)
              else (p, 0, None, s, Some (k - blen p))
  end.
Proof.
  unfold s_copy. destruct w as [k|].
  - destruct (k <? blen p) eqn:Hk.
    + rewrite s_take_le by (unfold blen in *; lia). cbn iota.
      assert (Htd : ntake k (take (N.to_nat (k + 1)) p) = ntake k p).
      { change (take (N.to_nat (k+1)) p) with (ntake (k+1) p). rewrite ntake_ntake. f_equal. lia. }
      rewrite Htd. f_equal. f_equal.
      rewrite app_assoc, <- map_app. f_equal. f_equal.
      change (take (N.to_nat (k + 1)) p) with (ntake (k+1) p). change (drop (N.to_nat (k + 1)) p) with (ndrop (k+1) p).
      rewrite <- (ntake_ndrop (k+1) p) at 3. rewrite ndrop_app_le; [done|]. rewrite blen_ntake. lia.
    + rewrite s_take_le by (unfold blen; lia). replace (N.to_nat (blen p)) with (length p) by (unfold blen; lia).
      rewrite firstn_all, drop_all. cbn [map app]. rewrite N.sub_diag. done.
  - rewrite s_take_le by (unfold blen; lia). replace (N.to_nat (blen p)) with (length p) by (unfold blen; lia).
    rewrite firstn_all, drop_all. cbn [map app]. rewrite N.sub_diag. done.
Qed.
Lemma s_discard_full d n s : blen d = n -> s_discard n (map B d ++ s) = (n, None, s).
Proof.
  intros <-. unfold s_discard. rewrite s_take_le by (unfold blen; lia).
  replace (N.to_nat (blen d)) with (length d) by (unfold blen; lia). rewrite firstn_all, drop_all. done.
Qed.
Lemma w_after_some k p : k < blen p -> w_after (Some k) p = Some 0.
Proof. intros. unfold w_after. f_equal. lia. Qed.
Lemma w_take_some k p : blen p <= k -> w_take (Some k) p = p.
Proof. intros. unfold w_take. by apply ntake_all. Qed.

(* --- one frame on the server --- *)
Lemma wire_cons f fs : wire (f :: fs) = enc_frame f ++ wire fs.
Proof. done. Qed.
Lemma s_run_peekd_be32 {A} (fail : err -> prog A) k v s :
  s_run (peekd 4 fail k) (map B (be32 v) ++ s) = s_run (k (be32 v)) s.
Proof. apply s_run_peekd_B. done. Qed.
Lemma s_run_peekd_be16 {A} (fail : err -> prog A) k v s :
  s_run (peekd 2 fail k) (map B (be16 v) ++ s) = s_run (k (be16 v)) s.
Proof. apply s_run_peekd_B. done. Qed.
Lemma tid_not_signal t : tid_ok t -> t < 4294967296 /\ (t =? PingSignal) = false /\ (t =? CloseSignal) = false /\
  (t =? ServicesSignal) = false /\ (t =? ReadySignal) = false /\ (t =? ReconnectSignal) = false /\
  (t =? ErrorSignal) = false /\ (t =? InfoSignal) = false.
Proof. unfold tid_ok, PreservedSignal, PingSignal, CloseSignal, ServicesSignal, ReadySignal, ReconnectSignal, ErrorSignal, InfoSignal.
  intros. repeat split; lia. Qed.

(* frames the client side sends *)
Definition client_frame (deadline : bool) (env : senv) (st : sstate) (f : frame) : Prop :=
  frame_ok f /\
  match f with
  | FData t p => p <> [] \/ deadline = false \/ acts (se_acts env) (sTasks st) !! t <> None
  | FClose t => True
  | FSignal s => s = PingSignal /\ se_registered env = true /\ se_ping_ok env = true
  | _ => False
  end.

Lemma srv_iter_frame deadline env st f s : client_frame deadline env st f ->
  s_run (srv_iter deadline env st) (map B (enc_frame f) ++ s) = (inl (srv_effect env st f), s).
Proof.
  intros [Hok Hc]. unfold srv_iter, srv_effect. cbv zeta. set (m := acts (se_acts env) (sTasks st)) in *.
  destruct f as [t si p|t p|t|sg|c|si|si port]; try done; cbn [enc_frame frame_ok] in *.
  - destruct Hok as [Ht Hl]. destruct (tid_not_signal t Ht) as (Ht32 & H1 & H2 & H3 & _).
    rewrite !map_app, <- !app_assoc. rewrite s_run_peekd_be32. rewrite p32_be32 by done.
    rewrite H1, H2, H3. rewrite s_run_peekd_be16. change (p16 (be16 OpData)) with 0.
    change (0 =? OpData) with true. cbn iota. rewrite s_run_peekd_be32. rewrite p32_be32 by done.
    destruct (m !! t) as [w|] eqn:Hm.
    + cbn [s_run]. rewrite s_copy_full. destruct w as [k|].
      * destruct (k <? blen p) eqn:Hk.
        -- destruct (0 <? blen p - k) eqn:Hn; [|lia]. cbn [s_run].
           rewrite s_discard_full by (rewrite blen_ndrop; lia). cbn [s_run]. unfold w_take.
           rewrite w_after_some by lia. done.
        -- change (0 <? 0) with false. cbn iota. cbn [s_run]. rewrite w_take_some by lia. done.
      * change (0 <? 0) with false. cbn iota. cbn [s_run]. done.
    + destruct (0 <? blen p) eqn:Hn.
      * cbn [s_run]. rewrite s_discard_full by done. done.
      * destruct Hc as [Hc|[->|Hc]]; [|..|done].
        -- destruct p; [done|]. rewrite blen_cons in Hn. lia.
        -- destruct p; [done|]. rewrite blen_cons in Hn. lia.
  - destruct (tid_not_signal t Hok) as (Ht32 & H1 & H2 & H3 & _).
    rewrite !map_app, <- !app_assoc. rewrite s_run_peekd_be32. rewrite p32_be32 by done.
    rewrite H1, H2, H3. rewrite s_run_peekd_be16. change (p16 (be16 OpClose)) with 1.
    change (1 =? OpData) with false. change (1 =? OpClose) with true. cbn iota.
    destruct (m !! t); done.
  - destruct Hc as (-> & Hr & Hp). rewrite s_run_peekd_be32. rewrite p32_be32 by done.
    change (PingSignal =? PingSignal) with true. cbn iota. rewrite Hr, Hp. done.
Qed.

Fixpoint srv_effects (envs : list senv) (st : sstate) (fs : list frame) : sstate * list sevent :=
  match envs, fs with
  | env :: envs, f :: fs =>
      let '(st', ev) := srv_effect env st f in
      let '(st'', evs) := srv_effects envs st' fs in (st'', ev ++ evs)
  | _, _ => (st, [])
  end.
Fixpoint client_frames deadline (envs : list senv) (st : sstate) (fs : list frame) : Prop :=
  match envs, fs with
  | env :: envs, f :: fs =>
      client_frame deadline env st f /\ client_frames deadline envs (fst (srv_effect env st f)) fs
  | [], [] => True
  | _, _ => False
  end.
Lemma srv_loop_frames deadline envs st fs s : client_frames deadline envs st fs ->
  s_run (srv_loop deadline envs st) (map B (wire fs) ++ s) =
   (let '(st', evs) := srv_effects envs st fs in (SRunning st', evs), s).
Proof.
  revert st fs. induction envs as [|env envs IH]; intros st [|f fs] Hf; try done.
  cbn [client_frames srv_loop srv_effects] in *. destruct Hf as [Hf Hfs].
  rewrite wire_cons, map_app, <- app_assoc. rewrite s_run_bind, srv_iter_frame by done.
  destruct (srv_effect env st f) as [st' ev]. rewrite s_run_bind, IH by done.
  destruct (srv_effects envs st' fs) as [st'' evs]. done.
Qed.

Lemma acts_alone t l m : leaves_alone t l -> acts l m !! t = m !! t.
Proof.
  unfold acts. revert m. induction l as [|a l IH]; intros m H; [done|].
  apply Forall_cons_1 in H as [Ha H]. cbn [fold_left]. rewrite IH by done.
  destruct a as [t' w|t'|t' w]; cbn [act1 act_task] in *.
  - rewrite lookup_insert_ne by done. done.
  - rewrite lookup_delete_ne by done. done.
  - destruct (m !! t'); [|done]. rewrite lookup_insert_ne by done. done.
Qed.
Lemma s_delivered_app t a b : s_delivered t (a ++ b) = s_delivered t a ++ s_delivered t b.
Proof. unfold s_delivered. rewrite map_app, concat_app. done. Qed.
Lemma s_delivered_self t p : s_delivered t [SDeliver t p] = p.
Proof. unfold s_delivered. cbn. rewrite decide_True by done. apply app_nil_r. Qed.

(* the data delivered to a live task whose connection accepts everything *)
Lemma srv_effect_other t env st f : leaves_alone t (se_acts env) -> frame_task f <> Some t ->
  sTasks (fst (srv_effect env st f)) !! t = sTasks st !! t /\ s_delivered t (snd (srv_effect env st f)) = [].
Proof.
  intros Ha Hf. pose proof (acts_alone t (se_acts env) (sTasks st) Ha) as Hm.
  unfold srv_effect. destruct f as [t' si p|t' p|t'|sg|c|si|si port]; cbn [frame_task] in Hf; try (split; [exact Hm|done]).
  - destruct (acts _ _ !! t'); [|split; [exact Hm|done]]. cbn. split.
    + rewrite lookup_insert_ne by congruence. done.
    + unfold s_delivered. cbn. rewrite decide_False by congruence. done.
  - destruct (acts _ _ !! t'); [|split; [exact Hm|done]]. cbn. split; [|done].
    rewrite lookup_insert_ne by congruence. done.
Qed.

Lemma srv_deliver_all t : forall envs st fs ps,
  Forall (fun e => leaves_alone t (se_acts e)) envs -> length envs = length fs ->
  sTasks st !! t = Some None ->
  (frames_of t fs = map (FData t) ps \/ frames_of t fs = map (FData t) ps ++ [FClose t]) ->
  s_delivered t (snd (srv_effects envs st fs)) = concat ps.
Proof.
  induction envs as [|env envs IH]; intros st [|f fs] ps Ha Hl Ht Hfs; try done.
  { destruct ps; [done|]. destruct Hfs as [|]; done. }
  apply Forall_cons_1 in Ha as [Ha1 Ha]. cbn [srv_effects].
  unfold frames_of in Hfs. rewrite filter_cons in Hfs.
  destruct (decide (frame_task f = Some t)) as [Hft|Hft].
  - pose proof (acts_alone t (se_acts env) (sTasks st) Ha1) as Hm. rewrite Ht in Hm.
    destruct ps as [|p ps].
    + (* the close frame *)
      destruct Hfs as [Hfs|Hfs]; [done|]. cbn [map app] in Hfs. injection Hfs as -> Hrest.
      unfold srv_effect. rewrite Hm.
      destruct (srv_effects envs _ fs) as [st'' evs] eqn:He. cbn [snd]. rewrite s_delivered_app.
      change (s_delivered t [SCloseTask t]) with (@nil N). cbn [app concat].
      assert (Hgen : forall envs st fs, Forall (fun e => leaves_alone t (se_acts e)) envs ->
        filter (fun f => frame_task f = Some t) fs = [] -> s_delivered t (snd (srv_effects envs st fs)) = []).
      { clear. induction envs as [|env envs IH]; intros st [|f fs] Ha Hf; try done.
        apply Forall_cons_1 in Ha as [Ha1 Ha]. rewrite filter_cons in Hf. case_decide as Hd; [done|].
        cbn [srv_effects]. destruct (srv_effect_other t env st f Ha1 Hd) as [_ H2].
        destruct (srv_effect env st f) as [st1 ev]. specialize (IH st1 fs Ha Hf).
        destruct (srv_effects envs st1 fs) as [st2 evs]. cbn [snd] in *. rewrite s_delivered_app, H2, IH. done. }
      specialize (Hgen envs (mkSstate (sClosing st) (<[t:=Some 0]> (acts (se_acts env) (sTasks st)))) fs Ha Hrest).
      rewrite He in Hgen. done.
    + assert (Hrest : f = FData t p /\ (frames_of t fs = map (FData t) ps \/ frames_of t fs = map (FData t) ps ++ [FClose t])).
      { destruct Hfs as [Hfs|Hfs]; cbn [map app] in Hfs; injection Hfs as -> Hr; auto. }
      destruct Hrest as [-> Hrest]. unfold srv_effect. rewrite Hm.
      set (st1 := mkSstate _ _).
      specialize (IH st1 fs ps Ha ltac:(cbn in Hl; lia)).
      destruct (srv_effects envs st1 fs) as [st'' evs]. cbn [snd] in *.
      rewrite s_delivered_app, IH; [|subst st1; cbn; by rewrite lookup_insert|done].
      rewrite s_delivered_self. done.
  - destruct (srv_effect_other t env st f Ha1 Hft) as [H1 H2].
    destruct (srv_effect env st f) as [st1 ev]. cbn [fst snd] in *.
    specialize (IH st1 fs ps Ha ltac:(cbn in Hl; lia)).
    destruct (srv_effects envs st1 fs) as [st'' evs]. cbn [snd] in *.
    rewrite s_delivered_app, H2, IH; [done|congruence|done].
Qed.

(* --- writers --- *)
Lemma src_bytes_read cap s d s' : 0 < cap -> src_read cap s = (d, None, s') ->
  src_bytes s = d ++ src_bytes s'.
Proof.
  intros Hc. unfold src_read. destruct s as [|[x|e] s]; [done| |done].
  destruct (blen x <=? cap); intros [= <- <-]; [done|].
  cbn [src_bytes]. rewrite app_assoc, ntake_ndrop. done.
Qed.
Lemma src_bytes_read_err cap s d e s' : src_read cap s = (d, Some e, s') -> src_bytes s = [] /\ d = [].
Proof.
  unfold src_read. destruct s as [|[x|e'] s]; [intros [= <- <- <-]; done| |intros [= <- <- <-]; done].
  destruct (blen x <=? cap); done.
Qed.
Lemma src_read_ok cap s d e s' : 0 < cap -> src_ok s -> src_read cap s = (d, e, s') ->
  src_ok s' /\ (e = None -> d <> []) /\ blen d <= cap.
Proof.
  intros Hc Hok. unfold src_read. destruct s as [|[x|e'] s].
  - intros [= <- <- <-]. repeat split; [done|done|rewrite blen_nil; lia].
  - apply Forall_cons_1 in Hok as [Hx Hok]. destruct (blen x <=? cap) eqn:Hl; intros [= <- <- <-].
    + repeat split; [done|done|lia].
    + assert (Hlt : cap < blen x) by lia. repeat split.
      * constructor; [|done]. intros Hn. apply (f_equal blen) in Hn. rewrite blen_ndrop, blen_nil in Hn. lia.
      * intros _ Hn. apply (f_equal blen) in Hn. rewrite blen_ntake, blen_nil in Hn. lia.
      * rewrite blen_ntake. lia.
  - apply Forall_cons_1 in Hok as [_ Hok]. intros [= <- <- <-]. repeat split; [done|done|rewrite blen_nil; lia].
Qed.

(* what cli_data_frames writes: non-empty data frames of at most 4086 bytes, concatenating to the bytes read *)
Lemma cli_data_frames_spec tid : forall fuel s fs e, src_ok s ->
  cli_data_frames fuel tid s = (fs, Some e) ->
  exists ps, fs = map (FData tid) ps /\ concat ps = src_bytes s /\ Forall (fun p => p <> [] /\ blen p <= 4086) ps.
Proof.
  induction fuel as [|fuel IH]; intros s fs e Hok; [done|]. cbn [cli_data_frames].
  destruct (src_read 4086 s) as [[d e'] s'] eqn:Hr.
  pose proof Hr as Hr0; apply src_read_ok in Hr0; [|lia|exact Hok]; destruct Hr0 as (Hok' & Hne & Hl).
  destruct e' as [e'|].
  - intros [= <- <-]. apply src_bytes_read_err in Hr as [-> ->]. exists []. done.
  - destruct (cli_data_frames fuel tid s') as [fs' e''] eqn:Hf. intros [= <- ->].
    apply IH in Hf as (ps & -> & Hc & Hp); [|done].
    apply src_bytes_read in Hr; [|lia]. rewrite Hr, <- Hc.
    exists (d :: ps). specialize (Hne eq_refl). destruct d as [|x d]; [done|].
    repeat split. constructor; [done|done].
Qed.

(* the buffered version used for visitors *)
Lemma rd_read_spec b d e b' : rerr b = None -> src_ok (rsrc b) -> rd_read 4096 4086 b = (d, e, b') ->
  rerr b' = None /\ src_ok (rsrc b') /\ blen d <= 4086 /\
  match e with
  | None => d <> [] /\ rbuf b ++ src_bytes (rsrc b) = d ++ rbuf b' ++ src_bytes (rsrc b')
  | Some _ => d = [] /\ rbuf b ++ src_bytes (rsrc b) = []
  end.
Proof.
  intros He Hok. unfold rd_read. destruct (rbuf b) as [|x l] eqn:Hb.
  - rewrite He. destruct (src_read 4096 (rsrc b)) as [[d0 e0] s0] eqn:Hr.
    pose proof Hr as Hr0; apply src_read_ok in Hr0; [|lia|exact Hok]; destruct Hr0 as (Hok' & Hne & Hl).
    destruct d0 as [|y d0].
    + intros [= <- <- <-]. cbn. destruct e0 as [e0|]; [|exfalso; by apply Hne].
      apply src_bytes_read_err in Hr as [-> _]. repeat split; try done; lia.
    + destruct e0 as [e0|]; [apply src_bytes_read_err in Hr as [_ [=]]|].
      apply src_bytes_read in Hr; [|lia]. intros [= <- <- <-]. cbn [rbuf rerr rsrc].
      rewrite blen_ntake. repeat split; try done; try lia.
      rewrite Hr. cbn [app]. rewrite app_assoc, ntake_ndrop. done.
  - intros [= <- <- <-]. cbn [rbuf rerr rsrc]. rewrite blen_ntake. repeat split; try done; try lia.
    rewrite app_assoc, ntake_ndrop. done.
Qed.
Lemma srv_data_frames_spec tid : forall fuel b fs e, rerr b = None -> src_ok (rsrc b) ->
  srv_data_frames fuel tid b = (fs, Some e) ->
  exists ps, fs = map (FData tid) ps /\ concat ps = rbuf b ++ src_bytes (rsrc b) /\
    Forall (fun p => p <> [] /\ blen p <= 4086) ps.
Proof.
  induction fuel as [|fuel IH]; intros b fs e He Hok; [done|]. cbn [srv_data_frames].
  destruct (rd_read 4096 4086 b) as [[d e'] b'] eqn:Hr.
  apply rd_read_spec in Hr as (He' & Hok' & Hl & Hcase); [|done|done].
  destruct e' as [e'|].
  - destruct Hcase as [-> ->]. intros [= <- <-]. exists []. done.
  - destruct Hcase as [Hne ->]. destruct (srv_data_frames fuel tid b') as [fs' e''] eqn:Hf. intros [= <- ->].
    apply IH in Hf as (ps & -> & Hc & Hp); [|done|done].
    exists (d :: ps). destruct d as [|x d]; [done|]. cbn [concat]. rewrite Hc.
    repeat split. constructor; done.
Qed.
Lemma srv_process_spec fuel tid si cr b fs e : rerr b = None -> src_ok (rsrc b) ->
  srv_process fuel tid si cr b = (fs, Some e) ->
  exists p ps, fs = FServices tid si p :: map (FData tid) ps ++ (if cr then [] else [FClose tid]) /\
    p ++ concat ps = rbuf b ++ src_bytes (rsrc b) /\ blen p <= 4084 /\ p = ntake 4084 (rbuf b) /\
    Forall (fun p => p <> [] /\ blen p <= 4086) ps.
Proof.
  intros He Hok. unfold srv_process.
  destruct (srv_data_frames fuel tid _) as [fs' e'] eqn:Hf. intros [= <- ->].
  apply srv_data_frames_spec in Hf as (ps & -> & Hc & Hp); [|done|done]. cbn [rbuf rsrc] in Hc.
  exists (ntake 4084 (rbuf b)), ps. rewrite Hc, app_assoc, ntake_ndrop, blen_ntake. repeat split; try done. lia.
Qed.
