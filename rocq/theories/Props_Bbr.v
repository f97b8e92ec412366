(* Props_Bbr.v -- C81: QUIC connections with -bbr *)
From Verif Require Import GoBase GoBaseLemmas BbrModel.
Local Open Scope N_scope.

Definition opt (o : option bytes) : bytes := default [] o.
(* ---- receiving ---- *)
Definition given_up (es : list sev) : Prop := SGiveUp ∈ es.
Lemma srun_snoc es e s s' : srun s (es ++ [e]) = Some s' <-> exists s1, srun s es = Some s1 /\ sstep s1 e = Some s'.
Proof.
  revert s. induction es as [|x es IH]; intros s; cbn [app srun].
  - destruct (sstep s e) as [s1|] eqn:E; cbn; split; [intros [= <-]; eauto|intros (? & [= <-] & H); congruence|done|intros (? & [= <-] & H); congruence].
  - destruct (sstep s x) as [s1|]; cbn [mbind option_bind]; [apply IH|]. split; [done|]. by intros (? & ? & _).
Qed.
Lemma rinv es s : srun rs0 es = Some s -> exists lost, sGot s = sRead s ++ sBuf s ++ opt (sQueue s) ++ opt (sBack s) ++ lost /\ (SGiveUp ∉ es -> lost = []) /\ (sClosed s = false -> lost = []) /\ (lost <> [] -> sBack s = None).
Proof.
  revert s. induction es as [|e es IH] using rev_ind; intros s H; [injection H as <-; by exists []|]. apply srun_snoc in H as (s1 & H & E). destruct (IH s1 H) as (lost & I1 & I2 & I3 & I4). destruct s1 as [buf q b cl got rd eof]. cbn [sGot sRead sBuf sQueue sBack sClosed] in *. assert (NE : SGiveUp ∉ es ++ [e] -> SGiveUp ∉ es /\ SGiveUp <> e) by (rewrite not_elem_of_app, not_elem_of_cons; tauto).
  destruct e as [c| | |n| | |]; cbn [sstep] in E.
  - destruct cl; [done|]. destruct b; [done|]. specialize (I3 eq_refl); subst lost. destruct q as [x|]; injection E as <-; exists []; cbn [sGot sRead sBuf sQueue sBack sClosed opt default] in *; (split; [rewrite I1; unfold opt; cbn; rewrite ?app_nil_r, <- ?app_assoc; done|done]).
  - destruct b as [c|]; [|done]. destruct q; [done|]. injection E as <-. exists lost. cbn in *. split; [done|]. split; [tauto|done].
  - destruct b as [c|]; [|done]. destruct cl; [|done]. injection E as <-. exists (c ++ lost). cbn in *. split; [by rewrite I1, <- ?app_assoc|]. split; [naive_solver|]. split; [done|done].
  - destruct buf as [|x buf]; [destruct q as [c|]; [|done]|]; injection E as <-; exists lost; cbn [sGot sRead sBuf sQueue sBack sClosed] in *; (split; [|split; [tauto|split; [done|done]]]); rewrite I1; rewrite <- !app_assoc; f_equal; unfold opt; cbn [default id app]; by rewrite (app_assoc (take _ _)), take_drop.
  - destruct buf; [|done]. destruct cl; [|done]. injection E as <-. exists lost. cbn in *. split; [done|]. split; [tauto|done].
  - destruct b; [done|]. injection E as <-. exists lost. cbn in *. split; [done|]. split; [tauto|done].
  - injection E as <-. exists lost. cbn in *. split; [done|]. split; [tauto|]. split; [done|done].
Qed.
(* Whatever Read returns is what was received: in order, nothing left out, nothing twice *)
Theorem C81_read_prefix : forall es s, srun rs0 es = Some s -> sRead s `prefix_of` sGot s.
Proof. intros es s H. destruct (rinv es s H) as (lost & E & _). rewrite E. by eexists. Qed.
(* All of it can be read as long as nobody has closed the stream *)
Theorem C81_all_readable : forall es s, srun rs0 es = Some s -> sClosed s = false -> exists es' s', Forall (fun e => e = SBack \/ exists n, e = SRead n) es' /\ srun s es' = Some s' /\ sRead s' = sGot s /\ sGot s' = sGot s.
Proof.
  intros es s H Hc. destruct (rinv es s H) as (lost & E & _ & I3 & _). rewrite (I3 Hc), app_nil_r in E. clear H I3.
  destruct s as [buf q b cl got rd eof]. cbn [sGot sRead sBuf sQueue sBack sClosed] in *.
  assert (B1 : exists es' s', Forall (fun e => e = SBack \/ exists n, e = SRead n) es' /\ srun (mkRs buf q b cl got rd eof) es' = Some s' /\ s' = mkRs [] q b cl got (rd ++ buf) eof).
  { destruct buf as [|x buf]; [exists []; eexists; rewrite app_nil_r; by repeat split|]. exists [SRead (blen (x :: buf))]. eexists. split; [constructor; [eauto|done]|]. split; [reflexivity|]. unfold blen. rewrite Nat2N.id, drop_all, firstn_all. done. }
  destruct B1 as (e1 & s1 & F1 & R1 & ->).
  assert (B2 : forall q rd, exists es' s', Forall (fun e => e = SBack \/ exists n, e = SRead n) es' /\ srun (mkRs [] q b cl got rd eof) es' = Some s' /\ s' = mkRs [] None b cl got (rd ++ opt q) eof).
  { intros [c|] rd'; [|exists []; eexists; cbn; rewrite app_nil_r; by repeat split]. exists [SRead (blen c)]. eexists. split; [constructor; [eauto|done]|]. split; [reflexivity|]. unfold blen. rewrite Nat2N.id, drop_all, firstn_all. done. }
  destruct (B2 q (rd ++ buf)) as (e2 & s2 & F2 & R2 & ->).
  assert (APP : forall a b s s1 s2, srun s a = Some s1 -> srun s1 b = Some s2 -> srun s (a ++ b) = Some s2). { clear. induction a as [|e a IH]; intros b s s1 s2 H1 H2; cbn [app srun] in *; [by injection H1 as <-|]. destruct (sstep s e); [|done]. by eapply IH. }
  destruct b as [c|].
  - destruct (B2 (Some c) (rd ++ buf ++ opt q)) as (e3 & s3 & F3 & R3 & ->).
    exists (e1 ++ e2 ++ [SBack; SRead (blen c)]). eexists. split; [rewrite !Forall_app; split; [done|split; [done|]]; apply Forall_cons_2; [by left|]; apply Forall_cons_2; [right; by eexists|constructor]|]. split.
    + eapply APP; [exact R1|]. eapply APP; [exact R2|]. cbn. reflexivity.
    + cbn. unfold blen. rewrite Nat2N.id, firstn_all. rewrite E. unfold opt. cbn. by rewrite <- !app_assoc.
  - exists (e1 ++ e2). eexists. split; [by rewrite Forall_app|]. split; [by eapply APP|]. cbn. rewrite E. unfold opt. cbn. by rewrite app_nil_r, <- app_assoc.
Qed.
(* The end of the stream can overtake the last bytes: Read says EOF although more was received, whatever that was *)
Theorem C81_last_bytes_refuted : forall c, c <> [] -> exists s, srun rs0 [SRecv c; SShut; SReadEof] = Some s /\ sEof s = true /\ sGot s = c /\ sRead s = [].
Proof. intros c Hc. eexists. split; [reflexivity|]. done. Qed.
(* ... but no more than that: when Read says EOF what is missing is still queued *)
Theorem C81_eof_missing : forall es s s', srun rs0 es = Some s -> SClose ∉ es -> sstep s SReadEof = Some s' -> sGot s' = sRead s' ++ opt (sQueue s').
Proof.
  intros es s s' H Hn E. destruct (rinv es s H) as (lost & I & _). assert (X : sBack s = None \/ sClosed s = false).
  { clear -H Hn. revert s H. induction es as [|e es IH] using rev_ind; intros s H; [injection H as <-; by right|]. apply srun_snoc in H as (s1 & H & E). apply not_elem_of_app in Hn as [Hn N]. apply not_elem_of_cons in N as [N _]. destruct (IH Hn s1 H) as [X|X]; destruct s1 as [buf q b cl got rd eof]; cbn in X; subst; destruct e; cbn [sstep] in E; try done; repeat (case_match; simplify_eq; try done); simplify_eq; cbn; eauto. }
  assert (Y : lost = [] \/ sBack s = None) by (destruct (rinv es s H) as (l2 & J & _ & J3 & J4); destruct X as [X|X]; [by right|left]; rewrite (J3 X) in J; assert (sGot s = sGot s) by done; rewrite J in I; by apply app_inv_head in I; apply app_inv_head in I; apply app_inv_head in I; apply app_inv_head in I).
  assert (NG : SGiveUp ∉ es). { clear -H Hn. intros Hg. revert s H. induction es as [|e es IH] using rev_ind; intros s H; [by apply elem_of_nil in Hg|]. apply srun_snoc in H as (s1 & H & E). apply not_elem_of_app in Hn as [Hn N]. apply elem_of_app in Hg as [Hg|Hg]; [by eapply IH|]. apply elem_of_list_singleton in Hg. subst e.
    assert (X : sBack s1 = None \/ sClosed s1 = false).
    { clear -H Hn. revert s1 H. induction es as [|e es IH] using rev_ind; intros s H; [injection H as <-; by right|]. apply srun_snoc in H as (s1 & H & E). apply not_elem_of_app in Hn as [Hn N]. apply not_elem_of_cons in N as [N _]. destruct (IH Hn s1 H) as [X|X]; destruct s1 as [buf q b cl got rd eof]; cbn in X; subst; destruct e; cbn [sstep] in E; try done; repeat (case_match; simplify_eq; try done); simplify_eq; cbn; eauto. }
    destruct s1 as [buf q b cl got rd eof]. cbn in *. destruct b; [|done]. destruct cl; [|done]. by destruct X. }
  destruct (rinv es s H) as (l2 & J & J2 & _). rewrite (J2 NG), app_nil_r in J. destruct s as [buf q b cl got rd eof]. cbn in *. destruct buf; [|done]. destruct cl; [|done]. injection E as <-. cbn. destruct X as [-> | X]; [|done]. rewrite J. cbn. by rewrite app_nil_r.
Qed.
(* Read never returns for a deadline: with nothing received and nothing closed it waits *)
Theorem C81_no_timeout_refuted : forall es s e s', srun rs0 es = Some s -> sBuf s = [] -> sQueue s = None -> sClosed s = false -> (e = SReadEof \/ exists n, e = SRead n) -> sstep s e = Some s' -> False.
Proof. intros es s e s' _ Hb Hq Hc He E. destruct s as [buf q b cl got rd eof]. cbn in *. subst. by destruct He as [-> | [n ->]]. Qed.
(* A deadline in the future asks msquic for an idle time of more than 292 million years instead *)
Theorem C81_deadline_refuted : forall now t : Z, (1000000 <= t - now < 2 ^ 63)%Z -> (2 ^ 63 <= idle_ms now t)%Z /\ idle_ms now t <> ((t - now) / 1000000)%Z.
Proof.
  intros now t H. unfold idle_ms. assert (E : Z.quot (now - t) 1000000 = (- ((t - now) / 1000000))%Z).
  { replace (now - t)%Z with (- (t - now))%Z by lia. rewrite Z.quot_opp_l by lia. by rewrite Z.quot_div_nonneg by lia. }
  rewrite E. set (k := ((t - now) / 1000000)%Z). assert (K : (1 <= k < 2 ^ 63)%Z).
  { subst k. split; [apply Z.div_le_lower_bound; lia|]. apply Z.div_lt_upper_bound; lia. }
  rewrite Z.mod_opp_l_nz; [rewrite Z.mod_small; lia|lia|rewrite Z.mod_small; lia].
Qed.
Theorem C81_deadline_witness : idle_ms 0 120000000000 = (2 ^ 64 - 120000)%Z.
Proof. done. Qed.

(* ---- sending ---- *)
(* a Write at a time: call, sent, return *)
Fixpoint one_by_one (ds : list (N * bytes)) : list xev := match ds with [] => [] | (i, d) :: ds => XWrite i d true :: XSend :: XRet i :: one_by_one ds end.
Theorem C81_write_partial : forall ds, exists s, xrun ws0 (one_by_one ds) = Some s /\ wSent s = ds.*2 /\ wRet s = ds /\ wWait s = [].
Proof.
  intros ds. assert (G : forall desc ret sent, exists s, xrun (mkWs desc 0 0 [] ret sent) (one_by_one ds) = Some s /\ wSent s = sent ++ ds.*2 /\ wRet s = ret ++ ds /\ wWait s = []).
  { induction ds as [|[i d] ds IH]; intros desc ret sent; [eexists; cbn; rewrite !app_nil_r; by repeat split|]. cbn [one_by_one xrun xstep mbind option_bind app list_find]. rewrite decide_True by done. cbn [fst snd fmap option_fmap delete list_delete mbind option_bind].
    destruct (IH d (ret ++ [(i, d)]) (sent ++ [d])) as (s & H & A & B & C). exists s. split; [exact H|]. rewrite A, B. cbn. by rewrite <- !app_assoc. }
  apply (G [] [] []).
Qed.
(* Two Writes at once (two visitors of one tunnel): one's bytes are sent twice, the other's never, and both succeed *)
Theorem C81_two_writes_refuted : forall d1 d2, exists s, xrun ws0 [XWrite 1 d1 true; XWrite 2 d2 true; XSend; XSend; XRet 1; XRet 2] = Some s /\ wRet s = [(1, d1); (2, d2)] /\ wSent s = [d2; d2].
Proof. intros d1 d2. eexists. split; [reflexivity|]. done. Qed.
(* A Write that msquic refuses does not return: it takes another's completion or waits for ever *)
Theorem C81_refused_write_refuted : forall d es s, (forall e, e ∈ es -> e = XSend \/ exists i, e = XRet i) -> xrun ws0 (XWrite 1 d false :: es) = Some s -> wWait s = [(1, d)] /\ wSent s = [].
Proof.
  intros d es s He H. cbn [xrun xstep ws0 mbind option_bind app] in H. destruct es as [|e es]; [by injection H as <-|]. exfalso. destruct (He e (elem_of_list_here _ _)) as [-> | [i ->]]; by cbn in H.
Qed.
Theorem C81_witness : exists s, srun rs0 [SRecv [1; 2; 3]; SRead 2; SRecv [4]; SRecv [5; 6]; SRead 9; SRead 9; SBack; SRead 1; SShut; SRead 9; SReadEof] = Some s /\ sRead s = [1; 2; 3; 4; 5; 6] /\ sGot s = [1; 2; 3; 4; 5; 6] /\ sEof s = true.
Proof. eexists. split; [reflexivity|]. done. Qed.
