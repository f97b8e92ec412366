(* Props_Clog.v -- C87: a visitor that reads slowly, or not at all; and what that does to C13 (service to visitor). *)
From Verif Require Import GoBase ClogModel.
Local Open Scope N_scope.

(* ---------- specification *)
(* what the other end has sent for i, frame by frame *)
Definition payloads (i : N) (tr : list cev) : list bytes := omap (fun e => match e with VArrive (FrData j p) => if bool_decide (j = i) then Some p else None | _ => None end) tr.
(* a Write to i has timed out *)
Definition timed_out (B : nat) (T : option N) (ids : gset N) (tr : list cev) (i : N) : Prop :=
  exists tr1 tr2 s c l d, tr = tr1 ++ VTimeout :: tr2 /\ crun B T (t0 ids) tr1 = Some s /\ tW s = Some (i, c, l, d).
Definition got (s : tn) (i : N) : option bytes := vGot <$> tV s !! i.

Lemma crun_snoc B T s tr e : crun B T s (tr ++ [e]) = crun B T s tr ≫= fun s => cstep B T s e.
Proof. unfold crun. by rewrite fold_left_app. Qed.
Lemma crun_app B T s a b : crun B T s (a ++ b) = crun B T s a ≫= fun s => crun B T s b.
Proof.
  unfold crun. rewrite fold_left_app. destruct (fold_left _ a (Some s)); [done|]. cbn. induction b; [done|]. cbn. done.
Qed.
Lemma crun_cons B T s e b : crun B T s (e :: b) = cstep B T s e ≫= fun s => crun B T s b.
Proof. apply (crun_app B T s [e] b). Qed.
Ltac tproj := cbn [tQ tW tV tNow tPongs] in *.
Ltac ccases H :=
  lazymatch type of H with cstep ?B _ ?s ?e = Some _ =>
    destruct s as [q w v now po]; destruct e as [f|k|k|k| |j k|j|]; cbn [cstep] in H;
    [injection H as <-
    |destruct w as [[[[wi wc] wl] wd]|]; [done|]; destruct q as [|[fi p| |fi] q]; [done|destruct (v !! fi) as [fx|] eqn:Hfx; [destruct p as [|b p]; [injection H as <-|destruct ((0 <? k)%nat && (k <=? length (b :: p))%nat) eqn:Hk; [|done]; injection H as <-]|injection H as <-]|injection H as <-|injection H as <-]
    |destruct w as [[[[wi wc] wl] wd]|]; [|done]; destruct (v !! wi) as [wx|] eqn:Hwx; [|done]; destruct ((0 <? k)%nat && (k <=? length wc)%nat && (k <=? room B wx)%nat) eqn:Hk; [|done]; injection H as <-
    |destruct w as [[[[wi [|wb wc]] wl] wd]|]; try done; destruct ((0 <? k)%nat && (k <=? length wl)%nat) eqn:Hk; [|done]; injection H as <-
    |destruct w as [[[[wi [|wb wc]] wl] [wd|]]|]; try done; destruct (N.leb_spec wd now) as [Hd|]; [|done]; injection H as <-
    |destruct (v !! j) as [jx|] eqn:Hjx; [|done]; destruct ((0 <? k)%nat && (k <=? length (vGot jx) - vRead jx)%nat) eqn:Hk; [|done]; injection H as <-
    |destruct (v !! j) as [jx|] eqn:Hjx; [|done]; injection H as <-
    |] end; tproj.

(* ---------- what each visitor gets *)
Definition qpay (i : N) (q : list fr) : list bytes := omap (fun f => match f with FrData j p => if bool_decide (j = i) then Some p else None | _ => None end) q.
Definition cur (i : N) (w : option (N * bytes * bytes * option N)) : option bytes := match w with Some (j, c, l, _) => if bool_decide (j = i) then Some (c ++ l) else None | None => None end.
Definition cinv (B : nat) (T : option N) (ids : gset N) (tr : list cev) (s : tn) (i : N) : Prop := forall x, tV s !! i = Some x ->
  exists ps fs, Forall2 prefix ps fs /\ (~ timed_out B T ids tr i -> ps = fs) /\
  match cur i (tW s) with
  | Some r => exists g, payloads i tr = fs ++ [g ++ r] ++ qpay i (tQ s) /\ vGot x = concat ps ++ g
  | None => payloads i tr = fs ++ qpay i (tQ s) /\ vGot x = concat ps
  end.
Lemma timed_out_app B T ids tr e i : timed_out B T ids tr i -> timed_out B T ids (tr ++ [e]) i.
Proof. intros (tr1 & tr2 & s & c & l & d & -> & H1 & H2). exists tr1, (tr2 ++ [e]), s, c, l, d. by rewrite <- app_assoc. Qed.
Lemma payloads_snoc i tr e : payloads i (tr ++ [e]) = payloads i tr ++ payloads i [e]. Proof. apply omap_app. Qed.
Lemma qpay_snoc i q f : qpay i (q ++ [f]) = qpay i q ++ payloads i [VArrive f].
Proof. unfold qpay. by rewrite omap_app. Qed.
Lemma cinv_run B T ids tr s i : crun B T (t0 ids) tr = Some s -> cinv B T ids tr s i.
Proof.
  revert s. induction tr as [|e tr IH] using rev_ind; intros s.
  { cbn. intros [= <-] x. cbn. rewrite lookup_gset_to_gmap_Some. intros [_ <-]. exists [], []. split; [constructor|]. split; [done|]. done. }
  rewrite crun_snoc. destruct (crun B T (t0 ids) tr) as [s1|] eqn:E; [|done]. cbn [mbind option_bind]. intros H x Hx. specialize (IH s1 eq_refl).
  assert (forall (ps fs : list bytes), (~ timed_out B T ids tr i -> ps = fs) -> ~ timed_out B T ids (tr ++ [e]) i -> ps = fs) as Hmono.
  { intros ps fs Ht Hn. apply Ht. intros Hc. by apply Hn, timed_out_app. }
  assert (~ timed_out B T ids (tr ++ [e]) i -> e = VTimeout -> forall c l d, tW s1 <> Some (i, c, l, d)) as Hto.
  { intros Hn -> c l d Hw. apply Hn. exists tr, [], s1, c, l, d. done. }
  rewrite payloads_snoc. unfold cinv in IH. clear E. ccases H.
  - specialize (IH x Hx) as (ps & fs & F & Hc & Hm). exists ps, fs. split; [done|]. split; [auto|]. rewrite qpay_snoc. destruct (cur i w).
    + destruct Hm as (g & -> & Hg). exists g. split; [|done]. by rewrite <- !(assoc_L (++)).
    + destruct Hm as (-> & Hg). split; [|done]. by rewrite <- !(assoc_L (++)).
  - specialize (IH x Hx) as (ps & fs & F & Hc & Hm). cbn [payloads omap list_omap]. rewrite app_nil_r. cbn [cur] in *. destruct Hm as (-> & Hg).
    cbn [qpay omap list_omap]. destruct (decide (fi = i)) as [-> |Hne].
    + rewrite bool_decide_true by done. exists (ps ++ [[]]), (fs ++ [[]]). split; [apply Forall2_app; [done|]; repeat constructor; by exists []|]. split; [intros Hn; f_equal; by eapply Hmono|].
      split; [by rewrite <- (assoc_L (++))|]. rewrite concat_app. cbn. by rewrite !app_nil_r.
    + rewrite bool_decide_false by done. exists ps, fs. split; [done|]. split; [auto|]. done.
  - specialize (IH x Hx) as (ps & fs & F & Hc & Hm). cbn [payloads omap list_omap]. rewrite app_nil_r. cbn [cur] in *. destruct Hm as (-> & Hg).
    cbn [qpay omap list_omap]. destruct (decide (fi = i)) as [-> |Hne].
    + rewrite !bool_decide_true by done. exists ps, fs. split; [done|]. split; [auto|]. exists []. rewrite app_nil_r. rewrite take_drop. done.
    + rewrite !bool_decide_false by done. exists ps, fs. split; [done|]. split; [auto|]. done.
  - specialize (IH x Hx) as (ps & fs & F & Hc & Hm). cbn [payloads omap list_omap]. rewrite app_nil_r. cbn [cur] in *. destruct Hm as (-> & Hg).
    cbn [qpay omap list_omap]. rewrite bool_decide_false by congruence. exists ps, fs. split; [done|]. split; [auto|]. done.
  - specialize (IH x Hx) as (ps & fs & F & Hc & Hm). cbn [payloads omap list_omap]. rewrite app_nil_r. exists ps, fs. split; [done|]. split; [auto|]. done.
  - apply lookup_delete_Some in Hx as [_ Hx]. specialize (IH x Hx) as (ps & fs & F & Hc & Hm). cbn [payloads omap list_omap]. rewrite app_nil_r. exists ps, fs. split; [done|]. split; [auto|]. done.
  - cbn [payloads omap list_omap]. rewrite app_nil_r. apply andb_true_iff in Hk as [Hk _]. apply andb_true_iff in Hk as [_ Hk]. apply Nat.leb_le in Hk.
    destruct (decide (wi = i)) as [-> |Hne].
    + rewrite lookup_insert in Hx. injection Hx as <-. specialize (IH wx Hwx) as (ps & fs & F & Hc & Hm). cbn [cur] in Hm. rewrite bool_decide_true in Hm by done. destruct Hm as (g & -> & Hg).
      cbn [vGot]. rewrite Hg. destruct (match drop k wc, wl with [], [] => true | _, _ => false end) eqn:Hend.
      * destruct (drop k wc) as [|? ?] eqn:Hdr; [|done]. destruct wl; [|done]. cbn [cur]. assert (take k wc = wc) as -> by (rewrite <- (take_drop k wc) at 2; by rewrite Hdr, app_nil_r).
        exists (ps ++ [g ++ wc]), (fs ++ [g ++ wc]). split; [apply Forall2_app; [done|]; by repeat constructor|]. split; [intros Hn; f_equal; by eapply Hmono|].
        rewrite app_nil_r. split; [by rewrite <- (assoc_L (++))|]. rewrite concat_app. cbn. by rewrite app_nil_r, (assoc_L (++)).
      * assert (match drop k wc, wl with [], [] => None | c', _ => Some (i, c', wl, wd) end = Some (i, drop k wc, wl, wd)) as -> by (destruct (drop k wc), wl; done).
        cbn [cur]. rewrite bool_decide_true by done. exists ps, fs. split; [done|]. split; [auto|]. exists (g ++ take k wc). split; [|by rewrite (assoc_L (++))].
        f_equal. f_equal. f_equal. rewrite <- (assoc_L (++)). f_equal. by rewrite (assoc_L (++)), take_drop.
    + rewrite lookup_insert_ne in Hx by done. specialize (IH x Hx) as (ps & fs & F & Hc & Hm). exists ps, fs. split; [done|]. split; [auto|]. cbn [cur] in Hm. rewrite bool_decide_false in Hm by done.
      assert (cur i (match drop k wc, wl with [], [] => None | c', _ => Some (wi, c', wl, wd) end) = None) as ->; [|done].
      destruct (drop k wc), wl; cbn [cur]; rewrite ?bool_decide_false by done; done.
  - specialize (IH x Hx) as (ps & fs & F & Hc & Hm). cbn [payloads omap list_omap]. rewrite app_nil_r. exists ps, fs. split; [done|]. split; [auto|]. cbn [cur] in *. rewrite take_drop. done.
  - specialize (IH x Hx) as (ps & fs & F & Hc & Hm). cbn [payloads omap list_omap]. rewrite app_nil_r. cbn [cur] in *. destruct (decide (wi = i)) as [-> |Hne].
    + rewrite bool_decide_true in Hm by done. destruct Hm as (g & -> & Hg). exists (ps ++ [g]), (fs ++ [g ++ (wb :: wc) ++ wl]). split; [apply Forall2_app; [done|]; repeat constructor; by eexists|].
      split; [intros Hn; exfalso; by eapply (Hto Hn eq_refl)|]. split; [by rewrite <- (assoc_L (++))|]. rewrite concat_app. cbn. by rewrite app_nil_r.
    + rewrite bool_decide_false in Hm by done. exists ps, fs. split; [done|]. split; [auto|]. done.
  - cbn [payloads omap list_omap]. rewrite app_nil_r. assert (exists x0, v !! i = Some x0 /\ vGot x0 = vGot x) as (x0 & Hx0 & <-).
    { destruct (decide (j = i)) as [-> |Hne]; [rewrite lookup_insert in Hx; injection Hx as <-; by exists jx|rewrite lookup_insert_ne in Hx by done; by exists x]. }
    specialize (IH x0 Hx0) as (ps & fs & F & Hc & Hm). exists ps, fs. split; [done|]. split; [auto|]. done.
  - cbn [payloads omap list_omap]. rewrite app_nil_r. apply lookup_delete_Some in Hx as [Hne Hx]. specialize (IH x Hx) as (ps & fs & F & Hc & Hm). exists ps, fs. split; [done|]. split; [auto|].
    assert (cur i (match w with Some (j0, _, _, _) => if bool_decide (j0 = j) then None else w | None => None end) = cur i w) as ->; [|done].
    destruct w as [[[[wi wc] wl] wd]|]; [|done]. case_bool_decide; [|done]. subst wi. cbn [cur]. by rewrite bool_decide_false by done.
  - assert (exists now', s = mkT q w v now' po) as [now' ->].
    { destruct w as [[[[wi [|wb wc]] wl] [wd|]]|]; try (injection H as <-; by eexists). destruct (now <? wd); [|done]. injection H as <-. by eexists. }
    tproj. cbn [payloads omap list_omap]. rewrite app_nil_r. specialize (IH x Hx) as (ps & fs & F & Hc & Hm). exists ps, fs. split; [done|]. split; [auto|]. done.
Qed.

(* A visitor's connection takes a first part of every frame for it, in their order, and nothing else. *)
Theorem C87_pieces B T ids tr s i b : crun B T (t0 ids) tr = Some s -> got s i = Some b ->
  exists ps fs, fs `prefix_of` payloads i tr /\ Forall2 prefix ps fs /\ b = concat ps.
Proof.
  intros Hr Hg. unfold got in Hg. destruct (tV s !! i) as [x|] eqn:Hx; [|done]. injection Hg as <-. destruct (cinv_run _ _ _ _ _ i Hr x Hx) as (ps & fs & F & _ & Hm).
  destruct (cur i (tW s)) as [r|].
  - destruct Hm as (g & Hp & Hg). exists (ps ++ [g]), (fs ++ [g ++ r]). split; [rewrite Hp, (assoc_L (++)); by apply prefix_app_r|].
    split; [apply Forall2_app; [done|]; repeat constructor; by eexists|]. rewrite concat_app. cbn. by rewrite app_nil_r.
  - destruct Hm as (Hp & Hg). exists ps, fs. split; [rewrite Hp; by apply prefix_app_r|]. done.
Qed.
(* As long as no Write to it has timed out: a first part of all that was sent. *)
Theorem C87_prefix_partial B T ids tr s i b : crun B T (t0 ids) tr = Some s -> got s i = Some b -> ~ timed_out B T ids tr i -> b `prefix_of` concat (payloads i tr).
Proof.
  intros Hr Hg Hn. unfold got in Hg. destruct (tV s !! i) as [x|] eqn:Hx; [|done]. injection Hg as <-. destruct (cinv_run _ _ _ _ _ i Hr x Hx) as (ps & fs & F & Hc & Hm). specialize (Hc Hn) as ->.
  destruct (cur i (tW s)) as [r|].
  - destruct Hm as (g & -> & ->). rewrite !concat_app. cbn. rewrite app_nil_r. apply prefix_app. rewrite <- (assoc_L (++)). by apply prefix_app_r.
  - destruct Hm as (-> & ->). rewrite concat_app. by apply prefix_app_r.
Qed.

(* ---------- the hole *)
Lemma ticks B T q i c l d v now po n : c <> [] -> now + N.of_nat n <= d -> crun B T (mkT q (Some (i, c, l, Some d)) v now po) (replicate n VTick) = Some (mkT q (Some (i, c, l, Some d)) v (now + N.of_nat n) po).
Proof.
  intros Hc. revert now. induction n as [|n IH]; intros now Hn; [cbn; do 2 f_equal; lia|]. change (replicate (S n) VTick) with (VTick :: replicate n VTick). rewrite crun_cons.
  cbn [cstep]. destruct c; [done|]. destruct (N.ltb_spec now d); [|lia]. cbn [mbind option_bind]. rewrite IH by lia. do 2 f_equal. lia.
Qed.
(* C13 is false of a visitor that did not read for the time of the timeout: it gets the first part of a frame and then the next frame, its connection stays. *)
Theorem C13_hole_refuted B t a b : (0 < B < length a)%nat -> b <> [] -> (length b <= B)%nat ->
  exists tr s, crun B (Some t) (t0 {[1]}) tr = Some s /\ payloads 1 tr = [a; b] /\ got s 1 = Some (take B a ++ b).
Proof.
  intros HB Hb HbB. exists ([VArrive (FrData 1 a); VArrive (FrData 1 b); VTake (length a); VPush B] ++ replicate (N.to_nat t) VTick ++ [VTimeout; VRead 1 B; VTake (length b); VPush (length b)]).
  assert (forall A (x : A), gset_to_gmap x ({[1]} : gset N) = {[1 := x]}) as Hg1 by (intros A x; apply map_eq; intros j; apply option_eq; intros y; rewrite lookup_gset_to_gmap_Some, lookup_singleton_Some, elem_of_singleton; split; intros [<- <-]; done).
  assert (crun B (Some t) (t0 {[1]}) [VArrive (FrData 1 a); VArrive (FrData 1 b); VTake (length a); VPush B] = Some (mkT [FrData 1 b] (Some (1, drop B a, [], Some (0 + t))) {[1 := mkV (take B a) 0]} 0 [])) as E1.
  { unfold t0. rewrite Hg1. unfold crun. cbn [fold_left mbind option_bind cstep app]. rewrite lookup_singleton. destruct a as [|a0 a']; [cbn in HB; lia|]. set (a := a0 :: a') in *.
    rewrite Nat.leb_refl. destruct (Nat.ltb_spec 0 (length a)); [|lia]. cbn [andb mbind option_bind cstep fmap option_fmap option_map]. rewrite lookup_singleton. rewrite firstn_all, drop_all.
    unfold room. cbn [vGot vRead]. destruct (Nat.ltb_spec 0 B); [|lia]. destruct (Nat.leb_spec B (length a)); [|lia]. cbn [length]. rewrite Nat.sub_0_r, Nat.leb_refl. cbn [andb app].
    rewrite insert_singleton. destruct (drop B a) as [|y z] eqn:Hd; [|done]. exfalso. apply (f_equal length) in Hd. rewrite drop_length in Hd. cbn [length] in Hd. lia. }
  eexists. split; [|split].
  - rewrite crun_app, E1. cbn [mbind option_bind]. rewrite crun_app. rewrite ticks; [|intros Hd; apply (f_equal length) in Hd; rewrite drop_length in Hd; cbn in Hd; lia|lia]. cbn [mbind option_bind].
    unfold crun. cbn [fold_left mbind option_bind cstep]. destruct (drop B a) as [|y z] eqn:Hd; [apply (f_equal length) in Hd; rewrite drop_length in Hd; cbn in Hd; lia|].
    destruct (N.leb_spec (0 + t) (0 + N.of_nat (N.to_nat t))); [|lia]. cbn [mbind option_bind cstep]. rewrite lookup_singleton. cbn [vGot vRead]. rewrite take_length, Nat.min_l by lia.
    destruct (Nat.ltb_spec 0 B); [|lia]. rewrite Nat.sub_0_r, Nat.leb_refl. cbn [andb mbind option_bind cstep]. rewrite insert_singleton, lookup_singleton. destruct b as [|b0 b']; [done|]. set (b := b0 :: b') in *.
    rewrite Nat.leb_refl. destruct (Nat.ltb_spec 0 (length b)); [|cbn in *; lia]. cbn [andb mbind option_bind cstep fmap option_fmap option_map]. rewrite lookup_singleton. rewrite firstn_all, drop_all.
    unfold room. cbn [vGot vRead]. rewrite Nat.leb_refl. rewrite take_length, Nat.min_l by lia. destruct (Nat.leb_spec (length b) (B - (B - (0 + B)))); [|lia]. cbn [andb]. reflexivity.
  - unfold payloads. rewrite !omap_app. cbn. assert (forall n, omap (fun e => match e with VArrive (FrData j p) => if bool_decide (j = 1) then Some p else None | _ => None end) (replicate n VTick) = []) as -> by (induction n; [done|by cbn]). done.
  - unfold got. cbn [tV]. rewrite lookup_insert. cbn. by rewrite firstn_all.
Qed.
Theorem C13_hole_witness : exists tr s, crun 2 (Some 3) (t0 {[1]}) tr = Some s /\ payloads 1 tr = [[7; 8; 9]; [5]] /\ got s 1 = Some [7; 8; 5] /\ ~ [7; 8; 5] `prefix_of` concat [[7; 8; 9]; [5]].
Proof.
  destruct (C13_hole_refuted 2 3 [7; 8; 9] [5]) as (tr & s & H1 & H2 & H3); [cbn; lia|done|cbn; lia|]. exists tr, s. split; [done|]. split; [done|]. split; [done|].
  intros [k Hk]. cbn in Hk. discriminate Hk.
Qed.

(* ---------- holding up the others *)
Definition quiet (i : N) (tr : list cev) : Prop := Forall (fun e => match e with VRead j _ | VLeave j => j <> i | _ => True end) tr.
Definition before (T : option N) (n : nat) (now now' : N) : Prop := match T with Some t => now' < now + N.of_nat n * t | None => (0 < n)%nat end.
Definition same_got (s s' : tn) : Prop := tPongs s' = tPongs s /\ forall j b, got s' j = Some b -> got s j = Some b.
Lemma held B T s ps rest i x tr s' : tW s = None -> tQ s = map (FrData i) ps ++ rest -> Forall (fun p => p <> []) ps -> tV s !! i = Some x -> room B x = 0%nat ->
  quiet i tr -> crun B T s tr = Some s' ->
  tNow s <= tNow s' /\ (~ before T (length ps) (tNow s) (tNow s') \/
  (same_got s s' /\ tV s' !! i = Some x /\ exists ps1 ps2 more, ps = ps1 ++ ps2 /\ tQ s' = map (FrData i) ps2 ++ more /\
   match tW s' with
   | None => ps2 <> [] /\ match T with Some t => tNow s + N.of_nat (length ps1) * t <= tNow s' | None => ps1 = [] end
   | Some (j, c, l, d) => j = i /\ c <> [] /\ ps1 <> [] /\ match T, d with Some t, Some d => tNow s + N.of_nat (length ps1) * t <= d | None, None => True | _, _ => False end
   end)).
Proof.
  intros Hw Hq Hne Hx Hroom. revert s'. induction tr as [|e tr IH] using rev_ind; intros s' Hqu Hr.
  { cbn in Hr. injection Hr as <-. split; [lia|]. destruct (decide (ps = [])) as [-> |Hps].
    - left. destruct T; cbn; lia.
    - right. split; [done|]. split; [done|]. exists [], ps, rest. split; [done|]. split; [done|]. rewrite Hw. split; [done|]. destruct T; cbn; [lia|done]. }
  apply Forall_app in Hqu as [Hqu He]. apply Forall_cons in He as [He _]. rewrite crun_snoc in Hr. destruct (crun B T s tr) as [s1|] eqn:E; [|done]. cbn [mbind option_bind] in Hr.
  destruct (IH s1 Hqu eq_refl) as [Hle IH']. clear IH.
  assert (tNow s1 <= tNow s') as Hle2.
  { clear - Hr. ccases Hr; try lia. destruct w as [[[[wi [|wb wc]] wl] [wd|]]|]; try (injection Hr as <-; cbn; lia). destruct (now <? wd); [|done]. injection Hr as <-. cbn. lia. }
  split; [lia|]. destruct IH' as [Hlate|((Hp & Hg) & Hx1 & ps1 & ps2 & more & Eps & Hq1 & Hw1)].
  { left. unfold before in *. destruct T; [lia|done]. }
  unfold same_got, got in *. ccases Hr.
  - right. split; [done|]. split; [done|]. exists ps1, ps2, (more ++ [f]). split; [done|]. split; [rewrite Hq1; by rewrite <- (assoc_L (++))|done].
  - exfalso. destruct Hw1 as [Hps2 _]. destruct ps2 as [|p2 ps2]; [done|]. cbn in Hq1. injection Hq1 as <- <- _. subst ps. apply Forall_app in Hne as [_ Hne]. by apply Forall_cons in Hne as [? _].
  - right. destruct Hw1 as [Hps2 Ht]. destruct ps2 as [|p2 ps2]; [done|]. cbn in Hq1. injection Hq1 as -> <- ->. split; [done|]. split; [done|].
    exists (ps1 ++ [b :: p]), ps2, more. split; [by rewrite <- (assoc_L (++))|]. split; [done|]. split; [done|]. apply andb_true_iff in Hk as [Hk _]. apply Nat.ltb_lt in Hk.
    split; [destruct k; [lia|done]|]. split; [by destruct ps1|]. destruct T; cbn; [|done]. rewrite app_length. cbn [length]. lia.
  - exfalso. destruct Hw1 as [Hps2 _]. destruct ps2 as [|p2 ps2]; [done|]. cbn in Hq1. injection Hq1 as -> _ _. congruence.
  - exfalso. destruct Hw1 as [Hps2 _]. by destruct ps2.
  - exfalso. destruct Hw1 as [Hps2 _]. by destruct ps2.
  - exfalso. destruct Hw1 as (-> & _). rewrite Hx1 in Hwx. injection Hwx as <-. rewrite Hroom in Hk. apply andb_true_iff in Hk as [Hk Hk3]. apply andb_true_iff in Hk as [Hk _]. apply Nat.ltb_lt in Hk. apply Nat.leb_le in Hk3. lia.
  - exfalso. by destruct Hw1 as (_ & ? & _).
  - destruct Hw1 as (-> & _ & Hps1 & Ht). destruct T as [t|]; [|done]. destruct (decide (ps2 = [])) as [-> |Hps2].
    + left. unfold before. rewrite app_nil_r in Eps. subst ps1. lia.
    + right. split; [done|]. split; [done|]. exists ps1, ps2, more. split; [done|]. split; [done|]. split; [done|]. lia.
  - right. split.
    { split; [done|]. intros j' b Hj. apply Hg. rewrite <- Hj. destruct (decide (j' = j)) as [-> |Hnj]; [by rewrite lookup_insert, Hjx|by rewrite lookup_insert_ne]. }
    split; [by rewrite lookup_insert_ne|]. exists ps1, ps2, more. done.
  - right. split.
    { split; [done|]. intros j' b Hj. apply Hg. destruct (decide (j' = j)) as [-> |Hnj]; [by rewrite lookup_delete in Hj|by rewrite lookup_delete_ne in Hj]. }
    split; [by rewrite lookup_delete_ne|]. exists ps1, ps2, more. split; [done|]. split; [done|]. destruct w as [[[[wi wc] wl] wd]|]; [|done]. destruct Hw1 as (-> & Hw1). by rewrite bool_decide_false by done.
  - right. assert (exists now', s' = mkT q w v now' po /\ now <= now') as (now' & -> & Hnow).
    { destruct w as [[[[wi [|wb wc]] wl] [wd|]]|]; try (injection Hr as <-; eexists; split; [reflexivity|lia]). destruct (now <? wd); [|done]. injection Hr as <-. eexists; split; [reflexivity|lia]. }
    tproj. split; [done|]. split; [done|]. exists ps1, ps2, more. split; [done|]. split; [done|]. destruct w as [[[[wi wc] wl] wd]|]; [done|]. destruct T; [|done]. destruct Hw1; split; [done|lia].
Qed.
(* n frames for a visitor whose connection takes no more and who does not read: for n times the timeout nobody behind it gets a byte and no ping is answered. *)
Theorem C87_held_up_refuted B t s ps rest i x tr s' : tW s = None -> tQ s = map (FrData i) ps ++ rest -> Forall (fun p => p <> []) ps -> tV s !! i = Some x -> room B x = 0%nat ->
  quiet i tr -> crun B (Some t) s tr = Some s' -> tNow s' < tNow s + N.of_nat (length ps) * t -> tPongs s' = tPongs s /\ forall j b, got s' j = Some b -> got s j = Some b.
Proof. intros Hw Hq Hne Hx Hroom Hqu Hr Ht. by destruct (held B (Some t) s ps rest i x tr s' Hw Hq Hne Hx Hroom Hqu Hr) as [_ [[]|[? _]]]. Qed.
(* With no deadline, as at the client or with the timeout 0: for ever. *)
Theorem C87_for_ever_refuted B s p rest i x tr s' : tW s = None -> tQ s = FrData i p :: rest -> p <> [] -> tV s !! i = Some x -> room B x = 0%nat ->
  quiet i tr -> crun B None s tr = Some s' -> tPongs s' = tPongs s /\ forall j b, got s' j = Some b -> got s j = Some b.
Proof.
  intros Hw Hq Hne Hx Hroom Hqu Hr. destruct (held B None s [p] rest i x tr s' Hw Hq ltac:(by repeat constructor) Hx Hroom Hqu Hr) as [_ [Hb|[? _]]]; [|done].
  exfalso. apply Hb. cbn. lia.
Qed.
(* such a state is reached: the visitor 1 reads nothing; 2 is sent a byte and waits for it, then gets it late *)
Theorem C87_held_up_witness : exists s s1 s2, crun 2 (Some 3) (t0 {[1; 2]}) [VArrive (FrData 1 [7; 8]); VTake 2; VPush 2; VArrive (FrData 1 [9]); VArrive (FrData 1 [9]); VArrive FrPing; VArrive (FrData 2 [5])] = Some s /\
  tW s = None /\ tQ s = map (FrData 1) [[9]; [9]] ++ [FrPing; FrData 2 [5]] /\ (exists x, tV s !! 1 = Some x /\ room 2 x = 0%nat) /\
  crun 2 (Some 3) s [VTake 1; VTick; VTick; VTick; VTimeout; VTake 1; VTick; VTick] = Some s1 /\ got s1 2 = Some [] /\ tPongs s1 = [] /\
  crun 2 (Some 3) s1 [VTick; VTimeout; VTake 0; VTake 1; VPush 1] = Some s2 /\ got s2 2 = Some [5] /\ tPongs s2 = [6] /\ got s2 1 = Some [7; 8].
Proof.
  do 3 eexists. split; [vm_compute; reflexivity|]. split; [done|]. split; [done|]. split; [eexists; split; vm_compute; reflexivity|].
  split; [vm_compute; reflexivity|]. split; [done|]. split; [done|]. split; [vm_compute; reflexivity|]. split_and!; vm_compute; done.
Qed.

(* ---------- what holds: the loop goes on *)
Definition linv (T : option N) (s : tn) : Prop := (forall i x, tV s !! i = Some x -> (vRead x <= length (vGot x))%nat) /\
  match tW s with
  | Some (i, c, l, d) => is_Some (tV s !! i) /\ (c = [] -> l <> []) /\ match T, d with Some t, Some d => d <= tNow s + t | None, None => True | _, _ => False end
  | None => True end.
Lemma linv_step B T s e s' : linv T s -> cstep B T s e = Some s' -> linv T s'.
Proof.
  intros [I1 I2] H. unfold linv. ccases H.
  - done.
  - done.
  - split; [done|]. split; [by eexists|]. apply andb_true_iff in Hk as [Hk _]. apply Nat.ltb_lt in Hk. split; [destruct k; [lia|done]|]. destruct T; cbn; [lia|done].
  - done.
  - done.
  - split; [|done]. intros i x Hx. apply lookup_delete_Some in Hx as [_ Hx]. by eapply I1.
  - split.
    + intros i x Hx. destruct (decide (i = wi)) as [-> |]; [|rewrite lookup_insert_ne in Hx by done; by eapply I1]. rewrite lookup_insert in Hx. injection Hx as <-. cbn [vGot vRead].
      specialize (I1 _ _ Hwx). rewrite app_length. lia.
    + destruct I2 as (_ & _ & I4). destruct (drop k wc) as [|y z]; [destruct wl as [|y z]; [done|]|]; (split; [rewrite lookup_insert; by eexists|]); (split; [done|done]).
  - split; [done|]. destruct I2 as (I2 & _ & _). split; [done|]. apply andb_true_iff in Hk as [Hk Hk2]. apply Nat.ltb_lt in Hk. apply Nat.leb_le in Hk2. split; [destruct k; [lia|]; destruct wl; [cbn in Hk2; lia|done]|]. destruct T; cbn; [lia|done].
  - done.
  - apply andb_true_iff in Hk as [_ Hk]. apply Nat.leb_le in Hk. split.
    + intros i x Hx. destruct (decide (i = j)) as [-> |]; [|rewrite lookup_insert_ne in Hx by done; by eapply I1]. rewrite lookup_insert in Hx. injection Hx as <-. cbn [vGot vRead].
      specialize (I1 _ _ Hjx). lia.
    + destruct w as [[[[wi wc] wl] wd]|]; [|done]. destruct I2 as ([y Hy] & I2). split; [|done]. destruct (decide (wi = j)) as [-> |]; [rewrite lookup_insert; by eexists|rewrite lookup_insert_ne by done; by eexists].
  - split.
    + intros i x Hx. apply lookup_delete_Some in Hx as [_ Hx]. by eapply I1.
    + destruct w as [[[[wi wc] wl] wd]|]; [|done]. case_bool_decide; [done|]. destruct I2 as ([y Hy] & I2). split; [|done]. rewrite lookup_delete_ne by done. by eexists.
  - assert (exists now', s' = mkT q w v now' po /\ now <= now') as (now' & -> & Hnow).
    { destruct w as [[[[wi [|wb wc]] wl] [wd|]]|]; try (injection H as <-; eexists; split; [reflexivity|lia]). destruct (now <? wd); [|done]. injection H as <-. eexists; split; [reflexivity|lia]. }
    tproj. split; [done|]. destruct w as [[[[wi wc] wl] wd]|]; [|done]. destruct I2 as (I2 & I3 & I4). split; [done|]. split; [done|]. destruct T, wd; try done. lia.
Qed.
Lemma linv_run B T ids tr s : crun B T (t0 ids) tr = Some s -> linv T s.
Proof.
  revert s. induction tr as [|e tr IH] using rev_ind; intros s.
  { cbn. intros [= <-]. split; [|done]. intros i x. cbn. rewrite lookup_gset_to_gmap_Some. intros [_ <-]. cbn. lia. }
  rewrite crun_snoc. destruct (crun B T (t0 ids) tr) as [s1|] eqn:E; [|done]. cbn [mbind option_bind]. apply linv_step. by apply IH.
Qed.

(* With a timeout the loop never needs anybody's help: it can be through with all that has come after as many timeouts as there are frames, and one. *)
Definition own (e : cev) : bool := match e with VTake _ | VPush _ | VNext _ | VTimeout | VTick => true | _ => false end.
Lemma through1 B t q i c l d v now po : c <> [] -> d <= now + t -> exists tr now', forallb own tr = true /\ crun B (Some t) (mkT q (Some (i, c, l, Some d)) v now po) tr = Some (mkT q None v now' po) /\ now' <= now + t.
Proof.
  intros Hc Hd. exists (replicate (N.to_nat (d - now)) VTick ++ [VTimeout]), (now + N.of_nat (N.to_nat (d - now))). split; [|split].
  - rewrite forallb_app. cbn. rewrite andb_true_r. by induction (N.to_nat (d - now)).
  - rewrite crun_app. destruct (decide (now <= d)) as [Hle|Hle].
    + rewrite ticks by (done || lia). cbn [mbind option_bind]. unfold crun. cbn [fold_left mbind option_bind cstep]. destruct c; [done|]. destruct (N.leb_spec d (now + N.of_nat (N.to_nat (d - now)))); [done|lia].
    + replace (N.to_nat (d - now)) with O by lia. cbn [replicate]. unfold crun. cbn [fold_left mbind option_bind cstep]. destruct c; [done|]. destruct (N.leb_spec d now); [|lia]. do 2 f_equal. lia.
  - lia.
Qed.
Lemma through_q B t q v now po : exists tr s', forallb own tr = true /\ crun B (Some t) (mkT q None v now po) tr = Some s' /\ tQ s' = [] /\ tW s' = None /\ tNow s' <= now + N.of_nat (length q) * t.
Proof.
  revert v now po. induction q as [|f q IH]; intros v now po.
  { exists [], (mkT [] None v now po). split; [done|]. split; [done|]. split; [done|]. split; [done|]. cbn. lia. }
  assert (exists tr1 v' now' po', forallb own tr1 = true /\ crun B (Some t) (mkT (f :: q) None v now po) tr1 = Some (mkT q None v' now' po') /\ now' <= now + t) as (tr1 & v' & now' & po' & O1 & R1 & L1).
  { destruct f as [i p| |i].
    - destruct (v !! i) as [x|] eqn:Hx; [destruct p as [|b p]|].
      + exists [VTake 1], v, now, po. split; [done|]. unfold crun. cbn. rewrite Hx. split; [done|lia].
      + destruct (through1 B t q i (take (length (b :: p)) (b :: p)) (drop (length (b :: p)) (b :: p)) (now + t) v now po) as (tr & now' & O & R & L); [done|lia|].
        exists (VTake (length (b :: p)) :: tr), v, now', po. split; [done|]. split; [|done]. rewrite crun_cons. cbn [cstep]. rewrite Hx, Nat.leb_refl. cbn [length Nat.ltb Nat.leb andb mbind option_bind]. exact R.
      + exists [VTake 1], v, now, po. split; [done|]. unfold crun. cbn. rewrite Hx. split; [done|lia].
    - exists [VTake 1], v, now, (po ++ [now]). split; [done|]. split; [done|lia].
    - exists [VTake 1], (delete i v), now, po. split; [done|]. split; [done|lia]. }
  destruct (IH v' now' po') as (tr2 & s' & O2 & R2 & Q2 & W2 & L2). exists (tr1 ++ tr2), s'. split; [by rewrite forallb_app, O1, O2|]. split; [by rewrite crun_app, R1|].
  split; [done|]. split; [done|]. cbn [length]. lia.
Qed.
Theorem C87_goes_on B t ids tr0 s : crun B (Some t) (t0 ids) tr0 = Some s ->
  exists tr s', forallb own tr = true /\ crun B (Some t) s tr = Some s' /\ tQ s' = [] /\ tW s' = None /\ tNow s' <= tNow s + N.of_nat (S (length (tQ s))) * t.
Proof.
  intros H0. apply linv_run in H0 as [_ I]. destruct s as [q w v now po]. tproj.
  assert (exists tr1 now', forallb own tr1 = true /\ crun B (Some t) (mkT q w v now po) tr1 = Some (mkT q None v now' po) /\ now' <= now + t) as (tr1 & now' & O1 & R1 & L1).
  { destruct w as [[[[i c] l] d]|]; [|exists [], now; split; [done|]; split; [done|lia]]. destruct I as (_ & Hc & Hd). destruct d as [d|]; [|done]. destruct c as [|b c]; [|by apply through1].
    specialize (Hc eq_refl). destruct (through1 B t q i (take (length l) l) (drop (length l) l) (now + t) v now po) as (tr & now' & O & R & L); [rewrite firstn_all; done|lia|].
    exists (VNext (length l) :: tr), now'. split; [done|]. split; [|done]. rewrite crun_cons. cbn [cstep]. rewrite Nat.leb_refl. destruct l; [done|]. cbn [length Nat.ltb Nat.leb andb mbind option_bind]. exact R. }
  destruct (through_q B t q v now' po) as (tr2 & s' & O2 & R2 & Q2 & W2 & L2). exists (tr1 ++ tr2), s'. split; [by rewrite forallb_app, O1, O2|]. split; [by rewrite crun_app, R1|].
  split; [done|]. split; [done|]. lia.
Qed.

(* If the visitors read, everything can be delivered without a Write that times out, whatever the deadline. *)
Definition helped (e : cev) : bool := match e with VTake _ | VPush _ | VNext _ | VRead _ _ => true | _ => false end.
Lemma reads1 B T n q i c l d v now po x : (0 < B)%nat -> (length c + length l <= n)%nat -> (c = [] -> l <> []) -> v !! i = Some x -> (vRead x <= length (vGot x))%nat ->
  exists tr v', forallb helped tr = true /\ crun B T (mkT q (Some (i, c, l, d)) v now po) tr = Some (mkT q None v' now po) /\ dom v' = dom v.
Proof.
  intros HB. revert c l d v x. induction n as [|n IH]; intros c l d v x Hn Hcl Hx Hv.
  { destruct c; [|cbn in Hn; lia]. destruct l; [by specialize (Hcl eq_refl)|cbn in Hn; lia]. }
  assert (forall c l d v x, (length c + length l <= S n)%nat -> c <> [] -> v !! i = Some x -> (vRead x <= length (vGot x))%nat ->
    exists tr v', forallb helped tr = true /\ crun B T (mkT q (Some (i, c, l, d)) v now po) tr = Some (mkT q None v' now po) /\ dom v' = dom v) as Hgo.
  { clear c l d v x Hn Hcl Hx Hv. intros c l d v x Hn Hc Hx Hv. destruct c as [|b c]; [done|].
    (* one byte, with one byte read before if there is no room *)
    assert (exists tr1 v1 x1, forallb helped tr1 = true /\ crun B T (mkT q (Some (i, b :: c, l, d)) v now po) tr1 = Some (mkT q (match c, l with [], [] => None | _, _ => Some (i, c, l, d) end) v1 now po) /\
      v1 !! i = Some x1 /\ (vRead x1 <= length (vGot x1))%nat /\ dom v1 = dom v) as (tr1 & v1 & x1 & O1 & R1 & Hx1 & Hv1 & D1).
    { assert (forall v x, v !! i = Some x -> (1 <= room B x)%nat -> cstep B T (mkT q (Some (i, b :: c, l, d)) v now po) (VPush 1) = Some (mkT q (match c, l with [], [] => None | _, _ => Some (i, c, l, d) end) (<[i := mkV (vGot x ++ [b]) (vRead x)]> v) now po)) as Hpush.
      { intros v2 x2 H2 Hr. cbn [cstep]. rewrite H2. destruct (Nat.leb_spec 1 (room B x2)); [|lia]. cbn [length Nat.ltb Nat.leb andb drop take]. rewrite drop_0, take_0. by destruct c, l. }
      assert (forall v x, v !! i = Some x -> dom (<[i := mkV (vGot x ++ [b]) (vRead x)]> v) = dom v) as Hdom by (intros v2 x2 H2; apply dom_insert_lookup_L; by eexists).
      destruct (decide (1 <= room B x)%nat) as [Hr|Hr].
      - exists [VPush 1]. do 2 eexists. split; [done|]. split; [rewrite crun_cons, (Hpush v x Hx Hr); reflexivity|]. split; [apply lookup_insert|]. cbn [vGot vRead]. split; [rewrite app_length; lia|by apply Hdom].
      - set (k := (length (vGot x) - vRead x)%nat). set (y := mkV (vGot x) (vRead x + k)). assert (room B x = 0)%nat as Hr0 by lia. unfold room in Hr0. fold k in Hr0. assert (<[i := y]> v !! i = Some y) as Hy by apply lookup_insert.
        assert (1 <= room B y)%nat as Hry by (unfold room, y; cbn [vGot vRead]; unfold k; lia).
        exists [VRead i k; VPush 1]. do 2 eexists. split; [done|]. split.
        + rewrite crun_cons. cbn [cstep]. rewrite Hx. fold k. rewrite Nat.leb_refl. destruct (Nat.ltb_spec 0 k); [|lia]. cbn [andb mbind option_bind]. rewrite crun_cons. fold y. rewrite (Hpush _ y Hy Hry). reflexivity.
        + split; [apply lookup_insert|]. cbn [vGot vRead y]. split; [rewrite app_length; unfold k; cbn; lia|]. etrans; [exact (Hdom _ _ Hy)|]. apply dom_insert_lookup_L. by eexists. }
    destruct (match c, l with [], [] => true | _, _ => false end) eqn:Hend.
    - destruct c; [|done]. destruct l; [|done]. exists tr1, v1. done.
    - destruct (IH c l d v1 x1) as (tr2 & v2 & O2 & R2 & D2); [cbn in Hn; lia|intros -> ->; done|done|done|]. exists (tr1 ++ tr2), v2. split; [by rewrite forallb_app, O1, O2|].
      split; [|congruence]. rewrite crun_app, R1. cbn [mbind option_bind]. by destruct c, l. }
  destruct c as [|b c]; [|by eapply Hgo]. specialize (Hcl eq_refl).
  destruct (Hgo l [] ((fun t => now + t) <$> T) v x) as (tr & v' & O & R & D); [cbn in *; lia|done|done|done|]. exists (VNext (length l) :: tr), v'. split; [done|]. split; [|done].
  rewrite crun_cons. cbn [cstep]. rewrite Nat.leb_refl. destruct l as [|y l]; [done|]. cbn [length Nat.ltb Nat.leb andb mbind option_bind]. change (S (length l)) with (length (y :: l)). rewrite firstn_all, drop_all. exact R.
Qed.
Lemma crun_linv B T s tr s' : linv T s -> crun B T s tr = Some s' -> linv T s'.
Proof.
  intros I. revert s'. induction tr as [|e tr IH] using rev_ind; intros s'; [by intros [= <-]|]. rewrite crun_snoc. destruct (crun B T s tr) as [s1|]; [|done]. cbn [mbind option_bind].
  apply linv_step. by apply IH.
Qed.
Lemma reads_q B T q v now po : (0 < B)%nat -> linv T (mkT q None v now po) -> Forall (fun f => forall i, f <> FrEnd i) q ->
  exists tr s', forallb helped tr = true /\ crun B T (mkT q None v now po) tr = Some s' /\ tQ s' = [] /\ tW s' = None /\ dom (tV s') = dom v.
Proof.
  intros HB. revert v po. induction q as [|f q IH]; intros v po I He.
  { exists [], (mkT [] None v now po). done. }
  apply Forall_cons in He as [Hf He].
  assert (exists tr1 v' po', forallb helped tr1 = true /\ crun B T (mkT (f :: q) None v now po) tr1 = Some (mkT q None v' now po') /\ dom v' = dom v) as (tr1 & v' & po' & O1 & R1 & D1).
  { destruct f as [i p| |i]; [|by exists [VTake 1], v, (po ++ [now])|by destruct (Hf i)]. destruct (v !! i) as [x|] eqn:Hx; [destruct p as [|b p]|].
    - exists [VTake 1], v, po. split; [done|]. unfold crun. cbn. by rewrite Hx.
    - destruct (reads1 B T (length (b :: p)) q i (b :: p) [] ((fun t => now + t) <$> T) v now po x) as (tr & v' & O & R & D); [done|cbn [length]; lia|done|done|by apply (proj1 I i)|].
      exists (VTake (length (b :: p)) :: tr), v', po. split; [done|]. split; [|done]. rewrite crun_cons. cbn [cstep]. rewrite Hx, Nat.leb_refl, firstn_all, drop_all. cbn [length Nat.ltb Nat.leb andb mbind option_bind]. exact R.
    - exists [VTake 1], v, po. split; [done|]. unfold crun. cbn. by rewrite Hx. }
  destruct (IH v' po') as (tr2 & s' & O2 & R2 & Q2 & W2 & D2); [by eapply crun_linv|done|]. exists (tr1 ++ tr2), s'. split; [by rewrite forallb_app, O1, O2|]. split; [by rewrite crun_app, R1|].
  split; [done|]. split; [done|]. congruence.
Qed.
Theorem C87_all_delivered B T ids tr0 s : (0 < B)%nat -> crun B T (t0 ids) tr0 = Some s -> VTimeout ∉ tr0 -> (forall i, FrEnd i ∉ tQ s) ->
  exists tr s', forallb helped tr = true /\ crun B T s tr = Some s' /\ dom (tV s') = dom (tV s) /\ forall i b, got s' i = Some b -> b = concat (payloads i tr0).
Proof.
  intros HB H0 Hto He. pose proof (linv_run _ _ _ _ _ H0) as I. destruct s as [q w v now po].
  assert (exists tr1 v', forallb helped tr1 = true /\ crun B T (mkT q w v now po) tr1 = Some (mkT q None v' now po) /\ dom v' = dom v) as (tr1 & v' & O1 & R1 & D1).
  { destruct w as [[[[i c] l] d]|]; [|by exists [], v]. destruct I as (I1 & [x Hx] & Hcl & _). tproj. eapply reads1; [done|done|done|done|by eapply I1]. }
  destruct (reads_q B T q v' now po HB) as (tr2 & s' & O2 & R2 & Q2 & W2 & D2); [by eapply crun_linv|apply Forall_forall; intros f Hf i ->; by apply (He i)|].
  exists (tr1 ++ tr2), s'. assert (forallb helped (tr1 ++ tr2) = true) as O by (by rewrite forallb_app, O1, O2). assert (crun B T (mkT q w v now po) (tr1 ++ tr2) = Some s') as R by (by rewrite crun_app, R1).
  split; [done|]. split; [done|]. split; [tproj; congruence|]. intros i b Hg. unfold got in Hg. destruct (tV s' !! i) as [x|] eqn:Hx; [|done]. injection Hg as <-.
  assert (crun B T (t0 ids) (tr0 ++ (tr1 ++ tr2)) = Some s') as Hall by (by rewrite crun_app, H0).
  assert (~ timed_out B T ids (tr0 ++ (tr1 ++ tr2)) i) as Hn.
  { intros (t1 & t2 & s1 & c & l & d & Heq & _). assert (VTimeout ∈ tr0 ++ (tr1 ++ tr2)) as Hin by (rewrite Heq; set_solver). apply elem_of_app in Hin as [?|Hin]; [done|].
    rewrite forallb_forall in O. apply elem_of_list_In in Hin. by apply O in Hin. }
  destruct (cinv_run _ _ _ _ _ i Hall x Hx) as (ps & fs & F & Hc & Hm). specialize (Hc Hn) as ->. rewrite W2 in Hm. cbn [cur] in Hm. destruct Hm as (Hp & ->). rewrite Q2 in Hp. cbn in Hp. rewrite app_nil_r in Hp.
  rewrite <- Hp. f_equal. unfold payloads at 1. rewrite omap_app. fold (payloads i tr0). fold (payloads i (tr1 ++ tr2)). assert (payloads i (tr1 ++ tr2) = []) as ->; [|by rewrite app_nil_r].
  clear -O. induction (tr1 ++ tr2) as [|e t IH]; [done|]. cbn in O. apply andb_true_iff in O as [O1 O2]. cbn. destruct e; try done; cbn; by apply IH.
Qed.
