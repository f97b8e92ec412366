(* Props_Leave.v -- C101: a server that is told to stop stops (LeaveModel) *)
From Verif Require Import GoBase LeaveModel.
Local Open Scope nat_scope.

Lemma srun_app s a b : srun s (a ++ b) = (s' ← srun s a; srun s' b).
Proof. revert s. induction a as [|e a IH]; intros s; cbn [srun app]; [done|]. destruct (sstep s e); cbn [mbind option_bind]; [apply IH|done]. Qed.
Lemma in_table s i j : j ∈ table s i <-> exists t, sTuns s !! j = Some t /\ tOwn t = i /\ tIn t = true.
Proof.
  unfold table. rewrite elem_of_list_filter, elem_of_seq. split.
  - intros [H _]. destruct (sTuns s !! j) as [t|]; [|done]. exists t. rewrite andb_true_iff, Nat.eqb_eq in H. tauto.
  - intros (t & E & H1 & H2). rewrite E, H1, H2, Nat.eqb_refl. split; [done|]. apply lookup_lt_Some in E. lia.
Qed.
Lemma table_nodup s i : NoDup (table s i).
Proof. unfold table. apply NoDup_filter, NoDup_seq. Qed.
Lemma same_refl a : NoDup a -> same a a.
Proof. intros H. split; [done|]. split; apply Forall_forall; auto. Qed.
Lemma same_le s i l : same l (table s i) -> (length l <= length (sTuns s)).
Proof.
  intros (Hn & Hf & _). rewrite Forall_forall in Hf. rewrite <- (seq_length (length (sTuns s)) 0). apply submseteq_length, NoDup_submseteq; [done|]. intros j Hj. apply Hf in Hj. apply in_table in Hj as (t & E & _).
  apply elem_of_seq. apply lookup_lt_Some in E. lia.
Qed.

(* ---- its steps come to an end ---- *)
Definition left (n T : nat) (pc : spc) : nat :=
  let all := n * (2 * T + 2) + 1 in
  match pc with
  | SIdle => all + 2 * n + 44
  | SRec i => all + 42 + 2 * (n - i) + 1
  | SRecW i _ => all + 42 + 2 * (n - S i) + 2
  | SWait k => all + (40 - k) + 1
  | SCl i => (n - i) * (2 * T + 2) + 1
  | SClT i r => (n - S i) * (2 * T + 2) + 1 + 2 * length r + 1
  | SClW i _ r => (n - S i) * (2 * T + 2) + 1 + 2 * length r + 2
  | SDone => 0
  end.
Ltac inv_step E := repeat first [ discriminate E | injection E as <- |
  match type of E with (_ ≫= _) = Some _ => let t := fresh "t" in let Et := fresh "Et" in apply bind_Some in E as (t & Et & E) | context[match ?x with _ => _ end] => destruct x eqn:?; try discriminate E end ].
Lemma step_size s e s' : sstep s e = Some s' -> sTimed s' = sTimed s /\ sN s' = sN s /\ length (sTuns s') = length (sTuns s).
Proof. destruct s as [tm n l pc]. destruct e; cbn [sstep sPc sN sTuns]; intros E; inv_step E; cbn [go upd sTimed sN sTuns]; rewrite ?alter_length; done. Qed.
Lemma left_step s e s' : sstep s e = Some s' -> if mine e then left (sN s) (length (sTuns s)) (sPc s') < left (sN s) (length (sTuns s)) (sPc s) else sPc s' = sPc s.
Proof.
  destruct s as [tm n l pc]. destruct e as [g|o| |q|ok|order| |j|j|j|j|i|i]; cbn [sstep sPc sN sTuns mine]; intros E.
  - destruct pc; try discriminate E. injection E as <-. cbn [go sPc sN sTuns]. destruct g; cbn [left]; rewrite ?Nat.sub_0_r; lia.
  - destruct pc as [|i|i j|k|i|i r|i j r|]; try discriminate E. destruct (Nat.leb_spec n i) as [Hi|Hi].
    + destruct o; [discriminate E|]. injection E as <-. cbn [go sPc left]. lia.
    + destruct o as [j|]; case_bool_decide; try discriminate E; injection E as <-; cbn [go sPc left]; lia.
  - destruct pc as [|i|i j|k|i|i r|i j r|]; try discriminate E; apply bind_Some in E as (t & Et & E); destruct (room t); try discriminate E; injection E as <-; cbn [go upd sPc sN sTuns left]; lia.
  - destruct pc as [|i|i j|k|i|i r|i j r|]; try discriminate E; destruct (_ && _); try discriminate E; apply bind_Some in E as (t & Et & E); destruct (room t); try discriminate E; injection E as <-; cbn [go upd sPc sN sTuns left]; lia.
  - destruct pc as [|i|i j|k|i|i r|i j r|]; try discriminate E. apply (inj Some) in E as <-. destruct (ok || (rounds <=? S k)) eqn:Er; cbn [go sPc left]; [rewrite Nat.sub_0_r; lia|]. apply orb_false_iff in Er as [_ Er]. apply Nat.leb_gt in Er. unfold rounds in Er. lia.
  - destruct pc as [|i|i j|k|i|i r|i j r|]; try discriminate E. destruct (Nat.leb_spec n i) as [Hi|Hi]; case_bool_decide as Hs; try discriminate E; injection E as <-; cbn [go sPc left]; [lia|].
    apply same_le in Hs. cbn [sTuns] in Hs. replace (n - i) with (S (n - S i)) by lia. cbn [Nat.mul]. lia.
  - destruct pc as [|i|i j|k|i|i [|j r]|i j r|]; try discriminate E; injection E as <-; cbn [go sPc left length]; lia.
  - by injection E as <-.
  - by injection E as <-.
  - by injection E as <-.
  - apply bind_Some in E as (t & Et & E). case_match; [|discriminate E]. by injection E as <-.
  - case_bool_decide; [discriminate E|]. by injection E as <-.
  - case_bool_decide; [discriminate E|]. by injection E as <-.
Qed.
Theorem C101_bounded tm n l tr s : srun (sst0 tm n l) tr = Some s -> length (filter (fun e => mine e = true) tr) <= n * (2 * length l + 4) + 45.
Proof.
  assert (G : forall tr s s', srun s tr = Some s' -> length (filter (fun e => mine e = true) tr) <= left (sN s) (length (sTuns s)) (sPc s)).
  { clear. induction tr as [|e tr IH]; intros s s' H; [cbn; lia|]. cbn [srun] in H. apply bind_Some in H as (s1 & E & H). pose proof (left_step _ _ _ E) as Hl. apply step_size in E as (_ & E1 & E2). apply IH in H. rewrite E1, E2 in H.
    destruct (mine e) eqn:Em.
    - rewrite filter_cons_True by done. cbn [length]. lia.
    - rewrite filter_cons_False by congruence. rewrite Hl in H. lia. }
  intros H. apply G in H. cbn [sst0 sN sTuns sPc left] in H. rewrite fmap_length in H. lia.
Qed.

(* ---- what holds on the way ---- *)
Definition tod (s : sst) (j : nat) (t : tun) : Prop :=
  match sPc s with
  | SIdle | SRec _ | SRecW _ _ | SWait _ => True
  | SCl i => tOwn t < i -> tDead t = true
  | SClT i r => (tOwn t < i -> tDead t = true) /\ (tOwn t = i -> tDead t = true \/ j ∈ r)
  | SClW i k r => (tOwn t < i -> tDead t = true) /\ (tOwn t = i -> tDead t = true \/ j = k \/ j ∈ r)
  | SDone => tDead t = true
  end.
Definition sinv (died : list sev) (s : sst) : Prop :=
  (forall j t, sTuns s !! j = Some t -> tOwn t < sN s /\ (tIn t = false -> tDead t = true) /\ (tDead t = true -> tTold t = true \/ XDie j ∈ died \/ XLate j ∈ died) /\ tod s j t) /\
  (match sPc s with SRecW i j => i < sN s /\ is_Some (sTuns s !! j) | SClT i r => i < sN s /\ Forall (fun j => is_Some (sTuns s !! j)) r | SClW i j r => i < sN s /\ Forall (fun j => is_Some (sTuns s !! j)) (j :: r) | SWait k => k < 40 | _ => True end).

Lemma alter_some (f : tun -> tun) j (l : list tun) i t : alter f j l !! i = Some t -> exists u, l !! i = Some u /\ ((i = j /\ t = f u) \/ (i <> j /\ t = u)).
Proof.
  destruct (decide (i = j)) as [->|Hn].
  - rewrite list_lookup_alter. intros H. apply fmap_Some in H as (u & E & ->). eauto.
  - rewrite list_lookup_alter_ne by done. eauto.
Qed.
Lemma alter_is_some (f : tun -> tun) j (l : list tun) i : is_Some (l !! i) -> is_Some (alter f j l !! i).
Proof. intros H. destruct (decide (i = j)) as [->|Hn]; [rewrite list_lookup_alter; by apply fmap_is_Some|by rewrite list_lookup_alter_ne]. Qed.
Lemma sinv0 tm n l : Forall (fun x => x.1 < n) l -> sinv [] (sst0 tm n l).
Proof.
  intros Hl. split; [|done]. intros j t H. cbn [sst0 sTuns] in H. apply list_lookup_fmap_Some in H as (x & E & ->). rewrite Forall_forall in Hl. apply elem_of_list_lookup_2 in E. split_and!; cbn; try done. by apply Hl.
Qed.
(* a tunnel changes in a way that keeps its client, and its end *)
Lemma sinv_upd d d' s (f : tun -> tun) j : sinv d s -> (forall e, e ∈ d -> e ∈ d') ->
  (forall t, sTuns s !! j = Some t -> tOwn (f t) = tOwn t /\ (tDead t = true -> tDead (f t) = true) /\ (tTold t = true -> tTold (f t) = true) /\ (tIn (f t) = false -> tIn t = false \/ tDead (f t) = true) /\
     (tDead (f t) = true -> tDead t = true \/ tTold (f t) = true \/ XDie j ∈ d' \/ XLate j ∈ d')) -> sinv d' (upd f j s).
Proof.
  intros [I1 I2] Hd Hf. split.
  - intros i t H. cbn [upd sTuns] in H. apply alter_some in H as (u & E & [[-> ->]|[Hn ->]]); destruct (I1 _ _ E) as (A1 & A2 & A3 & A4).
    + destruct (Hf _ E) as (F1 & F2 & F3 & F4 & F5). rewrite F1. cbn [upd sN]. split_and!; [done| | |].
      * intros Hi. destruct (F4 Hi) as [Hx|Hx]; auto.
      * intros Hx. destruct (F5 Hx) as [Hy|Hy]; [|done]. destruct (A3 Hy) as [|[|]]; auto.
      * unfold tod in *. cbn [upd sPc]. rewrite ?F1. destruct (sPc s); auto; intuition.
    + split_and!; [done|done| |exact A4]. intros Hx. destruct (A3 Hx) as [|[|]]; auto.
  - cbn [upd sPc sN sTuns]. destruct (sPc s); try done; destruct I2 as [? I2]; (split; [done|]); try (by apply alter_is_some); rewrite Forall_forall in *; intros k Hk; apply alter_is_some; auto.
Qed.
Lemma sinv_step d s e s' : sinv d s -> sstep s e = Some s' -> sinv (d ++ [e]) s'.
Proof.
  intros I E. assert (Hd : forall x, x ∈ d -> x ∈ d ++ [e]) by (intros; apply elem_of_app; by left).
  assert (I' : sinv (d ++ [e]) s). { destruct I as [I1 I2]. split; [|done]. intros j t H. destruct (I1 _ _ H) as (A1 & A2 & A3 & A4). split_and!; try done. intros Hx. destruct (A3 Hx) as [|[|]]; auto. }
  assert (Hgo : forall pc, (forall j t, sTuns s !! j = Some t -> tod (go pc s) j t) -> (match pc with SRecW i j => i < sN s /\ is_Some (sTuns s !! j) | SClT i r => i < sN s /\ Forall (fun j => is_Some (sTuns s !! j)) r
     | SClW i j r => i < sN s /\ Forall (fun j => is_Some (sTuns s !! j)) (j :: r) | SWait k => k < 40 | _ => True end) -> sinv (d ++ [e]) (go pc s)).
  { intros pc H1 H2. destruct I' as [J1 _]. split; [|exact H2]. intros j t H. destruct (J1 _ _ H) as (A1 & A2 & A3 & _). split_and!; try done. by apply H1. }
  destruct e as [g|o| |q|ok|order| |j|j|j|j|i|i].
  - cbn [sstep] in E. destruct (sPc s); try discriminate E. injection E as <-. apply Hgo; destruct g; try done. intros j t _. cbn. lia.
  - cbn [sstep] in E. destruct (sPc s) as [|i|i k|k|i|i r|i k r|] eqn:Ep; try discriminate E. destruct (Nat.leb_spec (sN s) i) as [Hi|Hi].
    + destruct o; [discriminate E|]. injection E as <-. apply Hgo; [done|lia].
    + destruct o as [j|]; case_bool_decide as Hx; try discriminate E; injection E as <-; apply Hgo; try done. apply in_table in Hx as (t & Et & _). split; [done|]. by eexists.
  - cbn [sstep] in E. destruct (sPc s) as [|i|i k|k|i|i r|i k r|] eqn:Ep; try discriminate E; apply bind_Some in E as (t & Et & E); destruct (room t) eqn:Er; try discriminate E; injection E as <-.
    + assert (J : sinv (d ++ [XWrote]) (upd tell k s)).
      { apply (sinv_upd d); [exact I|exact Hd|]. intros u Eu. unfold tell. destruct (tDead u) eqn:Ed; cbn; split_and!; auto; try congruence. }
      destruct J as [J1 _]. split; [|done]. intros m u Hm. destruct (J1 _ _ Hm) as (A1 & A2 & A3 & _). split_and!; done.
    + assert (J : sinv (d ++ [XWrote]) (upd (fun t => kill (tell t)) k s)).
      { apply (sinv_upd d); [exact I|exact Hd|]. intros u Eu. unfold tell, kill. destruct (tDead u) eqn:Ed; cbn; split_and!; auto. }
      destruct J as [J1 J2]. cbn [upd sPc sN] in J2. rewrite Ep in J2. destruct J2 as [Hi J2]. rewrite Forall_cons in J2. split; [|split; [done|apply J2]].
      intros m u Hm. cbn [go sTuns] in Hm. destruct (J1 _ _ Hm) as (A1 & A2 & A3 & A4). split_and!; try done. unfold tod in *. cbn [upd go sPc] in *. rewrite Ep in A4. destruct A4 as [A4 A5]. split; [done|].
      intros Ho. destruct (A5 Ho) as [?|[->|?]]; auto. left. cbn [upd sTuns] in Hm. apply alter_some in Hm as (v & _ & [[_ ->]|[? _]]); done.
  - cbn [sstep] in E. destruct (sPc s) as [|i|i k|k|i|i r|i k r|] eqn:Ep; try discriminate E; destruct (sTimed s && (q =? k)) eqn:Eq; try discriminate E; apply andb_true_iff in Eq as [_ Eq]; apply Nat.eqb_eq in Eq; subst k;
      apply bind_Some in E as (t & Et & E); destruct (room t) eqn:Er; try discriminate E; injection E as <-.
    + by apply Hgo.
    + assert (J : sinv (d ++ [XLate q]) (upd kill q s)).
      { apply (sinv_upd d); [exact I|exact Hd|]. intros u Eu. cbn. split_and!; auto. intros _. right. right. right. apply elem_of_app. right. by left. }
      destruct J as [J1 J2]. cbn [upd sPc sN] in J2. rewrite Ep in J2. destruct J2 as [Hi J2]. rewrite Forall_cons in J2. split; [|split; [done|apply J2]].
      intros m u Hm. cbn [go sTuns] in Hm. destruct (J1 _ _ Hm) as (A1 & A2 & A3 & A4). split_and!; try done. unfold tod in *. cbn [upd go sPc] in *. rewrite Ep in A4. destruct A4 as [A4 A5]. split; [done|].
      intros Ho. destruct (A5 Ho) as [?|[->|?]]; auto. left. cbn [upd sTuns] in Hm. apply alter_some in Hm as (v & _ & [[_ ->]|[? _]]); done.
  - cbn [sstep] in E. destruct (sPc s) as [|i|i k|k|i|i r|i k r|] eqn:Ep; try discriminate E. apply (inj Some) in E as <-. destruct (ok || (rounds <=? S k)) eqn:Er; apply Hgo; try done.
    + intros j t _. cbn. lia.
    + apply orb_false_iff in Er as [_ Er]. apply Nat.leb_gt in Er. exact Er.
  - cbn [sstep] in E. destruct (sPc s) as [|i|i k|k|i|i r|i k r|] eqn:Ep; try discriminate E. destruct (Nat.leb_spec (sN s) i) as [Hi|Hi]; case_bool_decide as Hs; try discriminate E; injection E as <-; apply Hgo; try done.
    + intros j t Hj. destruct I' as [J1 _]. destruct (J1 _ _ Hj) as (A1 & _ & _ & A4). unfold tod in A4. rewrite Ep in A4. apply A4. lia.
    + intros j t Hj. destruct I' as [J1 _]. destruct (J1 _ _ Hj) as (A1 & A2 & _ & A4). unfold tod in A4. rewrite Ep in A4. split; [done|]. intros Ho. destruct (tIn t) eqn:Et; [|auto]. right. destruct Hs as (_ & _ & Hs). rewrite Forall_forall in Hs. apply Hs, in_table. eauto.
    + split; [done|]. destruct Hs as (_ & Hs & _). eapply Forall_impl; [exact Hs|]. intros j Hj. apply in_table in Hj as (t & Et & _). by eexists.
  - cbn [sstep] in E. destruct (sPc s) as [|i|i k|k|i|i [|k r]|i k r|] eqn:Ep; try discriminate E; injection E as <-.
    + apply Hgo; [|done]. intros j t Hj. destruct I' as [J1 _]. destruct (J1 _ _ Hj) as (_ & _ & _ & A4). unfold tod in A4. rewrite Ep in A4. destruct A4 as [A4 A5]. intros Ho. destruct (decide (tOwn t = i)) as [Hn|Hn]; [|apply A4; lia]. destruct (A5 Hn) as [?|H]; [done|by apply elem_of_nil in H].
    + apply Hgo; [|destruct I' as [_ J2]; rewrite Ep in J2; exact J2]. intros j t Hj. destruct I' as [J1 _]. destruct (J1 _ _ Hj) as (_ & _ & _ & A4). unfold tod in A4. rewrite Ep in A4. destruct A4 as [A4 A5]. split; [done|]. intros Ho. destruct (A5 Ho) as [?|H]; [auto|]. apply elem_of_cons in H. auto.
  - injection E as <-. apply (sinv_upd d); [exact I|exact Hd|]. intros t _. cbn. split_and!; auto.
  - injection E as <-. apply (sinv_upd d); [exact I|exact Hd|]. intros t _. cbn. split_and!; auto.
  - injection E as <-. apply (sinv_upd d); [exact I|exact Hd|]. intros t _. cbn. split_and!; auto. intros _. right. right. left. apply elem_of_app. right. by left.
  - cbn [sstep] in E. apply bind_Some in E as (t & Et & E). destruct (tDead t) eqn:Ed; cbn [andb] in E; [|discriminate E]. case_bool_decide; [discriminate E|]. injection E as <-.
    apply (sinv_upd d); [exact I|exact Hd|]. intros u Eu. rewrite Et in Eu. injection Eu as <-. cbn. split_and!; auto.
  - cbn [sstep] in E. case_bool_decide; [discriminate E|]. injection E as <-. exact I'.
  - cbn [sstep] in E. case_bool_decide; [discriminate E|]. injection E as <-. exact I'.
Qed.
Lemma sinv_run tr : forall d s s', sinv d s -> srun s tr = Some s' -> sinv (d ++ tr) s'.
Proof.
  induction tr as [|e tr IH]; intros d s s' I H; cbn [srun] in H; [injection H as <-; by rewrite app_nil_r|]. apply bind_Some in H as (s1 & E & H). replace (d ++ e :: tr) with ((d ++ [e]) ++ tr) by (by rewrite <- app_assoc). eapply IH; [eapply sinv_step; eassumption|exact H].
Qed.

(* ---- C101 ---- *)
(* When the server has stopped, every tunnel is closed, and its client was told, unless the connection had ended before or the Write came to its deadline. *)
Theorem C101_all_closed tm n l tr s : Forall (fun x => x.1 < n) l -> srun (sst0 tm n l) tr = Some s -> sPc s = SDone ->
  forall j t, sTuns s !! j = Some t -> tDead t = true /\ (tTold t = true \/ XDie j ∈ tr \/ XLate j ∈ tr).
Proof. intros Hl H Hp j t Hj. apply (sinv_run _ [] _ _ (sinv0 tm n l Hl)) in H. destruct H as [H _]. destruct (H _ _ Hj) as (_ & _ & A3 & A4). unfold tod in A4. rewrite Hp in A4. split; [done|by apply A3]. Qed.
Lemma timed_run tr : forall s s', srun s tr = Some s' -> sTimed s' = sTimed s.
Proof. induction tr as [|e tr IH]; intros s s' H; cbn [srun] in H; [by injection H as <-|]. apply bind_Some in H as (s1 & E & H). apply step_size in E as [E _]. rewrite (IH _ _ H). exact E. Qed.
Lemma goes_on d s : sinv d s -> sPc s <> SDone -> sTimed s = true \/ (forall j t, writing s = Some j -> sTuns s !! j = Some t -> tFull t = false \/ tDead t = true) -> exists e s', mine e = true /\ sstep s e = Some s'.
Proof.
  intros [H1 H2] Hp Hw.
  assert (Hr : forall j, writing s = Some j -> is_Some (sTuns s !! j) -> exists t, sTuns s !! j = Some t /\ (room t = true \/ (room t = false /\ sTimed s = true))).
  { intros j Hj [t Et]. exists t. split; [done|]. destruct (room t) eqn:Er; [auto|]. right. split; [done|]. destruct Hw as [Hw|Hw]; [done|]. unfold room in Er. destruct (Hw _ _ Hj Et) as [E|E]; rewrite E in Er; [by rewrite orb_true_r in Er|done]. }
  clear Hw. unfold writing in Hr. destruct (sPc s) as [|i|i k|k|i|i [|k r]|i k r|] eqn:Ep.
  - exists (XStop true). cbn [sstep]. rewrite Ep. eauto.
  - destruct (Nat.leb_spec (sN s) i) as [Hi|Hi].
    + exists (XRec None). cbn [sstep]. rewrite Ep, (proj2 (Nat.leb_le _ _) Hi). eauto.
    + destruct (table s i) as [|j r] eqn:Et; [exists (XRec None)|exists (XRec (Some j))]; cbn [sstep]; rewrite Ep, (proj2 (Nat.leb_gt _ _) Hi), Et; rewrite bool_decide_eq_true_2; eauto. by left.
  - destruct (Hr k eq_refl) as (t & Et & [Er|[Er Em]]); [apply H2| |].
    + exists XWrote. cbn [sstep]. rewrite Ep, Et. cbn [mbind option_bind]. rewrite Er. eauto.
    + exists (XLate k). cbn [sstep]. rewrite Ep, Em, Nat.eqb_refl, Et. cbn [andb mbind option_bind]. rewrite Er. eauto.
  - exists (XRound true). cbn [sstep]. rewrite Ep. eauto.
  - destruct (Nat.leb_spec (sN s) i) as [Hi|Hi].
    + exists (XLock []). cbn [sstep]. rewrite Ep, (proj2 (Nat.leb_le _ _) Hi). rewrite bool_decide_eq_true_2; eauto.
    + exists (XLock (table s i)). cbn [sstep]. rewrite Ep, (proj2 (Nat.leb_gt _ _) Hi). rewrite bool_decide_eq_true_2 by (apply same_refl, table_nodup). eauto.
  - exists XNext. cbn [sstep]. rewrite Ep. eauto.
  - exists XNext. cbn [sstep]. rewrite Ep. eauto.
  - destruct (Hr k eq_refl) as (t & Et & [Er|[Er Em]]); [destruct H2 as [_ H2]; inversion H2; done| |].
    + exists XWrote. cbn [sstep]. rewrite Ep, Et. cbn [mbind option_bind]. rewrite Er. eauto.
    + exists (XLate k). cbn [sstep]. rewrite Ep, Em, Nat.eqb_refl, Et. cbn [andb mbind option_bind]. rewrite Er. eauto.
  - done.
Qed.
(* If Writes have a deadline, the server can always go on until it has stopped; *)
Theorem C101_goes_on n l tr s : Forall (fun x => x.1 < n) l -> srun (sst0 true n l) tr = Some s -> sPc s <> SDone -> exists e s', mine e = true /\ sstep s e = Some s'.
Proof. intros Hl H Hp. apply (goes_on ([] ++ tr)); [eapply sinv_run; [apply (sinv0 true n l Hl)|exact H]|done|]. left. by rewrite (timed_run _ _ _ H). Qed.
(* otherwise there is one thing it waits for (besides the rounds of C43): a tunnel that has no room, while it is writing to it. *)
Theorem C101_goes_on_partial tm n l tr s : Forall (fun x => x.1 < n) l -> srun (sst0 tm n l) tr = Some s -> sPc s <> SDone ->
  (forall j t, writing s = Some j -> sTuns s !! j = Some t -> tFull t = false \/ tDead t = true) -> exists e s', mine e = true /\ sstep s e = Some s'.
Proof. intros Hl H Hp Hw. apply (goes_on ([] ++ tr)); [eapply sinv_run; [apply (sinv0 tm n l Hl)|exact H]|done|]. by right. Qed.

(* So without a deadline a tunnel that has no room, and whose client keeps the connection up, keeps the server from ever stopping, however it was told to; *)
Definition stuck (j : nat) (s : sst) : Prop := exists t, sTuns s !! j = Some t /\ tFull t = true /\ tDead t = false.
Definition stalled (j : nat) (tr : list sev) : Prop := XDrain j ∉ tr /\ XDie j ∉ tr /\ XLate j ∉ tr.
Lemma stuck_step j s e s' : stuck j s -> e <> XDrain j -> e <> XDie j -> e <> XLate j -> sstep s e = Some s' -> stuck j s'.
Proof.
  intros (t & Et & Hf & Hd) H1 H2 H3 E. unfold stuck.
  assert (Hup : forall (f : tun -> tun) k, (k = j -> tFull (f t) = true /\ tDead (f t) = false) -> exists t, alter f k (sTuns s) !! j = Some t /\ tFull t = true /\ tDead t = false).
  { intros f k Hk. destruct (decide (k = j)) as [->|Hn]; [|rewrite list_lookup_alter_ne by done; eauto]. rewrite list_lookup_alter, Et. cbn [fmap option_fmap option_map]. exists (f t). split; [done|by apply Hk]. }
  destruct e as [g|o| |q|ok|order| |k|k|k|k|i|i]; cbn [sstep] in E.
  1, 2, 5, 6, 7: inv_step E; cbn [go sTuns]; eauto.
  - destruct (sPc s); try discriminate E; apply bind_Some in E as (u & Eu & E); destruct (room u) eqn:Er; try discriminate E; injection E as <-; cbn [go upd sTuns]; apply Hup; intros ->; exfalso;
      rewrite Et in Eu; injection Eu as <-; unfold room in Er; rewrite Hf, Hd in Er; discriminate Er.
  - destruct (sPc s); try discriminate E; destruct (_ && _); try discriminate E; apply bind_Some in E as (u & Eu & E); destruct (room u) eqn:Er; try discriminate E; injection E as <-; cbn [go upd sTuns]; [by exists t|]; apply Hup; intros ->; congruence.
  - injection E as <-. cbn [upd sTuns]. apply Hup. intros ->. cbn. auto.
  - injection E as <-. cbn [upd sTuns]. apply Hup. intros ->. congruence.
  - injection E as <-. cbn [upd sTuns]. apply Hup. intros ->. congruence.
  - apply bind_Some in E as (u & Eu & E). case_match; [|discriminate E]. injection E as <-. cbn [upd sTuns]. apply Hup. intros ->. cbn. auto.
  - case_bool_decide; [discriminate E|]. injection E as <-. eauto.
  - case_bool_decide; [discriminate E|]. injection E as <-. eauto.
Qed.
Lemma stuck_run j tr : forall s s', stuck j s -> stalled j tr -> srun s tr = Some s' -> stuck j s'.
Proof.
  induction tr as [|e tr IH]; intros s s' Hs (Ha & Hb & Hc) H; cbn [srun] in H; [by injection H as <-|]. apply bind_Some in H as (s1 & E & H). apply not_elem_of_cons in Ha as [Ha1 Ha], Hb as [Hb1 Hb], Hc as [Hc1 Hc].
  apply (IH s1); [eapply stuck_step; eauto|by split|done].
Qed.
Theorem C101_stalled_refuted n l i j tr s : Forall (fun x => x.1 < n) l -> l !! j = Some (i, true) -> srun (sst0 false n l) tr = Some s -> XDrain j ∉ tr -> XDie j ∉ tr -> sPc s <> SDone.
Proof.
  intros Hl Hj H Hs1 Hs2 Hd.
  assert (Hlate : forall tr s s', sTimed s = false -> srun s tr = Some s' -> XLate j ∉ tr).
  { clear. induction tr as [|e tr IH]; intros s s' Hm H; [apply not_elem_of_nil|]. cbn [srun] in H. apply bind_Some in H as (s1 & E & H). apply not_elem_of_cons. split.
    - intros <-. cbn [sstep] in E. rewrite Hm in E. cbn [andb] in E. destruct (sPc s); discriminate E.
    - apply (IH s1 s'); [|done]. apply step_size in E as [-> _]. done. }
  assert (St : stuck j s).
  { eapply stuck_run; [|split; [exact Hs1|split; [exact Hs2|eapply Hlate; [|exact H]; done]]|exact H]. exists (mkT i true false true false). cbn [sst0 sTuns]. rewrite list_lookup_fmap, Hj. done. }
  destruct St as (t & Et & _ & Hn). destruct (C101_all_closed false n l tr s Hl H Hd j t Et) as [? _]. congruence.
Qed.
(* and while the server writes to such a tunnel, up to the deadline if there is one, nothing else of the stopping is done: no other client is told, no other tunnel is closed by the server; and the client's visitors
   wait, its tunnels that end stay in the table, and a ping stops its other tunnels too. *)
Theorem C101_meanwhile_refuted s j t tr s' : writing s = Some j -> sTuns s !! j = Some t -> tFull t = true -> tDead t = false -> srun s tr = Some s' -> stalled j tr ->
  sPc s' = sPc s /\ (forall k u u', sTuns s !! k = Some u -> sTuns s' !! k = Some u' -> tTold u' = tTold u /\ (tDead u' = true -> tDead u = true \/ XDie k ∈ tr)) /\
  (forall i, locked s = Some i -> XVisitor i ∉ tr /\ XPing i ∉ tr /\ forall k u, sTuns s !! k = Some u -> tOwn u = i -> XGone k ∉ tr).
Proof.
  intros Hw Ht Hf Hd. assert (Hst : stuck j s) by (exists t; done). clear t Ht Hf Hd. revert s Hw Hst. induction tr as [|e tr IH]; intros s Hw Hst H Hs; cbn [srun] in H.
  { injection H as <-. split; [done|]. split; [intros k u u' E1 E2; rewrite E1 in E2; injection E2 as <-; auto|]. intros i _. split; [by intros ?%elem_of_nil|]. split; [by intros ?%elem_of_nil|]. by intros k u _ _ ?%elem_of_nil. }
  apply bind_Some in H as (s1 & E & H). destruct Hs as (Ha & Hb & Hc). apply not_elem_of_cons in Ha as [Ha1 Ha], Hb as [Hb1 Hb], Hc as [Hc1 Hc]. pose proof (stuck_step _ _ _ _ Hst ltac:(done) ltac:(done) ltac:(done) E) as Hst1.
  assert (K : sPc s1 = sPc s /\ (forall k u, sTuns s !! k = Some u -> exists u', sTuns s1 !! k = Some u' /\ tOwn u' = tOwn u /\ tTold u' = tTold u /\ (tDead u' = true -> tDead u = true \/ e = XDie k)) /\
              (forall i, locked s = Some i -> e <> XVisitor i /\ e <> XPing i /\ forall k u, sTuns s !! k = Some u -> tOwn u = i -> e <> XGone k)).
  { destruct Hst as (t & Et & Hf & Hd).
    assert (Hup : forall (f : tun -> tun) m, (forall u, sTuns s !! m = Some u -> tOwn (f u) = tOwn u /\ tTold (f u) = tTold u /\ (tDead (f u) = true -> tDead u = true \/ e = XDie m)) ->
       forall k u, sTuns s !! k = Some u -> exists u', alter f m (sTuns s) !! k = Some u' /\ tOwn u' = tOwn u /\ tTold u' = tTold u /\ (tDead u' = true -> tDead u = true \/ e = XDie k)).
    { intros f m Hm k u Ek. destruct (decide (m = k)) as [->|Hn]; [|rewrite list_lookup_alter_ne by done; eauto 10]. rewrite list_lookup_alter, Ek. cbn [fmap option_fmap option_map]. exists (f u). split; [done|by apply Hm]. }
    unfold writing in Hw. destruct e as [g|o| |q|ok|order| |m|m|m|m|i|i]; cbn [sstep] in E.
    1, 2, 5, 6, 7: destruct (sPc s); discriminate.
    - exfalso. destruct (sPc s); try discriminate Hw; injection Hw as ->; rewrite Et in E; cbn [mbind option_bind] in E; unfold room in E; rewrite Hf, Hd in E; discriminate E.
    - exfalso. destruct (sPc s); try discriminate Hw; injection Hw as ->; destruct (sTimed s); cbn [andb] in E; try discriminate E; destruct (Nat.eqb_spec q j); try discriminate E; congruence.
    - injection E as <-. split; [done|]. split; [|by intros i _]. apply Hup. cbn. auto.
    - injection E as <-. split; [done|]. split; [|by intros i _]. apply Hup. cbn. auto.
    - injection E as <-. split; [done|]. split; [|by intros i _]. apply Hup. cbn. auto.
    - apply bind_Some in E as (v & Ev & E). destruct (tDead v) eqn:Edv; cbn [andb] in E; [|discriminate E]. case_bool_decide as Hlk; [discriminate E|]. injection E as <-. split; [done|]. split; [apply Hup; cbn; auto|].
      intros i Hi. split; [done|]. split; [done|]. intros k u Ek Ho [= ->]. rewrite Ev in Ek. injection Ek as ->. cbn [negb] in Hlk. congruence.
    - case_bool_decide as Hlk; [discriminate E|]. injection E as <-. split; [done|]. split; [intros k u Ek; eauto 10|]. intros i' Hi. split; [congruence|done].
    - case_bool_decide as Hlk; [discriminate E|]. injection E as <-. split; [done|]. split; [intros k u Ek; eauto 10|]. intros i' Hi. split; [done|]. split; [congruence|done]. }
  destruct K as (K1 & K2 & K3). assert (Hw1 : writing s1 = Some j) by (unfold writing in *; by rewrite K1). destruct (IH s1 Hw1 Hst1 H (conj Ha (conj Hb Hc))) as (H1 & H2 & H3).
  split; [congruence|]. split.
  - intros k u u' Ek Ek'. destruct (K2 _ _ Ek) as (v & Ev & V1 & V2 & V3). destruct (H2 _ _ _ Ev Ek') as [W1 W2]. split; [congruence|]. intros Hx. rewrite elem_of_cons. destruct (W2 Hx) as [Hy|Hy]; [|auto]. destruct (V3 Hy); auto.
  - intros i Hi. destruct (K3 _ Hi) as (L1 & L3 & L2). assert (Hi1 : locked s1 = Some i) by (unfold locked in *; by rewrite K1). destruct (H3 _ Hi1) as (M1 & M3 & M2). split; [|split].
    + rewrite not_elem_of_cons. auto.
    + rewrite not_elem_of_cons. auto.
    + intros k u Ek Ho. rewrite not_elem_of_cons. destruct (K2 _ _ Ek) as (v & Ev & V1 & _). split; [intros Hy; by apply (L2 _ _ Ek Ho)|]. apply (M2 _ _ Ev). congruence.
Qed.
(* With n clients of one tunnel each, the first stalled, that is where both ways of stopping end; *)
Theorem C101_first_refuted tm n graceful : let l := (0, true) :: ((fun i => (S i, false)) <$> seq 0 n) in
  exists tr s, srun (sst0 tm (S n) l) tr = Some s /\ stalled 0 tr /\ XStop graceful ∈ tr /\ writing s = Some 0 /\ locked s = Some 0 /\ (forall j t, sTuns s !! j = Some t -> tTold t = false /\ tDead t = false).
Proof.
  intros l. assert (Ht : forall pc, table (go pc (sst0 tm (S n) l)) 0 = [0]).
  { intros pc. apply Permutation_singleton_r, NoDup_Permutation; [apply table_nodup|apply NoDup_singleton|]. intros j. rewrite in_table, elem_of_list_singleton. split.
    - intros (t & Et & Ho & _). cbn [go sst0 sTuns] in Et. apply list_lookup_fmap_Some in Et as ([i b] & Ei & ->). cbn in Ho. subst i. destruct j as [|j]; [done|]. exfalso. cbn in Ei. apply list_lookup_fmap_Some in Ei as (m & _ & [=]).
    - intros ->. by eexists. }
  assert (Hx : forall pc j t, sTuns (go pc (sst0 tm (S n) l)) !! j = Some t -> tTold t = false /\ tDead t = false).
  { intros pc j t H. cbn [go sst0 sTuns] in H. apply list_lookup_fmap_Some in H as (x & _ & ->). done. }
  destruct graceful.
  - exists [XStop true; XRec (Some 0)]. exists (go (SRecW 0 0) (sst0 tm (S n) l)). split.
    + cbn [srun sstep sst0 sPc mbind option_bind go sN]. change (S n <=? 0) with false. cbn match. rewrite bool_decide_eq_true_2; [done|]. change (0 ∈ table (go (SRec 0) (sst0 tm (S n) l)) 0). rewrite Ht. by left.
    + split; [|split; [by left|split; [done|split; [done|apply Hx]]]]. split_and!; intros H; repeat (apply elem_of_cons in H as [H|H]; [discriminate H|]); by apply elem_of_nil in H.
  - exists [XStop false; XLock [0]; XNext]. exists (go (SClW 0 0 []) (sst0 tm (S n) l)). split.
    + cbn [srun sstep sst0 sPc mbind option_bind go sN]. change (S n <=? 0) with false. cbn match. rewrite bool_decide_eq_true_2; [done|]. change (same [0] (table (go (SCl 0) (sst0 tm (S n) l)) 0)). rewrite Ht. apply same_refl. apply NoDup_singleton.
    + split; [|split; [by left|split; [done|split; [done|apply Hx]]]]. split_and!; intros H; repeat (apply elem_of_cons in H as [H|H]; [discriminate H|]); by apply elem_of_nil in H.
Qed.
(* and Shutdown tells a client by one of its tunnels only: if that one has ended, the client is not told. *)
Theorem C101_untold_refuted : exists s, srun (sst0 false 1 [(0, false); (0, false)]) [XDie 0; XStop true; XRec (Some 0); XWrote; XRec None] = Some s /\ sPc s = SWait 0 /\
  (exists t, sTuns s !! 1 = Some t /\ tDead t = false /\ tFull t = false /\ tTold t = false) /\ (exists t, sTuns s !! 0 = Some t /\ tTold t = false).
Proof. eexists. split; [reflexivity|]. cbn. eauto 10. Qed.

(* two clients, three tunnels, one of which ends by itself: the server stops; so it does when a stalled tunnel dies *)
Theorem C101_witness :
  (exists s, srun (sst0 true 2 [(0, false); (1, false); (0, false)])
     [XStop true; XRec (Some 2); XWrote; XVisitor 0; XRec (Some 1); XWrote; XRec None; XRound false; XDie 0; XGone 0; XRound true; XLock [2]; XNext; XWrote; XNext; XLock [1]; XNext; XWrote; XNext; XLock []] = Some s /\ sPc s = SDone) /\
  (exists s, srun (sst0 false 1 [(0, true)]) [XStop false; XLock [0]; XNext; XDie 0; XWrote; XNext; XLock []] = Some s /\ sPc s = SDone) /\
  (exists s, srun (sst0 false 1 [(0, true)]) [XStop false; XLock [0]; XNext; XDrain 0; XWrote; XNext; XGone 0; XLock []] = Some s /\ sPc s = SDone /\ tTold <$> sTuns s !! 0 = Some true).
Proof. split_and!; eexists; (split; [vm_compute; reflexivity|]); done. Qed.
