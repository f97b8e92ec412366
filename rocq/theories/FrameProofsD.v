(* FrameProofsD.v -- what is delivered over a whole run, and the loops as reader programs *)
From Verif Require Import GoBase GoBaseLemmas BufioModel BufioProofs HandshakeModel HandshakeProofs FrameModel FrameSpec FrameProofs FrameProofsC.
Local Open Scope N_scope.

(* ---- peeks ---- *)
Ltac pk := repeat first
  [ exact I
  | apply peeks_ok_peekd; [lia|intros; exact I|intros ? ?]
  | match goal with |- peeks_ok _ (if ?b then _ else _) => destruct b end
  | match goal with |- peeks_ok _ (match ?x with None => _ | Some _ => _ end) => destruct x end
  | match goal with |- peeks_ok _ (match ?x with inl _ => _ | inr _ => _ end) => destruct x end
  | match goal with |- peeks_ok _ (match ?x with (_, _) => _ end) => destruct x end
  | match goal with |- peeks_ok _ (match ?x with EEOF => _ | _ => _ end) => destruct x end ].

Lemma srv_iter_peeks cap deadline env st : 4 <= cap -> peeks_ok cap (srv_iter deadline env st).
Proof.
  intros Hc. unfold srv_iter. cbv zeta. pk.
  all: cbn [peeks_ok]; intros [[[o n] e] w] || intros [c e]; pk.
  all: cbn [peeks_ok]; intros [c e']; pk.
Qed.
Lemma srv_loop_peeks cap deadline envs st : 4 <= cap -> peeks_ok cap (srv_loop deadline envs st).
Proof.
  intros Hc. revert st. induction envs as [|env envs IH]; intros st; cbn [srv_loop]; [exact I|].
  apply peeks_ok_bind; [by apply srv_iter_peeks|]. intros [[c ev]|[why ev]]; [|exact I].
  apply peeks_ok_bind; [apply IH|]. intros [o evs]. exact I.
Qed.
Lemma cli_after_peeks cap st ev n re : peeks_ok cap (cli_after st ev n re).
Proof. unfold cli_after. destruct re; [exact I|]. destruct (0 <? n); [|exact I]. intros [c [e|]]; exact I. Qed.
Lemma cli_service_data_peeks cap env st t s l : 4 <= cap -> peeks_ok cap (cli_service_data env st t s l).
Proof.
  intros Hc. unfold cli_service_data. cbv zeta.
  assert (Hnormal : peeks_ok cap (match ce_dial env s with
    | None => cli_after st [CDialFail t] l None
    | Some w =>
        if 0 <? l then
          PCopy l w (fun '(o, n', e, w') =>
            cli_after (with_tasks st (<[t := w']> (cTasks st))) [CNew t s; CDeliver t o] n' (read_err e))
        else cli_after (with_tasks st (<[t := w]> (cTasks st))) [CNew t s] l None
    end)).
  { destruct (ce_dial env s); [|apply cli_after_peeks]. destruct (0 <? l); [|apply cli_after_peeks].
    intros [[[o' n] e] w']. apply cli_after_peeks. }
  destruct (0 <? l); [|exact Hnormal]. cbn [peeks_ok]. split; [lia|]. intros d e Hd.
  destruct e; [exact I|]. destruct (_ =? _); [|exact Hnormal].
  destruct (ce_stuns env); [|apply cli_after_peeks]. destruct (ce_newpeer env); [|apply cli_after_peeks].
  intros [[[o' n] e] w']. apply cli_after_peeks.
Qed.
Lemma cli_data_peeks cap env st t l : peeks_ok cap (cli_data env st t l).
Proof.
  unfold cli_data. destruct (_ !! _).
  - intros [[[o' n] e] w']. apply cli_after_peeks.
  - destruct (ce_peer env t); [|apply cli_after_peeks]. destruct (ce_stuns env); [|apply cli_after_peeks].
    intros [[[o' n] e] w']. apply cli_after_peeks.
Qed.
Lemma cli_iter_peeks cap env st : 4 <= cap -> peeks_ok cap (cli_iter env st).
Proof.
  intros Hc. unfold cli_iter. cbv zeta. cbn [peeks_ok]. split; [done|]. intros d e Hd.
  destruct e as [[]|]; try exact I; [destruct (ce_ping_ok env); exact I|].
  cbn [peeks_ok]. intros [c [e|]]; [exact I|].
  match goal with |- context [pbind ?m _] => set (TF := m) end.
  assert (Htf : peeks_ok cap TF).
  { unfold TF. apply peeks_ok_peekd; [lia|intros; exact I|]. intros ob Hob.
    destruct (_ =? OpServicesData).
    - apply peeks_ok_peekd; [lia|intros; exact I|]. intros ib Hib. destruct (cSvcs _); [|exact I].
      destruct (_ <=? _); [exact I|]. destruct (nnth _ _); [|exact I].
      apply peeks_ok_peekd; [lia|intros; exact I|]. intros lb Hlb. by apply cli_service_data_peeks.
    - destruct (_ =? OpData).
      + apply peeks_ok_peekd; [lia|intros; exact I|]. intros lb Hlb. apply cli_data_peeks.
      + destruct (_ =? OpClose); [|exact I]. destruct (_ !! _); exact I. }
  destruct (_ =? PingSignal); [destruct (_ && _); [exact I|]; destruct (_ <=? _); exact I|].
  destruct (_ =? CloseSignal); [destruct (cClosing _); [exact I|]; destruct (bool_decide _); exact I|].
  destruct (_ =? ReconnectSignal); [apply peeks_ok_bind; [exact Htf|]; intros [[? ?]|[? ?]]; exact I|].
  destruct (_ =? ReadySignal); [exact I|]. destruct (_ =? ServicesSignal); [exact I|].
  destruct (_ =? ErrorSignal); [pk|]. destruct (_ =? InfoSignal); [pk|]. exact Htf.
Qed.
Lemma cli_loop_peeks cap envs st : 4 <= cap -> peeks_ok cap (cli_loop envs st).
Proof.
  intros Hc. revert st. induction envs as [|env envs IH]; intros st; cbn [cli_loop]; [exact I|].
  destruct (_ <? _)%Z; [exact I|].
  apply peeks_ok_bind; [by apply cli_iter_peeks|]. intros [[c ev]|[why ev]]; [|exact I].
  apply peeks_ok_bind; [apply IH|]. intros [o evs]. exact I.
Qed.

(* ---- capacities ---- *)
Lemma w_take_app w p q : w_take w (p ++ q) = w_take w p ++ w_take (w_after w p) q.
Proof.
  destruct w as [k|]; [|done]. unfold w_take, w_after. destruct (decide (k <= blen p)) as [H|H].
  - unfold ntake, blen in *. rewrite take_app_le by lia. replace (N.to_nat (k - N.of_nat (length p))) with 0%nat by lia.
    cbn [take]. by rewrite app_nil_r.
  - unfold ntake, blen in *. rewrite take_app_ge by lia. rewrite (take_ge p) by lia. f_equal. f_equal. lia.
Qed.
Lemma w_take_prefix w p : w_take w p `prefix_of` p.
Proof. destruct w as [k|]; [|done]. unfold w_take, ntake. exists (drop (N.to_nat k) p). symmetry. apply take_drop. Qed.
Lemma w_take_nil w : w_take w [] = [].
Proof. destruct w as [k|]; [|done]. unfold w_take, ntake. apply take_nil. Qed.
Lemma w_take_0 p : w_take (Some 0) p = [].
Proof. done. Qed.
Lemma w_after_0 p : w_after (Some 0) p = Some 0.
Proof. unfold w_after. f_equal; lia. Qed.
Lemma w_after_app w p q : w_after w (p ++ q) = w_after (w_after w p) q.
Proof. destruct w as [k|]; [|done]. unfold w_after. rewrite blen_app. f_equal. lia. Qed.

(* a task that is gone or whose connection failed stays so *)
Definition dead (x : option wcap) : Prop := x = None \/ x = Some (Some 0).
Lemma acts_dead t l (m : ttable) : only_stops t l -> dead (m !! t) -> dead (acts l m !! t).
Proof.
  unfold acts. revert m. induction l as [|a l IH]; intros m H Hd; [done|].
  apply Forall_cons_1 in H as [Ha H]. cbn [fold_left]. apply IH; [done|]. clear IH H.
  destruct (decide (act_task a = t)) as [Ht|Ht].
  - destruct Ha as [Ha|[->| ->]]; [done|..].
    + left. cbn. apply lookup_delete.
    + cbn. destruct Hd as [Hd|Hd]; rewrite Hd; [by left|]. right. apply lookup_insert.
  - destruct a as [t' w|t'|t' w]; cbn [act1 act_task] in *.
    + by rewrite lookup_insert_ne.
    + by rewrite lookup_delete_ne.
    + destruct (m !! t'); [|done]. by rewrite lookup_insert_ne.
Qed.
Lemma acts_stops t l (m : ttable) : only_stops t l -> acts l m !! t = m !! t \/ dead (acts l m !! t).
Proof.
  unfold acts. revert m. induction l as [|a l IH]; intros m H; [by left|].
  apply Forall_cons_1 in H as [Ha H]. cbn [fold_left].
  destruct (decide (act_task a = t)) as [Ht|Ht].
  - right. apply (acts_dead t l); [done|]. destruct Ha as [Ha|[->| ->]]; [done|..].
    + left. cbn. apply lookup_delete.
    + cbn. destruct (m !! t) eqn:Hm; [|by left]. right. apply lookup_insert.
  - destruct (IH (act1 m a) H) as [->|Hd]; [|by right]. left.
    destruct a as [t' w|t'|t' w]; cbn [act1 act_task] in *.
    + by rewrite lookup_insert_ne.
    + by rewrite lookup_delete_ne.
    + destruct (m !! t'); [|done]. by rewrite lookup_insert_ne.
Qed.

(* ---- server ---- *)
Lemma srv_effect_ne t env st f : frame_task f <> Some t ->
  sTasks (fst (srv_effect env st f)) !! t = acts (se_acts env) (sTasks st) !! t /\
  s_delivered t (snd (srv_effect env st f)) = [].
Proof.
  intros Hf. unfold srv_effect. destruct f as [t' si p|t' p|t'|sg|c|si|si port]; cbn [frame_task] in Hf; try done.
  - destruct (acts _ _ !! t'); [|done]. cbn. split.
    + rewrite lookup_insert_ne by congruence. done.
    + unfold s_delivered. cbn. rewrite decide_False by congruence. done.
  - destruct (acts _ _ !! t'); [|done]. cbn. split; [|done].
    rewrite lookup_insert_ne by congruence. done.
Qed.
Lemma srv_effect_dead t env st f : dead (acts (se_acts env) (sTasks st) !! t) ->
  dead (sTasks (fst (srv_effect env st f)) !! t) /\ s_delivered t (snd (srv_effect env st f)) = [].
Proof.
  intros Hd. destruct (decide (frame_task f = Some t)) as [Hf|Hf].
  - unfold srv_effect. destruct f as [t' si p|t' p|t'|sg|c|si|si port]; cbn [frame_task] in Hf; try done;
      injection Hf as ->.
    + destruct Hd as [Hd|Hd]; rewrite Hd; cbn [fst snd sTasks].
      * split; [|done]. left. done.
      * rewrite w_after_0, w_take_0, lookup_insert. split; [by right|]. apply s_delivered_self.
    + destruct Hd as [Hd|Hd]; rewrite Hd; cbn [fst snd sTasks].
      * split; [|done]. left. done.
      * rewrite lookup_insert. split; [by right|]. done.
  - destruct (srv_effect_ne t env st f Hf) as [-> ->]. done.
Qed.
Lemma srv_effects_cons_delivered t env envs st f fs :
  s_delivered t (snd (srv_effects (env :: envs) st (f :: fs))) =
  s_delivered t (snd (srv_effect env st f)) ++ s_delivered t (snd (srv_effects envs (fst (srv_effect env st f)) fs)).
Proof.
  cbn [srv_effects]. destruct (srv_effect env st f) as [st' ev]. cbn [fst snd].
  destruct (srv_effects envs st' fs) as [st'' evs]. cbn [snd]. apply s_delivered_app.
Qed.
Lemma srv_dead t : forall envs st fs, Forall (fun e => only_stops t (se_acts e)) envs ->
  dead (sTasks st !! t) -> s_delivered t (snd (srv_effects envs st fs)) = [].
Proof.
  induction envs as [|env envs IH]; intros st [|f fs] Ha Hd; try done.
  apply Forall_cons_1 in Ha as [Ha1 Ha]. rewrite srv_effects_cons_delivered.
  destruct (srv_effect_dead t env st f) as [Hd' ->]; [by apply acts_dead|]. by apply IH.
Qed.
Lemma frames_of_cons t f fs : frames_of t (f :: fs) = if decide (frame_task f = Some t) then f :: frames_of t fs else frames_of t fs.
Proof. unfold frames_of. rewrite filter_cons. done. Qed.
Lemma leaves_only t l : leaves_alone t l -> only_stops t l.
Proof. intros H. eapply Forall_impl; [exact H|]. cbn. auto. Qed.

Lemma srv_deliver_cap t tl : (tl = [] \/ tl = [FClose t]) -> forall envs st fs ps w,
  Forall (fun e => leaves_alone t (se_acts e)) envs -> length envs = length fs ->
  sTasks st !! t = Some w -> frames_of t fs = map (FData t) ps ++ tl ->
  s_delivered t (snd (srv_effects envs st fs)) = w_take w (concat ps).
Proof.
  intros Htl. induction envs as [|env envs IH]; intros st [|f fs] ps w Ha Hl Ht Hfs; try done.
  { destruct ps; [|done]. rewrite w_take_nil. done. }
  apply Forall_cons_1 in Ha as [Ha1 Ha]. rewrite srv_effects_cons_delivered.
  pose proof (acts_alone t (se_acts env) (sTasks st) Ha1) as Hm. rewrite Ht in Hm.
  rewrite frames_of_cons in Hfs. case_decide as Hft.
  - destruct ps as [|p ps].
    + destruct Htl as [->| ->]; [done|]. cbn [map app] in Hfs. injection Hfs as -> Hrest.
      unfold srv_effect. rewrite Hm. cbn [fst snd].
      rewrite srv_dead; [by rewrite w_take_nil| |].
      * eapply Forall_impl; [exact Ha|]. intros. by apply leaves_only.
      * right. apply lookup_insert.
    + cbn [map app] in Hfs. injection Hfs as -> Hrest. unfold srv_effect. rewrite Hm. cbn [fst snd].
      rewrite s_delivered_self. cbn [concat]. rewrite w_take_app. f_equal.
      apply IH; [done|cbn in Hl; lia| |done]. cbn. apply lookup_insert.
  - destruct (srv_effect_ne t env st f Hft) as [Hs ->]. cbn [app].
    apply IH; [done|cbn in Hl; lia| |done]. rewrite Hs. done.
Qed.
Lemma srv_deliver_prefix t : forall envs st fs ps,
  Forall (fun e => only_stops t (se_acts e)) envs ->
  frames_of t fs `prefix_of` map (FData t) ps ++ [FClose t] ->
  s_delivered t (snd (srv_effects envs st fs)) `prefix_of` concat ps.
Proof.
  induction envs as [|env envs IH]; intros st [|f fs] ps Ha Hfs; try (apply prefix_nil).
  apply Forall_cons_1 in Ha as [Ha1 Ha]. rewrite srv_effects_cons_delivered.
  rewrite frames_of_cons in Hfs. case_decide as Hft.
  - destruct ps as [|p ps].
    + cbn [map app] in Hfs. apply prefix_cons_inv_1 in Hfs as Hff. subst f. apply prefix_cons_inv_2 in Hfs.
      unfold srv_effect. destruct (acts (se_acts env) (sTasks st) !! t) as [w|] eqn:Hm; cbn [fst snd].
      * rewrite srv_dead; [done|done|]. right. apply lookup_insert.
      * rewrite srv_dead; [done|done|]. by left.
    + cbn [map app] in Hfs. apply prefix_cons_inv_1 in Hfs as Hff. subst f. apply prefix_cons_inv_2 in Hfs.
      unfold srv_effect. destruct (acts (se_acts env) (sTasks st) !! t) as [w|] eqn:Hm; cbn [fst snd].
      * rewrite s_delivered_self. cbn [concat].
        destruct w as [k|].
        -- destruct (decide (k < blen p)) as [Hk|Hk].
           ++ rewrite srv_dead; [|done|cbn [sTasks]; rewrite lookup_insert; right; by rewrite w_after_some].
              rewrite app_nil_r. apply prefix_app_r, w_take_prefix.
           ++ rewrite w_take_some by lia. apply prefix_app. by apply IH.
        -- apply prefix_app. by apply IH.
      * rewrite srv_dead; [apply prefix_nil|done|]. by left.
  - destruct (srv_effect_ne t env st f Hft) as [_ ->]. cbn [app]. by apply IH.
Qed.

(* ---- client ---- *)
Lemma c_delivered_app t a b : c_delivered t (a ++ b) = c_delivered t a ++ c_delivered t b.
Proof. unfold c_delivered. rewrite map_app, concat_app. done. Qed.
Lemma c_delivered_self t p : c_delivered t [CDeliver t p] = p.
Proof. unfold c_delivered. cbn. rewrite decide_True by done. apply app_nil_r. Qed.
Lemma c_delivered_ne t t' p : t' <> t -> c_delivered t [CDeliver t' p] = [].
Proof. intros. unfold c_delivered. cbn. rewrite decide_False by done. done. Qed.
Lemma cli_effects_cons env envs st f fs :
  snd (cli_effects (env :: envs) st (f :: fs)) =
  snd (cli_effect env st f) ++ snd (cli_effects envs (fst (cli_effect env st f)) fs).
Proof.
  cbn [cli_effects]. destruct (cli_effect env st f) as [st' ev]. cbn [fst snd].
  destruct (cli_effects envs st' fs) as [st'' evs]. done.
Qed.
Definition c_other (t : N) (e : cevent) : Prop :=
  match e with CNew t' _ | CDialFail t' | CDeliver t' _ | CPeer t' _ | CForbidden t' | CCloseTask t' => t' <> t | _ => True end.
Ltac ne_close := cbn [fst snd cTasks]; split; [done|]; first [by apply Forall_nil_2 | by repeat constructor | by apply Forall_singleton].
Lemma cli_effect_ne t env st f : server_frame env st f -> frame_task f <> Some t ->
  cTasks (fst (cli_effect env st f)) !! t = acts (ce_acts env) (cTasks st) !! t /\
  Forall (c_other t) (snd (cli_effect env st f)).
Proof.
  intros Hs Hf. unfold cli_effect. destruct f as [t' si p|t' p|t'|sg|c|si|si port]; cbn [frame_task] in Hf.
  - assert (t' <> t) by congruence.
    destruct (cSvcs st) as [l|]; [|ne_close]. destruct (nnth si l); [|ne_close]. destruct (is_p2p p).
    + destruct (ce_stuns env); [|ne_close].
      destruct (ce_newpeer env); ne_close.
    + destruct (ce_dial env s); [|ne_close]. cbn [fst snd cTasks].
      rewrite lookup_insert_ne by done. split; [done|]. case_decide; by repeat constructor.
  - assert (t' <> t) by congruence. destruct (acts _ _ !! t'); cbn [fst snd cTasks].
    + rewrite lookup_insert_ne by done. ne_close.
    + destruct (ce_peer env t'); [|ne_close]. destruct (ce_stuns env); ne_close.
  - assert (t' <> t) by congruence. destruct (acts _ _ !! t'); cbn [fst snd cTasks].
    + rewrite lookup_insert_ne by done. ne_close.
    + ne_close.
  - destruct (sg =? _).
    + destruct (_ <=? _); [|ne_close]. destruct (ce_wait env); ne_close.
    + destruct (sg =? _); ne_close.
  - by destruct Hs as (_ & _ & ?).
  - by destruct Hs as (_ & _ & ?).
  - ne_close.
Qed.
Lemma c_other_delivered t l : Forall (c_other t) l -> c_delivered t l = [].
Proof.
  induction l as [|e l IH]; intros H; [done|]. apply Forall_cons_1 in H as [He H].
  change (e :: l) with ([e] ++ l). rewrite c_delivered_app, IH by done. destruct e; try done.
  cbn in He. by rewrite c_delivered_ne.
Qed.

Lemma cli_effect_dead t env st f : server_frame env st f -> (forall si p, f <> FServices t si p) ->
  dead (acts (ce_acts env) (cTasks st) !! t) ->
  dead (cTasks (fst (cli_effect env st f)) !! t) /\ c_delivered t (snd (cli_effect env st f)) = [].
Proof.
  intros Hs Hns Hd. destruct (decide (frame_task f = Some t)) as [Hf|Hf].
  - unfold cli_effect. destruct f as [t' si p|t' p|t'|sg|c|si|si port]; cbn [frame_task] in Hf; try done;
      injection Hf as ->.
    + by destruct (Hns si p).
    + destruct Hd as [Hd|Hd]; rewrite Hd.
      * destruct (ce_peer env t); cbn [fst snd cTasks]; (split; [by left|]); [|done]. by destruct (ce_stuns env).
      * cbn [fst snd cTasks]. rewrite w_after_0, w_take_0, lookup_insert. split; [by right|]. apply c_delivered_self.
    + destruct Hd as [Hd|Hd]; rewrite Hd; cbn [fst snd cTasks].
      * split; [|done]. by left.
      * rewrite lookup_insert. split; [by right|]. done.
  - destruct (cli_effect_ne t env st f Hs Hf) as [-> H]. split; [done|]. by apply c_other_delivered.
Qed.
Lemma cli_dead t : forall envs st fs, server_frames envs st fs ->
  Forall (fun e => only_stops t (ce_acts e)) envs ->
  Forall (fun f => forall si p, f <> FServices t si p) (frames_of t fs) ->
  dead (cTasks st !! t) -> c_delivered t (snd (cli_effects envs st fs)) = [].
Proof.
  induction envs as [|env envs IH]; intros st [|f fs] Hs Ha Hns Hd; try done.
  apply Forall_cons_1 in Ha as [Ha1 Ha]. destruct Hs as [Hs1 Hs]. rewrite cli_effects_cons, c_delivered_app.
  rewrite frames_of_cons in Hns.
  destruct (cli_effect_dead t env st f) as [Hd' ->]; [done| |by apply acts_dead|].
  - intros si p ->. cbn [frame_task] in Hns. rewrite decide_True in Hns by done.
    apply Forall_cons_1 in Hns as [Hns _]. by apply (Hns si p).
  - apply IH; try done. case_decide; [by apply Forall_cons_1 in Hns as [_ ?]|done].
Qed.
(* no FServices t among data and close frames *)
Lemma no_services t ps tl fs : (tl = [] \/ tl = [FClose t]) -> fs `prefix_of` map (FData t) ps ++ tl ->
  Forall (fun f => forall si p, f <> FServices t si p) fs.
Proof.
  intros Htl [k Hk]. assert (H : Forall (fun f => forall si p, f <> FServices t si p) (fs ++ k)).
  { rewrite <- Hk. apply Forall_app. split.
    - apply Forall_fmap. apply Forall_true. intros x. done.
    - destruct Htl as [->| ->]; [by apply Forall_nil_2|]. by apply Forall_singleton. }
  by apply Forall_app in H as [? _].
Qed.

Lemma cli_deliver_cap t tl : (tl = [] \/ tl = [FClose t]) -> forall envs st fs ps w, server_frames envs st fs ->
  Forall (fun e => leaves_alone t (ce_acts e)) envs ->
  cTasks st !! t = Some w -> frames_of t fs = map (FData t) ps ++ tl ->
  c_delivered t (snd (cli_effects envs st fs)) = w_take w (concat ps).
Proof.
  intros Htl. induction envs as [|env envs IH]; intros st [|f fs] ps w Hs Ha Ht Hfs; try done.
  { destruct ps; [|done]. rewrite w_take_nil. done. }
  apply Forall_cons_1 in Ha as [Ha1 Ha]. destruct Hs as [Hs1 Hs]. rewrite cli_effects_cons, c_delivered_app.
  pose proof (acts_alone t (ce_acts env) (cTasks st) Ha1) as Hm. rewrite Ht in Hm.
  rewrite frames_of_cons in Hfs. case_decide as Hft.
  - destruct ps as [|p ps].
    + destruct Htl as [->| ->]; [done|]. cbn [map app] in Hfs. injection Hfs as -> Hrest.
      unfold cli_effect in *. rewrite Hm in *. cbn [fst snd] in *.
      rewrite (cli_dead t); [by rewrite w_take_nil|done| |rewrite Hrest; by apply Forall_nil_2|].
      * eapply Forall_impl; [exact Ha|]. intros. by apply leaves_only.
      * right. apply lookup_insert.
    + cbn [map app] in Hfs. injection Hfs as -> Hrest. unfold cli_effect in *. rewrite Hm in *. cbn [fst snd] in *.
      rewrite c_delivered_self. cbn [concat]. rewrite w_take_app. f_equal.
      apply IH; [done|done| |done]. cbn. apply lookup_insert.
  - destruct (cli_effect_ne t env st f Hs1 Hft) as [Hk Ho]. rewrite (c_other_delivered _ _ Ho). cbn [app].
    apply IH; [done|done| |done]. rewrite Hk. done.
Qed.
Lemma cli_deliver_prefix t : forall envs st fs ps, server_frames envs st fs ->
  Forall (fun e => only_stops t (ce_acts e)) envs ->
  frames_of t fs `prefix_of` map (FData t) ps ++ [FClose t] ->
  c_delivered t (snd (cli_effects envs st fs)) `prefix_of` concat ps.
Proof.
  induction envs as [|env envs IH]; intros st [|f fs] ps Hs Ha Hfs; try (apply prefix_nil).
  apply Forall_cons_1 in Ha as [Ha1 Ha]. destruct Hs as [Hs1 Hs]. rewrite cli_effects_cons, c_delivered_app.
  rewrite frames_of_cons in Hfs. case_decide as Hft.
  - destruct ps as [|p ps].
    + cbn [map app] in Hfs. apply prefix_cons_inv_1 in Hfs as Hff. subst f. apply prefix_cons_inv_2 in Hfs.
      assert (Hns : Forall (fun f => forall si p, f <> FServices t si p) (frames_of t fs)).
      { apply (no_services t [] []); [by left|done]. }
      unfold cli_effect in *. destruct (acts (ce_acts env) (cTasks st) !! t) as [w|] eqn:Hm; cbn [fst snd] in *.
      * rewrite (cli_dead t); [done|done|done|done|]. right. apply lookup_insert.
      * rewrite (cli_dead t); [done|done|done|done|]. by left.
    + cbn [map app] in Hfs. apply prefix_cons_inv_1 in Hfs as Hff. subst f. apply prefix_cons_inv_2 in Hfs.
      assert (Hns : Forall (fun f => forall si p, f <> FServices t si p) (frames_of t fs)).
      { apply (no_services t ps [FClose t]); [by right|done]. }
      destruct (acts (ce_acts env) (cTasks st) !! t) as [w|] eqn:Hm.
      * unfold cli_effect in *. rewrite Hm in *. cbn [fst snd] in *.
        rewrite c_delivered_self. cbn [concat].
        destruct w as [k|].
        -- destruct (decide (k < blen p)) as [Hk|Hk].
           ++ rewrite (cli_dead t); [|done|done|done|cbn [cTasks]; rewrite lookup_insert; right; by rewrite w_after_some].
              rewrite app_nil_r. apply prefix_app_r, w_take_prefix.
           ++ rewrite w_take_some by lia. apply prefix_app. by apply IH.
        -- apply prefix_app. by apply IH.
      * destruct (cli_effect_dead t env st (FData t p)) as [Hd ->]; [done|done|by left|].
        rewrite (cli_dead t); [apply prefix_nil|done|done|done|done].
  - destruct (cli_effect_ne t env st f Hs1 Hft) as [_ Ho]. rewrite (c_other_delivered _ _ Ho). cbn [app]. by apply IH.
Qed.
