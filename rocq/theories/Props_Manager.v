(* Props_Manager.v -- C64: worker processes are kept running; C65: a reload has no gap. *)
From Coq Require Import Strings.String.
From Verif Require Import GoBase ManagerModel.
Local Open Scope N_scope.

(* ---- specification ---- *)
(* a task that has a worker or is about to start one *)
Definition active (t : task) : Prop := tSt t = TSpawned \/ tSt t = TRun \/ tSt t = TWait.
(* without signals, and without a worker of configuration c saying that it has shut down *)
Inductive undisturbed (c : nat) (cs : list (nat * nat)) : mgr -> Prop :=
  | u_start : undisturbed c cs (mstart cs)
  | u_step s e s' : undisturbed c cs s -> mstep s e = Some s' -> (forall b, e <> ESignal b) ->
      (forall i t, e = EDone i -> gTasks s !! i = Some t -> tConf t <> c) -> undisturbed c cs s'.
(* without signals *)
Inductive unsignalled (cs : list (nat * nat)) : mgr -> Prop :=
  | us_start : unsignalled cs (mstart cs)
  | us_step s e s' : unsignalled cs s -> mstep s e = Some s' -> (forall b, e <> ESignal b) -> unsignalled cs s'.
Lemma undisturbed_unsignalled c cs s : undisturbed c cs s -> unsignalled cs s.
Proof. induction 1; [constructor|econstructor; eauto]. Qed.

(* ---- lemmas ---- *)
Record minv (s : mgr) : Prop := {
  mi_pid : forall i j t u, gTasks s !! i = Some t -> gTasks s !! j = Some u -> tPid t = tPid u -> i = j;
  mi_next : forall t, t ∈ gTasks s -> (tPid t < gNext s)%nat;
  mi_live1 : gPhase s <> PEnd -> forall t, t ∈ gTasks s -> tSt t = TSpawned \/ tSt t = TRun -> tPid t ∈ gLive s;
  mi_live2 : forall p, p ∈ gLive s -> exists i t, gTasks s !! i = Some t /\ tPid t = p /\ (tSt t = TSpawned \/ tSt t = TRun \/ tSt t = TOut)
}.
Lemma spawned_lookup cs n i t : spawned cs n !! i = Some t <-> exists ck, cs !! i = Some ck /\ t = mkT ck.1 ck.2 (n + i) TSpawned.
Proof. unfold spawned. rewrite list_lookup_imap, fmap_Some. done. Qed.
Lemma minv_start cs : minv (mstart cs).
Proof.
  constructor; cbn [gTasks mstart gNext gLive].
  - intros i j t u Hi Hj. apply spawned_lookup in Hi as (a & _ & ->). apply spawned_lookup in Hj as (b & _ & ->). cbn. lia.
  - intros t Ht. apply elem_of_list_lookup in Ht as [i Hi]. apply spawned_lookup in Hi as (a & Ha & ->). cbn. by apply lookup_lt_Some in Ha.
  - intros _ t Ht _. apply elem_of_list_lookup in Ht as [i Hi]. apply spawned_lookup in Hi as (a & Ha & ->). cbn. apply elem_of_list_to_set, elem_of_seq. apply lookup_lt_Some in Ha. lia.
  - intros p Hp. apply elem_of_list_to_set, elem_of_seq in Hp. destruct (lookup_lt_is_Some_2 cs p) as [ck E]; [lia|].
    exists p, (mkT ck.1 ck.2 p TSpawned). split; [|by eauto]. apply spawned_lookup. by exists ck.
Qed.
Lemma set_task_lookup i st p l j u : set_task i st p l !! j = Some u <->
  (j <> i /\ l !! j = Some u) \/ (j = i /\ exists t, l !! i = Some t /\ u = mkT (tConf t) (tGrp t) p st).
Proof.
  unfold set_task. destruct (decide (j = i)) as [-> |Hn].
  - rewrite list_lookup_alter, fmap_Some. split; [by right|]. intros [[]|[_ ?]]; done.
  - rewrite list_lookup_alter_ne by done. split; [by left|]. intros [[]|[]]; done.
Qed.
Lemma leave_lookup p l j u : leave p l !! j = Some u <->
  exists t, l !! j = Some t /\ ((u = t /\ (tPid t <> p \/ tSt t <> TRun)) \/ (tPid t = p /\ tSt t = TRun /\ u = mkT (tConf t) (tGrp t) p TOut)).
Proof.
  unfold leave. rewrite list_lookup_fmap, fmap_Some. split; intros (t & Ht & H); exists t; (split; [done|]).
  - case_bool_decide; [|left; naive_solver]. destruct (tSt t) eqn:E; subst; naive_solver.
  - case_bool_decide as Hp; [|naive_solver]. destruct (tSt t) eqn:E; naive_solver.
Qed.

Lemma snoc_lookup {A} (l : list A) x i y : (l ++ [x]) !! i = Some y <-> l !! i = Some y \/ (i = length l /\ y = x).
Proof.
  split.
  - intros H. apply lookup_app_Some in H as [H|[Hl H]]; [by left|]. right. apply list_lookup_singleton_Some in H as [? ->]. split; [lia|done].
  - intros [H|[-> ->]]; [rewrite lookup_app_l; [done|by eapply lookup_lt_Some]|]. by rewrite lookup_app_r, Nat.sub_diag by lia.
Qed.

Ltac step_inv H :=
  unfold mstep, on_task in H; cbn [gTasks gPhase] in H.

Lemma minv_step s e s' : minv s -> mstep s e = Some s' -> minv s'.
Proof.
  intros [I1 I2 I3 I4] H. destruct s as [ts mp cnt live told said next ph out]. cbn [gTasks gNext gLive gPhase] in *.
  destruct (decide (is_end ph = true)) as [Hend|Hend].
  { destruct ph; try done. destruct e as [i|i|i|i|i|i|st|[]| | |c| |p]; try done. cbn in H. case_bool_decide; [|done]. injection H as <-.
    constructor; cbn [gTasks gNext gLive gPhase]; [done|done|done|]. intros q Hq. apply elem_of_difference in Hq as [Hq _]. by apply I4. }
  assert (Hph : ph <> PEnd) by (by intros ->). specialize (I3 Hph).
  assert (I2' : forall i t, ts !! i = Some t -> (tPid t < next)%nat) by (intros i t Hi; eapply I2, elem_of_list_lookup_2; done).
  assert (I3' : forall i t, ts !! i = Some t -> tSt t = TSpawned \/ tSt t = TRun -> tPid t ∈ live) by (intros i t Hi; eapply I3, elem_of_list_lookup_2; done).
  (* a task changes its state, keeping its process *)
  assert (Keep : forall i t st mp' cnt' told' said' ph' out', ts !! i = Some t -> (tSt t = TSpawned \/ tSt t = TRun -> st = TRun \/ st = TOut) ->
     tSt t = TSpawned \/ tSt t = TRun -> minv (mkM (set_task i st (tPid t) ts) mp' cnt' live told' said' next ph' out')).
  { intros i t st mp' cnt' told' said' ph' out' Hi Hst Ho. constructor; cbn [gTasks gNext gLive].
    - intros j k a b Ha Hb E. apply set_task_lookup in Ha as [[? Ha]|[-> (a' & Ha & ->)]], Hb as [[? Hb]|[-> (b' & Hb & ->)]]; cbn in E; try done; simplify_eq; by eapply I1.
    - intros a Ha. apply elem_of_list_lookup in Ha as [j Ha]. apply set_task_lookup in Ha as [[? Ha]|[-> (a' & Ha & ->)]]; cbn; [by eapply I2'|by eapply I2'].
    - intros _ a Ha Hs. apply elem_of_list_lookup in Ha as [j Ha]. apply set_task_lookup in Ha as [[? Ha]|[-> (a' & Ha & ->)]]; cbn in *; [by eapply I3'|]. simplify_eq. by eapply I3'.
    - intros p Hp. destruct (I4 p Hp) as (j & u & Hj & Ep & Hs). destruct (decide (j = i)) as [-> |Hn].
      + exists i, (mkT (tConf u) (tGrp u) p st). simplify_eq. split; [apply set_task_lookup; right; eauto|]. split; [done|]. cbn. naive_solver.
      + exists j, u. split; [apply set_task_lookup; by left|done]. }
  (* the process of a task ends *)
  assert (Exit : forall i t st mp' cnt' told' said' ph' out', ts !! i = Some t -> st = TWait \/ st = TEnd ->
     minv (mkM (set_task i st (tPid t) ts) mp' cnt' (live ∖ {[tPid t]}) told' said' next ph' out')).
  { intros i t st mp' cnt' told' said' ph' out' Hi Hst. constructor; cbn [gTasks gNext gLive].
    - intros j k a b Ha Hb E. apply set_task_lookup in Ha as [[? Ha]|[-> (a' & Ha & ->)]], Hb as [[? Hb]|[-> (b' & Hb & ->)]]; cbn in E; try done; simplify_eq; by eapply I1.
    - intros a Ha. apply elem_of_list_lookup in Ha as [j Ha]. apply set_task_lookup in Ha as [[? Ha]|[-> (a' & Ha & ->)]]; cbn; by eapply I2'.
    - intros _ a Ha Hs. apply elem_of_list_lookup in Ha as [j Ha]. apply set_task_lookup in Ha as [[? Ha]|[-> (a' & Ha & ->)]]; cbn in *; [|naive_solver].
      apply elem_of_difference. split; [by eapply I3'|]. rewrite elem_of_singleton. intros E. by assert (j = i) by (by eapply I1).
    - intros p Hp. apply elem_of_difference in Hp as [Hp Hn]. rewrite elem_of_singleton in Hn. destruct (I4 p Hp) as (j & u & Hj & Ep & Hs). destruct (decide (j = i)) as [-> |Hne]; [by simplify_eq|].
      exists j, u. split; [apply set_task_lookup; by left|done]. }
  (* nothing about tasks *)
  assert (Same : forall mp' cnt' told' said' ph' out', minv (mkM ts mp' cnt' live told' said' next ph' out')) by (intros; constructor; done).
  assert (Leave : forall p mp' cnt' told' said' ph' out', minv (mkM (leave p ts) mp' cnt' live told' said' next ph' out')).
  { intros p mp' cnt' told' said' ph' out'. constructor; cbn [gTasks gNext gLive].
    - intros j k a b Ha Hb E. apply leave_lookup in Ha as (a' & Ha & Ca), Hb as (b' & Hb & Cb). eapply I1; [done|done|].
      destruct Ca as [[-> _]|(? & _ & ->)], Cb as [[-> _]|(? & _ & ->)]; cbn in E; congruence.
    - intros a Ha. apply elem_of_list_lookup in Ha as [j Ha]. apply leave_lookup in Ha as (t & Ha & [[-> _]|(<- & _ & ->)]); cbn; by eapply I2'.
    - intros _ a Ha Hs. apply elem_of_list_lookup in Ha as [j Ha]. apply leave_lookup in Ha as (t & Ha & [[-> _]|(<- & _ & ->)]); cbn in *; [by eapply I3'|naive_solver].
    - intros q Hq. destruct (I4 q Hq) as (j & u & Hj & Ep & Hs). destruct (decide (tPid u = p /\ tSt u = TRun)) as [[E1 E2]|E].
      + exists j, (mkT (tConf u) (tGrp u) p TOut). split; [apply leave_lookup; eauto 10|]. split; [cbn; congruence|]. cbn. by eauto.
      + exists j, u. split; [apply leave_lookup; exists u; split; [done|]; left; split; [done|]|done]. destruct (decide (tPid u = p)); [right; naive_solver|by left]. }
  (* a new process *)
  assert (Spawn : forall i t mp' cnt' told' said' ph' out', ts !! i = Some t -> tSt t = TWait -> minv (mkM (set_task i TSpawned next ts) mp' cnt' ({[next]} ∪ live) told' said' (S next) ph' out')).
  { intros i t mp' cnt' told' said' ph' out' Hi Hw. constructor; cbn [gTasks gNext gLive].
    - intros j k a b Ha Hb E. apply set_task_lookup in Ha as [[? Ha]|[-> (a' & Ha & ->)]], Hb as [[? Hb]|[-> (b' & Hb & ->)]]; cbn in E; try done.
      + by eapply I1. + apply I2' in Ha. lia. + apply I2' in Hb. lia.
    - intros a Ha. apply elem_of_list_lookup in Ha as [j Ha]. apply set_task_lookup in Ha as [[? Ha]|[-> (a' & Ha & ->)]]; cbn; [|lia]. apply I2' in Ha. lia.
    - intros _ a Ha Hs. apply elem_of_list_lookup in Ha as [j Ha]. apply set_task_lookup in Ha as [[? Ha]|[-> (a' & Ha & ->)]]; cbn in *; [|set_solver]. apply elem_of_union_r. by eapply I3'.
    - intros p Hp. apply elem_of_union in Hp as [Hp|Hp].
      + apply elem_of_singleton in Hp as ->. exists i, (mkT (tConf t) (tGrp t) next TSpawned). split; [apply set_task_lookup; right; eauto|]. split; [done|]. by left.
      + destruct (I4 p Hp) as (j & u & Hj & Ep & Hs). destruct (decide (j = i)) as [-> |Hne]; [simplify_eq; rewrite Hw in Hs; naive_solver|].
        exists j, u. split; [apply set_task_lookup; by left|done]. }
  destruct e as [i|i|i|i|i|i|st|m| | |c| |p]; step_inv H.
  - destruct (is_end ph); [done|]. destruct (ts !! i) as [t|] eqn:Et; cbn [mbind option_bind] in H; [|done]. destruct (tSt t); try done. case_bool_decide; [done|].
    destruct (cnt !! tGrp t); cbn [mbind option_bind] in H; [|done]. injection H as <-. apply Same.
  - destruct (is_end ph); [done|]. destruct (ts !! i) as [t|] eqn:Et; cbn [mbind option_bind] in H; [|done]. destruct (tSt t) eqn:Es; try done. injection H as <-. apply Keep; auto.
  - destruct (is_end ph); [done|]. destruct (ts !! i) as [t|] eqn:Et; cbn [mbind option_bind] in H; [|done]. destruct (tSt t) eqn:Es; try done. injection H as <-.
    destruct (Keep i t TOut mp (cnt ++ [1]) told said ph out Et) as [K1 K2 K3 K4]; [auto|auto|]. cbn [gTasks gNext gLive gPhase] in *. specialize (K3 Hph).
    constructor; cbn [gTasks gNext gLive].
    + intros j k a b Ha Hb E. apply snoc_lookup in Ha as [Ha|[-> ->]], Hb as [Hb|[-> ->]]; cbn in E; try done.
      * by eapply K1. * apply elem_of_list_lookup_2, K2 in Ha. lia. * apply elem_of_list_lookup_2, K2 in Hb. lia.
    + intros a Ha. apply elem_of_app in Ha as [Ha|Ha]; [apply K2 in Ha; lia|]. apply elem_of_list_singleton in Ha as ->. cbn. lia.
    + intros _ a Ha Hs. apply elem_of_app in Ha as [Ha|Ha]; [apply elem_of_union_r; by apply K3|]. apply elem_of_list_singleton in Ha as ->. cbn. set_solver.
    + intros p Hp. apply elem_of_union in Hp as [Hp|Hp].
      * apply elem_of_singleton in Hp as ->. exists (length (set_task i TOut (tPid t) ts)), (mkT (tConf t) (length cnt) next TSpawned).
        split; [apply snoc_lookup; by right|]. split; [done|by left].
      * destruct (K4 p Hp) as (j & u & Hj & ?). exists j, u. split; [|done]. apply snoc_lookup. by left.
  - destruct (is_end ph); [done|]. destruct (ts !! i) as [t|] eqn:Et; cbn [mbind option_bind] in H; [|done]. destruct (tSt t) eqn:Es; try done; injection H as <-; apply Exit; auto.
  - destruct (is_end ph); [done|]. destruct (ts !! i) as [t|] eqn:Et; cbn [mbind option_bind] in H; [|done]. destruct (tSt t) eqn:Es; try done; injection H as <-. by eapply Spawn.
  - destruct (is_end ph); [done|]. destruct (ts !! i) as [t|] eqn:Et; cbn [mbind option_bind] in H; [|done]. destruct (tSt t) eqn:Es; try done. destruct (is_free ph); [|done]. injection H as <-. apply Keep; auto.
  - destruct ph; try done. injection H as <-. apply Same.
  - destruct m as [c|]; destruct ph; try done.
    + destruct (mp !! c); injection H as <-; apply Same.
    + injection H as <-. apply Same.
  - destruct ph as [| |p []| |]; try done; injection H as <-; [apply Same|apply Leave].
  - destruct ph as [| |p d| |]; try done; injection H as <-; apply Leave.
  - destruct ph; try done. destruct (mp !! c); cbn [mbind option_bind] in H; [|done]. injection H as <-. apply Same.
  - destruct ph; try done. case_bool_decide; [|done]. injection H as <-. apply Same.
  - by destruct ph.
Qed.

Record uinv (s : mgr) : Prop := {
  ui_phase : gPhase s = PRun;
  ui_one : forall i j t u, gTasks s !! i = Some t -> gTasks s !! j = Some u -> active t -> active u -> tConf t = tConf u -> i = j;
  ui_map : forall c p, gMap s !! c = Some p -> p ∈ gLive s -> exists i t, gTasks s !! i = Some t /\ tConf t = c /\ tPid t = p /\ (tSt t = TRun \/ tSt t = TOut);
  ui_told : forall p, p ∈ gTold s -> p ∈ gLive s -> exists i t, gTasks s !! i = Some t /\ tPid t = p /\ tSt t = TOut;
  ui_old : (forall c p, gMap s !! c = Some p -> (p < gNext s)%nat) /\ (forall p, p ∈ gTold s -> (p < gNext s)%nat);
  ui_reg : forall i t, gTasks s !! i = Some t -> tSt t = TRun -> gMap s !! tConf t = Some (tPid t)
}.
Lemma uinv_start cs : NoDup cs.*1 -> uinv (mstart cs).
Proof.
  intros ND. constructor; cbn [gTasks gPhase gMap gTold gNext mstart].
  - done.
  - intros i j t u Hi Hj _ _ E. apply spawned_lookup in Hi as (a & Ha & ->), Hj as (b & Hb & ->). cbn in E.
    eapply NoDup_lookup; [exact ND| |]; rewrite list_lookup_fmap; [by rewrite Ha|by rewrite Hb; cbn; f_equal].
  - intros c p. by rewrite lookup_empty.
  - set_solver.
  - split; [intros c p; by rewrite lookup_empty|set_solver].
  - intros i t Hi. by apply spawned_lookup in Hi as (a & Ha & ->).
Qed.
Lemma uinv_step s e s' : minv s -> uinv s -> mstep s e = Some s' -> (forall b, e <> ESignal b) -> uinv s'.
Proof.
  intros MI [U0 U3 U4 U5 [U6 U7] U8] H Hsig. destruct MI as [I1 I2 I3 I4]. destruct s as [ts mp cnt live told said next ph out].
  cbn [gTasks gNext gLive gPhase gMap gTold] in *. subst ph. specialize (I3 ltac:(done)).
  assert (I2' : forall i t, ts !! i = Some t -> (tPid t < next)%nat) by (intros i t Hi; eapply I2, elem_of_list_lookup_2; done).
  destruct e as [i|i|i|i|i|i|st|[]| | |c| |p]; step_inv H; cbn [is_end is_free] in H; try done; [..|by destruct (Hsig st)];
    (destruct (ts !! i) as [t|] eqn:Et; cbn [mbind option_bind] in H; [|done]); destruct (tSt t) eqn:Es; try done.
  - case_bool_decide; [done|]. destruct (cnt !! tGrp t); cbn [mbind option_bind] in H; [|done]. injection H as <-. constructor; done.
  - (* Done *) injection H as <-. constructor; cbn [gTasks gNext gLive gPhase gMap gTold]; [done| | | |done|].
    + intros j k a b Ha Hb Aa Ab E. apply set_task_lookup in Ha as [[? Ha]|[-> (a' & Ha & ->)]], Hb as [[? Hb]|[-> (b' & Hb & ->)]]; try done; [by eapply U3| |]; exfalso.
      * destruct Ab as [?|[?|?]]; done. * destruct Aa as [?|[?|?]]; done.
    + intros c p Hm Hl. destruct (U4 c p Hm Hl) as (j & u & Hj & E1 & E2 & E3). destruct (decide (j = i)) as [-> |Hn].
      * simplify_eq. exists i, (mkT (tConf t) (tGrp t) (tPid t) TOut). split; [apply set_task_lookup; right; eauto|]. cbn. auto.
      * exists j, u. split; [apply set_task_lookup; by left|done].
    + intros p Hp Hl. destruct (U5 p Hp Hl) as (j & u & Hj & E1 & E2). exists j, u. split; [|done]. apply set_task_lookup. left. split; [|done]. intros ->. congruence.
    + intros j u Hj E. apply set_task_lookup in Hj as [[? Hj]|[-> (b' & Hb & ->)]]; [by eapply U8|done].
  - (* Reconnect *) injection H as <-. constructor; cbn [gTasks gNext gLive gPhase gMap gTold]; [done| | | | |].
    + assert (G : forall j a, (set_task i TOut (tPid t) ts ++ [mkT (tConf t) (length cnt) next TSpawned]) !! j = Some a -> active a ->
         (j <> i /\ ts !! j = Some a) \/ (j = length ts /\ a = mkT (tConf t) (length cnt) next TSpawned)).
      { intros j a Ha Aa. apply snoc_lookup in Ha as [Ha|[-> ->]].
        - left. apply set_task_lookup in Ha as [?|[-> (a' & Ha & ->)]]; [done|]. exfalso. destruct Aa as [?|[?|?]]; done.
        - right. split; [|done]. unfold set_task. by rewrite alter_length. }
      assert (At : active t) by (by right; left).
      intros j k a b Ha Hb Aa Ab E. destruct (G j a Ha Aa) as [[? Ha']|[-> ->]], (G k b Hb Ab) as [[? Hb']|[-> ->]]; try done; [by eapply U3| |]; exfalso; cbn in E.
      * by assert (j = i) by (by eapply U3). * by assert (k = i) by (by eapply U3).
    + intros c p Hm Hl. apply elem_of_union in Hl as [Hl|Hl]; [apply elem_of_singleton in Hl as ->; apply U6 in Hm; lia|].
      destruct (U4 c p Hm Hl) as (j & u & Hj & E1 & E2 & E3). destruct (decide (j = i)) as [-> |Hn].
      * simplify_eq. exists i, (mkT (tConf t) (tGrp t) (tPid t) TOut). split; [apply snoc_lookup; left; apply set_task_lookup; right; eauto|]. cbn. auto.
      * exists j, u. split; [apply snoc_lookup; left; apply set_task_lookup; by left|done].
    + intros p Hp Hl. apply elem_of_union in Hl as [Hl|Hl]; [apply elem_of_singleton in Hl as ->; apply U7 in Hp; lia|].
      destruct (U5 p Hp Hl) as (j & u & Hj & E1 & E2). exists j, u. split; [|done]. apply snoc_lookup; left. apply set_task_lookup. left. split; [|done]. intros ->. congruence.
    + split; [intros c p Hm; apply U6 in Hm; lia|]. intros p Hp. apply U7 in Hp. lia.
    + intros j u Hj E. apply snoc_lookup in Hj as [Hj|[-> ->]]; [|done]. apply set_task_lookup in Hj as [[? Hj]|[-> (b' & Hb & ->)]]; [by eapply U8|done].
  - (* Exit of TRun *) injection H as <-. constructor; cbn [gTasks gNext gLive gPhase gMap gTold]; [done| | | |done|].
    + intros j k a b Ha Hb Aa Ab E. assert (At : active t) by (by right; left).
      apply set_task_lookup in Ha as [[? Ha]|[-> (a' & Ha & ->)]], Hb as [[? Hb]|[-> (b' & Hb & ->)]]; try done; simplify_eq; cbn in E; by eapply U3.
    + intros c p Hm Hl. apply elem_of_difference in Hl as [Hl Hn]. rewrite elem_of_singleton in Hn. destruct (U4 c p Hm Hl) as (j & u & Hj & E1 & E2 & E3).
      exists j, u. split; [|done]. apply set_task_lookup. left. split; [|done]. intros ->. congruence.
    + intros p Hp Hl. apply elem_of_difference in Hl as [Hl Hn]. destruct (U5 p Hp Hl) as (j & u & Hj & E1 & E2). exists j, u. split; [|done].
      apply set_task_lookup. left. split; [|done]. intros ->. congruence.
    + intros j u Hj E. apply set_task_lookup in Hj as [[? Hj]|[-> (b' & Hb & ->)]]; [by eapply U8|done].
  - (* Exit of TOut *) injection H as <-. constructor; cbn [gTasks gNext gLive gPhase gMap gTold]; [done| | | |done|].
    + intros j k a b Ha Hb Aa Ab E. apply set_task_lookup in Ha as [[? Ha]|[-> (a' & Ha & ->)]], Hb as [[? Hb]|[-> (b' & Hb & ->)]]; try done; [by eapply U3| |]; exfalso.
      * destruct Ab as [?|[?|?]]; done. * destruct Aa as [?|[?|?]]; done.
    + intros c p Hm Hl. apply elem_of_difference in Hl as [Hl Hn]. rewrite elem_of_singleton in Hn. destruct (U4 c p Hm Hl) as (j & u & Hj & E1 & E2 & E3).
      exists j, u. split; [|done]. apply set_task_lookup. left. split; [|done]. intros ->. congruence.
    + intros p Hp Hl. apply elem_of_difference in Hl as [Hl Hn]. rewrite elem_of_singleton in Hn. destruct (U5 p Hp Hl) as (j & u & Hj & E1 & E2). exists j, u. split; [|done].
      apply set_task_lookup. left. split; [|done]. intros ->. congruence.
    + intros j u Hj E. apply set_task_lookup in Hj as [[? Hj]|[-> (b' & Hb & ->)]]; [by eapply U8|done].
  - (* Restart *) injection H as <-. constructor; cbn [gTasks gNext gLive gPhase gMap gTold]; [done| | | | |].
    + intros j k a b Ha Hb Aa Ab E. assert (At : active t) by (by right; right).
      apply set_task_lookup in Ha as [[? Ha]|[-> (a' & Ha & ->)]], Hb as [[? Hb]|[-> (b' & Hb & ->)]]; try done; simplify_eq; cbn in E; by eapply U3.
    + intros c p Hm Hl. apply elem_of_union in Hl as [Hl|Hl]; [apply elem_of_singleton in Hl as ->; apply U6 in Hm; lia|].
      destruct (U4 c p Hm Hl) as (j & u & Hj & E1 & E2 & E3). exists j, u. split; [|done]. apply set_task_lookup. left. split; [|done]. intros ->. simplify_eq. destruct E3; congruence.
    + intros p Hp Hl. apply elem_of_union in Hl as [Hl|Hl]; [apply elem_of_singleton in Hl as ->; apply U7 in Hp; lia|].
      destruct (U5 p Hp Hl) as (j & u & Hj & E1 & E2). exists j, u. split; [|done]. apply set_task_lookup. left. split; [|done]. intros ->. congruence.
    + split; [intros c p Hm; apply U6 in Hm; lia|]. intros p Hp. apply U7 in Hp. lia.
    + intros j u Hj E. apply set_task_lookup in Hj as [[? Hj]|[-> (b' & Hb & ->)]]; [by eapply U8|done].
  - (* Insert *) injection H as <-. assert (At : active t) by (by left). constructor; cbn [gTasks gNext gLive gPhase gMap gTold]; [done| | | | |].
    + intros j k a b Ha Hb Aa Ab E.
      apply set_task_lookup in Ha as [[? Ha]|[-> (a' & Ha & ->)]], Hb as [[? Hb]|[-> (b' & Hb & ->)]]; try done; simplify_eq; cbn in E; by eapply U3.
    + intros c p Hm Hl. destruct (decide (c = tConf t)) as [-> |Hc].
      * rewrite lookup_insert in Hm. injection Hm as <-. exists i, (mkT (tConf t) (tGrp t) (tPid t) TRun). split; [apply set_task_lookup; right; eauto|]. cbn. auto.
      * rewrite lookup_insert_ne in Hm by done. destruct (U4 c p Hm Hl) as (j & u & Hj & E1 & E2 & E3). exists j, u. split; [|done].
        apply set_task_lookup. left. split; [|done]. intros ->. simplify_eq.
    + intros p Hp Hl. assert (p ∈ told \/ mp !! tConf t = Some p) as [Hp'|Hm] by (destruct (mp !! tConf t) eqn:Em; [apply elem_of_union in Hp as [Hp|Hp]; [apply elem_of_singleton in Hp as ->; by right|by left]|by left]).
      * destruct (U5 p Hp' Hl) as (j & u & Hj & E1 & E2). exists j, u. split; [|done]. apply set_task_lookup. left. split; [|done]. intros ->. congruence.
      * destruct (U4 _ p Hm Hl) as (j & u & Hj & E1 & E2 & E3). destruct (decide (j = i)) as [-> |Hn]; [simplify_eq; destruct E3; congruence|].
        exists j, u. split; [apply set_task_lookup; by left|]. split; [done|]. destruct E3 as [E3|]; [|done]. exfalso. apply Hn. eapply U3; [done|done|by right; left|done|done].
    + split.
      * intros c p Hm. destruct (decide (c = tConf t)) as [-> |Hc]; [rewrite lookup_insert in Hm; injection Hm as <-; by eapply I2'|]. rewrite lookup_insert_ne in Hm by done. by eapply U6.
      * intros p Hp. destruct (mp !! tConf t) eqn:Em; [|by apply U7]. apply elem_of_union in Hp as [Hp|Hp]; [|by apply U7]. apply elem_of_singleton in Hp as ->. by eapply U6.
    + intros j u Hj E. apply set_task_lookup in Hj as [[? Hj]|[-> (b' & Hb & ->)]].
      * rewrite lookup_insert_ne; [by eapply U8|]. intros Ec. by assert (j = i) by (eapply U3; [done|done|by right; left|done|done]).
      * simplify_eq. cbn. by rewrite lookup_insert.
Qed.
Lemma unsignalled_inv cs s : NoDup cs.*1 -> unsignalled cs s -> minv s /\ uinv s.
Proof.
  intros ND. induction 1 as [|s e s' _ [IH1 IH2] H Hs]; [split; [apply minv_start|by apply uinv_start]|]. split; [by eapply minv_step|by eapply uinv_step].
Qed.

(* ---- C64 ---- *)
(* At any moment exactly one task looks after the configuration, and its worker is running or about to be started again. *)
Theorem C64_kept_running : forall cs c s, NoDup cs.*1 -> c ∈ cs.*1 -> undisturbed c cs s ->
  exists i t, gTasks s !! i = Some t /\ tConf t = c /\ (tSt t = TWait \/ (tSt t = TSpawned \/ tSt t = TRun) /\ tPid t ∈ gLive s) /\
    forall j u, gTasks s !! j = Some u -> tConf u = c -> active u -> j = i.
Proof.
  intros cs c s ND Hc H. destruct (unsignalled_inv cs s ND (undisturbed_unsignalled _ _ _ H)) as [MI UI].
  assert (G : exists i t, gTasks s !! i = Some t /\ tConf t = c /\ active t).
  { clear MI UI. induction H as [|s e s' H IH Hstep Hsig Hd].
    - apply elem_of_list_fmap in Hc as (ck & -> & Hc). apply elem_of_list_lookup in Hc as [i Hi]. exists i, (mkT ck.1 ck.2 i TSpawned).
      split; [apply spawned_lookup; by exists ck|]. split; [done|by left].
    - destruct IH as (i & t & Ht & Ec & At). destruct (unsignalled_inv cs s ND (undisturbed_unsignalled _ _ _ H)) as [_ [U0 _ _ _ _ _]].
      destruct s as [ts mp cnt live told said next ph out]. cbn [gTasks gPhase] in *. subst ph.
      assert (Set1 : forall k st p, (k = i -> active (mkT 0 0 0 st)) -> exists i t, set_task k st p ts !! i = Some t /\ tConf t = c /\ active t).
      { intros k st p Hk. destruct (decide (k = i)) as [-> |Hn]; [|exists i, t; split; [apply set_task_lookup; left; split; [by intros ->|done]|done]].
        exists i, (mkT (tConf t) (tGrp t) p st). split; [apply set_task_lookup; right; eauto|]. split; [done|by apply Hk]. }
      destruct e as [k|k|k|k|k|k|st|[]| | |c'| |p]; step_inv Hstep; cbn [is_end is_free] in Hstep; try done; [..|by destruct (Hsig st)];
        (destruct (ts !! k) as [t'|] eqn:Et; cbn [mbind option_bind] in Hstep; [|done]); destruct (tSt t') eqn:Es; try done.
      + case_bool_decide; [done|]. destruct (cnt !! tGrp t'); cbn [mbind option_bind] in Hstep; [|done]. injection Hstep as <-. cbn [gTasks]. eauto.
      + injection Hstep as <-. cbn [gTasks]. apply Set1. intros ->. exfalso. eapply (Hd i t'); [done|done|congruence].
      + injection Hstep as <-. cbn [gTasks]. destruct (decide (k = i)) as [-> |Hn].
        * simplify_eq. eexists _, _. split; [apply snoc_lookup; right; done|]. split; [done|by left].
        * exists i, t. split; [|done]. apply snoc_lookup. left. apply set_task_lookup. left. split; [by intros ->|done].
      + injection Hstep as <-. cbn [gTasks]. apply Set1. intros _. by right; right.
      + injection Hstep as <-. cbn [gTasks]. apply Set1. intros ->. simplify_eq. exfalso. destruct At as [?|[?|?]]; congruence.
      + injection Hstep as <-. cbn [gTasks]. apply Set1. intros _. by left.
      + injection Hstep as <-. cbn [gTasks]. apply Set1. intros _. by right; left. }
  destruct G as (i & t & Ht & Ec & At). exists i, t. split; [done|]. split; [done|]. destruct MI as [_ _ I3 _], UI as [U0 U1 _ _ _ _]. split.
  - assert (In : t ∈ gTasks s) by (by eapply elem_of_list_lookup_2). destruct At as [E|[E|E]]; [right|right|by left]; (split; [auto|]); apply I3; auto; by rewrite U0.
  - intros j u Hj Eu Au. eapply U1; [done|done|done|done|congruence].
Qed.

(* A worker that has ended can be started again at once (the manager waits 3 or 60 seconds); it is then the one
   registered for its configuration. *)
Theorem C64_restarted : forall cs s i t, NoDup cs.*1 -> unsignalled cs s -> gTasks s !! i = Some t -> tSt t = TWait ->
  exists s1 s2, mstep s (ERestart i) = Some s1 /\ mstep s1 (EInsert i) = Some s2 /\ exists p, gTasks s2 !! i = Some (mkT (tConf t) (tGrp t) p TRun) /\ p ∈ gLive s2 /\ p ∉ gLive s /\ gMap s2 !! tConf t = Some p.
Proof.
  intros cs s i t ND H Ht Hs. destruct (unsignalled_inv cs s ND H) as [MI UI]. destruct MI as [_ I2 _ I4], UI as [U0 _ _ _ _ _].
  destruct s as [ts mp cnt live told said next ph out]. cbn [gTasks gPhase gLive gNext] in *. subst ph.
  eexists. eexists. split; [|split].
  - unfold mstep, on_task. cbn [gTasks gPhase is_end]. rewrite Ht. cbn [mbind option_bind]. rewrite Hs. reflexivity.
  - assert (E : set_task i TSpawned next ts !! i = Some (mkT (tConf t) (tGrp t) next TSpawned)) by (apply set_task_lookup; right; eauto).
    unfold mstep, on_task. cbn [gTasks gPhase is_end is_free]. rewrite E. cbn [mbind option_bind tSt]. reflexivity.
  - exists next. cbn [gTasks gLive gMap tConf tPid]. split; [|split; [set_solver|split]].
    + apply set_task_lookup. right. split; [done|]. eexists. split; [apply set_task_lookup; right; eauto|]. done.
    + intros Hl. destruct (I4 _ Hl) as (j & u & Hj & E & _). apply elem_of_list_lookup_2, I2 in Hj. lia.
    + by rewrite lookup_insert.
Qed.

(* Without a signal no worker is told to stop except one that had said itself that it is leaving (Done, or Reconnect: a
   replacement has been started). *)
Theorem C64_told_only_when_leaving : forall cs s p, NoDup cs.*1 -> unsignalled cs s -> p ∈ gTold s -> p ∈ gLive s ->
  exists i t, gTasks s !! i = Some t /\ tPid t = p /\ tSt t = TOut.
Proof. intros cs s p ND H. destruct (unsignalled_inv cs s ND H) as [_ UI]. apply (ui_told _ UI). Qed.

(* When the manager has ended, every worker still running has been told to stop, except those that were started (again) and
   not yet registered *)
Record sinv (s : mgr) : Prop := {
  si_live : forall p, p ∈ gLive s -> p ∈ gTold s \/ exists i t, gTasks s !! i = Some t /\ tPid t = p /\ (tSt t = TSpawned \/ gMap s !! tConf t = Some p);
  si_end : gPhase s = PEnd -> gMap s = ∅
}.
Lemma sinv_step s e s' : minv s -> sinv s -> mstep s e = Some s' -> sinv s'.
Proof.
  intros MI [S1 S2] H. destruct MI as [I1 I2 I3 I4]. destruct s as [ts mp cnt live told said next ph out]. cbn [gTasks gNext gLive gPhase gMap gTold] in *.
  destruct e as [i|i|i|i|i|i|st|m| | |c| |p]; step_inv H.
  - destruct (is_end ph) eqn:Ee; [done|]. destruct (ts !! i) as [t|] eqn:Et; cbn [mbind option_bind] in H; [|done]. destruct (tSt t) eqn:Es; try done. case_bool_decide; [done|].
    destruct (cnt !! tGrp t); cbn [mbind option_bind] in H; [|done]. by injection H as <-.
  - destruct (is_end ph) eqn:Ee; [done|]. destruct (ts !! i) as [t|] eqn:Et; cbn [mbind option_bind] in H; [|done]. destruct (tSt t) eqn:Es; try done. injection H as <-.
    constructor; cbn [gTasks gLive gPhase gMap gTold]; [|done]. intros p Hp. destruct (S1 p Hp) as [?|(j & u & Hj & E & D)]; [by left|right].
    destruct (decide (j = i)) as [-> |Hn]; [|exists j, u; split; [apply set_task_lookup; by left|done]].
    simplify_eq. exists i, (mkT (tConf t) (tGrp t) (tPid t) TOut). split; [apply set_task_lookup; right; eauto|]. split; [done|]. right. destruct D; [congruence|done].
  - destruct (is_end ph) eqn:Ee; [done|]. destruct (ts !! i) as [t|] eqn:Et; cbn [mbind option_bind] in H; [|done]. destruct (tSt t) eqn:Es; try done. injection H as <-.
    constructor; cbn [gTasks gLive gPhase gMap gTold]; [|done]. intros p Hp. apply elem_of_union in Hp as [Hp|Hp].
    { apply elem_of_singleton in Hp as ->. right. eexists _, _. split; [apply snoc_lookup; right; done|]. split; [done|by left]. }
    destruct (S1 p Hp) as [?|(j & u & Hj & E & D)]; [by left|right].
    destruct (decide (j = i)) as [-> |Hn]; [|exists j, u; split; [apply snoc_lookup; left; apply set_task_lookup; by left|done]].
    simplify_eq. exists i, (mkT (tConf t) (tGrp t) (tPid t) TOut). split; [apply snoc_lookup; left; apply set_task_lookup; right; eauto|]. split; [done|]. right. destruct D; [congruence|done].
  - destruct (is_end ph) eqn:Ee; [done|]. destruct (ts !! i) as [t|] eqn:Et; cbn [mbind option_bind] in H; [|done].
    assert (G : exists st, s' = mkM (set_task i st (tPid t) ts) mp cnt (live ∖ {[tPid t]}) told said next ph out) by (destruct (tSt t); try done; injection H as <-; eauto).
    destruct G as [st ->]. constructor; cbn [gTasks gLive gPhase gMap gTold]; [|done]. intros p Hp. apply elem_of_difference in Hp as [Hp Hn]. rewrite elem_of_singleton in Hn.
    destruct (S1 p Hp) as [?|(j & u & Hj & E & D)]; [by left|right]. exists j, u. split; [|done]. apply set_task_lookup. left. split; [|done]. intros ->. congruence.
  - destruct (is_end ph) eqn:Ee; [done|]. destruct (ts !! i) as [t|] eqn:Et; cbn [mbind option_bind] in H; [|done]. destruct (tSt t) eqn:Es; try done. injection H as <-.
    assert (Ht : tPid t ∉ live).
    { intros Hl. destruct (I4 _ Hl) as (j & u & Hj & E & D). assert (j = i) as -> by (by eapply I1). simplify_eq. destruct D as [?|[?|?]]; congruence. }
    constructor; cbn [gTasks gLive gPhase gMap gTold]; [|done]. intros p Hp. apply elem_of_union in Hp as [Hp|Hp].
    { apply elem_of_singleton in Hp as ->. right. exists i, (mkT (tConf t) (tGrp t) next TSpawned). split; [apply set_task_lookup; right; eauto|]. split; [done|by left]. }
    destruct (S1 p Hp) as [?|(j & u & Hj & E & D)]; [by left|right]. exists j, u. split; [|done]. apply set_task_lookup. left. split; [|done]. intros ->. by simplify_eq.
  - destruct (is_end ph) eqn:Ee; [done|]. destruct (ts !! i) as [t|] eqn:Et; cbn [mbind option_bind] in H; [|done]. destruct (tSt t) eqn:Es; try done. destruct (is_free ph) eqn:Ef; [|done]. injection H as <-.
    constructor; cbn [gTasks gLive gPhase gMap gTold]; [|by destruct ph]. intros p Hp. destruct (S1 p Hp) as [?|(j & u & Hj & E & D)].
    { left. destruct (mp !! tConf t); set_solver. }
    destruct (decide (j = i)) as [-> |Hn].
    { simplify_eq. right. exists i, (mkT (tConf t) (tGrp t) (tPid t) TRun). split; [apply set_task_lookup; right; eauto|]. split; [done|]. right. cbn. by rewrite lookup_insert. }
    destruct D as [D|D]; [right; exists j, u; split; [apply set_task_lookup; by left|auto]|].
    destruct (decide (tConf u = tConf t)) as [Ec|Ec]; [rewrite Ec in D; rewrite D; left; set_solver|].
    right. exists j, u. split; [apply set_task_lookup; by left|]. split; [done|]. right. by rewrite lookup_insert_ne.
  - destruct ph; try done. injection H as <-. constructor; cbn [gTasks gLive gPhase gMap gTold]; [done|]. by destruct st.
  - destruct m as [c|]; destruct ph; try done.
    + destruct (mp !! c) as [q|] eqn:Em; injection H as <-; [|done]. constructor; cbn [gTasks gLive gPhase gMap gTold]; [|done].
      intros p Hp. destruct (S1 p Hp) as [?|(j & u & Hj & E & D)]; [left; set_solver|]. destruct D as [D|D]; [right; exists j, u; auto|].
      destruct (decide (tConf u = c)) as [<-|Hc]; [left; rewrite D in Em; injection Em as ->; set_solver|]. right. exists j, u. split; [done|]. split; [done|]. right. by rewrite lookup_delete_ne.
    + injection H as <-. by constructor.
  - assert (G : forall p, sinv (mkM (leave p ts) mp cnt live told said next PDrain out)).
    { intros p. constructor; cbn [gTasks gLive gPhase gMap gTold]; [|done]. intros q Hq. destruct (S1 q Hq) as [?|(j & u & Hj & E & D)]; [by left|right].
      destruct (decide (tPid u = p /\ tSt u = TRun)) as [[E1 E2]|E1].
      - exists j, (mkT (tConf u) (tGrp u) p TOut). split; [apply leave_lookup; eauto 10|]. split; [cbn; congruence|]. right. destruct D; [congruence|done].
      - exists j, u. split; [apply leave_lookup; exists u; split; [done|]; left; split; [done|]|done]. destruct (decide (tPid u = p)); [right; naive_solver|by left]. }
    destruct ph as [| |p []| |]; try done; injection H as <-; [by constructor|apply G].
  - assert (G : forall p ph', ph' <> PEnd -> sinv (mkM (leave p ts) mp cnt live told said next ph' out)).
    { intros p ph' Hph'. constructor; cbn [gTasks gLive gPhase gMap gTold]; [|done]. intros q Hq. destruct (S1 q Hq) as [?|(j & u & Hj & E & D)]; [by left|right].
      destruct (decide (tPid u = p /\ tSt u = TRun)) as [[E1 E2]|E1].
      - exists j, (mkT (tConf u) (tGrp u) p TOut). split; [apply leave_lookup; eauto 10|]. split; [cbn; congruence|]. right. destruct D; [congruence|done].
      - exists j, u. split; [apply leave_lookup; exists u; split; [done|]; left; split; [done|]|done]. destruct (decide (tPid u = p)); [right; naive_solver|by left]. }
    destruct ph as [| |p d| |]; try done; injection H as <-. apply G. by destruct d.
  - destruct ph; try done. destruct (mp !! c) as [q|] eqn:Em; cbn [mbind option_bind] in H; [|done]. injection H as <-. constructor; cbn [gTasks gLive gPhase gMap gTold]; [|done].
    intros p Hp. destruct (S1 p Hp) as [?|(j & u & Hj & E & D)]; [left; set_solver|]. destruct D as [D|D]; [right; exists j, u; auto|].
    destruct (decide (tConf u = c)) as [<-|Hc]; [left; rewrite D in Em; injection Em as ->; set_solver|]. right. exists j, u. split; [done|]. split; [done|]. right. by rewrite lookup_delete_ne.
  - destruct ph; try done. case_bool_decide; [|done]. injection H as <-. by constructor.
  - destruct ph; try done. case_bool_decide; [|done]. injection H as <-. constructor; cbn [gTasks gLive gPhase gMap gTold]; [|done].
    intros q Hq. apply elem_of_difference in Hq as [Hq _]. by apply S1.
Qed.
Lemma mrun_app s tr1 tr2 : mrun s (tr1 ++ tr2) = mrun s tr1 ≫= fun s' => mrun s' tr2.
Proof.
  unfold mrun. rewrite fold_left_app. destruct (fold_left _ tr1 (Some s)) as [s'|]; [done|]. cbn. induction tr2; done.
Qed.
Lemma mrun_cons s e tr : mrun s (e :: tr) = mstep s e ≫= fun s' => mrun s' tr.
Proof. change (e :: tr) with ([e] ++ tr). by rewrite mrun_app. Qed.
Lemma mrun_ind (P : mgr -> Prop) s tr s' : P s -> (forall s e s', P s -> mstep s e = Some s' -> P s') -> mrun s tr = Some s' -> P s'.
Proof.
  intros H0 Hs. revert s H0. induction tr as [|e tr IH]; intros s H0 H; [by injection H as <-|]. rewrite mrun_cons in H.
  destruct (mstep s e) eqn:E; cbn [mbind option_bind] in H; [|done]. eapply IH; [|done]. by eapply Hs.
Qed.
Lemma sinv_run cs tr s : mrun (mstart cs) tr = Some s -> minv s /\ sinv s.
Proof.
  intros H. refine (mrun_ind (fun s => minv s /\ sinv s) _ tr s _ _ H).
  - split; [apply minv_start|]. constructor; [|done]. intros p Hp. right. destruct (mi_live2 _ (minv_start cs) p Hp) as (i & t & Hi & E & _). exists i, t. split; [done|]. split; [done|].
    left. by apply spawned_lookup in Hi as (? & _ & ->).
  - intros s1 e s2 [H1 H2] Hx. split; [by eapply minv_step|by eapply sinv_step].
Qed.
Theorem C64_all_told : forall cs tr s p, mrun (mstart cs) tr = Some s -> gPhase s = PEnd -> p ∈ gLive s ->
  p ∈ gTold s \/ exists i t, gTasks s !! i = Some t /\ tPid t = p /\ tSt t = TSpawned.
Proof.
  intros cs tr s p H He Hp. destruct (sinv_run _ _ _ H) as [_ [S1 S2]]. destruct (S1 p Hp) as [?|(i & t & Hi & E & [D|D])]; [by left|right; eauto|].
  rewrite S2, lookup_empty in D by done. done.
Qed.
(* so: if all workers are registered when the signal comes and none is started afterwards, none is left untold *)
Definition starts (e : mevt) : Prop := match e with ERestart _ | EReconnect _ => True | _ => False end.
Theorem C64_none_left_partial : forall cs tr1 s1 b tr2 s, mrun (mstart cs) tr1 = Some s1 -> Forall (fun t => tSt t <> TSpawned) (gTasks s1) ->
  mrun s1 (ESignal b :: tr2) = Some s -> Forall (fun e => ~ starts e) tr2 -> gPhase s = PEnd -> gLive s ⊆ gTold s.
Proof.
  intros cs tr1 s1 b tr2 s H1 Hreg H2 Hno He p Hp. destruct (C64_all_told cs (tr1 ++ ESignal b :: tr2) s p) as [?|(i & t & Hi & _ & Es)]; [by rewrite mrun_app, H1|done|done|done|].
  exfalso. assert (G : Forall (fun t => tSt t <> TSpawned) (gTasks s)).
  { clear -H2 Hno Hreg. assert (Hno' : Forall (fun e => ~ starts e) (ESignal b :: tr2)) by (constructor; [by intros []|done]). clear Hno. revert s1 Hreg H2 Hno'. generalize (ESignal b :: tr2) as tr.
    induction tr as [|e tr IH]; intros s1 Hreg H Hno; [by injection H as <-|]. rewrite mrun_cons in H. destruct (mstep s1 e) as [s2|] eqn:E; cbn [mbind option_bind] in H; [|done].
    apply Forall_cons in Hno as [Hn Hno]. eapply IH; [|done|done]. clear IH H.
    rewrite Forall_forall in Hreg |- *. intros t Ht. apply elem_of_list_lookup in Ht as [j Hj].
    assert (Hreg' : forall j t, gTasks s1 !! j = Some t -> tSt t <> TSpawned) by (intros j' t' Hj'; eapply Hreg, elem_of_list_lookup_2; done).
    destruct s1 as [ts mp cnt live told said next ph out]. cbn [gTasks] in *.
    assert (Sett : forall i st p, st <> TSpawned -> set_task i st p ts !! j = Some t -> tSt t <> TSpawned).
    { intros i st p Hst Hl. apply set_task_lookup in Hl as [[_ Hl]|[_ (a & _ & ->)]]; [by eapply Hreg'|done]. }
    assert (Lv : forall p, leave p ts !! j = Some t -> tSt t <> TSpawned).
    { intros p Hl. apply leave_lookup in Hl as (a & Ha & [[-> _]|(_ & _ & ->)]); [by eapply Hreg'|done]. }
    destruct e as [i|i|i|i|i|i|st|m| | |c| |p]; step_inv E; try (by destruct Hn).
    - destruct (is_end ph) eqn:Ee; [done|]. destruct (ts !! i) as [t'|] eqn:Et; cbn [mbind option_bind] in E; [|done]. destruct (tSt t') eqn:Es; try done. case_bool_decide; [done|].
      destruct (cnt !! tGrp t'); cbn [mbind option_bind] in E; [|done]. injection E as <-. exact (Hreg' _ _ Hj).
    - destruct (is_end ph) eqn:Ee; [done|]. destruct (ts !! i) as [t'|] eqn:Et; cbn [mbind option_bind] in E; [|done]. destruct (tSt t') eqn:Es; try done. injection E as <-. refine (Sett _ _ _ _ Hj); done.
    - destruct (is_end ph) eqn:Ee; [done|]. destruct (ts !! i) as [t'|] eqn:Et; cbn [mbind option_bind] in E; [|done]. destruct (tSt t') eqn:Es; try done; injection E as <-; refine (Sett _ _ _ _ Hj); done.
    - destruct (is_end ph) eqn:Ee; [done|]. destruct (ts !! i) as [t'|] eqn:Et; cbn [mbind option_bind] in E; [|done]. destruct (tSt t') eqn:Es; try done. by destruct (Hreg' i t' Et).
    - destruct ph; try done. injection E as <-. exact (Hreg' _ _ Hj).
    - destruct m as [c|]; destruct ph; try done; [destruct (mp !! c)|]; injection E as <-; exact (Hreg' _ _ Hj).
    - destruct ph as [| |p []| |]; try done; injection E as <-; [exact (Hreg' _ _ Hj)|exact (Lv _ Hj)].
    - destruct ph as [| |p d| |]; try done; injection E as <-; exact (Lv _ Hj).
    - destruct ph; try done. destruct (mp !! c); cbn [mbind option_bind] in E; [|done]. injection E as <-. exact (Hreg' _ _ Hj).
    - destruct ph; try done. case_bool_decide; [|done]. injection E as <-. exact (Hreg' _ _ Hj).
    - destruct ph; try done. case_bool_decide; [|done]. injection E as <-. exact (Hreg' _ _ Hj). }
  rewrite Forall_forall in G. eapply G; [by eapply elem_of_list_lookup_2|done].
Qed.

(* ---- C65 ---- *)
(* A reload: the old manager has got the signal and started the new one with the configurations cs.  No new worker ends after
   it has said Ready, none asks for a reconnect, and neither the 120 seconds pass nor does the new manager end. *)
Definition orderly (x : pair) (e : pevt) : Prop :=
  match e with
  | New (EExit i) => forall t, gTasks (pNew x) !! i = Some t -> tPid t ∉ gSaid (pNew x)
  | New (EReconnect _) | New (ESignal _) | Old EEnd => False
  | _ => True
  end.
Inductive reloading (o0 : mgr) (cs : list (nat * nat)) : pair -> Prop :=
  | rl_start : gPhase o0 = PRead -> reloading o0 cs (mkP o0 (mstart cs) 0)
  | rl_step x e x' : reloading o0 cs x -> pstep x e = Some x' -> orderly x e -> reloading o0 cs x'.
(* the old worker of configuration c is about to be told to stop *)
Definition tells (x : pair) (c : nat) : Prop :=
  exists e x', pstep x (Old e) = Some x' /\ is_Some (gMap (pOld x) !! c) /\ (e = ERead (MReady c) \/ e = EDrain c).
(* there is a worker of configuration c that runs and has said Ready *)
Definition has_ready (n : mgr) (c : nat) : Prop := exists t, t ∈ gTasks n /\ tConf t = c /\ tPid t ∈ gSaid n /\ tPid t ∈ gLive n.

Definition unsaid (n : mgr) : list task := filter (fun t => tPid t ∉ gSaid n) (gTasks n).
Record ninv (cs : list (nat * nat)) (k : nat) (n : mgr) : Prop := {
  ni_conf : (fun t => (tConf t, tGrp t)) <$> gTasks n = cs;
  ni_cnt : gCnt n !! k = Some (N.of_nat (length (unsaid n)));
  ni_state : forall t, t ∈ gTasks n -> tPid t ∈ gSaid n -> tSt t = TRun \/ tSt t = TOut;
  ni_said : forall p, p ∈ gSaid n -> (p < gNext n)%nat;
  ni_live : forall t, t ∈ gTasks n -> tSt t = TOut -> tPid t ∈ gLive n;
  ni_phase : gPhase n = PRun;
  ni_ready : forall c, MReady c ∈ gOut n -> exists t, t ∈ gTasks n /\ tConf t = c /\ tPid t ∈ gSaid n;
  ni_done : MDone ∈ gOut n -> unsaid n = [];
  ni_done2 : unsaid n = [] -> cs <> [] -> MDone ∈ gOut n
}.
Lemma ninv_start cs k : (k < 3)%nat -> Forall (fun ck => ck.2 = k) cs -> ninv cs k (mstart cs).
Proof.
  intros Hk HF.
  assert (EU : unsaid (mstart cs) = spawned cs 0).
  { unfold unsaid. cbn [gTasks gSaid mstart]. generalize (spawned cs 0). induction l as [|t l IH]; [done|]. rewrite filter_cons_True by set_solver. by rewrite IH. }
  assert (EL : length (spawned cs 0) = length cs) by (unfold spawned; by rewrite imap_length).
  constructor; rewrite ?EU, ?EL; cbn [gTasks gCnt gSaid gLive gPhase gOut gNext mstart]; try set_solver.
  - apply list_eq. intros i. rewrite list_lookup_fmap. unfold spawned. rewrite list_lookup_imap. destruct (cs !! i) as [[c g]|] eqn:E; [|done]. cbn. done.
  - rewrite list_lookup_fmap. assert (EF : of_kind k cs = cs).
    { unfold of_kind. clear -HF. induction HF as [|x l Hx HF IH]; [done|]. rewrite filter_cons_True by done. by rewrite IH. }
    destruct k as [|[|[|k]]]; [| | |lia]; cbn; by rewrite EF.
  - intros t Ht E. apply elem_of_list_lookup in Ht as [i Hi]. by apply spawned_lookup in Hi as (ck & _ & ->).
  - intros E Hc. destruct cs; [done|]. by apply (f_equal length) in E; rewrite EL in E.
Qed.
Lemma set_task_confs i st p l : (fun t => (tConf t, tGrp t)) <$> set_task i st p l = (fun t => (tConf t, tGrp t)) <$> l.
Proof. unfold set_task. apply list_eq. intros j. rewrite !list_lookup_fmap. destruct (decide (j = i)) as [-> |Hn]; [rewrite list_lookup_alter; by destruct (l !! i)|by rewrite list_lookup_alter_ne]. Qed.
(* a change of one task that leaves whether it has said Ready as it is *)
Lemma unsaid_set i st p l (said : gset nat) t : l !! i = Some t -> (p ∈ said <-> tPid t ∈ said) ->
  length (filter (fun t => tPid t ∉ said) (set_task i st p l)) = length (filter (fun t => tPid t ∉ said) l).
Proof.
  intros Hi Hp. unfold set_task. revert i Hi. induction l as [|u l IH]; intros i Hi; [done|]. destruct i as [|i].
  - injection Hi as ->. cbn [alter list_alter]. rewrite !filter_cons. cbn [tPid]. destruct (decide (p ∉ said)), (decide (tPid t ∉ said)); cbn; try done; tauto.
  - cbn [alter list_alter]. rewrite !filter_cons. specialize (IH i Hi). cbn in IH. unfold alter in *. destruct (decide (tPid u ∉ said)); cbn; by rewrite IH.
Qed.
Lemma unsaid_say i l (said : gset nat) t : (forall i j t u, l !! i = Some t -> l !! j = Some u -> tPid t = tPid u -> i = j) -> l !! i = Some t -> tPid t ∉ said ->
  length (filter (fun t => tPid t ∉ said) l) = S (length (filter (fun u => tPid u ∉ {[tPid t]} ∪ said) l)).
Proof.
  revert i. induction l as [|u l IH]; intros i Hu Hi Hn; [done|]. destruct i as [|i].
  - injection Hi as ->. rewrite filter_cons_True by done. rewrite filter_cons_False by set_solver. cbn. f_equal. f_equal.
    assert (forall v, v ∈ l -> tPid v <> tPid t) as HV.
    { intros v Hv E. apply elem_of_list_lookup in Hv as [j Hj]. by specialize (Hu 0%nat (S j) t v eq_refl Hj (eq_sym E)). }
    clear -HV. induction l as [|v l IH]; [done|]. rewrite !filter_cons. assert (tPid v <> tPid t) by (apply HV; left).
    rewrite IH by (intros w Hw; apply HV; by right). destruct (decide (tPid v ∉ said)), (decide (tPid v ∉ {[tPid t]} ∪ said)); set_solver.
  - assert (Hl : forall i j t u, l !! i = Some t -> l !! j = Some u -> tPid t = tPid u -> i = j).
    { intros a b x y Ha Hb E. assert (S a = S b) by (by eapply Hu). lia. }
    specialize (IH i Hl Hi Hn). rewrite !filter_cons. assert (tPid u <> tPid t) by (intros E; by specialize (Hu 0%nat (S i) u t eq_refl Hi E)).
    destruct (decide (tPid u ∉ said)), (decide (tPid u ∉ {[tPid t]} ∪ said)); cbn; rewrite ?IH; set_solver.
Qed.
Lemma ninv_step cs k n e n' : Forall (fun ck => ck.2 = k) cs -> minv n -> ninv cs k n -> mstep n e = Some n' -> orderly (mkP n n 0) (New e) -> ninv cs k n'.
Proof.
  intros HF MI [C1 C2 C3 C3' C3'' C4 C5 C6 C7] H Ho. destruct MI as [I1 I2 I3 I4]. destruct n as [ts mp cnt live told said next ph out].
  unfold unsaid in *. cbn [gTasks gCnt gSaid gLive gPhase gOut gNext] in *. subst ph. specialize (I3 ltac:(done)).
  assert (I2' : forall i t, ts !! i = Some t -> (tPid t < next)%nat) by (intros i t Hi; eapply I2, elem_of_list_lookup_2; done).
  assert (Set1 : forall i t st p mp' live' told' next', ts !! i = Some t -> (p ∈ said <-> tPid t ∈ said) -> (p ∈ said -> p = tPid t /\ (st = TRun \/ st = TOut)) ->
     (next <= next')%nat -> (forall q, q <> tPid t -> q ∈ live -> q ∈ live') -> (st = TOut -> p ∈ live') ->
     ninv cs k (mkM (set_task i st p ts) mp' cnt live' told' said next' PRun out)).
  { intros i t st p mp' live' told' next' Hi Hp Hst Hnx Hl Hl2.
    assert (EL : length (filter (fun t => tPid t ∉ said) (set_task i st p ts)) = length (filter (fun t => tPid t ∉ said) ts)) by (by eapply unsaid_set).
    assert (Hin : forall u, u ∈ set_task i st p ts -> (u ∈ ts /\ tPid u <> tPid t) \/ u = mkT (tConf t) (tGrp t) p st).
    { intros u Hu. apply elem_of_list_lookup in Hu as [j Hj]. apply set_task_lookup in Hj as [[Hn Hj]|[_ (a & Ha & ->)]].
      - left. split; [by eapply elem_of_list_lookup_2|]. intros E. apply Hn. by eapply I1.
      - right. congruence. }
    constructor; unfold unsaid; cbn [gTasks gCnt gSaid gLive gPhase gOut gNext].
    - by rewrite set_task_confs. - by rewrite EL.
    - intros u Hu Hsu. destruct (Hin u Hu) as [[Hu' _]| ->]; [by apply C3|]. cbn in *. by apply Hst.
    - intros q Hq. apply C3' in Hq. lia.
    - intros u Hu E. destruct (Hin u Hu) as [[Hu' Hne]| ->]; [apply Hl; [done|by apply C3'']|]. cbn in *. by apply Hl2.
    - done.
    - intros c Hc. destruct (C5 c Hc) as (u & Hu & Ec & Hs). apply elem_of_list_lookup in Hu as [j Hj]. destruct (decide (j = i)) as [-> |Hn].
      + simplify_eq. destruct (Hst (proj2 Hp Hs)) as [-> _]. exists (mkT (tConf t) (tGrp t) (tPid t) st). split; [|done]. apply elem_of_list_lookup. exists i. apply set_task_lookup. right. eauto.
      + exists u. split; [|done]. apply elem_of_list_lookup. exists j. apply set_task_lookup. by left.
    - intros Hd. apply nil_length_inv. rewrite EL. by rewrite C6.
    - intros E. apply C7. apply nil_length_inv. rewrite <- EL. by rewrite E. }
  destruct e as [i|i|i|i|i|i|st|[]| | |c| |p]; step_inv H; cbn [is_end is_free] in H; try done;
    (destruct (ts !! i) as [t|] eqn:Et; cbn [mbind option_bind] in H; [|done]); destruct (tSt t) eqn:Es; try done.
  - case_bool_decide as Hsd; [done|]. assert (Eg : tGrp t = k).
    { assert (Hm : (tConf t, tGrp t) ∈ cs) by (rewrite <- C1; apply elem_of_list_fmap; exists t; split; [done|by eapply elem_of_list_lookup_2]). rewrite Forall_forall in HF. by apply HF in Hm. }
    rewrite Eg, C2 in H. cbn [mbind option_bind] in H. injection H as <-.
    pose proof (unsaid_say i ts said t I1 Et Hsd) as EL.
    constructor; unfold unsaid; cbn [gTasks gCnt gSaid gLive gPhase gOut gNext].
    + done.
    + rewrite list_lookup_insert by (by eapply lookup_lt_Some). f_equal. unfold minus1. rewrite EL. destruct (_ =? 0) eqn:E0; lia.
    + intros u Hu Hs. apply elem_of_union in Hs as [Hs|Hs]; [|by apply C3]. apply elem_of_singleton in Hs. apply elem_of_list_lookup in Hu as [j Hj]. assert (j = i) as -> by (by eapply I1). left. congruence.
    + intros q Hq. apply elem_of_union in Hq as [Hq|Hq]; [apply elem_of_singleton in Hq as ->; by eapply I2'|by apply C3'].
    + done.
    + done.
    + intros c Hc. apply elem_of_app in Hc as [Hc|Hc].
      * destruct (C5 c Hc) as (u & ? & ? & ?). exists u. split; [done|]. split; [done|set_solver].
      * destruct (_ =? 1); [by apply elem_of_list_singleton in Hc|]. apply elem_of_list_singleton in Hc. injection Hc as ->. exists t. split; [by eapply elem_of_list_lookup_2|]. split; [done|set_solver].
    + intros Hd. apply nil_length_inv. apply elem_of_app in Hd as [Hd|Hd].
      * apply C6 in Hd. rewrite Hd in EL. done.
      * rewrite EL in Hd. destruct (_ =? 1) eqn:E1; [lia|by apply elem_of_list_singleton in Hd].
    + intros E _. rewrite EL. rewrite E. cbn. apply elem_of_app. right. by apply elem_of_list_singleton.
  - injection H as <-. apply (Set1 i t); auto. intros _. eapply I3; [by eapply elem_of_list_lookup_2|by right].
  - injection H as <-. assert (Hn : tPid t ∉ said) by (by apply (Ho t)). apply (Set1 i t); try done; set_solver.
  - injection H as <-. assert (Hn : tPid t ∉ said) by (by apply (Ho t)). apply (Set1 i t); try done; set_solver.
  - injection H as <-.
    assert (Hn : tPid t ∉ said) by (intros Hs; destruct (C3 t) as [?|?]; [by eapply elem_of_list_lookup_2|done|congruence|congruence]).
    assert (Hx : next ∉ said) by (intros Hs; apply C3' in Hs; lia).
    apply (Set1 i t); try done; try lia; set_solver.
  - injection H as <-. apply (Set1 i t); auto.
    intros Hs; destruct (C3 t) as [?|?]; [by eapply elem_of_list_lookup_2|done|congruence|congruence].
Qed.

Record pinv (cs : list (nat * nat)) (k : nat) (x : pair) : Prop := {
  pi_new : ninv cs k (pNew x);
  pi_min : minv (pNew x);
  pi_old : match gPhase (pOld x) with PRead | PTell _ false => True | PRun => False | _ => unsaid (pNew x) = [] end
}.
Lemma unsaid_mono cs k n e n' : Forall (fun ck => ck.2 = k) cs -> minv n -> ninv cs k n -> mstep n e = Some n' -> orderly (mkP n n 0) (New e) -> unsaid n = [] -> unsaid n' = [].
Proof.
  intros HF MI NI H Ho E. destruct (decide (cs = [])) as [-> |Hc].
  - pose proof (ninv_step _ _ _ _ _ HF MI NI H Ho) as NI'. pose proof (ni_conf _ _ _ NI') as EC. apply fmap_nil_inv in EC. unfold unsaid. by rewrite EC.
  - apply (ni_done _ _ _ (ninv_step _ _ _ _ _ HF MI NI H Ho)). pose proof (ni_done2 _ _ _ NI E Hc) as Hd.
    destruct n as [ts mp cnt live told said next ph out]. cbn [gOut] in *.
    destruct e as [i|i|i|i|i|i|st|m| | |c| |p]; step_inv H.
    all: try (destruct (is_end ph) eqn:Ee; [done|]; destruct (ts !! i) as [t|] eqn:Et; cbn [mbind option_bind] in H; [|done]; destruct (tSt t) eqn:Es; try done).
    all: try (by injection H as <-).
    + case_bool_decide; [done|]. destruct (cnt !! tGrp t); cbn [mbind option_bind] in H; [|done]. injection H as <-. apply elem_of_app. by left.
    + destruct (is_free ph); [|done]. by injection H as <-.
    + destruct ph; try done; by injection H as <-.
    + destruct m as [c|]; destruct ph; try done; [destruct (mp !! c)|]; by injection H as <-.
    + destruct ph as [| |p []| |]; try done; by injection H as <-.
    + destruct ph as [| |p []| |]; try done; by injection H as <-.
    + destruct ph; try done. destruct (mp !! c); cbn [mbind option_bind] in H; [|done]. by injection H as <-.
    + destruct ph; try done. case_bool_decide; [|done]. by injection H as <-.
    + destruct ph; try done. case_bool_decide; [|done]. by injection H as <-.
Qed.
Lemma phase_step o e o' : mstep o e = Some o' -> gPhase o' = gPhase o \/
  match e, gPhase o, gPhase o' with
  | ESignal true, PRun, PDrain => True | ESignal false, PRun, PRead => True
  | ERead MDone, PRead, PDrain => True | ERead (MReady _), PRead, PTell _ false => True
  | EEnd, PRead, PDrain => True | EEnd, PTell _ false, PDrain => True
  | EReturn, PTell _ true, PDrain => True | EReturn, PTell _ false, PRead => True
  | EDrain _, PDrain, PTell _ true => True | EQuit, PDrain, PEnd => True
  | _, _, _ => False
  end.
Proof.
  intros H. destruct o as [ts mp cnt live told said next ph out]. cbn [gPhase].
  destruct e as [i|i|i|i|i|i|st|m| | |c| |p]; step_inv H.
  all: try (destruct (is_end ph) eqn:Ee; [done|]; destruct (ts !! i) as [t|] eqn:Et; cbn [mbind option_bind] in H; [|done]; destruct (tSt t) eqn:Es; try done).
  all: try (injection H as <-; by left).
  - case_bool_decide; [done|]. destruct (cnt !! tGrp t); cbn [mbind option_bind] in H; [|done]. injection H as <-. by left.
  - destruct (is_free ph); [|done]. injection H as <-. by left.
  - destruct ph; try done. injection H as <-. right. by destruct st.
  - destruct m as [c|]; destruct ph; try done; [destruct (mp !! c)|]; injection H as <-; [by right|by left|by right].
  - destruct ph as [| |p []| |]; try done; injection H as <-; by right.
  - destruct ph as [| |p []| |]; try done; injection H as <-; by right.
  - destruct ph; try done. destruct (mp !! c); cbn [mbind option_bind] in H; [|done]. injection H as <-. by right.
  - destruct ph; try done. case_bool_decide; [|done]. injection H as <-. by right.
  - destruct ph; try done. case_bool_decide; [|done]. injection H as <-. by left.
Qed.
Lemma pinv_reach o0 cs k x : (k < 3)%nat -> Forall (fun ck => ck.2 = k) cs -> reloading o0 cs x -> pinv cs k x.
Proof.
  intros Hk HF. induction 1 as [HP|x e x' _ IH H Ho].
  - constructor; cbn [pNew pOld]; [by apply ninv_start|apply minv_start|by rewrite HP].
  - destruct IH as [P1 P2 P3]. destruct x as [o n q]. cbn [pNew pOld pK] in *. destruct e as [e|e].
    + assert (G : exists o', x' = mkP o' n (match e with ERead _ => S q | _ => q end) /\ mstep o e = Some o' /\ (forall m, e = ERead m -> m ∈ gOut n)).
      { unfold pstep in H. cbn [pNew pOld pK] in H. destruct e as [i|i|i|i|i|i|st|m| | |c| |p]; try (by destruct (mstep o _) as [o'|] eqn:E; cbn [mbind option_bind] in H; [|done]; injection H as <-; exists o').
        case_bool_decide as Hm; [|done]. destruct (mstep o (ERead m)) as [o'|] eqn:E; cbn [mbind option_bind] in H; [|done]. injection H as <-. exists o'. split; [done|]. split; [done|].
        intros m' [= <-]. by eapply elem_of_list_lookup_2. }
      destruct G as (o' & -> & Hs & Hm). constructor; cbn [pNew pOld]; [done|done|]. destruct (phase_step _ _ _ Hs) as [->|Hph]; [done|].
      destruct e as [i|i|i|i|i|i|[]|[c|]| | |c| |p]; destruct (gPhase o) as [| |? []| |], (gPhase o') as [| |? []| |]; try done. apply (ni_done _ _ _ P1). by apply Hm.
    + unfold pstep in H. cbn [pNew pOld pK] in H. destruct (mstep n e) as [n'|] eqn:E; cbn [mbind option_bind] in H; [|done]. injection H as <-.
      constructor; cbn [pNew pOld]; [by eapply ninv_step|by eapply minv_step|]. destruct (gPhase o) as [| |? []| |]; try done; by eapply unsaid_mono.
Qed.
(* Configurations all of one kind: whenever the old worker of a configuration of the new manager is told to stop, the new
   worker of that configuration is running and has said Ready. *)
Theorem C65_no_gap_partial : forall o0 cs k x c, (k < 3)%nat -> Forall (fun ck => ck.2 = k) cs -> reloading o0 cs x -> tells x c -> c ∈ cs.*1 ->
  has_ready (pNew x) c.
Proof.
  intros o0 cs k x c Hk HF H (e & x' & Hs & Hm & He) Hc. destruct (pinv_reach o0 cs k x Hk HF H) as [P1 P2 P3].
  assert (G : exists t, t ∈ gTasks (pNew x) /\ tConf t = c /\ tPid t ∈ gSaid (pNew x)).
  { destruct He as [-> | ->].
    - cbn [pstep] in Hs. case_bool_decide as Hq; [|done]. apply (ni_ready _ _ _ P1). by eapply elem_of_list_lookup_2.
    - assert (EP : gPhase (pOld x) = PDrain).
      { unfold pstep in Hs. destruct (mstep (pOld x) (EDrain c)) eqn:E; cbn [mbind option_bind] in Hs; [|done]. destruct (pOld x) as [ts mp cnt live told said next ph out]. cbn in E |- *. by destruct ph. }
      rewrite EP in P3. rewrite <- (ni_conf _ _ _ P1) in Hc. apply elem_of_list_fmap in Hc as (a & -> & Ha). apply elem_of_list_fmap in Ha as (t & -> & Ht). exists t. split; [done|]. split; [done|].
      destruct (decide (tPid t ∈ gSaid (pNew x))) as [|Hn]; [done|]. exfalso. assert (Hu : t ∈ unsaid (pNew x)) by (unfold unsaid; by rewrite elem_of_list_filter). rewrite P3 in Hu. by apply elem_of_nil in Hu. }
  destruct G as (t & Ht & Ec & Hs'). exists t. split; [done|]. split; [done|]. split; [done|].
  destruct (ni_state _ _ _ P1 t Ht Hs') as [E|E]; [|by apply (ni_live _ _ _ P1)]. apply (mi_live1 _ P2); [by rewrite (ni_phase _ _ _ P1)|done|by right].
Qed.
(* and once all new workers have said Ready the old manager is told so: it goes on to stop all its workers *)
Theorem C65_goes_on_partial : forall o0 cs k x, (k < 3)%nat -> Forall (fun ck => ck.2 = k) cs -> cs <> [] -> reloading o0 cs x ->
  (forall t, t ∈ gTasks (pNew x) -> tPid t ∈ gSaid (pNew x)) -> MDone ∈ gOut (pNew x).
Proof.
  intros o0 cs k x Hk HF Hc H Ha. destruct (pinv_reach o0 cs k x Hk HF H) as [P1 P2 P3]. apply (ni_done2 _ _ _ P1); [|done].
  destruct (unsaid (pNew x)) as [|t l] eqn:E; [done|]. exfalso. assert (Hu : t ∈ unsaid (pNew x)) by (rewrite E; left). unfold unsaid in Hu. apply elem_of_list_filter in Hu as [Hn Hu]. by apply Hn, Ha.
Qed.

(* ---- concrete runs ---- *)
Lemma mrun_ex s tr (P : mgr -> Prop) `{forall s, Decision (P s)} : match mrun s tr with Some s' => bool_decide (P s') | None => false end = true -> exists s', mrun s tr = Some s' /\ P s'.
Proof. destruct (mrun s tr) as [s'|]; [|done]. intros E. exists s'. split; [done|by apply bool_decide_eq_true in E]. Qed.
Definition prun (x : pair) (tr : list pevt) : option pair := fold_left (fun o e => o ≫= fun x => pstep x e) tr (Some x).
(* two configurations: the worker of the first crashes, is started again and registered; both are told to stop at the signal *)
Theorem C64_witness : exists s, mrun (mstart [(0, 0); (1, 0)]%nat)
    [EInsert 0; EInsert 1; EReady 0; EReady 1; EExit 0; ERestart 0; EInsert 0; ESignal true; EDrain 0; EDone 0; EReturn; EDrain 1; EReturn; EQuit] = Some s /\
  gLive s = {[1; 2]}%nat /\ gTold s = {[0; 1; 2]}%nat /\ gPhase s = PEnd.
Proof. apply (mrun_ex _ _ (fun s => gLive s = {[1; 2]}%nat /\ gTold s = {[0; 1; 2]}%nat /\ gPhase s = PEnd)). vm_compute. done. Qed.
(* "after stop or reload no worker is left running untold" is false: while the drain waits for one worker (up to 3 minutes) another,
   whose process has ended by itself, is started again; its entry has been taken already, or cannot be written (358), so
   nobody tells it: it runs on after the manager has ended. *)
Theorem C64_orphan_refuted : exists s p, mrun (mstart [(0, 0); (1, 0)]%nat)
    [EInsert 0; EInsert 1; EReady 0; EReady 1; ESignal true; EDrain 0; EExit 0; EReturn; EDrain 1; ERestart 0; EReturn; EQuit] = Some s /\
  gPhase s = PEnd /\ p ∈ gLive s /\ p ∉ gTold s.
Proof.
  destruct (mrun_ex (mstart [(0, 0); (1, 0)]%nat) [EInsert 0; EInsert 1; EReady 0; EReady 1; ESignal true; EDrain 0; EExit 0; EReturn; EDrain 1; ERestart 0; EReturn; EQuit]
    (fun s => gPhase s = PEnd /\ 2%nat ∈ gLive s /\ 2%nat ∉ gTold s)) as (s & H & G).
  { vm_compute. done. }
  by exists s, 2%nat.
Qed.

(* an old manager with a server and a client, both ready, that has got the reload signal; and the new one *)
Definition old2 : list mevt := [EInsert 0; EInsert 1; EReady 0; EReady 1; ESignal false].
Lemma both_ex s tr cs tr2 (P : mgr -> pair -> Prop) `{forall s x, Decision (P s x)} :
  match mrun s tr with Some o => match prun (mkP o (mstart cs) 0) tr2 with Some x => bool_decide (P o x) | None => false end | None => false end = true ->
  exists o x, mrun s tr = Some o /\ prun (mkP o (mstart cs) 0) tr2 = Some x /\ P o x.
Proof. destruct (mrun s tr) as [o|]; [|done]. destruct (prun _ tr2) as [x|] eqn:Ex; [|done]. intros E. exists o, x. by apply bool_decide_eq_true in E. Qed.
Definition no_ready (n : mgr) (c : nat) : Prop := Forall (fun t => tConf t = c -> tPid t ∉ gSaid n) (gTasks n).
Lemma no_ready_spec n c : no_ready n c -> ~ has_ready n c.
Proof. intros F (t & Ht & Ec & Hs & _). unfold no_ready in F. rewrite Forall_forall in F. by eapply F. Qed.
#[global] Instance no_ready_dec n c : Decision (no_ready n c). Proof. unfold no_ready. apply _. Defined.

(* The property is false with configurations of two kinds: the new server is ready, which is reported as "all are ready" (350: a
   counter for each kind), and the old client is told to stop though the new client is not ready. *)
Theorem C65_two_kinds_refuted : exists o x, mrun (mstart [(0, 0); (1, 1)]%nat) old2 = Some o /\
  prun (mkP o (mstart [(0, 0); (1, 1)]%nat) 0) [New (EInsert 0); New (EInsert 1); New (EReady 0); Old (ERead MDone); Old (EDrain 1)] = Some x /\
  1%nat ∈ gTold (pOld x) /\ ~ has_ready (pNew x) 1.
Proof.
  match goal with |- exists o x, mrun ?s ?tr = _ /\ prun (mkP _ (mstart ?cs) _) ?tr2 = _ /\ _ => destruct (both_ex s tr cs tr2 (fun o x => 1%nat ∈ gTold (pOld x) /\ no_ready (pNew x) 1)) as (o & x & H & Hx & A & B) end.
  { vm_compute. done. }
  exists o, x. split; [done|]. split; [done|]. split; [done|by apply no_ready_spec].
Qed.
(* "if the new workers cannot be started the old ones stay": false.  A new manager that fails (bad configuration, say) closes its output,
   and the old one goes on to stop all of its workers. *)
Theorem C65_failed_start_refuted : exists o x, mrun (mstart [(0, 0); (1, 0)]%nat) old2 = Some o /\
  prun (mkP o (mstart []) 0) [Old EEnd; Old (EDrain 0); Old EReturn; Old (EDrain 1); Old EReturn; Old EQuit] = Some x /\
  gTold (pOld x) = {[0; 1]}%nat /\ gLive (pNew x) = ∅.
Proof.
  match goal with |- exists o x, mrun ?s ?tr = _ /\ prun (mkP _ (mstart ?cs) _) ?tr2 = _ /\ _ => destruct (both_ex s tr cs tr2 (fun o x => gTold (pOld x) = {[0; 1]}%nat /\ gLive (pNew x) = ∅)) as (o & x & H & Hx & A & B) end.
  { vm_compute. done. }
  by exists o, x.
Qed.
(* nor can the hypothesis that no new worker ends after its Ready be dropped: one that does and says Ready again is counted twice *)
Theorem C65_twice_refuted : exists o x, mrun (mstart [(0, 0); (1, 0)]%nat) old2 = Some o /\
  prun (mkP o (mstart [(0, 0); (1, 0)]%nat) 0) [New (EInsert 0); New (EInsert 1); New (EReady 0); New (EExit 0); New (ERestart 0); New (EInsert 0); New (EReady 0);
    Old (ERead (MReady 0)); Old EReturn; Old (ERead MDone); Old (EDrain 1)] = Some x /\ 1%nat ∈ gTold (pOld x) /\ ~ has_ready (pNew x) 1.
Proof.
  match goal with |- exists o x, mrun ?s ?tr = _ /\ prun (mkP _ (mstart ?cs) _) ?tr2 = _ /\ _ => destruct (both_ex s tr cs tr2 (fun o x => 1%nat ∈ gTold (pOld x) /\ no_ready (pNew x) 1)) as (o & x & H & Hx & A & B) end.
  { vm_compute. done. }
  exists o, x. split; [done|]. split; [done|]. split; [done|by apply no_ready_spec].
Qed.
(* an orderly reload of two servers: a state in which C65_no_gap_partial applies to the last step *)
Theorem C65_witness : exists o x, mrun (mstart [(0, 0); (1, 0)]%nat) old2 = Some o /\ reloading o [(0, 0); (1, 0)]%nat x /\
  gOut (pNew x) = [MReady 1; MDone] /\ gTold (pOld x) = {[1]}%nat /\ tells x 0 /\ has_ready (pNew x) 0.
Proof.
  set (tr := [New (EInsert 0); New (EInsert 1); New (EReady 1); Old (ERead (MReady 1)); New (EReady 0); Old EReturn; Old (ERead MDone)]).
  destruct (both_ex (mstart [(0, 0); (1, 0)]%nat) old2 [(0, 0); (1, 0)]%nat tr (fun o x => gPhase o = PRead /\ gOut (pNew x) = [MReady 1; MDone] /\ gTold (pOld x) = {[1]}%nat /\
    is_Some (pstep x (Old (EDrain 0))) /\ is_Some (gMap (pOld x) !! 0%nat))) as (o & x & H & Hx & Hp & A & B & D & E).
  { vm_compute. done. }
  assert (R : reloading o [(0, 0); (1, 0)]%nat x).
  { clear -Hx Hp. assert (Ho : Forall (fun e => forall x, orderly x e) tr) by (repeat constructor; done).
    assert (G : forall tr y, reloading o [(0, 0); (1, 0)]%nat y -> Forall (fun e => forall x, orderly x e) tr -> prun y tr = Some x -> reloading o [(0, 0); (1, 0)]%nat x).
    { clear. induction tr as [|e tr IH]; intros y Hy F Hr; [by injection Hr as <-|]. apply Forall_cons in F as [Fe F]. unfold prun in Hr. cbn [fold_left mbind option_bind] in Hr.
      destruct (pstep y e) as [y'|] eqn:Ey; [|exfalso; clear -Hr; by induction tr]. eapply IH; [|done|exact Hr]. by eapply rl_step. }
    eapply G; [by constructor|exact Ho|exact Hx]. }
  exists o, x. split; [done|]. split; [done|]. split; [done|]. split; [done|]. destruct D as [x' D].
  assert (T : tells x 0) by (exists (EDrain 0), x'; auto). split; [done|]. eapply (C65_no_gap_partial o [(0, 0); (1, 0)]%nat 0 x 0); [lia|by repeat constructor|done|done|set_solver].
Qed.
