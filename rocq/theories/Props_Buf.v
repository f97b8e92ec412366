(* Props_Buf.v -- C74: what one connection sends never contains the bytes of another *)
From Verif Require Import GoBase BufModel.
Local Open Scope N_scope.

(* ---- in terms of what happened ---- *)
(* what u has copied last (nothing yet: no bytes) *)
Definition last_copied (u : nat) (tr : list bev) : bytes := fold_left (fun m e => match e with BCopy v x => if decide (v = u) then x else m | BGet v _ => if decide (v = u) then [] else m | _ => m end) tr [].
(* nobody touches a buffer after giving it back *)
Definition disciplined (tr : list bev) : Prop := forall a b u, (exists m, tr = a ++ BCopy u m :: b) \/ tr = a ++ BSend u :: b -> BPut u ∉ a.
(* everything that was sent, with the sender's own bytes *)
Fixpoint should_send (done : list bev) (tr : list bev) : list (nat * bytes) :=
  match tr with [] => [] | e :: tr => match e with BSend u => [(u, last_copied u done)] | _ => [] end ++ should_send (done ++ [e]) tr end.

Lemma brun_snoc tr e : brun (tr ++ [e]) = brun tr ≫= fun s => bstep s e. Proof. unfold brun. by rewrite fold_left_app. Qed.
Lemma last_snoc u tr e : last_copied u (tr ++ [e]) = match e with BCopy v x => if decide (v = u) then x else last_copied u tr | BGet v _ => if decide (v = u) then [] else last_copied u tr | _ => last_copied u tr end.
Proof. unfold last_copied. rewrite fold_left_app. by destruct e. Qed.
Lemma should_snoc d tr e : should_send d (tr ++ [e]) = should_send d tr ++ match e with BSend u => [(u, last_copied u (d ++ tr))] | _ => [] end.
Proof. revert d. induction tr as [|x tr IH]; intros d; cbn; [by rewrite !app_nil_r|]. rewrite IH, app_assoc. f_equal. by rewrite <- (app_assoc d [x] tr). Qed.
Lemma disc_app a b : disciplined (a ++ b) -> disciplined a.
Proof. intros H x y u [[m ->]| ->]; apply (H x (y ++ b)); [left; exists m|right]; by rewrite <- app_assoc. Qed.
Lemma take_over m old : take (length m) (overwrite m old) = m.
Proof. unfold overwrite. by rewrite take_app. Qed.

Record binv (tr : list bev) (s : bst) : Prop := {
  i_mine : forall u x, bUsers s !! u = Some x -> uMine x = last_copied u tr /\ (uBack x = true <-> BPut u ∈ tr) /\ is_Some (bData s !! uBuf x);
  i_none : forall u, bUsers s !! u = None -> BPut u ∉ tr;
  i_own : forall u x, bUsers s !! u = Some x -> uBack x = false -> uBuf x ∉ bFree s /\ take (length (uMine x)) (default [] (bData s !! uBuf x)) = uMine x;
  i_distinct : forall u v x y, bUsers s !! u = Some x -> bUsers s !! v = Some y -> uBack x = false -> uBack y = false -> uBuf x = uBuf y -> u = v;
  i_sent : bSent s = rev (should_send [] tr) }.
Lemma binv_run tr s : brun tr = Some s -> disciplined tr -> binv tr s.
Proof.
  revert s. induction tr as [|e tr IH] using rev_ind; intros s.
  - intros [= <-] _. split; cbn; try done. intros u _. apply not_elem_of_nil.
  - rewrite brun_snoc. intros (s1 & H1 & He)%bind_Some Hd. pose proof (IH s1 H1 (disc_app _ _ Hd)) as [Im In Io Id Is].
    assert (forall u, (forall v, e <> BPut v) -> BPut u ∈ tr ++ [e] <-> BPut u ∈ tr) as Hput.
    { intros u Hn. rewrite elem_of_app, elem_of_list_singleton. split; [intros [?|E]; [done|by destruct (Hn u)]|by left]. }
    destruct e as [u b|u m|u|u]; cbn [bstep] in He.
    + destruct (bUsers s1 !! u) as [x0|] eqn:Eu; [rewrite bool_decide_eq_true_2 in He by eauto; done|]. rewrite (bool_decide_eq_false_2 (is_Some None)) in He by (by intros []).
      destruct (bool_decide (b ∈ bFree s1) || negb (bool_decide (is_Some (bData s1 !! b)))) eqn:Eb; [|done]. injection He as <-.
      assert (forall v x, bUsers s1 !! v = Some x -> uBack x = false -> uBuf x <> b) as Hne.
      { intros v x Hv Hb Eq. destruct (Io v x Hv Hb) as [Hf _]. destruct (Im v x Hv) as (_ & _ & Hs). rewrite Eq in *. rewrite bool_decide_eq_false_2 in Eb by done. rewrite bool_decide_eq_true_2 in Eb by done. done. }
      split; cbn [bUsers bFree bData bSent].
      * intros v x. rewrite last_snoc, Hput by done. destruct (decide (u = v)) as [->|Hv].
        -- rewrite lookup_insert. intros [= <-]. cbn. split; [done|]. split; [split; [done|intros H; by apply In in Eu]|]. rewrite lookup_insert. eauto.
        -- rewrite lookup_insert_ne by done. intros Hx. destruct (Im v x Hx) as (H2 & H3 & H4). split_and!; [done|apply H3..|]. destruct (decide (b = uBuf x)) as [->|]; [rewrite lookup_insert; eauto|by rewrite lookup_insert_ne].
      * intros v. destruct (decide (u = v)) as [->|Hv]; [by rewrite lookup_insert|]. rewrite lookup_insert_ne by done. rewrite Hput by done. apply In.
      * intros v x. destruct (decide (u = v)) as [->|Hv].
        -- rewrite lookup_insert. intros [= <-] _. cbn. split; [set_solver|done].
        -- rewrite lookup_insert_ne by done. intros Hx Hb. pose proof (Hne v x Hx Hb). destruct (Io v x Hx Hb) as [Hf Ht]. split; [set_solver|]. by rewrite lookup_insert_ne.
      * intros v w x y. destruct (decide (u = v)) as [->|Hv], (decide (v = w)) as [<-|Hvw]; try done.
        -- rewrite lookup_insert, lookup_insert_ne by done. intros [= <-] Hy _ Hb E. cbn in E. by destruct (Hne w y Hy Hb).
        -- rewrite (lookup_insert_ne _ u v) by done. destruct (decide (u = w)) as [->|Hw].
           ++ rewrite lookup_insert. intros Hx [= <-] Hb _ E. cbn in E. by destruct (Hne v x Hx Hb).
           ++ rewrite lookup_insert_ne by done. apply Id.
      * rewrite should_snoc, app_nil_r. done.
    + apply bind_Some in He as (x0 & Eu & [= <-]).
      assert (uBack x0 = false) as Hb0. { destruct (Im u x0 Eu) as (_ & Hi & _). destruct (uBack x0); [|done]. exfalso. apply (Hd tr [] u); [left; eauto|]. by apply Hi. }
      split; cbn [bUsers bFree bData bSent].
      * intros v x. rewrite last_snoc, Hput by done. destruct (decide (u = v)) as [->|Hv].
        -- rewrite lookup_insert. intros [= <-]. cbn. destruct (Im v x0 Eu) as (H2 & H3 & H4). split_and!; [done|apply H3..|]. rewrite lookup_insert. eauto.
        -- rewrite lookup_insert_ne by done. intros Hx. destruct (Im v x Hx) as (H2 & H3 & H4). split_and!; [done|apply H3..|]. destruct (decide (uBuf x0 = uBuf x)) as [->|]; [rewrite lookup_insert; eauto|by rewrite lookup_insert_ne].
      * intros v. destruct (decide (u = v)) as [->|Hv]; [by rewrite lookup_insert|]. rewrite lookup_insert_ne by done. rewrite Hput by done. apply In.
      * intros v x. destruct (decide (u = v)) as [->|Hv].
        -- rewrite lookup_insert. intros [= <-] _. cbn. split; [by apply (Io v x0)|]. rewrite lookup_insert. apply take_over.
        -- rewrite lookup_insert_ne by done. intros Hx Hb. destruct (Io v x Hx Hb) as [Hf Ht]. split; [done|]. rewrite lookup_insert_ne; [done|]. intros E. apply Hv. by eapply (Id u v x0 x).
      * intros v w x y. destruct (decide (u = v)) as [->|Hv], (decide (v = w)) as [<-|Hvw]; try done.
        -- rewrite lookup_insert, lookup_insert_ne by done. intros [= <-] Hy _ Hb E. cbn in E. by eapply (Id v w x0 y).
        -- rewrite (lookup_insert_ne _ u v) by done. destruct (decide (u = w)) as [->|Hw].
           ++ rewrite lookup_insert. intros Hx [= <-] Hb _ E. cbn in E. by eapply (Id v w x x0).
           ++ rewrite lookup_insert_ne by done. apply Id.
      * rewrite should_snoc, app_nil_r. done.
    + apply bind_Some in He as (x0 & Eu & [= <-]). destruct (Im u x0 Eu) as (Hm & Hi & _).
      assert (uBack x0 = false) as Hb0. { destruct (uBack x0); [|done]. exfalso. apply (Hd tr [] u); [by right|]. by apply Hi. }
      split; cbn [bUsers bFree bData bSent]; try done.
      * intros v x Hx. rewrite last_snoc, Hput by done. by apply Im.
      * intros v Hv. rewrite Hput by done. by apply In.
      * rewrite should_snoc, rev_app_distr. cbn. rewrite <- Is. f_equal. f_equal. rewrite (proj2 (Io u x0 Eu Hb0)). done.
    + apply bind_Some in He as (x0 & Eu & He). destruct (uBack x0) eqn:Hb0; [done|]. injection He as <-.
      split; cbn [bUsers bFree bData bSent].
      * intros v x. rewrite last_snoc, elem_of_app, elem_of_list_singleton. destruct (decide (u = v)) as [->|Hv].
        -- rewrite lookup_insert. intros [= <-]. cbn. destruct (Im v x0 Eu) as (H2 & H3 & H4). split; [done|]. split; [|done]. split; [by right|done].
        -- rewrite lookup_insert_ne by done. intros Hx. destruct (Im v x Hx) as (H2 & H3 & H4). split; [done|]. split; [|done]. split; [intros ?; left; by apply H3|intros [?|[= E]]; [by apply H3|by destruct Hv]].
      * intros v. destruct (decide (u = v)) as [->|Hv]; [by rewrite lookup_insert|]. rewrite lookup_insert_ne by done. rewrite not_elem_of_app, elem_of_list_singleton. intros Hx. split; [by apply In|congruence].
      * intros v x. destruct (decide (u = v)) as [->|Hv]; [rewrite lookup_insert; intros [= <-]; done|]. rewrite lookup_insert_ne by done. intros Hx Hb. destruct (Io v x Hx Hb) as [Hf Ht]. split; [|done].
        assert (uBuf x0 <> uBuf x) by (intros E; apply Hv; by eapply (Id u v x0 x)). set_solver.
      * intros v w x y. destruct (decide (u = v)) as [->|Hv]; [rewrite lookup_insert; intros [= <-]; done|]. rewrite (lookup_insert_ne _ u v) by done.
        destruct (decide (u = w)) as [->|Hw]; [rewrite lookup_insert; intros ? [= <-]; done|]. rewrite lookup_insert_ne by done. apply Id.
      * rewrite should_snoc, app_nil_r. done.
Qed.
(* Whatever buffers the pool hands out and however the users are interleaved: as long as nobody touches a buffer that it has given
   back, everybody sends exactly what it copied itself *)
Theorem C74_own_bytes_partial tr s : brun tr = Some s -> disciplined tr -> rev (bSent s) = should_send [] tr.
Proof. intros Hr Hd. destruct (binv_run tr s Hr Hd) as [_ _ _ _ ->]. apply rev_involutive. Qed.
(* A task of a peer-to-peer visitor is closed while it answers: another visitor's task gets its buffer, and the first visitor is sent
   the second one's bytes *)
Theorem C74_closed_task_refuted : exists tr s, brun tr = Some s /\ should_send [] tr = [(1%nat, [1; 1; 1])] /\ bSent s = [(1%nat, [2; 2; 2])].
Proof.
  exists [BGet 1 0; BCopy 1 [1; 1; 1]; BPut 1; BGet 2 0; BCopy 2 [2; 2; 2; 2]; BSend 1]. eexists. split; [vm_compute; reflexivity|]. split; reflexivity.
Qed.
(* with the buffer given back at the end instead, as everywhere else, the same is fine *)
Theorem C74_witness : let tr := [BGet 1 0; BCopy 1 [1; 1; 1]; BGet 2 1; BCopy 2 [2; 2; 2; 2]; BSend 1; BPut 1; BGet 3 0; BCopy 3 [7]; BSend 3; BSend 2] in
  disciplined tr /\ exists s, brun tr = Some s /\ rev (bSent s) = [(1%nat, [1; 1; 1]); (3%nat, [7]); (2%nat, [2; 2; 2; 2])].
Proof.
  split; [|eexists; split; [vm_compute; reflexivity|reflexivity]]. intros a b u H Hin. apply elem_of_list_lookup in Hin as (i & Hi).
  do 11 (destruct a as [|? a]; [destruct H as [[m H]|H]; try discriminate H; injection H; intros; subst; repeat (destruct i as [|i]; try discriminate Hi)|]); destruct H as [[m H]|H]; discriminate H.
Qed.
