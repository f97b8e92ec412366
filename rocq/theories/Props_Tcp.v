(* Props_Tcp.v -- C28: TCP ports are never allocated twice and never lost *)
From Verif Require Import GoBase GoBaseLemmas HandshakeModel TcpModel.
Local Open Scope N_scope.

(* ---- specification ---- *)
(* the live listener of entry k is on port p *)
Definition holds (st : tcpst) (k : N * N) (p : N) : Prop := exists v, tLs st !! k = Some v /\ tlL v = Some (p, true).
(* every configured port is either free in the pool or held by exactly one live listener *)
Definition ports_ok (P0 : gset N) (st : tcpst) : Prop :=
  tPool st ⊆ P0
  /\ (forall k p, holds st k p -> p ∈ P0 /\ p ∉ tPool st)
  /\ (forall k k' p, holds st k p -> holds st k' p -> k = k')
  /\ (forall p, p ∈ P0 -> p ∈ tPool st \/ exists k, holds st k p).
(* no entry whose listener was closed without being replaced *)
Definition no_stale (st : tcpst) : Prop := forall k v p, tLs st !! k = Some v -> tlL v <> Some (p, false).

(* ---- the primitive steps ---- *)
Lemma ok_delete P0 c st si : ports_ok P0 st -> (forall v p, tLs st !! (c, si) = Some v -> tlL v <> Some (p, false)) ->
  ports_ok P0 (delete_listener c st si).
Proof.
  intros (H1 & H2 & H3 & H4) Hn. unfold delete_listener. destruct (tLs st !! (c, si)) as [v|] eqn:Hv; [|done].
  assert (forall k q, holds (mkTcp (match tlL v with Some (p, _) => {[ p ]} ∪ tPool st | None => tPool st end) (delete (c, si) (tLs st))) k q <->
    holds st k q /\ k <> (c, si)) as Hh.
  { intros k q. unfold holds. cbn. split.
    - intros (w & Hw & Hq). apply lookup_delete_Some in Hw as [Hne Hw]. split; [by exists w|done].
    - intros [(w & Hw & Hq) Hne]. exists w. split; [|done]. by rewrite lookup_delete_ne. }
  destruct (tlL v) as [[p o]|] eqn:Hl.
  - destruct o; [|by destruct (Hn v p)]. assert (holds st (c, si) p) as Hp by (by exists v).
    split; [|split; [|split]]; cbn [tPool].
    + destruct (H2 _ _ Hp) as [? _]. set_solver.
    + intros k q [Hq Hne]%Hh. destruct (H2 _ _ Hq) as [Ha Hb]. split; [done|]. apply not_elem_of_union. split; [|done].
      intros ->%elem_of_singleton. by apply Hne, (H3 _ _ p).
    + intros k k' q [Hq _]%Hh [Hq' _]%Hh. by eapply H3.
    + intros q Hq. destruct (decide (q = p)) as [->|Hne]; [left; set_solver|]. destruct (H4 q Hq) as [|[k Hk]]; [left; set_solver|].
      right. exists k. apply Hh. split; [done|]. intros ->. destruct Hk as (w & Hw & Hw'). rewrite Hv in Hw. injection Hw as <-. congruence.
  - split; [done|]. split; [|split]; cbn [tPool].
    + intros k q [Hq _]%Hh. by eapply H2.
    + intros k k' q [Hq _]%Hh [Hq' _]%Hh. by eapply H3.
    + intros q Hq. destruct (H4 q Hq) as [|[k Hk]]; [by left|]. right. exists k. apply Hh. split; [done|].
      intros ->. destruct Hk as (w & Hw & Hw'). rewrite Hv in Hw. injection Hw as <-. congruence.
Qed.
Lemma delete_lookup c st si k : tLs (delete_listener c st si) !! k = if decide (k = (c, si)) then None else tLs st !! k.
Proof.
  unfold delete_listener. destruct (tLs st !! (c, si)) as [v|] eqn:Hv; cbn; destruct (decide (k = (c, si))) as [->|Hne]; try done; [apply lookup_delete|by rewrite lookup_delete_ne].
Qed.
Lemma ok_delete_all P0 c st l : ports_ok P0 st ->
  (forall si v p, si ∈ l -> tLs st !! (c, si) = Some v -> tlL v <> Some (p, false)) ->
  ports_ok P0 (foldl (delete_listener c) st l).
Proof.
  revert st; induction l as [|si l IH]; intros st Hok Hn; [done|]. cbn. apply IH.
  - apply ok_delete; [done|]. intros v p. apply Hn. left.
  - intros si' v p Hin. rewrite delete_lookup. destruct (decide _); [done|]. apply Hn. by right.
Qed.
Lemma delete_all_lookup c st l k v : tLs (foldl (delete_listener c) st l) !! k = Some v -> tLs st !! k = Some v.
Proof.
  revert st; induction l as [|si l IH]; intros st; [done|]. cbn. intros H. apply IH in H. rewrite delete_lookup in H. by destruct (decide _).
Qed.
Lemma delete_all_gone c st l k v : tLs (foldl (delete_listener c) st l) !! k = Some v -> fst k = c -> snd k ∉ l.
Proof.
  revert st; induction l as [|si l IH]; intros st; [set_solver|]. cbn. intros H Hk. apply not_elem_of_cons. split; [|by eapply IH].
  intros Hs. apply delete_all_lookup in H. rewrite delete_lookup in H. destruct (decide _) as [|Hne]; [done|]. destruct k; cbn in *. by subst.
Qed.
Lemma delete_all_kept c st l k : (fst k <> c \/ snd k ∉ l) -> tLs (foldl (delete_listener c) st l) !! k = tLs st !! k.
Proof.
  revert st; induction l as [|si l IH]; intros st H; [done|]. cbn. rewrite IH.
  - rewrite delete_lookup. destruct (decide (k = (c, si))) as [->|]; [|done]. cbn in H. destruct H as [|H]; [done|]. set_solver.
  - destruct H as [|H]; [by left|right; set_solver].
Qed.
(* entry k, not holding a port, is replaced by one that does not hold one either *)
Lemma ok_neutral P0 st k v : ports_ok P0 st -> (forall p, ~ holds st k p) -> (forall p, tlL v <> Some (p, true)) ->
  ports_ok P0 (mkTcp (tPool st) (<[k := v]> (tLs st))).
Proof.
  intros (H1 & H2 & H3 & H4) Hk Hv.
  assert (forall k' q, holds (mkTcp (tPool st) (<[k := v]> (tLs st))) k' q <-> holds st k' q) as Hh.
  { intros k' q. unfold holds. cbn. destruct (decide (k = k')) as [<-|Hne].
    - rewrite lookup_insert. split; [intros (w & [= <-] & Hw); by apply Hv in Hw|]. intros H. by destruct (Hk q).
    - by rewrite lookup_insert_ne. }
  split; [done|]. split; [|split]; cbn [tPool].
  - intros k' q Hq%Hh. by eapply H2.
  - intros k1 k2 q Hq1%Hh Hq2%Hh. by eapply H3.
  - intros q Hq. destruct (H4 q Hq) as [|[k' Hk']]; [by left|right]. exists k'. by apply Hh.
Qed.
(* the open listener of entry k is closed and its port given back *)
Lemma ok_return P0 st k p v : ports_ok P0 st -> holds st k p -> (forall q, tlL v <> Some (q, true)) ->
  ports_ok P0 (mkTcp ({[ p ]} ∪ tPool st) (<[k := v]> (tLs st))).
Proof.
  intros (H1 & H2 & H3 & H4) Hk Hv.
  assert (forall k' q, holds (mkTcp ({[ p ]} ∪ tPool st) (<[k := v]> (tLs st))) k' q <-> holds st k' q /\ k' <> k) as Hh.
  { intros k' q. unfold holds. cbn. destruct (decide (k = k')) as [<-|Hne].
    - rewrite lookup_insert. split; [intros (w & [= <-] & Hw); by apply Hv in Hw|]. by intros [_ ?].
    - rewrite lookup_insert_ne by done. split; [by intros ?|by intros [? _]]. }
  split; [|split; [|split]]; cbn [tPool].
  - destruct (H2 _ _ Hk). set_solver.
  - intros k' q [Hq Hne]%Hh. destruct (H2 _ _ Hq). split; [done|]. apply not_elem_of_union. split; [|done]. intros ->%elem_of_singleton. by apply Hne, (H3 _ _ p).
  - intros k1 k2 q [Hq1 _]%Hh [Hq2 _]%Hh. by eapply H3.
  - intros q Hq. destruct (decide (q = p)) as [->|Hne]; [left; set_solver|]. destruct (H4 q Hq) as [|[k' Hk']]; [left; set_solver|].
    right. exists k'. apply Hh. split; [done|]. intros ->. destruct Hk as (w & Hw & Hw'), Hk' as (w' & Hw1 & Hw2). rewrite Hw in Hw1. injection Hw1 as <-. congruence.
Qed.
(* a free port is opened on entry k, which holds none *)
Lemma ok_open P0 st k p v : ports_ok P0 st -> (forall q, ~ holds st k q) -> p ∈ tPool st -> tlL v = Some (p, true) ->
  ports_ok P0 (mkTcp (tPool st ∖ {[ p ]}) (<[k := v]> (tLs st))).
Proof.
  intros (H1 & H2 & H3 & H4) Hk Hp Hv.
  assert (forall k' q, holds (mkTcp (tPool st ∖ {[ p ]}) (<[k := v]> (tLs st))) k' q <-> holds st k' q \/ (k' = k /\ q = p)) as Hh.
  { intros k' q. unfold holds. cbn. destruct (decide (k = k')) as [<-|Hne].
    - rewrite lookup_insert. split; [intros (w & [= <-] & Hw); right; split; [done|congruence]|]. intros [H|[_ ->]]; [by destruct (Hk q)|by exists v].
    - rewrite lookup_insert_ne by done. split; [by left|by intros [|[? _]]]. }
  split; [|split; [|split]]; cbn [tPool].
  - set_solver.
  - intros k' q [Hq|[-> ->]]%Hh; [|set_solver]. destruct (H2 _ _ Hq). set_solver.
  - intros k1 k2 q [Hq1|[-> ->]]%Hh [Hq2|[-> E]]%Hh; [by eapply H3| | |done].
    + subst. destruct (H2 _ _ Hq1). done.
    + destruct (H2 _ _ Hq2). done.
  - intros q Hq. destruct (decide (q = p)) as [->|Hne]; [right; exists k; apply Hh; by right|]. destruct (H4 q Hq) as [|[k' Hk']]; [left; set_solver|].
    right. exists k'. apply Hh. by left.
Qed.

(* ---- processTCPOptions ---- *)
Section P.
Context (P0 : gset N) (c : N) (shuf : nat -> forall A : Type, list A -> list A) (listen : N -> N -> bool -> bool).
Hypothesis (shuf_perm : forall n (A : Type) (l : list A), Permutation (shuf n A l) l).

Lemma open_random_in si ps r p : open_random listen si ps r = Some p -> p ∈ ps.
Proof. revert r; induction ps as [|q ps IH]; intros [|r]; cbn; try done. destruct (listen si q true); [intros [= ->]; left|intros H; right; by eapply IH]. Qed.
Lemma open_spec si v st : 
  match open_tcp_port c shuf listen si v st with
  | (None, st') => st' = st
  | (Some p, st') => p ∈ tPool st /\ st' = mkTcp (tPool st ∖ {[ p ]}) (<[(c, si) := mkTl (Some (p, true)) (tlPort v) (tlRandom v)]> (tLs st))
                     /\ (p = tlPort v \/ tlRandom v = true)
  end.
Proof.
  unfold open_tcp_port. destruct (decide (tPool st = ∅)); [done|].
  destruct (bool_decide_reflect (tlPort v ∈ tPool st)) as [Hin|Hin]; cbn [andb].
  - destruct (listen si (tlPort v) false); [by split; [|split; [|left]]|]. destruct (tlRandom v) eqn:Hr; cbn [negb]; [|done].
    destruct (open_random _ _ _ _) as [p|] eqn:Ho; [|done]. apply open_random_in in Ho. rewrite shuf_perm in Ho. apply elem_of_elements in Ho.
    split; [done|]. split; [done|by right].
  - destruct (tlRandom v) eqn:Hr; cbn [negb]; [|done].
    destruct (open_random _ _ _ _) as [p|] eqn:Ho; [|done]. apply open_random_in in Ho. rewrite shuf_perm in Ho. apply elem_of_elements in Ho.
    split; [done|]. split; [done|by right].
Qed.

Definition stale_only (st : tcpst) (P : N -> Prop) : Prop :=
  forall k v p, tLs st !! k = Some v -> tlL v = Some (p, false) -> exists si, k = (c, si) /\ P si.
Lemma tcp_loop_ok l st success told : ports_ok P0 st -> no_stale st -> NoDup (l.*1) -> (forall si, si ∈ success -> si ∉ l.*1) ->
  match tcp_loop c shuf listen l st success told with
  | (b, st', success', _) =>
      ports_ok P0 st' /\ stale_only st' (fun si => b = false /\ si ∉ success')
  end.
Proof.
  revert st success told; induction l as [|[si [port random]] l IH]; intros st success told Hok Hns Hnd Hdis; cbn [tcp_loop].
  { split; [done|]. intros k v p Hk Hv. by destruct (Hns k v p). }
  cbn in Hnd. apply NoDup_cons in Hnd as [Hsi Hnd].
  assert (forall s, s ∈ success -> s ∉ l.*1) as Hdis' by (intros s Hs; apply Hdis in Hs; cbn in Hs; set_solver).
  assert (si ∉ success) as Hsn by (intros Hs; apply Hdis in Hs; cbn in Hs; set_solver).
  (* opening a port for an entry that holds none *)
  assert (forall v st, ports_ok P0 st -> (forall k w p, k <> (c, si) -> tLs st !! k = Some w -> tlL w <> Some (p, false)) ->
    (forall q, ~ holds st (c, si) q) ->
    match (match open_tcp_port c shuf listen si v st with
          | (Some p, st) => tcp_loop c shuf listen l st (success ++ [si]) (told ++ [(si, p)])
          | (None, st) => (false, st, success, told)
          end) with
    | (b, st', success', _) => ports_ok P0 st' /\ stale_only st' (fun si => b = false /\ si ∉ success')
    end) as Hgo.
  { intros v0 st0 Hok0 Hns0 Hh0. pose proof (open_spec si v0 st0) as Ho.
    destruct (open_tcp_port c shuf listen si v0 st0) as [[p|] st1].
    - destruct Ho as (Hp & -> & _). apply IH.
      + apply ok_open; try done.
      + intros k w q Hk. cbn in Hk. destruct (decide (k = (c, si))) as [->|Hne].
        * rewrite lookup_insert in Hk. injection Hk as <-. done.
        * rewrite lookup_insert_ne in Hk by done. by eapply Hns0.
      + done.
      + intros s Hs. apply elem_of_app in Hs as [Hs|Hs]; [by apply Hdis'|apply elem_of_list_singleton in Hs as ->; done].
    - subst st1. split; [done|]. intros k w q Hk Hw. destruct (decide (k = (c, si))) as [->|Hne]; [by exists si|]. by destruct (Hns0 k w q). }
  destruct (tLs st !! (c, si)) as [v|] eqn:Hv; cbn [default from_option id].
  - destruct (tlL v) as [[p o]|] eqn:Hl.
    + destruct o; [|by destruct (Hns _ _ p Hv)]. assert (holds st (c, si) p) as Hh by (by exists v).
      assert (mkTcp (tPool st) (<[(c, si) := v]> (tLs st)) = st) as -> by (rewrite insert_id by done; by destruct st).
      destruct ((p =? port) || random); [by apply IH|]. cbn [tPool tLs]. apply Hgo.
      * by apply ok_return.
      * intros k w q Hne Hk. cbn in Hk. rewrite lookup_insert_ne in Hk by done. by eapply Hns.
      * intros q (w & Hw & Hq). cbn in Hw. rewrite lookup_insert in Hw. injection Hw as <-. done.
    + assert (mkTcp (tPool st) (<[(c, si) := v]> (tLs st)) = st) as -> by (rewrite insert_id by done; by destruct st).
      apply Hgo; [done|intros k w q _; apply Hns|]. intros q (w & Hw & Hq). rewrite Hv in Hw. injection Hw as <-. congruence.
  - apply Hgo.
    + apply ok_neutral; [done| |done]. intros p (w & Hw & _). congruence.
    + intros k w q Hne Hk. cbn in Hk. rewrite lookup_insert_ne in Hk by done. by eapply Hns.
    + intros q (w & Hw & Hq). cbn in Hw. rewrite lookup_insert in Hw. injection Hw as <-. done.
Qed.
Lemma process_tcp_ok ports st : ports_ok P0 st -> no_stale st ->
  match process_tcp c shuf listen ports st with
  | (b, st', _) => ports_ok P0 st' /\ (b = true -> no_stale st')
  end.
Proof.
  intros Hok Hns. unfold process_tcp.
  assert (NoDup ((shuf 1%nat _ (map_to_list ports)).*1)) as Hnd.
  { rewrite shuf_perm. apply NoDup_fst_map_to_list. }
  pose proof (tcp_loop_ok (shuf 1%nat _ (map_to_list ports)) st [] [] Hok Hns Hnd) as H. specialize (H ltac:(set_solver)).
  destruct (tcp_loop _ _ _ _ _ _ _) as [[[[] st1] succ] told]; destruct H as [H1 H2].
  - split.
    + apply ok_delete_all; [done|]. intros si v p _ Hv Hl. by destruct (H2 _ _ _ Hv Hl) as (? & _ & ? & _).
    + intros _ k v p Hk%delete_all_lookup Hl. by destruct (H2 _ _ _ Hk Hl) as (? & _ & ? & _).
  - split; [|done]. apply ok_delete_all; [done|]. intros si v p Hin Hv Hl. destruct (H2 _ _ _ Hv Hl) as (? & [= <-] & _ & ?). done.
Qed.
End P.

(* ---- closeTCPListeners and the end of a client ---- *)
Lemma closed_pool c st p : p ∈ tPool (close_listeners c st) <->
  p ∈ tPool st \/ exists si v o, tLs st !! (c, si) = Some v /\ tlL v = Some (p, o).
Proof.
  unfold close_listeners. cbn [tPool]. rewrite elem_of_union, elem_of_list_to_set, elem_of_list_omap. split.
  - intros [([[c' si] v] & Hin & Hx)|]; [|by left]. right. apply elem_of_map_to_list in Hin. cbn in Hx. destruct (decide (c' = c)) as [->|]; [|done].
    destruct (tlL v) as [[q o]|] eqn:Hl; [|done]. injection Hx as <-. by exists si, v, o.
  - intros [|(si & v & o & Hv & Hl)]; [by right|]. left. exists ((c, si), v). split; [by apply elem_of_map_to_list|]. cbn.
    destruct (decide (c = c)); [|done]. by rewrite Hl.
Qed.
Lemma ended_lookup c st k : tLs (drop_client c (close_listeners c st)) !! k = if decide (fst k = c) then None else tLs st !! k.
Proof.
  unfold drop_client, close_listeners. cbn [tLs]. destruct (decide (fst k = c)) as [Hk|Hk].
  - apply map_filter_lookup_None. right. intros v _. by intros [].
  - destruct (tLs st !! k) as [v|] eqn:Hv.
    + apply map_filter_lookup_Some. rewrite map_lookup_imap, Hv. cbn. destruct (decide (fst k = c)); done.
    + apply map_filter_lookup_None. left. by rewrite map_lookup_imap, Hv.
Qed.
Lemma end_client_ok P0 c st : ports_ok P0 st -> no_stale st ->
  ports_ok P0 (drop_client c (close_listeners c st)) /\ no_stale (drop_client c (close_listeners c st)).
Proof.
  intros (H1 & H2 & H3 & H4) Hns. set (st' := drop_client c (close_listeners c st)).
  assert (forall k q, holds st' k q <-> holds st k q /\ fst k <> c) as Hh.
  { intros k q. unfold holds, st'. setoid_rewrite ended_lookup. destruct (decide (fst k = c)); split.
    - by intros (? & ? & _).
    - by intros [_ ?].
    - intros H. by split.
    - by intros [H _]. }
  assert (forall p, p ∈ tPool st' <-> p ∈ tPool st \/ exists si, holds st (c, si) p) as Hp.
  { intros p. unfold st', drop_client. cbn [tPool]. rewrite closed_pool. split; (intros [|H]; [by left|right]).
    - destruct H as (si & v & o & Hv & Hl). exists si, v. split; [done|]. destruct o; [done|]. by destruct (Hns _ _ p Hv).
    - destruct H as (si & v & Hv & Hl). by exists si, v, true. }
  split.
  - split; [|split; [|split]].
    + intros p [?|[si Hs]]%Hp; [by apply H1|by eapply H2].
    + intros k p [Hk Hne]%Hh. destruct (H2 _ _ Hk) as [Ha Hb]. split; [done|]. intros [?|[si Hs]]%Hp; [done|]. apply Hne. by rewrite (H3 _ _ _ Hk Hs).
    + intros k k' p [Hk _]%Hh [Hk' _]%Hh. by eapply H3.
    + intros p Hin. destruct (H4 p Hin) as [|[[c' si] Hk]]; [left; apply Hp; by left|]. destruct (decide (c' = c)) as [->|].
      * left. apply Hp. right. by exists si.
      * right. exists (c', si). by apply Hh.
  - intros k v p. unfold st'. rewrite ended_lookup. destruct (decide _); [done|]. apply Hns.
Qed.

(* ---- histories ---- *)
(* Everything that happens to one ports manager: clients processing their TCP options (new tunnels and reloads), with
   any order of iteration and any failures of Listen, and clients losing their last tunnel. *)
Inductive tcp_reach (P0 : gset N) : tcpst -> Prop :=
  | tr_start : tcp_reach P0 (mkTcp P0 ∅)
  | tr_process c shuf listen ports st b st' told :
      tcp_reach P0 st -> (forall n (A : Type) (l : list A), Permutation (shuf n A l) l) ->
      no_stale st ->   (* see C28_stale_refuted for what happens otherwise *)
      process_tcp c shuf listen ports st = (b, st', told) -> tcp_reach P0 st'
  | tr_end c st : tcp_reach P0 st -> no_stale st -> tcp_reach P0 (drop_client c (close_listeners c st)).
(* C28: every configured port is free or held by exactly one live listener *)
Theorem C28_ports_partition_partial P0 st : tcp_reach P0 st ->
  tPool st ⊆ P0
  /\ (forall k p, holds st k p -> p ∈ P0 /\ p ∉ tPool st)
  /\ (forall k k' p, holds st k p -> holds st k' p -> k = k')
  /\ (forall p, p ∈ P0 -> p ∈ tPool st \/ exists k, holds st k p).
Proof.
  change (tcp_reach P0 st -> ports_ok P0 st). induction 1 as [|c shuf listen ports st b st' told _ IH Hs Hns Hp|c st _ IH Hns].
  - unfold ports_ok, holds. cbn. split; [done|]. split; [intros k p (v & Hv & _); by rewrite lookup_empty in Hv|].
    split; [intros k k' p (v & Hv & _); by rewrite lookup_empty in Hv|]. by left.
  - pose proof (process_tcp_ok P0 c shuf listen Hs ports st IH Hns) as H. rewrite Hp in H. apply H.
  - by apply end_client_ok.
Qed.
(* the proviso no_stale can only be lost when a listener could not be reopened in a failing registration *)
Theorem C28_no_stale_kept P0 c shuf listen ports st st' told : tcp_reach P0 st ->
  (forall n (A : Type) (l : list A), Permutation (shuf n A l) l) -> no_stale st ->
  process_tcp c shuf listen ports st = (true, st', told) -> no_stale st'.
Proof.
  intros Hr Hs Hns Hp. pose proof (process_tcp_ok P0 c shuf listen Hs ports st (C28_ports_partition_partial _ _ Hr) Hns) as H. rewrite Hp in H. by apply H.
Qed.
(* C28: closing a client's listeners gives its ports back *)
Theorem C28_closing_returns c st si v p : tLs st !! (c, si) = Some v -> tlL v = Some (p, true) ->
  p ∈ tPool (drop_client c (close_listeners c st)).
Proof. intros Hv Hl. unfold drop_client. cbn [tPool]. apply closed_pool. right. by exists si, v, true. Qed.

(* a client that has no listener yet gets what it asked for *)
Lemma tcp_loop_fresh c shuf listen l st success told st' succ' told' :
  (forall n (A : Type) (l : list A), Permutation (shuf n A l) l) ->
  NoDup (l.*1) -> (forall si, si ∈ l.*1 -> tLs st !! (c, si) = None) ->
  tcp_loop c shuf listen l st success told = (true, st', succ', told') ->
  (forall k, (fst k = c -> snd k ∉ l.*1) -> tLs st' !! k = tLs st !! k)
  /\ exists t, told' = told ++ t /\ t.*1 = l.*1 /\
     Forall2 (fun a b => fst a = fst b /\ holds st' (c, fst b) (snd b) /\ (snd b = fst (snd a) \/ snd (snd a) = true)) l t.
Proof.
  intros Hs. revert st success told; induction l as [|[si [port random]] l IH]; intros st success told Hnd Hfr; cbn [tcp_loop].
  { intros [= -> -> ->]. split; [done|]. exists []. by rewrite app_nil_r. }
  cbn in Hnd. apply NoDup_cons in Hnd as [Hsi Hnd]. rewrite (Hfr si) by (cbn; left). cbn [default].
  pose proof (open_spec c shuf listen Hs si (mkTl None port random) (mkTcp (tPool st) (<[(c, si) := mkTl None port random]> (tLs st)))) as Ho.
  destruct (open_tcp_port _ _ _ _ _ _) as [[p|] st1]; [|done]. destruct Ho as (Hp & -> & Hc). cbn [tPool tLs tlPort tlRandom] in *.
  intros H. apply IH in H as (Hk & t & -> & Ht & Hf); [|done|].
  - split.
    + intros k Hk'. rewrite Hk.
      * cbn. destruct (decide (k = (c, si))) as [->|]; [destruct Hk'; [done|cbn; left]|]. by rewrite !lookup_insert_ne.
      * intros E. specialize (Hk' E). cbn in Hk'. set_solver.
    + exists ((si, p) :: t). rewrite <- app_assoc. split; [done|]. split; [cbn; by f_equal|]. constructor; [|done]. cbn. split; [done|]. split; [|done].
      exists (mkTl (Some (p, true)) port random). split; [|done]. rewrite Hk by done. cbn. by rewrite lookup_insert.
  - intros si' Hin. cbn. assert (si' <> si) by (intros ->; done). rewrite !lookup_insert_ne by congruence. apply Hfr. cbn. by right.
Qed.
Theorem C28_opened c shuf listen ports st st' told :
  (forall n (A : Type) (l : list A), Permutation (shuf n A l) l) ->
  (forall si, tLs st !! (c, si) = None) ->
  process_tcp c shuf listen ports st = (true, st', told) ->
  (forall si port random, ports !! si = Some (port, random) ->
     exists p, holds st' (c, si) p /\ (si, p) ∈ told /\ (p = port \/ random = true))
  /\ (forall si p, (si, p) ∈ told -> is_Some (ports !! si)).
Proof.
  intros Hs Hfr. unfold process_tcp. destruct (tcp_loop _ _ _ _ _ _ _) as [[[[] st1] succ] told1] eqn:Hl; [|done]. intros [= <- <-].
  apply tcp_loop_fresh in Hl as (_ & t & -> & Ht & Hf); [|done|by rewrite Hs; apply NoDup_fst_map_to_list|done]. cbn [app].
  split.
  - intros si port random Hin. apply elem_of_map_to_list in Hin. rewrite <- (Hs 1%nat) in Hin. apply elem_of_list_lookup in Hin as [i Hi].
    destruct (Forall2_lookup_l _ _ _ _ _ Hf Hi) as ([si' p] & Hti & Hsi & Hh & Hp). cbn in *. subst si'. exists p. split; [|split; [|done]].
    + destruct Hh as (v & Hv & Hvl). exists v. split; [|done]. rewrite delete_all_kept; [done|]. right. cbn.
      intros H%elem_of_list_fmap. destruct H as ([c' si'] & Hsi' & H). cbn in Hsi'. subst si'. rewrite Hs in H. apply elem_of_list_filter in H as [[_ H] _]. cbn in H.
      apply elem_of_list_lookup_2 in Hi. rewrite Hs in Hi. apply elem_of_map_to_list in Hi. congruence.
    + by eapply elem_of_list_lookup_2.
  - intros si p Hin. assert (si ∈ t.*1) as Hin' by (apply elem_of_list_fmap; by exists (si, p)). rewrite Ht in Hin'.
    apply elem_of_list_fmap in Hin' as ([si' x] & -> & Hin'). rewrite Hs in Hin'. apply elem_of_map_to_list in Hin'. by eexists.
Qed.
Definition noshuf : nat -> forall A : Type, list A -> list A := fun _ _ l => l.
Definition list_always : N -> N -> bool -> bool := fun _ _ _ => true.
Example C28_example :
  let '(b, st, told) := process_tcp 1 noshuf list_always {[ 0 := (10, false) ]} (mkTcp {[ 10; 11 ]} ∅) in
  b = true /\ told = [(0, 10)] /\ elements (tPool st) = [11] /\ bool_decide (tPool (drop_client 1 (close_listeners 1 st)) = {[ 10; 11 ]}) = true.
Proof. by vm_compute. Qed.

(* C28 refuted once a listener could not be reopened: client 1 (port 10) asks for port 11 on a reload; its listener is
   closed, reopening fails; client 2 gets port 10; client 1 goes away and "returns" port 10 a second time: it is now free
   in the pool and held by client 2, so a third client can be given the same port *)
Definition listen_fails_on (q : N) : N -> N -> bool -> bool := fun _ p _ => negb (p =? q).
Theorem C28_stale_refuted : exists st1 st2 st3 t1 t2 t3,
  process_tcp 1 noshuf list_always {[ 0 := (10, false) ]} (mkTcp {[ 10; 11 ]} ∅) = (true, st1, t1)
  /\ process_tcp 1 noshuf (listen_fails_on 10) {[ 0 := (11, false) ]} st1 = (false, st2, t2)
  /\ process_tcp 2 noshuf list_always {[ 0 := (10, false) ]} st2 = (true, st3, t3)
  /\ let st := drop_client 1 (close_listeners 1 st3) in holds st (2, 0) 10 /\ 10 ∈ tPool st.
Proof.
  do 6 eexists. split; [vm_compute; reflexivity|]. split; [vm_compute; reflexivity|]. split; [vm_compute; reflexivity|]. cbv zeta. split.
  - eexists. by vm_compute.
  - apply (bool_decide_unpack _). by vm_compute.
Qed.
(* and a reload that changes a service's port has no effect: the new option is ignored, the old port is opened again and
   reported as opened *)
Theorem C28_port_change_refuted : exists st1 st2 t1,
  process_tcp 1 noshuf list_always {[ 0 := (10, false) ]} (mkTcp {[ 10; 11 ]} ∅) = (true, st1, t1)
  /\ process_tcp 1 noshuf list_always {[ 0 := (11, false) ]} st1 = (true, st2, [(0, 10)])
  /\ holds st2 (1, 0) 10.
Proof.
  do 3 eexists. split; [vm_compute; reflexivity|]. split; [vm_compute; reflexivity|]. eexists. by vm_compute.
Qed.
