(* Props_WebList.v -- C83: what the web page lists and what its buttons do *)
From Coq Require Import Strings.String.
From Verif Require Import GoBase GoBaseLemmas FlagsModel LogModel WebListModel.
Local Open Scope N_scope.

(* ---- numbers in decimal ---- *)
Definition val (ds : bytes) : N := fold_left (fun v x => v * 10 + (x - 48)) ds 0.
Lemma val_snoc ds x : val (ds ++ [x]) = val ds * 10 + (x - 48).
Proof. unfold val. by rewrite fold_left_app. Qed.
Lemma dec_go_spec f n acc : n < 2 ^ N.of_nat f -> exists ds, dec_go f n acc = ds ++ acc /\ val ds = n /\ Forall (fun x => 48 <= x <= 57) ds.
Proof.
  revert n acc. induction f as [|f IH]; intros n acc H; cbn [dec_go].
  - exists []. cbn in H. split; [done|]. split; [unfold val; cbn; lia|constructor].
  - assert (M : n mod 10 < 10) by (apply N.mod_lt; lia). destruct (N.eqb_spec (n / 10) 0) as [E|E].
    + exists [48 + n mod 10]. split; [done|]. split; [|constructor; [lia|constructor]]. unfold val. cbn [fold_left]. rewrite (N.div_mod n 10) at 2 by lia. rewrite E. lia.
    + destruct (IH (n / 10) ((48 + n mod 10) :: acc)) as (ds & E1 & V & F).
      { rewrite Nat2N.inj_succ, N.pow_succ_r' in H. apply N.div_lt_upper_bound; lia. }
      exists (ds ++ [48 + n mod 10]). rewrite E1, <- app_assoc. split; [done|]. rewrite val_snoc, V. split; [rewrite (N.div_mod n 10) at 3 by lia; lia|]. apply Forall_app. split; [done|]. constructor; [lia|constructor].
Qed.
Lemma dec_spec n : val (dec n) = n /\ Forall (fun x => 48 <= x <= 57) (dec n).
Proof.
  unfold dec. destruct (dec_go_spec (S (N.to_nat (N.log2 n))) n []) as (ds & E & V & F); [|rewrite E, app_nil_r; done].
  rewrite Nat2N.inj_succ, N2Nat.id. destruct (N.eq_dec n 0) as [-> |]; [done|]. apply N.log2_spec. lia.
Qed.
Lemma dec_inj n m : dec n = dec m -> n = m.
Proof. intros E. rewrite <- (proj1 (dec_spec n)), <- (proj1 (dec_spec m)). by rewrite E. Qed.
Lemma sep_inj (c : N) x x' y y' : c ∉ x -> c ∉ x' -> x ++ c :: y = x' ++ c :: y' -> x = x' /\ y = y'.
Proof.
  revert x'. induction x as [|a x IH]; intros [|b x'] Hx Hx' E; cbn in E.
  - by injection E.
  - injection E as <- E. exfalso. apply Hx'. by left.
  - injection E as -> E. exfalso. apply Hx. by left.
  - injection E as <- E. apply not_elem_of_cons in Hx as [_ Hx]. apply not_elem_of_cons in Hx' as [_ Hx']. destruct (IH x' Hx Hx' E) as [-> ->]. done.
Qed.
Lemma dec_no c n : (c < 48 \/ 57 < c) -> c ∉ dec n.
Proof. intros Hc Hi. destruct (dec_spec n) as [_ F]. rewrite Forall_forall in F. specialize (F c Hi). lia. Qed.
Ltac nodec := repeat (rewrite not_elem_of_app || rewrite not_elem_of_cons); repeat split; try (apply dec_no; lia); try done; try (apply not_elem_of_nil).
Definition v4 (a : addr) : Prop := match aIp a with V4 _ _ _ _ => True | V6 _ => False end.
(* an IPv6 text: two colons or more, no bracket, no dash *)
Definition v6_ok (a : addr) : Prop := match aIp a with V4 _ _ _ _ => True | V6 t => 91 ∉ t /\ 45 ∉ t /\ (2 <= length (List.filter (N.eqb 58) t))%nat end.
Definition colons (s : bytes) : nat := length (List.filter (N.eqb 58) s).
Lemma colons_app a b : colons (a ++ b) = (colons a + colons b)%nat.
Proof. unfold colons. rewrite List.filter_app, app_length. done. Qed.
Lemma colons_dec n : colons (dec n) = 0%nat.
Proof. unfold colons. destruct (dec_spec n) as [_ F]. induction F as [|x l Hx F IH]; [done|]. cbn [List.filter]. destruct (N.eqb_spec 58 x); [lia|done]. Qed.
Lemma v4_go a : v4 a -> go_str a = ps_str a.
Proof. unfold go_str, ps_str, v4. by destruct (aIp a). Qed.
Lemma ps_no_dash a : v6_ok a -> 45 ∉ ps_str a.
Proof. destruct a as [[p q r s|t] n]; unfold ps_str, v6_ok; cbn [aIp aPort ip_text]; change (bs ".") with [46]; change (bs ":") with [58]; intros H; nodec; by destruct H as (_ & H & _). Qed.
Lemma ps_inj a b : v4 a -> v6_ok b -> ps_str a = ps_str b -> a = b.
Proof.
  destruct a as [[p q r s|t] n]; [|done]. intros _ Hb E. destruct b as [[p' q' r' s'|t] n'].
  - unfold ps_str in E. cbn [aIp aPort ip_text] in E. change (bs ".") with [46] in E. change (bs ":") with [58] in E. rewrite <- !app_assoc in E. cbn [app] in E.
    apply sep_inj in E as [E1 E]; [|nodec|nodec]. apply sep_inj in E as [E2 E]; [|nodec|nodec]. apply sep_inj in E as [E3 E]; [|nodec|nodec]. apply sep_inj in E as [E4 E]; [|nodec|nodec].
    by apply dec_inj in E1, E2, E3, E4, E; subst.
  - exfalso. apply (f_equal colons) in E. unfold ps_str in E. cbn [aIp aPort ip_text v6_ok] in *. destruct Hb as (_ & _ & Hb). rewrite !colons_app, !colons_dec in E. fold (colons t) in Hb. replace (colons (bs ".")) with 0%nat in E by done. replace (colons (bs ":")) with 1%nat in E by done. lia.
Qed.
Definition good_tun (t : tun) : Prop := v4 (tL t) /\ v4 (tR t).
Definition good_sock (c : sock) : Prop := v6_ok (cL c) /\ v6_ok (cR c).
Definition same (t : tun) (c : sock) : Prop := tL t = cL c /\ tR t = cR c.
Lemma key_same t c : good_tun t -> good_sock c -> (tun_key t = sock_key c <-> same t c).
Proof.
  intros [A B] [C D]. unfold tun_key, sock_key, same. rewrite !v4_go by done. change (bs "-") with [45]. cbn [app]. split; [|by intros [-> ->]].
  intros E. apply sep_inj in E as [E1 E2]; [|by apply ps_no_dash; destruct (tL t) as [[]]|by apply ps_no_dash]. split; by apply ps_inj.
Qed.
(* two tunnels do not have the same ends *)
Definition apart (ts : list tun) : Prop := forall t t', t ∈ ts -> t' ∈ ts -> tL t = tL t' -> tR t = tR t' -> t = t'.
Lemma id_of_spec ts c id : Forall good_tun ts -> good_sock c -> apart ts -> (id_of ts (sock_key c) = Some id <-> exists t, t ∈ ts /\ tId t = id /\ same t c).
Proof.
  intros F G A. unfold id_of. rewrite Forall_forall in F. split.
  - destruct (last _) as [t|] eqn:E; [|done]. cbn. intros [= <-]. apply last_Some_elem_of in E. apply elem_of_list_In, filter_In in E as [E K]. apply elem_of_list_In in E. apply bool_decide_eq_true in K. exists t. split; [done|]. split; [done|]. apply key_same; [by apply F|done|done].
  - intros (t & Ht & <- & S). assert (In : t ∈ List.filter (fun t => bool_decide (tun_key t = sock_key c)) ts).
    { apply elem_of_list_In, filter_In. split; [by apply elem_of_list_In|]. apply bool_decide_eq_true. apply key_same; [by apply F|done|done]. }
    destruct (last _) as [t'|] eqn:E; [|apply last_None in E; rewrite E in In; by apply elem_of_nil in In]. cbn. f_equal. f_equal. apply last_Some_elem_of in E. apply elem_of_list_In, filter_In in E as [E K]. apply elem_of_list_In in E. apply bool_decide_eq_true in K. apply key_same in K; [|by apply F|done]. destruct K, S. apply A; congruence.
Qed.
(* Over IPv4 the list is right: a socket is shown as a tunnel, with its client's id, exactly if it is one, and as another connection exactly if not *)
Theorem C83_pool_partial : forall ids cs ts id c, Forall good_tun ts -> apart ts -> Forall good_sock cs -> ids_of cs ts ⊆ ids -> ((id, c) ∈ pool ids cs ts <-> c ∈ cs /\ exists t, t ∈ ts /\ tId t = id /\ same t c).
Proof.
  intros ids cs ts id c F A G Hi. rewrite Forall_forall in G. unfold pool, selected. rewrite elem_of_list_bind. split.
  - intros (i & H & _). apply elem_of_list_fmap in H as (x & [= -> ->] & H). apply elem_of_list_In, filter_In in H as [H K]. apply elem_of_list_In in H. apply bool_decide_eq_true in K. split; [done|]. by apply id_of_spec; auto.
  - intros [H K]. apply id_of_spec in K; [|done|by apply G|done]. exists id. split; [|apply Hi; apply elem_of_list_omap; eauto]. apply elem_of_list_fmap. exists c. split; [done|]. apply elem_of_list_In, filter_In. split; [by apply elem_of_list_In|]. by apply bool_decide_eq_true.
Qed.
Theorem C83_external_partial : forall cs ts c, Forall good_tun ts -> apart ts -> Forall good_sock cs -> (c ∈ external cs ts <-> c ∈ cs /\ forall t, t ∈ ts -> ~ same t c).
Proof.
  intros cs ts c F A G. rewrite Forall_forall in G. unfold external. rewrite elem_of_list_In, filter_In, <- elem_of_list_In. split; intros [H K]; (split; [done|]); specialize (G c H).
  - intros t Ht S. assert (E : id_of ts (sock_key c) = Some (tId t)) by (apply id_of_spec; eauto). by rewrite E in K.
  - destruct (id_of ts (sock_key c)) as [id|] eqn:E; [|done]. apply id_of_spec in E as (t & Ht & _ & S); [|done|done|done]. by destruct (K t).
Qed.
Lemma pool_cons i ids cs ts : pool (i :: ids) cs ts = ((fun c => (i, c)) <$> selected cs ts i) ++ pool ids cs ts.
Proof. done. Qed.
(* Every socket is shown once, wherever *)
Theorem C83_each_once : forall ids cs ts, NoDup ids -> (forall i, i ∈ ids <-> i ∈ ids_of cs ts) -> (pool ids cs ts).*2 ++ external cs ts ≡ₚ cs.
Proof.
  intros ids cs ts N Hi. assert (P : forall cs, (forall i, i ∈ ids_of cs ts -> i ∈ ids) -> (pool ids cs ts).*2 ≡ₚ List.filter (fun c => match id_of ts (sock_key c) with Some _ => true | None => false end) cs).
  { clear Hi cs. induction cs as [|c cs IH]; intros Hi.
    - cbn. assert (E : pool ids [] ts = []); [|by rewrite E]. unfold pool. clear. induction ids; [done|]. cbn. done.
    - specialize (IH (fun i Hx => Hi i ltac:(unfold ids_of in *; cbn; destruct (id_of ts (sock_key c)); [by right|done]))). cbn [List.filter]. destruct (id_of ts (sock_key c)) as [id|] eqn:E.
      + assert (Hid : id ∈ ids) by (apply Hi; unfold ids_of; cbn; rewrite E; by left). rewrite <- IH. clear IH Hi. induction ids as [|i ids IH]; [by apply elem_of_nil in Hid|]. apply NoDup_cons in N as [N1 N].
        rewrite !pool_cons, !fmap_app. unfold selected at 1. cbn [List.filter]. rewrite E. destruct (decide (i = id)) as [-> | Hne].
        * rewrite bool_decide_eq_true_2 by done. cbn [fmap list_fmap snd app]. apply Permutation_cons; [done|]. assert (R : forall l, id ∉ l -> pool l (c :: cs) ts = pool l cs ts).
          { clear -E. induction l as [|j l IH]; intros Hl; [done|]. apply not_elem_of_cons in Hl as [Hj Hl]. rewrite !pool_cons, IH by done. f_equal. f_equal. unfold selected. cbn [List.filter]. rewrite E, bool_decide_eq_false_2 by congruence. done. }
          rewrite R by done. done.
        * rewrite bool_decide_eq_false_2 by congruence. apply elem_of_cons in Hid as [? | Hid]; [congruence|]. rewrite (IH N Hid). unfold selected. rewrite Permutation_middle. done.
      + rewrite <- IH. assert (R : pool ids (c :: cs) ts = pool ids cs ts); [|by rewrite R]. clear -E. induction ids as [|j l IH]; [done|]. rewrite !pool_cons, IH. f_equal. f_equal. unfold selected. cbn [List.filter]. rewrite E. by rewrite bool_decide_eq_false_2. }
  rewrite (P cs) by (intros i; apply Hi). unfold external. clear. induction cs as [|c cs IH]; [done|]. cbn. destruct (id_of ts (sock_key c)); cbn; [by rewrite IH|]. rewrite <- Permutation_middle. by rewrite IH.
Qed.
(* A tunnel over IPv6 is never shown as one: it is among the others *)
Theorem C83_ipv6_refuted : forall cs ts c, c ∈ cs -> good_sock c -> Forall (fun t => ~ v4 (tL t)) ts -> c ∈ external cs ts /\ forall ids id, (id, c) ∉ pool ids cs ts.
Proof.
  intros cs ts c Hc [G _] F. assert (E : id_of ts (sock_key c) = None).
  { unfold id_of. assert (X : List.filter (fun t => bool_decide (tun_key t = sock_key c)) ts = []); [|by rewrite X]. induction F as [|t ts Ht F IH]; [done|]. cbn [List.filter]. rewrite bool_decide_eq_false_2; [done|]. intros K. apply (f_equal head) in K. unfold tun_key, sock_key in K. destruct t as [ti [[|t] p] tr]; [by destruct Ht|]. cbn [tL go_str aIp aPort] in K. change (bs "[") with [91] in K. cbn [app head] in K.
    destruct c as [fd [i q] cr]. unfold ps_str in K. cbn [cL aIp aPort cR] in K. destruct i as [a b c d|s]; cbn [ip_text] in K.
    - destruct (dec_spec a) as [_ D]. destruct (dec a) as [|x l] eqn:Ea; cbn in K; [done|]. injection K as <-. apply Forall_cons in D as [D _]. lia.
    - unfold v6_ok in G. cbn in G. destruct G as (G & _ & L). destruct s as [|x s]; [cbn in L; lia|]. cbn in K. injection K as <-. apply G. by left. }
  split; [apply elem_of_list_In, filter_In; split; [by apply elem_of_list_In|]; by rewrite E|]. intros ids id H. unfold pool, selected in H. apply elem_of_list_bind in H as (i & H & _). apply elem_of_list_fmap in H as (x & [= -> ->] & H). apply elem_of_list_In, filter_In in H as [_ H]. apply bool_decide_eq_true in H. congruence.
Qed.
(* Nor is one over QUIC: its UDP socket has no other end *)
Theorem C83_quic_refuted : forall cs ts c, c ∈ cs -> good_sock c -> cR c = mkAddr (V4 0 0 0 0) 0 -> Forall (fun t => good_tun t /\ aPort (tR t) <> 0) ts -> apart ts -> Forall good_sock cs -> c ∈ external cs ts.
Proof.
  intros cs ts c Hc G R F A Gs. apply C83_external_partial; [eapply Forall_impl; [exact F|]; by intros t [? _]|done|done|]. split; [done|]. intros t Ht [_ S]. rewrite Forall_forall in F. destruct (F t Ht) as [_ P]. rewrite S, R in P. done.
Qed.
Definition lo (p : N) : addr := mkAddr (V4 127 0 0 1) p.
Theorem C83_list_witness : let ts := [mkTun [97] (lo 80) (lo 4000); mkTun [98] (lo 80) (lo 4001)] in let cs := [mkSock 1 (lo 80) (lo 4001); mkSock 2 (lo 80) (lo 5000); mkSock 3 (lo 80) (lo 4000)] in
  Forall good_tun ts /\ apart ts /\ Forall good_sock cs /\ pool [[98]; [97]] cs ts = [([98], mkSock 1 (lo 80) (lo 4001)); ([97], mkSock 3 (lo 80) (lo 4000))] /\ external cs ts = [mkSock 2 (lo 80) (lo 5000)].
Proof.
  split; [repeat constructor|]. split. { intros t t' Ht Ht'. apply elem_of_cons in Ht as [-> | Ht]; [|apply elem_of_list_singleton in Ht as ->]; (apply elem_of_cons in Ht' as [-> | Ht']; [|apply elem_of_list_singleton in Ht' as ->]); cbn; intros; done. }
  split; [repeat constructor|]. by split; vm_compute.
Qed.
Definition v6lo (p : N) : addr := mkAddr (V6 [58; 58; 49]) p.
Theorem C83_ipv6_witness : let ts := [mkTun [97] (v6lo 80) (v6lo 4000)] in let cs := [mkSock 1 (v6lo 80) (v6lo 4000)] in pool [[97]] cs ts = [] /\ external cs ts = cs.
Proof. by split; vm_compute. Qed.

(* ---- the buttons ---- *)
(* A button but "kill" answers once, with success exactly if its command has been started *)
Theorem C83_buttons_partial : forall b can, b <> BKill -> press b can = (if can then [word b] else [], [if can then 200 else 500]).
Proof. by intros [] [] H. Qed.
(* "kill" never does anything *)
Theorem C83_kill_refuted : forall can, press BKill can = ([], [500]).
Proof. by intros []. Qed.
(* Saving on the server's page answers once *)
Theorem C83_save_server : forall fails, save_server fails = ([], [if fails then 500 else 200]).
Proof. by intros []. Qed.
(* Saving on the client's page answers with two documents, which contradict each other if the reload could not be started *)
Theorem C83_save_client_refuted : forall can, save_client false can = (if can then (["reload"%string], [200; 200]) else ([], [500; 200])).
Proof. by intros []. Qed.
