(* Props_Ports.v -- C30: TCP port ranges *)
From Verif Require Import GoBase GoBaseLemmas HostRewriteSpec HostRewriteModel HostRewriteProofs PortsSpec PortsModel.
Local Open Scope N_scope.

Lemma parse_digits_spec s acc v : parse_digits acc s = Some v <->
  Forall (fun c => 48 <= c <= 57) s /\ v = fold_left (fun a c => a * 10 + digit_val c) s acc.
Proof.
  revert acc; induction s as [|c s IH]; intros acc; cbn.
  - split; [intros [= ->]; done|intros [_ ->]; done].
  - destruct (N.leb_spec 48 c), (N.leb_spec c 57); cbn [andb].
    + rewrite IH, Forall_cons. unfold digit_val. split; [intros [? ->]; split; [split; [lia|done]|done]|intros [[_ ?] ->]; done].
    + split; [done|]. intros [H1 _]. apply Forall_cons_1 in H1 as [? _]. lia.
    + split; [done|]. intros [H1 _]. apply Forall_cons_1 in H1 as [? _]. lia.
    + split; [done|]. intros [H1 _]. apply Forall_cons_1 in H1 as [? _]. lia.
Qed.
Lemma parse_uint16_spec s v : parse_uint16 s = Some v <-> port_string s v.
Proof.
  unfold parse_uint16, port_string, decimal. destruct s as [|c s]; [split; [done|]; intros [[[] _] _]; done|].
  destruct (parse_digits 0 (c :: s)) as [w|] eqn:Hp.
  - apply parse_digits_spec in Hp as [Hf ->]. destruct (N.leb_spec (fold_left (fun a c => a * 10 + digit_val c) (c :: s) 0) 65535) as [Hl|Hl].
    + split; [intros [= <-]; split; [split; done|done]|]. intros [(_ & _ & ->) _]. done.
    + split; [done|]. intros [(_ & _ & ->) ?]. lia.
  - split; [done|]. intros [(_ & Hf & Hv) _]. assert (parse_digits 0 (c :: s) = Some v) as E by (by apply parse_digits_spec). congruence.
Qed.
Lemma port_string_nodash s v : port_string s v -> 45 ∉ s.
Proof. intros [(_ & Hf & _) _] Hin. rewrite Forall_forall in Hf. apply Hf in Hin. lia. Qed.

Lemma index_byte_app c l r : c ∉ l -> index_byte c (l ++ c :: r) = Some (blen l).
Proof.
  induction l as [|x l IH]; intros Hn; cbn [app index_byte]; [by rewrite N.eqb_refl|].
  destruct (N.eqb_spec x c) as [->|Hx]; [set_solver|]. rewrite IH by set_solver. f_equal. rewrite blen_cons. lia.
Qed.
Lemma index_byte_notin c l : c ∉ l -> index_byte c l = None.
Proof.
  induction l as [|x l IH]; intros Hn; [done|]. cbn. destruct (N.eqb_spec x c) as [->|]; [set_solver|]. rewrite IH by set_solver. done.
Qed.

Lemma port_range_spec s lo hi : port_range_str s = Some (lo, hi) <-> denotes s lo hi.
Proof.
  unfold port_range_str, denotes. split.
  - destruct (index_byte 45 s) as [i|] eqn:Hi.
    + apply index_byte_some in Hi as (l & r & -> & <- & Hl). rewrite ntake_app by done.
      replace (ndrop (blen l + 1) (l ++ 45 :: r)) with r.
      2:{ replace (l ++ 45 :: r) with ((l ++ [45]) ++ r) by (by rewrite <- app_assoc). symmetry. apply ndrop_app. rewrite blen_app. done. }
      destruct (parse_uint16 l) as [a|] eqn:Ha; [|done]. destruct (parse_uint16 r) as [b|] eqn:Hb; [|done].
      apply parse_uint16_spec in Ha, Hb. pose proof Ha as [_ Ha']. pose proof Hb as [_ Hb'].
      rewrite !u16_id by lia. unfold port_range_num. destruct (N.ltb_spec b a) as [Hlt|Hlt]; [done|].
      intros [= <- <-]. right. exists l, r, a, b. split; [done|]. split; [done|]. split; [done|]. split; [done|]. split; [|done].
      destruct (N.eqb_spec a 0); lia.
    + destruct (parse_uint16 s) as [p|] eqn:Hp; [|done]. apply parse_uint16_spec in Hp. pose proof Hp as [_ Hp'].
      unfold port_range_num. destruct (N.eqb_spec p 0) as [->|H0].
      * cbn. intros [= <- <-]. left. exists 0. split; [done|]. by left.
      * rewrite u16_id by lia. rewrite N.ltb_irrefl. destruct (N.eqb_spec p 0); [done|]. intros [= <- <-].
        left. exists p. split; [done|]. by right.
  - intros [(p & Hp & Hc)|(sa & sb & a & b & -> & Ha & Hb & Hab & -> & ->)].
    + rewrite index_byte_notin by (by eapply port_string_nodash). pose proof Hp as [_ Hp'].
      apply parse_uint16_spec in Hp as ->. destruct Hc as [(-> & -> & ->)|(H0 & -> & ->)]; [done|].
      destruct (N.eqb_spec p 0); [done|]. unfold port_range_num. rewrite u16_id, N.ltb_irrefl by lia.
      destruct (N.eqb_spec p 0); done.
    + cbn [app]. rewrite index_byte_app by (by eapply port_string_nodash). rewrite ntake_app by done.
      replace (ndrop (blen sa + 1) (sa ++ 45 :: sb)) with sb.
      2:{ replace (sa ++ 45 :: sb) with ((sa ++ [45]) ++ sb) by (by rewrite <- app_assoc). symmetry. apply ndrop_app. rewrite blen_app. done. }
      pose proof Ha as [_ Ha']. pose proof Hb as [_ Hb'].
      apply parse_uint16_spec in Ha as ->, Hb as ->. rewrite !u16_id by lia. unfold port_range_num.
      destruct (N.ltb_spec b a); [lia|]. do 2 f_equal. destruct (N.eqb_spec a 0); lia.
Qed.
Lemma denotes_bounds s lo hi : denotes s lo hi -> 1 <= lo /\ hi <= 65535.
Proof.
  intros [(p & [_ Hp] & [(-> & -> & ->)|(H0 & -> & ->)])|(sa & sb & a & b & -> & Ha & [_ Hb] & Hab & -> & ->)]; lia.
Qed.
Lemma denotes_fun s lo hi lo' hi' : denotes s lo hi -> denotes s lo' hi' -> lo = lo' /\ hi = hi'.
Proof. intros H H'. apply port_range_spec in H, H'. rewrite H in H'. by injection H'. Qed.
Lemma denotes_in s lo hi p : denotes s lo hi -> in_range s p <-> lo <= p <= hi.
Proof.
  intros Hd. split; [|by exists lo, hi]. intros (lo' & hi' & Hd' & Hp). by destruct (denotes_fun _ _ _ _ _ Hd Hd') as [-> ->].
Qed.

Lemma add_loop_spec fuel i max p q : max <= 65535 -> i <= 65535 -> (N.to_nat (65536 - i) <= fuel)%nat ->
  q ∈ add_loop fuel i max p <-> q ∈ p \/ i <= q <= max.
Proof.
  revert i p; induction fuel as [|fuel IH]; intros i p Hm Hi Hf; [lia|]. cbn [add_loop].
  destruct (N.leb_spec i max) as [Hle|Hle]; [|split; [tauto|]; intros [?|?]; [done|lia]].
  destruct (N.eqb_spec i 65535) as [->|Hne].
  - rewrite elem_of_union, elem_of_singleton. split; [intros [->|?]; [right; lia|by left]|].
    intros [?|?]; [by right|]. left. lia.
  - rewrite u16_id by lia. rewrite IH by lia. rewrite elem_of_union, elem_of_singleton.
    split; [intros [[->|?]|?]; [right; lia|by left|right; lia]|].
    intros [?|?]; [left; by right|]. destruct (decide (q = i)) as [->|]; [left; by left|]. right. lia.
Qed.
Lemma add_ranges_spec rs p : 
  match add_ranges rs p with
  | Some r => Forall valid_range rs /\ forall q, q ∈ r <-> q ∈ p \/ in_ranges rs q
  | None => ~ Forall valid_range rs
  end.
Proof.
  revert p; induction rs as [|s rs IH]; intros p; cbn [add_ranges].
  - split; [constructor|]. intros q. split; [by left|]. intros [?|(s & Hs & _)]; [done|]. set_solver.
  - destruct (port_range_str s) as [[lo hi]|] eqn:Hr.
    + apply port_range_spec in Hr. pose proof (denotes_bounds _ _ _ Hr) as [Hb1 Hb2].
      specialize (IH (add_loop (N.to_nat 65536) lo hi p)). destruct (add_ranges rs _) as [r|].
      * destruct IH as [Hf IH]. split; [constructor; [by exists lo, hi|done]|].
        intros q. rewrite IH. destruct (N.le_gt_cases lo 65535) as [Hlo|Hlo].
        -- rewrite add_loop_spec by lia. rewrite <- (denotes_in s lo hi q Hr).
           split; [intros [[?|?]|(s' & ? & ?)]; [by left|right; exists s; split; [left|done]|right; exists s'; split; [by right|done]]|].
           intros [?|(s' & [->|?]%elem_of_cons & ?)]; [left; by left|left; by right|right; by exists s'].
        -- exfalso. destruct Hr as [(p' & [_ Hp] & [(_ & -> & _)|(_ & -> & _)])|(sa & sb & a & b & _ & [_ Ha] & _ & _ & -> & _)]; lia.
      * intros Hf. apply Forall_cons_1 in Hf as [_ Hf]. done.
    + intros Hf. apply Forall_cons_1 in Hf as [(lo & hi & Hd) _]. apply port_range_spec in Hd. congruence.
Qed.

Lemma denotes_lo s lo hi : denotes s lo hi -> lo <= 65535.
Proof. intros [(p' & [_ Hp] & [(_ & -> & _)|(_ & -> & _)])|(sa & sb & a & b & _ & [_ Ha] & _ & _ & -> & _)]; lia. Qed.

Lemma user_loop_spec fuel i max p all : max <= 65535 -> i <= 65535 -> (N.to_nat (65536 - i) <= fuel)%nat ->
  match user_loop fuel i max p all with
  | Some (p', all') => (forall q, i <= q <= max -> q ∉ all) /\ (forall q, q ∈ p' <-> q ∈ p \/ i <= q <= max) /\
                       (forall q, q ∈ all' <-> q ∈ all \/ i <= q <= max)
  | None => exists q, i <= q <= max /\ q ∈ all
  end.
Proof.
  revert i p all; induction fuel as [|fuel IH]; intros i p all Hm Hi Hf; [lia|]. cbn [user_loop].
  destruct (N.leb_spec i max) as [Hle|Hle].
  2:{ split; [intros; lia|]. split; intros q; (split; [tauto|]; intros [?|?]; [done|lia]). }
  destruct (decide (i ∈ all)) as [Hin|Hin]; [exists i; split; [lia|done]|].
  destruct (N.eqb_spec i 65535) as [->|Hne].
  - split; [intros q Hq; replace q with 65535 by lia; done|].
    split; intros q; rewrite elem_of_union, elem_of_singleton;
      (split; [intros [->|?]; [right; lia|by left]|intros [?|?]; [by right|left; lia]]).
  - rewrite u16_id by lia. specialize (IH (i + 1) ({[i]} ∪ p) ({[i]} ∪ all) Hm ltac:(lia) ltac:(lia)).
    destruct (user_loop fuel (i + 1) max _ _) as [[p' all']|].
    + destruct IH as (H1 & H2 & H3). split.
      { intros q Hq. destruct (decide (q = i)) as [->|Hq']; [done|]. intros Hq2. apply (H1 q); [lia|]. set_solver. }
      split; intros q; [rewrite H2|rewrite H3]; rewrite elem_of_union, elem_of_singleton;
        (split; [intros [[->|?]|?]; [right; lia|by left|right; lia]|]);
        (intros [?|?]; [left; by right|]; destruct (decide (q = i)) as [->|]; [left; by left|]; right; lia).
    + destruct IH as (q & Hq & Hin'). apply elem_of_union in Hin' as [->%elem_of_singleton|Hin']; [lia|].
      exists q. split; [lia|done].
Qed.

(* the ranges of one user are valid, do not overlap each other nor [all] *)
Fixpoint separate (rs : list bytes) (taken : N -> Prop) : Prop :=
  match rs with
  | [] => True
  | r :: rs => valid_range r /\ (forall q, in_range r q -> ~ taken q) /\ separate rs (fun q => taken q \/ in_range r q)
  end.
Lemma separate_ext rs t t' : (forall q, t q <-> t' q) -> separate rs t <-> separate rs t'.
Proof.
  revert t t'; induction rs as [|r rs IH]; intros t t' Ht; cbn; [done|]. 
  rewrite (IH (fun q => t q \/ in_range r q) (fun q => t' q \/ in_range r q)) by (intros q; rewrite (Ht q); done).
  split; intros (H1 & H2 & H3); (split; [done|]; split; [|done]); intros q Hq Hn; apply (H2 q Hq), Ht, Hn.
Qed.
Lemma user_ranges_spec rs p all :
  match user_ranges rs p all with
  | Some (p', all') => separate rs (fun q => q ∈ all) /\ (forall q, q ∈ p' <-> q ∈ p \/ in_ranges rs q) /\
                       (forall q, q ∈ all' <-> q ∈ all \/ in_ranges rs q)
  | None => ~ separate rs (fun q => q ∈ all)
  end.
Proof.
  revert p all; induction rs as [|s rs IH]; intros p all; cbn [user_ranges separate].
  - split; [done|]. split; intros q; (split; [by left|]; intros [?|(s & Hs & _)]; [done|set_solver]).
  - destruct (port_range_str s) as [[lo hi]|] eqn:Hr.
    + apply port_range_spec in Hr. pose proof (denotes_bounds _ _ _ Hr) as [Hb1 Hb2]. pose proof (denotes_lo _ _ _ Hr) as Hlo.
      pose proof (user_loop_spec (N.to_nat 65536) lo hi p all Hb2 Hlo ltac:(lia)) as Hu.
      destruct (user_loop (N.to_nat 65536) lo hi p all) as [[p1 all1]|].
      * destruct Hu as (H1 & H2 & H3). specialize (IH p1 all1).
        assert (forall q, q ∈ all1 <-> (q ∈ all \/ in_range s q)) as Ha.
        { intros q. rewrite H3, (denotes_in s lo hi q Hr). done. }
        pose proof (separate_ext rs (fun q => q ∈ all1) (fun q => q ∈ all \/ in_range s q) Ha) as Hx.
        destruct (user_ranges rs p1 all1) as [[p' all']|].
        -- destruct IH as (I1 & I2 & I3). apply Hx in I1. split.
           { split; [by exists lo, hi|]. split; [|done]. intros q Hq. apply H1. by apply (denotes_in s lo hi). }
           split; intros q; [rewrite I2, H2|rewrite I3, H3]; rewrite <- (denotes_in s lo hi q Hr);
             (split; [intros [[?|?]|(s' & ? & ?)]; [by left|right; exists s; split; [left|done]|right; exists s'; split; [by right|done]]|]);
             (intros [?|(s' & [->|?]%elem_of_cons & ?)]; [left; by left|left; by right|right; by exists s']).
        -- intros (_ & _ & H). by apply IH, Hx.
      * destruct Hu as (q & Hq & Hin). intros (_ & H & _). apply (H q); [by apply (denotes_in s lo hi)|done].
    + intros ((lo & hi & Hd) & _). apply port_range_spec in Hd. congruence.
Qed.

(* the whole configuration is admissible, users taken in this order *)
Fixpoint users_ok {K} (us : list (K * list bytes)) (taken : N -> Prop) : Prop :=
  match us with
  | [] => True
  | (_, rs) :: us => separate rs taken /\ users_ok us (fun q => taken q \/ in_ranges rs q)
  end.
Lemma users_ok_ext {K} (us : list (K * list bytes)) t t' : (forall q, t q <-> t' q) -> users_ok us t <-> users_ok us t'.
Proof.
  revert t t'; induction us as [|[k rs] us IH]; intros t t' Ht; cbn; [done|].
  rewrite (separate_ext rs t t' Ht). by rewrite (IH (fun q => t q \/ in_ranges rs q) (fun q => t' q \/ in_ranges rs q)) by (intros q; rewrite (Ht q); done).
Qed.
Definition pool_spec (rs : list bytes) (o : pool_of) : Prop :=
  match o with
  | Global => rs = []
  | Own p => rs <> [] /\ forall q, q ∈ p <-> in_ranges rs q
  end.
Lemma parse_users_spec {K} (us : list (K * list bytes)) all :
  match parse_users us all with
  | Some r => users_ok us (fun q => q ∈ all) /\ Forall2 (fun u o => fst u = fst o /\ pool_spec (snd u) (snd o)) us r
  | None => ~ users_ok us (fun q => q ∈ all)
  end.
Proof.
  revert all; induction us as [|[k rs] us IH]; intros all; cbn [parse_users users_ok]; [split; [done|constructor]|].
  destruct rs as [|r0 rs0].
  - specialize (IH all). assert (forall q, q ∈ all <-> (q ∈ all \/ in_ranges [] q)) as Ha.
    { intros q. split; [by left|]. intros [?|(s & Hs & _)]; [done|set_solver]. }
    pose proof (users_ok_ext us (fun q => q ∈ all) (fun q => q ∈ all \/ in_ranges [] q) Ha) as Hx.
    destruct (parse_users us all) as [r|].
    + destruct IH as [I1 I2]. apply Hx in I1. split; [split; [done|done]|]. constructor; [done|done].
    + intros [_ H]. by apply IH, Hx.
  - set (rs := r0 :: rs0) in *. pose proof (user_ranges_spec rs ∅ all) as Hu.
    destruct (user_ranges rs ∅ all) as [[p all1]|]; [|intros [H _]; done].
    destruct Hu as (H1 & H2 & H3). specialize (IH all1).
    pose proof (users_ok_ext us (fun q => q ∈ all1) (fun q => q ∈ all \/ in_ranges rs q) H3) as Hx.
    destruct (parse_users us all1) as [r|].
    + destruct IH as [I1 I2]. apply Hx in I1. split; [done|]. constructor; [|done]. split; [done|]. cbn. split; [done|].
      intros q. rewrite H2. split; [intros [?|?]; [set_solver|done]|by right].
    + intros [_ H]. by apply IH, Hx.
Qed.

(* A range string is accepted iff it denotes a range, and then it denotes exactly the one returned. *)
Theorem C30_range_parses_partial s : 
  (forall lo hi, port_range_str s = Some (lo, hi) <-> denotes s lo hi) /\ (port_range_str s = None <-> ~ valid_range s).
Proof.
  split; [apply port_range_spec|]. split.
  - intros Hn (lo & hi & Hd). apply port_range_spec in Hd. congruence.
  - intros Hv. destruct (port_range_str s) as [[lo hi]|] eqn:E; [|done]. exfalso. apply Hv. exists lo, hi. by apply port_range_spec.
Qed.
Example C30_examples : denotes [50; 50; 45; 56; 48] 22 80 /\ denotes [56; 48] 80 80 /\ denotes [48] 1 65535 /\
  denotes [54; 53; 53; 51; 53] 65535 65535 /\ port_range_str [54; 53; 53; 51; 54] = None /\ port_range_str [53; 45; 51] = None.
Proof. split; [|split; [|split; [|split]]]; try (apply port_range_spec; vm_compute; reflexivity). by vm_compute. Qed.

(* If the configuration is accepted: the global pool is the union of the global ranges (65535 included); each user's own
   pool is the union of its ranges; the pools are pairwise disjoint; users without ranges use the global pool. *)
Theorem C30_pools {K} tcps tcpRanges (us : list (K * list bytes)) g r :
  parse_tcps tcps tcpRanges us = Some (g, r) ->
  (forall q, q ∈ g <-> in_ranges (tcps ++ tcpRanges) q) /\
  Forall2 (fun u o => fst u = fst o /\ pool_spec (snd u) (snd o)) us r /\
  (forall i k p, r !! i = Some (k, Own p) -> p ## g) /\
  (forall i j k k' p p', i <> j -> r !! i = Some (k, Own p) -> r !! j = Some (k', Own p') -> p ## p').
Proof.
  unfold parse_tcps. pose proof (add_ranges_spec tcps ∅) as H1. destruct (add_ranges tcps ∅) as [g1|]; [|done].
  destruct H1 as [_ H1]. pose proof (add_ranges_spec tcpRanges g1) as H2. destruct (add_ranges tcpRanges g1) as [g2|]; [|done].
  destruct H2 as [_ H2]. pose proof (parse_users_spec us g2) as H3. destruct (parse_users us g2) as [r'|]; [|done].
  destruct H3 as [Hok HF]. intros [= -> ->].
  assert (forall q, q ∈ g <-> in_ranges (tcps ++ tcpRanges) q) as Hg.
  { intros q. rewrite H2, H1. unfold in_ranges. split.
    - intros [[?|(s & ? & ?)]|(s & ? & ?)]; [set_solver|exists s; set_solver|exists s; set_solver].
    - intros (s & [?|?]%elem_of_app & ?); [left; right; by exists s|right; by exists s]. }
  split; [done|]. split; [done|].
  assert (forall rs (t : N -> Prop), separate rs t -> forall q, in_ranges rs q -> ~ t q) as Hsep.
  { clear. induction rs as [|s rs IH]; intros t Hs q (s' & Hin & Hq) Ht; [set_solver|].
    destruct Hs as (_ & Hd & Hs). apply elem_of_cons in Hin as [->|Hin]; [by apply (Hd q)|].
    apply (IH _ Hs q); [by exists s'|by left]. }
  assert (forall (us : list (K * list bytes)) (r : list (K * pool_of)) (t : N -> Prop), users_ok us t ->
    Forall2 (fun u o => fst u = fst o /\ pool_spec (snd u) (snd o)) us r ->
    (forall i k p, r !! i = Some (k, Own p) -> forall q, q ∈ p -> ~ t q) /\
    (forall i j k k' p p', (i < j)%nat -> r !! i = Some (k, Own p) -> r !! j = Some (k', Own p') -> p ## p')) as Hgen.
  { clear -Hsep. induction us as [|[k0 rs] us IH]; intros r t Ho HF; apply Forall2_cons_inv_l in HF || (apply Forall2_nil_inv_l in HF as ->; split; done).
    destruct HF as ([k1 o] & r' & [_ Hp] & HF & ->). destruct Ho as [Hs Ho]. cbn [snd] in Hp.
    destruct (IH r' _ Ho HF) as [IH1 IH2]. split.
    - intros [|i] k p Hl q Hq; cbn in Hl.
      + injection Hl as -> ->. destruct Hp as [_ Hp]. apply (Hsep rs t Hs). by apply Hp.
      + intros Ht. apply (IH1 i k p Hl q Hq). by left.
    - intros i j k k' p p' Hij Hi Hj. destruct j as [|j]; [lia|]. cbn in Hj. destruct i as [|i]; cbn in Hi.
      + injection Hi as -> ->. destruct Hp as [_ Hp]. intros q Hq Hq'. apply (IH1 j k' p' Hj q Hq'). right. by apply Hp.
      + apply (IH2 i j k k' p p'); [lia|done..]. }
  destruct (Hgen us r _ Hok HF) as [G1 G2]. split.
  - intros i k p Hl q Hq Hq'. by apply (G1 i k p Hl q Hq).
  - intros i j k k' p p' Hij Hi Hj. destruct (decide (i < j)%nat).
    + by apply (G2 i j k k').
    + symmetry. apply (G2 j i k' k); [lia|done..].
Qed.

(* It is accepted iff every range is valid and no user's range meets a global range, a range of another user or another
   of its own (in whatever order the user table is traversed). *)
Theorem C30_accepted {K} tcps tcpRanges (us : list (K * list bytes)) :
  is_Some (parse_tcps tcps tcpRanges us) <->
  Forall valid_range (tcps ++ tcpRanges) /\ users_ok us (in_ranges (tcps ++ tcpRanges)).
Proof.
  unfold parse_tcps. pose proof (add_ranges_spec tcps ∅) as H1. destruct (add_ranges tcps ∅) as [g1|].
  2:{ split; [intros [? ?]; done|]. intros [H _]. apply Forall_app in H as [H _]. done. }
  destruct H1 as [F1 H1]. pose proof (add_ranges_spec tcpRanges g1) as H2. destruct (add_ranges tcpRanges g1) as [g2|].
  2:{ split; [intros [? ?]; done|]. intros [H _]. apply Forall_app in H as [_ H]. done. }
  destruct H2 as [F2 H2]. pose proof (parse_users_spec us g2) as H3.
  assert (forall q, q ∈ g2 <-> in_ranges (tcps ++ tcpRanges) q) as Hg.
  { intros q. rewrite H2, H1. unfold in_ranges. split.
    - intros [[?|(s & ? & ?)]|(s & ? & ?)]; [set_solver|exists s; set_solver|exists s; set_solver].
    - intros (s & [?|?]%elem_of_app & ?); [left; right; by exists s|right; by exists s]. }
  pose proof (users_ok_ext us (fun q => q ∈ g2) (in_ranges (tcps ++ tcpRanges)) Hg) as Hx. destruct (parse_users us g2) as [r|].
  - destruct H3 as [Ho _]. apply Hx in Ho. split; [intros _; split; [by apply Forall_app|done]|]. by eexists.
  - split; [intros [? ?]; done|]. intros [_ Ho]. exfalso. by apply H3, Hx.
Qed.

Lemma separate_or rs (t u : N -> Prop) : separate rs (fun q => t q \/ u q) <-> separate rs t /\ forall q, in_ranges rs q -> ~ u q.
Proof.
  revert t; induction rs as [|r rs IH]; intros t; cbn.
  - split; [|done]. intros _. split; [done|]. intros q (s & Hs & _). set_solver.
  - rewrite (separate_ext rs (fun q => (t q \/ u q) \/ in_range r q) (fun q => (t q \/ in_range r q) \/ u q)) by (intros q; tauto).
    rewrite (IH (fun q => t q \/ in_range r q)). split.
    + intros (H1 & H2 & H3 & H4). split.
      * split; [done|]. split; [|done]. intros q Hq Ht. apply (H2 q Hq). by left.
      * intros q (s & Hs & Hq) Hu. apply elem_of_cons in Hs as [->|Hs]; [apply (H2 q Hq); by right|].
        apply (H4 q); [by exists s|done].
    + intros ((H1 & H2 & H3) & H4). split; [done|]. split; [|split; [done|]].
      * intros q Hq [Ht|Hu]; [by apply (H2 q Hq)|]. apply (H4 q); [exists r; split; [left|done]|done].
      * intros q (s & Hs & Hq). apply H4. exists s. split; [by right|done].
Qed.
Lemma users_ok_perm {K} (us us' : list (K * list bytes)) t : us ≡ₚ us' -> users_ok us t <-> users_ok us' t.
Proof.
  intros Hp. revert t. induction Hp as [|[k rs] us us' Hp IH|[k1 r1] [k2 r2] us|us1 us2 us3 H1 IH1 H2 IH2]; intros t; cbn.
  - done.
  - by rewrite IH.
  - rewrite !separate_or.
    rewrite (users_ok_ext us (fun q => (t q \/ in_ranges r2 q) \/ in_ranges r1 q) (fun q => (t q \/ in_ranges r1 q) \/ in_ranges r2 q)) by (intros q; tauto).
    split; intros (Ha & (Hb & Hd) & Hc); (split; [done|]; split; [|done]; split; [done|]); intros q Hq Hq'; by apply (Hd q).
  - by rewrite IH1.
Qed.
(* The order in which the user table is traversed does not matter for acceptance. *)
Theorem C30_order_independent {K} tcps tcpRanges (us us' : list (K * list bytes)) : us ≡ₚ us' ->
  is_Some (parse_tcps tcps tcpRanges us) <-> is_Some (parse_tcps tcps tcpRanges us').
Proof. intros Hp. rewrite !C30_accepted. by rewrite (users_ok_perm us us' _ Hp). Qed.

Example C30_pools_applies :
  is_Some (parse_tcps [[56; 48]] [[57; 48; 45; 57; 50]] [(1, [[54; 53; 53; 51; 53]]); (2, [])]).
Proof.
  assert (D1 : denotes [56; 48] 80 80) by (apply port_range_spec; vm_compute; reflexivity).
  assert (D2 : denotes [57; 48; 45; 57; 50] 90 92) by (apply port_range_spec; vm_compute; reflexivity).
  assert (D3 : denotes [54; 53; 53; 51; 53] 65535 65535) by (apply port_range_spec; vm_compute; reflexivity).
  apply C30_accepted. split.
  - constructor; [by exists 80, 80|]. constructor; [by exists 90, 92|constructor].
  - cbn [users_ok separate]. split; [|done]. split; [by exists 65535, 65535|]. split; [|done].
    intros q Hq (s & Hs & Hq'). apply (denotes_in _ _ _ q D3) in Hq.
    cbn [app] in Hs. rewrite !elem_of_cons in Hs. destruct Hs as [->|[->|Hs]]; [| |by apply elem_of_nil in Hs].
    + apply (denotes_in _ _ _ q D1) in Hq'. lia.
    + apply (denotes_in _ _ _ q D2) in Hq'. lia.
Qed.

(* Refuted: "0-0" is accepted, as a range that contains no port at all (Min 1, Max 0), whereas "0" is every port. *)
Theorem C30_zero_zero_refuted : port_range_str [48; 45; 48] = Some (1, 0) /\ forall p, ~ in_range [48; 45; 48] p.
Proof.
  assert (port_range_str [48; 45; 48] = Some (1, 0)) as E by (vm_compute; reflexivity). split; [done|].
  intros p Hp. apply port_range_spec in E. apply (denotes_in _ _ _ p E) in Hp. lia.
Qed.

Print Assumptions C30_range_parses_partial.
Print Assumptions C30_pools.
Print Assumptions C30_accepted.
Print Assumptions C30_order_independent.
Print Assumptions C30_zero_zero_refuted.
