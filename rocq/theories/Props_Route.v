(* Props_Route.v -- C71: a data channel reaches the service its label names *)
From Coq Require Import Strings.String.
From stdpp Require Import sorting.
From Verif Require Import GoBase FlagsModel LogModel LogProofs RouteModel.
Local Open Scope N_scope.

(* What a label means, for a list of services.
     <prefix>/...   and  @<prefix>/...   the service with that host prefix
     :<port>/...                         the TCP service with that port
     no slash, or nothing or @ or @@ before it   the first service, if it has a host prefix *)
Inductive names (ss : list svc) : bytes -> svc -> Prop :=
  | n_prefix p x s : s ∈ ss -> vPrefix s = p -> p <> [] -> names ss (p ++ 47 :: x) s
  | n_at p x s : s ∈ ss -> vPrefix s = p -> p <> [] -> names ss (64 :: p ++ 47 :: x) s
  | n_port x s : s ∈ ss -> vPrefix s = [] -> names ss (58 :: dec (vPort s) ++ 47 :: x) s
  | n_default l s : 47 ∉ l -> head ss = Some s -> vPrefix s <> [] -> names ss l s
  | n_default_slash x s : head ss = Some s -> vPrefix s <> [] -> names ss (47 :: x) s
  | n_default_at x s : head ss = Some s -> vPrefix s <> [] -> names ss (64 :: 47 :: x) s
  | n_default_at2 x s : head ss = Some s -> vPrefix s <> [] -> names ss (64 :: 64 :: 47 :: x) s.

(* host prefixes: ASCII letters, digits, hyphens...: no / and no @ or : in front; different services have different prefixes, and
   the TCP services have got different ports *)
Definition prefix_ok (p : bytes) : Prop := 47 ∉ p /\ match p with [] => True | b :: _ => b < 128 /\ b <> 64 /\ b <> 58 end.
Definition services_ok (ss : list svc) : Prop :=
  Forall (fun s => prefix_ok (vPrefix s)) ss /\
  (forall s1 s2, s1 ∈ ss -> s2 ∈ ss -> vPrefix s1 = vPrefix s2 -> vPrefix s1 <> [] -> s1 = s2) /\
  (forall s1 s2, s1 ∈ ss -> s2 ∈ ss -> vPrefix s1 = [] -> vPrefix s2 = [] -> vPort s1 = vPort s2 -> s1 = s2).
Definition ascii_first (l : bytes) : Prop := match l with [] => True | b :: _ => b < 128 end.

(* ---- numbers ---- *)
Definition value (l : bytes) : N := fold_left (fun a b => a * 10 + (b - 48)) l 0.
Lemma dec_go_spec fuel : forall n acc, n < 10 ^ N.of_nat fuel -> (0 < fuel)%nat ->
  exists ds, dec_go fuel n acc = ds ++ acc /\ ds <> [] /\ value ds = n /\ Forall (fun b => 48 <= b <= 57) ds.
Proof.
  induction fuel as [|f IH]; intros n acc Hn Hf; [lia|]. cbn [dec_go]. destruct (N.eqb_spec (n / 10) 0) as [E|E].
  - exists [48 + n mod 10]. split_and!; [done|done| |].
    + unfold value. cbn. apply N.div_small_iff in E; [|lia]. rewrite N.mod_small by done. lia.
    + repeat constructor; pose proof (N.mod_lt n 10); lia.
  - assert (n / 10 < 10 ^ N.of_nat f) as Hq. { apply N.div_lt_upper_bound; [lia|]. rewrite Nat2N.inj_succ, N.pow_succ_r' in Hn. done. }
    assert (0 < f)%nat as Hf'. { destruct f; [|lia]. change (10 ^ N.of_nat 0) with 1 in Hq. lia. }
    destruct (IH (n / 10) ((48 + n mod 10) :: acc) Hq Hf') as (ds & -> & Hd0 & Hv & Hd). exists (ds ++ [48 + n mod 10]).
    split_and!; [by rewrite <- app_assoc|by destruct ds| |].
    + unfold value in *. rewrite fold_left_app. cbn. rewrite Hv. pose proof (N.div_mod' n 10). lia.
    + apply Forall_app. split; [done|]. repeat constructor; pose proof (N.mod_lt n 10); lia.
Qed.
Lemma dec_spec n : dec n <> [] /\ value (dec n) = n /\ Forall (fun b => 48 <= b <= 57) (dec n).
Proof.
  unfold dec. destruct (dec_go_spec (S (N.to_nat (N.log2 n))) n []) as (ds & -> & H); [|lia|by rewrite app_nil_r].
  rewrite Nat2N.inj_succ, N2Nat.id. destruct (decide (n = 0)) as [->|Hn]; [done|]. pose proof (N.log2_spec n ltac:(lia)) as [_ H].
  eapply N.lt_le_trans; [exact H|]. apply N.pow_le_mono_l. lia.
Qed.
Lemma dec_inj a b : dec a = dec b -> a = b.
Proof. intros H. rewrite <- (proj1 (proj2 (dec_spec a))), <- (proj1 (proj2 (dec_spec b))). by rewrite H. Qed.
Lemma dec_no_slash n : 47 ∉ dec n.
Proof. intros H. pose proof (proj2 (proj2 (dec_spec n))) as Hd. rewrite Forall_forall in Hd. specialize (Hd _ H). cbn in Hd. lia. Qed.

(* ---- the tables ---- *)
Definition at_ : bytes := bs "@".
Lemma go_http_other ss : forall i t k, (forall s, s ∈ ss -> vPrefix s = k -> k = []) -> (i = O -> k <> at_) -> (routes_go i ss t).1 !! k = t.1 !! k.
Proof.
  induction ss as [|s ss IH]; intros i t k Hk Hi; [done|]. cbn [routes_go]. rewrite IH; [|intros s' Hs'; apply Hk; by right|done].
  unfold add_route. destruct (vPrefix s) as [|b p] eqn:E; [done|]. cbn [fst]. rewrite lookup_insert_ne; [|intros Hc; specialize (Hk s ltac:(by left)); rewrite E in Hk; specialize (Hk Hc); by subst].
  destruct i; [|done]. rewrite lookup_insert_ne; [done|]. intros Hc. apply Hi; [done|]. by rewrite <- Hc.
Qed.
Lemma go_http_in ss : forall i t s, s ∈ ss -> vPrefix s <> [] -> exists s', s' ∈ ss /\ vPrefix s' = vPrefix s /\ (routes_go i ss t).1 !! vPrefix s = Some (vUrl s').
Proof.
  induction ss as [|s0 ss IH]; intros i t s Hs Hp; [by apply elem_of_nil in Hs|]. cbn [routes_go].
  destruct (decide (Exists (fun s' => vPrefix s' = vPrefix s) ss)) as [He|Hn].
  - apply Exists_exists in He as (s1 & H1 & E1). destruct (IH (S i) (add_route i s0 t) s1 H1) as (s' & Hs' & E' & Hl); [by rewrite E1|]. exists s'. rewrite <- E1. split; [by right|]. done.
  - assert (s = s0) as ->. { apply elem_of_cons in Hs as [->|Hs]; [done|]. exfalso. apply Hn, Exists_exists. eauto. }
    exists s0. split; [by left|]. split; [done|]. rewrite go_http_other; [|intros s' Hs' E'; exfalso; apply Hn, Exists_exists; eauto|done].
    unfold add_route. destruct (vPrefix s0) as [|b p]; [done|]. cbn [fst]. by rewrite lookup_insert.
Qed.
Lemma go_tcp_other ss : forall i t k, (forall s, s ∈ ss -> vPrefix s = [] -> dec (vPort s) <> k) -> (routes_go i ss t).2 !! k = t.2 !! k.
Proof.
  induction ss as [|s ss IH]; intros i t k Hk; [done|]. cbn [routes_go]. rewrite IH; [|intros s' Hs'; apply Hk; by right].
  unfold add_route. destruct (vPrefix s) as [|b p] eqn:E; [|done]. cbn [snd]. rewrite lookup_insert_ne; [done|]. apply Hk; [by left|done].
Qed.
Lemma go_tcp_in ss : forall i t s, s ∈ ss -> vPrefix s = [] -> exists s', s' ∈ ss /\ vPrefix s' = [] /\ dec (vPort s') = dec (vPort s) /\ (routes_go i ss t).2 !! dec (vPort s) = Some (vUrl s').
Proof.
  induction ss as [|s0 ss IH]; intros i t s Hs Hp; [by apply elem_of_nil in Hs|]. cbn [routes_go].
  destruct (decide (Exists (fun s' => vPrefix s' = [] /\ dec (vPort s') = dec (vPort s)) ss)) as [He|Hn].
  - apply Exists_exists in He as (s1 & H1 & E0 & E1). destruct (IH (S i) (add_route i s0 t) s1 H1 E0) as (s' & Hs' & E' & E2 & Hl). exists s'. rewrite <- E1. split; [by right|]. done.
  - assert (s = s0) as ->. { apply elem_of_cons in Hs as [->|Hs]; [done|]. exfalso. apply Hn, Exists_exists. eauto. }
    exists s0. split; [by left|]. split; [done|]. split; [done|]. rewrite go_tcp_other; [|intros s' Hs' E' E2; exfalso; apply Hn, Exists_exists; eauto].
    unfold add_route. rewrite Hp. cbn [snd]. by rewrite lookup_insert.
Qed.
Section R.
Context (ss : list svc) (Hok : services_ok ss).
Lemma not_at s : s ∈ ss -> vPrefix s <> at_.
Proof. intros Hs E. destruct Hok as [H _]. rewrite Forall_forall in H. destruct (H s Hs) as [_ H2]. rewrite E in H2. by destruct H2 as (_ & ? & _). Qed.
Lemma http_at u : (routes ss).1 !! at_ = Some u <-> exists s, head ss = Some s /\ vPrefix s <> [] /\ vUrl s = u.
Proof.
  unfold routes. destruct ss as [|s0 ss'] eqn:Ess; [cbn; split; [done|intros (s & ? & _); done]|]. cbn [routes_go head]. rewrite <- Ess in *.
  rewrite go_http_other; [|intros s Hs E; exfalso; apply (not_at s); [rewrite Ess; by right|done]|done].
  assert (vPrefix s0 <> at_) as H0 by (apply not_at; rewrite Ess; by left).
  unfold add_route. destruct (vPrefix s0) as [|b p] eqn:E; cbn [fst].
  - rewrite lookup_empty. split; [done|]. intros (s & [= <-] & Hp & _). by rewrite E in Hp.
  - rewrite lookup_insert_ne by done. rewrite lookup_insert. split; [intros [= <-]; exists s0; by rewrite E|]. intros (s & [= <-] & _ & <-). done.
Qed.
Lemma http_prefix k u : k <> at_ -> (routes ss).1 !! k = Some u <-> exists s, s ∈ ss /\ vPrefix s = k /\ k <> [] /\ vUrl s = u.
Proof.
  intros Hk. split.
  - intros Hl. destruct (decide (k = [])) as [->|Hk0]; [unfold routes in Hl; by rewrite go_http_other in Hl|].
    destruct (decide (Exists (fun s' => vPrefix s' = k) ss)) as [He|Hn].
    + apply Exists_exists in He as (s & Hs & <-). destruct (go_http_in ss 0 (∅, ∅) s Hs Hk0) as (s' & Hs' & E & Hl'). unfold routes in Hl. rewrite Hl in Hl'. injection Hl' as ->. eauto 6.
    + unfold routes in Hl. rewrite go_http_other in Hl; [done| |done]. intros s Hs E. exfalso. apply Hn, Exists_exists. eauto.
  - intros (s & Hs & <- & Hp & <-). destruct (go_http_in ss 0 (∅, ∅) s Hs Hp) as (s' & Hs' & E & Hl). unfold routes. rewrite Hl. f_equal. f_equal.
    destruct Hok as (_ & H & _). apply H; [done|done|done|by rewrite E].
Qed.
Lemma tcp_port k u : (routes ss).2 !! k = Some u <-> exists s, s ∈ ss /\ vPrefix s = [] /\ dec (vPort s) = k /\ vUrl s = u.
Proof.
  split.
  - intros Hl. destruct (decide (Exists (fun s' => vPrefix s' = [] /\ dec (vPort s') = k) ss)) as [He|Hn].
    + apply Exists_exists in He as (s & Hs & Hp & <-). destruct (go_tcp_in ss 0 (∅, ∅) s Hs Hp) as (s' & Hs' & E & E2 & Hl'). unfold routes in Hl. rewrite Hl in Hl'. injection Hl' as ->. eauto 6.
    + unfold routes in Hl. rewrite go_tcp_other in Hl; [done|]. intros s Hs E E2. apply Hn, Exists_exists. eauto.
  - intros (s & Hs & Hp & <- & <-). destruct (go_tcp_in ss 0 (∅, ∅) s Hs Hp) as (s' & Hs' & E & E2 & Hl). unfold routes. rewrite Hl. f_equal. f_equal.
    destruct Hok as (_ & _ & H). apply H; [done..|by apply dec_inj].
Qed.
End R.
Lemma before_slash_none l : before_slash l = None <-> 47 ∉ l.
Proof.
  induction l as [|b l IH]; [split; [intros _ H; by apply elem_of_nil in H|done]|]. cbn. rewrite not_elem_of_cons. destruct (N.eqb_spec b 47) as [->|Hb]; [split; [done|by intros [? _]]|].
  destruct (before_slash l); [split; [done|intros [_ H]; by apply IH in H]|]. split; [intros _; split; [done|by apply IH]|done].
Qed.
Lemma before_slash_some l t : before_slash l = Some t <-> 47 ∉ t /\ exists x, l = t ++ 47 :: x.
Proof.
  revert t. induction l as [|b l IH]; intros t; cbn; [split; [done|]; intros (_ & x & E); by destruct t|]. destruct (N.eqb_spec b 47) as [->|Hb].
  - split; [intros [= <-]; split; [apply not_elem_of_nil|by exists l]|]. intros (Ht & x & E). destruct t as [|c t]; [done|]. injection E as <- E. exfalso. apply Ht. by left.
  - destruct (before_slash l) as [t'|] eqn:El.
    + split.
      * intros [= <-]. destruct (proj1 (IH t') eq_refl) as (Ht & x & ->). split; [by apply not_elem_of_cons|]. by exists x.
      * intros (Ht & x & E). destruct t as [|c t]; [by injection E as -> _|]. injection E as <- ->. apply not_elem_of_cons in Ht as [_ Ht]. f_equal. f_equal.
        assert (Some t' = Some t) as H by (apply IH; eauto). by injection H.
    + split; [done|]. intros (Ht & x & E). destruct t as [|c t]; [by injection E as -> _|]. injection E as <- ->. apply not_elem_of_cons in Ht as [_ Ht].
      assert (@None bytes = Some t) as H by (apply IH; eauto). done.
Qed.

(* A label that begins with an ASCII character, or has no slash, reaches exactly the service it names *)
Theorem C71_reaches_what_it_names_partial ss l u : services_ok ss -> ascii_first l \/ 47 ∉ l ->
  proc_target ss l = Some u <-> exists s, names ss l s /\ vUrl s = u.
Proof.
  intros Hok Hl. unfold proc_target, target. fold at_.
  assert (forall s, s ∈ ss -> 47 ∉ vPrefix s) as Hns. { intros s Hs. destruct Hok as [H _]. rewrite Forall_forall in H. apply (H s Hs). }
  assert (forall s, s ∈ ss -> match vPrefix s with [] => True | b :: _ => b < 128 /\ b <> 64 /\ b <> 58 end) as Hfirst. { intros s Hs. destruct Hok as [H _]. rewrite Forall_forall in H. apply (H s Hs). }
  assert (forall t x y, 47 ∉ t -> t ++ 47 :: x = y -> before_slash y = Some t) as Hbs by (intros t x y Ht <-; apply before_slash_some; eauto).
  split.
  - destruct (before_slash l) as [t|] eqn:Eb.
    + apply before_slash_some in Eb as (Ht & x & ->). destruct t as [|b r].
      * intros H. apply (http_at ss Hok) in H as (s & Hh & Hp & Hu). exists s. split; [by apply n_default_slash|done].
      * apply not_elem_of_cons in Ht as [Hb Hr]. destruct Hl as [Hl|Hl]; [|exfalso; apply Hl; apply elem_of_app; right; by left]. cbn in Hl.
        destruct (N.leb_spec 128 b) as [?|_]; [lia|]. destruct (N.eqb_spec b 64) as [->|Hb64]; cbn [andb].
        -- destruct (decide (r = [])) as [->|Hr0].
           ++ rewrite bool_decide_eq_true_2 by done. cbn. intros H. apply (http_at ss Hok) in H as (s & Hh & Hp & Hu). exists s. split; [by apply n_default_at|done].
           ++ rewrite bool_decide_eq_false_2 by done. cbn. destruct (decide (r = at_)) as [->|Hra].
              ** intros H. apply (http_at ss Hok) in H as (s & Hh & Hp & Hu). exists s. split; [by apply n_default_at2|done].
              ** intros H. apply (http_prefix ss Hok) in H as (s & Hs & Hp & _ & Hu); [|done]. exists s. split; [by apply n_at|done].
        -- destruct (N.eqb_spec b 58) as [->|Hb58]; cbn [andb].
           ++ destruct (decide (r = [])) as [->|Hr0].
              ** rewrite bool_decide_eq_true_2 by done. cbn [negb]. intros H. apply (http_prefix ss Hok) in H as (s & Hs & Hp & _ & Hu); [|done].
                 specialize (Hfirst s Hs). rewrite Hp in Hfirst. by destruct Hfirst as (_ & _ & ?).
              ** rewrite bool_decide_eq_false_2 by done. cbn. intros H. apply (tcp_port ss Hok) in H as (s & Hs & Hp & <- & Hu). exists s. split; [by apply n_port|done].
           ++ intros H. apply (http_prefix ss Hok) in H as (s & Hs & Hp & Hn & Hu); [|intros E; injection E; done]. exists s. split; [|done]. by apply n_prefix.
    + intros H. apply (http_at ss Hok) in H as (s & Hh & Hp & Hu). exists s. split; [|done]. apply n_default; [|done..]. by apply before_slash_none.
  - intros (s & Hn & <-). destruct Hn as [p x s Hs Hp Hp0|p x s Hs Hp Hp0|x s Hs Hp|l s Hl' Hh Hp|x s Hh Hp|x s Hh Hp|x s Hh Hp].
    + specialize (Hns s Hs). rewrite Hp in Hns. rewrite (Hbs p x _ Hns eq_refl). pose proof (Hfirst s Hs) as Hf. rewrite Hp in Hf. destruct p as [|b r]; [done|].
      destruct Hf as (Hb & Hb64 & Hb58). destruct (N.leb_spec 128 b) as [?|_]; [lia|]. destruct (N.eqb_spec b 64); [done|]. destruct (N.eqb_spec b 58); [done|]. cbn [andb].
      apply (http_prefix ss Hok); [intros E; by injection E|]. eauto 6.
    + specialize (Hns s Hs). rewrite Hp in Hns. rewrite (Hbs (64 :: p) x); [|by apply not_elem_of_cons|done]. change (128 <=? 64) with false. cbn match. rewrite N.eqb_refl, bool_decide_eq_false_2 by done.
      cbn [andb negb]. apply (http_prefix ss Hok); [rewrite <- Hp; by apply (not_at ss)|]. eauto 6.
    + rewrite (Hbs (58 :: dec (vPort s)) x); [|apply not_elem_of_cons; split; [done|apply dec_no_slash]|done]. change (128 <=? 58) with false. cbn match. change (58 =? 64) with false. cbn [andb].
      rewrite N.eqb_refl, bool_decide_eq_false_2 by apply dec_spec. cbn [andb negb]. apply (tcp_port ss Hok). eauto 6.
    + rewrite (proj2 (before_slash_none l) Hl'). apply (http_at ss Hok). eauto.
    + cbn. apply (http_at ss Hok). eauto.
    + cbn. apply (http_at ss Hok). eauto.
    + cbn. apply (http_at ss Hok). eauto.
Qed.
(* hence: whoever names a prefix or a port gets that service, whatever comes after the slash *)
Theorem C71_prefix ss s x : services_ok ss -> s ∈ ss -> vPrefix s <> [] ->
  proc_target ss (vPrefix s ++ 47 :: x) = Some (vUrl s) /\ proc_target ss (64 :: vPrefix s ++ 47 :: x) = Some (vUrl s).
Proof.
  intros Hok Hs Hp. assert (ascii_first (vPrefix s ++ 47 :: x)) as Ha.
  { destruct Hok as [H _]. rewrite Forall_forall in H. destruct (H s Hs) as [_ H2]. destruct (vPrefix s); [done|]. apply H2. }
  split; apply C71_reaches_what_it_names_partial; [done|by left| |done|left; cbn; lia|]; exists s; (split; [|done]); [by apply n_prefix|by apply n_at].
Qed.
Theorem C71_port ss s x : services_ok ss -> s ∈ ss -> vPrefix s = [] -> proc_target ss (58 :: dec (vPort s) ++ 47 :: x) = Some (vUrl s).
Proof. intros Hok Hs Hp. apply C71_reaches_what_it_names_partial; [done|left; cbn; lia|]. exists s. split; [by apply n_port|done]. Qed.
Theorem C71_nothing_else ss l : services_ok ss -> ascii_first l -> (forall s, ~ names ss l s) -> proc_target ss l = None.
Proof. intros Hok Hl Hn. destruct (proc_target ss l) as [u|] eqn:E; [|done]. apply C71_reaches_what_it_names_partial in E as (s & H & _); [by apply Hn in H|done|by left]. Qed.

(* ---- false of the code ---- *)
Definition web : svc := mkSvc (bs "web") 0 (bs "http://127.0.0.1:80").
Definition ssh : svc := mkSvc [] 2222 (bs "tcp://127.0.0.1:22").
Definition sql : svc := mkSvc [] 3306 (bs "tcp://127.0.0.1:3306").
Definition wiki : svc := mkSvc (bs "wiki") 0 (bs "http://127.0.0.1:81").
Theorem C71_witness : services_ok [web; ssh; wiki; sql] /\
  proc_target [web; ssh; wiki; sql] (bs "wiki/x") = Some (vUrl wiki) /\ proc_target [web; ssh; wiki; sql] (bs ":2222/") = Some (vUrl ssh) /\
  proc_target [web; ssh; wiki; sql] (bs "chan") = Some (vUrl web) /\ proc_target [web; ssh; wiki; sql] (bs "mail/x") = None.
Proof.
  split; [|by vm_compute]. split_and!.
  - repeat constructor; try (intros H; apply (bool_decide_pack _) in H; vm_compute in H; exact H).
  - intros s1 s2 H1 H2. rewrite !elem_of_cons, elem_of_nil in H1, H2. destruct_or! H1; destruct_or! H2; subst; try done.
  - intros s1 s2 H1 H2. rewrite !elem_of_cons, elem_of_nil in H1, H2. destruct_or! H1; destruct_or! H2; subst; try done.
Qed.
(* a label that begins with another character reaches the first service although it names none *)
Theorem C71_other_characters_refuted : exists l, (forall s, ~ names [web] l s) /\ proc_target [web] l = Some (vUrl web).
Proof.
  exists [195; 169; 47]. split; [|by vm_compute]. intros s H. inversion H as [p x s' Hs Hp Hp0 E| | |l s' Hl Hh Hp E| | |]; subst.
  - apply elem_of_list_singleton in Hs as ->. vm_compute in E. discriminate.
  - apply Hl. apply (bool_decide_unpack _). vm_compute. exact I.
Qed.
(* the first service has no host prefix: a channel without a name reaches nothing, although there are web services *)
Theorem C71_no_default_refuted : proc_target [ssh; web] (bs "chan") = None. Proof. by vm_compute. Qed.
(* TCP services whose ports the server has not told yet share one entry: the first cannot be reached *)
Theorem C71_unknown_ports_refuted : exists a b, vPrefix a = [] /\ vPrefix b = [] /\ vPort a = 0 /\ vPort b = 0 /\ vUrl a <> vUrl b /\ forall l, proc_target [a; b] l <> Some (vUrl a).
Proof.
  exists (mkSvc [] 0 (bs "tcp://a")), (mkSvc [] 0 (bs "tcp://b")). split_and!; try done. intros l. unfold proc_target, target.
  assert (forall k, (routes [mkSvc [] 0 (bs "tcp://a"); mkSvc [] 0 (bs "tcp://b")]).1 !! k = None) as H1 by (intros k; by apply lookup_empty).
  assert (forall k, (routes [mkSvc [] 0 (bs "tcp://a"); mkSvc [] 0 (bs "tcp://b")]).2 !! k <> Some (bs "tcp://a")) as H2.
  { intros k. unfold routes. cbn [routes_go add_route vPrefix snd vPort vUrl]. rewrite insert_insert. destruct (decide (k = dec 0)) as [->|Hk]; [rewrite lookup_insert; done|by rewrite lookup_insert_ne, lookup_empty]. }
  repeat case_match; first [by rewrite H1|apply H2].
Qed.
(* With -webrtcThread the label does not matter: the two ways to serve a visitor disagree *)
Theorem C71_thread_ignores_label_refuted : thread_target [web; wiki] (bs "wiki/x") = Some (vUrl web) /\ proc_target [web; wiki] (bs "wiki/x") = Some (vUrl wiki).
Proof. by vm_compute. Qed.
