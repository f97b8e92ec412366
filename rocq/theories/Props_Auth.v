(* Props_Auth.v -- C06-C09, C42: who may open a tunnel *)
From Verif Require Import GoBase GoBaseLemmas AuthModel.
Local Open Scope N_scope.

(* ---- specification ---- *)
Definition len_ok (s : bytes) : Prop := 1 <= blen s <= 200.
Definition table_ok (m : users) : Prop := forall id u, m !! id = Some u -> len_ok id /\ len_ok (uSecret u).

(* the failures of one IP that follow its last release, in a history (oldest event first) *)
Fixpoint fails_since (ip : N) (es : list lev) (acc : N) : N :=
  match es with
  | [] => acc
  | LFail ip' :: es => fails_since ip es (if ip' =? ip then acc + 1 else acc)
  | LFire ip' :: es => fails_since ip es (if ip' =? ip then 0 else acc)
  end.

(* ---- C42 ---- *)
Lemma verify_spec m : verify m = true <-> table_ok m.
Proof.
  unfold verify. rewrite bool_decide_eq_true. unfold map_Forall, table_ok, entry_ok, len_ok. split.
  - intros H id u Hu. apply H in Hu. destruct (N.ltb_spec (blen id) 1), (N.ltb_spec 200 (blen id)); try done.
    destruct (N.ltb_spec (blen (uSecret u)) 1), (N.ltb_spec 200 (blen (uSecret u))); try done; lia.
  - intros H id u Hu. apply H in Hu. destruct (N.ltb_spec (blen id) 1); [lia|]. destruct (N.ltb_spec 200 (blen id)); [lia|].
    destruct (N.ltb_spec (blen (uSecret u)) 1); [lia|]. destruct (N.ltb_spec 200 (blen (uSecret u))); [lia|]. done.
Qed.
Lemma merge_ok m l ids secrets m' : merge_users m l ids secrets = MOk m' -> table_ok m' /\ length ids = length secrets.
Proof.
  unfold merge_users. destruct (store_all l m); [|done]. destruct (Nat.eqb_spec (length ids) (length secrets)) as [E|]; [|done]. cbn.
  destruct (verify _) eqn:V; [|done]. intros [= <-]. by apply verify_spec in V.
Qed.
(* C42: a server that starts has only IDs and secrets of 1 to 200 bytes, and was given as many IDs as secrets *)
Theorem C42_table_admissible conf file ids secrets m :
  start_users conf file ids secrets = MOk m ->
  (forall id u, m !! id = Some u -> 1 <= blen id <= 200 /\ 1 <= blen (uSecret u) <= 200)
  /\ length ids = length secrets.
Proof.
  unfold start_users. destruct (merge_users ∅ conf [] []) as [m0| |]; [|done..]. intros H. apply merge_ok in H as [H1 H2]. split; [apply H1|done].
Qed.

(* and nothing else refuses a table: the configured users with sane lengths do start the server, with exactly those
   users (a later definition of the same ID wins) *)
Fixpoint assoc_last (id : bytes) (l : list (bytes * user)) : option user :=
  match l with
  | [] => None
  | (k, u) :: l => match assoc_last id l with Some u' => Some u' | None => if decide (k = id) then Some u else None end
  end.
Lemma store_all_spec l m : store_all (map (fun p => (fst p, Some (snd p))) l) m <> None /\
  forall m', store_all (map (fun p => (fst p, Some (snd p))) l) m = Some m' ->
  forall id, m' !! id = match assoc_last id l with Some u => Some u | None => m !! id end.
Proof.
  revert m; induction l as [|[k u] l IH]; intros m; cbn; [split; [done|]; by intros ? [= <-]|].
  destruct (IH (<[k := u]> m)) as [H1 H2]. split; [done|]. intros m' Hm id. rewrite (H2 _ Hm id).
  destruct (assoc_last id l); [done|]. destruct (decide (k = id)) as [->|]; [by rewrite lookup_insert|by rewrite lookup_insert_ne].
Qed.
Lemma store_ids_spec ids secrets m id : length ids = length secrets ->
  store_ids ids secrets 0 m !! id =
  match assoc_last id (zip ids (map (fun s => mkUser s false 0) secrets)) with Some u => Some u | None => m !! id end.
Proof.
  revert secrets m; induction ids as [|k ids IH]; intros [|s secrets] m; cbn; try done. intros [= Hl].
  rewrite IH by done. destruct (assoc_last id _); [done|].
  destruct (decide (k = id)) as [->|]; [by rewrite lookup_insert|by rewrite lookup_insert_ne].
Qed.
Lemma assoc_last_in id l u : assoc_last id l = Some u -> (id, u) ∈ l.
Proof.
  induction l as [|[k v] l IH]; cbn; [done|]. destruct (assoc_last id l) as [u'|].
  - intros [= ->]. right. by apply IH.
  - destruct (decide (k = id)) as [->|]; [|done]. intros [= ->]. left.
Qed.
Theorem C42_good_tables_start conf file ids secrets :
  Forall (fun p => len_ok (fst p) /\ len_ok (uSecret (snd p))) (conf ++ file) ->
  Forall len_ok ids -> Forall len_ok secrets -> length ids = length secrets ->
  exists m, start_users (map (fun p => (fst p, Some (snd p))) conf) (map (fun p => (fst p, Some (snd p))) file) ids secrets = MOk m
  /\ forall id, m !! id =
     match assoc_last id (zip ids (map (fun s => mkUser s false 0) secrets)) with
     | Some u => Some u
     | None => match assoc_last id file with Some u => Some u | None => assoc_last id conf end
     end.
Proof.
  intros Hf Hi Hs Hl. apply Forall_app in Hf as [Hc Hf]. unfold start_users, merge_users. cbn [length].
  destruct (store_all_spec conf ∅) as [H1 H2]. destruct (store_all _ ∅) as [m0|] eqn:E0; [|done]. specialize (H2 _ eq_refl). cbn [Nat.eqb negb store_ids].
  assert (table_ok m0) as T0.
  { intros id u Hu. rewrite H2 in Hu. destruct (assoc_last id conf) as [u'|] eqn:Ha; [|by rewrite lookup_empty in Hu].
    injection Hu as ->. apply assoc_last_in in Ha. rewrite Forall_forall in Hc. by apply (Hc (id, u)). }
  rewrite (proj2 (verify_spec m0)) by done.
  destruct (store_all_spec file m0) as [H3 H4]. destruct (store_all _ m0) as [m1|] eqn:E1; [|done]. specialize (H4 _ eq_refl).
  rewrite Hl, Nat.eqb_refl. cbn [negb].
  assert (forall id, store_ids ids secrets 0 m1 !! id =
    match assoc_last id (zip ids (map (fun s => mkUser s false 0) secrets)) with
     | Some u => Some u
     | None => match assoc_last id file with Some u => Some u | None => assoc_last id conf end
     end) as HL.
  { intros id. rewrite store_ids_spec by done. destruct (assoc_last id (zip _ _)); [done|]. rewrite H4, H2. destruct (assoc_last id file); [done|].
    destruct (assoc_last id conf); [done|]. apply lookup_empty. }
  rewrite (proj2 (verify_spec _)); [by eexists|].
  intros id u Hu. rewrite HL in Hu. destruct (assoc_last id (zip _ _)) as [u1|] eqn:A1.
  { injection Hu as ->. apply assoc_last_in in A1. pose proof A1 as A2. apply elem_of_zip_l in A1. apply elem_of_zip_r in A2.
    apply elem_of_list_fmap in A2 as (s & -> & Hin). rewrite Forall_forall in Hi, Hs. split; [by apply Hi|by apply Hs]. }
  destruct (assoc_last id file) as [u2|] eqn:A2.
  { injection Hu as ->. apply assoc_last_in in A2. rewrite Forall_forall in Hf. by apply (Hf (id, u)). }
  apply assoc_last_in in Hu. rewrite Forall_forall in Hc. by apply (Hc (id, u)).
Qed.
(* a YAML entry without a body ("users: {alice: }") makes the server crash instead of reporting an error *)
Theorem C42_nil_entry_refuted : start_users [([97], None)] [] [] [] = MPanic.
Proof. done. Qed.
Example C42_example : start_users [([97], Some (mkUser [115] false 7))] [] [[98]] [[116]] <> MErr
  /\ start_users [([97], Some (mkUser [115] false 7))] [] [[98]] [] = MErr
  /\ start_users [([97], Some (mkUser [] false 7))] [] [] [] = MErr.
Proof. repeat split; vm_compute; try done. Qed.

(* ---- C07, C06 with a user table ---- *)
Theorem C07_exact global m a id secret u :
  auth_config global m a id secret = Some u <->
  (id <> [] /\ secret <> [] /\ m !! id = Some u /\ uSecret u = secret)
  \/ (id <> [] /\ secret <> [] /\ (forall v, m !! id = Some v -> uSecret v <> secret)
      /\ a = Some (id, secret) /\ u = api_user global).
Proof.
  unfold auth_config. destruct (decide (id = [])) as [->|Hid]; [cbn; split; [done|intros [[]|[]]; done]|].
  destruct (decide (secret = [])) as [->|Hsec].
  { replace (blen (@nil N) <? 1) with true by done. rewrite orb_true_r. split; [done|intros [(_ & ? & _)|(_ & ? & _)]; done]. }
  assert (forall l : bytes, l <> [] -> (blen l <? 1) = false) as HL.
  { intros [|x l] H; [done|]. rewrite blen_cons. apply N.ltb_ge. lia. }
  rewrite !HL by done. cbn [orb]. clear HL.
  unfold table_auth. destruct (m !! id) as [v|] eqn:Hm.
  - destruct (decide (uSecret v = secret)) as [Hs|Hs].
    + split; [intros [= ->]; by left|]. intros [(_ & _ & [= ->] & _)|(_ & _ & H & _)]; [done|]. by destruct (H v).
    + unfold api_auth. destruct a as [[ai as_]|].
      * destruct (bool_decide_reflect (id = ai)) as [->|], (bool_decide_reflect (secret = as_)) as [->|]; cbn.
        -- split; [intros [= <-]; right|by intros [(_ & _ & [= ->] & ?)|(_ & _ & _ & _ & ->)]].
           repeat split; try done. by intros ? [= ->].
        -- split; [done|intros [(_ & _ & [= ->] & ?)|(_ & _ & _ & [= ] & ->)]; congruence].
        -- split; [done|intros [(_ & _ & [= ->] & ?)|(_ & _ & _ & [= ] & ->)]; congruence].
        -- split; [done|intros [(_ & _ & [= ->] & ?)|(_ & _ & _ & [= ] & ->)]; congruence].
      * split; [done|]. intros [(_ & _ & [= ->] & ?)|(_ & _ & _ & [= ] & ->)]; congruence.
  - unfold api_auth. destruct a as [[ai as_]|]; [|split; [done|by intros [(_ & _ & [= ] & _)|(_ & _ & _ & [= ] & _)]]].
    destruct (bool_decide_reflect (id = ai)) as [->|], (bool_decide_reflect (secret = as_)) as [->|]; cbn.
    + split; [intros [= <-]; right; by repeat split|by intros [(_ & _ & [= ] & ?)|(_ & _ & _ & _ & ->)]].
    + split; [done|intros [(_ & _ & [= ] & ?)|(_ & _ & _ & [= ] & ->)]; congruence].
    + split; [done|intros [(_ & _ & [= ] & ?)|(_ & _ & _ & [= ] & ->)]; congruence].
    + split; [done|intros [(_ & _ & [= ] & ?)|(_ & _ & _ & [= ] & ->)]; congruence].
Qed.
Example C07_example :
  auth_config 9 {[ [97] := mkUser [115] false 7 ]} (Some ([], [])) [97] [115] = Some (mkUser [115] false 7)
  /\ auth_config 9 {[ [97] := mkUser [115] false 7 ]} (Some ([], [])) [97] [116] = None
  /\ auth_config 9 {[ [97] := mkUser [115] false 7 ]} (Some ([], [])) [] [] = None
  /\ auth_config 9 {[ [97] := mkUser [115] false 7 ]} (Some ([97], [116])) [97] [116] = Some (mkUser [] false 9).
Proof. by vm_compute. Qed.

(* C06 where it does hold: with a user table (and no allowAnyClient) the admitted credentials have admissible lengths,
   because the table has (C42); self-test credentials are generated by the server itself *)
Theorem C06_with_user_table_partial global conf file ids secrets m a id secret u :
  start_users conf file ids secrets = MOk m -> pick_mode false false m = ModeConfig ->
  (forall i s, a = Some (i, s) -> (i = [] /\ s = []) \/ (len_ok i /\ len_ok s)) ->
  auth_config global m a id secret = Some u -> 1 <= blen id <= 200 /\ 1 <= blen secret <= 200.
Proof.
  intros Hs _ Ha Hu. apply C42_table_admissible in Hs as [Hs _]. apply C07_exact in Hu as [(_ & _ & Hm & <-)|(Hi & Hne & _ & -> & _)].
  - by apply (Hs _ _ Hm).
  - destruct (Ha _ _ eq_refl) as [[-> _]|H]; done.
Qed.
(* C06 where it does not: without a table any length is admitted, 255 bytes or none at all *)
Theorem C06_any_client_refuted : 
  fst (auth_any 0 ∅ None [] []) = Some (mkUser [] true 0)
  /\ (forall id secret, fst (auth_any 0 ∅ None id secret) = Some (mkUser secret true 0)).
Proof.
  split; [done|]. intros id secret. unfold auth_any. cbn [api_auth]. rewrite lookup_empty. cbn. by destruct (decide (secret = secret)).
Qed.

(* ---- C08 ---- *)
(* the connections that were admitted for an ID and are still there *)
Definition conns (st : hstate) : list (bytes * bytes) := hPending st ++ hLive st.
(* no last tunnel of an ID goes away while another connection of the same ID is between authentication and
   registration, and no presented pair is the API self-test's *)
Fixpoint calm (global : N) (md : mode) (a : apisrv) (st : hstate) (es : list hstep_ev) : Prop :=
  match es with
  | [] => True
  | e :: es =>
      match e with
      | HAuth id s => api_auth a id s = false
      | HClose i => match hLive st !! i with
                    | Some (id, _) => (exists s, (id, s) ∈ removeNth i (hLive st)) \/ (forall s, (id, s) ∉ hPending st)
                    | None => True
                    end
      | _ => True
      end /\ calm global md a (fst (hstep global md a st e)) es
  end.
Definition bound_inv (st : hstate) : Prop :=
  forall id s, (id, s) ∈ conns st -> exists u, hUsers st !! id = Some u /\ uSecret u = s.

Lemma removeNth_elem {A} i (l : list A) x : x ∈ removeNth i l -> x ∈ l.
Proof. unfold removeNth. rewrite elem_of_app. intros [H|H]; [by eapply elem_of_take in H as (? & H & _); eapply elem_of_list_lookup_2|].
  apply elem_of_list_lookup in H as [j H]. rewrite lookup_drop in H. by eapply elem_of_list_lookup_2. Qed.
Lemma bound_step global md a st e : bound_inv st -> 
  match e with
  | HAuth id s => api_auth a id s = false
  | HClose i => match hLive st !! i with
                | Some (id, _) => (exists s, (id, s) ∈ removeNth i (hLive st)) \/ (forall s, (id, s) ∉ hPending st)
                | None => True
                end
  | _ => True
  end -> bound_inv (fst (hstep global md a st e)).
Proof.
  intros Hi Hc. destruct e as [id s|i|i|i]; cbn [hstep].
  - unfold auth_any. rewrite Hc. destruct (hUsers st !! id) as [u|] eqn:Hu.
    + destruct (decide (uSecret u = s)) as [Hs|Hs]; cbn; [|intros id' s' H; by apply Hi].
      intros id' s'. unfold conns. cbn. rewrite <- app_assoc, elem_of_app, elem_of_app, elem_of_list_singleton.
      intros [H|[[= -> ->]|H]]; [apply Hi; unfold conns; set_solver|by eexists|apply Hi; unfold conns; set_solver].
    + cbn. destruct (decide (s = s)) as [_|]; [|done]. cbn. intros id' s'. unfold conns. cbn. rewrite <- app_assoc, elem_of_app, elem_of_app, elem_of_list_singleton.
      assert ((id', s') ∈ conns st -> exists u, <[id:=mkUser s true global]> (hUsers st) !! id' = Some u /\ uSecret u = s') as HH.
      { intros H. apply Hi in H as (u & H1 & H2). exists u. split; [|done]. rewrite lookup_insert_ne; [done|]. intros ->. congruence. }
      intros [H|[[= -> ->]|H]]; [apply HH; unfold conns; set_solver| |apply HH; unfold conns; set_solver].
      eexists. by rewrite lookup_insert.
  - destruct (hPending st !! i) as [c|] eqn:Hp; [|done]. cbn. intros id s. unfold conns. cbn.
    rewrite !elem_of_app, elem_of_list_singleton. intros [H|[H|H]]; apply Hi; unfold conns; apply elem_of_app; [left; by apply removeNth_elem in H|by right|].
    left. subst. by eapply elem_of_list_lookup_2.
  - cbn. intros id s. unfold conns. cbn. rewrite elem_of_app. intros [H|H]; apply Hi; unfold conns; apply elem_of_app; [left; by apply removeNth_elem in H|by right].
  - destruct (hLive st !! i) as [[id s]|] eqn:Hl; [|done]. cbn. intros id' s'. unfold conns. cbn. intros H.
    assert ((id', s') ∈ conns st) as H'.
    { unfold conns. rewrite elem_of_app in *. destruct H as [H|H]; [by left|right; by apply removeNth_elem in H]. }
    destruct (decide (Exists _ _)) as [He|He]; [by apply Hi|].
    assert (id' <> id).
    { intros ->. assert (forall s, (id, s) ∉ removeNth i (hLive st)) as Hn.
      { intros s0 Hin. apply He, Exists_exists. by exists (id, s0). }
      destruct Hc as [[s0 Hs0]|Hc]; [by apply Hn in Hs0|].
      apply elem_of_app in H as [H|H]; [by apply Hc in H|by apply Hn in H]. }
    apply Hi in H' as (u & H1 & H2). exists u. split; [|done]. unfold remove_user.
    destruct md; try done; [by rewrite lookup_delete_ne|]. destruct (hUsers st !! id) as [u0|]; [|done]. destruct (uTemp u0); [by rewrite lookup_delete_ne|done].
Qed.
Lemma bound_run global md a st es : bound_inv st -> calm global md a st es -> bound_inv (hrun global md a st es).
Proof.
  revert st; induction es as [|e es IH]; intros st Hi; [done|]. cbn [calm hrun]. intros [Hc Hes]. apply IH; [|done]. by apply bound_step.
Qed.
(* C08: in every calm history starting from any table, all connections of an ID hold the same secret, and while one is
   there every other secret is refused *)
Theorem C08_bound_partial global md a m es :
  calm global md a (mkH m [] []) es ->
  let st := hrun global md a (mkH m [] []) es in
  (forall id s s', (id, s) ∈ conns st -> (id, s') ∈ conns st -> s = s')
  /\ (forall id s s', (id, s) ∈ conns st -> s' <> s -> api_auth a id s' = false ->
      snd (hstep global md a st (HAuth id s')) = Some false)
  /\ (forall id s, (id, s) ∈ conns st -> snd (hstep global md a st (HAuth id s)) = Some true).
Proof.
  intros Hc st. assert (bound_inv st) as Hi.
  { apply bound_run; [|done]. intros id s H. unfold conns in H. cbn in H. set_solver. }
  split; [|split].
  - intros id s s' H1 H2. apply Hi in H1 as (u & Hu & <-). apply Hi in H2 as (u' & Hu' & <-). congruence.
  - intros id s s' H1 Hne Ha. apply Hi in H1 as (u & Hu & <-). cbn [hstep]. unfold auth_any. rewrite Ha, Hu.
    destruct (decide (uSecret u = s')) as [E|]; [congruence|done].
  - intros id s H1. apply Hi in H1 as (u & Hu & <-). cbn [hstep]. unfold auth_any. destruct (api_auth a id (uSecret u)); [done|]. rewrite Hu.
    by destruct (decide (uSecret u = uSecret u)).
Qed.
(* C08: configured users are never replaced or forgotten, whatever the history *)
Theorem C08_configured_users_kept global allowAny a m es :
  (forall id u, m !! id = Some u -> uTemp u = false) ->
  let md := pick_mode false allowAny m in
  forall id u, m !! id = Some u -> hUsers (hrun global md a (mkH m [] []) es) !! id = Some u.
Proof.
  intros Hm md id u Hu. assert (md <> ModeAnyEmpty) as Hmd.
  { subst md. unfold pick_mode. destruct (decide (m = ∅)) as [->|]; [by rewrite lookup_empty in Hu|by destruct allowAny]. }
  clearbody md. assert (uTemp u = false) as Ht by (by apply (Hm id)).
  assert (hUsers (mkH m [] []) !! id = Some u) as Hi by done. revert Hi. generalize (mkH m [] []). clear Hm Hu m.
  induction es as [|e es IH]; intros st Hi; [done|]. cbn [hrun]. apply IH. clear IH.
  destruct e as [id' s|i|i|i]; cbn [hstep].
  - unfold auth_any. destruct (api_auth a id' s); [done|]. destruct (hUsers st !! id') as [u'|] eqn:Hu'.
    + destruct (decide _); done.
    + cbn. destruct (decide (s = s)); [|done]. cbn. rewrite lookup_insert_ne; [done|]. intros ->. congruence.
  - destruct (hPending st !! i); done.
  - done.
  - destruct (hLive st !! i) as [[id' s]|]; [|done]. cbn. destruct (decide (Exists _ _)); [done|]. unfold remove_user. destruct md; try done.
    destruct (decide (id' = id)) as [->|Hne].
    + by rewrite Hi, Ht.
    + destruct (hUsers st !! id') as [u0|]; [|done]. destruct (uTemp u0); [by rewrite lookup_delete_ne|done].
Qed.
Example C08_example :
  let es := [HAuth [97] [115]; HAdd 0; HAuth [97] [115]; HAdd 0; HClose 0] in
  calm 0 ModeAnyEmpty None (mkH ∅ [] []) es /\ hLive (hrun 0 ModeAnyEmpty None (mkH ∅ [] []) es) = [([97], [115])]
  /\ snd (hstep 0 ModeAnyEmpty None (hrun 0 ModeAnyEmpty None (mkH ∅ [] []) es) (HAuth [97] [116])) = Some false
  /\ let es' := es ++ [HClose 0] in
     calm 0 ModeAnyEmpty None (mkH ∅ [] []) es' /\
     snd (hstep 0 ModeAnyEmpty None (hrun 0 ModeAnyEmpty None (mkH ∅ [] []) es') (HAuth [97] [116])) = Some true.
Proof. 
  repeat split; try by vm_compute.
  - left. exists [115]. vm_compute. left.
  - left. exists [115]. vm_compute. left.
  - right. intros s H. vm_compute in H. inversion H.
Qed.
(* C08 refuted, 1: the last tunnel of "a" goes while another connection has just been authenticated; the binding is
   forgotten, that connection becomes a tunnel, and a different secret is then admitted: two live tunnels of one ID
   with different secrets *)
Theorem C08_race_refuted :
  let es := [HAuth [97] [115]; HAdd 0; HAuth [97] [115]; HClose 0; HAdd 0; HAuth [97] [116]; HAdd 0] in
  hLive (hrun 0 ModeAnyEmpty None (mkH ∅ [] []) es) = [([97], [115]); ([97], [116])].
Proof. by vm_compute. Qed.
(* C08 refuted, 2: a connection that is authenticated and then fails (a bad option, a conflicting prefix) leaves the
   binding behind although no tunnel exists: the ID stays closed to every other secret until somebody presents the first one *)
Theorem C08_leak_refuted :
  let st := hrun 0 ModeAnyEmpty None (mkH ∅ [] []) [HAuth [97] [115]; HDrop 0] in
  hLive st = [] /\ hPending st = [] /\ snd (hstep 0 ModeAnyEmpty None st (HAuth [97] [116])) = Some false.
Proof. by vm_compute. Qed.
(* C08 refuted, 3: with an API server that is not running a self-test, the pair ("", "") is admitted although the ID ""
   is bound to another secret *)
Theorem C08_api_idle_refuted :
  hLive (hrun 0 ModeAnyEmpty (Some ([], [])) (mkH ∅ [] []) [HAuth [] [115]; HAdd 0; HAuth [] []; HAdd 0]) = [([], [115]); ([], [])].
Proof. by vm_compute. Qed.

(* ---- C09 ---- *)
Global Instance lev_eq_dec : EqDecision lev.
Proof. solve_decision. Defined.
Lemma fails_since_snoc ip es e acc : fails_since ip (es ++ [e]) acc =
  match e with
  | LFail ip' => if ip' =? ip then fails_since ip es acc + 1 else fails_since ip es acc
  | LFire ip' => if ip' =? ip then 0 else fails_since ip es acc
  end.
Proof. revert acc; induction es as [|[] es IH]; intros acc; cbn; [by destruct e|by rewrite IH..]. Qed.
Lemma lcount times release es st ip : lreach times release es st ->
  default 0 (lCount st !! ip) = fails_since ip es 0 mod 4294967296.
Proof.
  induction 1 as [|es st ip' _ IH|es st ip' _ IH _]; [done| |]; rewrite fails_since_snoc; cbn [lstep lCount].
  - destruct (N.eqb_spec ip' ip) as [->|Hne].
    + rewrite lookup_insert. cbn. rewrite IH. unfold u32. by rewrite N.add_mod_idemp_l by done.
    + by rewrite lookup_insert_ne.
  - destruct (N.eqb_spec ip' ip) as [->|Hne]; [by rewrite lookup_insert|by rewrite lookup_insert_ne].
Qed.
(* C09: exactly the IPs with more than reconnectTimes failures since their last release are refused *)
Theorem C09_exact times release es st ip : lreach times release es st -> fails_since ip es 0 < 4294967296 ->
  limited times st ip = true <-> times < fails_since ip es 0.
Proof. intros Hr Hb. unfold limited. rewrite (lcount _ _ _ _ ip Hr), N.mod_small by done. apply N.ltb_lt. Qed.
(* C09: what happens to other IPs does not matter *)
Definition ev_ip (e : lev) : N := match e with LFail ip | LFire ip => ip end.
Theorem C09_per_ip times release es es' st st' ip :
  lreach times release es st -> lreach times release es' st' ->
  filter (fun e => ev_ip e = ip) es = filter (fun e => ev_ip e = ip) es' -> limited times st ip = limited times st' ip.
Proof.
  intros H1 H2 Hf. unfold limited. rewrite (lcount _ _ _ _ ip H1), (lcount _ _ _ _ ip H2). do 2 f_equal.
  assert (forall es acc, fails_since ip es acc = fails_since ip (filter (fun e => ev_ip e = ip) es) acc) as HH.
  { clear. induction es as [|e es IH]; intros acc; [done|]. rewrite filter_cons. destruct (decide (ev_ip e = ip)) as [E|E].
    - destruct e; cbn in *; subst; by rewrite N.eqb_refl, IH.
    - destruct e; cbn in *; destruct (N.eqb_spec ip0 ip); try done; by rewrite IH. }
  by rewrite (HH es), (HH es'), Hf.
Qed.
Lemma remove_one_other x y l : y <> x -> y ∈ l -> y ∈ remove_one x l.
Proof.
  intros Hne. induction l as [|z l IH]; [done|]. cbn. rewrite elem_of_cons. destruct (N.eqb_spec z x) as [->|].
  - intros [->|]; done.
  - intros [->|H]; [left|right; by apply IH].
Qed.
(* C09: with a release period, whoever is blocked will be released *)
Theorem C09_release_pending times es st ip : lreach times true es st -> limited times st ip = true -> ip ∈ lTimers st.
Proof.
  intros Hr. unfold limited. rewrite N.ltb_lt. induction Hr as [|es st ip' _ IH|es st ip' _ IH _]; [intros Hl; cbn [lCount] in Hl; rewrite lookup_empty in Hl; cbn in Hl; lia| |]; cbn [lstep lCount lTimers].
  - destruct (decide (ip' = ip)) as [->|Hne].
    + rewrite lookup_insert. cbn [default]. intros Hl. cbn [andb]. destruct (N.ltb_spec times (u32 (default 0 (lCount st !! ip) + 1))) as [|C]; [set_solver|].
      cbn in Hl. lia.
    + rewrite lookup_insert_ne by done. intros Hl. apply IH in Hl. destruct (_ && _); set_solver.
  - destruct (decide (ip' = ip)) as [->|Hne]; [rewrite lookup_insert; cbn; lia|]. rewrite lookup_insert_ne by done. intros Hl.
    apply remove_one_other; [done|by apply IH].
Qed.
(* and when it fires the IP is admitted again *)
Theorem C09_release_works times release st ip : limited times (lstep times release st (LFire ip)) ip = false.
Proof. unfold limited. cbn [lstep lCount]. rewrite lookup_insert. apply N.ltb_ge. cbn. lia. Qed.
(* without a release period (0) nobody is ever released *)
Theorem C09_no_release times es st : lreach times false es st -> lTimers st = [] /\ forall ip, fails_since ip es 0 = N.of_nat (length (filter (fun e => e = LFail ip) es)).
Proof.
  induction 1 as [|es st ip' _ [IH1 IH2]|es st ip' _ [IH1 IH2] Hin]; [done| |].
  - cbn. split; [done|]. intros ip. rewrite fails_since_snoc, filter_app, app_length, IH2. rewrite filter_cons. destruct (N.eqb_spec ip' ip) as [->|].
    + rewrite decide_True by done. cbn. lia.
    + rewrite decide_False by congruence. cbn. lia.
  - rewrite IH1 in Hin. inversion Hin.
Qed.
Example C09_example : exists st, lreach 1 true [LFail 5; LFail 7; LFail 5] st /\ limited 1 st 5 = true /\ limited 1 st 7 = false
  /\ limited 1 (lstep 1 true st (LFire 5)) 5 = false.
Proof.
  eexists. split; [|split; [|split]].
  - apply (lr_fail 1 true [LFail 5; LFail 7]). apply (lr_fail 1 true [LFail 5]). apply (lr_fail 1 true []). constructor.
  - by vm_compute.
  - by vm_compute.
  - by vm_compute.
Qed.
