(* Props_Launch.v -- C66: which configuration files are run; C67: as what. *)
From Coq Require Import Strings.String.
From Verif Require Import GoBase FlagsModel LaunchModel.
Local Open Scope N_scope.

(* ---- specification ---- *)
(* the file n (of size sz, with contents c) is found by the path p below a directory with the entries l *)
Inductive below : list node -> list bytes -> bytes -> N -> option fconf -> Prop :=
  | b_file l n sz c : File n sz c ∈ l -> below l [n] n sz c
  | b_dir l n l' p m sz c : Dir n l' ∈ l -> below l' p m sz c -> below l (n :: p) m sz c.
Definition yaml_name (n : bytes) : Prop := exists stem, stem <> [] /\ (n = stem ++ bs ".yaml" \/ n = stem ++ bs ".yml").
Definition node_name (nd : node) : bytes := match nd with File n _ _ | Dir n _ => n end.
(* names in one directory are distinct *)
Inductive proper : list node -> Prop :=
  | proper_intro l : NoDup (node_name <$> l) -> (forall n l', Dir n l' ∈ l -> proper l') -> proper l.

(* ---- lemmas ---- *)
Lemma rsplit_spec r acc a e : rsplit_dot acc r = Some (a, e) -> exists m, Forall (fun b => b <> 46) m /\ r = m ++ 46 :: a /\ e = rev m ++ acc.
Proof.
  revert acc. induction r as [|b r IH]; intros acc H; [done|]. cbn [rsplit_dot] in H. destruct (N.eqb_spec b 46) as [-> |Hb].
  - injection H as <- <-. exists []. by split.
  - apply IH in H as (m & Hm & -> & ->). exists (b :: m). split; [by constructor|]. split; [done|]. cbn. by rewrite <- app_assoc.
Qed.
Lemma rsplit_complete m a acc : Forall (fun b => b <> 46) m -> rsplit_dot acc (m ++ 46 :: a) = Some (a, rev m ++ acc).
Proof.
  revert acc. induction m as [|b m IH]; intros acc F; [done|]. apply Forall_cons in F as [Fb F]. cbn [app rsplit_dot].
  destruct (N.eqb_spec b 46) as [?|_]; [done|]. rewrite IH by done. cbn. by rewrite <- app_assoc.
Qed.
Lemma extension_spec n e : extension n = Some e <-> exists stem, stem <> [] /\ Forall (fun b => b <> 46) e /\ n = stem ++ 46 :: e.
Proof.
  unfold extension. split.
  - destruct (rsplit_dot [] (rev n)) as [[[|x a] e']|] eqn:E; try done. intros [= ->]. apply rsplit_spec in E as (m & Hm & Er & ->). rewrite app_nil_r.
    exists (rev (x :: a)). split; [cbn; by destruct (rev a)|]. split; [by apply Forall_rev|]. rewrite <- (rev_involutive n), Er, rev_app_distr. cbn [rev]. by rewrite <- !app_assoc.
  - intros (stem & Hs & He & ->). assert (Er : rev (stem ++ 46 :: e) = rev e ++ 46 :: rev stem) by (rewrite rev_app_distr; cbn; by rewrite <- app_assoc).
    rewrite Er, rsplit_complete by (by apply Forall_rev). rewrite rev_involutive, app_nil_r. destruct (rev stem) eqn:E; [|done].
    exfalso. apply Hs. by rewrite <- (rev_involutive stem), E.
Qed.
Lemma is_yaml_spec n : is_yaml n = true <-> yaml_name n.
Proof.
  unfold is_yaml, yaml_name. split.
  - destruct (extension n) as [e|] eqn:E; [|done]. intros H. apply bool_decide_eq_true in H. apply extension_spec in E as (stem & Hs & _ & ->).
    exists stem. split; [done|]. destruct H as [-> | ->]; [by left|by right].
  - intros (stem & Hs & Hn). assert (E : exists e, extension n = Some e /\ (e = bs "yaml" \/ e = bs "yml")).
    { destruct Hn as [-> | ->]; [exists (bs "yaml")|exists (bs "yml")]; (split; [|by auto]); apply extension_spec; exists stem; (split; [done|]); (split; [|done]); repeat constructor; done. }
    destruct E as (e & -> & He). by apply bool_decide_eq_true.
Qed.

Section node_ind.
  Context (P : node -> Prop) (HF : forall n sz c, P (File n sz c)) (HD : forall n l, Forall P l -> P (Dir n l)).
  Fixpoint node_rec' (nd : node) : P nd :=
    match nd with
    | File n sz c => HF n sz c
    | Dir n l => HD n l ((fix go l : Forall P l := match l with [] => Forall_nil_2 _ | x :: l => Forall_cons_2 _ _ _ (node_rec' x) (go l) end) l)
    end.
End node_ind.

(* the levels that are searched *)
Definition deep_ok (max depth : N) (p : list bytes) : Prop := max = 0 \/ max = 255 \/ depth - 1 + N.of_nat (length p) <= max.
Definition d_inv (max depth : N) : Prop := depth < 256 /\ (max <> 0 -> max <> 255 -> 1 <= depth <= max).
Lemma below_ne l p n sz c : below l p n sz c -> p <> [].
Proof. by destruct 1. Qed.
Lemma entry_spec max nd : max < 256 -> forall depth p c, d_inv max depth ->
  (p, c) ∈ collect_entry max depth nd <-> exists n sz, below [nd] p n sz c /\ yaml_name n /\ sz <= max_size /\ deep_ok max depth p.
Proof.
  intros HM. induction nd as [n sz c0|n l IH] using node_rec'; intros depth p c Hd; cbn [collect_entry].
  - split.
    + destruct (is_yaml n) eqn:Ey; [|by intros ?%elem_of_nil]. destruct (N.ltb_spec max_size sz) as [|Hz]; [by intros ?%elem_of_nil|].
      intros H. apply elem_of_list_singleton in H. injection H as -> ->. exists n, sz. split; [by constructor; left|]. split; [by apply is_yaml_spec|]. split; [done|].
      unfold deep_ok, d_inv in *. cbn. lia.
    + intros (m & sz' & Hb & Hy & Hz & _). inversion Hb as [? ? ? ? Hi|? ? ? ? ? ? ? Hi]; subst; apply elem_of_list_singleton in Hi; [|done]. injection Hi as <- <- <-.
      apply is_yaml_spec in Hy. rewrite Hy. destruct (N.ltb_spec max_size sz') as [|_]; [lia|]. by left.
  - assert (HW : negb (max =? 0) && (max <? u8_inc depth) = true -> forall p, p <> [] -> ~ deep_ok max depth (n :: p)).
    { intros H q Hq [E|[E|E]]; unfold u8_inc, d_inv in *; [subst; done| |].
      - subst. apply andb_true_iff in H as [_ H]. apply N.ltb_lt in H. assert ((depth + 1) `mod` 256 < 256) by (apply N.mod_lt; lia). lia.
      - apply andb_true_iff in H as [H0 H]. apply N.ltb_lt in H. apply negb_true_iff, N.eqb_neq in H0.
        destruct (decide (max = 255)) as [-> |H255]; [assert ((depth + 1) `mod` 256 < 256) by (apply N.mod_lt; lia); lia|].
        rewrite N.mod_small in H by lia. destruct q; [done|]. cbn in E. lia. }
    assert (HN : negb (max =? 0) && (max <? u8_inc depth) = false -> d_inv max (u8_inc depth) /\ forall p, deep_ok max (u8_inc depth) p <-> deep_ok max depth (n :: p)).
    { intros H. clear IH HW. unfold d_inv, u8_inc, deep_ok in *. cbn [length]. assert (Hlt : (depth + 1) `mod` 256 < 256) by (apply N.mod_lt; lia).
      destruct (decide (max = 0)) as [-> |H0]; [split; [lia|]; intros; lia|]. destruct (decide (max = 255)) as [-> |H1]; [split; [lia|]; intros; lia|].
      apply andb_false_iff in H as [H|H]; [apply negb_false_iff, N.eqb_eq in H; done|]. apply N.ltb_ge in H. rewrite (N.mod_small (depth + 1)) in * by lia. split; [lia|]. intros p0. lia. }
    destruct (negb (max =? 0) && (max <? u8_inc depth)) eqn:E.
    + split; [by intros ?%elem_of_nil|]. intros (m & sz & Hb & _ & _ & Hk). exfalso. inversion Hb as [? ? ? ? Hi|? ? ? q ? ? ? Hi Hb']; subst; apply elem_of_list_singleton in Hi; [done|]. injection Hi as -> ->.
      eapply HW; [done| |exact Hk]. by eapply below_ne.
    + destruct (HN eq_refl) as [Hd' Hk]. rewrite elem_of_list_fmap. split.
      * intros ([q c'] & [= -> ->] & Hq). apply elem_of_list_In, in_flat_map in Hq as (x & Hx & Hq). apply elem_of_list_In in Hx, Hq.
        rewrite Forall_forall in IH. apply (IH x Hx _ _ _ Hd') in Hq as (m & sz & Hb & Hy & Hz & Hdo). exists m, sz. split; [|split; [done|split; [done|by apply Hk]]].
        eapply b_dir; [by left|]. inversion Hb as [? ? ? ? Hi|? ? ? ? ? ? ? Hi Hb']; subst; apply elem_of_list_singleton in Hi; subst; [by constructor|by eapply b_dir].
      * intros (m & sz & Hb & Hy & Hz & Hdo). inversion Hb as [? ? ? ? Hi|? ? ? q ? ? ? Hi Hb']; subst; apply elem_of_list_singleton in Hi; [done|]. injection Hi as -> ->.
        exists (q, c). split; [done|]. apply elem_of_list_In, in_flat_map.
        assert (G : exists x, x ∈ l /\ below [x] q m sz c) by (inversion Hb'; subst; eexists; (split; [done|]); [by constructor; left|by eapply b_dir; [left|]]).
        destruct G as (x & Hx & Hbx). exists x. split; [by apply elem_of_list_In|]. apply elem_of_list_In. rewrite Forall_forall in IH. apply (IH x Hx _ _ _ Hd'). exists m, sz. repeat split; try done. by apply Hk.
Qed.
Lemma below_some l p n sz c : below l p n sz c <-> exists x, x ∈ l /\ below [x] p n sz c.
Proof.
  split.
  - intros H; inversion H; subst; eexists; (split; [done|]); [by constructor; left|by eapply b_dir; [left|]].
  - intros (x & Hx & H). inversion H as [? ? ? ? Hi|? ? ? ? ? ? ? Hi]; subst; apply elem_of_list_singleton in Hi; subst; [by constructor|by eapply b_dir].
Qed.

(* ---- C66 ---- *)
(* gt -c dir --depth max: exactly the files named *.yaml or *.yml of at most 10 MiB that are at most max levels down
   (directly in dir: one level), at any level if max is 0 -- or 255 *)
Theorem C66_collected : forall max name l p c, max < 256 ->
  (p, c) ∈ collect_files max (Dir name l) <-> exists n sz, below l p n sz c /\ yaml_name n /\ sz <= 10485760 /\ (max = 0 \/ max = 255 \/ N.of_nat (length p) <= max).
Proof.
  intros max name l p c HM. cbn [collect_files].
  assert (HI : d_inv max 1) by (unfold d_inv; lia).
  split.
  - intros H. apply elem_of_list_In, in_flat_map in H as (x & Hx & H). apply elem_of_list_In in Hx, H. apply entry_spec in H as (n & sz & Hb & Hy & Hz & Hd); [|done|done].
    exists n, sz. split; [apply below_some; eauto|]. split; [done|]. split; [done|]. unfold deep_ok in Hd. lia.
  - intros (n & sz & Hb & Hy & Hz & Hd). apply below_some in Hb as (x & Hx & Hb). apply elem_of_list_In, in_flat_map. exists x. split; [by apply elem_of_list_In|]. apply elem_of_list_In.
    apply entry_spec; [done|done|]. exists n, sz. repeat split; try done.
Qed.
(* each once *)
Lemma entry_path max depth nd p c : (p, c) ∈ collect_entry max depth nd -> exists q, p = node_name nd :: q.
Proof.
  destruct nd as [n sz c0|n l]; cbn [collect_entry].
  - destruct (is_yaml n); [|by intros ?%elem_of_nil]. destruct (_ <? _); [by intros ?%elem_of_nil|]. intros [= -> ->]%elem_of_list_singleton. by exists [].
  - destruct (_ && _); [by intros ?%elem_of_nil|]. intros H. apply elem_of_list_fmap in H as ([q c'] & [= -> ->] & _). by exists q.
Qed.
Lemma list_once max depth l : NoDup (node_name <$> l) -> (forall x, x ∈ l -> NoDup (collect_entry max depth x).*1) -> NoDup (flat_map (collect_entry max depth) l).*1.
Proof.
  induction l as [|x l IH]; intros ND Hx; [constructor|]. cbn [fmap list_fmap] in ND. apply NoDup_cons in ND as [Hn ND]. cbn [flat_map]. rewrite fmap_app. apply NoDup_app. split; [apply Hx; left|]. split.
  - intros p Hp Hq. apply elem_of_list_fmap in Hp as ([p1 c1] & -> & Hp). apply elem_of_list_fmap in Hq as ([p2 c2] & E & Hq). cbn in E. subst p2.
    apply entry_path in Hp as (q & ->). apply elem_of_list_In, in_flat_map in Hq as (y & Hy & Hq). apply elem_of_list_In in Hy, Hq. apply entry_path in Hq as (q' & E). injection E as E _.
    apply Hn. rewrite E. apply elem_of_list_fmap. by exists y.
  - apply IH; [done|]. intros y Hy. apply Hx. by right.
Qed.
Lemma entry_once max nd : forall depth, (forall n l, nd = Dir n l -> proper l) -> NoDup (collect_entry max depth nd).*1.
Proof.
  induction nd as [n sz c0|n l IH] using node_rec'; intros depth HP; cbn [collect_entry].
  - destruct (is_yaml n); [|constructor]. destruct (_ <? _); [constructor|]. apply NoDup_singleton.
  - destruct (_ && _); [constructor|]. specialize (HP n l eq_refl). inversion HP as [? ND Hsub]; subst.
    assert (G : NoDup (flat_map (collect_entry max (u8_inc depth)) l).*1).
    { apply list_once; [done|]. intros x Hx. rewrite Forall_forall in IH. apply (IH x Hx). intros m l' ->. by eapply Hsub. }
    rewrite <- list_fmap_compose. assert (E : (fst ∘ (fun pc : list bytes * option fconf => (n :: pc.1, pc.2))) <$> flat_map (collect_entry max (u8_inc depth)) l = (cons n) <$> (flat_map (collect_entry max (u8_inc depth)) l).*1) by (by rewrite <- list_fmap_compose).
    rewrite E. apply NoDup_fmap_2; [|done]. intros a b. by intros [= ->].
Qed.
Theorem C66_once : forall max name l, proper l -> NoDup (collect_files max (Dir name l)).*1.
Proof.
  intros max name l HP. inversion HP as [? ND Hsub]; subst. cbn [collect_files]. apply list_once; [done|]. intros x Hx. apply entry_once. intros n l' ->. by eapply Hsub.
Qed.

Lemma of_k_elem k l x : x ∈ of_k k l <-> x ∈ l /\ x.1 = k.
Proof. unfold of_k. rewrite elem_of_list_filter. tauto. Qed.
Lemma of_k_all l x : x ∈ of_k KServer l ++ of_k KClient l ++ of_k KConnect l <-> x ∈ l.
Proof. rewrite !elem_of_app, !of_k_elem. destruct x as [[] ?]; cbn; naive_solver. Qed.
Lemma of_k_perm l : of_k KServer l ++ of_k KClient l ++ of_k KConnect l ≡ₚ l.
Proof.
  induction l as [|[[] c] l IH]; [done| | |]; unfold of_k in *; rewrite !filter_cons; cbn [fst]; repeat (destruct (decide _) as [?|?]; try done); cbn [app].
  - by rewrite IH.
  - rewrite <- Permutation_middle. by rewrite IH.
  - rewrite app_assoc. rewrite <- Permutation_middle. rewrite <- app_assoc. by rewrite IH.
Qed.
Definition searched (a : cli) : Prop := (forall f, aCommand a <> CServer f) /\ (forall f, aCommand a <> CClient f).
Lemma launch_searched a cwd : searched a -> launch a cwd =
  match collect_files (default 3 (aDepth a)) (default cwd (aConfig a)) with [] => None | cs => l ← mapM with_kind cs; Some (of_k KServer l ++ of_k KClient l ++ of_k KConnect l) end.
Proof.
  intros [S1 S2]. unfold launch, collect_configs. assert (E : match aCommand a with CServer f => ([inl KServer], Some f) | CClient f => ([inl KClient], Some f) | _ => (inr <$> collect_files (default 3 (aDepth a)) (default cwd (aConfig a)), None) end =
     (inr <$> collect_files (default 3 (aDepth a)) (default cwd (aConfig a)) : list (kind + (list bytes * option fconf)), None : option (option node))).
  { destruct (aCommand a) as [|f|f|f] eqn:Ea; try done; [by destruct (S1 f)|by destruct (S2 f)]. }
  rewrite E. clear. set (cs := collect_files _ _).
  assert (G : mapM (fun c : kind + (list bytes * option fconf) => match c with inl k => Some (k, Given (default None None)) | inr pc => with_kind pc end) (inr <$> cs) = mapM with_kind cs).
  { induction cs as [|y l IH]; [done|]. cbn. destruct (with_kind y); cbn [mbind option_bind]; [|done]. cbn in IH. by rewrite IH. }
  destruct cs as [|x cs]; [done|]. rewrite <- G. done.
Qed.
(* what is started is exactly one worker for every file found, or nothing at all *)
Theorem C66_started : forall a cwd ws, searched a -> launch a cwd = Some ws ->
  exists l, ws ≡ₚ l /\ Forall2 (fun pc w => exists k, w = (k, Found pc.1 pc.2)) (collect_files (default 3 (aDepth a)) (default cwd (aConfig a))) l.
Proof.
  intros a cwd ws S H. rewrite launch_searched in H by done. destruct (collect_files _ _) as [|x cs] eqn:E; [done|].
  destruct (mapM with_kind (x :: cs)) as [l|] eqn:El; cbn [mbind option_bind] in H; [|done]. injection H as <-. exists l. split; [apply of_k_perm|].
  apply mapM_Some in El. eapply Forall2_impl; [exact El|]. intros pc w Hw. unfold with_kind in Hw. destruct (file_kind pc.2); [|done]. injection Hw as <-. by eexists.
Qed.

(* ---- C67 ---- *)
(* what the file says it is *)
Definition says (c : option fconf) (k : kind) : Prop :=
  match c with
  | Some (mkC _ true) => k = KClient
  | Some (mkC (Some t) false) => (k = KServer /\ t = bs "server") \/ (k = KClient /\ t = bs "client") \/ (k = KConnect /\ t = bs "connect")
  | Some (mkC None false) => k = KConnect
  | None => False
  end.
Lemma file_kind_says c k : file_kind c = Some k <-> says c k.
Proof.
  destruct c as [[[t|] []]|]; unfold file_kind, is_client_config, is_server_config, says; cbn [mbind option_bind cServices cTyp].
  - split; [by intros [= <-]|by intros ->].
  - destruct (decide (t = bs "client")) as [-> |N1]; cbn [mbind option_bind]; [split; [intros [= <-]; auto|intros [[_ ?]|[[-> _]|[_ ?]]]; done]|].
    destruct (decide (t = bs "server")) as [-> |N2]; cbn [mbind option_bind]; [split; [intros [= <-]; auto|intros [[-> _]|[[_ ?]|[_ ?]]]; done]|].
    destruct (decide (t = bs "connect")) as [-> |N3]; cbn [mbind option_bind]; [split; [intros [= <-]; auto|intros [[_ ?]|[[_ ?]|[-> _]]]; done]|].
    split; [done|]. intros [[_ ?]|[[_ ?]|[_ ?]]]; done.
  - split; [by intros [= <-]|by intros ->].
  - split; [by intros [= <-]|by intros ->].
  - done.
Qed.
(* A file with services runs as a client, one with a type as that; and if every file says what it is, every one is run. *)
Theorem C67_kinds_partial : forall a cwd, searched a ->
  (forall ws k p c, launch a cwd = Some ws -> (k, Found p c) ∈ ws -> says c k) /\
  (is_Some (launch a cwd) <-> collect_files (default 3 (aDepth a)) (default cwd (aConfig a)) <> [] /\
     Forall (fun pc => exists k, says pc.2 k) (collect_files (default 3 (aDepth a)) (default cwd (aConfig a)))).
Proof.
  intros a cwd S. rewrite launch_searched by done. generalize (collect_files (default 3 (aDepth a)) (default cwd (aConfig a))). intros cs. split.
  - intros ws k p c H Hw. destruct cs as [|x cs]; [done|]. destruct (mapM with_kind (x :: cs)) as [l|] eqn:El; cbn [mbind option_bind] in H; [|done]. injection H as <-.
    apply (proj1 (of_k_all l _)) in Hw. apply mapM_Some in El. apply elem_of_list_lookup in Hw as [i Hi]. destruct (Forall2_lookup_r _ _ _ _ _ El Hi) as (pc & _ & Hpc).
    unfold with_kind in Hpc. destruct (file_kind pc.2) eqn:Ek; [|done]. injection Hpc as <- <- <-. by apply file_kind_says.
  - assert (G : is_Some (mapM with_kind cs) <-> Forall (fun pc => exists k, says pc.2 k) cs).
    { rewrite mapM_is_Some. apply Forall_proper; [|done]. intros pc. unfold with_kind, is_Some. split.
      - intros [w Hw]. destruct (file_kind pc.2) as [k|] eqn:Ek; [|done]. exists k. by apply file_kind_says.
      - intros [k Hk]. apply file_kind_says in Hk. cbn [compose]. rewrite Hk. by eexists. }
    destruct cs as [|x cs]; [split; [by intros []|by intros []]|]. rewrite <- G. destruct (mapM with_kind (x :: cs)) as [l|]; cbn [mbind option_bind]; split; try (by intros []); eauto.
Qed.
(* gt server and gt client run exactly one of them, with the file given to them *)
Theorem C67_commands : forall cfg d f cwd,
  launch (mkCli (CServer f) cfg d) cwd = Some [(KServer, Given f)] /\ launch (mkCli (CClient f) cfg d) cwd = Some [(KClient, Given f)].
Proof. done. Qed.

(* A file given with -c is run whatever its name and size, and nothing else is *)
Theorem C66_given_file : forall n sz c k d cwd, says (Some c) k -> launch (mkCli CNone (Some (File n sz (Some c))) d) cwd = Some [(k, Found [] (Some c))].
Proof.
  intros n sz c k d cwd H. apply file_kind_says in H. rewrite launch_searched by done. cbn [aConfig default id collect_files mapM]. unfold with_kind at 1. cbn [snd fst]. rewrite H. cbn. by destruct k.
Qed.

(* libcs/example/config/server.yaml: neither a type nor services *)
Definition example_server : fconf := mkC None false.
Definition example_client : fconf := mkC None true.
Definition dir2 : node := Dir (bs "conf.d") [File (bs "server.yaml") 500 (Some example_server); File (bs "client.yaml") 900 (Some example_client); File (bs "README") 5 None; Dir (bs "a") [Dir (bs "b") [File (bs "x.yml") 10 (Some (mkC (Some (bs "server")) false)); Dir (bs "c") [File (bs "y.yml") 10 None]]]].
Theorem C66_witness : (exists l, dir2 = Dir (bs "conf.d") l /\ proper l) /\ (collect_files 3 dir2).*1 = [[bs "server.yaml"]; [bs "client.yaml"]; [bs "a"; bs "b"; bs "x.yml"]].
Proof.
  split; [|vm_compute; reflexivity]. eexists. split; [reflexivity|].
  assert (One : forall x, (forall n l, x = Dir n l -> proper l) -> proper [x]).
  { intros x Hx. constructor; [apply NoDup_singleton|]. intros n l' H. apply elem_of_list_singleton in H. by eapply Hx. }
  constructor; [apply (bool_decide_unpack _); vm_compute; exact I|]. intros n l' H. apply elem_of_cons in H as [H|H]; [discriminate H|]. apply elem_of_cons in H as [H|H]; [discriminate H|]. apply elem_of_cons in H as [H|H]; [discriminate H|].
  apply elem_of_cons in H as [H|H]; [|by apply elem_of_nil in H]. injection H as _ ->. apply One. intros n' l2 H. injection H as _ <-.
  constructor; [apply (bool_decide_unpack _); vm_compute; exact I|]. intros n2 l3 H. apply elem_of_cons in H as [H|H]; [discriminate H|]. apply elem_of_cons in H as [H|H]; [|by apply elem_of_nil in H].
  injection H as _ ->. apply One. intros n3 l4 H. discriminate H.
Qed.
Theorem C67_witness : launch (mkCli CNone (Some dir2) None) (Dir [] []) =
  Some [(KServer, Found [bs "a"; bs "b"; bs "x.yml"] (Some (mkC (Some (bs "server")) false))); (KClient, Found [bs "client.yaml"] (Some example_client)); (KConnect, Found [bs "server.yaml"] (Some example_server))].
Proof. done. Qed.
(* False: the project's own example of a server configuration is not run as a server *)
Theorem C67_example_server_refuted : exists ws, launch (mkCli CNone (Some (Dir (bs "conf.d") [File (bs "server.yaml") 500 (Some example_server)])) None) (Dir [] []) = Some ws /\ Forall (fun w => w.1 <> KServer) ws.
Proof. eexists. split; [done|]. by repeat constructor. Qed.
(* False: one file that is not a configuration (any yaml file that is not a mapping, say) keeps all others from being run *)
Theorem C67_one_bad_file_refuted : forall l n sz, yaml_name n -> sz <= max_size -> File n sz None ∈ l -> launch (mkCli CNone (Some (Dir (bs "conf.d") l)) None) (Dir [] []) = None.
Proof.
  intros l n sz Hy Hz Hi. destruct (launch _ _) eqn:E; [|done]. exfalso. destruct (C67_kinds_partial (mkCli CNone (Some (Dir (bs "conf.d") l)) None) (Dir [] [])) as [_ K]; [done|].
  destruct (proj1 K (mk_is_Some _ _ E)) as [_ F]. rewrite Forall_forall in F. destruct (F ([n], None)) as (k & []). cbn [aDepth aConfig default]. apply C66_collected; [lia|].
  exists n, sz. split; [by constructor|]. split; [done|]. split; [done|]. right; right. cbn. lia.
Qed.
(* False: the file given to gt connect is not looked at; what is run is what is found in the current directory *)
Theorem C67_connect_refuted : forall f f' cfg d cwd, launch (mkCli (CConnect f) cfg d) cwd = launch (mkCli (CConnect f') cfg d) cwd /\
  (launch (mkCli (CConnect f) None d) (Dir [] []) = None).
Proof. done. Qed.
