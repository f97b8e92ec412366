(* Props_Reopt.v -- C59: a reload that leaves the options alone is not refused for changing them. *)
From Coq Require Import Strings.String.
From Verif Require Import GoBase FlagsModel FlagsProofs Props_Flags ReoptModel.
Local Open Scope N_scope.

(* ---- specification ---- *)
(* the values have the types of their options *)
Definition of_type (o : odecl) (v : val) : Prop :=
  match oShape o, v with
  | SOne, One a => match oBase o, a with
                   | BStr, AStr _ | BNum _, ANum _ | BInt, AInt _ | BBool, ABool _ | BDur, ADur _ | BFloat, AFloat _ => True
                   | _, _ => False
                   end
  | SMany, Many l => match oBase o with BStr => Forall (fun a => exists s, a = AStr s) l | _ => True end
  | SPlaced, Placed _ => True
  | _, _ => False
  end.
Definition well_typed (sch : list odecl) (f : bytes -> option val) : Prop :=
  forall o c, o ∈ sch -> f (oName o) = Some c -> of_type o c.
Definition typed_strict (P : parsers) : Prop :=
  forall o t a, oShape o = SOne -> strict P (oBase o) t = Some a -> of_type o (One a).

(* the options as written: what command line, file and defaults call for *)
Definition written_options (P : parsers) (l : list (odecl * bytes)) (f : bytes -> option val) (start : odecl -> val)
    (sch : list odecl) (c : odecl -> val) : Prop :=
  forall o, o ∈ sch -> called_for P l f (start o) o (c o).
(* the options are such that starting the client leaves them as they are *)
Definition scheme_in (s : bytes) : Prop := exists a b, s = a ++ bs "://" ++ b.
Definition kept (sch : list odecl) (c : odecl -> val) : Prop :=
  (forall o, o ∈ seen sch -> is_zero (c o) -> c o = oDefault o) /\
  (forall o, o ∈ sch ->
    (oName o = bs "secret" -> c o <> One (AStr [])) /\
    (oName o = bs "remote" -> exists l, c o = Many l /\ Forall (fun a => exists s, a = AStr s /\ scheme_in s) l) /\
    (oName o = bs "remoteConnections" -> exists n, c o = One (ANum n) /\ 1 <= n <= 10) /\
    (oName o = bs "remoteIdleConnections" -> exists n m o', o' ∈ sch /\ oName o' = bs "remoteConnections" /\
        c o' = One (ANum m) /\ c o = One (ANum n) /\ 1 <= n <= m) /\
    (oName o = bs "webrtcConnections" -> exists n, c o = One (ANum n) /\ 1 <= n <= 50) /\
    (oName o = bs "tcpForwardConnections" -> exists n, c o = One (ANum n) /\ 1 <= n)).

(* ---- lemmas ---- *)
Lemma parse_flags_usable P sch disk noargs prog l ws rest f (start : odecl -> val) sp :
  good_schema sch -> has_config sch -> typed P -> blen (ws ++ rest) < 4294967296 ->
  command sch l ws -> ends rest -> Forall (takes P) l ->
  (forall o, oName o = bs "config" -> start o = One (AStr sp) \/ (start o = oDefault o /\ sp = [])) ->
  file_says disk (config_path l sp) f ->
  exists cur, parse_flags P sch disk noargs (prog :: ws ++ rest) start = Some (cur, false) /\ written_options P l f start sch cur.
Proof.
  intros GS HCF HTy HN HC HE HT Hsp HF.
  pose proof (n_placed_le l) as HPL. destruct (command_in _ _ _ HC) as [HIN HL].
  assert (HN2 : n_placed l < 4294967296) by (unfold blen in *; rewrite app_length in HN; lia).
  destruct (takes_sets P l HT (mkFs ∅ 0)) as [st E]; [cbn [fPos]; lia|].
  destruct (sets_stated P sch l st (proj1 GS) HIN HN2 E) as [_ HV].
  destruct (config_path_spec P sch l st start sp HTy HCF (proj1 GS) HV Hsp) as (oc & EF & EP).
  unfold parse_flags. rewrite (parse_complete P sch GS l ws rest _ HC HE), E, EF. rewrite EP.
  assert (HX : exists cur, (match config_path l sp with
    | [] => Some ((fun o => match fSet st !! oName o with Some v => convert o v | None => start o end), false)
    | _ => match disk (config_path l sp) with
           | Fine f => Some ((fun o => match fSet st !! oName o with Some v => convert o v | None => with_file f start o end), false)
           | Missing => if noargs || has_arg (prog :: ws ++ rest) B_webAddr then
                Some ((fun o => match fSet st !! oName o with Some v => convert o v | None => start o end), false)
              else Some (start, true)
           | Broken f => Some (with_file f start, true)
           end end) = Some (cur, false) /\
       forall o, cur o = match fSet st !! oName o with Some v => convert o v | None => with_file f start o end).
  { destruct HF as [[EZ ->]|[Hne HF]].
    - rewrite EZ. eexists. split; [reflexivity|]. intros o. cbn beta. destruct (fSet st !! oName o); [done|].
      unfold with_file. by destruct (oFile o).
    - rewrite HF. destruct (config_path l sp); [done|]. eexists. split; [reflexivity|]. done. }
  destruct HX as (cur & HX & Hcur). exists cur. split; [exact HX|].
  intros o Ho. unfold called_for. rewrite Hcur, (HV o Ho). destruct (stated P o l) as [v|]; [done|].
  unfold with_file. destruct (oFile o); [|done]. by destruct (f (oName o)).
Qed.

Lemma called_for_fun P l f s o v w : called_for P l f s o v -> called_for P l f s o w -> v = w.
Proof. unfold called_for. destruct (stated P o l); [congruence|]. destruct (if oFile o then f (oName o) else None); congruence. Qed.

Lemma called_for_typed P sch l f s o v : typed_strict P -> typed P -> well_typed sch f -> o ∈ sch -> of_type o s ->
  called_for P l f s o v -> of_type o v.
Proof.
  intros HS HTy HW Ho Hs. unfold called_for, stated.
  assert (HF : match (if oFile o then f (oName o) else None) with Some c => v = c | None => v = s end -> of_type o v).
  { destruct (oFile o); [|by intros ->]. destruct (f (oName o)) as [c|] eqn:E; [|by intros ->]. intros ->. by eapply HW. }
  destruct (texts (oName o) l) as [|t ts]; [exact HF|]. destruct (oShape o) eqn:ES.
  - destruct (last (t :: ts)) as [t'|]; [|exact HF]. destruct (strict P (oBase o) t') as [a|] eqn:EA; [|exact HF].
    cbn [fmap option_fmap option_map]. intros ->. pose proof (HS o t' a ES EA) as HO.
    unfold of_type, narrow in *. rewrite ES in *. destruct (oBase o), a; done.
  - intros ->. unfold of_type, narrow. rewrite ES. destruct (oBase o) eqn:EB; try done.
    apply Forall_forall. intros a Ha. apply elem_of_list_fmap in Ha. destruct Ha as (x & -> & _).
    destruct HTy as (_ & T1 & _). destruct (T1 x) as [y Hy]. exists y. exact Hy.
  - intros ->. unfold of_type, narrow. rewrite ES. by destruct (oBase o).
Qed.

Lemma zero_val_spec v : zero_val v = true <-> is_zero v.
Proof.
  pose proof (merge_spec (fun _ => v) (mkO [] SOne BStr true (Many [])) v eq_refl) as [H1 H2]. unfold merge in *. cbn [oDefault] in *.
  split.
  - intros E. rewrite E in *. assert (D : Decision (is_zero v)) by (unfold is_zero; apply _). destruct D as [D|D]; [done|].
    specialize (H2 D). subst v. done.
  - intros HZ. destruct (zero_val v) eqn:E; [done|]. specialize (H1 HZ). subst v. unfold is_zero in HZ. destruct HZ as [|[|[|[|[|]]]]]; done.
Qed.
Lemma clamp_id hi x : 1 <= hi -> (clamp hi x = x <-> 1 <= x <= hi).
Proof. unfold clamp. intros H. destruct (x <? 1) eqn:E1; [lia|]. destruct (hi <? x) eqn:E2; lia. Qed.
Lemma clamp_pos hi x : 1 <= hi -> 1 <= clamp hi x <= hi.
Proof. unfold clamp. intros H. destruct (x <? 1) eqn:E1; [lia|]. destruct (hi <? x) eqn:E2; lia. Qed.

Lemma starts_spec sub s : starts sub s = true <-> exists b, s = sub ++ b.
Proof.
  revert s. induction sub as [|c sub IH]; intros s; cbn [starts].
  - split; [intros _; by exists s|done].
  - destruct s as [|d s]; [split; [done|by intros [b ?]]|]. rewrite andb_true_iff, N.eqb_eq, IH. split.
    + intros [-> [b ->]]. by exists b.
    + intros [b [= -> ->]]. split; [done|by exists b].
Qed.
Lemma has_sub_spec sub s : has_sub sub s = true <-> exists a b, s = a ++ sub ++ b.
Proof.
  induction s as [|d s IH]; cbn [has_sub]; rewrite orb_true_iff, starts_spec.
  - split; [intros [[b E]|]; [by exists [], b|done]|]. intros (a & b & E). left. exists b. destruct a; [done|done].
  - rewrite IH. split.
    + intros [[b E]|(a & b & E)]; [by exists [], b|]. exists (d :: a), b. by rewrite E.
    + intros (a & b & E). destruct a as [|x a]; [left; by exists b|]. right. injection E as -> E. by exists a, b.
Qed.
Lemma fix_remote_id s : fix_remote (AStr s) = AStr s <-> scheme_in s.
Proof.
  unfold fix_remote, scheme_in. rewrite <- has_sub_spec. destruct (has_sub (bs "://") s); [done|]. split; [|done].
  intros [= E]. apply (f_equal (@length N)) in E. cbn [length] in E. lia.
Qed.

(* the one option of a name *)
Lemma named version o o' : o ∈ client_options version -> find_opt (client_options version) (oName o) = Some o' -> o = o'.
Proof. intros Ho E. destruct (C58_schemas version) as ([ND _] & _). rewrite (find_opt_in _ o ND Ho) in E. congruence. Qed.

(* a value unchanged by the start *)
Lemma kept_iff version rnd (c cur : odecl -> val) : rnd <> [] ->
  (forall o, o ∈ client_options version -> of_type o (c o)) -> (forall o, o ∈ client_options version -> cur o = c o) ->
  (forall o, o ∈ seen (client_options version) -> c o = start_client rnd (client_options version) (merge cur) o) <->
  kept (client_options version) c.
Proof.
  intros Hr HTy Hcur. set (sch := client_options version) in *.
  assert (HS : forall n o, o ∈ sch -> oName o = n -> find_opt sch n = Some o).
  { intros n o Ho <-. apply find_opt_in; [apply (C58_schemas version)|done]. }
  assert (Hseen : forall o, o ∈ seen sch <-> oName o ∉ unseen /\ o ∈ sch) by (intros o; unfold seen; by rewrite elem_of_list_filter).
  set (oS := ostr "secret"). set (oR := ostrs "remote"). set (oC := onum "remoteConnections" 64 3).
  set (oI := onum "remoteIdleConnections" 64 1). set (oW := onum "webrtcConnections" 64 30). set (oT := onum "tcpForwardConnections" 64 3).
  assert (FS : find_opt sch (bs "secret") = Some oS) by reflexivity.
  assert (FR : find_opt sch (bs "remote") = Some oR) by reflexivity.
  assert (FC : find_opt sch (bs "remoteConnections") = Some oC) by reflexivity.
  assert (FI : find_opt sch (bs "remoteIdleConnections") = Some oI) by reflexivity.
  assert (FW : find_opt sch (bs "webrtcConnections") = Some oW) by reflexivity.
  assert (FT : find_opt sch (bs "tcpForwardConnections") = Some oT) by reflexivity.
  assert (IS : oS ∈ seen sch) by (apply Hseen; split; [by apply (bool_decide_unpack _)|by apply (find_opt_some _ _ _ FS)]).
  assert (IR : oR ∈ seen sch) by (apply Hseen; split; [by apply (bool_decide_unpack _)|by apply (find_opt_some _ _ _ FR)]).
  assert (IC : oC ∈ seen sch) by (apply Hseen; split; [by apply (bool_decide_unpack _)|by apply (find_opt_some _ _ _ FC)]).
  assert (II : oI ∈ seen sch) by (apply Hseen; split; [by apply (bool_decide_unpack _)|by apply (find_opt_some _ _ _ FI)]).
  assert (IW : oW ∈ seen sch) by (apply Hseen; split; [by apply (bool_decide_unpack _)|by apply (find_opt_some _ _ _ FW)]).
  assert (IT : oT ∈ seen sch) by (apply Hseen; split; [by apply (bool_decide_unpack _)|by apply (find_opt_some _ _ _ FT)]).
  assert (Hm : forall o, o ∈ sch -> (is_zero (c o) -> merge cur o = oDefault o) /\ (~ is_zero (c o) -> merge cur o = c o)).
  { intros o Ho. apply merge_spec. by apply Hcur. }
  (* the values of the six options *)
  assert (VS : exists s, c oS = One (AStr s)).
  { pose proof (HTy oS (proj2 (proj1 (Hseen _) IS))) as H. unfold of_type in H. cbn in H. destruct (c oS) as [[]| |]; try done. by eexists. }
  assert (VR : exists l, c oR = Many l /\ Forall (fun a => exists s, a = AStr s) l).
  { pose proof (HTy oR (proj2 (proj1 (Hseen _) IR))) as H. unfold of_type in H. cbn in H. destruct (c oR) as [|l|]; try done. by exists l. }
  assert (VN : forall n w d, onum n w d ∈ sch -> exists x, c (onum n w d) = One (ANum x) /\ num (merge cur (onum n w d)) = if x =? 0 then d else x).
  { intros n w d Ho. pose proof (HTy _ Ho) as H. unfold of_type in H. cbn in H. destruct (c (onum n w d)) as [[|x| | | |]| |] eqn:EC; try done.
    exists x. split; [done|]. unfold merge. rewrite (Hcur _ Ho), EC. cbn [zero_val zero_atom]. by destruct (x =? 0). }
  destruct VS as [sv VS], VR as (rv & VR & VRF).
  destruct (VN "remoteConnections"%string 64 3 (proj2 (proj1 (Hseen _) IC))) as (nc & VC & MC). fold oC in VC, MC.
  destruct (VN "remoteIdleConnections"%string 64 1 (proj2 (proj1 (Hseen _) II))) as (ni & VI & MI). fold oI in VI, MI.
  destruct (VN "webrtcConnections"%string 64 30 (proj2 (proj1 (Hseen _) IW))) as (nw & VW & MW). fold oW in VW, MW.
  destruct (VN "tcpForwardConnections"%string 64 3 (proj2 (proj1 (Hseen _) IT))) as (nt & VT & MT). fold oT in VT, MT.
  clear VN.
  (* what the start makes of them *)
  assert (NS : start_client rnd sch (merge cur) oS = if bool_decide (sv = []) then One (AStr rnd) else One (AStr sv)).
  { unfold start_client, normalise. cbn [oName oS ostr]. rewrite bool_decide_true by done.
    assert (EM : merge cur oS = One (AStr sv)).
    { destruct (Hm oS (proj2 (proj1 (Hseen _) IS))) as [M1 M2]. rewrite VS in *.
      destruct (decide (sv = [])) as [-> |Hn]; [apply M1; by left|]. apply M2. intros [[= ?]|[|[|[|[|]]]]]; done. }
    rewrite EM. case_bool_decide as G; case_bool_decide as G2; try done; [by injection G as ->|by subst]. }
  assert (NR : start_client rnd sch (merge cur) oR = Many (fix_remote <$> rv)).
  { unfold start_client, normalise. rewrite bool_decide_false by done. rewrite bool_decide_true by done.
    assert (EM : merge cur oR = Many rv) by (unfold merge; by rewrite (Hcur oR (proj2 (proj1 (Hseen _) IR))), VR). by rewrite EM. }
  assert (NC : start_client rnd sch (merge cur) oC = One (ANum (clamp 10 (if nc =? 0 then 3 else nc)))).
  { unfold start_client, normalise. do 2 rewrite bool_decide_false by done. rewrite bool_decide_true by done. by rewrite MC. }
  assert (NI : start_client rnd sch (merge cur) oI = One (ANum (clamp (clamp 10 (if nc =? 0 then 3 else nc)) (if ni =? 0 then 1 else ni)))).
  { unfold start_client, normalise. do 3 rewrite bool_decide_false by done. rewrite bool_decide_true by done. unfold by_name. rewrite FC. by rewrite MC, MI. }
  assert (NW : start_client rnd sch (merge cur) oW = One (ANum (clamp 50 (if nw =? 0 then 30 else nw)))).
  { unfold start_client, normalise. do 4 rewrite bool_decide_false by done. rewrite bool_decide_true by done. by rewrite MW. }
  assert (NT : start_client rnd sch (merge cur) oT = One (ANum (if (if nt =? 0 then 3 else nt) <? 1 then 1 else if nt =? 0 then 3 else nt))).
  { unfold start_client, normalise. do 5 rewrite bool_decide_false by done. rewrite bool_decide_true by done. by rewrite MT. }
  assert (NO : forall o, o ∈ sch -> oName o ∉ [bs "secret"; bs "remote"; bs "remoteConnections"; bs "remoteIdleConnections"; bs "webrtcConnections"; bs "tcpForwardConnections"] ->
     start_client rnd sch (merge cur) o = merge cur o).
  { intros o Ho Hn. rewrite !not_elem_of_cons in Hn. destruct Hn as (N1 & N2 & N3 & N4 & N5 & N6 & _).
    unfold start_client, normalise. by do 6 rewrite bool_decide_false by done. }
  split.
  - intros H. split.
    + intros o Ho HZ. pose proof (H o Ho) as E. apply Hseen in Ho. destruct Ho as [Hu Ho].
      destruct (decide (oName o ∈ [bs "secret"; bs "remote"; bs "remoteConnections"; bs "remoteIdleConnections"; bs "webrtcConnections"; bs "tcpForwardConnections"])) as [Hn|Hn].
      * rewrite !elem_of_cons in Hn. destruct Hn as [Hn|[Hn|[Hn|[Hn|[Hn|[Hn|Hn]]]]]]; [..|by apply elem_of_nil in Hn];
          apply (HS _ _ Ho) in Hn;
          [rewrite FS in Hn|rewrite FR in Hn|rewrite FC in Hn|rewrite FI in Hn|rewrite FW in Hn|rewrite FT in Hn]; injection Hn as <-.
        -- rewrite VS, NS in E. rewrite VS in HZ |- *. case_bool_decide as G; [subst sv; by injection E as <-|]. exfalso.
           destruct HZ as [[= ?]|[|[|[|[|]]]]]; done.
        -- exfalso. rewrite VR in HZ. destruct HZ as [|[|[|[|[|]]]]]; done.
        -- exfalso. rewrite VC in HZ, E. rewrite NC in E. injection E as E. destruct HZ as [|[HZ|[|[|[|]]]]]; try done. injection HZ as ->.
           pose proof (clamp_pos 10 3). cbn in E. lia.
        -- exfalso. rewrite VI in HZ, E. rewrite NI in E. injection E as E. destruct HZ as [|[HZ|[|[|[|]]]]]; try done. injection HZ as ->.
           pose proof (clamp_pos 10 (if nc =? 0 then 3 else nc)). pose proof (clamp_pos (clamp 10 (if nc =? 0 then 3 else nc)) (if 0 =? 0 then 1 else 0)). lia.
        -- exfalso. rewrite VW in HZ, E. rewrite NW in E. injection E as E. destruct HZ as [|[HZ|[|[|[|]]]]]; try done. injection HZ as ->. done.
        -- exfalso. rewrite VT in HZ, E. rewrite NT in E. injection E as E. destruct HZ as [|[HZ|[|[|[|]]]]]; try done. injection HZ as ->. done.
      * rewrite NO in E by done. rewrite E. by apply Hm.
    + intros o Ho. split; [|split; [|split; [|split; [|split]]]]; intros Hn; apply (HS _ _ Ho) in Hn;
        [rewrite FS in Hn|rewrite FR in Hn|rewrite FC in Hn|rewrite FI in Hn|rewrite FW in Hn|rewrite FT in Hn]; injection Hn as <-.
      * pose proof (H oS IS) as E. rewrite NS, VS in E. rewrite VS. intros [= ->]. rewrite bool_decide_true in E by done. by injection E as <-.
      * pose proof (H oR IR) as E. rewrite NR, VR in E. injection E as E. exists rv. split; [done|].
        clear -E VRF. induction VRF as [|a rv [s ->] HF IH]; [done|]. rewrite fmap_cons in E.
        assert (E1 : AStr s = fix_remote (AStr s)) by (by injection E). assert (E2 : rv = fix_remote <$> rv) by (by injection E).
        constructor; [|by apply IH]. exists s. split; [done|]. by apply fix_remote_id.
      * pose proof (H oC IC) as E. rewrite NC, VC in E. injection E as E. exists nc. split; [done|].
        pose proof (clamp_pos 10 (if nc =? 0 then 3 else nc)). lia.
      * pose proof (H oC IC) as E. rewrite NC, VC in E. injection E as E.
        pose proof (H oI II) as E'. rewrite NI, VI in E'. injection E' as E'. rewrite <- E in E'.
        pose proof (clamp_pos 10 (if nc =? 0 then 3 else nc)). pose proof (clamp_pos nc (if ni =? 0 then 1 else ni)).
        exists ni, nc, oC. split; [by apply (proj1 (Hseen _) IC)|]. split; [done|]. split; [done|]. split; [done|]. lia.
      * pose proof (H oW IW) as E. rewrite NW, VW in E. injection E as E. exists nw. split; [done|].
        pose proof (clamp_pos 50 (if nw =? 0 then 30 else nw)). lia.
      * pose proof (H oT IT) as E. rewrite NT, VT in E. injection E as E. exists nt. split; [done|].
        destruct (nt =? 0) eqn:EZ; cbn in E; lia.
  - intros [HZ HK] o Ho. pose proof Ho as Hs. apply Hseen in Ho. destruct Ho as [Hu Ho].
    assert (KC : 1 <= nc <= 10).
    { destruct (HK oC (proj2 (proj1 (Hseen _) IC))) as (_ & _ & K & _). destruct (K eq_refl) as (n & E & ?). rewrite VC in E. injection E as <-. lia. }
    destruct (decide (oName o ∈ [bs "secret"; bs "remote"; bs "remoteConnections"; bs "remoteIdleConnections"; bs "webrtcConnections"; bs "tcpForwardConnections"])) as [Hn|Hn].
    + rewrite !elem_of_cons in Hn. destruct Hn as [Hn|[Hn|[Hn|[Hn|[Hn|[Hn|Hn]]]]]]; [..|by apply elem_of_nil in Hn];
        apply (HS _ _ Ho) in Hn;
        [rewrite FS in Hn|rewrite FR in Hn|rewrite FC in Hn|rewrite FI in Hn|rewrite FW in Hn|rewrite FT in Hn]; injection Hn as <-.
      * destruct (HK oS Ho) as (K & _). specialize (K eq_refl). rewrite NS, VS in *. case_bool_decide as G; [by subst|done].
      * destruct (HK oR Ho) as (_ & K & _). destruct (K eq_refl) as (l & E & HF). rewrite NR, VR in *. injection E as ->. f_equal.
        clear -HF. induction HF as [|a l (s & -> & Hs) HF IH]; [done|]. rewrite fmap_cons, <- IH. f_equal. symmetry. by apply fix_remote_id.
      * rewrite NC, VC. do 2 f_equal. destruct (nc =? 0) eqn:EZ; [lia|]. symmetry. by apply clamp_id.
      * destruct (HK oI Ho) as (_ & _ & _ & K & _). destruct (K eq_refl) as (n & m & o' & Ho' & En & E1 & E2 & Hr2).
        apply (HS _ _ Ho') in En. rewrite FC in En. injection En as <-. rewrite VC in E1. injection E1 as <-. rewrite VI in E2. injection E2 as <-.
        rewrite NI, VI. do 2 f_equal. destruct (nc =? 0) eqn:EZ; [lia|]. destruct (ni =? 0) eqn:EZ2; [lia|].
        rewrite (proj2 (clamp_id 10 nc ltac:(lia))) by lia. symmetry. apply clamp_id; lia.
      * destruct (HK oW Ho) as (_ & _ & _ & _ & K & _). destruct (K eq_refl) as (n & E & Hr2). rewrite VW in E. injection E as <-.
        rewrite NW, VW. do 2 f_equal. destruct (nw =? 0) eqn:EZ; [lia|]. symmetry. apply clamp_id; lia.
      * destruct (HK oT Ho) as (_ & _ & _ & _ & _ & K). destruct (K eq_refl) as (n & E & Hr2). rewrite VT in E. injection E as <-.
        rewrite NT, VT. do 2 f_equal. destruct (nt =? 0) eqn:EZ; [lia|]. destruct (nt <? 1) eqn:EZ2; lia.
    + rewrite NO by done. destruct (Hm o Ho) as [M1 M2]. assert (D : Decision (is_zero (c o))) by (unfold is_zero; apply _).
      destruct D as [D|D]; [rewrite M1 by done; by apply HZ|by rewrite M2].
Qed.

Lemma start_typed version dpath web noargs args o : o ∈ client_options version -> of_type o (start_defaults dpath web noargs args o).
Proof.
  intros Ho. assert (HD : Forall (fun o => of_type o (oDefault o)) (client_options version)) by (unfold client_options; repeat constructor).
  rewrite Forall_forall in HD. unfold start_defaults.
  destruct (bool_decide (oName o = B_config) && (noargs || has_arg args B_webAddr)) eqn:E1.
  - apply andb_prop in E1. destruct E1 as [E1 _]. apply bool_decide_eq_true in E1.
    assert (o = nofile (ostr "config")) as -> by (eapply named; [done|]; rewrite E1; reflexivity). done.
  - destruct (bool_decide (oName o = bs "webAddr") && noargs) eqn:E2; [|by apply HD].
    apply andb_prop in E2. destruct E2 as [E2 _]. apply bool_decide_eq_true in E2.
    assert (o = ostr "webAddr") as -> by (eapply named; [done|]; rewrite E2; reflexivity). done.
Qed.

(* ---- the theorem ---- *)
(* A client was started with a command line and a usable file and is asked to reload with the same command line while the
   options of the file are the same (its services may differ).  [c] are the options as written.  The reload is not
   refused for changed options exactly if starting the client left every option as written. *)
Theorem C59_reload_exactly enc P version disk disk' dpath web noargs prog l ws rest f rnd c v :
  (forall x y, enc x = enc y -> x = y) -> rnd <> [] ->
  typed P -> typed_strict P -> well_typed (client_options version) f -> blen (ws ++ rest) < 4294967296 ->
  command (client_options version) l ws -> ends rest -> Forall (takes P) l ->
  let args := prog :: ws ++ rest in
  let sch := client_options version in
  let sp := if noargs || has_arg args B_webAddr then dpath else [] in
  file_says disk (config_path l sp) f -> file_says disk' (config_path l sp) f ->
  client_new P sch disk dpath web noargs args = Options v ->
  written_options P l f (start_defaults dpath web noargs args) sch c ->
  let answer := reload enc P sch disk' dpath web noargs args (start_client rnd sch v) in
  (answer = RGoesOn <-> kept sch c) /\ (answer = RChanged <-> ~ kept sch c).
Proof.
  intros Henc Hrnd HTy HTS HWT HN HC HE HT args sch sp HF HF' HNew HW.
  destruct (C58_schemas version) as (GS & HCF & _).
  set (start := start_defaults dpath web noargs args) in *.
  assert (Hsp : forall o, oName o = bs "config" -> start o = One (AStr sp) \/ (start o = oDefault o /\ sp = [])).
  { intros o En. unfold start, start_defaults, sp. rewrite En, bool_decide_true by done. cbn [andb].
    destruct (noargs || has_arg args B_webAddr); [by left|right]. by rewrite bool_decide_false. }
  destruct (parse_flags_usable P sch disk noargs prog l ws rest f start sp GS HCF HTy HN HC HE HT Hsp HF) as (cur & EC & HWC).
  unfold client_new in HNew. fold args in EC. fold start in HNew. rewrite EC in HNew. injection HNew as <-.
  set (run := start_client rnd sch (merge cur)).
  assert (Hcur : forall o, o ∈ sch -> cur o = c o) by (intros o Ho; eapply called_for_fun; [by apply HWC|by apply HW]).
  assert (HTc : forall o, o ∈ sch -> of_type o (c o)).
  { intros o Ho. eapply called_for_typed; [done|done|done|done| |by apply HW]. by apply (start_typed version). }
  set (start' := fun o => if bool_decide (oName o ∈ web_settings) then run o else start o).
  assert (Hsp' : forall o, oName o = bs "config" -> start' o = One (AStr sp) \/ (start' o = oDefault o /\ sp = [])).
  { intros o En. unfold start'. rewrite bool_decide_false; [by apply Hsp|]. rewrite En. by apply (bool_decide_unpack _). }
  destruct (parse_flags_usable P sch disk' noargs prog l ws rest f start' sp GS HCF HTy HN HC HE HT Hsp' HF') as (cur' & EC' & HWC').
  assert (Hc' : forall o, o ∈ seen sch -> cur' o = c o).
  { intros o Ho. unfold seen in Ho. rewrite elem_of_list_filter in Ho. destruct Ho as [Hu Ho].
    pose proof (HWC' o Ho) as G1. pose proof (HW o Ho) as G2. destruct (decide (oName o ∈ web_settings)) as [Hin|Hin].
    - assert (En : oName o = bs "webAddr").
      { assert (HA : Forall (fun n => n = bs "webAddr" \/ n ∈ unseen) web_settings).
        { repeat (constructor; [first [by left|right; by apply (bool_decide_unpack _)]|]). constructor. }
        rewrite Forall_forall in HA. destruct (HA _ Hin); [done|by destruct Hu]. }
      assert (o = ostr "webAddr") as -> by (eapply named; [done|]; rewrite En; reflexivity).
      set (ow := ostr "webAddr") in *. unfold called_for in G1, G2. destruct (stated P ow l); [congruence|].
      destruct (if oFile ow then f (oName ow) else None); [congruence|]. rewrite G1, G2. unfold start'. rewrite bool_decide_true by done.
      unfold run, start_client, normalise. do 6 rewrite bool_decide_false by done. unfold merge. rewrite (Hcur ow Ho), G2.
      unfold start, start_defaults. rewrite (bool_decide_false (oName ow = B_config)) by done. cbn [andb].
      rewrite (bool_decide_true (oName ow = bs "webAddr")) by done. cbn [andb]. destruct noargs; [|done].
      cbn [zero_val zero_atom]. case_bool_decide as G; [by rewrite G|done].
    - eapply called_for_fun; [exact G1|]. unfold start'. by rewrite bool_decide_false. }
  assert (HK : (cur' <$> seen sch) = (run <$> seen sch) <-> kept sch c).
  { pose proof (kept_iff version rnd c cur Hrnd HTc Hcur) as HKI. fold sch run in HKI. rewrite <- HKI. split.
    - intros E o Ho. rewrite <- (Hc' o Ho). apply elem_of_list_lookup in Ho. destruct Ho as [i Hi].
      assert (E' : (cur' <$> seen sch) !! i = (run <$> seen sch) !! i) by (by rewrite E).
      rewrite !list_lookup_fmap, Hi in E'. cbn in E'. congruence.
    - intros H. apply list_fmap_ext. intros i o Hi. assert (Ho : o ∈ seen sch) by (by eapply elem_of_list_lookup_2).
      rewrite (Hc' o Ho). by apply H. }
  cbv zeta. unfold reload. fold start run start'. fold args in EC'. rewrite EC'.
  case_bool_decide as G.
  - apply Henc in G. apply HK in G. done.
  - assert (HNK : ~ kept sch c) by (intros K; apply G; f_equal; by apply HK). done.
Qed.

(* The other direction: an option other than those of services, of the web page and of the command itself that is written
   differently from what the client runs with makes the reload be refused. *)
Definition not_compared : list bytes :=
  bs <$> ["config"; "version"; "s"; (* the command *)
          "hostPrefix"; "remoteTCPPort"; "remoteTCPRandom"; "local"; "localTimeout"; "useLocalAsHTTPHost"; (* services *)
          "webAddr"; "webCertFile"; "webKeyFile"; "pprof"; "signingKey"; "admin"; "password"]%string. (* web page *)
Theorem C59_change_refused enc P version disk dpath web noargs prog l ws rest f running c o :
  (forall x y, enc x = enc y -> x = y) -> typed P -> blen (ws ++ rest) < 4294967296 ->
  command (client_options version) l ws -> ends rest -> Forall (takes P) l ->
  let args := prog :: ws ++ rest in
  let sch := client_options version in
  let sp := if noargs || has_arg args B_webAddr then dpath else [] in
  file_says disk (config_path l sp) f ->
  written_options P l f (start_defaults dpath web noargs args) sch c ->
  o ∈ sch -> oName o ∉ not_compared -> c o <> running o ->
  reload enc P sch disk dpath web noargs args running = RChanged.
Proof.
  intros Henc HTy HN HC HE HT args sch sp HF HW Ho Hnc Hne.
  destruct (C58_schemas version) as (GS & HCF & _).
  set (start := start_defaults dpath web noargs args) in *.
  set (start' := fun o => if bool_decide (oName o ∈ web_settings) then running o else start o).
  assert (Hsp' : forall o, oName o = bs "config" -> start' o = One (AStr sp) \/ (start' o = oDefault o /\ sp = [])).
  { intros o' En. unfold start'. rewrite bool_decide_false; [|rewrite En; by apply (bool_decide_unpack _)].
    unfold start, start_defaults, sp. rewrite En, bool_decide_true by done. cbn [andb].
    destruct (noargs || has_arg args B_webAddr); [by left|right]. by rewrite bool_decide_false. }
  destruct (parse_flags_usable P sch disk noargs prog l ws rest f start' sp GS HCF HTy HN HC HE HT Hsp' HF) as (cur & EC & HWC).
  assert (HSub : Forall (fun n => n ∈ not_compared) (unseen ++ web_settings)).
  { apply (bool_decide_unpack _). vm_compute. exact I. }
  rewrite Forall_forall in HSub.
  assert (Hs : o ∈ seen sch).
  { unfold seen. rewrite elem_of_list_filter. split; [|done]. intros Hu. apply Hnc, HSub, elem_of_app. by left. }
  assert (Ec : cur o = c o).
  { eapply called_for_fun; [by apply HWC|]. unfold start'. rewrite bool_decide_false; [by apply HW|]. intros Hu. apply Hnc, HSub, elem_of_app. by right. }
  unfold reload. fold start. fold start'. fold args in EC. rewrite EC. rewrite bool_decide_false; [done|]. intros G. apply Henc in G.
  apply elem_of_list_lookup in Hs. destruct Hs as [i Hi].
  assert (E' : (cur <$> seen sch) !! i = (running <$> seen sch) !! i) by (by rewrite G).
  rewrite !list_lookup_fmap, Hi in E'. cbn in E'. congruence.
Qed.

(* ---- concrete cases ---- *)
Definition no_file : bytes -> file := fun _ => Missing.
(* an encoding that tells lists of values apart *)
Definition enc_atom (a : atom) : bytes :=
  match a with
  | AStr s => 0 :: N.of_nat (length s) :: s
  | ANum n => [1; n] | AInt z => [2; if (z <? 0)%Z then 1 else 0; Z.to_N (Z.abs z)] | ABool b => [3; if b then 1 else 0]
  | ADur z => [4; if (z <? 0)%Z then 1 else 0; Z.to_N (Z.abs z)] | AFloat n => [5; n]
  end.
Definition enc_val (v : val) : bytes :=
  match v with
  | One a => 6 :: enc_atom a
  | Many l => 7 :: N.of_nat (length l) :: concat (enc_atom <$> l)
  | Placed l => 8 :: N.of_nat (length l) :: concat ((fun x => enc_atom x.1 ++ [x.2]) <$> l)
  end.
Definition demo_enc (l : list val) : bytes := concat (enc_val <$> l).
Definition started_then_reloaded (args : list string) : option reload_answer :=
  match client_new demo (client_options (bs "v")) no_file (bs "d") (bs "w") false (bs <$> args) with
  | Options v => Some (reload demo_enc demo (client_options (bs "v")) no_file (bs "d") (bs "w") false (bs <$> args)
                         (start_client (bs "random") (client_options (bs "v")) v))
  | _ => None
  end.
Theorem C59_witness :
  started_then_reloaded ["gt"; "-id"; "me"; "-secret"; "s"; "-remote"; "tcp://server:80"]%string = Some RGoesOn.
Proof. vm_compute. reflexivity. Qed.
(* the client was started as "me", the configuration now says "you" *)
Theorem C59_change_witness :
  match client_new demo (client_options (bs "v")) no_file (bs "d") (bs "w") false (bs <$> ["gt"; "-id"; "me"; "-secret"; "s"; "-remote"; "tcp://server:80"]%string) with
  | Options v => reload demo_enc demo (client_options (bs "v")) no_file (bs "d") (bs "w") false (bs <$> ["gt"; "-id"; "you"; "-secret"; "s"; "-remote"; "tcp://server:80"]%string)
                         (start_client (bs "random") (client_options (bs "v")) v) = RChanged
  | _ => False
  end.
Proof. vm_compute. reflexivity. Qed.
(* "-remote server:80" (the usage text: "default tcp://"): no reload is possible *)
Theorem C59_remote_refuted :
  started_then_reloaded ["gt"; "-id"; "me"; "-secret"; "s"; "-remote"; "server:80"]%string = Some RChanged.
Proof. vm_compute. reflexivity. Qed.
(* without a secret *)
Theorem C59_secret_refuted :
  started_then_reloaded ["gt"; "-id"; "me"; "-remote"; "tcp://server:80"]%string = Some RChanged.
Proof. vm_compute. reflexivity. Qed.
(* with more connections than allowed, or with a zero *)
Theorem C59_numbers_refuted :
  started_then_reloaded ["gt"; "-id"; "me"; "-secret"; "s"; "-remote"; "tcp://server:80"; "-remoteConnections"; "20"]%string = Some RChanged /\
  started_then_reloaded ["gt"; "-id"; "me"; "-secret"; "s"; "-remote"; "tcp://server:80"; "-remoteIdleConnections"; "0"]%string = Some RChanged.
Proof. split; vm_compute; reflexivity. Qed.
Lemma demo_typed_strict : typed_strict demo.
Proof.
  intros o t a HS. unfold of_type. rewrite HS. cbn. unfold demo_strict. destruct (oBase o); intros E; try done.
  - by injection E as <-.
  - destruct t; [done|]. destruct (dec 0 _); [|done]. by injection E as <-.
  - repeat case_bool_decide; try done; by injection E as <-.
  - destruct t; [done|]. destruct (dec 0 _); [|done]. by injection E as <-.
Qed.
