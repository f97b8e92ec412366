(* HostRewriteProofs.v -- lemmas about client/task.go httpTask.Write (C34) *)
From Verif Require Import GoBase GoBaseLemmas BufioModel HostRewriteSpec HostRewriteModel.
Local Open Scope N_scope.

Lemma index_byte_some c p i : index_byte c p = Some i ->
  exists l r, p = l ++ c :: r /\ blen l = i /\ c ∉ l.
Proof.
  revert i; induction p as [|x p IH]; intros i H; [done|]. cbn in H.
  destruct (N.eqb_spec x c) as [->|Hx].
  - injection H as <-. exists [], p. split; [done|]. split; [done|]. set_solver.
  - destruct (index_byte c p) as [j|]; [|done]. injection H as <-.
    destruct (IH j eq_refl) as (l & r & -> & Hl & Hn). exists (x :: l), r.
    split; [done|]. split; [rewrite blen_cons; lia|]. set_solver.
Qed.
Lemma index_byte_none c p : index_byte c p = None -> c ∉ p.
Proof.
  induction p as [|x p IH]; intros H; [set_solver|]. cbn in H.
  destruct (N.eqb_spec x c) as [->|Hx]; [done|]. destruct (index_byte c p); [done|]. set_solver.
Qed.

Lemma NL_notin_HOST : NL ∉ HOST.
Proof. unfold NL, HOST. set_solver. Qed.
Lemma prefix_length_N {A} (a b : list A) : a `prefix_of` b -> blen a <= blen b.
Proof. intros [k ->]. rewrite blen_app. lia. Qed.

Lemma host_free_nil : host_free [].
Proof.
  intros pre q H _ Hp. symmetry in H. apply app_nil in H as [_ ->]. apply prefix_length_N in Hp. by vm_compute in Hp.
Qed.
Lemma host_free_short s : blen s <= 4 -> host_free s.
Proof.
  intros Hs pre q -> _ Hp. apply prefix_length_N in Hp. rewrite blen_app in Hs.
  change (blen HOST) with 5 in Hp. lia.
Qed.
Lemma last_mem {A} (l : list A) x : last l = Some x -> x ∈ l.
Proof. rewrite last_Some. intros [k ->]. set_solver. Qed.
Lemma host_free_line l : NL ∉ l -> ~ HOST `prefix_of` l -> host_free l.
Proof.
  intros Hn Hp pre q -> [->|Hl]; [done|]. apply last_mem in Hl. set_solver.
Qed.
Lemma host_free_fullline l : NL ∉ l -> ~ HOST `prefix_of` (l ++ [NL]) -> host_free (l ++ [NL]).
Proof.
  intros Hn Hp pre q Hs [->|Hl] H; [cbn in Hs; subst; done|].
  destruct q as [|y q] using rev_ind; [apply prefix_length_N in H; by vm_compute in H|].
  rewrite app_assoc in Hs. apply app_inj_2 in Hs as [Hs _]; [|done]. subst l.
  apply last_mem in Hl. set_solver.
Qed.
Lemma line_start_app d k : line_start d -> line_start k -> line_start (d ++ k).
Proof.
  intros Hd [->|Hk]; [by rewrite app_nil_r|]. right. rewrite last_app, Hk. done.
Qed.
Lemma line_start_nl l : line_start (l ++ [NL]).
Proof. right. by rewrite last_snoc. Qed.
Lemma host_free_app d q : line_start d -> host_free d -> host_free q -> host_free (d ++ q).
Proof.
  intros Hd Hfd Hfq pre q' Hs Hpre Hp.
  apply app_eq_inv in Hs as [(k & Hdk & Hq)|(k & Hdk & Hq)].
  - (* d = pre ++ k *) subst d q'.
    destruct (decide (k = [])) as [->|Hk].
    { cbn in Hp. apply (Hfq [] q); [done|by left|done]. }
    destruct (decide (5 <= length k)%nat) as [Hl|Hl].
    + apply (Hfd pre k); [done..|]. destruct Hp as [z Hz].
      exists (drop 5 k). rewrite <- (take_drop 5 k) at 1. f_equal.
      assert (take 5 (k ++ q) = take 5 (HOST ++ z)) as He by (by rewrite Hz).
      rewrite take_app_le in He by done. rewrite He. done.
    + assert (NL ∈ k) as Hin.
      { destruct Hd as [Hd|Hd]; [apply app_nil in Hd as [_ ->]; done|].
        rewrite last_app in Hd. destruct (last k) eqn:Hlk; [injection Hd as ->; by apply last_mem|].
        apply last_None in Hlk. done. }
      destruct Hp as [z Hz]. assert (take (length k) (k ++ q) = take (length k) (HOST ++ z)) as He by (by rewrite Hz).
      rewrite take_app, take_app_le in He by (cbn; lia). rewrite He in Hin.
      apply NL_notin_HOST. rewrite <- (take_drop (length k) HOST). set_solver.
  - (* pre = d ++ k *) subst pre q. apply (Hfq k q'); [done| |done].
    destruct Hpre as [He|He]; [apply app_nil in He as [_ ->]; by left|].
    rewrite last_app in He. destruct (last k) eqn:Hlk; [right; congruence|].
    apply last_None in Hlk as ->. by left.
Qed.

Lemma is_good_spec p :
  match is_good p with
  | Replace => HOST `prefix_of` p
  | Unsure => blen p < 5 /\ p `prefix_of` HOST
  | Good => forall z, ~ HOST `prefix_of` (p ++ z)
  end.
Proof.
  unfold is_good.
  destruct (N.ltb_spec 5 (blen p)) as [Hl|Hl].
  - destruct (decide _) as [He|He].
    + change (5 <? 5) with false. cbn iota. exists (ndrop 5 p). rewrite <- (ntake_ndrop 5 p) at 1. by rewrite He.
    + intros z [y Hy]. apply He. rewrite <- (ntake_app_le 5 p z) by lia. by rewrite Hy.
  - rewrite (ntake_all (blen p) p) by lia. destruct (decide _) as [He|He].
    + destruct (N.ltb_spec (blen p) 5) as [H5|H5].
      * split; [done|]. exists (ndrop (blen p) HOST). rewrite He at 1. by rewrite ntake_ndrop.
      * assert (blen p = 5) as H by lia. rewrite H in He. rewrite He. by exists [].
    + intros z [y Hy]. apply He.
      assert (ntake (blen p) (p ++ z) = ntake (blen p) (HOST ++ y)) as H by (by rewrite Hy).
      rewrite ntake_app in H by done. rewrite ntake_app_le in H by (change (blen HOST) with 5; lia). done.
Qed.

(* what has been given so far ([inp]) against what went out *)
Inductive hinv (hl : bytes) : htask -> bytes -> bytes -> Prop :=
  | HStart done held own : line_start done -> host_free done -> blen held <= 4 ->
      hinv hl (mkHtask (Some held) false false own) (done ++ held) done
  | HPass done part own : line_start done -> host_free done -> NL ∉ part -> (forall z, ~ HOST `prefix_of` (part ++ z)) ->
      hinv hl (mkHtask (Some []) false true own) (done ++ part) (done ++ part)
  | HSkip done line tmp pass own : line_start done -> host_free done -> NL ∉ line -> HOST `prefix_of` line ->
      hinv hl (mkHtask (Some tmp) true pass own) (done ++ line) (done ++ hl)
  | HDone done line rest skip pass own : line_start done -> host_free done -> NL ∉ line -> HOST `prefix_of` line ->
      hinv hl (mkHtask None skip pass own) (done ++ line ++ NL :: rest) (done ++ hl ++ rest).

Lemma host_prefix_nl l r : HOST `prefix_of` (l ++ NL :: r) -> HOST `prefix_of` l.
Proof.
  intros [z Hz]. destruct (decide (5 <= length l)%nat) as [H|H].
  - exists (drop 5 l). rewrite <- (take_drop 5 l) at 1. f_equal.
    assert (take 5 (l ++ NL :: r) = take 5 (HOST ++ z)) as He by (by rewrite Hz).
    rewrite take_app_le in He by done. rewrite He. done.
  - exfalso. assert ((l ++ NL :: r) !! length l = (HOST ++ z) !! length l) as He by (by rewrite Hz).
    rewrite list_lookup_middle in He by done. rewrite lookup_app_l in He by (cbn; lia).
    symmetry in He. apply elem_of_list_lookup_2 in He. by apply NL_notin_HOST.
Qed.

Section P.
Context (buf : bytes) (room : N).
Notation id_steal := (fun q : bytes => q).

Lemma cwrite_none p : cwrite None p = (blen p, false, None, p).
Proof. unfold cwrite, w_write. by rewrite ntake_all by lia. Qed.

Lemma write_loop_ok fuel own upd alias q n out dn :
  (length q < fuel)%nat -> line_start dn -> host_free dn ->
  exists t' o, write_loop buf id_steal fuel (mkHtask (Some []) false false own) None upd alias q n out
    = (if upd then n else n + blen q, false, t', None, out ++ o)
    /\ hinv buf t' (dn ++ q) (dn ++ o).
Proof.
  revert q n out dn. induction fuel as [|fuel IH]; intros q n out dn Hf Hls Hhf; [lia|].
  cbn [write_loop]. destruct (N.ltb_spec (blen q) 1) as [Hq|Hq].
  { assert (q = []) as -> by (apply blen_0; lia). eexists _, []. rewrite app_nil_r, blen_nil, N.add_0_r.
    split; [destruct upd; done|]. rewrite (app_nil_r dn) at 2. apply HStart; [done..|]. rewrite blen_nil; lia. }
  pose proof (is_good_spec q) as Hg. destruct (is_good q).
  - destruct (index_byte NL q) as [i|] eqn:Hi.
    + apply index_byte_some in Hi as (l & r & -> & <- & Hn).
      replace (l ++ NL :: r) with ((l ++ [NL]) ++ r) in * by (by rewrite <- app_assoc).
      rewrite ntake_app, ndrop_app by (rewrite blen_app, blen_one; lia).
      rewrite cwrite_none. cbn iota.
      destruct (IH r (if upd then n else n + blen (l ++ [NL])) (out ++ l ++ [NL]) (dn ++ l ++ [NL])) as (t' & o & He & Hi').
      { rewrite !app_length in Hf. cbn in Hf. lia. }
      { apply line_start_app; [done|]. apply line_start_nl. }
      { apply host_free_app; [done..|]. apply host_free_fullline; [done|].
        intros Hp. apply (Hg []). rewrite app_nil_r. by apply prefix_app_r. }
      exists t', ((l ++ [NL]) ++ o). split.
      * rewrite He. rewrite <- !app_assoc. f_equal. f_equal. f_equal. f_equal. destruct upd; [done|]. blens. lia.
      * repeat rewrite <- app_assoc in Hi'. repeat rewrite <- app_assoc. exact Hi'.
    + rewrite cwrite_none. eexists _, q. split; [done|]. apply HPass; [done..| |done].
      by apply index_byte_none.
  - eexists _, []. rewrite app_nil_r. split; [done|]. cbn. rewrite app_nil_r. apply HStart; [done..|]. lia.
  - rewrite cwrite_none. cbn iota. destruct (index_byte NL q) as [i|] eqn:Hi.
    + apply index_byte_some in Hi as (l & r & -> & <- & Hn). pose proof (host_prefix_nl _ _ Hg) as Hl.
      replace (ndrop (blen l + 1) (l ++ NL :: r)) with r.
      2:{ replace (l ++ NL :: r) with ((l ++ [NL]) ++ r) by (by rewrite <- app_assoc).
          rewrite ndrop_app by (rewrite blen_app, blen_one; lia). done. }
      destruct (N.ltb_spec 0 (blen r)) as [Hr|Hr].
      * rewrite cwrite_none. replace (if alias then r else r) with r by (by destruct alias).
        eexists _, (buf ++ r). split; [|by apply HDone].
        f_equal. f_equal. f_equal. f_equal. destruct upd; [done|]. blens. lia.
      * assert (r = []) as -> by (apply blen_0; lia).
        eexists _, buf. split; [|].
        -- f_equal. f_equal. f_equal. f_equal. destruct upd; [done|]. blens. lia.
        -- rewrite <- (app_nil_r buf) at 2. by apply HDone.
    + eexists _, buf. split; [done|]. apply HSkip; [done..| |done]. by apply index_byte_none.
Qed.

Lemma write_lines_ok own tmp p n out dn :
  line_start dn -> host_free dn ->
  exists t' o, write_lines buf room id_steal (mkHtask (Some tmp) false false own) tmp None p n out
    = (n + blen p, false, t', None, out ++ o) /\ hinv buf t' (dn ++ tmp ++ p) (dn ++ o).
Proof.
  intros Hls Hhf. unfold write_lines. cbn [hSkip hPass hOwn].
  destruct (N.ltb_spec (blen p + blen tmp) 5) as [H5|H5].
  { eexists _, []. rewrite !app_nil_r. split; [done|]. apply HStart; [done..|]. blens. lia. }
  destruct (N.ltb_spec 0 (blen tmp)) as [Ht|Ht].
  - destruct (write_loop_ok (S (length (tmp ++ p))) (own && (blen tmp + blen p <=? room)) true
      (own && (blen tmp + blen p <=? room)) (tmp ++ p) (n + blen p) out dn) as (t' & o & He & Hi); [lia|done..|].
    exists t', o. split; [exact He|done].
  - assert (tmp = []) as -> by (apply blen_0; lia).
    destruct (write_loop_ok (S (length p)) own false false p n out dn) as (t' & o & He & Hi); [lia|done..|].
    exists t', o. split; [exact He|done].
Qed.

Lemma hwrite_ok t inp out p : hinv buf t inp out ->
  exists t' o, hwrite buf room id_steal t None p = (blen p, false, t', None, o) /\ hinv buf t' (inp ++ p) (out ++ o).
Proof.
  intros Hinv. unfold hwrite. destruct Hinv as
    [dn held own Hls Hhf Hh|dn part own Hls Hhf Hn Hp|dn line tmp pass own Hls Hhf Hn Hp|dn line rest skip pass own Hls Hhf Hn Hp];
    cbn [hTmp hSkip hPass hOwn].
  - destruct (write_lines_ok own held p 0 [] dn) as (t' & o & He & Hi); [done..|].
    rewrite N.add_0_l in He. exists t', o. split; [done|]. by rewrite <- app_assoc.
  - destruct (index_byte NL p) as [i|] eqn:Hi.
    + apply index_byte_some in Hi as (l & r & -> & <- & Hl).
      replace (l ++ NL :: r) with ((l ++ [NL]) ++ r) in * by (by rewrite <- app_assoc).
      rewrite ntake_app, ndrop_app by (rewrite blen_app, blen_one; lia).
      rewrite cwrite_none. cbn iota.
      assert (line_start (dn ++ part ++ l ++ [NL])) as Hls'.
      { rewrite app_assoc, app_assoc. apply line_start_nl. }
      assert (host_free (dn ++ part ++ l ++ [NL])) as Hhf'.
      { apply host_free_app; [done..|]. rewrite app_assoc. apply host_free_fullline; [set_solver|].
        rewrite <- app_assoc. done. }
      destruct (N.leb_spec (blen r) 0) as [Hr|Hr].
      * assert (r = []) as -> by (apply blen_0; lia). rewrite app_nil_r. eexists _, (l ++ [NL]). split; [done|].
        rewrite <- !app_assoc. rewrite <- (app_nil_r (dn ++ part ++ l ++ [NL])) at 1.
        apply HStart; [done..|]. rewrite blen_nil. lia.
      * destruct (write_lines_ok own [] r (blen (l ++ [NL])) (l ++ [NL]) (dn ++ part ++ l ++ [NL]))
          as (t' & o & He & Hi'); [done..|].
        exists t', ((l ++ [NL]) ++ o). split.
        -- rewrite He. do 4 f_equal. symmetry; apply blen_app.
        -- repeat rewrite <- app_assoc in Hi'. repeat rewrite <- app_assoc. exact Hi'.
    + rewrite cwrite_none. eexists _, p. split; [done|]. rewrite <- !app_assoc.
      apply HPass; [done..| |].
      * apply index_byte_none in Hi. set_solver.
      * intros z. rewrite <- app_assoc. apply Hp.
  - destruct (index_byte NL p) as [i|] eqn:Hi.
    + apply index_byte_some in Hi as (l & r & -> & <- & Hl).
      assert (ndrop (blen l + 1) (l ++ NL :: r) = r) as Hd.
      { replace (l ++ NL :: r) with ((l ++ [NL]) ++ r) by (by rewrite <- app_assoc).
        rewrite ndrop_app by (rewrite blen_app, blen_one; lia). done. }
      assert (Hline : HOST `prefix_of` (line ++ l)) by (by apply prefix_app_r).
      destruct (N.leb_spec (blen (l ++ NL :: r)) (blen l + 1)) as [Hr|Hr].
      * assert (r = []) as ->. { apply blen_0. revert Hr. blens. lia. }
        eexists _, []. split; [done|].
        replace ((dn ++ line) ++ l ++ [NL]) with (dn ++ (line ++ l) ++ NL :: []) by (by rewrite <- !app_assoc).
        replace ((dn ++ buf) ++ []) with (dn ++ buf ++ []) by (by rewrite <- !app_assoc).
        apply HDone; [done..| |done]. set_solver.
      * rewrite Hd, cwrite_none. eexists _, r. split; [do 4 f_equal; blens; lia|].
        replace ((dn ++ line) ++ l ++ NL :: r) with (dn ++ (line ++ l) ++ NL :: r) by (by rewrite <- !app_assoc).
        rewrite <- (app_assoc dn buf). apply HDone; [done..| |done]. set_solver.
    + eexists _, []. split; [done|]. rewrite app_nil_r, <- app_assoc. apply HSkip; [done..| |].
      * apply index_byte_none in Hi. set_solver.
      * by apply prefix_app_r.
  - rewrite cwrite_none. eexists _, p. split; [done|]. rewrite <- !app_assoc. cbn [app]. by apply HDone.
Qed.

Lemma hwrites_ok ps t inp out : hinv buf t inp out ->
  exists t' o, hwrites buf room id_steal t None ps = (map blen ps, false, t', o) /\ hinv buf t' (inp ++ concat ps) (out ++ o).
Proof.
  revert t inp out; induction ps as [|p ps IH]; intros t inp out Hinv; cbn [hwrites map concat].
  - exists t, []. rewrite !app_nil_r. done.
  - destruct (hwrite_ok t inp out p Hinv) as (t' & o & -> & Hi'). cbn iota.
    destruct (IH t' _ _ Hi') as (t'' & o' & -> & Hi''). exists t'', (o ++ o'). split; [done|].
    repeat rewrite <- app_assoc in Hi''. exact Hi''.
Qed.

Lemma hinv_rewritten hl t inp out : hinv hl t inp out ->
  exists held, blen held <= 4 /\ rewritten hl inp (out ++ held) /\ (~ host_free inp -> held = []).
Proof.
  intros [dn held own Hls Hhf Hh|dn part own Hls Hhf Hn Hp|dn line tmp pass own Hls Hhf Hn Hp|dn line rest skip pass own Hls Hhf Hn Hp].
  - assert (host_free (dn ++ held)) by (apply host_free_app; [done..|by apply host_free_short]).
    exists held. split; [done|]. split; [by left|done].
  - exists []. rewrite app_nil_r. split; [rewrite blen_nil; lia|]. split; [|done]. left. split; [|done].
    apply host_free_app; [done..|]. apply host_free_line; [done|]. specialize (Hp []). by rewrite app_nil_r in Hp.
  - exists []. rewrite app_nil_r. split; [rewrite blen_nil; lia|]. split; [|done]. right.
    exists dn, line, []. rewrite !app_nil_r. do 5 (split; [done|]). right. done.
  - exists []. rewrite app_nil_r. split; [rewrite blen_nil; lia|]. split; [|done]. right.
    exists dn, (line ++ [NL]), rest. split; [by rewrite <- app_assoc|]. do 2 (split; [done|]).
    split; [by apply prefix_app_r|]. split; [done|]. left. by exists line.
Qed.
End P.
