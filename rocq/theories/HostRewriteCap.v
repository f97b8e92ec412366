(* HostRewriteCap.v -- httpTask.Write into a destination that fails after k bytes (C34) *)
From Verif Require Import GoBase GoBaseLemmas BufioModel HostRewriteSpec HostRewriteModel HostRewriteProofs.
Local Open Scope N_scope.

(* [R] is the result with a destination that never fails, [R'] with one that accepts k more bytes *)
Definition capped (k : N) (out : bytes) (R R' : hres) : Prop :=
  exists n1 t1 o1, R = (n1, false, t1, None, out ++ o1) /\
    ((blen o1 <= k /\ R' = (n1, false, t1, Some (k - blen o1), out ++ o1)) \/
     (k < blen o1 /\ exists n2 t2, n2 <= n1 /\ R' = (n2, true, t2, Some 0, out ++ ntake k o1))).

Lemma cwrite_some k p : cwrite (Some k) p =
  if blen p <=? k then (blen p, false, Some (k - blen p), p) else (k, true, Some 0, ntake k p).
Proof.
  unfold cwrite, w_write. destruct (N.leb_spec (blen p) k); [|done]. by rewrite ntake_all by lia.
Qed.

Section P.
Context (buf : bytes) (room : N) (steal : bytes -> bytes).

Lemma capped_app k o out R R' : blen o <= k -> capped (k - blen o) (out ++ o) R R' -> capped k out R R'.
Proof.
  intros Hk (n1 & t1 & o1 & -> & H). exists n1, t1, (o ++ o1). split; [by rewrite app_assoc|].
  destruct H as [[H ->]|(H & n2 & t2 & Hn & ->)].
  - left. split; [rewrite blen_app; lia|]. rewrite app_assoc, blen_app. do 2 f_equal. f_equal. lia.
  - right. split; [rewrite blen_app; lia|]. exists n2, t2. split; [done|]. f_equal.
    rewrite <- app_assoc. f_equal. by rewrite ntake_app_ge by lia.
Qed.

Lemma write_loop_mono fuel t upd alias q n out :
  let '(n', _, _, _, _) := write_loop buf steal fuel t None upd alias q n out in n <= n'.
Proof.
  revert t q n out; induction fuel as [|fuel IH]; intros t q n out; cbn [write_loop]; [lia|].
  destruct (blen q <? 1); [lia|]. destruct (is_good q).
  - destruct (index_byte NL q) as [i|].
    + rewrite cwrite_none. cbn iota.
      specialize (IH t (ndrop (i + 1) q) (if upd then n else n + blen (ntake (i + 1) q)) (out ++ ntake (i + 1) q)).
      destruct (write_loop _ _ _ _ _ _ _ _ _ _) as [[[[n' ?] ?] ?] ?]. destruct upd; lia.
    + rewrite cwrite_none. destruct upd; lia.
  - destruct upd; lia.
  - rewrite cwrite_none. cbn iota. destruct (index_byte NL q) as [i|]; [|destruct upd; lia].
    destruct (0 <? _); [rewrite cwrite_none|]; destruct upd; lia.
Qed.

Lemma write_loop_cap fuel t upd alias q n out k :
  capped k out (write_loop buf steal fuel t None upd alias q n out)
               (write_loop buf steal fuel t (Some k) upd alias q n out).
Proof.
  revert t q n out k; induction fuel as [|fuel IH]; intros t q n out k; cbn [write_loop].
  { eexists _, _, []. rewrite app_nil_r. split; [done|]. left. rewrite blen_nil, N.sub_0_r. split; [lia|done]. }
  destruct (blen q <? 1).
  { eexists _, _, []. rewrite app_nil_r. split; [done|]. left. rewrite blen_nil, N.sub_0_r. split; [lia|done]. }
  destruct (is_good q).
  - destruct (index_byte NL q) as [i|].
    + rewrite cwrite_none, cwrite_some. cbn iota. set (o := ntake (i + 1) q).
      destruct (N.leb_spec (blen o) k) as [Hk|Hk].
      * apply (capped_app k o); [done|]. apply IH.
      * pose proof (write_loop_mono fuel t upd alias (ndrop (i + 1) q) (if upd then n else n + blen o) (out ++ o)) as Hm.
        destruct (IH t (ndrop (i + 1) q) (if upd then n else n + blen o) (out ++ o) 0) as (n1 & t1 & o1 & HR & _).
        rewrite HR in Hm |- *. exists n1, t1, (o ++ o1). split; [by rewrite app_assoc|].
        right. split; [rewrite blen_app; lia|]. eexists _, t. split; [|by rewrite ntake_app_le by lia].
        destruct upd; lia.
    + rewrite cwrite_none, cwrite_some. eexists _, _, q. split; [done|].
      destruct (N.leb_spec (blen q) k) as [Hk|Hk]; [by left|]. right. split; [done|].
      eexists _, _. split; [|done]. destruct upd; lia.
  - eexists _, _, []. rewrite app_nil_r. split; [done|]. left. rewrite blen_nil, N.sub_0_r. split; [lia|done].
  - rewrite cwrite_none, cwrite_some. cbn iota.
    assert (forall R n1 t1 o1, R = (n1, false, t1, None, out ++ buf ++ o1) -> n <= n1 -> k < blen buf ->
       capped k out R (n, true, t, Some 0, out ++ ntake k buf)) as Hfail.
    { intros R n1 t1 o1 -> Hn Hk. exists n1, t1, (buf ++ o1). split; [done|]. right. split; [rewrite blen_app; lia|].
      eexists n, t. split; [done|]. by rewrite ntake_app_le by lia. }
    destruct (N.leb_spec (blen buf) k) as [Hk|Hk].
    + destruct (index_byte NL q) as [i|].
      * destruct (0 <? _).
        -- set (q' := if alias then _ else _). rewrite cwrite_none, cwrite_some.
           destruct (N.leb_spec (blen q') (k - blen buf)) as [Hq|Hq].
           ++ eexists _, _, (buf ++ q'). split; [done|]. left. split; [rewrite blen_app; lia|].
              rewrite blen_app. do 2 f_equal. f_equal. lia.
           ++ eexists _, _, (buf ++ q'). split; [done|]. right. split; [rewrite blen_app; lia|].
              eexists _, _. split; [|by rewrite ntake_app_ge by lia]. destruct upd; lia.
        -- eexists _, _, buf. split; [done|]. left. done.
      * eexists _, _, buf. split; [done|]. left. done.
    + destruct (index_byte NL q) as [i|].
      * destruct (0 <? _).
        -- rewrite cwrite_none. eapply Hfail; [done| |done]. destruct upd; lia.
        -- eapply (Hfail _ _ _ []); [by rewrite app_nil_r| |done]. destruct upd; lia.
      * eapply (Hfail _ _ _ []); [by rewrite app_nil_r| |done]. destruct upd; lia.
Qed.

Lemma write_lines_cap t tmp p n out k :
  capped k out (write_lines buf room steal t tmp None p n out) (write_lines buf room steal t tmp (Some k) p n out).
Proof.
  unfold write_lines. destruct (_ <? 5).
  { eexists _, _, []. rewrite app_nil_r. split; [done|]. left. rewrite blen_nil, N.sub_0_r. split; [lia|done]. }
  destruct (0 <? _); apply write_loop_cap.
Qed.

Lemma write_lines_mono t tmp p n out :
  let '(n', _, _, _, _) := write_lines buf room steal t tmp None p n out in n <= n'.
Proof.
  unfold write_lines. destruct (_ <? 5); [lia|]. destruct (0 <? _).
  - pose proof (write_loop_mono (S (length (tmp ++ p))) (mkHtask (Some []) (hSkip t) (hPass t) (hOwn t && (blen tmp + blen p <=? room)))
      true (hOwn t && (blen tmp + blen p <=? room)) (tmp ++ p) (n + blen p) out).
    destruct (write_loop _ _ _ _ _ _ _ _ _ _) as [[[[n' ?] ?] ?] ?]. lia.
  - apply write_loop_mono.
Qed.

Lemma hwrite_cap t p k : capped k [] (hwrite buf room steal t None p) (hwrite buf room steal t (Some k) p).
Proof.
  unfold hwrite. destruct (hTmp t) as [tmp|] eqn:Ht.
  2:{ rewrite cwrite_none, cwrite_some. eexists _, _, p. split; [done|].
      destruct (N.leb_spec (blen p) k); [by left|right]. split; [done|]. eexists _, _. split; [|done]. lia. }
  assert (forall n t1, capped k [] (n, false, t1, None, []) (n, false, t1, Some k, [])) as Hnil.
  { intros n t1. eexists _, _, []. split; [done|]. left. rewrite blen_nil, N.sub_0_r. split; [lia|done]. }
  destruct (hSkip t).
  { destruct (index_byte NL p) as [i|]; [|apply Hnil]. destruct (_ <=? _); [apply Hnil|].
    rewrite cwrite_none, cwrite_some. eexists _, _, (ndrop (i + 1) p). split; [done|].
    destruct (N.leb_spec (blen (ndrop (i + 1) p)) k); [by left|right]. split; [done|].
    eexists _, _. split; [|done]. lia. }
  destruct (hPass t); [|apply write_lines_cap].
  destruct (index_byte NL p) as [i|].
  - rewrite cwrite_none, cwrite_some. cbn iota. set (o := ntake (i + 1) p). set (t' := mkHtask _ _ _ _).
    destruct (N.leb_spec (blen o) k) as [Hk|Hk].
    + destruct (_ <=? 0).
      * eexists _, _, o. split; [done|]. left. done.
      * apply (capped_app k o); [done|]. apply write_lines_cap.
    + destruct (_ <=? 0).
      * eexists _, _, o. split; [done|]. right. split; [done|]. eexists _, _. split; [|done]. lia.
      * pose proof (write_lines_mono t' tmp (ndrop (i + 1) p) (blen o) o) as Hm.
        destruct (write_lines_cap t' tmp (ndrop (i + 1) p) (blen o) o 0) as (n1 & t1 & o1 & HR & _).
        rewrite HR in Hm |- *. exists n1, t1, (o ++ o1). split; [done|]. right. split; [rewrite blen_app; lia|].
        eexists _, _. split; [|by rewrite ntake_app_le by lia]. lia.
  - rewrite cwrite_none, cwrite_some. eexists _, _, p. split; [done|].
    destruct (N.leb_spec (blen p) k); [by left|right]. split; [done|]. eexists _, _. split; [|done]. lia.
Qed.
End P.

(* a list of writes into a destination that accepts k bytes *)
Lemma hwrites_cap buf room ps t inp out k : hinv buf t inp out ->
  exists ns f t' o t0 o0, hwrites buf room (fun q => q) t (Some k) ps = (ns, f, t', o) /\
    hwrites buf room (fun q => q) t None ps = (map blen ps, false, t0, o0) /\
    Forall2 (fun n p => n <= blen p) ns (take (length ns) ps) /\
    (f = false -> ns = map blen ps /\ t' = t0 /\ o = o0 /\ blen o0 <= k) /\
    (f = true -> k < blen o0 /\ o = ntake k o0).
Proof.
  revert t inp out k. induction ps as [|p ps IH]; intros t inp out k Hinv.
  { cbn. eexists _, _, _, _, _, _. split; [done|]. split; [done|]. split; [constructor|].
    split; [|done]. intros _. do 3 (split; [done|]). rewrite blen_nil. lia. }
  cbn [hwrites map]. pose proof (hwrite_cap buf room (fun q => q) t p k) as (n1 & t1 & o1 & HR & HC).
  destruct (hwrite_ok buf room t inp out p Hinv) as (t1' & o1' & He & Hi'). rewrite HR in He.
  cbn [app] in *. injection He as -> -> ->. rename t1' into t1, o1' into o1. rewrite HR.
  destruct HC as [[Hk ->]|(Hk & n2 & t2 & Hn & ->)].
  - cbn iota. destruct (IH t1 _ _ (k - blen o1) Hi') as (ns & f & t' & o & t0 & o0 & -> & -> & HF & Hf0 & Hf1).
    eexists _, _, _, _, _, _. split; [done|]. split; [done|]. split; [cbn; constructor; [lia|done]|].
    split.
    + intros Hf. destruct (Hf0 Hf) as (-> & -> & -> & Hl). do 3 (split; [done|]). rewrite blen_app. lia.
    + intros Hf. destruct (Hf1 Hf) as (Hl & ->). split; [rewrite blen_app; lia|].
      by rewrite ntake_app_ge by lia.
  - cbn iota. destruct (hwrites_ok buf room ps t1 _ _ Hi') as (t0 & o0 & -> & _).
    eexists _, _, _, _, _, _. split; [done|]. split; [done|]. split; [cbn; constructor; [lia|constructor]|].
    split; [done|]. intros _. split; [rewrite blen_app; lia|]. by rewrite ntake_app_le by lia.
Qed.
