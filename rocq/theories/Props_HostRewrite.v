(* Props_HostRewrite.v -- C34: replacement of the Host header by the client *)
From Verif Require Import GoBase GoBaseLemmas BufioModel HostRewriteSpec HostRewriteModel HostRewriteProofs HostRewriteCap.
Local Open Scope N_scope.

(* "Host: <h>\r\n" *)
Notation new_line h := ([72; 111; 115; 116; 58; 32] ++ h ++ [13; 10]).
Notation not_reused := (fun q : bytes => q).

Lemma prefix_cut k z r : HOST `prefix_of` z -> k ++ r = z -> NL ∈ k -> HOST `prefix_of` k.
Proof.
  intros [y ->] He Hin. destruct (decide (5 <= length k)%nat) as [H|H].
  - exists (drop 5 k). rewrite <- (take_drop 5 k) at 1. f_equal.
    assert (take 5 (k ++ r) = take 5 (HOST ++ y)) as He' by (by rewrite He).
    rewrite take_app_le in He' by done. rewrite He'. done.
  - exfalso. assert (take (length k) (k ++ r) = take (length k) (HOST ++ y)) as He' by (by rewrite He).
    rewrite take_app, take_app_le in He' by (cbn; lia). rewrite He' in Hin.
    apply NL_notin_HOST. rewrite <- (take_drop (length k) HOST). set_solver.
Qed.

Lemma first_line_unique l1 r1 l2 r2 :
  ((exists l, l1 = l ++ [NL] /\ NL ∉ l) \/ (NL ∉ l1 /\ r1 = [])) ->
  ((exists l, l2 = l ++ [NL] /\ NL ∉ l) \/ (NL ∉ l2 /\ r2 = [])) ->
  l1 ++ r1 = l2 ++ r2 -> r1 = r2.
Proof.
  intros H1 H2 He.
  assert (forall a b c d : bytes, (a ++ [NL]) ++ b = (c ++ [NL]) ++ d -> NL ∉ a -> NL ∉ c -> b = d) as Hmid.
  { induction a as [|x a IH]; intros b [|y c] d Hq Ha Hc; cbn in Hq.
    - congruence.
    - injection Hq as Hx _. set_solver.
    - injection Hq as Hx _. set_solver.
    - injection Hq as Hx Hq. apply (IH b c d); [done|set_solver..]. }
  destruct H1 as [(a & -> & Ha)|(Ha & ->)], H2 as [(c & -> & Hc)|(Hc & ->)].
  - by apply (Hmid a _ c).
  - exfalso. apply Hc. rewrite app_nil_r in He. rewrite <- He. set_solver.
  - exfalso. apply Ha. rewrite app_nil_r in He. rewrite He. set_solver.
  - done.
Qed.

(* the specification determines the output *)
Lemma rewritten_fun hl s o1 o2 : rewritten hl s o1 -> rewritten hl s o2 -> o1 = o2.
Proof.
  assert (forall pre line rest o, s = pre ++ line ++ rest -> line_start pre -> HOST `prefix_of` line -> host_free s -> o) as Habs.
  { intros pre line rest o -> Hl Hp Hf. exfalso. apply (Hf pre (line ++ rest)); [done..|]. by apply prefix_app_r. }
  intros [[Hf ->]|(p1 & l1 & r1 & Hs1 & Hl1 & Hf1 & Hp1 & -> & He1)] [[Hg ->]|(p2 & l2 & r2 & Hs2 & Hl2 & Hf2 & Hp2 & -> & He2)].
  - done.
  - by apply (Habs p2 l2 r2).
  - by apply (Habs p1 l1 r1).
  - assert (p1 = p2 /\ l1 ++ r1 = l2 ++ r2) as [-> Hl].
    { assert (forall p q l r z, p ++ z = q ++ l ++ r -> forall k, p = q ++ k -> k <> [] -> line_start p -> line_start q ->
                HOST `prefix_of` l -> host_free p -> False) as Hk.
      { intros p q l r z Hz k -> Hk Hlp Hlq Hp Hf. apply (Hf q k); [done..|].
        apply (prefix_cut k (l ++ r) z); [by apply prefix_app_r| |].
        - rewrite <- app_assoc in Hz. by apply app_inv_head in Hz.
        - destruct Hlp as [Hlp|Hlp]; [apply app_nil in Hlp as [_ ->]; done|]. rewrite last_app in Hlp.
          destruct (last k) eqn:Hlk; [|by apply last_None in Hlk]. injection Hlp as ->. by apply last_mem. }
      assert (p1 ++ l1 ++ r1 = p2 ++ l2 ++ r2) as E by congruence.
      pose proof E as E'. apply app_eq_inv in E' as [(k & -> & Hk')|(k & -> & Hk')].
      - destruct (decide (k = [])) as [->|Hne]; [rewrite app_nil_r in *; by cbn in Hk'|].
        exfalso. by apply (Hk _ p2 l2 r2 (l1 ++ r1) E k).
      - destruct (decide (k = [])) as [->|Hne]; [rewrite app_nil_r in *; by cbn in Hk'|].
        exfalso. by apply (Hk _ p1 l1 r1 (l2 ++ r2) (eq_sym E) k). }
    by rewrite (first_line_unique l1 r1 l2 r2 He1 He2 Hl).
Qed.

(* However the request is split over the Write calls, every call reports exactly the bytes it was given, and what was
   forwarded is the request with its first "Host:" line replaced, except for at most four bytes not forwarded yet;
   nothing is held back once the line has been seen. *)
Theorem C34_rewrite_partial h t room ps : set_host h = Some t ->
  exists t' o, hwrites (host_line h) room not_reused t None ps = (map blen ps, false, t', o) /\
    exists held, blen held <= 4 /\ rewritten (new_line h) (concat ps) (o ++ held) /\
      (~ host_free (concat ps) -> held = []).
Proof.
  unfold set_host. destruct (200 <? blen h); [done|]. intros [= <-].
  destruct (hwrites_ok (host_line h) room ps (mkHtask (Some []) false false true) [] []) as (t' & o & He & Hi).
  { apply (HStart _ [] []); [by left|apply host_free_nil|rewrite blen_nil; lia]. }
  exists t', o. split; [done|]. by apply hinv_rewritten in Hi.
Qed.
Example C34_rewrite_applies : exists t, set_host [97] = Some t /\
  hwrites (host_line [97]) 4000 not_reused t None
    [[71; 10; 72]; [111; 115]; [116; 58; 98]; [98; 10; 120]; [121]] =
  ([3; 2; 3; 3; 1], false, mkHtask None false false true, [71; 10] ++ new_line [97] ++ [120; 121]).
Proof. eexists. split; [reflexivity|]. vm_compute. reflexivity. Qed.

(* Once a "Host:" line is present, two ways of splitting the same request give the same output. *)
Theorem C34_chunking_independent h t room ps room' ps' ns t1 o ns' t1' o' : set_host h = Some t ->
  concat ps = concat ps' -> ~ host_free (concat ps) ->
  hwrites (host_line h) room not_reused t None ps = (ns, false, t1, o) ->
  hwrites (host_line h) room' not_reused t None ps' = (ns', false, t1', o') -> o = o'.
Proof.
  intros Hs Hc Hh H1 H2.
  destruct (C34_rewrite_partial h t room ps Hs) as (? & o1 & He & held & _ & Hr & Hn). rewrite H1 in He. injection He as -> -> ->.
  destruct (C34_rewrite_partial h t room' ps' Hs) as (? & o2 & He & held' & _ & Hr' & Hn'). rewrite H2 in He. injection He as -> -> ->.
  rewrite <- Hc in Hr', Hn'. rewrite (Hn Hh), app_nil_r in Hr. rewrite (Hn' Hh), app_nil_r in Hr'.
  by eapply rewritten_fun.
Qed.
Example C34_chunking_independent_applies : ~ host_free (concat [[71; 10; 72]; [111; 115; 116; 58; 98]; [98; 10; 120]]).
Proof. intros H. apply (H [71; 10] [72; 111; 115; 116; 58; 98; 98; 10; 120]); [done|by right|by exists [98; 98; 10; 120]]. Qed.

(* With a local service that fails after k bytes: no call reports more than it was given, the service received exactly
   the first k bytes of what it would have received, and it fails only if that is less than everything. *)
Theorem C34_failing_destination h t room ps k : set_host h = Some t ->
  exists ns f t' o o0 held, hwrites (host_line h) room not_reused t (Some k) ps = (ns, f, t', o) /\
    Forall2 (fun n p => n <= blen p) ns (take (length ns) ps) /\
    blen held <= 4 /\ rewritten (new_line h) (concat ps) (o0 ++ held) /\ o = ntake k o0 /\
    (f = true <-> k < blen o0) /\ (f = false -> ns = map blen ps).
Proof.
  unfold set_host. destruct (200 <? blen h); [done|]. intros [= <-].
  assert (hinv (host_line h) (mkHtask (Some []) false false true) [] []) as Hi.
  { apply (HStart _ [] []); [by left|apply host_free_nil|rewrite blen_nil; lia]. }
  destruct (hwrites_cap (host_line h) room ps _ _ _ k Hi) as (ns & f & t' & o & t0 & o0 & He & H0 & HF & Hf0 & Hf1).
  destruct (hwrites_ok (host_line h) room ps _ _ _ Hi) as (t0' & o0' & He' & Hi').
  rewrite H0 in He'. injection He' as -> ->. cbn [app] in Hi'.
  apply hinv_rewritten in Hi' as (held & Hl & Hr & _).
  exists ns, f, t', o, o0', held. split; [done|]. split; [done|]. split; [done|]. split; [done|].
  destruct f.
  - destruct (Hf1 eq_refl) as [Hk ->]. done.
  - destruct (Hf0 eq_refl) as (-> & _ & -> & Hk). split; [by rewrite ntake_all by lia|].
    split; [|done]. split; [done|lia].
Qed.

(* Refuted: the held-back bytes of a request without Host header are never forwarded, and whether there are any
   depends on the split.  "G\r\n" ++ "\r\n" in one write goes out whole; in two writes the empty line is lost. *)
Theorem C34_held_back_forever_refuted : exists t, set_host [97] = Some t /\
  (exists t', hwrites (host_line [97]) 4000 not_reused t None [[71; 71; 71; 13; 10; 13; 10]] = ([7], false, t', [71; 71; 71; 13; 10; 13; 10])) /\
  (exists t', hwrites (host_line [97]) 4000 not_reused t None [[71; 71; 71; 13; 10]; [13; 10]] = ([5; 2], false, t', [71; 71; 71; 13; 10])).
Proof. eexists. split; [reflexivity|]. split; eexists; vm_compute; reflexivity. Qed.

(* Refuted: when the split is inside "Host:", the rest of the request is written from a buffer that was already given
   back to the pool (client/task.go 183-187); whoever reuses it changes the request. *)
Theorem C34_reused_buffer_refuted : exists t steal ps t' o,
  (forall q, length (steal q) = length q) /\ set_host [97] = Some t /\
  hwrites (host_line [97]) 4000 steal t None ps = (map blen ps, false, t', o) /\
  ~ host_free (concat ps) /\ ~ rewritten (new_line [97]) (concat ps) o.
Proof.
  eexists _, (map (fun _ => 0)), [[72; 111]; [115; 116; 58; 98; 10; 120; 121]], _, _.
  split; [intros q; apply map_length|]. split; [reflexivity|].
  split; [vm_compute; reflexivity|].
  split.
  - intros H. apply (H [] [72; 111; 115; 116; 58; 98; 10; 120; 121]); [done|by left|by exists [98; 10; 120; 121]].
  - intros H. assert (rewritten (new_line [97]) (concat [[72; 111]; [115; 116; 58; 98; 10; 120; 121]]) (new_line [97] ++ [120; 121])) as H'.
    { right. exists [], [72; 111; 115; 116; 58; 98; 10], [120; 121]. split; [done|]. split; [by left|].
      split; [apply host_free_nil|]. split; [by exists [98; 10]|]. split; [done|]. left.
      exists [72; 111; 115; 116; 58; 98]. split; [done|]. unfold NL. set_solver. }
    pose proof (rewritten_fun _ _ _ _ H H') as E. by vm_compute in E.
Qed.

Print Assumptions C34_rewrite_partial.
Print Assumptions C34_chunking_independent.
Print Assumptions C34_failing_destination.
Print Assumptions C34_held_back_forever_refuted.
Print Assumptions C34_reused_buffer_refuted.
