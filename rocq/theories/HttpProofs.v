(* HttpProofs.v -- lemmas for C31-C33 *)
From Verif Require Import GoBase GoBaseLemmas BufioModel BufioProofs HostRewriteSpec HostRewriteModel HostRewriteProofs HttpSpec HttpModel.
Local Open Scope N_scope.

Lemma ntake_full {A} (l : list A) : ntake (blen l) l = l.
Proof. apply ntake_all. lia. Qed.
Lemma ntake_snoc_nth {A} k (l : list A) p x : k <= blen l -> ntake k l = p ++ [x] -> nnth (k - 1) l = Some x /\ 1 <= k.
Proof.
  intros Hk Ht. assert (blen (ntake k l) = blen p + 1) as Hl by (rewrite Ht, blen_app; done).
  rewrite blen_ntake in Hl. split; [|lia]. unfold nnth. rewrite <- (ntake_ndrop k l), Ht.
  rewrite <- app_assoc. apply list_lookup_middle. unfold blen in *. lia.
Qed.
Lemma last_line_unique p1 l1 p2 l2 : line_start p1 -> NL ∉ l1 -> line_start p2 -> NL ∉ l2 ->
  p1 ++ l1 = p2 ++ l2 -> p1 = p2 /\ l1 = l2.
Proof.
  intros H1 Hn1 H2 Hn2 He.
  assert (forall p q l r : bytes, line_start p -> NL ∉ r -> p ++ l = q ++ r -> forall k, p = q ++ k -> k = []) as Hk.
  { intros p q l r Hp Hr E k ->. rewrite <- app_assoc in E. apply app_inv_head in E. subst r.
    destruct (last k) eqn:Hl; [|by apply last_None in Hl]. destruct Hp as [Hp|Hp]; [by apply app_nil in Hp as [_ ->]|].
    rewrite last_app, Hl in Hp. injection Hp as ->. apply last_mem in Hl. set_solver. }
  pose proof He as E. apply app_eq_inv in E as [(k & -> & ->)|(k & -> & ->)].
  - assert (k = []) as -> by (by apply (Hk (p2 ++ k) p2 l1 (k ++ l1))). by rewrite app_nil_r.
  - assert (k = []) as -> by (by apply (Hk (p1 ++ k) p1 l2 (k ++ l2))). by rewrite app_nil_r.
Qed.

Section H.
Context (trim : bytes -> bytes) (target : bytes).
Notation decision_at := (decision_at trim target).
Notation decided := (decided trim target).

Lemma decision_at_app s x k r : k <= blen s -> decision_at (s ++ x) k r <-> decision_at s k r.
Proof.
  intros Hk. unfold HttpSpec.decision_at. rewrite ntake_app_le by done.
  split; intros (pre & line & H & Hr); exists pre, line; (split; [blens; lia|done]).
Qed.
Lemma decision_at_le s k r : decision_at s k r -> k <= blen s /\ nnth (k - 1) s = Some NL /\ 1 <= k.
Proof.
  intros (pre & line & Hk & Ht & _). rewrite app_assoc in Ht. split; [done|]. by apply (ntake_snoc_nth k s (pre ++ line)).
Qed.
Lemma decision_at_fun s k r r' : decision_at s k r -> decision_at s k r' -> r = r'.
Proof.
  intros (p1 & l1 & Hk & Ht1 & Hl1 & Hn1 & Hr1) (p2 & l2 & _ & Ht2 & Hl2 & Hn2 & Hr2).
  rewrite Ht1 in Ht2. rewrite !app_assoc in Ht2. apply app_inj_2 in Ht2 as [He _]; [|done].
  apply last_line_unique in He as [-> ->]; [|done..].
  destruct Hr1 as [(w1 & -> & Hw1)|(Hp1 & Hs1 & ->)], Hr2 as [(w2 & Hw & Hw2)|(Hp2 & Hs2 & ->)].
  - apply app_inv_head in Hw as ->. destruct Hw1 as [[? ->]|[? ->]], Hw2 as [[? ->]|[? ->]]; done.
  - exfalso. apply Hp2. by apply prefix_app_r.
  - exfalso. apply Hp1. rewrite Hw. by apply prefix_app_r.
  - done.
Qed.
Lemma decided_app s x k r : k <= blen s -> decided (s ++ x) k r <-> decided s k r.
Proof.
  intros Hk. unfold HttpSpec.decided. rewrite decision_at_app by done.
  split; intros [H H']; split; try done; intros k' r' Hk' Hd; apply (H' k' r' Hk').
  - rewrite decision_at_app; [done|lia].
  - rewrite decision_at_app in Hd; [done|lia].
Qed.
Lemma decided_fun s k r k' r' : decided s k r -> decided s k' r' -> k = k' /\ r = r'.
Proof.
  intros [H1 H2] [H1' H2'].
  destruct (N.lt_trichotomy k k') as [Hk|[->|Hk]].
  - by destruct (H2' k r Hk).
  - split; [done|]. by apply (decision_at_fun s k').
  - by destruct (H2 k' r' Hk).
Qed.

Lemma prefix_take_eq {A} (t l : list A) : blen t <= blen l -> ntake (blen t) l = t <-> t `prefix_of` l.
Proof.
  intros Hl. split.
  - intros <-. exists (ndrop (blen t) l). by rewrite ntake_ndrop.
  - intros [k ->]. by apply ntake_app.
Qed.

Lemma rd32_crlf a b c d : is_byte a -> is_byte b -> is_byte c -> is_byte d ->
  rd32 a b c d =? 0x0D0A0D0A = bool_decide ([a; b; c; d] = CRLFCRLF).
Proof.
  intros Ha Hb Hc Hd. rewrite rd32_val by done. unfold is_byte, CRLFCRLF in *. change 0x0D0A0D0A with 218762506.
  destruct (N.eqb_spec (a * 16777216 + b * 65536 + c * 256 + d) 218762506) as [E|E]; symmetry.
  - apply bool_decide_eq_true. assert (a = 13 /\ b = 10 /\ c = 13 /\ d = 10) as (-> & -> & -> & ->) by lia. done.
  - apply bool_decide_eq_false. intros [= -> -> -> ->]. apply E. done.
Qed.

Lemma end_test headers p b rest : all_bytes headers -> headers = p ++ b :: rest ->
  (3 <=? blen p) && (match ndrop (blen p - 3) headers with
                     | h3 :: h2 :: h1 :: h0 :: _ => rd32 h3 h2 h1 h0 =? 0x0D0A0D0A | _ => false end)
  = bool_decide (CRLFCRLF `suffix_of` (p ++ [b])).
Proof.
  intros Hb ->. destruct (N.leb_spec 3 (blen p)) as [H3|H3]; cbn [andb]; symmetry.
  - rewrite ndrop_app_le by lia. set (m := ndrop (blen p - 3) p).
    assert (blen m = 3) as Hm by (unfold m; rewrite blen_ndrop; lia).
    assert (p = ntake (blen p - 3) p ++ m) as Hp by (by rewrite <- (ntake_ndrop (blen p - 3) p) at 1).
    clearbody m. destruct m as [|x [|y [|z [|]]]]; try (exfalso; revert Hm; unfold blen; cbn; lia).
    cbn [app]. set (q := ntake (blen p - 3) p) in *. clearbody q. subst p.
    apply Forall_app in Hb as [Hb1 Hb2]. apply Forall_app in Hb1 as [_ Hb1].
    rewrite !Forall_cons in Hb1. destruct Hb1 as (Hx & Hy & Hz & _). apply Forall_cons_1 in Hb2 as [Hb2 _].
    rewrite rd32_crlf by done. apply bool_decide_ext. split.
    + intros [k Hk]. assert ((q ++ [x; y; z]) ++ [b] = k ++ CRLFCRLF) as Hk' by done.
      rewrite <- app_assoc in Hk'. apply app_inj_2 in Hk' as [_ He]; done.
    + intros He. exists q. rewrite <- app_assoc. cbn. by rewrite He.
  - apply bool_decide_eq_false. intros [k Hk]. assert (blen (p ++ [b]) = blen (k ++ CRLFCRLF)) as E by (by rewrite Hk).
    rewrite !blen_app in E. change (blen CRLFCRLF) with 4 in E. change (blen [b]) with 1 in E. lia.
Qed.

Lemma hscan_ok rest headers pre cur : all_bytes headers -> headers = pre ++ cur ++ rest -> NL ∉ cur -> line_start pre ->
  (forall k r, k <= blen (pre ++ cur) -> ~ decision_at headers k r) ->
  match hscan trim target headers (blen pre) (blen (pre ++ cur)) rest with
  | VDec d => exists k, decided headers k d
  | VMore => forall k r, ~ decision_at headers k r
  end.
Proof.
  revert pre cur. induction rest as [|b rest IH]; intros pre cur Hbytes Hh Hn Hls Hno; cbn [hscan].
  { intros k r Hd. pose proof (decision_at_le _ _ _ Hd) as [Hk _]. apply (Hno k r); [|done].
    rewrite app_nil_r in Hh. by rewrite <- Hh. }
  assert (Hnth : nnth (blen (pre ++ cur)) headers = Some b).
  { rewrite Hh, app_assoc. unfold nnth. apply list_lookup_middle. by rewrite blen_length. }
  assert (Hlen : blen (pre ++ cur) + 1 <= blen headers).
  { rewrite Hh. blens. lia. }
  destruct (N.eqb_spec b NL) as [->|Hb].
  - assert (Htk : ntake (blen (pre ++ cur) + 1) headers = pre ++ cur ++ [NL]).
    { rewrite Hh. replace (pre ++ cur ++ NL :: rest) with ((pre ++ cur ++ [NL]) ++ rest) by (by rewrite <- !app_assoc).
      apply ntake_app. blens. change (blen [NL]) with 1. lia. }
    assert (Hdrop : ndrop (blen pre) headers = cur ++ NL :: rest) by (rewrite Hh; by apply ndrop_app).
    assert (Hdec : forall d, decision_at headers (blen (pre ++ cur) + 1) d -> exists k, decided headers k d).
    { intros d Hd. eexists. split; [exact Hd|]. intros k' r' Hk'. apply Hno. lia. }
    assert (Htest : (blen target <=? blen (pre ++ cur) - blen pre) && bool_decide (ntake (blen target) (ndrop (blen pre) headers) = target)
       = bool_decide (target `prefix_of` cur)).
    { rewrite Hdrop, blen_app. replace (blen pre + blen cur - blen pre) with (blen cur) by lia.
      destruct (N.leb_spec (blen target) (blen cur)) as [Hl|Hl]; cbn [andb].
      - rewrite ntake_app_le by done. apply bool_decide_ext. by apply prefix_take_eq.
      - symmetry. apply bool_decide_eq_false. intros Hp. apply prefix_length_N in Hp. lia. }
    rewrite Htest; clear Htest. destruct (bool_decide_reflect (target `prefix_of` cur)) as [Hp|Hp].
    + destruct Hp as [w ->].
      assert (ntake (blen (pre ++ target ++ w) - (blen pre + blen target)) (ndrop (blen pre + blen target) headers) = w) as ->.
      { rewrite <- ndrop_ndrop, Hdrop, <- app_assoc, ndrop_app by done. apply ntake_app. blens. lia. }
      destruct (N.ltb_spec (blen (trim w)) 1) as [H1|H1]; cbn [orb].
      { apply Hdec. exists pre, (target ++ w). split; [done|]. split; [done|]. split; [done|]. split; [done|].
        left. exists w. split; [done|]. right. split; [lia|done]. }
      destruct (N.ltb_spec 512 (blen (trim w))) as [H2|H2].
      { apply Hdec. exists pre, (target ++ w). split; [done|]. split; [done|]. split; [done|]. split; [done|].
        left. exists w. split; [done|]. right. split; [lia|done]. }
      { apply Hdec. exists pre, (target ++ w). split; [done|]. split; [done|]. split; [done|]. split; [done|].
        left. exists w. split; [done|]. left. split; [lia|done]. }
    + rewrite (end_test headers (pre ++ cur) NL rest) by (try done; by rewrite <- app_assoc).
      case_bool_decide as Hs.
      { apply Hdec. exists pre, cur. split; [done|]. split; [done|]. split; [done|]. split; [done|].
        right. split; [done|]. split; [by rewrite <- app_assoc in Hs|done]. }
      destruct (N.ltb_spec (blen (pre ++ cur)) (blen headers)) as [_|]; [|lia].
      assert (IH' := IH (pre ++ cur ++ [NL]) []).
      replace (blen (pre ++ cur ++ [NL])) with (blen (pre ++ cur) + 1) in IH' by (blens; change (blen [NL]) with 1; lia).
      rewrite app_nil_r in IH'.
      replace (blen (pre ++ cur ++ [NL])) with (blen (pre ++ cur) + 1) in IH' by (blens; change (blen [NL]) with 1; lia).
      apply IH'; [done| |set_solver| |].
      * rewrite Hh. by rewrite <- !app_assoc.
      * rewrite app_assoc. apply line_start_nl.
      * intros k r Hk Hd. destruct (decide (k = blen (pre ++ cur) + 1)) as [->|Hne]; [|apply (Hno k r); [lia|done]].
        destruct Hd as (p2 & l2 & _ & Ht2 & Hl2 & Hn2 & Hr2). rewrite Htk in Ht2.
        rewrite !app_assoc in Ht2. apply app_inj_2 in Ht2 as [He _]; [|done].
        apply last_line_unique in He as [<- <-]; [|done..].
        destruct Hr2 as [(w2 & -> & _)|(_ & Hs2 & _)]; [apply Hp; by apply prefix_app_r|].
        apply Hs. by rewrite <- app_assoc.
  - assert (IH' := IH pre (cur ++ [b])).
    replace (blen (pre ++ cur ++ [b])) with (blen (pre ++ cur) + 1) in IH' by (blens; change (blen [b]) with 1; lia).
    apply IH'; [done| |set_solver|done|].
    + by rewrite Hh, <- app_assoc.
    + intros k r Hk Hd. destruct (decide (k = blen (pre ++ cur) + 1)) as [->|Hne]; [|apply (Hno k r); [lia|done]].
      apply decision_at_le in Hd as (_ & Hd & _). rewrite N.add_sub in Hd. rewrite Hd in Hnth. congruence.
Qed.

Lemma hscan_spec headers : all_bytes headers ->
  match hscan trim target headers 0 0 headers with
  | VDec d => exists k, decided headers k d
  | VMore => forall k r, ~ decision_at headers k r
  end.
Proof.
  intros Hb. apply (hscan_ok headers headers [] []); [done|done|set_solver|by left|].
  intros k r Hk Hd. apply decision_at_le in Hd as (_ & _ & H1). change (blen ([] ++ [])) with 0 in Hk. lia.
Qed.
End H.

(* the bytes of a stream that arrive before its first error (or its end) *)
Fixpoint lead (s : stream) : bytes := match s with B b :: s => b :: lead s | _ => [] end.
(* that error *)
Fixpoint lead_err (s : stream) : err := match s with B _ :: s => lead_err s | E e :: _ => e | [] => EEOF end.

Lemma lead_app d s : lead (map B d ++ s) = d ++ lead s.
Proof. induction d as [|x d IH]; cbn; [done|]. by rewrite IH. Qed.
Lemma lead_all_bytes s : Forall item_ok s -> all_bytes (lead s).
Proof.
  induction s as [|[b|e] s IH]; intros H; cbn; [constructor| |constructor].
  apply Forall_cons_1 in H as [Hb H]. constructor; [done|by apply IH].
Qed.
Lemma s_take_lead n s d e r : s_take n s = (d, Some e, r) -> d = lead s /\ e = lead_err s /\ (length d < n)%nat.
Proof.
  revert s d r; induction n as [|n IH]; intros s d r; cbn; [done|].
  destruct s as [|[b|e'] s]; cbn; [intros [= <- <- <-]; split; [done|]; split; [done|cbn; lia]| |intros [= <- <- <-]; split; [done|]; split; [done|cbn; lia]].
  destruct (s_take n s) as [[d' e''] r'] eqn:Ht. intros [= <- -> ->].
  apply IH in Ht as (-> & -> & Hl). split; [done|]. split; [done|]. cbn. lia.
Qed.

Lemma peek_buffered cap b : r_ok cap b -> peek cap (blen (rbuf b)) b = Some (rbuf b, None, b).
Proof.
  intros (Hn & Hok & Hb). unfold peek. 
  assert (forall f, peek_fill cap f (blen (rbuf b)) b = Some b) as ->.
  { intros f. destruct f; cbn [peek_fill]; rewrite N.ltb_irrefl; done. }
  destruct (N.ltb_spec cap (blen (rbuf b))); [lia|]. rewrite N.ltb_irrefl. by rewrite ntake_full.
Qed.
Lemma peek_more cap n b : 0 < cap -> r_ok cap b -> n <= cap ->
  exists d e b', peek cap n b = Some (d, e, b') /\ r_ok cap b' /\
    match e with
    | None => n <= blen (rbuf b') /\ r_stream b' = r_stream b
    | Some e => rbuf b' = lead (r_stream b) /\ e = lead_err (r_stream b) /\ blen (lead (r_stream b)) < n
    end.
Proof.
  intros Hcap Hb Hn. unfold peek.
  destruct (peek_fill_spec cap Hcap (S (length (rsrc b)) + N.to_nat n) n b) as (b' & -> & Hok & Hlen & Hc);
    [done|done|lia|].
  destruct (N.ltb_spec cap n); [lia|].
  destruct (rerr b') as [e|] eqn:He.
  - destruct Hc as [Hlt Ht]. destruct (N.ltb_spec (blen (rbuf b')) n); [|lia].
    unfold readErr. rewrite He. eexists _, _, _; split; [done|]. split; [done|].
    apply s_take_lead in Ht as (<- & <- & Hl). done.
  - destruct Hc as [Hge Hs]. destruct (N.ltb_spec (blen (rbuf b')) n); [lia|].
    eexists _, _, _; split; [done|]. split; [done|]. done.
Qed.

Section L.
Context (cap : N) (trim : bytes -> bytes) (target : bytes) (Hcap : 2049 <= cap).

Definition res_of (d : hdec) : bytes + herr :=
  match d with DValue v => inl v | DBadLen => inr HInvalidHeaderLength | DEnd => inr HEOF end.

Lemma peek_header_loop_spec fuel b : r_ok cap b -> Forall item_ok (r_stream b) -> (2050 < fuel + N.to_nat (blen (rbuf b)))%nat -> (0 < fuel)%nat ->
  let L := lead (r_stream b) in
  exists res b', peek_header_loop cap trim target fuel b = Some (res, b') /\ r_ok cap b' /\
    ((exists d k, res = res_of d /\ decided trim target L k d /\ k <= cap /\ r_stream b' = r_stream b) \/
     (res = inr HInvalidHTTPProtocol /\ r_stream b' = r_stream b /\ 2048 < blen L /\ forall k r, decision_at trim target L k r -> 2049 < k) \/
     (res = inr (HRead (lead_err (r_stream b))) /\ (forall k r, ~ decision_at trim target L k r) /\ blen L <= 2048)).
Proof.
  revert b; induction fuel as [|fuel IH]; intros b Hok Hit Hf Hf0 L; [lia|].
  cbn [peek_header_loop]. rewrite peek_buffered by done.
  assert (HL : L = rbuf b ++ lead (src_stream (rsrc b))) by (unfold L, r_stream; apply lead_app).
  assert (Hbb : all_bytes (rbuf b)).
  { pose proof (lead_all_bytes _ Hit) as Ha. fold L in Ha. rewrite HL in Ha. by apply Forall_app in Ha as [Ha _]. }
  assert (Hbc : blen (rbuf b) <= cap) by (by destruct Hok as (_ & _ & ?)).
  pose proof (hscan_spec trim target (rbuf b) Hbb) as Hs.
  destruct (hscan trim target (rbuf b) 0 0 (rbuf b)) as [d|].
  { destruct Hs as [k Hd]. assert (k <= blen (rbuf b)) as Hk by (destruct Hd as [Hd _]; by apply decision_at_le in Hd as [? _]).
    assert (decided trim target L k d) as Hd' by (rewrite HL; by apply decided_app).
    exists (res_of d), b. split; [by destruct d|]. split; [done|]. left. exists d, k. split; [done|]. split; [done|]. split; [lia|done]. }
  destruct (N.ltb_spec 2048 (blen (rbuf b))) as [Hn|Hn].
  { eexists _, b. split; [done|]. split; [done|]. right. left. split; [done|]. split; [done|]. split; [rewrite HL, blen_app; lia|].
    intros k r Hd. destruct (N.le_gt_cases k 2049) as [Hk|Hk]; [|done]. exfalso. apply (Hs k r).
    rewrite HL in Hd. rewrite decision_at_app in Hd; [done|lia]. }
  destruct (peek_more cap (blen (rbuf b) + 1) b) as (d & e & b' & -> & Hok' & He); [lia|done|lia|].
  destruct e as [e|].
  - destruct He as (Hr & -> & Hl). eexists _, b'. split; [done|]. split; [done|]. right. right.
    split; [done|]. fold L in Hl. assert (L = rbuf b) as HL'.
    { rewrite HL in Hl |- *. rewrite blen_app in Hl. rewrite (blen_0 (lead (src_stream (rsrc b)))) by lia. by rewrite app_nil_r. }
    rewrite HL'. split; [done|lia].
  - destruct He as (Hl & Hst).
    destruct (IH b') as (res & b'' & -> & Hok'' & Hres); [done|by rewrite Hst|lia|lia|].
    rewrite Hst in Hres. eexists _, _. split; [done|]. split; [done|]. exact Hres.
Qed.

Lemma peek_header_spec b : r_ok cap b -> Forall item_ok (r_stream b) ->
  let L := lead (r_stream b) in
  exists res b', peek_header cap trim target b = Some (res, b') /\ r_ok cap b' /\
    ((exists d k, res = res_of d /\ decided trim target L k d /\ k <= cap /\ r_stream b' = r_stream b) \/
     (res = inr HInvalidHTTPProtocol /\ r_stream b' = r_stream b /\ 2048 < blen L /\ forall k r, decision_at trim target L k r -> 2049 < k) \/
     (res = inr (HRead (lead_err (r_stream b))) /\ (forall k r, ~ decision_at trim target L k r) /\ blen L <= 2048)).
Proof. intros H1 H2. apply peek_header_loop_spec; [done|done| |]; lia. Qed.
End L.

(* ---- C32 ---- *)
Lemma parse_id_spec host id : parse_id_from_host host = Some id <-> host_denotes host id.
Proof.
  unfold parse_id_from_host, host_denotes.
  assert (forall l r, DOT ∉ l -> index_byte DOT (l ++ DOT :: r) = Some (blen l)) as Hix.
  { induction l as [|x l IH]; intros r Hn; cbn [app index_byte].
    - by rewrite N.eqb_refl.
    - destruct (N.eqb_spec x DOT) as [->|Hx]; [set_solver|]. rewrite IH by set_solver. f_equal. rewrite blen_cons. lia. }
  assert (forall l r, ndrop (blen l + 1) (l ++ DOT :: r) = r) as Hdr.
  { intros l r. replace (l ++ DOT :: r) with ((l ++ [DOT]) ++ r) by (by rewrite <- app_assoc).
    apply ndrop_app. rewrite blen_app. done. }
  split.
  - destruct (index_byte DOT host) as [i|] eqn:Hi; [|done].
    apply index_byte_some in Hi as (l & r & -> & <- & Hl).
    destruct (_ <=? _) eqn:Hle; [done|]. rewrite Hdr.
    destruct (index_byte DOT r) as [j|] eqn:Hj; [|done].
    apply index_byte_some in Hj as (l2 & r2 & -> & <- & Hl2).
    destruct (N.leb_spec (blen l2) 0) as [H0|H0]; [done|]. intros [= <-]. rewrite ntake_app by done.
    exists l2, r2. split; [done|]. split; [done|]. split; [done|]. intros ->. by vm_compute in H0.
  - intros (l2 & r2 & -> & H1 & H2 & H3). cbn [app]. rewrite Hix by done.
    destruct (N.leb_spec (blen (id ++ DOT :: l2 ++ DOT :: r2)) (blen id + 1)) as [Hle|Hle].
    { revert Hle. blens. lia. }
    rewrite Hdr, Hix by done. destruct (N.leb_spec (blen l2) 0) as [H0|H0].
    { exfalso. apply H3, blen_0. lia. }
    f_equal. by apply ntake_app.
Qed.

(* ---- C33 ---- *)
Lemma nnth_lt {A} i (l : list A) : i < blen l -> exists x, nnth i l = Some x.
Proof. intros H. apply lookup_lt_is_Some. unfold blen in H. lia. Qed.
Lemma at_safe buf i k : i < blen buf -> (forall x, k x <> TPanic) -> at_ buf i k <> TPanic.
Proof. intros Hi Hk. unfold at_. destruct (nnth_lt i buf Hi) as [x ->]. apply Hk. Qed.
Lemma at16_safe buf i k : i + 1 < blen buf -> (forall x, k x <> TPanic) -> at16 buf i k <> TPanic.
Proof. intros Hi Hk. unfold at16. apply at_safe; [lia|]. intros lo. apply at_safe; [lia|]. intros hi. apply Hk. Qed.

Lemma ext_loop_safe fuel buf i el : (length buf < fuel + N.to_nat i)%nat -> (0 < fuel)%nat -> ext_loop fuel buf i el <> TPanic.
Proof.
  revert i el; induction fuel as [|fuel IH]; intros i el Hf Hf0; [lia|]. cbn [ext_loop].
  destruct (_ =? 0); [done|]. destruct (N.ltb_spec (blen buf) (i + 2)); [done|].
  apply at16_safe; [lia|]. intros ty. destruct (N.ltb_spec (blen buf) (i + 2 + 2)); [done|].
  apply at16_safe; [lia|]. intros len. destruct (negb _).
  { apply IH; unfold blen in *; lia. }
  cbn zeta. destruct (N.ltb_spec (blen buf) (i + 4 + 2 + 1)); [done|]. apply at_safe; [lia|].
  intros nt. destruct (negb _); [done|]. destruct (N.ltb_spec (blen buf) (i + 4 + 2 + 1 + 2)); [done|].
  apply at16_safe; [lia|]. intros nl. destruct (_ <? _); done.
Qed.
Lemma tls_scan_safe buf : tls_scan buf <> TPanic.
Proof.
  unfold tls_scan. cbn zeta. destruct (N.ltb_spec (blen buf) (0 + 1)); [done|]. apply at_safe; [lia|]. intros rt.
  destruct (negb _); [done|]. destruct (N.ltb_spec (blen buf) (1 + (2 + 2) + 1)); [done|]. apply at_safe; [lia|]. intros ht.
  destruct (negb _); [done|]. destruct (N.ltb_spec (blen buf) (1 + (2 + 2) + 1 + (3 + 2 + 32) + 1)); [done|]. apply at_safe; [lia|]. intros sl.
  destruct (N.ltb_spec (blen buf) (1 + (2 + 2) + 1 + (3 + 2 + 32) + (1 + sl) + 2)); [done|]. apply at16_safe; [lia|]. intros cl.
  destruct (N.ltb_spec (blen buf) (1 + (2 + 2) + 1 + (3 + 2 + 32) + (1 + sl) + (2 + cl) + 1)); [done|]. apply at_safe; [lia|]. intros ml.
  destruct (N.ltb_spec (blen buf) (1 + (2 + 2) + 1 + (3 + 2 + 32) + (1 + sl) + (2 + cl) + (1 + ml) + 2)); [done|]. apply at16_safe; [lia|].
  intros el. apply ext_loop_safe; lia.
Qed.

(* a returned name is part of the buffer *)
Lemma at_name buf i k n : at_ buf i k = TName n -> exists x, k x = TName n.
Proof. unfold at_. destruct (nnth i buf); [eauto|done]. Qed.
Lemma at16_name buf i k n : at16 buf i k = TName n -> exists x, k x = TName n.
Proof. intros H. apply at_name in H as [x H]. apply at_name in H as [y H]. eauto. Qed.
Lemma ext_loop_name fuel buf i el n : ext_loop fuel buf i el = TName n -> exists pre post, buf = pre ++ n ++ post.
Proof.
  revert i el; induction fuel as [|fuel IH]; intros i el; [done|]. cbn [ext_loop].
  destruct (_ =? 0); [done|]. destruct (_ <? _); [done|]. intros H. apply at16_name in H as [ty H].
  destruct (_ <? _); [done|]. apply at16_name in H as [len H]. destruct (negb _); [by apply IH in H|].
  cbn zeta in H. destruct (_ <? _); [done|]. apply at_name in H as [nt H]. destruct (negb _); [done|].
  destruct (_ <? _); [done|]. apply at16_name in H as [nl H]. destruct (_ <? _); [done|]. injection H as <-.
  set (j := i + 4 + 2 + 1 + 2). exists (ntake j buf), (ndrop nl (ndrop j buf)). by rewrite !ntake_ndrop.
Qed.

Lemma at_here pre x post k i : i = blen pre -> at_ (pre ++ x :: post) i k = k x.
Proof. intros ->. unfold at_, nnth. rewrite list_lookup_middle; [done|]. by rewrite blen_length. Qed.
Lemma at16_here pre v post k i : v < 65536 -> i = blen pre -> at16 (pre ++ be16 v ++ post) i k = k v.
Proof.
  intros Hv ->. unfold at16, be16. cbn [app].
  replace (pre ++ u8 (N.shiftr v 8) :: u8 v :: post) with ((pre ++ [u8 (N.shiftr v 8)]) ++ u8 v :: post) by (by rewrite <- app_assoc).
  rewrite at_here by (rewrite blen_app; done). rewrite <- app_assoc. cbn [app].
  rewrite at_here by done. by rewrite rd16_be16.
Qed.

Lemma ext_loop_find fuel pre exts listlen name more post fin el :
  (length exts < fuel)%nat ->
  Forall (fun e => fst e <> 0 /\ fst e < 65536 /\ blen (snd e) < 65536) exts -> blen listlen = 2 -> blen name < 65536 ->
  blen (sni_body listlen name more) < 65536 ->
  blen (concat (map ext_bytes exts)) + 4 <= el ->
  ext_loop fuel (pre ++ concat (map ext_bytes exts) ++ ext_bytes (0, sni_body listlen name more) ++ post ++ fin) (blen pre) el = TName name.
Proof.
  revert pre exts el; induction fuel as [|fuel IH]; intros pre exts el Hf Hx Hll Hn Hb Hel; [lia|].
  destruct exts as [|[ty d] exts]; cbn [map concat] in *.
  - cbn [app]. cbn [ext_loop]. destruct (N.eqb_spec el 0); [blens; lia|].
    unfold ext_bytes at 1 2 3 4 5 6 7 8. cbn [fst snd]. unfold vec16 at 1 2 3 4 5 6 7 8.
    set (body := sni_body listlen name more) in *.
    assert (Hbl : blen body = 2 + 1 + (2 + blen name) + blen more).
    { unfold body, sni_body, vec16. rewrite !blen_app, blen_be16. change (blen [0]) with 1. lia. }
    set (buf := pre ++ _).
    assert (Hbuf : blen buf = blen pre + (2 + 2 + blen body) + blen post + blen fin).
    { unfold buf. rewrite !blen_app, !blen_be16. lia. }
    destruct (N.ltb_spec (blen buf) (blen pre + 2)); [lia|].
    unfold buf at 1. rewrite <- !app_assoc. rewrite at16_here by (try done; lia).
    destruct (N.ltb_spec (blen buf) (blen pre + 2 + 2)); [lia|].
    replace buf with ((pre ++ be16 0) ++ be16 (blen body) ++ body ++ post ++ fin) at 1 by (unfold buf; by rewrite <- !app_assoc).
    rewrite at16_here by (try done; rewrite blen_app, blen_be16; lia).
    change (negb (0 =? 0)) with false. cbn iota zeta.
    destruct (N.ltb_spec (blen buf) (blen pre + 4 + 2 + 1)); [lia|].
    assert (Hbuf2 : buf = (pre ++ be16 0 ++ be16 (blen body) ++ listlen) ++ 0 :: (vec16 name ++ more ++ post ++ fin)).
    { unfold buf, body, sni_body. by rewrite <- !app_assoc. }
    rewrite Hbuf2 at 1. rewrite at_here by (rewrite !blen_app, !blen_be16; lia).
    change (negb (0 =? 0)) with false. cbn iota.
    destruct (N.ltb_spec (blen buf) (blen pre + 4 + 2 + 1 + 2)); [lia|].
    assert (Hbuf3 : buf = ((pre ++ be16 0 ++ be16 (blen body) ++ listlen) ++ [0]) ++ be16 (blen name) ++ name ++ more ++ post ++ fin).
    { rewrite Hbuf2. unfold vec16. by rewrite <- !app_assoc. }
    rewrite Hbuf3 at 1. rewrite at16_here by (try done; rewrite !blen_app, !blen_be16; change (blen [0]) with 1; lia).
    destruct (N.ltb_spec (blen buf) (blen pre + 4 + 2 + 1 + 2 + blen name)); [lia|].
    f_equal. rewrite Hbuf3.
    replace ((pre ++ be16 0 ++ be16 (blen body) ++ listlen) ++ [0]) with ((pre ++ be16 0 ++ be16 (blen body) ++ listlen) ++ [0]) by done.
    rewrite app_assoc. rewrite ndrop_app by (rewrite !blen_app, !blen_be16; change (blen [0]) with 1; lia).
    by apply ntake_app.
  - apply Forall_cons_1 in Hx as [(Hty & Hty2 & Hd) Hx]. cbn [fst snd] in *.
    cbn [ext_loop]. assert (Heb : blen (ext_bytes (ty, d)) = 4 + blen d).
    { unfold ext_bytes, vec16. cbn [fst snd]. rewrite !blen_app, !blen_be16. lia. }
    rewrite blen_app in Hel. destruct (N.eqb_spec el 0); [lia|].
    set (R := concat (map ext_bytes exts) ++ ext_bytes (0, sni_body listlen name more) ++ post ++ fin).
    assert (Hbuf : pre ++ (ext_bytes (ty, d) ++ concat (map ext_bytes exts)) ++ ext_bytes (0, sni_body listlen name more) ++ post ++ fin
      = pre ++ be16 ty ++ be16 (blen d) ++ d ++ R).
    { unfold ext_bytes at 1, vec16, R. cbn [fst snd]. by rewrite <- !app_assoc. }
    rewrite Hbuf. set (buf := pre ++ _).
    assert (Hbl : blen buf = blen pre + 4 + blen d + blen R) by (unfold buf; rewrite !blen_app, !blen_be16; lia).
    destruct (N.ltb_spec (blen buf) (blen pre + 2)); [lia|].
    unfold buf at 1. rewrite at16_here by done.
    destruct (N.ltb_spec (blen buf) (blen pre + 2 + 2)); [lia|].
    replace buf with ((pre ++ be16 ty) ++ be16 (blen d) ++ d ++ R) at 1 by (unfold buf; by rewrite <- !app_assoc).
    rewrite at16_here by (try done; rewrite blen_app, blen_be16; lia).
    destruct (N.eqb_spec ty 0); [done|]. cbn [negb].
    replace buf with ((pre ++ be16 ty ++ be16 (blen d) ++ d) ++ R) by (unfold buf; by rewrite <- !app_assoc).
    replace (blen pre + 4 + blen d) with (blen (pre ++ be16 ty ++ be16 (blen d) ++ d)) by (rewrite !blen_app, !blen_be16; lia).
    apply IH; [cbn in Hf; lia|done..|]. lia.
Qed.
