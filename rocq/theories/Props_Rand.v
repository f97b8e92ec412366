(* Props_Rand.v -- C62: secrets and keys gt makes up. *)
From Coq Require Import Strings.String.
From Verif Require Import GoBase FlagsModel RandModel.
Local Open Scope N_scope.

(* ---- specification ---- *)
Definition alnum (b : N) : Prop := 97 <= b <= 122 \/ 65 <= b <= 90 \/ 48 <= b <= 57.
Definition int31 (src : nat -> N) : Prop := forall k, src k < 2 ^ 31.

Lemma letters_alnum : Forall alnum letters.
Proof. unfold alnum. apply (bool_decide_unpack _). vm_compute. done. Qed.
Lemma letters_len : N.of_nat (length letters) = 62.
Proof. done. Qed.

(* every letter and digit is one of the 62, and none comes twice *)
Theorem C62_alphabet : (forall b, b ∈ letters <-> alnum b) /\ NoDup letters.
Proof.
  split; [|by apply (bool_decide_unpack _); vm_compute]. intros b. split; [intros H; pose proof letters_alnum as F; rewrite Forall_forall in F; by apply F|].
  intros H. assert (Hb : b < 128) by (unfold alnum in H; lia).
  assert (A : Forall (fun b => alnum b -> b ∈ letters) (N.of_nat <$> seq 0 128)) by (unfold alnum; apply (bool_decide_unpack _); vm_compute; done).
  rewrite Forall_forall in A. apply A; [|done]. apply elem_of_list_fmap. exists (N.to_nat b). split; [lia|]. apply elem_of_seq. lia.
Qed.
Lemma int31n_range fuel src k n v k' : n <> 0 -> int31n fuel src k n = Some (v, k') -> v < n.
Proof.
  intros Hn. revert k. induction fuel as [|f IH]; intros k H; cbn [int31n] in H; (destruct (pow2 n) eqn:Ep; [injection H as <- <-|]).
  1,3: assert (N.land (src k) (n - 1) <= n - 1) by (apply N.ldiff_le; rewrite <- N.land_lnot_diag || idtac; apply N.bits_inj; intros i; rewrite N.ldiff_spec, N.land_spec, N.bits_0; by destruct (N.testbit (src k) i), (N.testbit (n - 1) i)); lia.
  - done.
  - destruct (_ <? _); [by eapply IH|]. injection H as <- <-. by apply N.mod_lt.
Qed.
(* A string has the length asked for and consists of letters and digits. *)
Theorem C62_shape : forall fuel src k n s k', random_string fuel src k n = Some (s, k') -> length s = n /\ Forall alnum s.
Proof.
  intros fuel src k n. revert k. induction n as [|n IH]; intros k s k' H; cbn [random_string] in H; [injection H as <- <-; by split|].
  destruct (int31n _ _ _ _) as [[i k1]|]; cbn [mbind option_bind] in H; [|done]. destruct (letters !! N.to_nat i) as [b|] eqn:Eb; cbn [mbind option_bind] in H; [|done].
  destruct (random_string fuel src k1 n) as [[s' k2]|] eqn:Er; cbn [mbind option_bind] in H; [|done]. injection H as <- <-. apply IH in Er as [<- F]. split; [done|]. constructor; [|done].
  pose proof letters_alnum as FL. rewrite Forall_forall in FL. apply FL. by eapply elem_of_list_lookup_2.
Qed.
(* It comes about whenever the generator gives, again and again, a value that is not thrown away; the index is never out of range. *)
Lemma int31n_total src n : n <> 0 -> (forall k, exists j, (k <= j)%nat /\ src j <= int31_max n) -> forall k, exists fuel v k', forall f, (fuel <= f)%nat -> int31n f src k n = Some (v, k').
Proof.
  intros Hn HG k. destruct (pow2 n) eqn:Ep.
  { exists 0%nat, (N.land (src k) (n - 1)), (S k). intros f _. destruct f; cbn [int31n]; by rewrite Ep. }
  destruct (HG k) as (j & Hj & Hv). remember (j - k)%nat as d eqn:Ed. revert k Hj Ed. induction d as [|d IH]; intros k Hj Ed.
  - assert (j = k) as -> by lia. exists 1%nat, (src k `mod` n), (S k). intros [|f] Hf; [lia|]. cbn [int31n]. rewrite Ep. destruct (N.ltb_spec (int31_max n) (src k)); [lia|done].
  - destruct (N.ltb_spec (int31_max n) (src k)) as [Hl|Hl].
    + destruct (IH (S k)) as (fuel & v & k' & IH'); [lia|lia|]. exists (S fuel), v, k'. intros [|f] Hf; [lia|]. cbn [int31n]. rewrite Ep. destruct (N.ltb_spec (int31_max n) (src k)); [|lia]. apply IH'. lia.
    + exists 1%nat, (src k `mod` n), (S k). intros [|f] Hf; [lia|]. cbn [int31n]. rewrite Ep. destruct (N.ltb_spec (int31_max n) (src k)); [lia|done].
Qed.
Theorem C62_total : forall src n, (forall k, exists j, (k <= j)%nat /\ src j <= int31_max 62) -> forall k, exists fuel s k', forall f, (fuel <= f)%nat -> random_string f src k n = Some (s, k').
Proof.
  intros src n HG. induction n as [|n IH]; intros k; [by exists 0%nat, [], k|].
  destruct (int31n_total src 62 ltac:(done) HG k) as (f1 & v & k1 & H1). destruct (IH k1) as (f2 & s & k2 & H2).
  assert (Hv : v < 62) by (eapply int31n_range; [|by apply (H1 f1)]; done).
  destruct (lookup_lt_is_Some_2 letters (N.to_nat v)) as [b Hb]; [pose proof letters_len; lia|].
  exists (f1 + f2)%nat, (b :: s), k2. intros f Hf. cbn [random_string]. rewrite letters_len, H1 by lia. cbn [mbind option_bind]. rewrite Hb. cbn [mbind option_bind]. by rewrite H2 by lia.
Qed.
(* No letter is preferred: each of the 62 comes from exactly (2^31 - 2^31 mod 62)/62 of the values that are kept. *)
Theorem C62_no_bias : forall v i, i < 62 -> (v <= int31_max 62 /\ v `mod` 62 = i) <-> exists j, j < (2 ^ 31) / 62 /\ v = 62 * j + i.
Proof.
  intros v i Hi. assert (EM : int31_max 62 + 1 = 62 * ((2 ^ 31) / 62)) by (vm_compute; done). split.
  - intros [Hm <-]. exists (v / 62). split; [|by apply N.div_mod']. apply N.div_lt_upper_bound; [done|]. lia.
  - intros (j & Hj & ->). split; [nia|]. rewrite N.add_comm, N.mul_comm, N.mod_add by done. by apply N.mod_small.
Qed.
(* A random port is an unprivileged one. *)
Theorem C62_port : forall fuel src k p k', random_port fuel src k = Some (p, k') -> 1024 <= p < 65535.
Proof.
  intros fuel src k p k' H. unfold random_port in H. destruct (int31n _ _ _ _) as [[v k1]|] eqn:E; cbn [mbind option_bind] in H; [|done]. injection H as <- <-.
  apply int31n_range in E; [|done]. lia.
Qed.
(* Requests of any lengths, one after the other: every answer is as asked for *)
Theorem C62_requests : forall fuel src k ns ss, requests fuel src k ns = Some ss -> Forall2 (fun n s => length s = n /\ Forall alnum s) ns ss.
Proof.
  intros fuel src k ns. revert k. induction ns as [|n ns IH]; intros k ss H; cbn [requests] in H; [injection H as <-; constructor|].
  destruct (random_string fuel src k n) as [[s k1]|] eqn:E; cbn [mbind option_bind] in H; [|done]. destruct (requests fuel src k1 ns) as [ss'|] eqn:Er; cbn [mbind option_bind] in H; [|done]. injection H as <-.
  constructor; [by eapply C62_shape|by eapply IH].
Qed.

(* That they cannot be guessed is false: whoever knows when a process was started to within T seconds has a list of at most T + 1
   candidates for all it makes up, whatever the lengths asked for and whatever generator math/rand has. *)
Theorem C62_guessable_refuted : forall g fuel ns (from T : Z), (0 <= T)%Z -> exists candidates, (length candidates <= Z.to_nat T + 1)%nat /\
  forall t ss, (from * 1000000000 <= t < (from + T + 1) * 1000000000)%Z -> requests fuel (started g t) 0 ns = Some ss -> ss ∈ candidates.
Proof.
  intros g fuel ns from T HT. exists (omap (fun d => requests fuel (g (from + Z.of_nat d)%Z) 0 ns) (seq 0 (Z.to_nat T + 1))). split.
  - assert (L : forall A B (f : A -> option B) l, (length (omap f l) <= length l)%nat) by (intros A B f; induction l as [|x l IH]; [done|]; cbn; destruct (f x); cbn in *; lia).
    etrans; [apply L|]. by rewrite seq_length.
  - intros t ss Ht H. apply elem_of_list_omap. exists (Z.to_nat (t `div` 1000000000 - from)).
    assert (Hd : (from <= t `div` 1000000000 < from + T + 1)%Z) by (split; [apply Z.div_le_lower_bound; lia|apply Z.div_lt_upper_bound; lia]).
    split; [apply elem_of_seq; lia|]. rewrite Z2Nat.id by lia. rewrite <- H. unfold started. f_equal. f_equal. lia.
Qed.
(* Two processes started in the same second make up the same. *)
Theorem C62_same_second_refuted : forall g fuel ns t1 t2, (t1 `div` 1000000000 = t2 `div` 1000000000)%Z ->
  requests fuel (started g t1) 0 ns = requests fuel (started g t2) 0 ns.
Proof. intros g fuel ns t1 t2 E. unfold started. by rewrite E. Qed.
(* a secret of 3 letters of a process started one second after 1970; the generator counts *)
Theorem C62_witness : requests 1 (started (fun s k => N.of_nat k + Z.to_N s) 1500000000) 0 [3; 2]%nat = Some [bs "bcd"; bs "ef"].
Proof. vm_compute. done. Qed.
