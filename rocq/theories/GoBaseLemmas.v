(* GoBaseLemmas.v -- arithmetic facts about the conversions of GoBase. *)
From Verif Require Import GoBase.
Local Open Scope N_scope.

Lemma blen_nil {A} : blen (@nil A) = 0. Proof. reflexivity. Qed.
Lemma blen_cons {A} (x : A) l : blen (x :: l) = 1 + blen l.
Proof. unfold blen; simpl; lia. Qed.
Lemma blen_one {A} (x : A) : blen [x] = 1. Proof. reflexivity. Qed.
Lemma blen_app {A} (l k : list A) : blen (l ++ k) = blen l + blen k.
Proof. unfold blen; rewrite app_length; lia. Qed.
Lemma blen_ntake {A} n (l : list A) : blen (ntake n l) = N.min n (blen l).
Proof. unfold blen, ntake; rewrite take_length; lia. Qed.
Lemma blen_ndrop {A} n (l : list A) : blen (ndrop n l) = blen l - n.
Proof. unfold blen, ndrop; rewrite drop_length; lia. Qed.
Lemma blen_length {A} (l : list A) : N.to_nat (blen l) = length l.
Proof. unfold blen; lia. Qed.
Lemma blen_0 {A} (l : list A) : blen l = 0 -> l = [].
Proof. destruct l; unfold blen; simpl; [done|lia]. Qed.
Lemma ntake_ndrop {A} n (l : list A) : ntake n l ++ ndrop n l = l.
Proof. apply take_drop. Qed.
Lemma ntake_all {A} n (l : list A) : blen l <= n -> ntake n l = l.
Proof. unfold blen, ntake; intros; apply take_ge; lia. Qed.
Lemma ndrop_all {A} n (l : list A) : blen l <= n -> ndrop n l = [].
Proof. unfold blen, ndrop; intros; apply drop_ge; lia. Qed.
Lemma ntake_0 {A} (l : list A) : ntake 0 l = []. Proof. reflexivity. Qed.
Lemma ndrop_0 {A} (l : list A) : ndrop 0 l = l. Proof. reflexivity. Qed.
Lemma ntake_app_le {A} n (l k : list A) : n <= blen l -> ntake n (l ++ k) = ntake n l.
Proof. unfold blen, ntake; intros; apply take_app_le; lia. Qed.
Lemma ntake_app_ge {A} n (l k : list A) : blen l <= n -> ntake n (l ++ k) = l ++ ntake (n - blen l) k.
Proof. unfold blen, ntake; intros; rewrite take_app_ge by lia; repeat f_equal; lia. Qed.
Lemma ndrop_app_le {A} n (l k : list A) : n <= blen l -> ndrop n (l ++ k) = ndrop n l ++ k.
Proof. unfold blen, ndrop; intros; apply drop_app_le; lia. Qed.
Lemma ndrop_app_ge {A} n (l k : list A) : blen l <= n -> ndrop n (l ++ k) = ndrop (n - blen l) k.
Proof. unfold blen, ndrop; intros; rewrite drop_app_ge by lia; f_equal; lia. Qed.
Lemma ntake_app {A} n (l k : list A) : n = blen l -> ntake n (l ++ k) = l.
Proof. intros ->; rewrite ntake_app_le by lia; apply ntake_all; lia. Qed.
Lemma ndrop_app {A} n (l k : list A) : n = blen l -> ndrop n (l ++ k) = k.
Proof. intros ->; rewrite ndrop_app_ge, N.sub_diag by lia; apply ndrop_0. Qed.
Lemma ntake_ntake {A} n m (l : list A) : ntake n (ntake m l) = ntake (N.min n m) l.
Proof. unfold ntake; rewrite take_take; f_equal; lia. Qed.
Lemma ndrop_ndrop {A} n m (l : list A) : ndrop n (ndrop m l) = ndrop (m + n) l.
Proof. unfold ndrop; rewrite drop_drop; f_equal; lia. Qed.
Lemma ntake_succ_cons {A} n x (l : list A) : ntake (1 + n) (x :: l) = x :: ntake n l.
Proof. unfold ntake. replace (N.to_nat (1 + n)) with (S (N.to_nat n)) by lia; done. Qed.

Lemma u8_lt x : u8 x < 256. Proof. unfold u8; lia. Qed.
Lemma u16_lt x : u16 x < 65536. Proof. unfold u16; lia. Qed.
Lemma u32_lt x : u32 x < 4294967296. Proof. unfold u32; lia. Qed.
Lemma u8_id x : x < 256 -> u8 x = x. Proof. unfold u8; intros; lia. Qed.
Lemma u16_id x : x < 65536 -> u16 x = x. Proof. unfold u16; intros; lia. Qed.
Lemma u32_id x : x < 4294967296 -> u32 x = x. Proof. unfold u32; intros; lia. Qed.

Lemma land_low_shift a b n : a < 2 ^ n -> N.land a (N.shiftl b n) = 0.
Proof.
  intros Ha. apply N.bits_inj; intros i. rewrite N.land_spec, N.bits_0.
  destruct (N.lt_ge_cases i n) as [Hi|Hi].
  - rewrite N.shiftl_spec_low by done. apply andb_false_r.
  - destruct (decide (a = 0)) as [->|Hz]; [rewrite N.bits_0; done|].
    rewrite (N.bits_above_log2 a i); [done|].
    apply N.log2_lt_pow2 in Ha; lia.
Qed.

Lemma lor_low_shift a b n : a < 2 ^ n -> N.lor a (N.shiftl b n) = a + b * 2 ^ n.
Proof.
  intros Ha. pose proof (land_low_shift a b n Ha) as Hl.
  rewrite <- N.shiftl_mul_pow2.
  rewrite (N.add_nocarry_lxor _ _ Hl), (N.lxor_lor _ _ Hl). done.
Qed.

Lemma rd16_val p0 p1 : is_byte p0 -> is_byte p1 -> rd16 p0 p1 = p0 * 256 + p1.
Proof.
  unfold rd16, is_byte; intros H0 H1. rewrite (u16_id p0), (u16_id p1) by lia.
  rewrite u16_id by (rewrite N.shiftl_mul_pow2; change (2^8) with 256; lia).
  rewrite lor_low_shift by (change (2^8) with 256; lia). change (2^8) with 256; lia.
Qed.

Lemma rd32_val p0 p1 p2 p3 : is_byte p0 -> is_byte p1 -> is_byte p2 -> is_byte p3 ->
  rd32 p0 p1 p2 p3 = p0 * 16777216 + p1 * 65536 + p2 * 256 + p3.
Proof.
  unfold rd32, is_byte; intros H0 H1 H2 H3.
  rewrite !(u32_id p0), !(u32_id p1), !(u32_id p2), !(u32_id p3) by lia.
  rewrite !u32_id by (rewrite N.shiftl_mul_pow2; change (2^24) with 16777216;
     change (2^16) with 65536; change (2^8) with 256; lia).
  rewrite (lor_low_shift p3 p2 8) by (change (2^8) with 256; lia). change (2^8) with 256.
  rewrite (lor_low_shift _ p1 16) by (change (2^16) with 65536; lia). change (2^16) with 65536.
  rewrite (lor_low_shift _ p0 24) by (change (2^24) with 16777216; lia). change (2^24) with 16777216.
  lia.
Qed.

Lemma shiftr8 v : N.shiftr v 8 = v / 256.
Proof. rewrite N.shiftr_div_pow2; done. Qed.
Lemma shiftr16 v : N.shiftr v 16 = v / 65536.
Proof. rewrite N.shiftr_div_pow2; done. Qed.
Lemma shiftr24 v : N.shiftr v 24 = v / 16777216.
Proof. rewrite N.shiftr_div_pow2; done. Qed.

Lemma rd16_be16 v : v < 65536 -> rd16 (u8 (N.shiftr v 8)) (u8 v) = v.
Proof.
  intros H. rewrite rd16_val by apply u8_lt. rewrite shiftr8. unfold u8.
  lia.
Qed.
Lemma rd32_be32 v : v < 4294967296 ->
  rd32 (u8 (N.shiftr v 24)) (u8 (N.shiftr v 16)) (u8 (N.shiftr v 8)) (u8 v) = v.
Proof.
  intros H. rewrite rd32_val by apply u8_lt. rewrite shiftr8, shiftr16, shiftr24. unfold u8.
  lia.
Qed.
Lemma all_bytes_be16 v : all_bytes (be16 v).
Proof. repeat constructor; apply u8_lt. Qed.
Lemma all_bytes_be32 v : all_bytes (be32 v).
Proof. repeat constructor; apply u8_lt. Qed.
Lemma blen_be16 v : blen (be16 v) = 2. Proof. done. Qed.
Lemma blen_be32 v : blen (be32 v) = 4. Proof. done. Qed.
Global Hint Rewrite @blen_nil @blen_cons @blen_app @blen_ntake @blen_ndrop : blen.
Ltac blens := autorewrite with blen in *.
