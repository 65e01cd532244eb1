(** Facts about byte buffers and little-endian codecs. *)
From Verif Require Import Base Bytes.

Lemma blen_nonneg b : 0 <= blen b. Proof. unfold blen. lia. Qed.
Lemma blen_ffs n : 0 <= n -> blen (ffs n) = n.
Proof. intros. unfold blen, ffs. rewrite replicate_length. lia. Qed.
Lemma blen_app a b : blen (a ++ b) = blen a + blen b.
Proof. unfold blen. rewrite app_length. lia. Qed.
Lemma blen_slice off n b : 0 <= off -> 0 <= n -> off + n <= blen b -> blen (slice off n b) = n.
Proof. unfold blen, slice. intros. rewrite take_length, drop_length. lia. Qed.
Lemma blen_splice off src b : 0 <= off -> off + blen src <= blen b -> blen (splice off src b) = blen b.
Proof. unfold blen, splice. intros. rewrite !app_length, take_length, drop_length. lia. Qed.
Lemma blen_w32_bytes v : blen (w32_bytes v) = 4.
Proof. reflexivity. Qed.

Lemma slice_all b n : n = blen b -> slice 0 n b = b.
Proof. intros ->. unfold slice, blen. rewrite Nat2Z.id. cbn. apply firstn_all. Qed.

Lemma slice_splice_same off src b :
  0 <= off -> off + blen src <= blen b -> slice off (blen src) (splice off src b) = src.
Proof.
  unfold slice, splice, blen. intros.
  rewrite drop_app_ge; rewrite take_length; [|lia].
  replace (_ - _)%nat with 0%nat by lia. rewrite drop_0.
  rewrite Nat2Z.id. apply take_app.
Qed.

Lemma slice_splice_before off n off' src b :
  0 <= off -> 0 <= n -> off + n <= off' -> off' <= blen b ->
  slice off n (splice off' src b) = slice off n b.
Proof.
  unfold slice, splice, blen. intros.
  rewrite drop_app_le by (rewrite take_length; lia).
  rewrite take_app_le by (rewrite drop_length, take_length; lia).
  rewrite !take_drop_commute, take_take. do 2 f_equal. lia.
Qed.

Lemma slice_splice_after off n off' src b :
  0 <= off' -> off' + blen src <= off -> off' + blen src <= blen b ->
  slice off n (splice off' src b) = slice off n b.
Proof.
  unfold slice, splice, blen. intros.
  rewrite drop_app_ge; rewrite take_length; [|lia].
  rewrite drop_app_ge by lia.
  rewrite drop_drop. do 2 f_equal. lia.
Qed.

Lemma slice_splice_disj off n off' src b :
  0 <= off -> 0 <= n -> 0 <= off' -> off' + blen src <= blen b ->
  off + n <= off' \/ off' + blen src <= off ->
  slice off n (splice off' src b) = slice off n b.
Proof.
  intros ? ? ? ? [?|?]; [apply slice_splice_before|apply slice_splice_after]; auto.
  unfold blen in *. lia.
Qed.

Lemma slice_slice o1 n1 o2 n2 b : 0 <= o1 -> 0 <= o2 -> 0 <= n2 -> o2 + n2 <= n1 ->
  slice o2 n2 (slice o1 n1 b) = slice (o1 + o2) n2 b.
Proof.
  unfold slice. intros.
  rewrite !take_drop_commute, drop_drop, take_take. f_equal; [lia|]. f_equal. lia.
Qed.

(** ** 16- and 32-bit words *)

Lemma w8_range v : 0 <= w8 v < 256.
Proof. unfold w8. apply Z.mod_pos_bound. lia. Qed.
Lemma w32_range v : 0 <= w32 v < 4294967296.
Proof. unfold w32. apply Z.mod_pos_bound. lia. Qed.
Lemma w32_small v : 0 <= v < 4294967296 -> w32 v = v.
Proof. unfold w32. apply Z.mod_small. Qed.
Lemma w8_small v : 0 <= v < 256 -> w8 v = v.
Proof. unfold w8. apply Z.mod_small. Qed.

Lemma bits_above a n i : 0 <= n <= i -> 0 <= a < 2 ^ n -> Z.testbit a i = false.
Proof.
  intros Hn Ha. destruct (Z.eq_dec a 0) as [->|Hne]; [apply Z.bits_0|].
  apply Z.bits_above_log2; [lia|]. apply Z.log2_lt_pow2; [lia|].
  eapply Z.lt_le_trans; [apply Ha|]. apply Z.pow_le_mono_r; lia.
Qed.

Lemma lor_shiftl_add a b n : 0 <= n -> 0 <= a < 2 ^ n ->
  Z.lor a (Z.shiftl b n) = a + b * 2 ^ n.
Proof.
  intros Hn Ha. rewrite <-Z.shiftl_mul_pow2 by lia.
  symmetry. rewrite Z.add_nocarry_lxor.
  - apply Z.bits_inj'. intros i Hi. rewrite Z.lxor_spec, Z.lor_spec.
    destruct (Z.lt_ge_cases i n).
    + rewrite Z.shiftl_spec_low by lia. by rewrite xorb_false_r, orb_false_r.
    + rewrite (bits_above a n i) by lia. by rewrite xorb_false_l, orb_false_l.
  - apply Z.bits_inj'. intros i Hi. rewrite Z.land_spec, Z.bits_0.
    destruct (Z.lt_ge_cases i n).
    + rewrite Z.shiftl_spec_low by lia. apply andb_false_r.
    + by rewrite (bits_above a n i) by lia.
Qed.

Lemma bget_range b i : 0 <= bget b i < 256.
Proof. apply w8_range. Qed.

Lemma r32_eq l : r32 l = bget l 0 + bget l 1 * 256 + bget l 2 * 65536 + bget l 3 * 16777216.
Proof.
  unfold r32.
  pose proof (bget_range l 0). pose proof (bget_range l 1).
  pose proof (bget_range l 2). pose proof (bget_range l 3).
  generalize dependent (bget l 0). generalize dependent (bget l 1).
  generalize dependent (bget l 2). generalize dependent (bget l 3). intros d ? c ? b ? a ?.
  rewrite (lor_shiftl_add a b 8) by lia.
  rewrite (lor_shiftl_add _ c 16) by lia.
  rewrite (lor_shiftl_add _ d 24) by lia. lia.
Qed.

Lemma r32_range l : 0 <= r32 l < 4294967296.
Proof.
  rewrite r32_eq.
  pose proof (bget_range l 0). pose proof (bget_range l 1).
  pose proof (bget_range l 2). pose proof (bget_range l 3). lia.
Qed.

Lemma get32_range off b : 0 <= get32 off b < 4294967296.
Proof. apply r32_range. Qed.

Lemma r32_bytes a b c d l : 0 <= a < 256 -> 0 <= b < 256 -> 0 <= c < 256 -> 0 <= d < 256 ->
  r32 (a :: b :: c :: d :: l) = a + b * 256 + c * 65536 + d * 16777216.
Proof.
  intros. rewrite r32_eq.
  change (bget (a :: b :: c :: d :: l) 0) with (w8 a).
  change (bget (a :: b :: c :: d :: l) 1) with (w8 b).
  change (bget (a :: b :: c :: d :: l) 2) with (w8 c).
  change (bget (a :: b :: c :: d :: l) 3) with (w8 d).
  by rewrite !w8_small by lia.
Qed.

Lemma r16_bytes a b l : 0 <= a < 256 -> 0 <= b < 256 ->
  r16 (a :: b :: l) = a + b * 256.
Proof.
  intros. unfold r16.
  change (bget (a :: b :: l) 0) with (w8 a). change (bget (a :: b :: l) 1) with (w8 b).
  rewrite !w8_small by lia.
  rewrite (lor_shiftl_add a b 8) by lia. lia.
Qed.

Lemma r32_w32_bytes v : r32 (w32_bytes v) = w32 v.
Proof.
  unfold w32_bytes.
  rewrite r32_bytes by apply w8_range.
  rewrite !Z.shiftr_div_pow2 by lia. unfold w8, w32.
  change (2 ^ 8) with 256. change (2 ^ 16) with 65536. change (2 ^ 24) with 16777216.
  assert (E1: v / 65536 = v / 256 / 256) by (rewrite Z.div_div by lia; f_equal; lia).
  assert (E2: v / 16777216 = v / 65536 / 256) by (rewrite Z.div_div by lia; f_equal; lia).
  pose proof (Z.div_mod v 256). pose proof (Z.div_mod (v/256) 256).
  pose proof (Z.div_mod (v/65536) 256). pose proof (Z.div_mod (v/16777216) 256).
  pose proof (Z.div_mod v 4294967296).
  assert (E3: v / 4294967296 = v / 16777216 / 256) by (rewrite Z.div_div by lia; f_equal; lia).
  lia.
Qed.

Lemma r16_w16_bytes v : r16 (w16_bytes v) = v mod 65536.
Proof.
  unfold w16_bytes.
  rewrite r16_bytes by apply w8_range.
  rewrite !Z.shiftr_div_pow2 by lia. unfold w8.
  change (2 ^ 8) with 256.
  assert (E1: v / 65536 = v / 256 / 256) by (rewrite Z.div_div by lia; f_equal; lia).
  pose proof (Z.div_mod v 256). pose proof (Z.div_mod (v/256) 256).
  pose proof (Z.div_mod v 65536). lia.
Qed.

Lemma nth_slice (i : nat) off n b : 0 <= off -> (i < Z.to_nat n)%nat ->
  nth i (slice off n b) 0 = nth (Z.to_nat off + i) b 0.
Proof.
  intros. unfold slice.
  rewrite !nth_lookup. rewrite lookup_take by lia. by rewrite lookup_drop.
Qed.

Lemma bget_slice i off n b : 0 <= off -> 0 <= i < n -> bget (slice off n b) i = bget b (off + i).
Proof.
  intros. unfold bget. rewrite nth_slice by lia. do 2 f_equal. lia.
Qed.

Lemma get32_slice off b : 0 <= off -> get32 off b = r32 (slice off 4 b).
Proof.
  intros. unfold get32, r32. rewrite !bget_slice by lia.
  unfold bget. rewrite !nth_lookup, !lookup_drop.
  repeat f_equal; lia.
Qed.

Lemma get32_of_slice o1 n o2 b : 0 <= o1 -> 0 <= o2 -> o2 + 4 <= n ->
  get32 o2 (slice o1 n b) = get32 (o1 + o2) b.
Proof. intros. rewrite !get32_slice by lia. by rewrite slice_slice by lia. Qed.

Lemma blen_put32 off v b : 0 <= off -> off + 4 <= blen b -> blen (put32 off v b) = blen b.
Proof. intros. unfold put32. apply blen_splice; rewrite ?blen_w32_bytes; lia. Qed.

Lemma get32_put32 off v b : 0 <= off -> off + 4 <= blen b -> get32 off (put32 off v b) = w32 v.
Proof.
  intros. rewrite get32_slice by lia. unfold put32.
  change 4 with (blen (w32_bytes v)).
  rewrite slice_splice_same by (rewrite ?blen_w32_bytes; lia). apply r32_w32_bytes.
Qed.

Lemma get32_put32_ne off off' v b :
  0 <= off -> 0 <= off' -> off' + 4 <= blen b -> off + 4 <= off' \/ off' + 4 <= off ->
  get32 off (put32 off' v b) = get32 off b.
Proof.
  intros. rewrite !get32_slice by lia. unfold put32.
  rewrite slice_splice_disj by (rewrite ?blen_w32_bytes; lia). done.
Qed.

Lemma bget_splice off src b i : 0 <= off -> off + blen src <= blen b -> 0 <= i ->
  bget (splice off src b) i =
  if (off <=? i) && (i <? off + blen src) then bget src (i - off) else bget b i.
Proof.
  intros Ho Hl Hi. unfold bget, splice, blen in *. rewrite !nth_lookup.
  destruct (Z.leb_spec off i); cbn [andb].
  - rewrite lookup_app_r by (rewrite take_length; lia). rewrite take_length.
    replace (Z.to_nat i - Z.to_nat off `min` length b)%nat with (Z.to_nat (i - off)) by lia.
    destruct (Z.ltb_spec i (off + Z.of_nat (length src))).
    + rewrite lookup_app_l by lia. done.
    + rewrite lookup_app_r by lia. rewrite lookup_drop. do 3 f_equal. lia.
  - rewrite lookup_app_l by (rewrite take_length; lia). by rewrite lookup_take by lia.
Qed.
