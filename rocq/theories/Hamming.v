(** Model of ecc/hamming.c and the theorems C30, C31 about it. *)
From stdpp Require Import list.
From Coq Require Import ZArith Lia.
From Verif Require Import EccBits.
Local Open Scope Z_scope.

(** ** Model *)

(** bit_count (hamming.c:22-55) *)
Definition bit_count_tab : list Z :=
  [0; 1; 1; 2; 1; 2; 2; 3; 1; 2; 2; 3; 2; 3; 3; 4; 1; 2; 2; 3; 2; 3; 3; 4; 2; 3; 3; 4; 3; 4; 4; 5;
   1; 2; 2; 3; 2; 3; 3; 4; 2; 3; 3; 4; 3; 4; 4; 5; 2; 3; 3; 4; 3; 4; 4; 5; 3; 4; 4; 5; 4; 5; 5; 6;
   1; 2; 2; 3; 2; 3; 3; 4; 2; 3; 3; 4; 3; 4; 4; 5; 2; 3; 3; 4; 3; 4; 4; 5; 3; 4; 4; 5; 4; 5; 5; 6;
   2; 3; 3; 4; 3; 4; 4; 5; 3; 4; 4; 5; 4; 5; 5; 6; 3; 4; 4; 5; 4; 5; 5; 6; 4; 5; 5; 6; 5; 6; 6; 7;
   1; 2; 2; 3; 2; 3; 3; 4; 2; 3; 3; 4; 3; 4; 4; 5; 2; 3; 3; 4; 3; 4; 4; 5; 3; 4; 4; 5; 4; 5; 5; 6;
   2; 3; 3; 4; 3; 4; 4; 5; 3; 4; 4; 5; 4; 5; 5; 6; 3; 4; 4; 5; 4; 5; 5; 6; 4; 5; 5; 6; 5; 6; 6; 7;
   2; 3; 3; 4; 3; 4; 4; 5; 3; 4; 4; 5; 4; 5; 5; 6; 3; 4; 4; 5; 4; 5; 5; 6; 4; 5; 5; 6; 5; 6; 6; 7;
   3; 4; 4; 5; 4; 5; 5; 6; 4; 5; 5; 6; 5; 6; 6; 7; 4; 5; 5; 6; 5; 6; 6; 7; 5; 6; 6; 7; 6; 7; 7; 8].
Definition bit_count (x : Z) : Z := nth (Z.to_nat x) bit_count_tab 0.

(** Conversion to uint16_t / uint32_t. *)
Definition t16 (x : Z) : Z := Z.land x 65535.
Definition t32 (x : Z) : Z := Z.land x 4294967295.

(** First loop of parity_scan (hamming.c:83-92): bytes from position [i] on. *)
Fixpoint scan (i : Z) (chunk : list Z) (column line line_bar : Z) : Z * Z * Z :=
  match chunk with
  | [] => (column, line, line_bar)
  | c :: chunk =>
    let column := Z.lxor column c in
    if Z.land (bit_count c) 1 =? 0
    then scan (i + 1) chunk column line line_bar
    else scan (i + 1) chunk column (t16 (Z.lxor line i)) (t16 (Z.lxor line_bar (Z.lnot i)))
  end.

(** out = (out << 1) | (b & 1) *)
Definition push (out b : Z) : Z := Z.lor (t32 (Z.shiftl out 1)) (Z.land b 1).

(** Second loop of parity_scan (hamming.c:109-118), [n] iterations. *)
Fixpoint emit (n : nat) (line line_bar out : Z) : Z :=
  match n with
  | O => out
  | S n =>
    let out := push out (Z.shiftr line_bar 8) in
    let out := push out (Z.shiftr line 8) in
    emit n (t16 (Z.shiftl line 1)) (t16 (Z.shiftl line_bar 1)) out
  end.

(** Column parities (hamming.c:120-125) *)
Definition columns (column out : Z) : Z :=
  let out := push out (bit_count (Z.land column 15)) in
  let out := push out (bit_count (Z.land column 240)) in
  let out := push out (bit_count (Z.land column 51)) in
  let out := push out (bit_count (Z.land column 204)) in
  let out := push out (bit_count (Z.land column 85)) in
  push out (bit_count (Z.land column 170)).

(** parity_scan (hamming.c:57-128) *)
Definition parity_scan (chunk : list Z) : Z :=
  let '(column, line, line_bar) := scan 0 chunk 0 0 0 in
  Z.lxor (columns column (emit 9 line line_bar 0)) 16777215.

(** hamming_generate (hamming.c:130-139): the three ECC bytes *)
Definition hamming_generate (chunk : list Z) : list Z :=
  let p := parity_scan chunk in
  [Z.land p 255; Z.land (Z.shiftr p 8) 255; Z.land (Z.shiftr p 16) 255].

(** hamming_syndrome (hamming.c:141-154) *)
Definition unpack (ecc : list Z) : Z :=
  let q := Z.lor 0 (nth 2 ecc 0) in
  let q := Z.lor (t32 (Z.shiftl q 8)) (nth 1 ecc 0) in
  Z.lor (t32 (Z.shiftl q 8)) (nth 0 ecc 0).
Definition hamming_syndrome (chunk ecc : list Z) : Z :=
  Z.lxor (parity_scan chunk) (unpack ecc).

(** The loop of hamming_repair (hamming.c:173-183); [None] is return -1. *)
Fixpoint locate (n : nat) (syndrome pos pos_bit : Z) : option Z :=
  match n with
  | O => Some pos
  | S n =>
    let s := Z.land syndrome 3 in
    if s =? 1 then locate n (Z.shiftr syndrome 2) (Z.lor pos pos_bit) (Z.shiftl pos_bit 1)
    else if negb (s =? 2) then None
    else locate n (Z.shiftr syndrome 2) pos (Z.shiftl pos_bit 1)
  end.

(** hamming_repair (hamming.c:156-190): return value and resulting chunk *)
Definition hamming_repair (chunk : list Z) (syndrome : Z) : Z * list Z :=
  if syndrome =? 0 then (0, chunk)
  else if Z.land syndrome (syndrome - 1) =? 0 then (0, chunk)
  else match locate 12 syndrome 0 1 with
       | None => (-1, chunk)
       | Some pos =>
         (0, if Z.shiftr pos 3 <? Z.of_nat (length chunk)
             then alter (fun x => Z.lxor x (Z.shiftl 1 (Z.land pos 7))) (Z.to_nat (Z.shiftr pos 3)) chunk
             else chunk)
       end.

(** ** Linearity *)

Lemma push_lin o o' b b' : push (Z.lxor o o') (Z.lxor b b') = Z.lxor (push o b) (push o' b').
Proof.
  assert (E : forall o b, push o b = Z.lxor (t32 (Z.shiftl o 1)) (Z.land b 1)).
  { intros x y. unfold push, t32. symmetry. apply Z.lxor_lor. apply Z.bits_inj'. intros k Hk.
    rewrite !Z.land_spec, Z.bits_0, Z.shiftl_spec by lia.
    destruct (Z.eq_dec k 0) as [-> |]; [by rewrite Z.testbit_neg_r by lia|].
    rewrite (Z.bits_above_log2 1) by (cbn; lia). by rewrite !andb_false_r. }
  rewrite !E. unfold t32.
  rewrite Z.shiftl_lxor, !land_lxor_l.
  rewrite !Z.lxor_assoc. f_equal. rewrite <-!Z.lxor_assoc. f_equal. apply Z.lxor_comm.
Qed.

Lemma emit_lin n : forall l l' b b' o o',
  emit n (Z.lxor l l') (Z.lxor b b') (Z.lxor o o') = Z.lxor (emit n l b o) (emit n l' b' o').
Proof.
  induction n as [|n IH]; intros l l' b b' o o'; [done|]. cbn [emit].
  rewrite !Z.shiftr_lxor, !push_lin. unfold t16.
  rewrite !Z.shiftl_lxor, !land_lxor_l. apply IH.
Qed.

(** Parity of a byte changes with every bit flipped. *)
Definition par (x : Z) : Z := Z.land (bit_count x) 1.
Lemma par_flip x k : byte x -> 0 <= k < 8 -> par (Z.lxor x (2 ^ k)) = Z.lxor (par x) 1.
Proof.
  intros Hx Hk.
  assert (H : all_below 256 (fun x => all_below 8 (fun k => par (Z.lxor x (2 ^ k)) =? Z.lxor (par x) 1)) = true)
    by (by vm_compute).
  pose proof (all_below_spec _ _ H x ltac:(unfold byte in Hx; lia)) as H1. cbn beta in H1.
  pose proof (all_below_spec _ _ H1 k ltac:(lia)) as H2. by apply Z.eqb_eq in H2.
Qed.
Lemma par_01 x : par x = 0 \/ par x = 1.
Proof.
  unfold par. change 1 with (Z.ones 1). rewrite Z.land_ones by lia.
  pose proof (Z.mod_pos_bound (bit_count x) (2 ^ 1) ltac:(lia)). change (2 ^ 1) with 2 in *.
  change (Z.ones 1) with 1. lia.
Qed.

(** The change of the checksum when bit [k] of byte [i] flips. *)
Definition pat (i k : Z) : Z := columns (2 ^ k) (emit 9 (t16 i) (t16 (Z.lnot i)) 0).

Lemma push_land o b b' : Z.land b 1 = Z.land b' 1 -> push o b = push o b'.
Proof. unfold push. by intros ->. Qed.

Lemma columns_flip x k o o' : byte x -> 0 <= k < 8 ->
  columns (Z.lxor x (2 ^ k)) (Z.lxor o o') = Z.lxor (columns x o) (columns (2 ^ k) o').
Proof.
  intros Hx Hk.
  assert (Hm : forall m, In m [15; 240; 51; 204; 85; 170] ->
    Z.land (bit_count (Z.land (Z.lxor x (2 ^ k)) m)) 1 =
    Z.land (Z.lxor (bit_count (Z.land x m)) (bit_count (Z.land (2 ^ k) m))) 1).
  { intros m Hm.
    assert (H : all_below 256 (fun x => all_below 8 (fun k => forallb (fun m =>
      Z.land (bit_count (Z.land (Z.lxor x (2 ^ k)) m)) 1 =?
      Z.land (Z.lxor (bit_count (Z.land x m)) (bit_count (Z.land (2 ^ k) m))) 1) [15; 240; 51; 204; 85; 170])) = true)
      by (by vm_compute).
    pose proof (all_below_spec _ _ H x ltac:(unfold byte in Hx; lia)) as H1. cbn beta in H1.
    pose proof (all_below_spec _ _ H1 k ltac:(lia)) as H2. cbn beta in H2.
    rewrite forallb_forall in H2. apply Z.eqb_eq. by apply H2. }
  unfold columns.
  repeat match goal with |- context [push ?o (bit_count (Z.land (Z.lxor x (2 ^ k)) ?m))] =>
    rewrite (push_land o _ _ (Hm m ltac:(cbn; tauto))) end.
  by rewrite !push_lin.
Qed.

(** Effect of one flip on the scan. *)
Lemma t16_lxor a b : t16 (Z.lxor a b) = Z.lxor (t16 a) (t16 b).
Proof. apply land_lxor_l. Qed.
Lemma t16_t16 a : t16 (t16 a) = t16 a.
Proof. unfold t16. rewrite <-Z.land_assoc. by rewrite Z.land_diag. Qed.

Lemma scan_lin b : forall i c l lb c' l' lb', t16 l' = l' -> t16 lb' = lb' ->
  scan i b (Z.lxor c c') (Z.lxor l l') (Z.lxor lb lb') =
  (let '(x, y, z) := scan i b c l lb in (Z.lxor x c', Z.lxor y l', Z.lxor z lb')).
Proof.
  induction b as [|x b IH]; intros i c l lb c' l' lb' Hl Hlb; [done|]. cbn [scan].
  assert (E : forall a p q, Z.lxor (Z.lxor a p) q = Z.lxor (Z.lxor a q) p).
  { intros a p q. rewrite !Z.lxor_assoc. f_equal. apply Z.lxor_comm. }
  destruct (Z.land (bit_count x) 1 =? 0).
  - rewrite (E c c' x). by apply IH.
  - rewrite (E c c' x), (E l l' i), (E lb lb' (Z.lnot i)).
    rewrite !(t16_lxor (Z.lxor _ _)). rewrite Hl, Hlb. by apply IH.
Qed.

Lemma scan_flip b : forall p i c l lb, byte_list b -> (p < nbits b)%nat ->
  t16 l = l -> t16 lb = lb ->
  scan i (flip p b) c l lb =
  (let '(x, y, z) := scan i b c l lb in
   (Z.lxor x (2 ^ Z.of_nat (p mod 8)), Z.lxor y (t16 (i + Z.of_nat (p / 8))),
    Z.lxor z (t16 (Z.lnot (i + Z.of_nat (p / 8)))))).
Proof.
  induction b as [|x b IH]; intros p i c l lb Hb Hp Hl Hlb; [unfold nbits in Hp; cbn in Hp; lia|].
  inversion_clear Hb as [|?? Hx Hb'].
  destruct (decide (p < 8)%nat) as [Hlt|Hge].
  - rewrite flip_cons_lt by done. rewrite Nat.div_small, Nat.mod_small by done.
    rewrite Z.add_0_r. cbn [scan]. set (k := Z.of_nat p).
    pose proof (par_flip x k Hx ltac:(lia)) as Hpar. unfold par in Hpar. rewrite Hpar.
    fold (par x). rewrite <-Z.lxor_assoc.
    assert (E : forall a p, Z.lxor (Z.lxor a p) p = a).
    { intros a q. by rewrite Z.lxor_assoc, Z.lxor_nilpotent, Z.lxor_0_r. }
    destruct (par_01 x) as [-> | ->]; change (Z.lxor 0 1) with 1; change (Z.lxor 1 1) with 0; cbn [Z.eqb].
    + rewrite !t16_lxor, Hl, Hlb. apply scan_lin; apply t16_t16.
    + rewrite <-(scan_lin b (i + 1)) by apply t16_t16. f_equal.
      * rewrite t16_lxor, E. done.
      * rewrite t16_lxor, E. done.
  - replace p with (8 + (p - 8))%nat at 1 by lia. rewrite flip_cons_ge. cbn [scan].
    assert (Hp' : (p - 8 < nbits b)%nat) by (unfold nbits in *; cbn in Hp; lia).
    assert (E1 : (p mod 8 = (p - 8) mod 8)%nat).
    { replace p with (p - 8 + 1 * 8)%nat at 1 by lia. by rewrite Nat.mod_add by lia. }
    assert (E2 : (p / 8 = Datatypes.S ((p - 8) / 8))%nat).
    { replace p with (p - 8 + 1 * 8)%nat at 1 by lia. rewrite Nat.div_add by lia. lia. }
    rewrite E1, E2. replace (i + Z.of_nat (Datatypes.S ((p - 8) / 8))) with (i + 1 + Z.of_nat ((p - 8) / 8)) by lia.
    destruct (Z.land (bit_count x) 1 =? 0); apply IH; auto; apply t16_t16.
Qed.

Lemma scan_column b : forall i c l lb, byte_list b -> byte c -> byte (fst (fst (scan i b c l lb))).
Proof.
  induction b as [|x b IH]; intros i c l lb Hb Hc; [done|]. inversion_clear Hb. cbn [scan].
  destruct (Z.land (bit_count x) 1 =? 0); apply IH; auto using lxor_byte.
Qed.

Lemma parity_flip b p : byte_list b -> (p < nbits b)%nat ->
  parity_scan (flip p b) = Z.lxor (parity_scan b) (pat (Z.of_nat (p / 8)) (Z.of_nat (p mod 8))).
Proof.
  intros Hb Hp. unfold parity_scan. rewrite scan_flip by done.
  pose proof (scan_column b 0 0 0 0 Hb ltac:(unfold byte; lia)) as Hc.
  destruct (scan 0 b 0 0 0) as [[x y] z]. cbn [fst] in Hc. rewrite Z.add_0_l.
  pose proof (Nat.mod_upper_bound p 8 ltac:(lia)).
  replace (emit 9 (Z.lxor y _) _ 0) with
    (Z.lxor (emit 9 y z 0) (emit 9 (t16 (Z.of_nat (p / 8))) (t16 (Z.lnot (Z.of_nat (p / 8)))) 0)).
  2:{ rewrite <-emit_lin. done. }
  rewrite columns_flip by (done || lia). unfold pat. apply lxor_swap.
Qed.

(** The checksum fits in 24 bits and the ECC bytes store it. *)
Lemma unpack_lin e0 e1 e2 : byte e0 -> byte e1 -> byte e2 ->
  unpack [e0; e1; e2] = Z.lxor e0 (Z.lxor (Z.shiftl e1 8) (Z.shiftl e2 16)).
Proof.
  intros H0 H1 H2. unfold byte in *. unfold unpack, t32. cbn [nth]. rewrite Z.lor_0_l.
  change 4294967295 with (Z.ones 32).
  assert (Hs : forall x, 0 <= x < 65536 -> Z.land (Z.shiftl x 8) (Z.ones 32) = Z.shiftl x 8).
  { intros x Hx. rewrite Z.land_ones by lia. rewrite Z.shiftl_mul_pow2 by lia. apply Z.mod_small.
    change (2 ^ 8) with 256. change (2 ^ 32) with 4294967296. lia. }
  assert (Hd : forall x y, 0 <= y < 256 -> Z.lor (Z.shiftl x 8) y = Z.lxor (Z.shiftl x 8) y).
  { intros x y Hy. symmetry. apply Z.lxor_lor. apply Z.bits_inj'. intros k Hk.
    rewrite Z.land_spec, Z.bits_0, Z.shiftl_spec by lia.
    destruct (Z.lt_ge_cases k 8); [by rewrite Z.testbit_neg_r by lia|].
    destruct (Z.eq_dec y 0) as [-> |]; [rewrite Z.bits_0; apply andb_false_r|].
    rewrite (Z.bits_above_log2 y); [apply andb_false_r|lia|].
    apply Z.lt_le_trans with 8; [|done]. apply Z.log2_lt_pow2; lia. }
  rewrite (Hs e2) by lia. rewrite (Hd e2 e1) by lia.
  assert (Hb : 0 <= Z.lxor (Z.shiftl e2 8) e1 < 65536).
  { rewrite <-Hd by lia. rewrite Z.shiftl_mul_pow2 by lia. change (2 ^ 8) with 256.
    assert (E : Z.lor (e2 * 256) e1 = e2 * 256 + e1).
    { symmetry.
      change 256 with (2 ^ 8). rewrite <-Z.shiftl_mul_pow2 by lia.
      rewrite Hd by lia. apply Z.add_nocarry_lxor.
      specialize (Hd e2 e1 H1). apply Z.bits_inj'. intros k Hk.
      rewrite Z.land_spec, Z.bits_0, Z.shiftl_spec by lia.
      destruct (Z.lt_ge_cases k 8); [by rewrite Z.testbit_neg_r by lia|].
      destruct (Z.eq_dec e1 0) as [-> |]; [rewrite Z.bits_0; apply andb_false_r|].
      rewrite (Z.bits_above_log2 e1); [apply andb_false_r|lia|].
      apply Z.lt_le_trans with 8; [|done]. apply Z.log2_lt_pow2; lia. }
    rewrite E. lia. }
  rewrite (Hs _ Hb). rewrite Hd by lia. rewrite Z.shiftl_lxor, Z.shiftl_shiftl by lia.
  change (8 + 8) with 16. rewrite (Z.lxor_comm _ e0). f_equal. apply Z.lxor_comm.
Qed.

Lemma unpack_flip e k : byte_list e -> length e = 3%nat -> (k < 24)%nat ->
  unpack (flip k e) = Z.lxor (unpack e) (2 ^ Z.of_nat k).
Proof.
  intros He Hl Hk. destruct e as [|e0 [|e1 [|e2 [|]]]]; try done.
  inversion_clear He as [|?? H0 He1]. inversion_clear He1 as [|?? H1 He2]. inversion_clear He2 as [|?? H2 _].
  rewrite (unpack_lin e0 e1 e2) by done.
  assert (Hp : forall j, (j < 8)%nat -> byte (2 ^ Z.of_nat j)).
  { intros j Hj. rewrite <-(Nat.mod_small j 8) by done. apply pow_byte. }
  destruct (decide (k < 8)%nat).
  { rewrite flip_cons_lt by done. rewrite unpack_lin by auto using lxor_byte.
    rewrite !Z.lxor_assoc. f_equal. rewrite Z.lxor_comm, Z.lxor_assoc. done. }
  destruct (decide (k < 16)%nat).
  { replace k with (8 + (k - 8))%nat at 1 by lia. rewrite flip_cons_ge, flip_cons_lt by lia.
    rewrite unpack_lin by (try apply lxor_byte; try done; apply Hp; lia).
    rewrite Z.shiftl_lxor. rewrite !Z.lxor_assoc. do 2 f_equal. rewrite Z.lxor_comm. f_equal.
    rewrite Z.shiftl_mul_pow2, <-Z.pow_add_r by lia. f_equal. lia. }
  replace k with (8 + (8 + (k - 16)))%nat at 1 by lia. rewrite !flip_cons_ge, flip_cons_lt by lia.
  rewrite unpack_lin by (try apply lxor_byte; try done; apply Hp; lia).
  rewrite Z.shiftl_lxor. rewrite !Z.lxor_assoc. do 3 f_equal.
  rewrite Z.shiftl_mul_pow2, <-Z.pow_add_r by lia. f_equal. lia.
Qed.

Lemma generate_unpack b : byte_list b -> unpack (hamming_generate b) = parity_scan b.
Proof.
  intros Hb. unfold hamming_generate. set (p := parity_scan b).
  assert (Hp : Z.shiftr p 24 = 0).
  { unfold p, parity_scan. pose proof (scan_column b 0 0 0 0 Hb ltac:(unfold byte; lia)) as Hc.
    destruct (scan 0 b 0 0 0) as [[x y] z]. cbn [fst] in Hc.
    assert (Hpush : forall n o v, 0 <= n -> Z.shiftr o n = 0 -> Z.shiftr (push o v) (n + 1) = 0).
    { intros n o v Hn Ho. unfold push, t32. rewrite Z.shiftr_lor, !Z.shiftr_land.
      replace (Z.shiftr (Z.shiftl o 1) (n + 1)) with (Z.shiftr o n).
      2:{ rewrite Z.shiftr_shiftl_r by lia. f_equal. lia. }
      rewrite Ho, Z.land_0_l, Z.lor_0_l.
      replace (Z.shiftr 1 (n + 1)) with 0; [apply Z.land_0_r|].
      symmetry. rewrite Z.shiftr_div_pow2 by lia. apply Z.div_small.
      pose proof (Z.pow_gt_lin_r 2 (n + 1) ltac:(lia) ltac:(lia)). lia. }
    rewrite Z.shiftr_lxor. change (Z.shiftr 16777215 24) with 0. rewrite Z.lxor_0_r.
    unfold columns. cbn [emit].
    change 24 with (0 + 1 + 1 + 1 + 1 + 1 + 1 + 1 + 1 + 1 + 1 + 1 + 1 + 1 + 1 + 1 + 1 + 1 + 1 + 1 + 1 + 1 + 1 + 1 + 1).
    do 24 (apply Hpush; [lia|]). done. }
  assert (Hl : forall x, byte (Z.land x 255)).
  { intros x. change 255 with (Z.ones 8). rewrite Z.land_ones by lia.
    pose proof (Z.mod_pos_bound x (2 ^ 8) ltac:(lia)). done. }
  rewrite unpack_lin by apply Hl.
  apply Z.bits_inj'. intros k Hk. rewrite !Z.lxor_spec, !Z.shiftl_spec by lia.
  change 255 with (Z.ones 8).
  destruct (Z.lt_ge_cases k 8).
  { rewrite !(Z.testbit_neg_r _ (k - 8)), !(Z.testbit_neg_r _ (k - 16)) by lia.
    rewrite Z.land_spec, Z.ones_spec_low by lia. rewrite !xorb_false_r. apply andb_true_r. }
  rewrite (Z.land_spec p), Z.ones_spec_high by lia. rewrite andb_false_r, xorb_false_l.
  destruct (Z.lt_ge_cases k 16).
  { rewrite !(Z.testbit_neg_r _ (k - 16)) by lia.
    rewrite Z.land_spec, Z.ones_spec_low, Z.shiftr_spec by lia. rewrite !xorb_false_r, andb_true_r. f_equal. lia. }
  rewrite (Z.land_spec (Z.shiftr p 8)), Z.ones_spec_high by lia. rewrite andb_false_r, xorb_false_l.
  destruct (Z.lt_ge_cases k 24).
  { rewrite Z.land_spec, Z.ones_spec_low, Z.shiftr_spec by lia. rewrite andb_true_r. f_equal. lia. }
  rewrite Z.land_spec, Z.ones_spec_high by lia. rewrite andb_false_r.
  replace k with (k - 24 + 24) by lia. rewrite <-Z.shiftr_spec by lia. by rewrite Hp, Z.bits_0.
Qed.

Lemma generate_bytes b : byte_list (hamming_generate b) /\ length (hamming_generate b) = 3%nat.
Proof.
  split; [|done].
  assert (Hl : forall x, byte (Z.land x 255)).
  { intros x. change 255 with (Z.ones 8). rewrite Z.land_ones by lia.
    pose proof (Z.mod_pos_bound x (2 ^ 8) ltac:(lia)). done. }
  repeat constructor; apply Hl.
Qed.

(** ** Error patterns *)

(** Pair [m] of a syndrome spreads bit [m] of the position. *)
Definition spread (k : Z) : Z :=
  foldr Z.lxor 0 (map (fun m => if Z.testbit k (Z.of_nat m) then 3 * 4 ^ Z.of_nat m else 0) (seq 0 12)).
Lemma spread_lin a b : spread (Z.lxor a b) = Z.lxor (spread a) (spread b).
Proof.
  unfold spread. induction (seq 0 12) as [|m l IH]; [done|]. cbn [map foldr]. rewrite IH, Z.lxor_spec.
  set (x := foldr _ _ _). set (y := foldr Z.lxor 0 _). set (v := 3 * _).
  destruct (Z.testbit a _), (Z.testbit b _); cbn [xorb]; rewrite ?Z.lxor_0_l; try done.
  - rewrite (Z.lxor_comm v x), Z.lxor_assoc, <-(Z.lxor_assoc v v), Z.lxor_nilpotent, Z.lxor_0_l. done.
  - by rewrite Z.lxor_assoc.
  - rewrite <-!Z.lxor_assoc. f_equal. apply Z.lxor_comm.
Qed.

Definition patn (p : Z) : Z := pat (Z.shiftr p 3) (Z.land p 7).
Lemma patn_spread p : 0 <= p < 4096 -> patn p = Z.lxor (spread p) 11184810.
Proof.
  intros Hp. assert (H : all_below 4096 (fun p => patn p =? Z.lxor (spread p) 11184810) = true) by (by vm_compute).
  apply Z.eqb_eq, (all_below_spec _ _ H p Hp).
Qed.
Lemma pat_patn p : pat (Z.of_nat (p / 8)) (Z.of_nat (p mod 8)) = patn (Z.of_nat p).
Proof.
  unfold patn. rewrite Z.shiftr_div_pow2 by lia. change 7 with (Z.ones 3). rewrite Z.land_ones by lia.
  change (2 ^ 3) with 8. by rewrite Nat2Z.inj_div, Nat2Z.inj_mod.
Qed.

Definition pow2b (s : Z) : bool := Z.land s (s - 1) =? 0.
Lemma locate_one p : 0 <= p < 4096 ->
  patn p <> 0 /\ pow2b (patn p) = false /\ locate 12 (patn p) 0 1 = Some p.
Proof.
  intros Hp. assert (H : all_below 4096 (fun p => negb (patn p =? 0) && negb (pow2b (patn p)) &&
    match locate 12 (patn p) 0 1 with Some q => q =? p | None => false end) = true) by (by vm_compute).
  pose proof (all_below_spec _ _ H p Hp) as H1. cbn beta in H1.
  apply andb_prop in H1 as [H1 H3]. apply andb_prop in H1 as [H1 H2].
  apply negb_true_iff in H1, H2. apply Z.eqb_neq in H1.
  split; [exact H1|]. split; [exact H2|].
  destruct (locate _ _ _ _); [|discriminate H3]. apply Z.eqb_eq in H3. by rewrite H3.
Qed.
Lemma locate_two p q : 0 <= p < 4096 -> 0 <= q < 4096 -> p <> q ->
  let s := Z.lxor (patn p) (patn q) in
  s <> 0 /\ pow2b s = false /\ locate 12 s 0 1 = None.
Proof.
  intros Hp Hq Hn s.
  assert (E : s = spread (Z.lxor p q)).
  { unfold s. rewrite !patn_spread, spread_lin by done.
    rewrite Z.lxor_assoc. f_equal. rewrite (Z.lxor_comm (spread q)), <-Z.lxor_assoc.
    by rewrite Z.lxor_nilpotent, Z.lxor_0_l. }
  clearbody s. subst s.
  assert (Hr : 0 <= Z.lxor p q < 4096).
  { split; [apply Z.lxor_nonneg; lia|].
    destruct (Z.eq_dec (Z.lxor p q) 0) as [-> |]; [lia|].
    assert (0 <= Z.lxor p q) by (apply Z.lxor_nonneg; lia).
    apply (Z.log2_lt_cancel _ 4096). change (Z.log2 4096) with 12.
    pose proof (Z.log2_lxor p q ltac:(lia) ltac:(lia)) as Hl.
    assert (Hlog : forall v, 0 <= v < 4096 -> Z.log2 v < 12).
    { intros v Hv. destruct (Z.eq_dec v 0) as [-> |]; [cbn; lia|]. apply Z.log2_lt_pow2; lia. }
    pose proof (Hlog p Hp). pose proof (Hlog q Hq). lia. }
  assert (Hz : Z.lxor p q <> 0) by (intros HH; by apply Z.lxor_eq in HH).
  assert (H : all_below 4096 (fun k => (k =? 0) || (negb (spread k =? 0) && negb (pow2b (spread k)) &&
    match locate 12 (spread k) 0 1 with Some q => false | None => true end)) = true) by (by vm_compute).
  pose proof (all_below_spec _ _ H _ Hr) as H1. cbn beta in H1.
  rewrite (proj2 (Z.eqb_neq _ _) Hz) in H1. cbn [orb] in H1.
  apply andb_prop in H1 as [H1 H3]. apply andb_prop in H1 as [H1 H2].
  apply negb_true_iff in H1, H2. apply Z.eqb_neq in H1.
  split; [exact H1|]. split; [exact H2|]. destruct (locate _ _ _ _); [discriminate H3|reflexivity].
Qed.
Lemma locate_mix p k : 0 <= p < 4096 -> 0 <= k < 24 ->
  let s := Z.lxor (patn p) (2 ^ k) in
  s <> 0 /\ pow2b s = false /\ locate 12 s 0 1 = None.
Proof.
  intros Hp Hk s. assert (H : all_below 4096 (fun p => let q := patn p in all_below 24 (fun k => let s := Z.lxor q (2 ^ k) in
    negb (s =? 0) && negb (pow2b s) &&
    match locate 12 s 0 1 with Some q => false | None => true end)) = true) by (by vm_compute).
  pose proof (all_below_spec _ _ H _ Hp) as H0. cbn beta zeta in H0.
  pose proof (all_below_spec _ _ H0 _ Hk) as H1. cbn beta zeta in H1. fold s in H1.
  apply andb_prop in H1 as [H1 H3]. apply andb_prop in H1 as [H1 H2].
  apply negb_true_iff in H1, H2. apply Z.eqb_neq in H1.
  split; [exact H1|]. split; [exact H2|]. destruct (locate _ _ _ _); [discriminate H3|reflexivity].
Qed.
Lemma locate_ecc i j : 0 <= i < 24 -> 0 <= j < 24 -> i <> j ->
  let s := Z.lxor (2 ^ i) (2 ^ j) in
  s <> 0 /\ pow2b s = false /\ locate 12 s 0 1 = None.
Proof.
  intros Hi Hj Hn s. assert (H : all_below 24 (fun i => all_below 24 (fun j => (i =? j) || let s := Z.lxor (2 ^ i) (2 ^ j) in
    negb (s =? 0) && negb (pow2b s) &&
    match locate 12 s 0 1 with Some q => false | None => true end)) = true) by (by vm_compute).
  pose proof (all_below_spec _ _ H _ Hi) as H0. cbn beta zeta in H0.
  pose proof (all_below_spec _ _ H0 _ Hj) as H1. cbn beta zeta in H1. fold s in H1.
  rewrite (proj2 (Z.eqb_neq _ _) Hn) in H1. cbn [orb] in H1.
  apply andb_prop in H1 as [H1 H3]. apply andb_prop in H1 as [H1 H2].
  apply negb_true_iff in H1, H2. apply Z.eqb_neq in H1.
  split; [exact H1|]. split; [exact H2|]. destruct (locate _ _ _ _); [discriminate H3|reflexivity].
Qed.

Local Opaque patn spread pat locate parity_scan unpack hamming_generate.

Lemma repair_none b s : s <> 0 -> pow2b s = false -> locate 12 s 0 1 = None ->
  hamming_repair b s = (-1, b).
Proof.
  intros H0 H1 H2. unfold hamming_repair. rewrite (proj2 (Z.eqb_neq _ _) H0).
  unfold pow2b in H1. by rewrite H1, H2.
Qed.
Lemma repair_pos b s p : s <> 0 -> pow2b s = false -> locate 12 s 0 1 = Some (Z.of_nat p) ->
  (p < nbits b)%nat -> hamming_repair b s = (0, flip p b).
Proof.
  intros H0 H1 H2 Hp. unfold hamming_repair. rewrite (proj2 (Z.eqb_neq _ _) H0).
  unfold pow2b in H1. rewrite H1, H2.
  assert (E3 : Z.shiftr (Z.of_nat p) 3 = Z.of_nat (p / 8)).
  { rewrite Z.shiftr_div_pow2 by lia. by rewrite Nat2Z.inj_div. }
  assert (E7 : Z.shiftl 1 (Z.land (Z.of_nat p) 7) = 2 ^ Z.of_nat (p mod 8)).
  { change 7 with (Z.ones 3). rewrite Z.land_ones by lia. change (2 ^ 3) with (Z.of_nat 8).
    rewrite <-Nat2Z.inj_mod. rewrite Z.shiftl_mul_pow2 by lia. lia. }
  rewrite E3, E7, Nat2Z.id. rewrite (proj2 (Z.ltb_lt _ _)); [done|].
  unfold nbits in Hp. apply Nat2Z.inj_lt. apply Nat.div_lt_upper_bound; lia.
Qed.

(** ** C30, C31: statements over the stored codeword [chunk ++ ecc] *)

(** The stored codeword, and what is read back of it after bit errors. *)
Definition codeword (chunk : list Z) : list Z := chunk ++ hamming_generate chunk.
Definition data_of (chunk w : list Z) : list Z := take (length chunk) w.
Definition ecc_of (chunk w : list Z) : list Z := drop (length chunk) w.
Definition syndrome_of (chunk w : list Z) : Z := hamming_syndrome (data_of chunk w) (ecc_of chunk w).

Section codeword.
Context (chunk : list Z) (Hb : byte_list chunk) (Hlen : (length chunk <= 512)%nat).
Notation word := (codeword chunk).
Notation data := (data_of chunk).
Notation ecc := (ecc_of chunk).
Notation syn := (syndrome_of chunk).

Lemma data_app a b : length a = length chunk -> data (a ++ b) = a.
Proof. intros E. unfold data_of. by rewrite <-E, take_app. Qed.
Lemma ecc_app a b : length a = length chunk -> ecc (a ++ b) = b.
Proof. intros E. unfold ecc_of. by rewrite <-E, drop_app. Qed.

(** Without errors. *)
Theorem C30_no_error : syn word = 0 /\ hamming_repair (data word) (syn word) = (0, chunk).
Proof.
  assert (E : syn word = 0).
  { unfold syndrome_of, codeword. rewrite data_app, ecc_app by done. unfold hamming_syndrome.
    rewrite generate_unpack by done. apply Z.lxor_nilpotent. }
  split; [done|]. rewrite E. unfold codeword. by rewrite data_app.
Qed.

Lemma syn_cases a e b k : length a = length chunk -> byte_list a -> byte_list e -> length e = 3%nat ->
  hamming_syndrome a e = b ->
  (forall p, (p < nbits a)%nat -> hamming_syndrome (flip p a) e = Z.lxor (patn (Z.of_nat p)) b) /\
  ((k < 24)%nat -> hamming_syndrome a (flip k e) = Z.lxor (2 ^ Z.of_nat k) b).
Proof.
  intros Hl Ha He Hle Hs. unfold hamming_syndrome in *. split.
  - intros p Hp. rewrite parity_flip, pat_patn by done. rewrite <-Hs.
    rewrite lxor_swap. apply Z.lxor_comm.
  - intros Hk. rewrite unpack_flip by done. rewrite <-Hs. rewrite <-Z.lxor_assoc. apply Z.lxor_comm.
Qed.

(** C30: any one flipped bit is corrected. *)
Theorem C30_single_bit_corrected i : (i < nbits word)%nat ->
  syn (flip i word) <> 0 /\
  hamming_repair (data (flip i word)) (syn (flip i word)) = (0, chunk).
Proof.
  intros Hi. destruct (generate_bytes chunk) as [Hgb Hgl].
  assert (Hw : nbits word = (nbits chunk + 24)%nat).
  { unfold nbits, codeword. rewrite app_length, Hgl. lia. }
  assert (Hs0 : hamming_syndrome chunk (hamming_generate chunk) = 0).
  { unfold hamming_syndrome. rewrite generate_unpack by done. apply Z.lxor_nilpotent. }
  destruct (decide (i < nbits chunk)%nat) as [Hc|Hc].
  - unfold syndrome_of, codeword. rewrite flip_app_l by done.
    rewrite data_app, ecc_app by apply flip_length.
    destruct (syn_cases chunk _ 0 0%nat eq_refl Hb Hgb Hgl Hs0) as [H1 _]. rewrite (H1 i Hc), Z.lxor_0_r.
    assert (Hi4 : 0 <= Z.of_nat i < 4096) by (unfold nbits in Hc; lia).
    destruct (locate_one _ Hi4) as (L1 & L2 & L3). split; [done|].
    rewrite (repair_pos _ _ i) by (done || (unfold nbits; rewrite flip_length; exact Hc)).
    by rewrite flip_flip.
  - assert (Ei : i = (nbits chunk + (i - nbits chunk))%nat) by lia.
    rewrite Ei. unfold syndrome_of, codeword. rewrite flip_app_r. rewrite data_app, ecc_app by done.
    set (k := (i - nbits chunk)%nat). assert (Hk : (k < 24)%nat) by lia.
    destruct (syn_cases chunk _ 0 k eq_refl Hb Hgb Hgl Hs0) as [_ H1]. rewrite (H1 Hk), Z.lxor_0_r.
    assert (Hne : 2 ^ Z.of_nat k <> 0) by (pose proof (Z.pow_pos_nonneg 2 (Z.of_nat k)); lia).
    split; [done|]. unfold hamming_repair. rewrite (proj2 (Z.eqb_neq _ _) Hne).
    assert (H : all_below 24 (fun k => pow2b (2 ^ k)) = true) by (by vm_compute).
    pose proof (all_below_spec _ _ H (Z.of_nat k) ltac:(lia)) as H2. unfold pow2b in H2. by rewrite H2.
Qed.

(** C31: any two flipped bits are reported as uncorrectable, and the chunk is
    left alone. *)
Theorem C31_double_bit_detected i j : (i < nbits word)%nat -> (j < nbits word)%nat -> i <> j ->
  syn (flips [i; j] word) <> 0 /\
  hamming_repair (data (flips [i; j] word)) (syn (flips [i; j] word)) = (-1, data (flips [i; j] word)).
Proof.
  intros Hi Hj Hn. destruct (generate_bytes chunk) as [Hgb Hgl].
  assert (Hw : nbits word = (nbits chunk + 24)%nat).
  { unfold nbits, codeword. rewrite app_length, Hgl. lia. }
  assert (Hs0 : hamming_syndrome chunk (hamming_generate chunk) = 0).
  { unfold hamming_syndrome. rewrite generate_unpack by done. apply Z.lxor_nilpotent. }
  change (flips [i; j] word) with (flip i (flip j word)).
  assert (Hwlog : forall i j, (i < nbits word)%nat -> (j < nbits word)%nat -> i <> j ->
    ((j < nbits chunk)%nat \/ (nbits chunk <= i)%nat) ->
    syn (flip i (flip j word)) <> 0 /\
    hamming_repair (data (flip i (flip j word))) (syn (flip i (flip j word))) = (-1, data (flip i (flip j word)))).
  { clear i j Hi Hj Hn. intros i j Hi Hj Hn Hij.
    destruct (decide (j < nbits chunk)%nat) as [Hjc|Hjc].
    - destruct (syn_cases chunk _ 0 0%nat eq_refl Hb Hgb Hgl Hs0) as [H1 _]. specialize (H1 j Hjc).
      rewrite Z.lxor_0_r in H1.
      assert (Hj4 : 0 <= Z.of_nat j < 4096) by (unfold nbits in Hjc; lia).
      destruct (syn_cases (flip j chunk) (hamming_generate chunk) _ (i - nbits chunk)%nat (flip_length _ _) (flip_bytes _ _ Hb) Hgb Hgl H1) as [H2 H3].
      unfold codeword. rewrite flip_app_l by done.
      destruct (decide (i < nbits chunk)%nat) as [Hic|Hic].
      + rewrite flip_app_l by (unfold nbits; rewrite flip_length; exact Hic).
        unfold syndrome_of. rewrite data_app, ecc_app by (by rewrite !flip_length).
        rewrite H2 by (unfold nbits; rewrite flip_length; exact Hic).
        assert (Hi4 : 0 <= Z.of_nat i < 4096) by (unfold nbits in Hic; lia).
        destruct (locate_two _ _ Hi4 Hj4 ltac:(lia)) as (L1 & L2 & L3). split; [done|]. by apply repair_none.
      + replace i with (nbits (flip j chunk) + (i - nbits chunk))%nat by (unfold nbits in *; rewrite flip_length; lia).
        rewrite flip_app_r. unfold syndrome_of. rewrite data_app, ecc_app by (by rewrite !flip_length).
        replace (nbits (flip j chunk) + (i - nbits chunk) - nbits (flip j chunk))%nat with (i - nbits chunk)%nat by lia.
        rewrite H3 by lia. rewrite Z.lxor_comm.
        destruct (locate_mix (Z.of_nat j) (Z.of_nat (i - nbits chunk)) Hj4 ltac:(lia)) as (L1 & L2 & L3).
        split; [done|]. by apply repair_none.
    - assert (Hic : (nbits chunk <= i)%nat) by lia.
      destruct (syn_cases chunk _ 0 (j - nbits chunk)%nat eq_refl Hb Hgb Hgl Hs0) as [_ H1].
      specialize (H1 ltac:(lia)). rewrite Z.lxor_0_r in H1.
      destruct (syn_cases chunk (flip (j - nbits chunk) (hamming_generate chunk)) _ (i - nbits chunk)%nat eq_refl Hb
        (flip_bytes _ _ Hgb) ltac:(by rewrite flip_length) H1) as [_ H3]. specialize (H3 ltac:(lia)).
      replace i with (nbits chunk + (i - nbits chunk))%nat by lia.
      replace j with (nbits chunk + (j - nbits chunk))%nat by lia.
      unfold codeword. rewrite !flip_app_r. unfold syndrome_of. rewrite data_app, ecc_app by done. rewrite H3.
      destruct (locate_ecc (Z.of_nat (i - nbits chunk)) (Z.of_nat (j - nbits chunk)) ltac:(lia) ltac:(lia) ltac:(lia)) as (L1 & L2 & L3).
      split; [done|]. by apply repair_none. }
  destruct (decide (j < nbits chunk)%nat) as [Hjc|Hjc]; [apply Hwlog; auto|].
  destruct (decide (i < nbits chunk)%nat) as [Hic|Hic].
  - rewrite flip_comm. apply Hwlog; auto.
  - apply Hwlog; auto. right. lia.
Qed.
End codeword.

Local Transparent parity_scan hamming_generate unpack.
(** C32 for the Hamming code: an erased chunk with erased ECC bytes is fine. *)
Lemma scan_erased n : forall i, scan i (replicate n 255) 0 0 0 = (if Nat.even n then 0 else 255, 0, 0) /\
  scan i (replicate n 255) 255 0 0 = (if Nat.even n then 255 else 0, 0, 0).
Proof.
  induction n as [|n IH]; intros i; [done|]. cbn [replicate scan].
  change (Z.land (bit_count 255) 1 =? 0) with true. change (Z.lxor 255 255) with 0. change (Z.lxor 0 255) with 255.
  rewrite Nat.even_succ, <-Nat.negb_even. destruct (IH (i + 1)) as [E1 E2]. rewrite E1, E2. by destruct (Nat.even n).
Qed.
Theorem C32_hamming_erased n : hamming_generate (replicate n 255) = [255; 255; 255] /\
  hamming_syndrome (replicate n 255) [255; 255; 255] = 0.
Proof.
  assert (E : parity_scan (replicate n 255) = 16777215).
  { unfold parity_scan. rewrite (proj1 (scan_erased n 0)). by destruct (Nat.even n). }
  unfold hamming_syndrome, hamming_generate. by rewrite E.
Qed.

(** A concrete instance: a three-byte chunk, errors in data and ECC. *)
Example ex_C30 : hamming_repair [18; 53; 86] (hamming_syndrome [18; 53; 86] (hamming_generate [18; 52; 86])) = (0, [18; 52; 86]).
Proof. by vm_compute. Qed.
Example ex_C31 : fst (hamming_repair [18; 53; 22] (hamming_syndrome [18; 53; 22] (hamming_generate [18; 52; 86]))) = -1.
Proof. by vm_compute. Qed.
