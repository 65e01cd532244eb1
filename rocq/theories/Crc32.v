(** Model of ecc/crc32.c and the theorems C32 (CRC part), C33, C34 about it. *)
From stdpp Require Import list.
From Coq Require Import ZArith Lia MSetPositive.
From Verif Require Import EccBits.
Local Open Scope Z_scope.

(** ** Model *)

(** reduce (crc32.c:26-91) *)
Definition reduce_tab : list Z :=
  [0; 1996959894; 3993919788; 2567524794; 124634137; 1886057615;
   3915621685; 2657392035; 249268274; 2044508324; 3772115230; 2547177864;
   162941995; 2125561021; 3887607047; 2428444049; 498536548; 1789927666;
   4089016648; 2227061214; 450548861; 1843258603; 4107580753; 2211677639;
   325883990; 1684777152; 4251122042; 2321926636; 335633487; 1661365465;
   4195302755; 2366115317; 997073096; 1281953886; 3579855332; 2724688242;
   1006888145; 1258607687; 3524101629; 2768942443; 901097722; 1119000684;
   3686517206; 2898065728; 853044451; 1172266101; 3705015759; 2882616665;
   651767980; 1373503546; 3369554304; 3218104598; 565507253; 1454621731;
   3485111705; 3099436303; 671266974; 1594198024; 3322730930; 2970347812;
   795835527; 1483230225; 3244367275; 3060149565; 1994146192; 31158534;
   2563907772; 4023717930; 1907459465; 112637215; 2680153253; 3904427059;
   2013776290; 251722036; 2517215374; 3775830040; 2137656763; 141376813;
   2439277719; 3865271297; 1802195444; 476864866; 2238001368; 4066508878;
   1812370925; 453092731; 2181625025; 4111451223; 1706088902; 314042704;
   2344532202; 4240017532; 1658658271; 366619977; 2362670323; 4224994405;
   1303535960; 984961486; 2747007092; 3569037538; 1256170817; 1037604311;
   2765210733; 3554079995; 1131014506; 879679996; 2909243462; 3663771856;
   1141124467; 855842277; 2852801631; 3708648649; 1342533948; 654459306;
   3188396048; 3373015174; 1466479909; 544179635; 3110523913; 3462522015;
   1591671054; 702138776; 2966460450; 3352799412; 1504918807; 783551873;
   3082640443; 3233442989; 3988292384; 2596254646; 62317068; 1957810842;
   3939845945; 2647816111; 81470997; 1943803523; 3814918930; 2489596804;
   225274430; 2053790376; 3826175755; 2466906013; 167816743; 2097651377;
   4027552580; 2265490386; 503444072; 1762050814; 4150417245; 2154129355;
   426522225; 1852507879; 4275313526; 2312317920; 282753626; 1742555852;
   4189708143; 2394877945; 397917763; 1622183637; 3604390888; 2714866558;
   953729732; 1340076626; 3518719985; 2797360999; 1068828381; 1219638859;
   3624741850; 2936675148; 906185462; 1090812512; 3747672003; 2825379669;
   829329135; 1181335161; 3412177804; 3160834842; 628085408; 1382605366;
   3423369109; 3138078467; 570562233; 1426400815; 3317316542; 2998733608;
   733239954; 1555261956; 3268935591; 3050360625; 752459403; 1541320221;
   2607071920; 3965973030; 1969922972; 40735498; 2617837225; 3943577151;
   1913087877; 83908371; 2512341634; 3803740692; 2075208622; 213261112;
   2463272603; 3855990285; 2094854071; 198958881; 2262029012; 4057260610;
   1759359992; 534414190; 2176718541; 4139329115; 1873836001; 414664567;
   2282248934; 4279200368; 1711684554; 285281116; 2405801727; 4167216745;
   1634467795; 376229701; 2685067896; 3608007406; 1308918612; 956543938;
   2808555105; 3495958263; 1231636301; 1047427035; 2932959818; 3654703836;
   1088359270; 936918000; 2847714899; 3736837829; 1202900863; 817233897;
   3183342108; 3401237130; 1404277552; 615818150; 3134207493; 3453421203;
   1423857449; 601450431; 3009837614; 3294710456; 1567103746; 711928724;
   3020668471; 3272380065; 1510334235; 755167117].
Definition reduce (x : Z) : Z := nth (Z.to_nat x) reduce_tab 0.

(** crc32_nand (crc32.c:93-102) *)
Definition crc_byte (c b : Z) : Z :=
  Z.lxor (Z.lxor (Z.shiftr c 8) (reduce (Z.land (Z.lxor c b) 255))) 4278190080.
Definition crc32_nand (block : list Z) (c : Z) : Z := foldl crc_byte c block.

(** ** Specification: bit-serial CRC

    The division register of the IEEE 802.3 polynomial, bit 31 holding the
    coefficient of x^0: one step multiplies by x. *)
Definition POLY : Z := 3988292384.  (* 0xedb88320 *)
Definition step (r : Z) : Z := Z.lxor (Z.shiftr r 1) (if Z.odd r then POLY else 0).
(** Feed one message bit. *)
Definition feed (r : Z) (b : bool) : Z := step (Z.lxor r (if b then 1 else 0)).
Definition crc_bits (bits : list bool) (r : Z) : Z := foldl feed r bits.
(** The bits of a block, least significant bit of each byte first. *)
Definition byte_bits (x : Z) : list bool := map (fun k => Z.testbit x (Z.of_nat k)) (seq 0 8).
Definition block_bits (b : list Z) : list bool := concat (map byte_bits b).
Definition u32 (x : Z) : Prop := 0 <= x < 2 ^ 32.
Definition not32 (x : Z) : Z := Z.lxor x 4294967295.

(** ** The register *)

Fixpoint stepn (n : nat) (r : Z) : Z := match n with O => r | S n => stepn n (step r) end.

Lemma stepn_add a b r : stepn (a + b) r = stepn b (stepn a r).
Proof. revert r. induction a as [|a IH]; intros r; [done|]. cbn [Nat.add stepn]. apply IH. Qed.
Lemma step_lin a b : step (Z.lxor a b) = Z.lxor (step a) (step b).
Proof.
  unfold step. rewrite Z.shiftr_lxor.
  replace (Z.odd (Z.lxor a b)) with (xorb (Z.odd a) (Z.odd b)) by (rewrite <-!Z.bit0_odd; by rewrite Z.lxor_spec).
  destruct (Z.odd a), (Z.odd b); cbn [xorb]; rewrite ?Z.lxor_0_r.
  - rewrite (lxor_swap _ POLY). rewrite <-Z.lxor_assoc. by rewrite lxor_cancel.
  - apply lxor_swap.
  - by rewrite Z.lxor_assoc.
  - done.
Qed.
Lemma stepn_lin n : forall a b, stepn n (Z.lxor a b) = Z.lxor (stepn n a) (stepn n b).
Proof. induction n as [|n IH]; intros a b; [done|]. cbn [stepn]. by rewrite step_lin, IH. Qed.
Lemma stepn_0 n : stepn n 0 = 0.
Proof. induction n as [|n IH]; [done|]. exact IH. Qed.

Lemma lt_bits r n : 0 <= n -> 0 <= r < 2 ^ n <-> 0 <= r /\ forall k, n <= k -> Z.testbit r k = false.
Proof.
  intros Hn. split.
  - intros [H0 H]. split; [done|]. intros k Hk. destruct (Z.eq_dec r 0) as [-> |]; [apply Z.bits_0|].
    apply Z.bits_above_log2; [done|]. apply Z.lt_le_trans with n; [|done]. apply Z.log2_lt_pow2; lia.
  - intros [H0 H]. split; [done|]. destruct (Z.eq_dec r 0) as [-> |]; [apply Z.pow_pos_nonneg; lia|].
    apply Z.log2_lt_pow2; [lia|]. destruct (Z.lt_ge_cases (Z.log2 r) n) as [|Hc]; [done|].
    specialize (H _ Hc). rewrite Z.bit_log2 in H by lia. done.
Qed.
Lemma lxor_lt a b n : 0 <= n -> 0 <= a < 2 ^ n -> 0 <= b < 2 ^ n -> 0 <= Z.lxor a b < 2 ^ n.
Proof.
  intros Hn Ha Hb. apply lt_bits; [done|]. apply (lt_bits a n Hn) in Ha as [Ha Ha']. apply (lt_bits b n Hn) in Hb as [Hb Hb'].
  split; [apply Z.lxor_nonneg; tauto|]. intros k Hk. by rewrite Z.lxor_spec, Ha', Hb' by done.
Qed.
Lemma shiftr_lt r n m : 0 <= n -> 0 <= m <= n -> 0 <= r < 2 ^ n -> 0 <= Z.shiftr r m < 2 ^ (n - m).
Proof.
  intros Hn Hm Hr. rewrite Z.shiftr_div_pow2 by lia. split; [apply Z.div_pos; [lia|apply Z.pow_pos_nonneg; lia]|].
  apply Z.div_lt_upper_bound; [apply Z.pow_pos_nonneg; lia|]. rewrite <-Z.pow_add_r by lia.
  replace (m + (n - m)) with n by lia. lia.
Qed.
Lemma step_u32 r : u32 r -> u32 (step r).
Proof.
  intros Hr. unfold step. apply lxor_lt; [lia| |].
  - pose proof (shiftr_lt r 32 1 ltac:(lia) ltac:(lia) Hr). change (2 ^ (32 - 1)) with 2147483648 in *.
    change (2 ^ 32) with 4294967296. lia.
  - destruct (Z.odd r); [unfold POLY|]; change (2 ^ 32) with 4294967296; lia.
Qed.
(** The step is invertible. *)
Lemma step_zero r : u32 r -> step r = 0 -> r = 0.
Proof.
  intros Hr H. unfold step in H. apply Z.lxor_eq in H.
  pose proof (shiftr_lt r 32 1 ltac:(lia) ltac:(lia) Hr) as Hs. change (2 ^ (32 - 1)) with 2147483648 in *.
  destruct (Z.odd r) eqn:Eo.
  - unfold POLY in H. lia.
  - rewrite <-Z.div2_spec in H. pose proof (Zdiv2_odd_eqn r) as E. rewrite Eo, H in E. lia.
Qed.
Lemma stepn_u32 n : forall r, u32 r -> u32 (stepn n r).
Proof. induction n as [|n IH]; intros r Hr; [done|]. apply IH, step_u32, Hr. Qed.
Lemma stepn_zero n : forall r, u32 r -> stepn n r = 0 -> r = 0.
Proof. induction n as [|n IH]; intros r Hr H; [done|]. apply step_zero; [done|]. apply IH; [by apply step_u32|done]. Qed.
Lemma stepn_inj n a b : u32 a -> u32 b -> stepn n a = stepn n b -> a = b.
Proof.
  intros Ha Hb H. apply Z.lxor_eq. apply (stepn_zero n).
  - apply lxor_lt; [lia|done|done].
  - rewrite stepn_lin, H. apply Z.lxor_nilpotent.
Qed.

(** ** Table-driven step *)

Lemma stepn_shift n : forall r, stepn n (Z.shiftl r (Z.of_nat n)) = r.
Proof.
  induction n as [|n IH]; intros r; [apply Z.shiftl_0_r|]. cbn [stepn].
  replace (step (Z.shiftl r (Z.of_nat (S n)))) with (Z.shiftl r (Z.of_nat n)); [apply IH|].
  unfold step. replace (Z.odd (Z.shiftl r (Z.of_nat (S n)))) with false.
  2:{ rewrite <-Z.bit0_odd, Z.shiftl_spec by lia. rewrite Z.testbit_neg_r by lia. done. }
  rewrite Z.lxor_0_r. rewrite Z.shiftr_shiftl_l by lia. f_equal. lia.
Qed.
Lemma reduce_step x : byte x -> reduce x = stepn 8 x.
Proof.
  intros Hx. assert (H : all_below 256 (fun x => reduce x =? stepn 8 x) = true) by (by vm_compute).
  apply Z.eqb_eq, (all_below_spec _ _ H x Hx).
Qed.
Lemma split_byte r : r = Z.lxor (Z.shiftl (Z.shiftr r 8) 8) (Z.land r 255).
Proof.
  apply Z.bits_inj'. intros k Hk. change 255 with (Z.ones 8).
  rewrite Z.lxor_spec, Z.shiftl_spec, Z.land_spec by lia.
  destruct (Z.lt_ge_cases k 8).
  - rewrite (Z.testbit_neg_r _ (k - 8)), Z.ones_spec_low by lia. by rewrite andb_true_r, xorb_false_l.
  - rewrite Z.shiftr_spec, Z.ones_spec_high by lia. rewrite andb_false_r, xorb_false_r. f_equal. lia.
Qed.
Lemma land255 x : byte (Z.land x 255).
Proof.
  change 255 with (Z.ones 8). rewrite Z.land_ones by lia. apply (Z.mod_pos_bound x (2 ^ 8)). lia.
Qed.
Lemma table_step r : Z.lxor (Z.shiftr r 8) (reduce (Z.land r 255)) = stepn 8 r.
Proof.
  rewrite reduce_step by apply land255. rewrite (split_byte r) at 3. rewrite stepn_lin. f_equal.
  symmetry. apply (stepn_shift 8).
Qed.
Lemma byte_shift b : byte b -> Z.shiftr b 8 = 0.
Proof. intros [H1 H2]. rewrite Z.shiftr_div_pow2 by lia. apply Z.div_small. done. Qed.
Lemma crc_byte_step c b : byte b -> crc_byte c b = Z.lxor (stepn 8 (Z.lxor c b)) 4278190080.
Proof.
  intros Hb. unfold crc_byte. rewrite <-table_step, Z.shiftr_lxor, (byte_shift b Hb), Z.lxor_0_r. done.
Qed.

(** C33: the table is the one generated from the polynomial. *)
Theorem C33_table i : (i < 256)%nat -> nth i reduce_tab 0 = stepn 8 (Z.of_nat i).
Proof.
  intros Hi. rewrite <-reduce_step by (unfold byte; lia). unfold reduce. by rewrite Nat2Z.id.
Qed.

(** Feeding the eight bits of a byte. *)
Lemma feed_byte x : forall r, byte x -> crc_bits (byte_bits x) r = stepn 8 (Z.lxor r x).
Proof.
  intros r Hx.
  assert (H : forall n x r, 0 <= x < 2 ^ Z.of_nat n ->
    foldl feed r (map (fun k => Z.testbit x (Z.of_nat k)) (seq 0 n)) = stepn n (Z.lxor r x)).
  { clear. intros n. induction n as [|n IH]; intros x r Hx.
    - cbn. change (2 ^ Z.of_nat 0) with 1 in Hx. replace x with 0 by lia. by rewrite Z.lxor_0_r.
    - cbn [seq map foldl stepn]. rewrite <-seq_shift, map_map.
      rewrite (map_ext _ (fun k => Z.testbit (Z.shiftr x 1) (Z.of_nat k))).
      2:{ intros k. rewrite Z.shiftr_spec by lia. f_equal. lia. }
      rewrite IH.
      2:{ pose proof (shiftr_lt x (Z.of_nat (S n)) 1 ltac:(lia) ltac:(lia) Hx) as Hs.
          replace (Z.of_nat (S n) - 1) with (Z.of_nat n) in Hs by lia. done. }
      f_equal. unfold feed. change (Z.of_nat 0) with 0. rewrite Z.bit0_odd.
      assert (E : x = Z.lxor (if Z.odd x then 1 else 0) (Z.shiftl (Z.shiftr x 1) 1)).
      { apply Z.bits_inj'. intros k Hk. rewrite Z.lxor_spec, Z.shiftl_spec by lia.
        destruct (Z.eq_dec k 0) as [-> |].
        - rewrite (Z.testbit_neg_r _ (0 - 1)) by lia. rewrite xorb_false_r, Z.bit0_odd. by destruct (Z.odd x).
        - rewrite Z.shiftr_spec by lia. replace (k - 1 + 1) with k by lia.
          replace (Z.testbit (if Z.odd x then 1 else 0) k) with false; [by rewrite xorb_false_l|].
          destruct (Z.odd x); [|by rewrite Z.bits_0]. symmetry. apply Z.bits_above_log2; cbn; lia. }
      rewrite E at 3. rewrite <-Z.lxor_assoc.
      rewrite (step_lin (Z.lxor r _) (Z.shiftl _ _)). f_equal. symmetry. apply (stepn_shift 1). }
  apply (H 8%nat). exact Hx.
Qed.

(** C33: crc32_nand is the complement of the bit-serial CRC of the complemented
    data. *)
Lemma not_byte_bits b : byte b -> map negb (byte_bits b) = byte_bits (Z.lxor b 255).
Proof.
  intros Hb. unfold byte_bits. rewrite map_map. apply map_ext_in. intros k Hk. apply in_seq in Hk.
  rewrite Z.lxor_spec. change 255 with (Z.ones 8). rewrite Z.ones_spec_low by lia. by rewrite xorb_true_r.
Qed.
Lemma crc_byte_not c b : byte b -> not32 (crc_byte c b) = stepn 8 (Z.lxor (not32 c) (Z.lxor b 255)).
Proof.
  intros Hb. rewrite crc_byte_step by done. unfold not32.
  assert (C1 : Z.lxor 4278190080 4294967295 = stepn 8 4294967040) by (by vm_compute).
  assert (C2 : Z.lxor 4294967295 255 = 4294967040) by (by vm_compute).
  rewrite (Z.lxor_assoc _ 4278190080), C1, <-stepn_lin. f_equal.
  rewrite <-C2, <-Z.lxor_assoc, <-Z.lxor_assoc. f_equal. apply lxor_swap.
Qed.
Lemma crc_byte_u32 c b : u32 c -> byte b -> u32 (crc_byte c b).
Proof.
  intros Hc Hb. rewrite crc_byte_step by done. unfold u32. apply lxor_lt; [lia| |lia].
  apply stepn_u32. unfold u32. apply lxor_lt; [lia|done|]. unfold byte in Hb. change (2 ^ 32) with 4294967296. lia.
Qed.
Local Opaque crc_byte stepn.
Lemma crc_cons b block c : crc32_nand (b :: block) c = crc32_nand block (crc_byte c b).
Proof. reflexivity. Qed.
Lemma crc_bits_app a b r : crc_bits (a ++ b) r = crc_bits b (crc_bits a r).
Proof. apply foldl_app. Qed.
Lemma block_bits_cons b block : block_bits (b :: block) = byte_bits b ++ block_bits block.
Proof. reflexivity. Qed.
Theorem C33_bit_serial block c : byte_list block -> u32 c ->
  crc32_nand block c = not32 (crc_bits (map negb (block_bits block)) (not32 c)).
Proof.
  intros Hb. revert c. induction Hb as [|b block Hb HB IH]; intros c Hc.
  - symmetry. apply lxor_cancel.
  - rewrite crc_cons, block_bits_cons, map_app, crc_bits_app, not_byte_bits by done.
    rewrite (IH _ (crc_byte_u32 _ _ Hc Hb)), crc_byte_not by done.
    rewrite feed_byte; [done|]. apply lxor_byte; [done|unfold byte; lia].
Qed.
Local Transparent crc_byte stepn.

(** C33: the checksum can be carried from one piece of a block to the next. *)
Theorem C33_piecewise a b c : crc32_nand (a ++ b) c = crc32_nand b (crc32_nand a c).
Proof. apply foldl_app. Qed.

(** C32 (CRC): an erased block has the erased checksum. *)
Theorem C32_crc_erased n : crc32_nand (replicate n 255) 4294967295 = 4294967295.
Proof. induction n as [|n IH]; [done|]. cbn [replicate]. exact IH. Qed.

(** ** Error detection *)

(** x^m in the register's representation. *)
Definition X (m : nat) : Z := stepn m 2147483648.
Lemma X_u32 m : u32 (X m).
Proof. apply stepn_u32. unfold u32. lia. Qed.
Lemma X_add a b : X (a + b) = stepn b (X a).
Proof. apply stepn_add. Qed.
Lemma X_low k : (k < 32)%nat -> X (31 - k) = 2 ^ Z.of_nat k.
Proof.
  intros Hk. assert (H : all_below 32 (fun k => X (31 - Z.to_nat k) =? 2 ^ k) = true) by (by vm_compute).
  pose proof (all_below_spec _ _ H (Z.of_nat k) ltac:(lia)) as E. cbn beta in E. rewrite Nat2Z.id in E.
  by apply Z.eqb_eq.
Qed.

Lemma crc_diff b : forall c d, byte_list b -> crc32_nand b (Z.lxor c d) = Z.lxor (crc32_nand b c) (stepn (nbits b) d).
Proof.
  induction b as [|x b IH]; intros c d Hb; [done|]. inversion_clear Hb as [|?? Hx HB].
  rewrite !crc_cons, !crc_byte_step by done.
  rewrite lxor_swap, stepn_lin, lxor_swap, IH by done. f_equal.
  rewrite <-stepn_add. f_equal. unfold nbits. cbn [length]. lia.
Qed.

Lemma crc_flip b : forall p c, byte_list b -> (p < nbits b)%nat ->
  crc32_nand (flip p b) c = Z.lxor (crc32_nand b c) (X (nbits b + 31 - p)).
Proof.
  induction b as [|x b IH]; intros p c Hb Hp; [unfold nbits in Hp; cbn in Hp; lia|].
  inversion_clear Hb as [|?? Hx HB].
  assert (En : nbits (x :: b) = (8 + nbits b)%nat) by (unfold nbits; cbn [length]; lia).
  destruct (decide (p < 8)%nat) as [Hlt|Hge].
  - rewrite flip_cons_lt by done. rewrite !crc_cons.
    rewrite !crc_byte_step; [|done|apply lxor_byte; [done|]; rewrite <-(Nat.mod_small p 8) by done; apply pow_byte].
    rewrite <-Z.lxor_assoc, stepn_lin, lxor_swap. rewrite crc_diff by done. f_equal.
    rewrite <-stepn_add, <-(X_low p) by lia. rewrite <-X_add. f_equal. lia.
  - replace p with (8 + (p - 8))%nat at 1 by lia. rewrite flip_cons_ge, !crc_cons.
    rewrite IH by (done || lia). f_equal. f_equal. lia.
Qed.

(** Difference made by a set of flipped bits. *)
Definition xsum (l : list nat) : Z := foldr (fun m d => Z.lxor (X m) d) 0 l.
Lemma crc_flips is b c : byte_list b -> Forall (fun p => (p < nbits b)%nat) is ->
  crc32_nand (flips is b) c = Z.lxor (crc32_nand b c) (xsum (map (fun p => nbits b + 31 - p)%nat is)).
Proof.
  intros Hb. induction 1 as [|p is Hp _ IH]; [symmetry; apply Z.lxor_0_r|].
  change (flips (p :: is) b) with (flip p (flips is b)).
  rewrite crc_flip; [|by apply flips_bytes|unfold nbits in *; by rewrite flips_length].
  rewrite IH. unfold nbits at 2. rewrite flips_length. fold (nbits b). cbn [map xsum foldr]. fold (xsum (map (fun p => nbits b + 31 - p)%nat is)).
  rewrite Z.lxor_assoc. f_equal. apply Z.lxor_comm.
Qed.

(** Flipped bits of the checksum. *)
Definition flip_crc (ks : list nat) (c : Z) : Z := foldr (fun k c => Z.lxor c (2 ^ Z.of_nat k)) c ks.
Lemma flip_crc_sum ks c : Forall (fun k => (k < 32)%nat) ks ->
  flip_crc ks c = Z.lxor c (xsum (map (fun k => 31 - k)%nat ks)).
Proof.
  induction 1 as [|k ks Hk _ IH]; [symmetry; apply Z.lxor_0_r|]. cbn [flip_crc foldr map xsum]. fold (flip_crc ks c).
  fold (xsum (map (fun k => 31 - k)%nat ks)). rewrite IH, X_low by done.
  rewrite Z.lxor_assoc. f_equal. apply Z.lxor_comm.
Qed.
Lemma xsum_app a b : xsum (a ++ b) = Z.lxor (xsum a) (xsum b).
Proof. induction a as [|x a IH]; [done|]. cbn [app xsum foldr]. fold (xsum (a ++ b)) (xsum a). by rewrite IH, Z.lxor_assoc. Qed.

(** Powers of x: the order is large, and no three of the first 91632 sum to 0. *)
Definition XN : nat := Z.to_nat 91632.
Fixpoint collect (n : nat) (r : Z) (s : PositiveSet.t) : PositiveSet.t :=
  match n with O => s | S n => collect n (step r) (PositiveSet.add (Z.to_pos r) s) end.
Fixpoint check3 (n : nat) (r : Z) (s : PositiveSet.t) : bool :=
  match n with
  | O => true
  | S n => let d := Z.lxor 2147483648 r in
           negb (d =? 0) && negb (PositiveSet.mem (Z.to_pos d) s) && check3 n (step r) s
  end.
Lemma powers_check : check3 XN (X 1) (collect XN (X 1) PositiveSet.empty) = true.
Proof. by vm_compute. Qed.

Lemma collect_keep n : forall r s p, PositiveSet.In p s -> PositiveSet.In p (collect n r s).
Proof. induction n as [|n IH]; intros r s p H; [done|]. apply IH, PositiveSet.add_spec. by right. Qed.
Lemma collect_In n : forall r s j, (j < n)%nat -> PositiveSet.In (Z.to_pos (stepn j r)) (collect n r s).
Proof.
  induction n as [|n IH]; intros r s j Hj; [lia|]. destruct j as [|j]; cbn [collect stepn].
  - apply collect_keep, PositiveSet.add_spec. by left.
  - apply IH. lia.
Qed.
Lemma check3_spec n : forall r s j, check3 n r s = true -> (j < n)%nat ->
  let d := Z.lxor 2147483648 (stepn j r) in d <> 0 /\ ~ PositiveSet.In (Z.to_pos d) s.
Proof.
  induction n as [|n IH]; intros r s j H Hj; [lia|]. cbn [check3] in H.
  apply andb_prop in H as [H H3]. apply andb_prop in H as [H1 H2].
  apply negb_true_iff in H1, H2. apply Z.eqb_neq in H1.
  destruct j as [|j]; cbn [stepn].
  - split; [done|]. intros Hin. apply PositiveSet.mem_spec in Hin. congruence.
  - apply IH; [done|lia].
Qed.

Lemma X_nonzero m : X m <> 0.
Proof.
  intros H. unfold X in H. apply stepn_zero in H; [done|]. unfold u32. lia.
Qed.
Lemma XN_val : Z.of_nat XN = 91632.
Proof. unfold XN. apply Z2Nat.id. lia. Qed.
Local Opaque X XN collect check3.
Lemma X1_add j : stepn j (X 1) = X (1 + j).
Proof. by rewrite X_add. Qed.
(** x^i and x^j differ, and do not sum to x^0. *)
Lemma X_pair j : (1 <= j <= XN)%nat -> Z.lxor (X 0) (X j) <> 0.
Proof.
  intros Hj. destruct (check3_spec _ _ _ (j - 1)%nat powers_check ltac:(lia)) as [H _].
  rewrite X1_add in H. replace (1 + (j - 1))%nat with j in H by lia. exact H.
Qed.
Lemma X_triple i j : (1 <= i <= XN)%nat -> (1 <= j <= XN)%nat -> Z.lxor (Z.lxor (X 0) (X i)) (X j) <> 0.
Proof.
  intros Hi Hj E. apply Z.lxor_eq in E.
  destruct (check3_spec _ _ _ (i - 1)%nat powers_check ltac:(lia)) as [H1 H2].
  rewrite X1_add in H1, H2. replace (1 + (i - 1))%nat with i in H1, H2 by lia.
  apply H2. change 2147483648 with (X 0). rewrite E. pose proof (collect_In XN (X 1) PositiveSet.empty (j - 1)%nat ltac:(lia)) as H3.
  rewrite X1_add in H3. by replace (1 + (j - 1))%nat with j in H3 by lia.
Qed.

Lemma xsum_shift k l : Forall (fun m => (k <= m)%nat) l -> xsum l = stepn k (xsum (map (fun m => m - k)%nat l)).
Proof.
  induction 1 as [|m l Hm _ IH]; [symmetry; apply stepn_0|]. cbn [map xsum foldr].
  fold (xsum l) (xsum (map (fun m => m - k)%nat l)). rewrite stepn_lin, <-X_add, IH. do 2 f_equal. lia.
Qed.
Lemma xsum_u32 l : u32 (xsum l).
Proof.
  induction l as [|m l IH]; [unfold u32; cbn; lia|]. cbn [xsum foldr]. apply lxor_lt; [lia|apply X_u32|exact IH].
Qed.
Lemma xsum_perm a b : a ≡ₚ b -> xsum a = xsum b.
Proof.
  induction 1 as [|x a b _ IH|x y a|a b d _ IH1 _ IH2]; [done| | |congruence]; cbn [xsum foldr].
  - by f_equal.
  - by rewrite <-!Z.lxor_assoc, (Z.lxor_comm (X y)).
Qed.

Lemma min_front (l : list nat) : l <> [] -> NoDup l -> exists m l', l ≡ₚ m :: l' /\ Forall (fun x => (m < x)%nat) l'.
Proof.
  induction l as [|x l IH]; [done|]. intros _ Hd. inversion_clear Hd as [|?? Hx Hd'].
  destruct l as [|y l].
  { exists x, []. split; [done|constructor]. }
  destruct IH as (m & l' & Hp & Hf); [done|done|].
  assert (Hxm : x <> m). { intros ->. apply Hx. rewrite Hp. apply elem_of_list_here. }
  destruct (decide (x < m)%nat).
  - exists x, (m :: l'). split; [by rewrite Hp|]. constructor; [done|].
    eapply Forall_impl; [exact Hf|]. cbn. lia.
  - exists m, (x :: l'). split; [rewrite Hp; apply Permutation_swap|]. constructor; [lia|done].
Qed.

Lemma xsum_small l : NoDup l -> (1 <= length l <= 3)%nat -> Forall (fun m => (m <= XN)%nat) l -> xsum l <> 0.
Proof.
  intros Hd Hl Hm. destruct (min_front l) as (m & l' & Hp & Hf); [by destruct l; cbn in Hl; [lia|]|done|].
  rewrite Hp in Hm, Hd. rewrite (Permutation_length Hp) in Hl. rewrite (xsum_perm _ _ Hp).
  inversion_clear Hm as [|?? Hm1 Hm2]. inversion_clear Hd as [|?? Hd1 Hd2].
  intros E. rewrite (xsum_shift m) in E.
  2:{ constructor; [done|]. eapply Forall_impl; [exact Hf|]. cbn. lia. }
  apply stepn_zero in E; [|apply xsum_u32]. cbn [map] in E. rewrite Nat.sub_diag in E.
  destruct l' as [|a [|b [|]]]; cbn [length] in Hl; try lia; cbn [map xsum foldr] in E; rewrite ?Z.lxor_0_r in E.
  - by apply X_nonzero in E.
  - inversion_clear Hf as [|?? F1 _]. inversion_clear Hm2 as [|?? M1 _]. revert E. apply X_pair. lia.
  - inversion_clear Hf as [|?? F1 Hf']. inversion_clear Hf' as [|?? F2 _].
    inversion_clear Hm2 as [|?? M1 Hm2']. inversion_clear Hm2' as [|?? M2 _].
    rewrite <-Z.lxor_assoc in E. revert E. apply X_triple; lia.
Qed.

Lemma NoDup_map_sub (n : nat) l : NoDup l -> Forall (fun p => (p <= n)%nat) l -> NoDup (map (fun p => n - p)%nat l).
Proof.
  induction 1 as [|p l Hp _ IH]; intros Hf; [constructor|]. inversion_clear Hf as [|?? F1 F2]. cbn [map].
  constructor; [|by apply IH]. intros Hin. apply elem_of_list_fmap in Hin as (q & Eq & Hq).
  apply Hp. rewrite Forall_forall in F2. specialize (F2 q Hq). by replace p with q by lia.
Qed.

(** C34: one to three flipped bits, anywhere in a block of at most 11450 bytes
    or in its checksum, are detected: the checksum of the damaged block differs
    from the damaged checksum. *)
Theorem C34_three_bits block c is ks : byte_list block -> Z.of_nat (length block) <= 11450 ->
  NoDup is -> Forall (fun p => (p < nbits block)%nat) is ->
  NoDup ks -> Forall (fun k => (k < 32)%nat) ks ->
  (1 <= length is + length ks <= 3)%nat ->
  crc32_nand (flips is block) c <> flip_crc ks (crc32_nand block c).
Proof.
  intros Hb Hlen Hd1 Hf1 Hd2 Hf2 Hl E. rewrite crc_flips, flip_crc_sum in E by done.
  assert (E' : xsum (map (fun p => nbits block + 31 - p)%nat is ++ map (fun k => 31 - k)%nat ks) = 0).
  { rewrite xsum_app. set (a := xsum _) in *. set (b := xsum (map (fun k => 31 - k)%nat ks)) in *.
    assert (a = b); [|subst a; rewrite H; apply Z.lxor_nilpotent].
    apply (f_equal (Z.lxor (crc32_nand block c))) in E. by rewrite <-!Z.lxor_assoc, Z.lxor_nilpotent, !Z.lxor_0_l in E. }
  revert E'. apply xsum_small.
  - apply NoDup_app. split_and!.
    + apply (NoDup_map_sub (nbits block + 31)); [done|]. eapply Forall_impl; [exact Hf1|]. cbn. lia.
    + intros x Hx Hy. apply elem_of_list_fmap in Hx as (p & -> & Hp). apply elem_of_list_fmap in Hy as (k & Ek & Hk).
      rewrite Forall_forall in Hf1, Hf2. specialize (Hf1 p Hp). specialize (Hf2 k Hk). lia.
    + apply (NoDup_map_sub 31); [done|]. eapply Forall_impl; [exact Hf2|]. cbn. lia.
  - rewrite app_length, !map_length. done.
  - assert (HN : (nbits block + 31 <= XN)%nat).
    { unfold nbits. pose proof XN_val. lia. }
    apply Forall_app. split; apply Forall_forall; intros x Hx; apply elem_of_list_fmap in Hx as (p & -> & Hp); lia.
Qed.

(** C34: any burst of at most 32 bits in a block of any length is detected. *)
Theorem C34_burst block c s is : byte_list block ->
  is <> [] -> NoDup is -> Forall (fun p => (s <= p < s + 32)%nat /\ (p < nbits block)%nat) is ->
  crc32_nand (flips is block) c <> crc32_nand block c.
Proof.
  intros Hb Hne Hd Hf E.
  assert (Hf1 : Forall (fun p => (p < nbits block)%nat) is).
  { eapply Forall_impl; [exact Hf|]. cbn. tauto. }
  rewrite crc_flips in E by done.
  assert (E' : xsum (map (fun p => nbits block + 31 - p)%nat is) = 0).
  { apply (f_equal (Z.lxor (crc32_nand block c))) in E. by rewrite <-Z.lxor_assoc, Z.lxor_nilpotent, Z.lxor_0_l in E. }
  assert (Hs : (s < nbits block)%nat).
  { destruct is as [|p is]; [done|]. inversion_clear Hf. lia. }
  rewrite (xsum_shift (nbits block - s)) in E'.
  2:{ apply Forall_forall. intros x Hx. apply elem_of_list_fmap in Hx as (p & -> & Hp).
      rewrite Forall_forall in Hf. specialize (Hf p Hp). lia. }
  apply stepn_zero in E'; [|apply xsum_u32]. rewrite map_map in E'.
  assert (Hbit : forall l, NoDup l -> Forall (fun p => (s <= p < s + 32)%nat /\ (p < nbits block)%nat) l -> forall k, (k < 32)%nat ->
    Z.testbit (xsum (map (fun p => nbits block + 31 - p - (nbits block - s))%nat l)) (Z.of_nat k) = bool_decide ((s + k)%nat ∈ l)).
  { clear. induction l as [|p l IH]; intros Hd Hf k Hk.
    - cbn [map xsum foldr]. rewrite Z.bits_0. symmetry. apply bool_decide_eq_false. intros H. by apply elem_of_nil in H.
    - inversion_clear Hd as [|?? Hp Hd']. inversion_clear Hf as [|?? F1 F2]. cbn [map xsum foldr].
      rewrite Z.lxor_spec. fold (xsum (map (fun p => nbits block + 31 - p - (nbits block - s))%nat l)).
      rewrite IH by done. replace (nbits block + 31 - p - (nbits block - s))%nat with (31 - (p - s))%nat by lia.
      rewrite X_low by lia. rewrite Z.pow2_bits_eqb by lia.
      destruct (decide (p = s + k)%nat) as [-> |Hn].
      + rewrite (proj2 (Z.eqb_eq _ _)) by lia. rewrite (bool_decide_eq_false_2 _ Hp).
        rewrite bool_decide_eq_true_2; [done|apply elem_of_list_here].
      + rewrite (proj2 (Z.eqb_neq _ _)) by lia. rewrite xorb_false_l. apply bool_decide_ext.
        rewrite elem_of_cons. split; [tauto|]. intros [Hx|]; [lia|done]. }
  destruct is as [|p is]; [done|]. inversion Hf as [|?? F1 F2]; subst.
  specialize (Hbit (p :: is) Hd Hf (p - s)%nat ltac:(lia)). rewrite E', Z.bits_0 in Hbit.
  symmetry in Hbit. apply bool_decide_eq_false in Hbit. apply Hbit.
  replace (s + (p - s))%nat with p by lia. apply elem_of_list_here.
Qed.

(** Concrete instances. *)
Example ex_C33 : crc32_nand [49; 50; 51] 4294967295 = not32 (crc_bits (map negb (block_bits [49; 50; 51])) 0).
Proof. by vm_compute. Qed.
Example ex_C34 : crc32_nand (flips [0; 9; 23]%nat [49; 50; 51]) 4294967295 <> crc32_nand [49; 50; 51] 4294967295.
Proof. by vm_compute. Qed.
