(** Model of tools/gentab.c (the generator of the CRC table) and C52. *)
From stdpp Require Import list.
From Coq Require Import ZArith Lia.
From Verif Require Import EccBits Crc32.
Local Open Scope Z_scope.

(** ** Model *)

(** One iteration of the inner loop of fill_table (gentab.c:29-30); uint32_t *)
Definition gt_step (poly r : Z) : Z := Z.lxor (Z.shiftr r 1) (if negb (Z.land r 1 =? 0) then poly else 0).
Fixpoint gt_steps (n : nat) (poly r : Z) : Z :=
  match n with O => r | S n => gt_steps n poly (gt_step poly r) end.
(** fill_table (gentab.c:22-34) *)
Definition fill_table (poly : Z) : list Z := map (fun i => gt_steps 8 poly (Z.of_nat i)) (seq 0 256).

(** parse_poly (gentab.c:44-71, gftool.c:412-439); text is a list of character
    codes without the terminating 0; [w] is the width of the result type (32 in
    gentab, 64 in gftool). *)
Fixpoint skip_0x (text : list Z) : list Z :=
  match text with
  | c :: text' => if (c =? 48) || (c =? 120) then skip_0x text' else text
  | [] => []
  end.
Fixpoint parse_digits (w : Z) (text : list Z) (r : Z) : option Z :=
  match text with
  | [] => Some r
  | c :: text =>
    let r := Z.land (Z.shiftl r 4) (Z.ones w) in
    if (48 <=? c) && (c <=? 57) then parse_digits w text (Z.lor r (c - 48))
    else if (65 <=? c) && (c <=? 70) then parse_digits w text (Z.lor r (c - 65 + 10))
    else if (97 <=? c) && (c <=? 102) then parse_digits w text (Z.lor r (c - 97 + 10))
    else None
  end.
Definition parse_poly (w : Z) (text : list Z) : option Z := parse_digits w (skip_0x text) 0.

(** printf("%08x"): eight lower case hexadecimal digits (of a 32-bit value) *)
Definition hex_char (d : Z) : Z := if d <? 10 then 48 + d else 97 + (d - 10).
Definition hex08 (v : Z) : list Z := map (fun k => hex_char (Z.land (Z.shiftr v (4 * Z.of_nat k)) 15)) (rev (seq 0 8)).
(** One entry of print_table (gentab.c:36-42): "0x%08x," and a separator *)
Definition print_entry (i : nat) (v : Z) : list Z :=
  [48; 120] ++ hex08 v ++ [44; if (Nat.land i 3 =? 3)%nat then 10 else 32].
Definition print_table (t : list Z) : list Z := concat (imap print_entry t).
(** main (gentab.c:73-89) with one argument: what it prints, if it accepts it *)
Definition gentab (text : list Z) : option (list Z) :=
  match parse_poly 32 text with Some p => Some (print_table (fill_table p)) | None => None end.

(** ** Specification *)

(** The value of a hexadecimal digit. *)
Definition digit_val (c d : Z) : Prop :=
  (48 <= c <= 57 /\ d = c - 48) \/ (65 <= c <= 70 /\ d = c - 55) \/ (97 <= c <= 102 /\ d = c - 87).
(** [text] is a hexadecimal number (digits of either case, after any number of
    characters 0 and x) with value [v]. *)
Definition hex_text (text : list Z) (v : Z) : Prop :=
  exists pre cs ds, text = pre ++ cs /\ Forall (fun c => c = 48 \/ c = 120) pre /\ Forall2 digit_val cs ds /\
    v = foldl (fun r d => 16 * r + d) 0 ds.
(** Bit-serial CRC with an arbitrary polynomial. *)
Definition crc_feed (poly r : Z) (b : bool) : Z :=
  let r := Z.lxor r (if b then 1 else 0) in
  Z.lxor (Z.shiftr r 1) (if Z.odd r then poly else 0).
(** CRC byte by byte with a table. *)
Definition crc_tab (t : list Z) (r b : Z) : Z :=
  Z.lxor (Z.shiftr r 8) (nth (Z.to_nat (Z.land (Z.lxor r b) 255)) t 0).

(** ** The table *)
Section table.
Context (poly : Z).
Lemma land1 r : negb (Z.land r 1 =? 0) = Z.odd r.
Proof.
  change 1 with (Z.ones 1). rewrite Z.land_ones by lia. change (2 ^ 1) with 2. rewrite Zmod_odd. by destruct (Z.odd r).
Qed.
Lemma gt_step_eq r : gt_step poly r = Z.lxor (Z.shiftr r 1) (if Z.odd r then poly else 0).
Proof. unfold gt_step. by rewrite land1. Qed.
Lemma gt_lin a b : gt_step poly (Z.lxor a b) = Z.lxor (gt_step poly a) (gt_step poly b).
Proof.
  rewrite !gt_step_eq. rewrite Z.shiftr_lxor.
  replace (Z.odd (Z.lxor a b)) with (xorb (Z.odd a) (Z.odd b)) by (rewrite <-!Z.bit0_odd; by rewrite Z.lxor_spec).
  destruct (Z.odd a), (Z.odd b); cbn [xorb]; rewrite ?Z.lxor_0_r.
  - rewrite (lxor_swap _ poly). rewrite <-Z.lxor_assoc. by rewrite lxor_cancel.
  - apply lxor_swap.
  - by rewrite Z.lxor_assoc.
  - done.
Qed.
Lemma gts_lin n : forall a b, gt_steps n poly (Z.lxor a b) = Z.lxor (gt_steps n poly a) (gt_steps n poly b).
Proof. induction n as [|n IH]; intros a b; [done|]. cbn [gt_steps]. by rewrite gt_lin, IH. Qed.
Lemma gts_shift n : forall r, gt_steps n poly (Z.shiftl r (Z.of_nat n)) = r.
Proof.
  induction n as [|n IH]; intros r; [apply Z.shiftl_0_r|]. cbn [gt_steps].
  replace (gt_step poly (Z.shiftl r (Z.of_nat (S n)))) with (Z.shiftl r (Z.of_nat n)); [apply IH|].
  rewrite gt_step_eq. replace (Z.odd (Z.shiftl r (Z.of_nat (S n)))) with false.
  2:{ rewrite <-Z.bit0_odd, Z.shiftl_spec by lia. rewrite Z.testbit_neg_r by lia. done. }
  rewrite Z.lxor_0_r. rewrite Z.shiftr_shiftl_l by lia. f_equal. lia.
Qed.
Lemma fill_nth x : byte x -> nth (Z.to_nat x) (fill_table poly) 0 = gt_steps 8 poly x.
Proof.
  intros Hx. unfold byte in Hx. unfold fill_table.
  rewrite (nth_indep _ 0 (gt_steps 8 poly (Z.of_nat 0))) by (rewrite map_length, seq_length; lia).
  rewrite (map_nth (fun i => gt_steps 8 poly (Z.of_nat i))). rewrite seq_nth by lia. cbn [Nat.add]. by rewrite Z2Nat.id by lia.
Qed.
Lemma crc_tab_steps r b : byte b -> crc_tab (fill_table poly) r b = gt_steps 8 poly (Z.lxor r b).
Proof.
  intros Hb. unfold crc_tab. rewrite fill_nth by apply land255.
  rewrite (split_byte (Z.lxor r b)) at 2. rewrite gts_lin. f_equal.
  rewrite (gts_shift 8). by rewrite Z.shiftr_lxor, (byte_shift b Hb), Z.lxor_0_r.
Qed.
Lemma feeds_steps n : forall x r, 0 <= x < 2 ^ Z.of_nat n ->
  foldl (crc_feed poly) r (map (fun k => Z.testbit x (Z.of_nat k)) (seq 0 n)) = gt_steps n poly (Z.lxor r x).
Proof.
  induction n as [|n IH]; intros x r Hx.
  - cbn. change (2 ^ Z.of_nat 0) with 1 in Hx. replace x with 0 by lia. by rewrite Z.lxor_0_r.
  - cbn [seq map foldl gt_steps]. rewrite <-seq_shift, map_map.
    rewrite (map_ext _ (fun k => Z.testbit (Z.shiftr x 1) (Z.of_nat k))).
    2:{ intros k. rewrite Z.shiftr_spec by lia. f_equal. lia. }
    rewrite IH.
    2:{ pose proof (shiftr_lt x (Z.of_nat (S n)) 1 ltac:(lia) ltac:(lia) Hx) as Hs.
        replace (Z.of_nat (S n) - 1) with (Z.of_nat n) in Hs by lia. done. }
    f_equal. unfold crc_feed. rewrite <-gt_step_eq. change (Z.of_nat 0) with 0. rewrite Z.bit0_odd.
    assert (E : x = Z.lxor (if Z.odd x then 1 else 0) (Z.shiftl (Z.shiftr x 1) 1)).
    { apply Z.bits_inj'. intros k Hk. rewrite Z.lxor_spec, Z.shiftl_spec by lia.
      destruct (Z.eq_dec k 0) as [-> |].
      - rewrite (Z.testbit_neg_r _ (0 - 1)) by lia. rewrite xorb_false_r, Z.bit0_odd. by destruct (Z.odd x).
      - rewrite Z.shiftr_spec by lia. replace (k - 1 + 1) with k by lia.
        replace (Z.testbit (if Z.odd x then 1 else 0) k) with false; [by rewrite xorb_false_l|].
        destruct (Z.odd x); [|by rewrite Z.bits_0]. symmetry. apply Z.bits_above_log2; cbn; lia. }
    rewrite E at 3. rewrite <-Z.lxor_assoc.
    rewrite (gt_lin (Z.lxor r _) (Z.shiftl _ _)). f_equal. symmetry. apply (gts_shift 1).
Qed.

(** C52.  With the table printed for any polynomial, the CRC computed byte by byte
    is the bit-serial CRC with that polynomial, for every message and register. *)
Theorem C52_table block r : byte_list block ->
  foldl (crc_tab (fill_table poly)) r block = foldl (crc_feed poly) r (block_bits block).
Proof.
  intros Hb. revert r. induction Hb as [|b block Hb Hbl IH]; intros r; [done|].
  rewrite block_bits_cons, foldl_app. cbn [foldl]. rewrite IH. f_equal.
  rewrite crc_tab_steps by done. symmetry. by apply (feeds_steps 8).
Qed.
Lemma gts_u32 n : forall r, u32 poly -> u32 r -> u32 (gt_steps n poly r).
Proof.
  induction n as [|n IH]; intros r Hp Hr; [done|]. cbn [gt_steps]. apply IH; [done|]. rewrite gt_step_eq.
  unfold u32. apply lxor_lt; [lia| |].
  - pose proof (shiftr_lt r 32 1 ltac:(lia) ltac:(lia) Hr). change (2 ^ (32 - 1)) with 2147483648 in *.
    change (2 ^ 32) with 4294967296. lia.
  - destruct (Z.odd r); [done|]; change (2 ^ 32) with 4294967296; lia.
Qed.
Lemma fill_u32 : u32 poly -> length (fill_table poly) = 256%nat /\ Forall u32 (fill_table poly).
Proof.
  intros Hp. split; [done|]. apply Forall_forall. intros x Hx. apply elem_of_list_In, in_map_iff in Hx as (i & <- & Hi).
  apply in_seq in Hi. apply gts_u32; [done|]. unfold u32. lia.
Qed.
End table.

(** ** Parsing and printing *)
Lemma lor_add r d : 0 <= r -> 0 <= d < 16 -> Z.lor (Z.shiftl r 4) d = 16 * r + d.
Proof.
  intros Hr Hd. rewrite <-Z.lxor_lor.
  - rewrite <-Z.add_nocarry_lxor; [rewrite Z.shiftl_mul_pow2 by lia; change (2 ^ 4) with 16; lia|].
    apply Z.bits_inj'. intros k Hk. rewrite Z.land_spec, Z.shiftl_spec, Z.bits_0 by lia.
    destruct (Z.lt_ge_cases k 4); [by rewrite Z.testbit_neg_r by lia|].
    rewrite (proj2 (proj1 (lt_bits d 4 ltac:(lia)) ltac:(change (2 ^ 4) with 16; lia)) k) by lia. apply andb_false_r.
  - apply Z.bits_inj'. intros k Hk. rewrite Z.land_spec, Z.shiftl_spec, Z.bits_0 by lia.
    destruct (Z.lt_ge_cases k 4); [by rewrite Z.testbit_neg_r by lia|].
    rewrite (proj2 (proj1 (lt_bits d 4 ltac:(lia)) ltac:(change (2 ^ 4) with 16; lia)) k) by lia. apply andb_false_r.
Qed.
Lemma digit_range c d : digit_val c d -> 0 <= d < 16.
Proof. unfold digit_val. lia. Qed.
Lemma digit_parse w c d text r : digit_val c d -> parse_digits w (c :: text) r =
  parse_digits w text (Z.lor (Z.land (Z.shiftl r 4) (Z.ones w)) d).
Proof.
  unfold digit_val. intros H. cbn [parse_digits].
  repeat match goal with |- context [?a <=? ?b] => destruct (Z.leb_spec a b) end; cbn [andb];
    try lia; repeat f_equal; lia.
Qed.
Lemma foldl_ge ds : forall r, Forall (fun d => 0 <= d < 16) ds -> 0 <= r -> r <= foldl (fun r d => 16 * r + d) r ds.
Proof. induction ds as [|d ds IH]; intros r H Hr; inversion H; subst; cbn [foldl]; [lia|]. specialize (IH (16 * r + d) ltac:(done) ltac:(lia)). lia. Qed.
Lemma parse_val w cs ds : 0 <= w -> Forall2 digit_val cs ds -> forall r, 0 <= r -> foldl (fun r d => 16 * r + d) r ds < 2 ^ w ->
  parse_digits w cs r = Some (foldl (fun r d => 16 * r + d) r ds).
Proof.
  intros Hw H. induction H as [|c d cs ds Hc H IH]; intros r Hr Hv; [done|].
  rewrite (digit_parse w c d) by done. pose proof (digit_range _ _ Hc) as Hd. cbn [foldl] in *.
  assert (Hds : Forall (fun d => 0 <= d < 16) ds).
  { clear -H. induction H; constructor; [by eapply digit_range|done]. }
  pose proof (foldl_ge ds (16 * r + d) Hds ltac:(lia)).
  rewrite Z.land_ones, Z.mod_small by (rewrite ?Z.shiftl_mul_pow2 by lia; change (2 ^ 4) with 16; lia).
  rewrite lor_add by lia. apply IH; lia.
Qed.
Lemma skip_pre pre cs : Forall (fun c => c = 48 \/ c = 120) pre -> skip_0x (pre ++ cs) = skip_0x cs.
Proof. induction 1 as [|c pre [-> | ->] H IH]; [done|exact IH..]. Qed.
Lemma skip_digits cs ds : Forall2 digit_val cs ds -> exists ds', Forall2 digit_val (skip_0x cs) ds' /\
  foldl (fun r d => 16 * r + d) 0 ds' = foldl (fun r d => 16 * r + d) 0 ds.
Proof.
  induction 1 as [|c d cs ds Hc H IH]; [exists []; split; [constructor|done]|]. cbn [skip_0x].
  destruct (Z.eqb_spec c 48) as [-> |Hc1]; cbn [orb].
  - destruct IH as (ds' & H1 & H2). exists ds'. split; [done|]. cbn [foldl]. unfold digit_val in Hc.
    replace (16 * 0 + d) with 0 by lia. done.
  - destruct (Z.eqb_spec c 120) as [-> |]; [unfold digit_val in Hc; lia|]. exists (d :: ds). split; [by constructor|done].
Qed.
(** Every hexadecimal number that fits is understood. *)
Theorem C52_parse w text v : 0 <= w -> hex_text text v -> v < 2 ^ w -> parse_poly w text = Some v.
Proof.
  intros Hw (pre & cs & ds & -> & Hp & Hd & ->) Hv. unfold parse_poly. rewrite skip_pre by done.
  destruct (skip_digits _ _ Hd) as (ds' & H1 & H2). rewrite <-H2 in *. by apply parse_val.
Qed.
(** Anything else is refused. *)
Theorem C52_refuse w text c : c ∈ text -> (forall d, ~ digit_val c d) -> c <> 120 -> parse_poly w text = None.
Proof.
  intros Hin Hc Hx. unfold parse_poly.
  assert (Hno : ~ (48 <= c <= 57) /\ ~ (65 <= c <= 70) /\ ~ (97 <= c <= 102)).
  { split_and!; intros Hr; [apply (Hc (c - 48))|apply (Hc (c - 55))|apply (Hc (c - 87))]; unfold digit_val; auto. }
  assert (H1 : c ∈ skip_0x text).
  { induction text as [|x text IH]; [done|]. cbn [skip_0x]. destruct ((x =? 48) || (x =? 120)) eqn:E; [|done].
    apply elem_of_cons in Hin as [-> |Hin]; [|by apply IH].
    apply orb_true_iff in E as [E|E]; apply Z.eqb_eq in E; subst; [lia|done]. }
  clear Hin. revert H1. generalize (skip_0x text) as l, 0 as r. clear text.
  induction l as [|x l IH]; intros r Hin; [by apply elem_of_nil in Hin|]. cbn [parse_digits].
  apply elem_of_cons in Hin as [<- |Hin].
  - repeat match goal with |- context [?a <=? ?b] => destruct (Z.leb_spec a b) end; cbn [andb]; try lia; done.
  - destruct ((48 <=? x) && _); [by apply IH|]. destruct ((65 <=? x) && _); [by apply IH|]. destruct ((97 <=? x) && _); [by apply IH|done].
Qed.

Lemma hex_char_val d : 0 <= d < 16 -> digit_val (hex_char d) d.
Proof. intros Hd. unfold hex_char, digit_val. destruct (Z.ltb_spec d 10); lia. Qed.
Lemma hex08_text v : u32 v -> hex_text ([48; 120] ++ hex08 v) v.
Proof.
  intros Hv. exists [48; 120], (hex08 v), (map (fun k => Z.land (Z.shiftr v (4 * Z.of_nat k)) 15) (rev (seq 0 8))).
  split; [done|]. split; [constructor; [lia|constructor; [lia|constructor]]|].
  assert (Hr : forall k, 0 <= Z.land (Z.shiftr v (4 * Z.of_nat k)) 15 < 16).
  { intros k. change 15 with (Z.ones 4). rewrite Z.land_ones by lia. change (2 ^ 4) with 16. apply Z.mod_pos_bound. lia. }
  split.
  - unfold hex08. induction (rev (seq 0 8)) as [|k l IH]; constructor; [by apply hex_char_val|done].
  - change (rev (seq 0 8)) with [7; 6; 5; 4; 3; 2; 1; 0]%nat. cbn [map foldl].
    assert (E : forall k, Z.land (Z.shiftr v (4 * Z.of_nat k)) 15 = (v / 16 ^ Z.of_nat k) mod 16).
    { intros k. change 15 with (Z.ones 4). rewrite Z.land_ones by lia. rewrite Z.shiftr_div_pow2 by lia.
      rewrite Z.pow_mul_r by lia. done. }
    rewrite !E. unfold u32 in Hv. change (2 ^ 32) with 4294967296 in Hv.
    change (16 ^ Z.of_nat 7) with 268435456. change (16 ^ Z.of_nat 6) with 16777216. change (16 ^ Z.of_nat 5) with 1048576.
    change (16 ^ Z.of_nat 4) with 65536. change (16 ^ Z.of_nat 3) with 4096. change (16 ^ Z.of_nat 2) with 256.
    change (16 ^ Z.of_nat 1) with 16. change (16 ^ Z.of_nat 0) with 1.
    Z.div_mod_to_equations. lia.
Qed.
(** The program: given any 32-bit polynomial in hexadecimal it prints 256 entries
    "0x........" which read back as the entries of the table. *)
Theorem C52_gentab text poly : hex_text text poly -> u32 poly ->
  exists es, gentab text = Some (concat es) /\ length es = 256%nat /\
    forall i e, es !! i = Some e -> exists num sep, e = num ++ [44; sep] /\ (sep = 32 \/ sep = 10) /\
      hex_text num (foldl (crc_feed poly) 0 (block_bits [Z.of_nat i])).
Proof.
  intros Ht Hp. unfold gentab. rewrite (C52_parse 32 text poly); [|lia|done|unfold u32 in Hp; lia].
  exists (imap print_entry (fill_table poly)). split; [done|]. split; [by rewrite imap_length|].
  intros i e He. rewrite list_lookup_imap in He. apply fmap_Some in He as (v & Hv & ->).
  exists ([48; 120] ++ hex08 v), (if (Nat.land i 3 =? 3)%nat then 10 else 32).
  split; [unfold print_entry; by rewrite <-app_assoc|]. split; [destruct (_ =? _)%nat; auto|].
  assert (Hu : u32 v).
  { pose proof (proj2 (fill_u32 poly Hp)) as H. rewrite Forall_lookup in H. by eapply H. }
  assert (Hi : (i < 256)%nat). { apply lookup_lt_Some in Hv. done. }
  pose proof (fill_nth poly (Z.of_nat i) ltac:(unfold byte; lia)) as H. rewrite Nat2Z.id in H.
  rewrite <-C52_table by (constructor; [unfold byte; lia|constructor]). cbn [foldl].
  rewrite crc_tab_steps by (unfold byte; lia). rewrite Z.lxor_0_l. rewrite <-H. rewrite (nth_lookup_Some _ _ _ _ Hv).
  by apply hex08_text.
Qed.
(** The table in ecc/crc32.c is the one printed for edb88320. *)
Theorem C52_crc32_table : fill_table POLY = reduce_tab.
Proof. by vm_compute. Qed.
(** "0xedb88320" *)
Definition crc_text : list Z := [48; 120; 101; 100; 98; 56; 56; 51; 50; 48].
Example C52_example : hex_text crc_text POLY /\ u32 POLY /\ parse_poly 32 crc_text = Some POLY /\
  option_map (take 14) (gentab crc_text) = Some [48; 120; 48; 48; 48; 48; 48; 48; 48; 48; 44; 32; 48; 120] /\
  parse_poly 32 [49; 103] = None.
Proof.
  split; [|split; [unfold u32, POLY; lia|by vm_compute]].
  exists [48; 120], [101; 100; 98; 56; 56; 51; 50; 48], [14; 13; 11; 8; 8; 3; 2; 0].
  split; [done|]. split; [constructor; [lia|constructor; [lia|constructor]]|]. split; [|by vm_compute].
  do 8 (constructor; [unfold digit_val; lia|]). constructor.
Qed.
