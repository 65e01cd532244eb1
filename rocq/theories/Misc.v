(** Byte codecs (C28), checkpoint page layout (C25, C29), journal size (C26),
    error messages (C38). *)
From stdpp Require Import gmap.
From Coq Require Import String.
From Verif Require Import Base Bytes BytesLemmas Nand Journal MapModel Api Geom Tree Rep Inv Hdr
  StepJ MapStep Spec Ppc Props.
Local Open Scope Z_scope.

(** ** C28: dhara/bytes.h *)

(** Little-endian value of a byte string. *)
Fixpoint le (b : bytes) : Z :=
  match b with [] => 0 | x :: b => x + 256 * le b end.
Definition is_bytes (b : bytes) : Prop := Forall (fun x => 0 <= x < 256) b.

Lemma bget_nth b i : is_bytes b -> (i < length b)%nat -> bget b (Z.of_nat i) = nth i b 0.
Proof.
  intros Hb Hi. unfold bget. rewrite Nat2Z.id. apply w8_small.
  apply (proj1 (Forall_forall _ _) Hb). apply elem_of_list_In, nth_In. done.
Qed.

Theorem C28_w32_little_endian v : 0 <= v < 2 ^ 32 ->
  length (w32_bytes v) = 4%nat /\ is_bytes (w32_bytes v) /\ le (w32_bytes v) = v /\ r32 (w32_bytes v) = v.
Proof.
  intros Hv. split; [done|]. split. { repeat constructor; apply w8_range. }
  split; [|rewrite r32_w32_bytes; by apply w32_small].
  unfold w32_bytes, le, w8. rewrite !Z.shiftr_div_pow2 by lia.
  change (2 ^ 8) with 256. change (2 ^ 16) with (256 * 256). change (2 ^ 24) with (256 * 256 * 256).
  rewrite <-!Z.div_div by lia.
  pose proof (Z.div_mod v 256 ltac:(lia)). pose proof (Z.div_mod (v / 256) 256 ltac:(lia)).
  pose proof (Z.div_mod (v / 256 / 256) 256 ltac:(lia)).
  rewrite (Z.mod_small (v / 256 / 256 / 256)); [lia|].
  rewrite !Z.div_div by lia. split; [apply Z.div_pos; lia|]. apply Z.div_lt_upper_bound; lia.
Qed.
Theorem C28_w16_little_endian v : 0 <= v < 2 ^ 16 ->
  length (w16_bytes v) = 2%nat /\ is_bytes (w16_bytes v) /\ le (w16_bytes v) = v /\ r16 (w16_bytes v) = v.
Proof.
  intros Hv. split; [done|]. split. { repeat constructor; apply w8_range. }
  split; [|rewrite r16_w16_bytes; by apply Z.mod_small].
  unfold w16_bytes, le, w8. rewrite !Z.shiftr_div_pow2 by lia. change (2 ^ 8) with 256.
  pose proof (Z.div_mod v 256 ltac:(lia)). rewrite (Z.mod_small (v / 256)); [lia|].
  split; [apply Z.div_pos; lia|]. apply Z.div_lt_upper_bound; lia.
Qed.
Theorem C28_r32_reads_le b : is_bytes b -> length b = 4%nat -> r32 b = le b /\ w32_bytes (r32 b) = b.
Proof.
  intros Hb Hl. destruct b as [|x [|y [|z [|u [|]]]]]; try done.
  unfold is_bytes in Hb. repeat match goal with H : Forall _ (_ :: _) |- _ => inversion H; clear H; subst end.
  assert (E : r32 [x; y; z; u] = le [x; y; z; u]).
  { rewrite r32_eq. unfold bget. change (Z.to_nat 0) with 0%nat. change (Z.to_nat 1) with 1%nat. change (Z.to_nat 2) with 2%nat. change (Z.to_nat 3) with 3%nat. cbn [nth le]. rewrite !w8_small by lia. lia. }
  split; [done|]. rewrite E. cbn [le]. unfold w32_bytes, w8. rewrite !Z.shiftr_div_pow2 by lia.
  change (2 ^ 8) with 256. change (2 ^ 16) with (256 * 256). change (2 ^ 24) with (256 * 256 * 256).
  rewrite <-!Z.div_div by lia.
  assert (D : forall a r, 0 <= a < 256 -> (a + 256 * r) mod 256 = a /\ (a + 256 * r) / 256 = r).
  { intros a r Ha. split; [symmetry; apply Z.mod_unique with (q := r); lia|symmetry; apply Z.div_unique with (r := a); lia]. }
  repeat match goal with |- context [(?a + 256 * ?r) / 256] => rewrite (proj2 (D a r ltac:(lia))) end.
  rewrite !(fun a r H => proj1 (D a r H)) by lia. done.
Qed.
Theorem C28_r16_reads_le b : is_bytes b -> length b = 2%nat -> r16 b = le b /\ w16_bytes (r16 b) = b.
Proof.
  intros Hb Hl. destruct b as [|x [|y [|]]]; try done.
  unfold is_bytes in Hb. repeat match goal with H : Forall _ (_ :: _) |- _ => inversion H; clear H; subst end.
  assert (E : r16 [x; y] = x + 256 * y).
  { rewrite r16_bytes by lia. lia. }
  split; [rewrite E; cbn [le]; lia|]. rewrite E. unfold w16_bytes, w8. rewrite Z.shiftr_div_pow2 by lia.
  change (2 ^ 8) with 256. f_equal; [|f_equal].
  - symmetry. apply Z.mod_unique with (q := y); lia.
  - replace ((x + 256 * y) / 256) with y by (apply Z.div_unique with (r := x); lia). apply Z.mod_small. lia.
Qed.
(** Reads are injective. *)
Theorem C28_reads_injective a b :
  is_bytes a -> is_bytes b ->
  (length a = 4%nat -> length b = 4%nat -> r32 a = r32 b -> a = b) /\
  (length a = 2%nat -> length b = 2%nat -> r16 a = r16 b -> a = b).
Proof.
  intros Ha Hb. split; intros L1 L2 E.
  - destruct (C28_r32_reads_le a Ha L1) as [_ <-], (C28_r32_reads_le b Hb L2) as [_ <-]. by rewrite E.
  - destruct (C28_r16_reads_le a Ha L1) as [_ <-], (C28_r16_reads_le b Hb L2) as [_ <-]. by rewrite E.
Qed.
Example ex_C28 : w32_bytes 305419896 = [120; 86; 52; 18] /\ r16 [52; 18] = 4660.
Proof. done. Qed.

(** ** C25: the checkpoint period *)

(** Bytes of a checkpoint page with [k] metadata slots: 16 header, 4 cookie,
    132 per slot. *)
Definition cp_page_bytes (k : Z) : Z := 16 + 4 + 132 * k.

(** The period chosen is the largest power of two, at most a block, whose
    slots (one per user page) fit in a page. *)
Theorem C25_period_optimal lps lppb : 0 <= lps -> 1 <= lppb -> cp_page_bytes 1 <= 2 ^ lps ->
  let c := choose_ppc lps lppb in
  1 <= c <= lppb /\ cp_page_bytes (2 ^ c - 1) <= 2 ^ lps /\
  forall c', 1 <= c' <= lppb -> cp_page_bytes (2 ^ c' - 1) <= 2 ^ lps -> c' <= c.
Proof.
  intros H0 H1 H2. destruct (choose_ppc_spec lps lppb H0 H1) as (A & B & C).
  { unfold cp_bytes, HEADER_SIZE, COOKIE_SIZE, META_SIZE. unfold cp_page_bytes in H2. lia. }
  cbn zeta. unfold cp_bytes, HEADER_SIZE, COOKIE_SIZE, META_SIZE in *. unfold cp_page_bytes in *.
  split; [done|]. split; [lia|]. intros c' Hc' Hf.
  destruct (Z.le_gt_cases c' (choose_ppc lps lppb)) as [|Hgt]; [done|]. exfalso.
  specialize (C ltac:(lia)).
  assert (2 ^ (choose_ppc lps lppb + 1) <= 2 ^ c') by (apply Z.pow_le_mono_r; lia). lia.
Qed.
(** Every slot used lies inside the page behind header and cookie, and no two
    overlap, for pages of up to 64 KiB. *)
Theorem C25_slots_fit lps lppb i j : 8 <= lps <= 16 -> 1 <= lppb ->
  let c := choose_ppc lps lppb in
  0 <= i < 2 ^ c - 1 -> 0 <= j < 2 ^ c - 1 -> i <> j ->
  20 <= hdr_user_offset i /\ hdr_user_offset i + 132 <= 2 ^ lps /\
  (hdr_user_offset i + 132 <= hdr_user_offset j \/ hdr_user_offset j + 132 <= hdr_user_offset i).
Proof.
  intros Hl Hb c Hi Hj Hne.
  assert (H256 : 256 <= 2 ^ lps) by (change 256 with (2 ^ 8); apply Z.pow_le_mono_r; lia).
  assert (H64k : 2 ^ lps <= 65536) by (change 65536 with (2 ^ 16); apply Z.pow_le_mono_r; lia).
  destruct (C25_period_optimal lps lppb) as (A & B & _); [lia|lia|unfold cp_page_bytes; lia|].
  fold c in A, B. unfold cp_page_bytes in B.
  assert (Hc : 2 ^ c <= 256).
  { destruct (Z.le_gt_cases c 8) as [Hc|Hc]; [change 256 with (2 ^ 8); apply Z.pow_le_mono_r; lia|].
    assert (512 <= 2 ^ c) by (change 512 with (2 ^ 9); apply Z.pow_le_mono_r; lia). lia. }
  unfold hdr_user_offset, HEADER_SIZE, COOKIE_SIZE, META_SIZE. rewrite !w8_small by lia.
  split; [lia|]. split; lia.
Qed.
Example ex_C25 : choose_ppc 9 6 = 2 /\ choose_ppc 11 6 = 4 /\ choose_ppc 12 2 = 2 /\ choose_ppc 8 5 = 1.
Proof. by vm_compute. Qed.

(** With larger pages and at least 512 pages per block the uint8_t argument of
    hdr_user_offset wraps: two user pages of one group share a slot. *)
Theorem C25_large_pages_refuted :
  let c := choose_ppc 17 9 in
  0 <= 0 < 2 ^ c - 1 /\ 0 <= 256 < 2 ^ c - 1 /\ hdr_user_offset 0 = hdr_user_offset 256.
Proof. by vm_compute. Qed.

(** ** C29: header, cookie and metadata fields *)

(** The checkpoint header as push_meta writes it into the page buffer
    (journal.c:613-618), with a cookie and metadata put before. *)
Definition put_header (e t bc bl : Z) : MJ unit :=
  hdr_put_magic;;; hdr_set_epoch e;;; hdr_set_tail t;;; hdr_set_bb_current bc;;; hdr_set_bb_last bl.

Theorem C29_header_round_trip s e t bc bl :
  20 <= blen (j_buf (js_j s)) -> 0 <= e < 256 -> 0 <= t < 2 ^ 32 -> 0 <= bc < 2 ^ 32 -> 0 <= bl < 2 ^ 32 ->
  exists b, put_header e t bc bl s = (OK tt, Js (js_n s) (set_buf b (js_j s))) /\
    blen b = blen (j_buf (js_j s)) /\ hdr_has_magic b = true /\ hdr_get_epoch b = e /\
    hdr_get_tail b = t /\ hdr_get_bb_current b = bc /\ hdr_get_bb_last b = bl /\
    forall off n, 16 <= off -> 0 <= n -> slice off n b = slice off n (j_buf (js_j s)).
Proof.
  intros Hb He Ht Hbc Hbl. set (b := mk_cp (j_buf (js_j s)) e t bc bl). exists b.
  split.
  { pose proof (put_hdr_ok e t bc bl s (ret tt) ltac:(lia)) as H. unfold put_header. fold b in H.
    revert H. unfold bind. intros H.
    destruct (hdr_put_magic s) as [[[]|?|?] s1]; try done.
    destruct (hdr_set_epoch e s1) as [[[]|?|?] s2]; try done.
    destruct (hdr_set_tail t s2) as [[[]|?|?] s3]; try done.
    destruct (hdr_set_bb_current bc s3) as [[[]|?|?] s4]; try done.
    destruct (hdr_set_bb_last bl s4) as [[[]|?|?] s5]; try done. }
  split; [apply blen_mk_cp; lia|]. split; [apply magic_mk_cp; lia|].
  split; [unfold b; rewrite epoch_mk_cp by lia; by apply w8_small|].
  split; [unfold b; rewrite tail_mk_cp by lia; by apply w32_small|].
  split; [unfold b; rewrite bbc_mk_cp by lia; by apply w32_small|].
  split; [unfold b; rewrite bbl_mk_cp by lia; by apply w32_small|].
  intros off n Ho Hn. apply slice_mk_cp; lia.
Qed.

(** A metadata record: the id and the 32 alt pointers are independent fields. *)
Theorem C29_metadata_round_trip m x l : blen m = 132 -> 0 <= x < 2 ^ 32 -> 0 <= l < 32 ->
  (meta_get_id (meta_set_id m x) = x /\ blen (meta_set_id m x) = 132 /\
   forall l', 0 <= l' < 32 -> meta_get_alt (meta_set_id m x) l' = meta_get_alt m l') /\
  (meta_get_alt (meta_set_alt m l x) l = x /\ blen (meta_set_alt m l x) = 132 /\
   meta_get_id (meta_set_alt m l x) = meta_get_id m /\
   forall l', 0 <= l' < 32 -> l' <> l -> meta_get_alt (meta_set_alt m l x) l' = meta_get_alt m l').
Proof.
  intros Hm Hx Hl. change 132 with META_SIZE in *.
  split; split_and!.
  - rewrite get_id_set_id by done. by apply w32_small.
  - by apply blen_set_id.
  - intros l' Hl'. by apply get_alt_set_id.
  - rewrite get_alt_set_alt by done. by apply w32_small.
  - by apply blen_set_alt.
  - by apply get_id_set_alt.
  - intros l' Hl' Hne. apply get_alt_set_alt_ne; auto.
Qed.

(** The metadata slots and the cookie of a checkpoint page are independent:
    writing one slot or the cookie leaves the others as they were. *)
Theorem C29_slots_independent b off src off' n :
  0 <= off -> off + blen src <= blen b -> 0 <= off' -> 0 <= n ->
  off + blen src <= off' \/ off' + n <= off ->
  slice off (blen src) (splice off src b) = src /\ slice off' n (splice off src b) = slice off' n b.
Proof.
  intros H1 H2 H3 H4 H5. split; [by apply slice_splice_same|]. apply slice_splice_disj; lia.
Qed.
Example ex_C29 : exists s, 20 <= blen (j_buf (js_j s)).
Proof. exists (Js (Nand (Geo 9 2 8 false) (fun _ => Free) (fun _ => false) (fun _ _ => EvOk) 0 (fun _ => 0))
   (journal_init (Geo 9 2 8 false))). by vm_compute. Qed.

(** ** C38: dhara_strerror (error.c:20-44)

    The argument is any value of the enum's underlying integer type; the table
    messages[] has an entry for every index below DHARA_E_MAX = 9. *)
Definition messages : list string :=
  [ "No error"; "Bad page/eraseblock"; "ECC failure"; "Too many bad blocks";
    "Journal recovery is required"; "Journal is full"; "No such sector";
    "Sector map is full"; "Sector map is corrupted" ]%string.
Definition dhara_strerror (e : Z) : string :=
  if (0 <=? e) && (e <? 9) then nth (Z.to_nat e) messages ""%string
  else "Unknown error"%string.

Theorem C38_strerror_total e :
  (~ 0 <= e < 9 -> dhara_strerror e = "Unknown error"%string) /\
  (0 <= e < 9 -> dhara_strerror e <> "Unknown error"%string /\
     forall e', dhara_strerror e' = dhara_strerror e -> e' = e).
Proof.
  split.
  - intros H. unfold dhara_strerror. destruct (Z.leb_spec 0 e), (Z.ltb_spec e 9); try done. lia.
  - intros H. split.
    + assert (e = 0 \/ e = 1 \/ e = 2 \/ e = 3 \/ e = 4 \/ e = 5 \/ e = 6 \/ e = 7 \/ e = 8) as Hc by lia.
      repeat (destruct Hc as [-> |Hc]; [done|]). by subst.
    + intros e' E. destruct (Z.leb_spec 0 e'), (Z.ltb_spec e' 9).
      * assert (e = 0 \/ e = 1 \/ e = 2 \/ e = 3 \/ e = 4 \/ e = 5 \/ e = 6 \/ e = 7 \/ e = 8) as Hc by lia.
        assert (e' = 0 \/ e' = 1 \/ e' = 2 \/ e' = 3 \/ e' = 4 \/ e' = 5 \/ e' = 6 \/ e' = 7 \/ e' = 8) as Hd by lia.
        repeat destruct Hc as [-> |Hc]; try subst e; repeat destruct Hd as [-> |Hd]; try subst e'; done.
      * exfalso. revert E. unfold dhara_strerror at 1. rewrite (proj2 (Z.ltb_ge e' 9)) by lia. rewrite andb_false_r.
        assert (e = 0 \/ e = 1 \/ e = 2 \/ e = 3 \/ e = 4 \/ e = 5 \/ e = 6 \/ e = 7 \/ e = 8) as Hc by lia.
        repeat destruct Hc as [-> |Hc]; try subst e; done.
      * exfalso. revert E. unfold dhara_strerror at 1. rewrite (proj2 (Z.leb_gt 0 e')) by lia. cbn [andb].
        assert (e = 0 \/ e = 1 \/ e = 2 \/ e = 3 \/ e = 4 \/ e = 5 \/ e = 6 \/ e = 7 \/ e = 8) as Hc by lia.
        repeat destruct Hc as [-> |Hc]; try subst e; done.
      * lia.
Qed.

(** ** C26: dhara_journal_size *)

(** Number of user pages (not the last of a checkpoint group) among the [n]
    pages starting at [p], going round the chip. *)
Definition user_pages (total c p : Z) (n : nat) : Z :=
  Z.of_nat (length (filter (fun i => ((p + Z.of_nat i) mod total) mod 2 ^ c <> 2 ^ c - 1) (seq 0 n))).

Lemma div_step v m : 0 < m -> (v + 1) / m = v / m + (if decide (v mod m = m - 1) then 1 else 0).
Proof.
  intros Hm. pose proof (Z.div_mod v m ltac:(lia)). pose proof (Z.mod_pos_bound v m Hm).
  destruct (decide _) as [E|E].
  - symmetry. apply Z.div_unique with (r := 0); lia.
  - symmetry. apply Z.div_unique with (r := v mod m + 1); lia.
Qed.

(** The value of dhara_journal_size in terms of the journal's virtual positions. *)
Lemma jsize_JInv g c (Hg : geo_ok g c) s hv tv sv K : JInv g c s hv tv sv K ->
  journal_size g (js_j s) = (hv - sv) - (hv / PC c - sv / PC c).
Proof.
  intros Hj.
  pose proof (ji_ppc _ _ _ _ _ _ _ Hj) as Ec. pose proof (ji_head _ _ _ _ _ _ _ Hj) as Eh.
  pose proof (ji_tsync _ _ _ _ _ _ _ Hj) as Et. pose proof (ji_order _ _ _ _ _ _ _ Hj) as Ho.
  pose proof (ji_full _ _ _ _ _ _ _ Hj) as Hf.
  pose proof (PC_ge _ _ Hg) as HPC. pose proof (TT_le _ _ Hg) as HTT. pose proof (PB_def _ _ Hg) as HPB.
  pose proof (TT_pos _ _ Hg) as HTp. pose proof (GP_ge _ _ Hg) as HGP. pose proof (NB_ge _ _ Hg) as HNB.
  assert (Hlt : hv < sv + TT g).
  { unfold TT. pose proof (PB_pos _ _ Hg). pose proof (Z.div_mod hv (PB g) ltac:(lia)).
    pose proof (Z.div_mod sv (PB g) ltac:(lia)). pose proof (Z.mod_pos_bound hv (PB g) ltac:(lia)).
    pose proof (Z.mod_pos_bound sv (PB g) ltac:(lia)).
    nia. }
  unfold journal_size. rewrite Ec, Eh, Et.
    assert (ETT : num_pages g = TT g).
    { apply (num_pages_TT g c Hg). }
    rewrite ETT. rewrite !Z.shiftr_div_pow2 by (destruct (go_c _ _ Hg); lia). fold (PC c).
    pose proof (ph_range _ _ Hg hv) as R1. pose proof (ph_range _ _ Hg sv) as R2.
    assert (EV : forall v, v = TT g * (v / TT g) + ph g v) by (intros v; apply Z.div_mod; lia).
    assert (EQ : forall v, v / PC c = (TT g / PC c) * (v / TT g) + ph g v / PC c).
    { intros v. assert (TT g = PC c * (GP g c * NB g)) by (unfold TT; lia).
      assert (TT g / PC c = GP g c * NB g) as -> by (symmetry; apply Z.div_unique with (r := 0); lia).
      rewrite (EV v) at 1. rewrite H at 1.
      replace (PC c * (GP g c * NB g) * (v / TT g) + ph g v) with (ph g v + (GP g c * NB g * (v / TT g)) * PC c) by lia.
      rewrite Z.div_add by lia. lia. }
    rewrite (EQ hv), (EQ sv).
    assert (Hdm : forall x, 0 <= x < TT g -> 0 <= x / PC c <= x).
    { intros x Hx. split; [apply Z.div_pos; lia|]. apply Z.div_le_upper_bound; nia. }
    pose proof (Hdm _ R1). pose proof (Hdm _ R2).
    assert (HT0 : 0 <= TT g / PC c <= TT g) by (split; [apply Z.div_pos; lia|apply Z.div_le_upper_bound; nia]).
    assert (Hmono : forall x y, 0 <= x <= y -> x / PC c <= y / PC c <= x / PC c + (y - x)).
    { intros x y Hxy. split; [apply Z.div_le_mono; lia|].
      transitivity ((x + (y - x) * PC c) / PC c); [apply Z.div_le_mono; nia|]. rewrite Z.div_add by lia. lia. }
    destruct (Z.ltb_spec (ph g hv) (ph g sv)) as [Hw|Hw].
    - assert (hv / TT g = sv / TT g + 1) as Eq.
      { pose proof (EV hv). pose proof (EV sv). nia. }
      rewrite Eq. pose proof (EV hv) as X1. pose proof (EV sv) as X2. rewrite Eq in X1.
      assert (Em : (ph g hv + TT g) / PC c = ph g hv / PC c + TT g / PC c).
      { assert (TT g = (TT g / PC c) * PC c) as E1.
        { assert (TT g = PC c * (GP g c * NB g)) as Hx by (unfold TT; lia).
          assert (TT g / PC c = GP g c * NB g) as -> by (symmetry; apply Z.div_unique with (r := 0); lia). lia. }
        rewrite E1 at 1. rewrite Z.div_add by lia. done. }
      pose proof (Hmono (ph g sv) (ph g hv + TT g) ltac:(lia)) as M1. rewrite Em in M1.
      rewrite !(w32_small (_ + _)) by lia. rewrite (w32_small (_ - ph g sv)) by lia.
      rewrite (w32_small (_ - ph g sv / PC c)) by lia. rewrite w32_small by lia. lia.
    - assert (hv / TT g = sv / TT g) as Eq.
      { pose proof (EV hv). pose proof (EV sv). nia. }
      rewrite Eq. pose proof (EV hv) as X1. pose proof (EV sv) as X2. rewrite Eq in X1.
      pose proof (Hmono (ph g sv) (ph g hv) ltac:(lia)) as M1.
      rewrite (w32_small (_ - ph g sv)) by lia.
      rewrite (w32_small (_ - ph g sv / PC c)) by lia. rewrite w32_small by lia. lia.
Qed.

Section jsize0.
Context (g : geo) (c : Z) (Hg : geo_ok g c) (weak : Z -> bool).

Lemma user_pages_count v n : 0 <= v ->
  user_pages (TT g) c (ph g v) n = Z.of_nat n - ((v + Z.of_nat n) / PC c - v / PC c).
Proof.
  intros Hv. induction n as [|n IH].
  { change (0 = 0 - ((v + 0) / PC c - v / PC c)). rewrite Z.add_0_r. lia. }
  unfold user_pages in *. rewrite seq_S, filter_app, app_length, Nat2Z.inj_add, IH. cbn [plus].
  rewrite Nat2Z.inj_succ. unfold Z.succ. rewrite (Z.add_assoc v).
  rewrite (div_step (v + Z.of_nat n)) by (pose proof (PC_ge _ _ Hg); lia).
  assert (E : (ph g v + Z.of_nat n) mod TT g mod 2 ^ c = (v + Z.of_nat n) mod PC c).
  { unfold ph at 1. rewrite Zplus_mod_idemp_l. apply (ph_slot g c Hg). }
  rewrite filter_cons, filter_nil, E. fold (PC c). destruct (decide _) as [H|H]; destruct (decide _) as [H'|H']; cbn [length]; try lia; done.
Qed.

Lemma jsize_MX s S Sd :
  MX g c weak s S Sd ->
  let j := js_j (m_js s) in
  let total := g_nblk g * 2 ^ g_lppb g in
  journal_size g j = user_pages total (j_ppc j) (j_tsync j) (Z.to_nat ((j_head j - j_tsync j) mod total)) /\
  0 <= journal_size g j <= g_nblk g * (2 ^ (g_lppb g - j_ppc j) * (2 ^ j_ppc j - 1)).
Proof.
  intros HM. cbn zeta.
  destruct HM as (_ & hv & tv & sv & K & D & HM).
  pose proof (mi_j _ _ _ _ _ _ _ _ _ _ _ HM) as [_ Hj _ _].
  change (g_nblk g * 2 ^ g_lppb g) with (TT g).
  pose proof (ji_ppc _ _ _ _ _ _ _ Hj) as Ec. pose proof (ji_head _ _ _ _ _ _ _ Hj) as Eh.
  pose proof (ji_tsync _ _ _ _ _ _ _ Hj) as Et. pose proof (ji_order _ _ _ _ _ _ _ Hj) as Ho.
  pose proof (ji_full _ _ _ _ _ _ _ Hj) as Hf.
  pose proof (PC_ge _ _ Hg) as HPC. pose proof (TT_le _ _ Hg) as HTT. pose proof (PB_def _ _ Hg) as HPB.
  pose proof (TT_pos _ _ Hg) as HTp. pose proof (GP_ge _ _ Hg) as HGP. pose proof (NB_ge _ _ Hg) as HNB.
  assert (Hlt : hv < sv + TT g).
  { unfold TT. pose proof (PB_pos _ _ Hg). pose proof (Z.div_mod hv (PB g) ltac:(lia)).
    pose proof (Z.div_mod sv (PB g) ltac:(lia)). pose proof (Z.mod_pos_bound hv (PB g) ltac:(lia)).
    pose proof (Z.mod_pos_bound sv (PB g) ltac:(lia)).
    nia. }
  assert (En : (j_head (js_j (m_js s)) - j_tsync (js_j (m_js s))) mod TT g = hv - sv).
  { rewrite Eh, Et. unfold ph. rewrite <-Zminus_mod. apply Z.mod_small. lia. }
  pose proof (jsize_JInv g c Hg _ _ _ _ _ Hj) as Esz.
  rewrite En, Ec, Et.
  split.
  - rewrite user_pages_count by lia. rewrite Z2Nat.id by lia. rewrite Esz.
    replace (sv + (hv - sv)) with hv by lia. done.
  - rewrite Esz.
    assert (Hle : forall n : nat, Z.of_nat n - ((sv + Z.of_nat n) / PC c - sv / PC c) <=
       Z.of_nat (Datatypes.S n) - ((sv + Z.of_nat (Datatypes.S n)) / PC c - sv / PC c) ).
    { intros n. rewrite Nat2Z.inj_succ. unfold Z.succ. rewrite (Z.add_assoc sv). rewrite div_step by lia.
      destruct (decide _); lia. }
    assert (Hm : forall a b : nat, (a <= b)%nat -> Z.of_nat a - ((sv + Z.of_nat a) / PC c - sv / PC c) <=
       Z.of_nat b - ((sv + Z.of_nat b) / PC c - sv / PC c)).
    { intros a b Hab. induction Hab; [lia|]. specialize (Hle m). lia. }
    pose proof (Hm 0%nat (Z.to_nat (hv - sv)) ltac:(lia)) as M0.
    pose proof (Hm (Z.to_nat (hv - sv)) (Z.to_nat (TT g)) ltac:(lia)) as M1.
    rewrite (Z2Nat.id (TT g)) in M1 by lia. rewrite Z2Nat.id in M0, M1 by lia. replace (sv + (hv - sv)) with hv in M0, M1 by lia.
    change (Z.of_nat 0) with 0 in M0. rewrite Z.add_0_r in M0.
    assert (EVn : (sv + TT g) / PC c = sv / PC c + GP g c * NB g).
    { replace (TT g) with ((GP g c * NB g) * PC c) by (unfold TT; lia). by rewrite Z.div_add by lia. }
    rewrite EVn in M1. fold (GP g c). fold (PC c). change (g_nblk g) with (NB g).
    replace (NB g * (GP g c * (PC c - 1))) with (TT g - GP g c * NB g) by (unfold TT; rewrite HPB; lia). lia.
Qed.
End jsize0.

Section jsize.
Context (g : geo) (weak : Z -> bool) (Hsup : supported g) (Hfew : few_weak g weak).

(** The exact number of user pages from the synced tail to the head, and never
    more than the chip has. *)
Theorem C26_journal_size s :
  reachable g weak s ->
  let j := js_j (m_js s) in
  let total := g_nblk g * 2 ^ g_lppb g in
  journal_size g j = user_pages total (j_ppc j) (j_tsync j) (Z.to_nat ((j_head j - j_tsync j) mod total)) /\
  0 <= journal_size g j <= g_nblk g * (2 ^ (g_lppb g - j_ppc j) * (2 ^ j_ppc j - 1)).
Proof.
  intros Hr. destruct (reach_MX g weak Hsup Hfew _ Hr) as (S & Sd & HM).
  exact (jsize_MX g _ (supported_geo g Hsup) weak s S Sd HM).
Qed.
End jsize.
