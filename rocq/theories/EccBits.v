(** Bit errors in byte buffers: the specification vocabulary of the ECC
    theorems, independent of the codes. *)
From stdpp Require Import list.
From Coq Require Import ZArith Lia.
Local Open Scope Z_scope.

(** A uint8_t array. *)
Definition byte (x : Z) : Prop := 0 <= x < 256.
Definition byte_list (b : list Z) : Prop := Forall byte b.

(** Flip bit [i mod 8] of byte [i / 8]. *)
Definition flip (i : nat) (b : list Z) : list Z :=
  alter (fun x => Z.lxor x (2 ^ Z.of_nat (i mod 8))) (i / 8)%nat b.
(** Flip all the listed bits. *)
Definition flips (is : list nat) (b : list Z) : list Z := foldr flip b is.
(** Number of bits of a buffer. *)
Definition nbits (b : list Z) : nat := (8 * length b)%nat.

Lemma flip_length i b : length (flip i b) = length b.
Proof. apply alter_length. Qed.
Lemma flips_length is b : length (flips is b) = length b.
Proof.
  induction is as [|i is IH]; [done|]. change (flips (i :: is) b) with (flip i (flips is b)).
  by rewrite flip_length.
Qed.

Lemma lxor_byte x y : byte x -> byte y -> byte (Z.lxor x y).
Proof.
  unfold byte. intros Hx Hy. split; [apply Z.lxor_nonneg; lia|].
  destruct (Z.eq_dec (Z.lxor x y) 0) as [-> |Hn]; [lia|].
  assert (0 <= Z.lxor x y) by (apply Z.lxor_nonneg; lia).
  apply (Z.log2_lt_cancel _ 256). change (Z.log2 256) with 8.
  pose proof (Z.log2_lxor x y ltac:(lia) ltac:(lia)) as Hl.
  assert (Hlog : forall v, 0 <= v < 256 -> Z.log2 v <= 7).
  { intros v Hv. destruct (Z.eq_dec v 0) as [-> |]; [cbn; lia|].
    apply Z.lt_succ_r. apply Z.log2_lt_pow2; lia. }
  pose proof (Hlog x Hx). pose proof (Hlog y Hy). lia.
Qed.
Lemma pow_byte i : byte (2 ^ Z.of_nat (i mod 8)).
Proof.
  pose proof (Nat.mod_upper_bound i 8 ltac:(lia)). unfold byte. split; [apply Z.pow_nonneg; lia|].
  change 256 with (2 ^ 8). apply Z.pow_lt_mono_r; lia.
Qed.
Lemma flip_bytes i b : byte_list b -> byte_list (flip i b).
Proof. intros H. apply Forall_alter; [done|]. intros x _ Hx. apply lxor_byte; [done|apply pow_byte]. Qed.
Lemma flips_bytes is b : byte_list b -> byte_list (flips is b).
Proof.
  intros H. induction is as [|i is IH]; [done|]. change (flips (i :: is) b) with (flip i (flips is b)).
  by apply flip_bytes.
Qed.

Lemma flip_cons_lt i x b : (i < 8)%nat -> flip i (x :: b) = Z.lxor x (2 ^ Z.of_nat i) :: b.
Proof. intros Hi. unfold flip. rewrite Nat.div_small, Nat.mod_small by lia. done. Qed.
Lemma flip_cons_ge i x b : flip (8 + i) (x :: b) = x :: flip i b.
Proof.
  unfold flip. replace ((8 + i) / 8)%nat with (Datatypes.S (i / 8)).
  - replace ((8 + i) mod 8)%nat with (i mod 8)%nat; [done|].
    rewrite <-(Nat.mod_add i 1 8) by lia. f_equal. lia.
  - replace (8 + i)%nat with (i + 1 * 8)%nat by lia. rewrite Nat.div_add by lia. lia.
Qed.
Lemma flip_app_l i a b : (i < nbits a)%nat -> flip i (a ++ b) = flip i a ++ b.
Proof.
  unfold nbits. intros H. unfold flip. rewrite alter_app_l; [done|]. apply Nat.div_lt_upper_bound; lia.
Qed.
Lemma flip_app_r i a b : flip (nbits a + i) (a ++ b) = a ++ flip i b.
Proof.
  unfold nbits, flip. replace (8 * length a + i)%nat with (i + length a * 8)%nat by lia.
  rewrite Nat.div_add, Nat.mod_add by lia. rewrite Nat.add_comm. by rewrite alter_app_r.
Qed.
Lemma flip_out i b : (nbits b <= i)%nat -> flip i b = b.
Proof.
  unfold nbits, flip. intros H.
  assert (length b <= i / 8)%nat by (apply Nat.div_le_lower_bound; lia).
  rewrite <-(list_alter_id id b (i / 8)) at 2 by done.
  apply list_alter_ext; [|done]. intros x Hx. apply lookup_lt_Some in Hx. lia.
Qed.
Lemma flip_flip i b : flip i (flip i b) = b.
Proof.
  unfold flip. rewrite <-list_alter_compose. apply list_alter_id. intros x. cbn.
  by rewrite Z.lxor_assoc, Z.lxor_nilpotent, Z.lxor_0_r.
Qed.
Lemma flip_comm i j b : flip i (flip j b) = flip j (flip i b).
Proof.
  unfold flip. destruct (decide (i / 8 = j / 8)%nat) as [-> |Hn].
  - rewrite <-!list_alter_compose. apply list_alter_ext; [|done]. intros x _. cbn.
    rewrite !Z.lxor_assoc. f_equal. apply Z.lxor_comm.
  - by rewrite list_alter_commute.
Qed.

(** Finite checks by evaluation. *)
Definition all_below (n : Z) (f : Z -> bool) : bool :=
  forallb (fun i => f (Z.of_nat i)) (seq 0 (Z.to_nat n)).
Lemma all_below_spec n f : all_below n f = true -> forall i, 0 <= i < n -> f i = true.
Proof.
  unfold all_below. intros H i Hi. rewrite forallb_forall in H.
  specialize (H (Z.to_nat i)). rewrite Z2Nat.id in H by lia. apply H. apply in_seq. lia.
Qed.

Lemma land_lxor_l a b c : Z.land (Z.lxor a b) c = Z.lxor (Z.land a c) (Z.land b c).
Proof.
  apply Z.bits_inj'. intros k Hk. rewrite !Z.lxor_spec, !Z.land_spec, Z.lxor_spec.
  by destruct (Z.testbit a k), (Z.testbit b k), (Z.testbit c k).
Qed.
Lemma lxor_swap a b c : Z.lxor (Z.lxor a b) c = Z.lxor (Z.lxor a c) b.
Proof. rewrite !Z.lxor_assoc. f_equal. apply Z.lxor_comm. Qed.
Lemma lxor_cancel a b : Z.lxor (Z.lxor a b) b = a.
Proof. by rewrite Z.lxor_assoc, Z.lxor_nilpotent, Z.lxor_0_r. Qed.
