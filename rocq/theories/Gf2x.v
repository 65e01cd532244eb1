(** Polynomials over GF(2): bit k of a non-negative number is the coefficient of
    x^k, addition is [Z.lxor].  The specification used for tools/gftool.c. *)
From stdpp Require Import list.
From Coq Require Import ZArith Lia.
From Verif Require Import EccBits Gf13.
Local Open Scope Z_scope.

(** Sum of the polynomials f k for the k below n with bit k of a set. *)
Definition sumb (n : nat) (a : Z) (f : nat -> Z) : Z :=
  foldr (fun k r => Z.lxor (if Z.testbit a (Z.of_nat k) then f k else 0) r) 0 (seq 0 n).
(** Number of coefficients of a polynomial. *)
Definition len (a : Z) : nat := if a =? 0 then 0%nat else S (Z.to_nat (Z.log2 a)).
(** Product: the sum of x^k * b for the terms x^k of a. *)
Definition pmul (a b : Z) : Z := sumb (len a) a (fun k => Z.shiftl b (Z.of_nat k)).
(** a(x^j): the sum of x^(k*j) for the terms x^k of a. *)
Definition psub (a : Z) (j : nat) : Z := sumb (len a) a (fun k => 2 ^ Z.of_nat (k * j)).
(** a and b are congruent modulo p. *)
Definition cong (p a b : Z) : Prop := exists q, 0 <= q /\ Z.lxor a b = pmul q p.

Lemma lxor_0 a : Z.lxor a a = 0. Proof. apply Z.lxor_nilpotent. Qed.
Lemma nn_lxor a b : 0 <= a -> 0 <= b -> 0 <= Z.lxor a b.
Proof. intros. apply Z.lxor_nonneg. lia. Qed.
Lemma lt_pow_bits a n : 0 <= n -> 0 <= a -> (forall k, n <= k -> Z.testbit a k = false) -> a < 2 ^ n.
Proof.
  intros Hn Ha H. destruct (Z.lt_ge_cases a (2 ^ n)) as [|Hge]; [done|]. exfalso.
  assert (0 < 2 ^ n) by (apply Z.pow_pos_nonneg; lia).
  assert (n <= Z.log2 a) by (apply Z.log2_le_pow2; lia).
  pose proof (H (Z.log2 a) ltac:(lia)) as E. rewrite Z.bit_log2 in E by lia. done.
Qed.
Lemma high_bits a n k : 0 <= a < 2 ^ n -> n <= k -> Z.testbit a k = false.
Proof.
  intros Ha Hk. destruct (Z.eq_dec a 0) as [-> |]; [apply Z.bits_0|].
  apply Z.bits_above_log2; [lia|]. assert (Z.log2 a < n) by (apply Z.log2_lt_pow2; lia). lia.
Qed.
Lemma lxor_ltp a b n : 0 <= n -> 0 <= a < 2 ^ n -> 0 <= b < 2 ^ n -> 0 <= Z.lxor a b < 2 ^ n.
Proof.
  intros Hn Ha Hb. split; [apply nn_lxor; lia|]. apply lt_pow_bits; [lia|apply nn_lxor; lia|].
  intros k Hk. by rewrite Z.lxor_spec, (high_bits a n), (high_bits b n).
Qed.
Lemma len_lt a : 0 <= a -> a < 2 ^ Z.of_nat (len a).
Proof.
  intros Ha. unfold len. destruct (Z.eqb_spec a 0) as [-> |]; [done|].
  rewrite Nat2Z.inj_succ, Z2Nat.id by apply Z.log2_nonneg. apply Z.log2_spec. lia.
Qed.
Lemma len_le a n : 0 <= a < 2 ^ Z.of_nat n -> (len a <= n)%nat.
Proof.
  intros Ha. unfold len. destruct (Z.eqb_spec a 0) as [-> |]; [lia|].
  assert (Z.log2 a < Z.of_nat n) by (apply Z.log2_lt_pow2; lia). pose proof (Z.log2_nonneg a). lia.
Qed.

(** ** Sums *)
Lemma sumb_S n a f : sumb (S n) a f = Z.lxor (sumb n a f) (if Z.testbit a (Z.of_nat n) then f n else 0).
Proof.
  unfold sumb. rewrite seq_S, foldr_app. cbn [foldr Nat.add]. rewrite Z.lxor_0_r.
  generalize (if Z.testbit a (Z.of_nat n) then f n else 0) as z. intros z.
  induction (seq 0 n) as [|k l IH]; cbn [foldr]; [by rewrite Z.lxor_0_l|]. by rewrite IH, Z.lxor_assoc.
Qed.
Lemma sumb_more n m a f : (n <= m)%nat -> 0 <= a < 2 ^ Z.of_nat n -> sumb m a f = sumb n a f.
Proof.
  intros Hm Ha. induction Hm as [|m Hm IH]; [done|]. rewrite sumb_S, IH.
  rewrite (high_bits a (Z.of_nat n)) by lia. apply Z.lxor_0_r.
Qed.
Lemma sumb_len n a f : 0 <= a < 2 ^ Z.of_nat n -> sumb (len a) a f = sumb n a f.
Proof.
  intros Ha. symmetry. apply sumb_more; [by apply len_le|]. split; [lia|]. apply len_lt. lia.
Qed.
Lemma sumb_lxor n a b f : sumb n (Z.lxor a b) f = Z.lxor (sumb n a f) (sumb n b f).
Proof.
  induction n as [|n IH]; [done|]. rewrite !sumb_S, IH, Z.lxor_spec, lxor_4. f_equal.
  destruct (Z.testbit a _), (Z.testbit b _); cbn [xorb]; by rewrite ?lxor_0, ?Z.lxor_0_r.
Qed.
Lemma sumb_ext n a f g : (forall k, (k < n)%nat -> Z.testbit a (Z.of_nat k) = true -> f k = g k) -> sumb n a f = sumb n a g.
Proof.
  induction n as [|n IH]; intros H; [done|]. rewrite !sumb_S. rewrite IH by (intros; apply H; [lia|done]). f_equal.
  destruct (Z.testbit a (Z.of_nat n)) eqn:E; [|done]. apply H; [lia|done].
Qed.
Lemma sumb_nn n a f : (forall k, 0 <= f k) -> 0 <= sumb n a f.
Proof.
  intros H. induction n as [|n IH]; [done|]. rewrite sumb_S. apply nn_lxor; [done|]. by destruct (Z.testbit a _).
Qed.
Lemma sumb_hom n a f (h : Z -> Z) : h 0 = 0 -> (forall k, 0 <= f k) -> (forall u v, 0 <= u -> 0 <= v -> h (Z.lxor u v) = Z.lxor (h u) (h v)) ->
  h (sumb n a f) = sumb n a (fun k => h (f k)).
Proof.
  intros H0 Hf Hh. induction n as [|n IH]; [done|]. rewrite !sumb_S, Hh, IH.
  - f_equal. by destruct (Z.testbit a _).
  - by apply sumb_nn.
  - by destruct (Z.testbit a _).
Qed.
Lemma sumb_pow n i f : (i < n)%nat -> sumb n (2 ^ Z.of_nat i) f = f i.
Proof.
  intros Hi. induction n as [|n IH]; [lia|]. rewrite sumb_S, Z.pow2_bits_eqb by lia.
  destruct (Z.eqb_spec (Z.of_nat i) (Z.of_nat n)) as [E|E].
  - assert (i = n) as <- by lia. clear.
    assert (H : forall m, (m <= i)%nat -> sumb m (2 ^ Z.of_nat i) f = 0).
    { induction m as [|m IH]; intros Hm; [done|]. rewrite sumb_S, IH, Z.pow2_bits_false by lia. done. }
    by rewrite H, Z.lxor_0_l.
  - rewrite IH by lia. apply Z.lxor_0_r.
Qed.

(** Two additive functions that agree on the powers of x agree everywhere. *)
Definition additive (f : Z -> Z) : Prop := forall a b, 0 <= a -> 0 <= b -> f (Z.lxor a b) = Z.lxor (f a) (f b).
Lemma additive_0 f : additive f -> f 0 = 0.
Proof. intros H. specialize (H 0 0 ltac:(lia) ltac:(lia)). rewrite lxor_0 in H. rewrite H. apply lxor_0. Qed.
Lemma top_split a n : 2 ^ Z.of_nat n <= a < 2 ^ Z.of_nat (S n) ->
  a = Z.lxor (2 ^ Z.of_nat n) (a - 2 ^ Z.of_nat n) /\ 0 <= a - 2 ^ Z.of_nat n < 2 ^ Z.of_nat n.
Proof.
  intros Ha. rewrite Nat2Z.inj_succ, Z.pow_succ_r in Ha by lia. split; [|lia].
  rewrite <-Z.add_nocarry_lxor; [lia|]. apply Z.bits_inj'. intros k Hk.
  rewrite Z.land_spec, Z.bits_0, Z.pow2_bits_eqb by lia. destruct (Z.eqb_spec (Z.of_nat n) k) as [<- |]; [|done].
  cbn [andb]. apply (high_bits _ (Z.of_nat n)); lia.
Qed.
Lemma additive_ext f g : additive f -> additive g -> (forall i : nat, f (2 ^ Z.of_nat i) = g (2 ^ Z.of_nat i)) ->
  forall a, 0 <= a -> f a = g a.
Proof.
  intros Hf Hg Hp a Ha. assert (H : exists n : nat, a < 2 ^ Z.of_nat n) by (exists (len a); by apply len_lt).
  destruct H as [n Hn]. revert a Ha Hn. induction n as [|n IH]; intros a Ha Hn.
  - change (2 ^ Z.of_nat 0) with 1 in Hn. replace a with 0 by lia. by rewrite !additive_0.
  - destruct (Z.lt_ge_cases a (2 ^ Z.of_nat n)) as [Hlt|Hge]; [by apply IH|].
    destruct (top_split a n ltac:(lia)) as [E Hr]. rewrite E.
    rewrite Hf, Hg, Hp by (try lia; apply Z.pow_nonneg; lia). f_equal. apply IH; lia.
Qed.

(** ** Products *)
Lemma pow_nn k : 0 <= 2 ^ Z.of_nat k. Proof. apply Z.pow_nonneg. lia. Qed.
Lemma pow_pos k : 0 < 2 ^ Z.of_nat k. Proof. apply Z.pow_pos_nonneg; lia. Qed.
Lemma sumb_add f : additive (fun a => sumb (len a) a f).
Proof.
  intros a b Ha Hb. set (n := Nat.max (len a) (len b)).
  assert (HA : 0 <= a < 2 ^ Z.of_nat n).
  { pose proof (len_lt a Ha). assert (2 ^ Z.of_nat (len a) <= 2 ^ Z.of_nat n) by (apply Z.pow_le_mono_r; lia). lia. }
  assert (HB : 0 <= b < 2 ^ Z.of_nat n).
  { pose proof (len_lt b Hb). assert (2 ^ Z.of_nat (len b) <= 2 ^ Z.of_nat n) by (apply Z.pow_le_mono_r; lia). lia. }
  rewrite (sumb_len n), (sumb_len n a), (sumb_len n b); [apply sumb_lxor|done|done|apply lxor_ltp; lia].
Qed.
Lemma sumb_len_pow f i : sumb (len (2 ^ Z.of_nat i)) (2 ^ Z.of_nat i) f = f i.
Proof.
  rewrite (sumb_len (S i)); [apply sumb_pow; lia|]. split; [apply pow_nn|]. apply Z.pow_lt_mono_r; lia.
Qed.
Lemma pmul_add_l b : additive (fun a => pmul a b).
Proof. apply sumb_add. Qed.
Lemma pmul_add_r a : additive (pmul a).
Proof.
  intros b c Hb Hc. unfold pmul. induction (len a) as [|n IH]; [done|]. rewrite !sumb_S, IH, lxor_4. f_equal.
  destruct (Z.testbit a _); [apply Z.shiftl_lxor|done].
Qed.
Lemma pmul_pow_l i b : pmul (2 ^ Z.of_nat i) b = Z.shiftl b (Z.of_nat i).
Proof. apply (sumb_len_pow (fun k => Z.shiftl b (Z.of_nat k))). Qed.
Lemma shiftl_add k : additive (fun a => Z.shiftl a k).
Proof. intros a b _ _. apply Z.shiftl_lxor. Qed.
Lemma shiftl_pow i j : Z.shiftl (2 ^ Z.of_nat i) (Z.of_nat j) = 2 ^ Z.of_nat (i + j).
Proof. rewrite Z.shiftl_mul_pow2 by lia. rewrite <-Z.pow_add_r by lia. f_equal. lia. Qed.
Lemma pmul_pow_r a j : 0 <= a -> pmul a (2 ^ Z.of_nat j) = Z.shiftl a (Z.of_nat j).
Proof.
  intros Ha. apply (additive_ext (fun a => pmul a (2 ^ Z.of_nat j)) (fun a => Z.shiftl a (Z.of_nat j))); [apply pmul_add_l|apply shiftl_add| |done].
  intros i. rewrite pmul_pow_l, !shiftl_pow. by rewrite (Nat.add_comm j i).
Qed.
Lemma pmul_nn a b : 0 <= b -> 0 <= pmul a b.
Proof. intros Hb. apply sumb_nn. intros k. by apply Z.shiftl_nonneg. Qed.
Lemma pmul_comm a b : 0 <= a -> 0 <= b -> pmul a b = pmul b a.
Proof.
  intros Ha Hb. apply (additive_ext (fun a => pmul a b) (pmul b)); [apply pmul_add_l|apply pmul_add_r| |done].
  intros i. by rewrite pmul_pow_l, pmul_pow_r.
Qed.
Lemma pmul_0_l b : pmul 0 b = 0. Proof. done. Qed.
Lemma pmul_0_r a : pmul a 0 = 0. Proof. apply (additive_0 (pmul a)), pmul_add_r. Qed.
Lemma pmul_1_l b : pmul 1 b = b. Proof. change 1 with (2 ^ Z.of_nat 0). rewrite (pmul_pow_l 0 b). apply Z.shiftl_0_r. Qed.
Lemma pmul_1_r a : 0 <= a -> pmul a 1 = a. Proof. intros Ha. change 1 with (2 ^ Z.of_nat 0). rewrite (pmul_pow_r a 0 Ha). apply Z.shiftl_0_r. Qed.
Lemma pmul_shiftl_l a b i : 0 <= a -> pmul (Z.shiftl a (Z.of_nat i)) b = Z.shiftl (pmul a b) (Z.of_nat i).
Proof.
  intros Ha. apply (additive_ext (fun a => pmul (Z.shiftl a (Z.of_nat i)) b) (fun a => Z.shiftl (pmul a b) (Z.of_nat i))); [| | |done].
  - intros u v Hu Hv. rewrite Z.shiftl_lxor. apply pmul_add_l; by apply Z.shiftl_nonneg.
  - intros u v Hu Hv. rewrite (pmul_add_l b u v Hu Hv). apply Z.shiftl_lxor.
  - intros k. rewrite shiftl_pow, !pmul_pow_l, Z.shiftl_shiftl by lia. f_equal. lia.
Qed.
Lemma pmul_assoc a b c : 0 <= a -> 0 <= b -> 0 <= c -> pmul a (pmul b c) = pmul (pmul a b) c.
Proof.
  intros Ha Hb Hc. apply (additive_ext (fun a => pmul a (pmul b c)) (fun a => pmul (pmul a b) c)); [apply pmul_add_l| | |done].
  - intros u v Hu Hv. rewrite (pmul_add_l b u v Hu Hv). apply pmul_add_l; by apply pmul_nn.
  - intros i. rewrite !pmul_pow_l. by rewrite pmul_shiftl_l.
Qed.
Lemma pmul_lt a b n m : 0 <= a < 2 ^ Z.of_nat n -> 0 <= b < 2 ^ Z.of_nat (S m) -> pmul a b < 2 ^ Z.of_nat (n + m).
Proof.
  intros Ha Hb. unfold pmul. rewrite (sumb_len n) by done.
  assert (H : forall k, (k <= n)%nat -> 0 <= sumb k a (fun k => Z.shiftl b (Z.of_nat k)) < 2 ^ Z.of_nat (n + m)); [|by apply H].
  induction k as [|k IH]; intros Hk; [split; [done|apply pow_pos]|].
  rewrite sumb_S. apply lxor_ltp; [lia|apply IH; lia|].
  destruct (Z.testbit a _); [|split; [lia|apply pow_pos]].
  split; [apply Z.shiftl_nonneg; lia|]. rewrite Z.shiftl_mul_pow2 by lia.
  assert (b * 2 ^ Z.of_nat k < 2 ^ Z.of_nat (S m) * 2 ^ Z.of_nat k) by (apply Z.mul_lt_mono_pos_r; [apply pow_pos|lia]).
  rewrite <-Z.pow_add_r in * by lia.
  assert (2 ^ (Z.of_nat (S m) + Z.of_nat k) <= 2 ^ Z.of_nat (n + m)) by (apply Z.pow_le_mono_r; lia). lia.
Qed.
(** Degrees add. *)
Lemma range_log2 a n : 0 <= n -> 2 ^ n <= a < 2 ^ (n + 1) -> 0 < a /\ Z.log2 a = n.
Proof. intros Hn Ha. assert (0 < 2 ^ n) by (apply Z.pow_pos_nonneg; lia). split; [lia|]. by apply Z.log2_unique. Qed.
Lemma pmul_log2 a b : 0 < a -> 0 < b -> 0 < pmul a b /\ Z.log2 (pmul a b) = Z.log2 a + Z.log2 b.
Proof.
  intros Ha Hb. pose proof (Z.log2_nonneg a) as La. pose proof (Z.log2_nonneg b) as Lb.
  set (n := Z.to_nat (Z.log2 a)). set (m := Z.to_nat (Z.log2 b)).
  assert (Hn : Z.log2 a = Z.of_nat n) by lia. assert (Hm : Z.log2 b = Z.of_nat m) by lia.
  pose proof (Z.log2_spec a Ha) as Sa. pose proof (Z.log2_spec b Hb) as Sb. rewrite Hn in Sa. rewrite Hm in Sb.
  rewrite Hn, Hm. rewrite <-!Nat2Z.inj_succ in Sa, Sb.
  destruct (top_split a n Sa) as [E Hr]. rewrite E. rewrite (pmul_add_l b) by (try apply pow_nn; lia).
  rewrite pmul_pow_l. set (q := pmul _ b).
  assert (Hq : 0 <= q < 2 ^ Z.of_nat (n + m)) by (split; [apply pmul_nn; lia|apply pmul_lt; lia]).
  assert (Hnn : 0 <= Z.lxor (Z.shiftl b (Z.of_nat n)) q) by (apply nn_lxor; [apply Z.shiftl_nonneg|]; lia).
  assert (Ht : Z.testbit (Z.lxor (Z.shiftl b (Z.of_nat n)) q) (Z.of_nat (n + m)) = true).
  { rewrite Z.lxor_spec, (high_bits q (Z.of_nat (n + m))) by lia. rewrite Z.shiftl_spec by lia.
    replace (Z.of_nat (n + m) - Z.of_nat n) with (Z.log2 b) by lia. rewrite Z.bit_log2 by lia. done. }
  assert (Hh : forall k, Z.of_nat (n + m) < k -> Z.testbit (Z.lxor (Z.shiftl b (Z.of_nat n)) q) k = false).
  { intros k Hk. rewrite Z.lxor_spec, (high_bits q (Z.of_nat (n + m))) by lia. rewrite Z.shiftl_spec by lia.
    rewrite Z.bits_above_log2 by lia. done. }
  assert (Hp : 0 < Z.lxor (Z.shiftl b (Z.of_nat n)) q).
  { destruct (Z.eq_dec (Z.lxor (Z.shiftl b (Z.of_nat n)) q) 0) as [E0|]; [|lia]. rewrite E0, Z.bits_0 in Ht. done. }
  split; [done|].
  destruct (Z.lt_total (Z.log2 (Z.lxor (Z.shiftl b (Z.of_nat n)) q)) (Z.of_nat (n + m))) as [Hlt|[Heq|Hgt]].
  - rewrite Z.bits_above_log2 in Ht by lia. done.
  - lia.
  - pose proof (Hh _ Hgt) as Hf. rewrite Z.bit_log2 in Hf by lia. done.
Qed.
Lemma pmul_eq0 a b : 0 <= a -> 0 <= b -> pmul a b = 0 -> a = 0 \/ b = 0.
Proof.
  intros Ha Hb E. destruct (Z.eq_dec a 0); [by left|]. destruct (Z.eq_dec b 0); [by right|].
  destruct (pmul_log2 a b); lia.
Qed.

(** ** Substitution of a power of x *)
Lemma psub_add j : additive (fun a => psub a j).
Proof. apply sumb_add. Qed.
Lemma psub_pow i j : psub (2 ^ Z.of_nat i) j = 2 ^ Z.of_nat (i * j).
Proof. apply (sumb_len_pow (fun k => 2 ^ Z.of_nat (k * j))). Qed.
Lemma psub_nn a j : 0 <= psub a j.
Proof. apply sumb_nn. intros. apply pow_nn. Qed.
Lemma psub_mul a b j : 0 <= a -> 0 <= b -> psub (pmul a b) j = pmul (psub a j) (psub b j).
Proof.
  intros Ha Hb. apply (additive_ext (fun a => psub (pmul a b) j) (fun a => pmul (psub a j) (psub b j))); [| | |done].
  - intros u v Hu Hv. rewrite (pmul_add_l b u v Hu Hv). apply psub_add; by apply pmul_nn.
  - intros u v Hu Hv. rewrite (psub_add j u v Hu Hv). apply pmul_add_l; apply psub_nn.
  - intros i. rewrite psub_pow, !pmul_pow_l. clear a Ha.
    apply (additive_ext (fun b => psub (Z.shiftl b (Z.of_nat i)) j) (fun b => Z.shiftl (psub b j) (Z.of_nat (i * j)))); [| | |done].
    + intros u v Hu Hv. rewrite Z.shiftl_lxor. apply psub_add; by apply Z.shiftl_nonneg.
    + intros u v Hu Hv. rewrite (psub_add j u v Hu Hv). apply Z.shiftl_lxor.
    + intros k. rewrite shiftl_pow, !psub_pow, shiftl_pow. f_equal. lia.
Qed.
(** Squaring is additive, so a(x^2j) is the square of a(x^j). *)
Lemma psub_sq a j : 0 <= a -> psub a (2 * j) = pmul (psub a j) (psub a j).
Proof.
  intros Ha. apply (additive_ext (fun a => psub a (2 * j)) (fun a => pmul (psub a j) (psub a j))); [apply psub_add| | |done].
  - intros u v Hu Hv. rewrite (psub_add j u v Hu Hv). pose proof (psub_nn u j). pose proof (psub_nn v j).
    rewrite (pmul_add_l _ (psub u j) (psub v j)) by done. rewrite !(pmul_add_r _ (psub u j) (psub v j)) by done.
    rewrite (pmul_comm (psub v j) (psub u j)) by done.
    rewrite Z.lxor_assoc. rewrite <-(Z.lxor_assoc (pmul (psub u j) (psub v j))). by rewrite lxor_0, Z.lxor_0_l.
  - intros i. rewrite !psub_pow, pmul_pow_l, shiftl_pow. f_equal. lia.
Qed.

(** ** Congruence *)
Section cong.
Context (p : Z) (Hp : 0 < p).
Lemma cong_refl a : cong p a a.
Proof. exists 0. split; [lia|]. by rewrite lxor_0. Qed.
Lemma cong_sym a b : cong p a b -> cong p b a.
Proof. intros (q & Hq & E). exists q. split; [done|]. by rewrite Z.lxor_comm. Qed.
Lemma cong_trans a b c : cong p a b -> cong p b c -> cong p a c.
Proof.
  intros (q & Hq & E) (q' & Hq' & E'). exists (Z.lxor q q'). split; [by apply nn_lxor|].
  rewrite (pmul_add_l p q q') by done. rewrite <-E, <-E'. rewrite Z.lxor_assoc, <-(Z.lxor_assoc b b), lxor_0. by rewrite Z.lxor_0_l.
Qed.
Lemma cong_add a b c d : cong p a b -> cong p c d -> cong p (Z.lxor a c) (Z.lxor b d).
Proof.
  intros (q & Hq & E) (q' & Hq' & E'). exists (Z.lxor q q'). split; [by apply nn_lxor|].
  rewrite (pmul_add_l p q q') by done. rewrite <-E, <-E'. apply lxor_4.
Qed.
Lemma cong_mul a b c : 0 <= a -> 0 <= b -> 0 <= c -> cong p a b -> cong p (pmul c a) (pmul c b).
Proof.
  intros Ha Hb Hc (q & Hq & E). exists (pmul c q). split; [by apply pmul_nn|].
  rewrite <-(pmul_add_r c a b) by done. rewrite E. apply pmul_assoc; lia.
Qed.
Lemma cong_mul2 a b c d : 0 <= a -> 0 <= b -> 0 <= c -> 0 <= d -> cong p a b -> cong p c d -> cong p (pmul a c) (pmul b d).
Proof.
  intros Ha Hb Hc Hd H1 H2. apply (cong_trans _ (pmul a d)); [by apply cong_mul|].
  rewrite (pmul_comm a d), (pmul_comm b d) by done. by apply cong_mul.
Qed.
(** Residues are unique. *)
Lemma cong_small a b : 0 <= a < 2 ^ Z.log2 p -> 0 <= b < 2 ^ Z.log2 p -> cong p a b -> a = b.
Proof.
  intros Ha Hb (q & Hq & E). pose proof (Z.log2_nonneg p) as Hl.
  pose proof (lxor_ltp a b (Z.log2 p) Hl Ha Hb) as Hx.
  destruct (Z.eq_dec q 0) as [-> |Hq0]; [by apply Z.lxor_eq|]. exfalso.
  destruct (pmul_log2 q p) as [H1 H2]; [lia|lia|]. rewrite <-E in *.
  assert (Z.log2 (Z.lxor a b) < Z.log2 p) by (apply Z.log2_lt_pow2; lia). pose proof (Z.log2_nonneg q). lia.
Qed.
(** Every polynomial has a residue: long division. *)
Lemma cong_rem n : forall a, 0 <= a < 2 ^ Z.of_nat n -> exists r, 0 <= r < 2 ^ Z.log2 p /\ cong p a r.
Proof.
  pose proof (Z.log2_nonneg p) as Hl.
  induction n as [|n IH]; intros a Ha.
  - exists a. split; [|apply cong_refl]. change (2 ^ Z.of_nat 0) with 1 in Ha.
    assert (0 < 2 ^ Z.log2 p) by (apply Z.pow_pos_nonneg; lia). lia.
  - destruct (Z.lt_ge_cases a (2 ^ Z.of_nat n)) as [Hlt|Hge]; [apply IH; lia|].
    destruct (Z.lt_ge_cases (Z.of_nat n) (Z.log2 p)) as [Hs|Hs].
    { exists a. split; [|apply cong_refl]. split; [lia|].
      assert (2 ^ Z.of_nat (S n) <= 2 ^ Z.log2 p) by (apply Z.pow_le_mono_r; lia). lia. }
    set (k := Z.to_nat (Z.of_nat n - Z.log2 p)). set (s := pmul (2 ^ Z.of_nat k) p).
    assert (Es : s = Z.shiftl p (Z.of_nat k)) by apply pmul_pow_l.
    assert (Hs0 : 0 <= s) by (apply pmul_nn; lia).
    destruct (IH (Z.lxor a s)) as (r & Hr & Hc).
    { split; [apply nn_lxor; lia|]. apply lt_pow_bits; [lia|apply nn_lxor; lia|]. intros i Hi. rewrite Z.lxor_spec.
      destruct (Z.eq_dec i (Z.of_nat n)) as [-> |Hin].
      - replace (Z.testbit a (Z.of_nat n)) with true.
        2:{ destruct (top_split a n ltac:(lia)) as [E Hr]. rewrite E, Z.lxor_spec, Z.pow2_bits_true by lia.
            by rewrite (high_bits (a - 2 ^ Z.of_nat n) (Z.of_nat n)) by lia. }
        rewrite Es, Z.shiftl_spec by lia. replace (Z.of_nat n - Z.of_nat k) with (Z.log2 p) by lia. by rewrite Z.bit_log2 by lia.
      - rewrite (high_bits a (Z.of_nat (S n))) by lia. rewrite Es, Z.shiftl_spec by lia. by rewrite Z.bits_above_log2 by lia. }
    exists r. split; [done|]. apply (cong_trans _ (Z.lxor a s)); [|done]. exists (2 ^ Z.of_nat k). split; [apply pow_nn|].
    rewrite <-Z.lxor_assoc, lxor_0. apply Z.lxor_0_l.
Qed.
Lemma cong_residue a : 0 <= a -> exists r, 0 <= r < 2 ^ Z.log2 p /\ cong p a r.
Proof. intros Ha. apply (cong_rem (len a)). split; [done|]. by apply len_lt. Qed.
End cong.
