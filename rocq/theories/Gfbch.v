(** Model of the BCH part of tools/gftool.c and theorem C54. *)
From stdpp Require Import list.
From Coq Require Import ZArith Lia Sorted.
From Verif Require Import EccBits Gf13Tab Gf13 Bch Gf2x Gftool.
Local Open Scope Z_scope.

(** ** Model *)

(** mod_s (gftool.c:178-181); the argument is converted to uint16_t *)
Definition mod_s (g : gf) (x : Z) : Z :=
  let x := t16 x in if g_order g <=? x then t16 (x - g_order g) else x.
(** eval_poly (gftool.c:263-281); [None]: reads an unwritten or out-of-range entry *)
Fixpoint eval_loop (g : gf) (n : nat) (p log_x log_t r : Z) : option Z :=
  match n with
  | O => Some r
  | S n =>
    if p =? 0 then Some r else
    if negb (Z.land p 1 =? 0) then
      match gtab (g_exp g) log_t with
      | Some e => eval_loop g n (Z.shiftr p 1) log_x (mod_s g (log_t + log_x)) (Z.lxor r e)
      | None => None
      end
    else eval_loop g n (Z.shiftr p 1) log_x (mod_s g (log_t + log_x)) r
  end.
Definition eval_poly (g : gf) (p x : Z) : option Z :=
  match gtab (g_log g) x with
  | Some log_x => eval_loop g 64 (reciprocal p) log_x 1 0
  | None => None
  end.
(** minimal (gftool.c:283-293); the result is converted to uint16_t *)
Fixpoint minimal_loop (g : gf) (n : nat) (x i : Z) : option Z :=
  match n with
  | O => None
  | S n =>
    if Z.shiftr i (g_degree g) <=? 1 then
      match eval_poly g i x with
      | Some v => if v =? 0 then Some (t16 i) else minimal_loop g n x (i + 1)
      | None => None
      end
    else Some (t16 i)
  end.
Definition minimal (g : gf) (x : Z) : option Z := minimal_loop g (Z.to_nat (2 ^ (g_degree g + 1))) x 1.
(** bch_generator (gftool.c:295-347).  [seen] is the bitmap of the polynomials
    already multiplied; BchUB stands for a bad table access. *)
Inductive bch_result := BchRefused | BchOverflow | BchUB | BchOk (r : Z).
Fixpoint bch_loop (g : gf) (k : nat) (n i r : Z) (seen : list Z) : bch_result :=
  match k with
  | O => BchUB
  | S k =>
    if i <=? n then
      match gtab (g_exp g) i with
      | Some e =>
        match minimal g e with
        | Some m =>
          if existsb (Z.eqb m) seen then bch_loop g k n (t16 (i + 2)) r seen
          else if 63 <? degree m + degree r then BchOverflow
          else bch_loop g k n (t16 (i + 2)) (mul_poly r m) (m :: seen)
        | None => BchUB
        end
      | None => BchUB
      end
    else BchOk r
  end.
Definition bch_generator (g : gf) (n : Z) : bch_result :=
  if g_order g <=? n then BchRefused else bch_loop g (S (Z.to_nat n)) n 1 1 [].

(** ** Specification *)

(** q vanishes at alpha^j, where alpha is x modulo p. *)
Definition vanishes (p q : Z) (j : nat) : Prop := cong p (psub q j) 0.
(** r divides q *)
Definition divides (r q : Z) : Prop := exists k, 0 <= k /\ q = pmul k r.

(** ** Reversal of coefficients *)
Lemma additive_ext_lt f g n : additive f -> additive g -> (forall i : nat, (i < n)%nat -> f (2 ^ Z.of_nat i) = g (2 ^ Z.of_nat i)) ->
  forall a, 0 <= a < 2 ^ Z.of_nat n -> f a = g a.
Proof.
  intros Hf Hg. induction n as [|n IH]; intros Hp a Ha.
  - change (2 ^ Z.of_nat 0) with 1 in Ha. replace a with 0 by lia. by rewrite !additive_0.
  - destruct (Z.lt_ge_cases a (2 ^ Z.of_nat n)) as [Hlt|Hge]; [apply IH; [|lia]; intros; apply Hp; lia|].
    destruct (top_split a n ltac:(lia)) as [E Hr]. rewrite E.
    rewrite Hf, Hg, Hp by (try lia; apply Z.pow_nonneg; lia). f_equal. apply IH; [|lia]. intros; apply Hp; lia.
Qed.
(** coefficients 0..n reversed *)
Definition revn (n : nat) (a : Z) : Z := sumb (len a) a (fun k => 2 ^ Z.of_nat (n - k)).
Lemma revn_add n : additive (revn n).
Proof. apply sumb_add. Qed.
Lemma revn_pow n i : revn n (2 ^ Z.of_nat i) = 2 ^ Z.of_nat (n - i).
Proof. apply (sumb_len_pow (fun k => 2 ^ Z.of_nat (n - k))). Qed.
Lemma revn_nn n a : 0 <= revn n a.
Proof. apply sumb_nn. intros. apply pow_nn. Qed.
Lemma revn_mul n m a b : 0 <= a < 2 ^ Z.of_nat (S n) -> 0 <= b < 2 ^ Z.of_nat (S m) ->
  revn (n + m) (pmul a b) = pmul (revn n a) (revn m b).
Proof.
  intros Ha Hb. apply (additive_ext_lt (fun a => revn (n + m) (pmul a b)) (fun a => pmul (revn n a) (revn m b)) (S n)); [| | |done].
  - intros u v Hu Hv. rewrite (pmul_add_l b u v Hu Hv). apply revn_add; apply pmul_nn; lia.
  - intros u v Hu Hv. rewrite (revn_add n u v Hu Hv). apply pmul_add_l; apply revn_nn.
  - intros i Hi. rewrite revn_pow, !pmul_pow_l.
    apply (additive_ext_lt (fun b => revn (n + m) (Z.shiftl b (Z.of_nat i))) (fun b => Z.shiftl (revn m b) (Z.of_nat (n - i))) (S m)); [| | |done].
    + intros u v Hu Hv. rewrite Z.shiftl_lxor. apply revn_add; by apply Z.shiftl_nonneg.
    + intros u v Hu Hv. rewrite (revn_add m u v Hu Hv). apply Z.shiftl_lxor.
    + intros j Hj. rewrite shiftl_pow, !revn_pow, shiftl_pow. f_equal. lia.
Qed.
Lemma revn_bit n a : 0 <= a < 2 ^ Z.of_nat (S n) -> forall k, (k <= n)%nat -> Z.testbit (revn n a) (Z.of_nat k) = Z.testbit a (Z.of_nat (n - k)).
Proof.
  intros Ha k Hk. unfold revn. rewrite (sumb_len (S n)) by done.
  assert (H : forall m, (m <= S n)%nat -> Z.testbit (sumb m a (fun k => 2 ^ Z.of_nat (n - k))) (Z.of_nat k) =
    (n - k <? m)%nat && Z.testbit a (Z.of_nat (n - k))).
  { induction m as [|m IH]; intros Hm; [by rewrite Z.bits_0|]. rewrite sumb_S, Z.lxor_spec, IH by lia.
    destruct (Nat.eq_dec m (n - k)) as [-> |Hne].
    - destruct (Nat.ltb_spec (n - k) (n - k)); [lia|]. destruct (Nat.ltb_spec (n - k) (S (n - k))); [|lia].
      destruct (Z.testbit a (Z.of_nat (n - k))); cbn [andb xorb]; [|by rewrite Z.bits_0].
      replace (n - (n - k))%nat with k by lia. by rewrite Z.pow2_bits_true by lia.
    - replace (Z.testbit (if Z.testbit a (Z.of_nat m) then 2 ^ Z.of_nat (n - m) else 0) (Z.of_nat k)) with false.
      + rewrite xorb_false_r. f_equal. destruct (Nat.ltb_spec (n - k) m), (Nat.ltb_spec (n - k) (S m)); lia || done.
      + destruct (Z.testbit a (Z.of_nat m)); [|by rewrite Z.bits_0]. rewrite Z.pow2_bits_false by lia. done. }
  rewrite H by lia. destruct (Nat.ltb_spec (n - k) (S n)); [done|lia].
Qed.
Lemma revn_lt n a : 0 <= revn n a < 2 ^ Z.of_nat (S n).
Proof.
  split; [apply revn_nn|]. unfold revn. generalize (len a) as m. intros m.
  assert (H : 0 <= sumb m a (fun k => 2 ^ Z.of_nat (n - k)) < 2 ^ Z.of_nat (S n)); [|lia].
  induction m as [|m IH]; [split; [done|apply pow_pos]|]. rewrite sumb_S. apply lxor_ltp; [lia|done|].
  destruct (Z.testbit a _); [|split; [lia|apply pow_pos]]. split; [apply pow_nn|]. apply Z.pow_lt_mono_r; lia.
Qed.
(** reciprocal is reversal *)
Lemma recip_revn q : 0 < q < 2 ^ 64 -> reciprocal q = revn (Z.to_nat (Z.log2 q)) q.
Proof.
  intros Hq. pose proof (Z.log2_nonneg q) as Hn. set (n := Z.to_nat (Z.log2 q)).
  pose proof (Z.log2_spec q ltac:(lia)) as Hs. replace (Z.log2 q) with (Z.of_nat n) in Hs by lia. rewrite <-Nat2Z.inj_succ in Hs.
  destruct (C53_print q Hq) as [Hb _]. apply Z.bits_inj'. intros k Hk. rewrite Hb by done.
  destruct (Z.leb_spec k (Z.log2 q)); cbn [andb].
  - replace k with (Z.of_nat (Z.to_nat k)) by lia. rewrite revn_bit by lia. f_equal. lia.
  - symmetry. apply (high_bits _ (Z.of_nat (S n))); [apply revn_lt|lia].
Qed.
Lemma recip_bound q : 0 < q < 2 ^ 64 -> 0 < reciprocal q < 2 ^ 64 /\ Z.log2 (reciprocal q) <= Z.log2 q /\ Z.odd (reciprocal q) = true.
Proof.
  intros Hq. rewrite recip_revn by done. pose proof (Z.log2_nonneg q) as Hn. set (n := Z.to_nat (Z.log2 q)).
  pose proof (Z.log2_spec q ltac:(lia)) as Hs. replace (Z.log2 q) with (Z.of_nat n) in Hs by lia. rewrite <-Nat2Z.inj_succ in Hs.
  pose proof (revn_lt n q) as Hr.
  assert (Ho : Z.odd (revn n q) = true).
  { rewrite <-Z.bit0_odd. change 0 with (Z.of_nat 0). rewrite revn_bit by lia. replace (Z.of_nat (n - 0)) with (Z.log2 q) by lia. apply Z.bit_log2. lia. }
  assert (H0 : revn n q <> 0) by (intros E; rewrite E in Ho; done).
  assert (Z.log2 q < 64) by (apply Z.log2_lt_pow2; lia).
  assert (2 ^ Z.of_nat (S n) <= 2 ^ 64) by (apply Z.pow_le_mono_r; lia).
  split; [lia|]. split; [|done]. cut (Z.log2 (revn n q) < Z.of_nat (S n)); [lia|]. apply Z.log2_lt_pow2; lia.
Qed.
Lemma recip_log2 q : 0 < q < 2 ^ 64 -> Z.odd q = true -> Z.log2 (reciprocal q) = Z.log2 q.
Proof.
  intros Hq Ho. destruct (recip_bound q Hq) as (H1 & H2 & _). destruct (C53_print q Hq) as [Hb _].
  assert (Ht : Z.testbit (reciprocal q) (Z.log2 q) = true).
  { rewrite Hb by apply Z.log2_nonneg. rewrite Z.leb_refl, Z.sub_diag, Z.bit0_odd. done. }
  destruct (Z.lt_ge_cases (Z.log2 (reciprocal q)) (Z.log2 q)); [|lia].
  rewrite Z.bits_above_log2 in Ht by lia. done.
Qed.
Lemma recip_recip q : 0 < q < 2 ^ 64 -> Z.odd q = true -> reciprocal (reciprocal q) = q.
Proof.
  intros Hq Ho. destruct (recip_bound q Hq) as (H1 & H2 & H3). pose proof (recip_log2 q Hq Ho) as Hl.
  destruct (C53_print q Hq) as [Hb _]. destruct (C53_print _ H1) as [Hb' _].
  apply Z.bits_inj'. intros k Hk. rewrite Hb' by done. rewrite Hl.
  destruct (Z.leb_spec k (Z.log2 q)); cbn [andb].
  - rewrite Hb by lia. destruct (Z.leb_spec (Z.log2 q - k) (Z.log2 q)); [|lia]. cbn [andb]. f_equal. lia.
  - symmetry. apply Z.bits_above_log2; lia.
Qed.
Lemma pmul_odd a b : 0 <= a -> 0 <= b -> Z.odd (pmul a b) = Z.odd a && Z.odd b.
Proof.
  intros Ha Hb. unfold pmul.
  assert (H : forall n, Z.odd (sumb (S n) a (fun k => Z.shiftl b (Z.of_nat k))) = Z.odd a && Z.odd b).
  { induction n as [|n IH]; rewrite sumb_S, <-Z.bit0_odd, Z.lxor_spec, !Z.bit0_odd.
    - change (sumb 0 a _) with 0. change (Z.of_nat 0) with 0. rewrite Z.shiftl_0_r. destruct (Z.odd a); [|done]. by destruct (Z.odd b).
    - rewrite IH. replace (Z.odd (if Z.testbit a (Z.of_nat (S n)) then Z.shiftl b (Z.of_nat (S n)) else 0)) with false; [by rewrite xorb_false_r|].
      destruct (Z.testbit a _); [|done]. rewrite <-Z.bit0_odd, Z.shiftl_spec by lia. by rewrite Z.testbit_neg_r by lia. }
  destruct (Z.eq_dec a 0) as [-> |]; [done|]. unfold len. destruct (Z.eqb_spec a 0); [done|]. apply H.
Qed.
Lemma log2_lt64 q : 0 < q -> Z.log2 q < 64 -> q < 2 ^ 64.
Proof. intros. apply Z.log2_lt_pow2; lia. Qed.
Lemma recip_mul a b : 0 < a -> 0 < b -> Z.log2 a + Z.log2 b <= 63 -> reciprocal (pmul a b) = pmul (reciprocal a) (reciprocal b).
Proof.
  intros Ha Hb Hl. pose proof (Z.log2_nonneg a). pose proof (Z.log2_nonneg b). destruct (pmul_log2 a b Ha Hb) as [H1 H2].
  rewrite !recip_revn by (split; [lia|apply log2_lt64; lia]). rewrite H2, Z2Nat.inj_add by lia. apply revn_mul.
  - pose proof (Z.log2_spec a Ha). rewrite Nat2Z.inj_succ, Z2Nat.id by lia. lia.
  - pose proof (Z.log2_spec b Hb). rewrite Nat2Z.inj_succ, Z2Nat.id by lia. lia.
Qed.

(** ** mul_poly is the product *)
Lemma t64_bit a k : 0 <= k -> Z.testbit (t64 a) k = (k <? 64) && Z.testbit a k.
Proof.
  intros Hk. unfold t64. rewrite Z.land_spec. destruct (Z.ltb_spec k 64); [rewrite Z.ones_spec_low by lia; apply andb_true_r|].
  rewrite Z.ones_spec_high by lia. apply andb_false_r.
Qed.
Lemma t64_lxor a b : t64 (Z.lxor a b) = Z.lxor (t64 a) (t64 b).
Proof. apply land_lxor_l. Qed.
Lemma t64_t64 a : t64 (t64 a) = t64 a.
Proof. apply Z.bits_inj'. intros k Hk. rewrite !t64_bit by lia. by destruct (k <? 64). Qed.
Lemma t64_shift a : t64 (Z.shiftl (t64 a) 1) = t64 (Z.shiftl a 1).
Proof.
  apply Z.bits_inj'. intros k Hk. rewrite !t64_bit, !Z.shiftl_spec by lia. destruct (Z.ltb_spec k 64); [|done]. cbn [andb].
  destruct (Z.eq_dec k 0) as [-> |]; [by rewrite !Z.testbit_neg_r by lia|]. rewrite t64_bit by lia.
  by destruct (Z.ltb_spec (k - 1) 64); [|lia].
Qed.
Lemma half_split a : 0 <= a -> a = Z.lxor (if Z.odd a then 1 else 0) (Z.shiftl (Z.shiftr a 1) 1).
Proof.
  intros Ha. apply Z.bits_inj'. intros k Hk. rewrite Z.lxor_spec, Z.shiftl_spec by lia.
  destruct (Z.eq_dec k 0) as [-> |].
  - rewrite (Z.testbit_neg_r _ (0 - 1)) by lia. rewrite xorb_false_r, Z.bit0_odd. by destruct (Z.odd a).
  - rewrite Z.shiftr_spec by lia. replace (k - 1 + 1) with k by lia.
    replace (Z.testbit (if Z.odd a then 1 else 0) k) with false; [by rewrite xorb_false_l|].
    destruct (Z.odd a); [|by rewrite Z.bits_0]. symmetry. apply Z.bits_above_log2; cbn; lia.
Qed.
Lemma pmul_sh1 a b : 0 <= a -> 0 <= b -> pmul (Z.shiftl a 1) b = pmul a (Z.shiftl b 1).
Proof.
  intros Ha Hb. pose proof (pmul_shiftl_l a b 1 Ha) as H1. pose proof (pmul_shiftl_l b a 1 Hb) as H2. change (Z.of_nat 1) with 1 in *.
  rewrite H1. rewrite (pmul_comm a (Z.shiftl b 1)) by (try apply Z.shiftl_nonneg; lia). rewrite H2. f_equal. by apply pmul_comm.
Qed.
Lemma mul_loop_ok n : forall a b r, 0 <= a < 2 ^ Z.of_nat n -> 0 <= b -> 0 <= r ->
  mul_loop n a (t64 b) (t64 r) = t64 (Z.lxor r (pmul a b)).
Proof.
  induction n as [|n IH]; intros a b r Ha Hb Hr.
  - change (2 ^ Z.of_nat 0) with 1 in Ha. replace a with 0 by lia. cbn. by rewrite Z.lxor_0_r.
  - cbn [mul_loop]. destruct (Z.eqb_spec a 0) as [-> |Ha0]; [by rewrite pmul_0_l, Z.lxor_0_r|].
    pose proof (shiftr1_lt a n Ha) as Hs. rewrite t64_shift.
    assert (Em : pmul a b = Z.lxor (if Z.odd a then b else 0) (pmul (Z.shiftr a 1) (Z.shiftl b 1))).
    { rewrite (half_split a) at 1 by lia. rewrite (pmul_add_l b) by (try (apply Z.shiftl_nonneg); destruct (Z.odd a); lia). f_equal.
      - destruct (Z.odd a); [apply pmul_1_l|done].
      - apply pmul_sh1; lia. }
    rewrite land1_odd. rewrite Em, <-Z.lxor_assoc.
    assert (Hb' : 0 <= Z.shiftl b 1) by (apply Z.shiftl_nonneg; lia).
    destruct (Z.odd a); cbn [negb Z.eqb].
    + rewrite <-t64_lxor. apply IH; [lia|done|]. by apply nn_lxor.
    + rewrite Z.lxor_0_r. by apply IH.
Qed.
Lemma mul_poly_ok a b : 0 < a -> 0 < b -> Z.log2 a + Z.log2 b <= 63 -> mul_poly a b = pmul a b.
Proof.
  intros Ha Hb Hl. pose proof (Z.log2_nonneg a). pose proof (Z.log2_nonneg b). destruct (pmul_log2 a b Ha Hb) as [H1 H2].
  unfold mul_poly. rewrite <-(t64_small b) by (split; [lia|apply log2_lt64; lia]). change 0 with (t64 0) at 1.
  rewrite mul_loop_ok; [|split; [lia|apply log2_lt64; lia]|lia|lia].
  rewrite Z.lxor_0_l. rewrite (t64_small b) by (split; [lia|apply log2_lt64; lia]). apply t64_small. split; [lia|apply log2_lt64; lia].
Qed.

(** ** Sums of powers *)
Lemma sumb_shift n P f : sumb (S n) P f = Z.lxor (if Z.odd P then f 0%nat else 0) (sumb n (Z.shiftr P 1) (fun k => f (S k))).
Proof.
  induction n as [|n IH].
  - rewrite sumb_S. change (sumb 0 _ _) with 0. change (sumb 0 _ _) with 0. rewrite Z.lxor_0_l, Z.lxor_0_r.
    change (Z.of_nat 0) with 0. by rewrite Z.bit0_odd.
  - rewrite sumb_S, IH, (sumb_S n (Z.shiftr P 1)), Z.lxor_assoc. f_equal. f_equal. rewrite Z.shiftr_spec by lia. by replace (Z.of_nat n + 1) with (Z.of_nat (S n)) by lia.
Qed.
Lemma sumb_zero n f : sumb n 0 f = 0.
Proof. induction n as [|n IH]; [done|]. by rewrite sumb_S, IH, Z.bits_0. Qed.
Lemma sumb_cong p n a f g : (forall k, cong p (f k) (g k)) -> cong p (sumb n a f) (sumb n a g).
Proof.
  intros H. induction n as [|n IH]; [apply cong_refl|]. rewrite !sumb_S. apply cong_add; [done|].
  destruct (Z.testbit a _); [apply H|apply cong_refl].
Qed.
Lemma odd_part q : 0 < q -> exists t r, q = Z.shiftl r (Z.of_nat t) /\ 0 < r <= q /\ Z.odd r = true.
Proof.
  intros Hq. assert (Hq' : exists n : nat, q < 2 ^ Z.of_nat n) by (exists (len q); apply len_lt; lia). destruct Hq' as [n Hn].
  revert q Hq Hn. induction n as [|n IH]; intros q Hq Hn; [change (2 ^ Z.of_nat 0) with 1 in Hn; lia|].
  destruct (Z.odd q) eqn:Ho.
  - exists 0%nat, q. split; [by rewrite Z.shiftl_0_r|]. split; [lia|done].
  - pose proof (half_split q ltac:(lia)) as Es. rewrite Ho, Z.lxor_0_l in Es.
    assert (E2 : q = 2 * Z.shiftr q 1) by (rewrite Z.shiftl_mul_pow2 in Es by lia; lia).
    destruct (IH (Z.shiftr q 1)) as (t & r & E & Hr & Hro).
    + lia.
    + apply shiftr1_lt. lia.
    + exists (S t), r. split; [|split; [lia|done]]. rewrite Es, E. rewrite Z.shiftl_shiftl by lia. f_equal. lia.
Qed.

(** ** The field *)
Section bch.
Context (p d : Z) (Hd : 2 <= d <= 15) (HP : primitive d p).
Notation T := (gstep p d).
Notation E k := (Nat.iter k T 1).
Notation N := (N d).
Lemma Hd62 : 1 <= d <= 62. Proof. lia. Qed.
Notation Hp := (Gftool.Hp p d HP).
Notation Hl := (Gftool.Hl p d HP).
Lemma Epow k : cong p (2 ^ Z.of_nat k) (E k).
Proof. apply (E_cong p d Hd62 Hp Hl). Qed.
Lemma Eres k : res d (E k).
Proof. apply (E_res p d Hd62 Hp Hl). Qed.
Lemma res0 : res d 0.
Proof. pose proof (res_pos d Hd62). unfold res. lia. Qed.
Lemma res_eq a b : res d a -> res d b -> cong p a b -> a = b.
Proof. apply (res_small p d Hp Hl). Qed.
Lemma E_cong_iff i j : E i = E j <-> cong p (2 ^ Z.of_nat i) (2 ^ Z.of_nat j).
Proof. apply (E_eq p d Hd62 Hp Hl). Qed.

(** the value of q at alpha^j, as a residue *)
Definition pval (q : Z) (j : nat) : Z := sumb (len q) q (fun k => E (k * j)).
Lemma sumE_res n a f : (forall k, res d (f k)) -> res d (sumb n a f).
Proof.
  intros H. induction n as [|n IH]; [apply res0|]. rewrite sumb_S. unfold res. apply lxor_ltp; [lia|apply IH|].
  destruct (Z.testbit a _); [apply H|apply res0].
Qed.
Lemma pval_res q j : res d (pval q j).
Proof. apply sumE_res. intros k. apply Eres. Qed.
Lemma pval_cong q j : cong p (psub q j) (pval q j).
Proof. apply sumb_cong. intros k. apply Epow. Qed.
Lemma van_pval q j : vanishes p q j <-> pval q j = 0.
Proof.
  unfold vanishes. split; intros H.
  - apply res_eq; [apply pval_res|apply res0|]. apply (cong_trans p _ (psub q j)); [apply cong_sym, pval_cong|done].
  - rewrite <-H. apply pval_cong.
Qed.
Lemma van_dec q j : {vanishes p q j} + {~ vanishes p q j}.
Proof. destruct (Z.eq_dec (pval q j) 0) as [H|H]; [left|right]; by rewrite van_pval. Qed.
Lemma van_eq q i j : E i = E j -> vanishes p q i <-> vanishes p q j.
Proof.
  intros H. rewrite !van_pval. unfold pval. rewrite (sumb_ext _ _ _ (fun k => E (k * j))); [done|]. intros k _ _.
  induction k as [|k IH]; [done|]. cbn [Nat.mul].
  transitivity (E (i + k * j)); [by rewrite <-!iter_add, IH|].
  rewrite !(Nat.add_comm _ (k * j)). by rewrite <-!iter_add, H.
Qed.
Lemma van_add a b j : 0 <= a -> 0 <= b -> vanishes p a j -> vanishes p b j -> vanishes p (Z.lxor a b) j.
Proof.
  intros Ha Hb H1 H2. unfold vanishes. rewrite (psub_add j a b Ha Hb). rewrite <-(Z.lxor_0_r 0). by apply cong_add.
Qed.
Lemma van_mul a b j : 0 <= a -> 0 <= b -> vanishes p (pmul a b) j <-> vanishes p a j \/ vanishes p b j.
Proof.
  intros Ha Hb. unfold vanishes. rewrite psub_mul by done. pose proof (psub_nn a j). pose proof (psub_nn b j).
  split; [by apply (field_nzd p d Hd62 HP)|]. intros [Hx|Hx].
  - rewrite pmul_comm by done. rewrite <-(pmul_0_r (psub b j)). apply cong_mul; try done. apply Hp.
  - rewrite <-(pmul_0_r (psub a j)). apply cong_mul; try done. apply Hp.
Qed.
Lemma van_1 j : ~ vanishes p 1 j.
Proof.
  unfold vanishes. change (psub 1 j) with (psub (2 ^ Z.of_nat 0) j). rewrite psub_pow. apply (x_not_zero p d Hd62 HP).
Qed.
Lemma van_sq q j : 0 <= q -> vanishes p q j -> vanishes p q (2 * j).
Proof.
  intros Hq H. unfold vanishes in *. rewrite psub_sq by done. pose proof (psub_nn q j).
  rewrite <-(pmul_0_r (psub q j)). apply cong_mul; try done. apply Hp.
Qed.
Lemma van_shift r t j : 0 <= r -> vanishes p (Z.shiftl r (Z.of_nat t)) j -> vanishes p r j.
Proof.
  intros Hr H. rewrite <-pmul_pow_l in H. apply van_mul in H as [H|H]; [|done|apply pow_nn|done]. exfalso.
  unfold vanishes in H. rewrite psub_pow in H. by apply (x_not_zero p d Hd62 HP) in H.
Qed.

(** M is a polynomial of least degree that vanishes at alpha^j *)
Definition minpoly (M : Z) (j : nat) : Prop :=
  0 < M /\ vanishes p M j /\ forall q, 0 < q -> vanishes p q j -> Z.log2 M <= Z.log2 q.
Lemma minpoly_divides M j q : minpoly M j -> 0 <= q -> vanishes p q j -> divides M q.
Proof.
  intros (HM & Hv & Hmin) Hq Hvq. destruct (cong_residue M HM q Hq) as (r & Hr & k & Hk & Ek).
  assert (Hkm : 0 <= pmul k M) by (apply pmul_nn; lia).
  assert (Er : r = Z.lxor q (pmul k M)).
  { rewrite <-Ek, <-Z.lxor_assoc, lxor_0. by rewrite Z.lxor_0_l. }
  assert (Hvr : vanishes p r j).
  { rewrite Er. apply van_add; [done|done|done|]. apply van_mul; [done|lia|]. by right. }
  destruct (Z.eq_dec r 0) as [-> |Hr0].
  - exists k. split; [done|]. by rewrite Z.lxor_0_r in Ek.
  - exfalso. pose proof (Hmin r ltac:(lia) Hvr).
    assert (Z.log2 r < Z.log2 M) by (apply Z.log2_lt_pow2; lia). lia.
Qed.
(** Minimal polynomials with a common root are equal. *)
Lemma minpoly_same M M' j j' : minpoly M j -> minpoly M' j' -> vanishes p M' j -> M = M'.
Proof.
  intros HM HM' Hv. pose proof HM as (H1 & H2 & H3). pose proof HM' as (H1' & H2' & H3').
  destruct (minpoly_divides M j M' HM ltac:(lia) Hv) as (k & Hk & Ek).
  assert (Hk0 : 0 < k). { destruct (Z.eq_dec k 0) as [-> |]; [rewrite pmul_0_l in Ek; lia|lia]. }
  destruct (pmul_log2 k M Hk0 H1) as [_ Hlg]. rewrite <-Ek in Hlg. pose proof (Z.log2_nonneg k). pose proof (Z.log2_nonneg M).
  rewrite Ek in H2'. apply van_mul in H2' as [Hk'|Hm']; [| |lia|lia].
  - pose proof (H3' k Hk0 Hk'). assert (M = 1) as -> by (apply log2_0_1; lia). by apply van_1 in H2.
  - pose proof (H3' M H1 Hm'). assert (k = 1) as -> by (apply log2_0_1; lia). by rewrite pmul_1_l in Ek.
Qed.

(** Something of degree at most d vanishes. *)
Lemma some_root j : exists q, 0 < q < 2 ^ (d + 1) /\ vanishes p q j.
Proof.
  pose proof (N_val d Hd62) as HN. pose proof (res_pos d Hd62) as Hpos.
  destruct (pigeon_dec (fun k => pval (Z.of_nat k) j) (S (S N))) as [Hn|(a & b & Hab & Eab)].
  - exfalso. pose proof (nodup_range _ 0 (S N) Hn) as H. rewrite map_length, seq_length in H.
    assert (S (S N) <= S N)%nat; [|lia]. apply H. intros x Hx. apply elem_of_list_In, in_map_iff in Hx as (k & <- & _).
    pose proof (pval_res (Z.of_nat k) j) as Hr. unfold res in Hr. lia.
  - exists (Z.lxor (Z.of_nat a) (Z.of_nat b)).
    assert (E2 : 2 ^ (d + 1) = 2 * 2 ^ d) by (rewrite Z.pow_add_r by lia; lia).
    split.
    + assert (Hx : 0 <= Z.lxor (Z.of_nat a) (Z.of_nat b) < 2 ^ (d + 1)) by (apply lxor_ltp; lia).
      assert (Z.lxor (Z.of_nat a) (Z.of_nat b) <> 0); [|lia]. intros H0. apply Z.lxor_eq in H0. lia.
    + unfold vanishes. rewrite (psub_add j) by lia.
      apply (cong_trans p _ (Z.lxor (pval (Z.of_nat a) j) (pval (Z.of_nat b) j))).
      * apply cong_add; apply pval_cong.
      * rewrite Eab, lxor_0. apply cong_refl.
Qed.

(** ** The functions *)
Context (g : gf) (Hg : gf_init p = Ready g).
Lemma g_facts : g_order g = 2 ^ d - 1 /\ g_degree g = d /\
  (forall i : nat, (i <= N)%nat -> gtab (g_exp g) (Z.of_nat i) = Some (E i)) /\
  (forall a, 0 < a < 2 ^ d -> exists L : nat, (1 <= L <= N)%nat /\ gtab (g_log g) a = Some (Z.of_nat L) /\ E L = a).
Proof.
  destruct (C53_tables d p ltac:(lia) HP) as (g' & Hg' & H1 & H2 & H3 & H4 & _). rewrite Hg in Hg'. injection Hg' as <-.
  pose proof (N_val d Hd62) as HN.
  assert (He : forall i : nat, (i <= N)%nat -> gtab (g_exp g) (Z.of_nat i) = Some (E i)).
  { intros i Hi. destruct (H3 (Z.of_nat i) ltac:(lia)) as (r & -> & Hr & Hc). f_equal. apply res_eq; [done|apply Eres|].
    apply (cong_trans p _ (2 ^ Z.of_nat i)); [by apply cong_sym|apply Epow]. }
  split; [done|]. split; [done|]. split; [done|].
  intros a Ha. destruct (H4 a Ha) as (i & Hi1 & Hi2 & Hi3). exists (Z.to_nat i). split; [lia|].
  rewrite Z2Nat.id by lia. split; [done|]. rewrite <-(Z2Nat.id i) in Hi3 by lia. rewrite He in Hi3 by lia. by injection Hi3.
Qed.
Lemma N_small : (3 <= N)%nat /\ Z.of_nat N <= 32767.
Proof.
  pose proof (N_val d Hd62). assert (2 ^ 2 <= 2 ^ d) by (apply Z.pow_le_mono_r; lia).
  assert (2 ^ d <= 2 ^ 15) by (apply Z.pow_le_mono_r; lia). change (2 ^ 2) with 4 in *. change (2 ^ 15) with 32768 in *. lia.
Qed.
Lemma eval_loop_ok n : forall P t r L, 0 <= P < 2 ^ Z.of_nat n -> (t < N)%nat -> (1 <= L <= N)%nat ->
  eval_loop g n P (Z.of_nat L) (Z.of_nat t) r = Some (Z.lxor r (sumb n P (fun k => E (t + k * L)))).
Proof.
  destruct g_facts as (G1 & G2 & G3 & G4). pose proof (N_val d Hd62) as HN. pose proof N_small as Hs.
  induction n as [|n IH]; intros P t r L HP0 Ht HL.
  - cbn [eval_loop]. change (sumb 0 P _) with 0. by rewrite Z.lxor_0_r.
  - cbn [eval_loop]. destruct (Z.eqb_spec P 0) as [-> |HP1]; [by rewrite sumb_zero, Z.lxor_0_r|].
    assert (Hm : exists t', mod_s g (Z.of_nat t + Z.of_nat L) = Z.of_nat t' /\ (t' < N)%nat /\ forall k, E (t' + k * L) = E (t + S k * L)).
    { unfold mod_s. rewrite G1, <-HN. rewrite (t16_small (Z.of_nat t + Z.of_nat L)) by lia. cbn zeta.
      destruct (Z.leb_spec (Z.of_nat N) (Z.of_nat t + Z.of_nat L)).
      - exists (t + L - N)%nat. split; [rewrite t16_small by lia; lia|]. split; [lia|]. intros k.
        rewrite <-(E_per p d Hd62 HP). f_equal. lia.
      - exists (t + L)%nat. split; [lia|]. split; [lia|]. intros k. f_equal. lia. }
    destruct Hm as (t' & -> & Ht' & HE). pose proof (shiftr1_lt P n HP0) as Hsh.
    rewrite G3 by lia. rewrite !IH by (done || lia). rewrite land1_odd, sumb_shift.
    rewrite (sumb_ext n _ (fun k => E (t' + k * L)) (fun k => E (t + S k * L))) by (intros; apply HE).
    destruct (Z.odd P); cbn [negb Z.eqb].
    + rewrite Z.lxor_assoc. replace (t + 0 * L)%nat with t by lia. done.
    + by rewrite Z.lxor_0_l.
Qed.
Lemma eval_ok q a : 0 < q < 2 ^ 64 -> 0 < a < 2 ^ d -> exists v, eval_poly g q a = Some v /\
  0 <= v < 2 ^ d /\ forall j, cong p (2 ^ Z.of_nat j) a -> cong p v (pmul 2 (psub (reciprocal q) j)) /\ (v = 0 <-> vanishes p (reciprocal q) j).
Proof.
  intros Hq Ha. destruct g_facts as (G1 & G2 & G3 & G4). destruct (G4 a Ha) as (L & HL & GL & EL).
  unfold eval_poly. rewrite GL. pose proof N_small. destruct (recip_bound q Hq) as (Hr & _ & _). set (R := reciprocal q) in *.
  change 1 with (Z.of_nat 1) at 1. rewrite eval_loop_ok by (change (2 ^ Z.of_nat 64) with (2 ^ 64); lia). rewrite Z.lxor_0_l.
  set (v := sumb 64 R _). assert (Hv : res d v) by (apply sumE_res; intros; apply Eres).
  assert (Hcv : cong p v (pmul 2 (psub R L))).
  { unfold psub. rewrite (sumb_len 64) by (change (2 ^ Z.of_nat 64) with (2 ^ 64); lia).
    rewrite (sumb_hom 64 R _ (pmul 2)); [|apply pmul_0_r|intros; apply pow_nn|intros; apply pmul_add_r; done].
    apply sumb_cong. intros k. rewrite <-pow_S. apply cong_sym. apply (Epow (1 + k * L)). }
  exists v. split; [done|]. split; [exact Hv|]. intros j Hj.
  assert (Ej : E j = E L).
  { rewrite EL. apply res_eq; [apply Eres|unfold res; lia|]. apply (cong_trans p _ (2 ^ Z.of_nat j)); [apply cong_sym, Epow|done]. }
  assert (Hpj : cong p (psub R L) (psub R j)).
  { apply sumb_cong. intros k. apply E_cong_iff. symmetry. induction k as [|k IH]; [done|]. cbn [Nat.mul].
    transitivity (E (j + k * L)); [by rewrite <-!iter_add, IH|]. rewrite !(Nat.add_comm _ (k * L)). by rewrite <-!iter_add, Ej. }
  assert (Hcj : cong p v (pmul 2 (psub R j))).
  { apply (cong_trans p _ (pmul 2 (psub R L))); [done|]. apply cong_mul; [apply Hp|apply psub_nn|apply psub_nn|lia|done]. }
  split; [done|]. split; intros H0.
  - rewrite H0 in Hcj. apply cong_sym in Hcj. apply (field_nzd p d Hd62 HP) in Hcj as [Hx|Hx]; [|done|lia|apply psub_nn].
    change 2 with (2 ^ Z.of_nat 1) in Hx. by apply (x_not_zero p d Hd62 HP) in Hx.
  - apply res_eq; [done|apply res0|]. apply (cong_trans p _ (pmul 2 (psub R j))); [done|].
    rewrite <-(pmul_0_r 2). apply cong_mul; [apply Hp|apply psub_nn|lia|lia|done].
Qed.
Lemma minimal_loop_ok n : forall a i j w, 0 < a < 2 ^ d -> cong p (2 ^ Z.of_nat j) a -> 1 <= i <= w -> w < 2 ^ (d + 1) -> w - i < Z.of_nat n ->
  vanishes p (reciprocal w) j ->
  exists m, minimal_loop g n a i = Some m /\ i <= m <= w /\ vanishes p (reciprocal m) j /\ forall u, i <= u < m -> ~ vanishes p (reciprocal u) j.
Proof.
  destruct g_facts as (G1 & G2 & G3 & G4).
  assert (E2 : 2 ^ (d + 1) = 2 * 2 ^ d) by (rewrite Z.pow_add_r by lia; lia). pose proof (res_pos d Hd62) as Hpos.
  assert (Hp16 : 2 ^ (d + 1) <= 65536) by (change 65536 with (2 ^ 16); apply Z.pow_le_mono_r; lia).
  induction n as [|n IH]; intros a i j w Ha Hj Hi Hw Hn Hv; [lia|]. cbn [minimal_loop]. rewrite G2.
  replace (Z.shiftr i d <=? 1) with true.
  2:{ symmetry. apply Z.leb_le. rewrite Z.shiftr_div_pow2 by lia. assert (i / 2 ^ d < 2) by (apply Z.div_lt_upper_bound; lia). lia. }
  destruct (eval_ok i a) as (v & -> & _ & Hval); [change (2 ^ 64) with 18446744073709551616; lia|done|].
  destruct (Hval j Hj) as [_ Hv0].
  destruct (Z.eqb_spec v 0) as [-> |Hvn].
  - exists i. rewrite t16_small by lia. split; [done|]. split; [lia|]. split; [by apply Hv0|lia].
  - assert (Hne : ~ vanishes p (reciprocal i) j) by (intros Hc; by apply Hvn, Hv0).
    assert (i <> w) by (intros ->; done).
    destruct (IH a (i + 1) j w Ha Hj ltac:(lia) Hw ltac:(lia) Hv) as (m & Hm & Hmi & Hmv & Hmu).
    exists m. split; [done|]. split; [lia|]. split; [done|]. intros u Hu.
    destruct (Z.eq_dec u i) as [-> |]; [done|]. apply Hmu. lia.
Qed.
(** minimal returns the reversal of the minimal polynomial of its argument. *)
Lemma minimal_ok a j : 0 < a < 2 ^ d -> cong p (2 ^ Z.of_nat j) a ->
  exists m, minimal g a = Some m /\ 0 < m < 2 ^ (d + 1) /\ Z.odd m = true /\ minpoly (reciprocal m) j.
Proof.
  intros Ha Hj. destruct g_facts as (G1 & G2 & G3 & G4).
  assert (H64 : 2 ^ (d + 1) <= 2 ^ 64) by (apply Z.pow_le_mono_r; lia).
  (* candidates from roots *)
  assert (Hcand : forall q, 0 < q < 2 ^ (d + 1) -> vanishes p q j -> exists w, 0 < w < 2 ^ (d + 1) /\ vanishes p (reciprocal w) j /\ Z.log2 w <= Z.log2 q).
  { intros q Hq Hv. destruct (odd_part q ltac:(lia)) as (t & r & Eq & Hr & Ho). rewrite Eq in Hv. apply van_shift in Hv; [|lia].
    exists (reciprocal r). destruct (recip_bound r ltac:(lia)) as (H1 & H2 & H3).
    rewrite (recip_recip r ltac:(lia) Ho). pose proof (Z.log2_le_mono r q ltac:(lia)).
    split; [|split; [done|lia]]. split; [lia|]. apply Z.log2_lt_pow2; [lia|].
    assert (Z.log2 r < d + 1) by (apply Z.log2_lt_pow2; lia). lia. }
  destruct (some_root j) as (q & Hq & Hvq). destruct (Hcand q Hq Hvq) as (w & Hw & Hvw & _).
  unfold minimal. rewrite G2.
  destruct (minimal_loop_ok (Z.to_nat (2 ^ (d + 1))) a 1 j w Ha Hj) as (m & Hm & Hmi & Hmv & Hmu); [lia|lia|lia|done|].
  exists m. split; [done|]. split; [lia|].
  assert (Ho : Z.odd m = true).
  { destruct (odd_part m ltac:(lia)) as (t & r & Em & Hr & Ho). destruct (Z.eq_dec r m) as [<- |Hne]; [done|]. exfalso.
    apply (Hmu r); [lia|].
    replace (reciprocal r) with (reciprocal m); [done|]. rewrite !recip_revn by lia.
    assert (Hlg : Z.log2 m = Z.log2 r + Z.of_nat t) by (rewrite Em; apply Z.log2_shiftl; lia).
    pose proof (Z.log2_nonneg r). pose proof (Z.log2_spec r ltac:(lia)) as Hs.
    replace (Z.to_nat (Z.log2 m)) with (t + Z.to_nat (Z.log2 r))%nat by lia. rewrite Em, <-pmul_pow_l.
    rewrite revn_mul.
    - rewrite revn_pow, Nat.sub_diag. change (2 ^ Z.of_nat 0) with 1. apply pmul_1_l.
    - split; [apply pow_nn|]. apply Z.pow_lt_mono_r; lia.
    - rewrite Nat2Z.inj_succ, Z2Nat.id by lia. lia. }
  split; [done|]. destruct (recip_bound m ltac:(lia)) as (H1 & H2 & H3). split; [lia|]. split; [done|].
  intros u Hu Hvu. destruct (Z.lt_ge_cases u (2 ^ (d + 1))) as [Hlt|Hge].
  - destruct (Hcand u ltac:(lia) Hvu) as (w' & Hw' & Hvw' & Hlw').
    assert (m <= w'). { destruct (Z.lt_ge_cases w' m); [|done]. exfalso. apply (Hmu w'); [lia|done]. }
    pose proof (Z.log2_le_mono m w' ltac:(lia)). lia.
  - assert (d + 1 <= Z.log2 u) by (apply Z.log2_le_pow2; lia).
    assert (Z.log2 m < d + 1) by (apply Z.log2_lt_pow2; lia). lia.
Qed.
End bch.

(** ** The generator *)
Definition prod (l : list Z) : Z := foldr (fun m R => pmul (reciprocal m) R) 1 l.
Section gen.
Context (p d : Z) (Hd : 2 <= d <= 15) (HP : primitive d p) (g : gf) (Hg : gf_init p = Ready g) (n : Z) (Hn : 0 <= n < 2 ^ d - 1).
Definition odd_roots (q : Z) (i : nat) : Prop := forall j, (1 <= j < i)%nat -> Nat.Odd j -> vanishes p q j.
Definition okm (m : Z) : Prop := 0 < m < 2 ^ (d + 1) /\ Z.odd m = true /\ exists j, minpoly p (reciprocal m) j.
Record inv (i : nat) (r : Z) (seen : list Z) : Prop := {
  i_r : 0 < r < 2 ^ 64; i_odd : Z.odd r = true; i_R : reciprocal r = prod seen; i_seen : Forall okm seen;
  i_van : odd_roots (reciprocal r) i; i_div : forall q, 0 <= q -> odd_roots q i -> divides (reciprocal r) q }.
Lemma prod_nn l : Forall okm l -> 0 <= prod l.
Proof.
  induction 1 as [|m l Hm Hl IH]; [done|]. cbn [prod foldr]. by apply pmul_nn.
Qed.
Lemma okm_64 m : okm m -> 0 < m < 2 ^ 64.
Proof. intros [H _]. assert (2 ^ (d + 1) <= 2 ^ 64) by (apply Z.pow_le_mono_r; lia). lia. Qed.
Lemma prod_van l j : Forall okm l -> vanishes p (prod l) j <-> exists m, m ∈ l /\ vanishes p (reciprocal m) j.
Proof.
  induction 1 as [|m l Hm Hl IH].
  - split; [intros H; by apply (van_1 p d Hd HP) in H|]. intros (m & Hm & _). by apply elem_of_nil in Hm.
  - cbn [prod foldr]. destruct (recip_bound m (okm_64 m Hm)) as [Hr _]. rewrite (van_mul p d Hd HP) by (try apply prod_nn; done || lia). fold (prod l). rewrite IH.
    split.
    + intros [H|(m' & H1 & H2)]; [exists m; split; [constructor|done]|exists m'; split; [by constructor|done]].
    + intros (m' & H1 & H2). apply elem_of_cons in H1 as [-> |H1]; [by left|]. right. by exists m'.
Qed.
Lemma odd_roots_S q i : Nat.Odd i -> odd_roots q (S (S i)) <-> odd_roots q i /\ (vanishes p q i).
Proof.
  intros Ho. split.
  - intros H. split; [intros j Hj; apply H; lia|]. apply H; [|done]. destruct Ho. lia.
  - intros [H1 H2] j Hj Hoj. destruct (Nat.eq_dec j i) as [-> |]; [done|]. apply H1; [|done].
    destruct Ho as [a Ha], Hoj as [b Hb]. lia.
Qed.
Definition all_roots (q : Z) : Prop := forall i, 1 <= i <= n -> vanishes p q (Z.to_nat i).
Lemma bch_loop_ok k : forall i r seen, Nat.Odd i -> (1 <= i)%nat -> Z.of_nat i <= n + 2 -> Z.max 0 (n + 1 - Z.of_nat i) < Z.of_nat k -> inv i r seen ->
  match bch_loop g k n (Z.of_nat i) r seen with
  | BchOk r' => exists i' seen', n < Z.of_nat i' <= n + 2 /\ Nat.Odd i' /\ inv i' r' seen'
  | BchOverflow => forall q, 0 < q -> all_roots q -> 63 < Z.log2 q
  | _ => False
  end.
Proof.
  destruct (g_facts p d Hd HP g Hg) as (G1 & G2 & G3 & G4). pose proof (N_val d ltac:(lia)) as HN. pose proof (N_small d Hd) as Hs.
  induction k as [|k IH]; intros i r seen Ho Hi Hi2 Hk Hinv; cbn [bch_loop].
  - lia.
  - destruct (Z.leb_spec (Z.of_nat i) n) as [Hle|Hgt]; [|exists i, seen; split; [lia|]; by split].
    rewrite G3 by lia.
    assert (HE : 0 < Nat.iter i (gstep p d) 1 < 2 ^ d).
    { pose proof (E_neq0 p d ltac:(lia) HP i). pose proof (Eres p d Hd HP i) as Hr. unfold res in Hr. lia. }
    destruct (minimal_ok p d Hd HP g Hg _ i HE (Epow p d Hd HP i)) as (m & -> & Hm & Hmo & Hmp).
    assert (Hok : okm m) by (split; [lia|]; split; [done|]; by exists i).
    pose proof (okm_64 m Hok) as Hm64. pose proof (recip_bound m Hm64) as (HRm & _ & _).
    destruct Hinv as [Ir Iodd IR Iseen Ivan Idiv]. pose proof (recip_bound r Ir) as (HRr & _ & _).
    assert (Enext : t16 (Z.of_nat i + 2) = Z.of_nat (S (S i))) by (rewrite t16_small by lia; lia).
    assert (Ho' : Nat.Odd (S (S i))) by (destruct Ho as [b ->]; exists (S b); lia).
    rewrite Enext. destruct (existsb (Z.eqb m) seen) eqn:Ex.
    + apply existsb_exists in Ex as (m' & Hin & Heq). apply Z.eqb_eq in Heq as <-. apply elem_of_list_In in Hin.
      apply IH; [done|lia|lia|lia|].
      assert (Hvi : vanishes p (reciprocal r) i).
      { rewrite IR. apply prod_van; [done|]. exists m. split; [done|]. apply Hmp. }
      constructor; try done.
      * apply odd_roots_S; [done|]. done.
      * intros q Hq Hqr. apply odd_roots_S in Hqr as [Hqr _]; [|done]. by apply Idiv.
    + assert (Hnew : forall q, 0 <= q -> odd_roots q (S (S i)) -> divides (pmul (reciprocal r) (reciprocal m)) q).
      { intros q Hq Hqr. apply odd_roots_S in Hqr as [Hqr Hqi]; [|done]. destruct (Idiv q Hq Hqr) as (c & Hc & ->).
        apply (van_mul p d Hd HP) in Hqi as [Hci|Hri]; [| |done|lia].
        - destruct (minpoly_divides p d Hd HP _ _ c Hmp Hc Hci) as (c' & Hc' & ->). exists c'. split; [done|].
          rewrite <-pmul_assoc by lia. f_equal. apply pmul_comm; lia.
        - exfalso. rewrite IR in Hri. apply prod_van in Hri as (m' & Hin & Hv'); [|done].
          rewrite Forall_forall in Iseen. pose proof (Iseen m' Hin) as Hok'. pose proof Hok' as (_ & Hmo' & j' & Hmp').
          assert (Heq : reciprocal m = reciprocal m') by (by eapply (minpoly_same p d Hd HP)).
          assert (m = m') as <-.
          { rewrite <-(recip_recip m Hm64 Hmo), <-(recip_recip m' (okm_64 m' Hok') Hmo'). by rewrite Heq. }
          assert (existsb (Z.eqb m) seen = true); [|congruence]. apply existsb_exists. exists m. split; [by apply elem_of_list_In|apply Z.eqb_refl]. }
      rewrite !degree_ok by lia. destruct (Z.ltb_spec 63 (Z.log2 m + Z.log2 r)) as [Hov|Hfit].
      * intros q Hq Hall. destruct (Hnew q) as (c & Hc & Eq); [lia| |].
        { intros j Hj Hoj. rewrite <-(Nat2Z.id j). apply Hall.
          destruct Ho as [a Ha], Hoj as [b Hb]. lia. }
        assert (Hc0 : 0 < c). { destruct (Z.eq_dec c 0) as [-> |]; [rewrite pmul_0_l in Eq; lia|lia]. }
        destruct (pmul_log2 (reciprocal r) (reciprocal m)) as [Hpp Hpl]; [lia|lia|].
        destruct (pmul_log2 c _ Hc0 Hpp) as [_ Hcl]. rewrite <-Eq, Hpl in Hcl. rewrite !recip_log2 in Hcl by done.
        pose proof (Z.log2_nonneg c). lia.
      * rewrite mul_poly_ok by lia. apply IH; [done|lia|lia|lia|].
        destruct (pmul_log2 r m) as [Hpp Hpl]; [lia|lia|].
        assert (ER : reciprocal (pmul r m) = pmul (reciprocal r) (reciprocal m)) by (apply recip_mul; lia).
        constructor.
        -- split; [lia|]. apply log2_lt64; lia.
        -- rewrite pmul_odd by lia. by rewrite Iodd, Hmo.
        -- rewrite ER. cbn [prod foldr]. fold (prod seen). rewrite <-IR. apply pmul_comm; lia.
        -- by constructor.
        -- rewrite ER. apply odd_roots_S; [done|]. split.
           ++ intros j Hj Hoj. apply (van_mul p d Hd HP); [lia|lia|]. left. by apply Ivan.
           ++ apply (van_mul p d Hd HP); [lia|lia|]. right. apply Hmp.
        -- rewrite ER. done.
Qed.
End gen.

(** C54.  For a primitive field polynomial of degree 2 to 15: the polynomial
    printed in brackets by the bch command vanishes at alpha, alpha^2, ...,
    alpha^n and divides every polynomial that does; the command fails only if no
    polynomial of degree up to 63 has these roots (or if n is too large). *)
Theorem C54_generator d p g n : 2 <= d <= 15 -> primitive d p -> gf_init p = Ready g -> 0 <= n < 2 ^ d - 1 ->
  match bch_generator g n with
  | BchOk r => 0 < r < 2 ^ 64 /\
      (forall i, 1 <= i <= n -> vanishes p (reciprocal r) (Z.to_nat i)) /\
      (forall q, 0 <= q -> (forall i, 1 <= i <= n -> vanishes p q (Z.to_nat i)) -> divides (reciprocal r) q)
  | BchOverflow => forall q, 0 < q -> (forall i, 1 <= i <= n -> vanishes p q (Z.to_nat i)) -> 63 < Z.log2 q
  | BchRefused | BchUB => False
  end.
Proof.
  intros Hd HP Hg Hn. destruct (g_facts p d Hd HP g Hg) as (G1 & G2 & G3 & G4). unfold bch_generator. rewrite G1.
  destruct (Z.leb_spec (2 ^ d - 1) n); [lia|].
  pose proof (bch_loop_ok p d Hd HP g Hg n Hn (S (Z.to_nat n)) 1 1 []) as H'. change (Z.of_nat 1) with 1 in H'.
  assert (Hinv : inv p d 1 1 []).
  { constructor; try done.
    - intros j Hj. lia.
    - intros q Hq _. exists q. split; [done|]. change (reciprocal 1) with 1. by rewrite pmul_1_r. }
  specialize (H' ltac:(by exists 0%nat) ltac:(lia) ltac:(lia) ltac:(lia) Hinv).
  destruct (bch_loop g (S (Z.to_nat n)) n 1 1 []) as [| | |r]; try done.
  destruct H' as (i & seen & Hi & Hio & [Ir Iodd IR Iseen Ivan Idiv]). split; [done|]. pose proof (recip_bound r Ir) as (HRr & _ & _).
  split.
  - assert (Hall : forall m j, (j <= m)%nat -> (1 <= j)%nat -> Z.of_nat j <= n -> vanishes p (reciprocal r) j).
    { induction m as [|m IH]; intros j Hj H1 H2; [lia|]. destruct (Nat.Even_or_Odd j) as [[b Hb]|Ho].
      - rewrite Hb. apply (van_sq p d HP); [lia|]. apply IH; lia.
      - apply Ivan; [lia|done]. }
    intros j Hj. apply (Hall (Z.to_nat j)); lia.
  - intros q Hq Hroots. apply Idiv; [done|]. intros j Hj Hoj. rewrite <-(Nat2Z.id j). apply Hroots.
    destruct Hio as [a Ha], Hoj as [b Hb]. lia.
Qed.
(** The parts of the bch command. *)
Theorem C54_eval d p g q a j : 2 <= d <= 15 -> primitive d p -> gf_init p = Ready g -> 0 < q < 2 ^ 64 -> 0 < a < 2 ^ d ->
  0 <= j -> cong p (2 ^ j) a ->
  exists v, eval_poly g q a = Some v /\ 0 <= v < 2 ^ d /\ cong p v (pmul 2 (psub (reciprocal q) (Z.to_nat j))) /\
    (v = 0 <-> vanishes p (reciprocal q) (Z.to_nat j)).
Proof.
  intros Hd HP Hg Hq Ha Hj Hc. destruct (eval_ok p d Hd HP g Hg q a Hq Ha) as (v & Hv & Hr & H).
  rewrite <-(Z2Nat.id j) in Hc by done. destruct (H _ Hc) as [H1 H2]. by exists v.
Qed.
Theorem C54_minimal d p g a j : 2 <= d <= 15 -> primitive d p -> gf_init p = Ready g -> 0 < a < 2 ^ d -> 0 <= j -> cong p (2 ^ j) a ->
  exists m, minimal g a = Some m /\ 0 < m < 2 ^ (d + 1) /\ vanishes p (reciprocal m) (Z.to_nat j) /\
    forall q, 0 <= q -> vanishes p q (Z.to_nat j) -> divides (reciprocal m) q.
Proof.
  intros Hd HP Hg Ha Hj Hc. rewrite <-(Z2Nat.id j) in Hc by done.
  destruct (minimal_ok p d Hd HP g Hg a _ Ha Hc) as (m & Hm & Hr & Ho & Hmp). exists m. split; [done|]. split; [done|].
  split; [apply Hmp|]. intros q Hq Hv. by apply (minpoly_divides p d Hd HP _ (Z.to_nat j)).
Qed.

(** ** The generators compiled into ecc/bch.c *)
Definition pows (i : nat) : list Z := map (fun k => tab gf13_exp (Z.of_nat (k * i))) (seq 0 14).
Definition fast (pw : list Z) (q : Z) : Z := sumb 14 q (fun k => nth k pw 0).
(** The first thirteen powers are independent (inv lists the images of the unit
    vectors under a left inverse of [fast]), and M vanishes. *)
Definition min_check (i : nat) (inv : list Z) (M : Z) : bool :=
  let pw := pows i in
  forallb (fun k => sumb 13 (nth k pw 0) (fun j => nth j inv 0) =? 2 ^ Z.of_nat k) (seq 0 13) && (fast pw M =? 0).
Lemma fast_lxor pw a b : fast pw (Z.lxor a b) = Z.lxor (fast pw a) (fast pw b).
Proof. apply sumb_lxor. Qed.
Lemma fast_left pw inv : forallb (fun k => sumb 13 (nth k pw 0) (fun j => nth j inv 0) =? 2 ^ Z.of_nat k) (seq 0 13) = true ->
  forall q, 0 <= q < 2 ^ 13 -> sumb 13 (fast pw q) (fun j => nth j inv 0) = q.
Proof.
  intros H q Hq. change 13 with (Z.of_nat 13) in Hq.
  apply (additive_ext_lt (fun q => sumb 13 (fast pw q) (fun j => nth j inv 0)) (fun q => q) 13); [| |clear q Hq|exact Hq].
  - intros a b _ _. by rewrite fast_lxor, sumb_lxor.
  - intros a b _ _. done.
  - intros k Hk. rewrite forallb_forall in H. specialize (H k ltac:(apply in_seq; lia)). apply Z.eqb_eq in H.
    unfold fast. rewrite (sumb_pow 14) by lia. done.
Qed.
Lemma gtab_map l k e : gtab (map Some l) (Z.of_nat k) = Some e -> e = nth k l 0.
Proof.
  unfold gtab. destruct (Z.leb_spec 0 (Z.of_nat k)); [|lia]. rewrite Nat2Z.id. rewrite list_lookup_fmap.
  destruct (l !! k) as [x|] eqn:Ex; [|done]. cbn. intros [= <-]. symmetry. by apply nth_lookup_Some.
Qed.
Section lib.
Context (g : gf) (Hg : gf_init 8219 = Ready g).
Lemma E13 k : Z.of_nat k <= 8191 -> Nat.iter k (gstep 8219 13) 1 = tab gf13_exp (Z.of_nat k).
Proof.
  intros Hk. destruct C53_gf13 as (_ & g' & Hg' & He & _). rewrite Hg in Hg'. injection Hg' as <-.
  destruct (g_facts 8219 13 ltac:(lia) prim13 g Hg) as (_ & _ & G3 & _).
  pose proof (N_val 13 ltac:(lia)) as HN. change (2 ^ 13 - 1) with 8191 in HN. specialize (G3 k ltac:(lia)).
  rewrite He in G3. apply gtab_map in G3. unfold tab. by rewrite Nat2Z.id.
Qed.
Lemma fast_ok i q : (i <= 7)%nat -> 0 <= q < 2 ^ 14 -> fast (pows i) q = pval 8219 13 q i.
Proof.
  intros Hi Hq. unfold pval, fast. rewrite (sumb_len 14) by done. apply sumb_ext. intros k Hk _.
  rewrite E13 by nia. unfold pows.
  change 0 with ((fun k => 0) 0%nat) at 1. rewrite (nth_indep _ _ (tab gf13_exp (Z.of_nat (0 * i)))) by (rewrite map_length, seq_length; lia).
  rewrite (map_nth (fun k => tab gf13_exp (Z.of_nat (k * i)))). by rewrite seq_nth by lia.
Qed.
Lemma min_check_ok i inv M : (i <= 7)%nat -> 8192 <= M < 16384 -> min_check i inv M = true -> minpoly 8219 M i.
Proof.
  intros Hi HM H. unfold min_check in H. apply andb_true_iff in H as [H1 H2]. apply Z.eqb_eq in H2.
  rewrite fast_ok in H2 by (change (2 ^ 14) with 16384; lia).
  split; [lia|]. split; [apply (van_pval 8219 13); [lia|exact prim13|done]|].
  intros q Hq Hv. apply (van_pval 8219 13) in Hv; [|lia|exact prim13].
  assert (Hl : Z.log2 M = 13) by (apply Z.log2_unique; [lia|]; change (2 ^ 13) with 8192; change (2 ^ Z.succ 13) with 16384; lia).
  rewrite Hl. apply Z.log2_le_pow2; [lia|]. change (2 ^ 13) with 8192.
  destruct (Z.lt_ge_cases q 8192) as [Hlt|]; [|done]. exfalso.
  pose proof (fast_left _ _ H1 q ltac:(change (2 ^ 13) with 8192; lia)) as HL.
  rewrite fast_ok, Hv in HL by (change (2 ^ 14) with 16384; lia).
  assert (sumb 13 0 (fun j => nth j inv 0) = 0) by done. lia.
Qed.
Lemma min_exp i inv M m : (1 <= i <= 7)%nat -> 8192 <= M < 16384 -> min_check i inv M = true -> Z.odd M = true -> reciprocal M = m ->
  exists e, gtab (g_exp g) (Z.of_nat i) = Some e /\ minimal g e = Some m.
Proof.
  intros Hi HM Hc Ho <-. destruct (g_facts 8219 13 ltac:(lia) prim13 g Hg) as (_ & _ & G3 & _).
  pose proof (N_val 13 ltac:(lia)) as HN. change (2 ^ 13 - 1) with 8191 in HN.
  exists (Nat.iter i (gstep 8219 13) 1). split; [apply G3; lia|].
  assert (HE : 0 < Nat.iter i (gstep 8219 13) 1 < 2 ^ 13).
  { pose proof (E_neq0 8219 13 ltac:(lia) prim13 i). pose proof (Eres 8219 13 ltac:(lia) prim13 i) as Hr. unfold res in Hr. lia. }
  destruct (minimal_ok 8219 13 ltac:(lia) prim13 g Hg _ i HE (Epow 8219 13 ltac:(lia) prim13 i)) as (m & -> & Hm & Hmo & Hmp).
  f_equal. pose proof (min_check_ok i inv M ltac:(lia) HM Hc) as HMp.
  assert (M = reciprocal m) as ->.
  { eapply (minpoly_same 8219 13 ltac:(lia) prim13); [exact HMp|exact Hmp|]. apply Hmp. }
  change (2 ^ (13 + 1)) with 16384 in Hm. symmetry. apply recip_recip; [change (2 ^ 64) with 18446744073709551616; lia|done].
Qed.
Lemma min1 : exists e, gtab (g_exp g) 1 = Some e /\ minimal g e = Some 13825.
Proof. apply (min_exp 1 [1; 2; 4; 8; 16; 32; 64; 128; 256; 512; 1024; 2048; 4096] 8219); [lia|lia|vm_compute; reflexivity|reflexivity|vm_compute; reflexivity]. Qed.
Lemma min3 : exists e, gtab (g_exp g) 3 = Some e /\ minimal g e = Some 9049.
Proof. apply (min_exp 3 [1; 5704; 7565; 2; 2593; 7595; 4; 5186; 7655; 8; 3637; 7551; 16] 9905); [lia|lia|vm_compute; reflexivity|reflexivity|vm_compute; reflexivity]. Qed.
Lemma min5 : exists e, gtab (g_exp g) 5 = Some e /\ minimal g e = Some 12901.
Proof. apply (min_exp 5 [1; 4547; 4195; 6780; 6395; 2; 2581; 2389; 7531; 6245; 4; 5162; 4778] 10643); [lia|lia|vm_compute; reflexivity|reflexivity|vm_compute; reflexivity]. Qed.
Lemma min7 : exists e, gtab (g_exp g) 7 = Some e /\ minimal g e = Some 15545.
Proof. apply (min_exp 7 [1; 7567; 153; 6692; 4063; 4813; 6045; 2; 7249; 306; 4871; 8126; 725] 10063); [lia|lia|vm_compute; reflexivity|reflexivity|vm_compute; reflexivity]. Qed.
Lemma bch_step k n i i' r seen m r' : i <= n -> (exists e, gtab (g_exp g) i = Some e /\ minimal g e = Some m) ->
  existsb (Z.eqb m) seen = false -> (63 <? degree m + degree r) = false -> t16 (i + 2) = i' -> mul_poly r m = r' ->
  bch_loop g (S k) n i r seen = bch_loop g k n i' r' (m :: seen).
Proof.
  intros Hi (e & He & Hm) Hs Hdg <- <-. cbn [bch_loop]. destruct (Z.leb_spec i n); [|lia]. by rewrite He, Hm, Hs, Hdg.
Qed.
Lemma bch_end k n i r seen : n < i -> bch_loop g (S k) n i r seen = BchOk r.
Proof. intros Hi. cbn [bch_loop]. by destruct (Z.leb_spec i n); [lia|]. Qed.
Lemma bch_start n : n < 8191 -> bch_generator g n = bch_loop g (S (Z.to_nat n)) n 1 1 [].
Proof.
  intros Hn. unfold bch_generator. destruct (g_facts 8219 13 ltac:(lia) prim13 g Hg) as (-> & _). change (2 ^ 13 - 1) with 8191.
  by destruct (Z.leb_spec 8191 n); [lia|].
Qed.
(** The generators of ecc/bch.c are those printed in brackets for x^13 + x^4 + x^3 + x + 1. *)
Theorem C54_library : Forall (fun def => exists r, bch_generator g (Z.of_nat (d_syns def)) = BchOk r /\ reciprocal r = d_generator def)
  [bch_1bit; bch_2bit; bch_3bit; bch_4bit].
Proof.
  repeat constructor.
  - exists 13825. split; [|by vm_compute]. rewrite bch_start by (cbn; lia). change (S (Z.to_nat (Z.of_nat (d_syns bch_1bit)))) with 3%nat.
    rewrite (bch_step _ _ 1 3 1 [] 13825 13825); [|cbn; lia|exact min1|done|done|done|done]. apply bch_end. cbn. lia.
  - exists 0x6954559. split; [|by vm_compute]. rewrite bch_start by (cbn; lia). change (S (Z.to_nat (Z.of_nat (d_syns bch_2bit)))) with 5%nat.
    rewrite (bch_step _ _ 1 3 1 [] 13825 13825); [|cbn; lia|exact min1|done|done|done|done].
    rewrite (bch_step _ _ 3 5 13825 [13825] 9049 0x6954559); [|cbn; lia|exact min3|done|done|done|done]. apply bch_end. cbn. lia.
  - exists 0xb7bd4daf5d. split; [|by vm_compute]. rewrite bch_start by (cbn; lia). change (S (Z.to_nat (Z.of_nat (d_syns bch_3bit)))) with 7%nat.
    rewrite (bch_step _ _ 1 3 1 [] 13825 13825); [|cbn; lia|exact min1|done|done|done|done].
    rewrite (bch_step _ _ 3 5 13825 [13825] 9049 0x6954559); [|cbn; lia|exact min3|done|done|done|done].
    rewrite (bch_step _ _ 5 7 0x6954559 [9049; 13825] 12901 0xb7bd4daf5d); [|cbn; lia|exact min5|done|done|done|done]. apply bch_end. cbn. lia.
  - exists 0x1aac3ab8418945. split; [|by vm_compute]. rewrite bch_start by (cbn; lia). change (S (Z.to_nat (Z.of_nat (d_syns bch_4bit)))) with 9%nat.
    rewrite (bch_step _ _ 1 3 1 [] 13825 13825); [|cbn; lia|exact min1|done|done|done|done].
    rewrite (bch_step _ _ 3 5 13825 [13825] 9049 0x6954559); [|cbn; lia|exact min3|done|done|done|done].
    rewrite (bch_step _ _ 5 7 0x6954559 [9049; 13825] 12901 0xb7bd4daf5d); [|cbn; lia|exact min5|done|done|done|done].
    rewrite (bch_step _ _ 7 9 0xb7bd4daf5d [12901; 9049; 13825] 15545 0x1aac3ab8418945); [|cbn; lia|exact min7|done|done|done|done]. apply bch_end. cbn. lia.
Qed.
End lib.
(** Concrete runs: GF(16) with two errors (x^8 + x^7 + x^6 + x^4 + 1), too many
    roots, and a generator that does not fit. *)
Example C54_examples :
  primitive 4 19 /\ primitive 7 131 /\
  match gf_init 19 with Ready g => bch_generator g 4 = BchOk 279 /\ reciprocal 279 = 465 /\ bch_generator g 15 = BchRefused | _ => False end /\
  match gf_init 131 with Ready g => bch_generator g 20 = BchOk 17893956481475813679 /\ bch_generator g 22 = BchOverflow | _ => False end.
Proof.
  split; [apply C53_examples|]. split.
  - destruct (C53_is_primitive 7 131) as (b & Hb & Hp); [lia|lia|done|]. apply Hp. assert (H : is_primitive 131 = Some true) by (by vm_compute). congruence.
  - split; [by vm_compute|by vm_compute].
Qed.
