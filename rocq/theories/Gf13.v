(** Model of ecc/gf13.h and ecc/gf13.c, both builds, and theorem C35. *)
From stdpp Require Import list.
From Coq Require Import ZArith Lia Eqdep_dec.
From Coq Require Import Ring.
From Verif Require Import EccBits Gf13Tab.
Local Open Scope Z_scope.

(** ** Model *)

(** Conversion to uint16_t. *)
Definition t16 (x : Z) : Z := Z.land x 65535.
(** GF13_ORDER (gf13.h:23) *)
Definition GF13_ORDER : Z := 8191.

(** Table-driven build (gf13.h:58-83).  Indices are the C array indices; the
    theorems below only use the functions on arguments for which they are in
    bounds. *)
Definition tab (t : list Z) (i : Z) : Z := nth (Z.to_nat i) t 0.
(** gf13_wrap (gf13.h:58-61) *)
Definition gf13_wrap (s : Z) : Z := if GF13_ORDER <=? s then s - GF13_ORDER else s.
(** gf13_mul (gf13.h:63-66) *)
Definition gf13_mul (a b : Z) : Z :=
  tab gf13_exp (gf13_wrap (t16 (tab gf13_log a + tab gf13_log b))).
(** gf13_div (gf13.h:68-71) *)
Definition gf13_div (a b : Z) : Z :=
  tab gf13_exp (gf13_wrap (t16 (tab gf13_log a + GF13_ORDER - tab gf13_log b))).
(** gf13_divx (gf13.h:73-76) *)
Definition gf13_divx (a : Z) : Z :=
  tab gf13_exp (gf13_wrap (t16 (tab gf13_log a + GF13_ORDER - 1))).
(** gf13_mulx (gf13.h:78-81) *)
Definition gf13_mulx (a : Z) : Z := tab gf13_exp (gf13_wrap (t16 (tab gf13_log a + 1))).

(** Table-free build, GF13_NO_TABLES (gf13.h:34-50, gf13.c:21-50). *)
(** gf13_mulx (gf13.h:42-50) *)
Definition nt_mulx (a : Z) : Z :=
  let r := t16 (Z.shiftl a 1) in
  if Z.land r 8192 =? 0 then r else Z.lxor r 8219 (* 0x201b *).
(** gf13_mul (gf13.c:21-36) *)
Fixpoint nt_mul_loop (n : nat) (a b r : Z) : Z :=
  match n with
  | O => r
  | S n =>
    let r := nt_mulx r in
    let r := if Z.land b 4096 =? 0 then r else Z.lxor r a in
    nt_mul_loop n a (t16 (Z.shiftl b 1)) r
  end.
Definition nt_mul (a b : Z) : Z := nt_mul_loop 13 a b 0.
(** gf13_divx (gf13.h:37-40); 0x100d = 4109 *)
Definition nt_divx (a : Z) : Z := nt_mul a 4109.
(** gf13_div (gf13.c:38-50) *)
Fixpoint nt_div_loop (n : nat) (b r : Z) : Z :=
  match n with O => r | S n => nt_div_loop n b (nt_mul (nt_mul r r) b) end.
Definition nt_div (a b : Z) : Z :=
  let r := nt_div_loop 12 b 1 in nt_mul a (nt_mul r r).

(** ** Specification: polynomials over GF(2) of degree below 13, modulo
    x^13 + x^4 + x^3 + x + 1.  Bit k of a number is the coefficient of x^k. *)
Definition fe (a : Z) : Prop := 0 <= a < 8192.
(** Product of two polynomials, the second of degree below 13. *)
Definition poly_mul (a b : Z) : Z :=
  foldr (fun k r => Z.lxor (if Z.testbit b (Z.of_nat k) then Z.shiftl a (Z.of_nat k) else 0) r) 0 (seq 0 13).
(** Remainder of a polynomial of degree below 26: long division. *)
Definition poly_rem (p : Z) : Z :=
  foldr (fun k p => if Z.testbit p (Z.of_nat k + 13) then Z.lxor p (Z.shiftl 8219 (Z.of_nat k)) else p) p (seq 0 13).
Definition field_mul (a b : Z) : Z := poly_rem (poly_mul a b).

(** ** Linear maps on 13-bit numbers *)
Lemma fe_lxor a b : fe a -> fe b -> fe (Z.lxor a b).
Proof.
  unfold fe. intros Ha Hb. assert (H0 : 0 <= Z.lxor a b) by (apply Z.lxor_nonneg; lia).
  split; [done|]. destruct (Z.eq_dec (Z.lxor a b) 0) as [-> |Hn]; [lia|].
  change 8192 with (2 ^ 13). apply Z.log2_lt_pow2; [lia|].
  pose proof (Z.log2_lxor a b ltac:(lia) ltac:(lia)).
  assert (Hl : forall v, 0 <= v < 8192 -> Z.log2 v < 13).
  { intros v Hv. destruct (Z.eq_dec v 0) as [-> |]; [cbn; lia|]. apply Z.log2_lt_pow2; [lia|]. change (2 ^ 13) with 8192. lia. }
  pose proof (Hl a Ha). pose proof (Hl b Hb). lia.
Qed.
Lemma fe_pow i : (i < 13)%nat -> fe (2 ^ Z.of_nat i).
Proof.
  intros H. split; [apply Z.pow_nonneg; lia|]. change 8192 with (2 ^ 13). apply Z.pow_lt_mono_r; lia.
Qed.

Definition lin (f : Z -> Z) : Prop := forall a b, fe a -> fe b -> f (Z.lxor a b) = Z.lxor (f a) (f b).
Lemma lin_0 f : lin f -> f 0 = 0.
Proof.
  intros H. specialize (H 0 0 ltac:(unfold fe; lia) ltac:(unfold fe; lia)).
  rewrite Z.lxor_nilpotent in H. rewrite H. apply Z.lxor_nilpotent.
Qed.
Lemma lin_ext f g : lin f -> lin g -> (forall i, (i < 13)%nat -> f (2 ^ Z.of_nat i) = g (2 ^ Z.of_nat i)) ->
  forall a, fe a -> f a = g a.
Proof.
  intros Hf Hg Hb.
  assert (H : forall n, (n <= 13)%nat -> forall a, 0 <= a < 2 ^ Z.of_nat n -> f a = g a).
  { induction n as [|n IH]; intros Hn a Ha.
    - change (2 ^ Z.of_nat 0) with 1 in Ha. replace a with 0 by lia. by rewrite !lin_0.
    - rewrite Nat2Z.inj_succ, Z.pow_succ_r in Ha by lia.
      destruct (Z.lt_ge_cases a (2 ^ Z.of_nat n)) as [Hlt|Hge]; [apply IH; lia|].
      assert (E : a = Z.lxor (2 ^ Z.of_nat n) (a - 2 ^ Z.of_nat n)).
      { rewrite <-Z.add_nocarry_lxor; [lia|]. apply Z.bits_inj'. intros k Hk.
        rewrite Z.land_spec, Z.bits_0, Z.pow2_bits_eqb by lia. destruct (Z.eqb_spec (Z.of_nat n) k) as [<- |]; [|done].
        cbn [andb]. rewrite Z.testbit_false by lia. rewrite Z.div_small by lia. done. }
      pose proof (fe_pow n ltac:(lia)) as Hp. unfold fe in Hp.
      assert (Hle : 2 * 2 ^ Z.of_nat n <= 8192).
      { rewrite <-Z.pow_succ_r by lia. change 8192 with (2 ^ 13). apply Z.pow_le_mono_r; lia. }
      rewrite E, Hf, Hg; [|unfold fe; lia..]. rewrite Hb by lia. f_equal. apply IH; lia. }
  intros a Ha. apply (H 13%nat); [lia|]. exact Ha.
Qed.

Lemma t16_small a : 0 <= a < 65536 -> t16 a = a.
Proof. intros H. unfold t16. change 65535 with (Z.ones 16). rewrite Z.land_ones by lia. apply Z.mod_small. exact H. Qed.
Lemma land_pow_test r k : 0 <= k -> (Z.land r (2 ^ k) =? 0) = negb (Z.testbit r k).
Proof.
  intros Hk. destruct (Z.testbit r k) eqn:E; cbn [negb].
  - apply Z.eqb_neq. intros H. apply (f_equal (fun z => Z.testbit z k)) in H.
    rewrite Z.land_spec, E, Z.pow2_bits_true, Z.bits_0 in H by lia. done.
  - apply Z.eqb_eq. apply Z.bits_inj'. intros j Hj. rewrite Z.land_spec, Z.bits_0, Z.pow2_bits_eqb by lia.
    destruct (Z.eqb_spec k j) as [<- |]; [by rewrite E|apply andb_false_r].
Qed.
Definition sel (b : bool) (v : Z) : Z := if b then v else 0.
Lemma sel_xorb a b v : sel (xorb a b) v = Z.lxor (sel a v) (sel b v).
Proof. destruct a, b; cbn; rewrite ?Z.lxor_nilpotent, ?Z.lxor_0_r; done. Qed.
Lemma sel_lxor a v w : sel a (Z.lxor v w) = Z.lxor (sel a v) (sel a w).
Proof. destruct a; cbn; [done|]. by rewrite Z.lxor_nilpotent. Qed.
Lemma nt_mulx_eq a : fe a -> nt_mulx a = Z.lxor (Z.shiftl a 1) (sel (Z.testbit a 12) 8219).
Proof.
  intros Ha. unfold nt_mulx. unfold fe in Ha. rewrite t16_small.
  2:{ rewrite Z.shiftl_mul_pow2 by lia. lia. }
  cbn zeta. change 8192 with (2 ^ 13). rewrite land_pow_test, Z.shiftl_spec by lia.
  change (13 - 1) with 12. destruct (Z.testbit a 12); cbn [negb sel]; [done|]. by rewrite Z.lxor_0_r.
Qed.
Lemma shiftl_lxor a b k : Z.shiftl (Z.lxor a b) k = Z.lxor (Z.shiftl a k) (Z.shiftl b k).
Proof. apply Z.shiftl_lxor. Qed.
Lemma lxor_4 a b c d : Z.lxor (Z.lxor a b) (Z.lxor c d) = Z.lxor (Z.lxor a c) (Z.lxor b d).
Proof. rewrite !Z.lxor_assoc. f_equal. rewrite <-!Z.lxor_assoc. f_equal. apply Z.lxor_comm. Qed.
Lemma nt_mulx_lin : lin nt_mulx.
Proof.
  intros a b Ha Hb. rewrite !nt_mulx_eq by (done || by apply fe_lxor).
  rewrite shiftl_lxor, Z.lxor_spec, sel_xorb. apply lxor_4.
Qed.
Lemma fe_bits a : 0 <= a -> (forall k, 13 <= k -> Z.testbit a k = false) -> fe a.
Proof.
  intros H0 H. split; [done|]. destruct (Z.eq_dec a 0) as [-> |Hn]; [lia|].
  change 8192 with (2 ^ 13). apply Z.log2_lt_pow2; [lia|].
  destruct (Z.lt_ge_cases (Z.log2 a) 13) as [|Hge]; [done|]. specialize (H _ Hge).
  rewrite Z.bit_log2 in H by lia. done.
Qed.
Lemma fe_high a k : fe a -> 13 <= k -> Z.testbit a k = false.
Proof.
  intros Ha Hk. destruct (Z.eq_dec a 0) as [-> |]; [apply Z.bits_0|]. unfold fe in Ha.
  apply Z.bits_above_log2; [lia|]. apply Z.lt_le_trans with 13; [|done]. apply Z.log2_lt_pow2; [lia|]. change (2 ^ 13) with 8192. lia.
Qed.
Lemma nt_mulx_fe a : fe a -> fe (nt_mulx a).
Proof.
  intros Ha. rewrite nt_mulx_eq by done. apply fe_bits.
  - apply Z.lxor_nonneg. split; intros _; [destruct (Z.testbit a 12); cbn; lia|]. apply Z.shiftl_nonneg. unfold fe in Ha. lia.
  - intros k Hk. rewrite Z.lxor_spec, Z.shiftl_spec by lia.
    destruct (Z.eq_dec k 13) as [-> |Hn].
    + change (13 - 1) with 12. destruct (Z.testbit a 12); done.
    + rewrite (fe_high a) by (done || lia). destruct (Z.testbit a 12); cbn [sel]; [|by rewrite Z.bits_0].
      rewrite (Z.bits_above_log2 8219) by (cbn; lia). done.
Qed.

Lemma nt_mul_loop_S n a b r : nt_mul_loop (Datatypes.S n) a b r =
  nt_mul_loop n a (t16 (Z.shiftl b 1)) (Z.lxor (nt_mulx r) (sel (Z.testbit b 12) a)).
Proof.
  cbn [nt_mul_loop]. change 4096 with (2 ^ 12). rewrite land_pow_test by lia.
  destruct (Z.testbit b 12); cbn [negb sel]; [done|]. by rewrite Z.lxor_0_r.
Qed.
Lemma sel_fe b a : fe a -> fe (sel b a).
Proof. destruct b; [done|]. unfold fe. cbn. lia. Qed.
Lemma nt_mul_loop_lin_a b : forall n a a' b0 r r', b0 = b -> fe a -> fe a' -> fe r -> fe r' ->
  nt_mul_loop n (Z.lxor a a') b0 (Z.lxor r r') = Z.lxor (nt_mul_loop n a b0 r) (nt_mul_loop n a' b0 r').
Proof.
  intros n a a' b0 r r' _. revert b0 r r'. induction n as [|n IH]; intros b0 r r' Ha Ha' Hr Hr'; [done|].
  rewrite !nt_mul_loop_S, nt_mulx_lin, sel_lxor, lxor_4 by done.
  apply IH; [done..| |]; (apply fe_lxor; [by apply nt_mulx_fe|by apply sel_fe]).
Qed.
Lemma t16_lxor a b : t16 (Z.lxor a b) = Z.lxor (t16 a) (t16 b).
Proof. apply land_lxor_l. Qed.
Lemma nt_mul_loop_lin_b n a : forall b b' r r', fe a -> fe r -> fe r' ->
  nt_mul_loop n a (Z.lxor b b') (Z.lxor r r') = Z.lxor (nt_mul_loop n a b r) (nt_mul_loop n a b' r').
Proof.
  induction n as [|n IH]; intros b b' r r' Ha Hr Hr'; [done|].
  rewrite !nt_mul_loop_S, nt_mulx_lin, Z.lxor_spec, sel_xorb, lxor_4, shiftl_lxor, t16_lxor by done.
  apply IH; [done| |]; (apply fe_lxor; [by apply nt_mulx_fe|by apply sel_fe]).
Qed.
Lemma nt_mul_loop_fe n a : forall b r, fe a -> fe r -> fe (nt_mul_loop n a b r).
Proof.
  induction n as [|n IH]; intros b r Ha Hr; [done|]. rewrite nt_mul_loop_S. apply IH; [done|].
  apply fe_lxor; [by apply nt_mulx_fe|by apply sel_fe].
Qed.
Lemma fe_0 : fe 0. Proof. unfold fe. lia. Qed.
Lemma nt_mul_fe a b : fe a -> fe (nt_mul a b).
Proof. intros Ha. by apply nt_mul_loop_fe; [|apply fe_0]. Qed.
Lemma nt_mul_lin_l b : lin (fun a => nt_mul a b).
Proof.
  intros a a' Ha Ha'. unfold nt_mul. change 0 with (Z.lxor 0 0) at 1. apply (nt_mul_loop_lin_a b); [done..|apply fe_0|apply fe_0].
Qed.
Lemma nt_mul_lin_r a : fe a -> lin (nt_mul a).
Proof.
  intros Ha b b' _ _. unfold nt_mul. change 0 with (Z.lxor 0 0) at 1. apply nt_mul_loop_lin_b; [done|apply fe_0..].
Qed.

(** Finite checks on the basis 1, x, ..., x^12. *)
Definition basis : list Z := map (fun i => 2 ^ Z.of_nat i) (seq 0 13).
Lemma basis_elem i : (i < 13)%nat -> In (2 ^ Z.of_nat i) basis.
Proof. intros H. apply (in_map (fun i => 2 ^ Z.of_nat i)). apply in_seq. lia. Qed.
Local Opaque nt_mul_loop.
Lemma nt_mul_comm a b : fe a -> fe b -> nt_mul a b = nt_mul b a.
Proof.
  intros Ha Hb. assert (C : forallb (fun x => forallb (fun y => nt_mul x y =? nt_mul y x) basis) basis = true) by (by vm_compute).
  rewrite forallb_forall in C.
  revert a Ha. apply lin_ext; [apply nt_mul_lin_l|by apply nt_mul_lin_r|]. intros i Hi.
  revert b Hb. apply lin_ext; [apply nt_mul_lin_r, fe_pow, Hi|apply nt_mul_lin_l|]. intros j Hj.
  pose proof (C _ (basis_elem i Hi)) as C1. rewrite forallb_forall in C1. apply Z.eqb_eq, C1, basis_elem, Hj.
Qed.
Lemma lin_comp f g : lin f -> lin g -> (forall a, fe a -> fe (g a)) -> lin (fun a => f (g a)).
Proof. intros Hf Hg Hr a b Ha Hb. rewrite Hg by done. apply Hf; by apply Hr. Qed.
Lemma nt_mul_assoc a b c : fe a -> fe b -> fe c -> nt_mul a (nt_mul b c) = nt_mul (nt_mul a b) c.
Proof.
  intros Ha Hb Hc. assert (C : forallb (fun x => forallb (fun y => forallb (fun z => nt_mul x (nt_mul y z) =? nt_mul (nt_mul x y) z) basis) basis) basis = true) by (by vm_compute).
  rewrite forallb_forall in C.
  revert a Ha. apply lin_ext.
  { apply nt_mul_lin_l. }
  { apply (lin_comp (fun a => nt_mul a c) (fun a => nt_mul a b)); [apply nt_mul_lin_l|apply nt_mul_lin_l|intros; by apply nt_mul_fe]. }
  intros i Hi. specialize (C _ (basis_elem i Hi)). rewrite forallb_forall in C. pose proof (fe_pow i Hi) as Hpi.
  revert b Hb. apply lin_ext.
  { apply (lin_comp (nt_mul (2 ^ Z.of_nat i)) (fun b => nt_mul b c)); [by apply nt_mul_lin_r|apply nt_mul_lin_l|intros; by apply nt_mul_fe]. }
  { apply (lin_comp (fun a => nt_mul a c) (nt_mul (2 ^ Z.of_nat i))); [apply nt_mul_lin_l|by apply nt_mul_lin_r|intros; by apply nt_mul_fe]. }
  intros j Hj. specialize (C _ (basis_elem j Hj)). rewrite forallb_forall in C. pose proof (fe_pow j Hj) as Hpj.
  revert c Hc. apply lin_ext.
  { apply (lin_comp (nt_mul (2 ^ Z.of_nat i)) (nt_mul (2 ^ Z.of_nat j))); [by apply nt_mul_lin_r..|intros; by apply nt_mul_fe]. }
  { apply nt_mul_lin_r. by apply nt_mul_fe. }
  intros k Hk. apply Z.eqb_eq, C, basis_elem, Hk.
Qed.
Lemma nt_mul_1_l a : fe a -> nt_mul 1 a = a.
Proof.
  assert (C : forallb (fun x => nt_mul 1 x =? x) basis = true) by (by vm_compute). rewrite forallb_forall in C.
  revert a. apply (lin_ext (nt_mul 1) (fun a => a)); [apply nt_mul_lin_r; unfold fe; lia|by intros a b _ _|].
  intros i Hi. apply Z.eqb_eq, C, basis_elem, Hi.
Qed.
Lemma nt_mul_2_l a : fe a -> nt_mul 2 a = nt_mulx a.
Proof.
  assert (C : forallb (fun x => nt_mul 2 x =? nt_mulx x) basis = true) by (by vm_compute). rewrite forallb_forall in C.
  revert a. apply lin_ext; [apply nt_mul_lin_r; unfold fe; lia|apply nt_mulx_lin|].
  intros i Hi. apply Z.eqb_eq, C, basis_elem, Hi.
Qed.

(** Long-hand arithmetic of the specification is bilinear too. *)
Lemma poly_mul_fold a b l :
  foldr (fun k r => Z.lxor (if Z.testbit b (Z.of_nat k) then Z.shiftl a (Z.of_nat k) else 0) r) 0 l =
  foldr (fun k r => Z.lxor (sel (Z.testbit b (Z.of_nat k)) (Z.shiftl a (Z.of_nat k))) r) 0 l.
Proof. done. Qed.
Lemma poly_mul_lxor_l a a' b : poly_mul (Z.lxor a a') b = Z.lxor (poly_mul a b) (poly_mul a' b).
Proof.
  unfold poly_mul. rewrite !poly_mul_fold. induction (seq 0 13) as [|k l IH]; [done|]. cbn [foldr].
  by rewrite IH, shiftl_lxor, sel_lxor, lxor_4.
Qed.
Lemma poly_mul_lxor_r a b b' : poly_mul a (Z.lxor b b') = Z.lxor (poly_mul a b) (poly_mul a b').
Proof.
  unfold poly_mul. rewrite !poly_mul_fold. induction (seq 0 13) as [|k l IH]; [done|]. cbn [foldr].
  by rewrite IH, Z.lxor_spec, sel_xorb, lxor_4.
Qed.
Lemma poly_rem_lxor p q : poly_rem (Z.lxor p q) = Z.lxor (poly_rem p) (poly_rem q).
Proof.
  unfold poly_rem. induction (seq 0 13) as [|k l IH]; [done|]. cbn [foldr]. rewrite IH.
  set (u := foldr _ p l). set (v := foldr _ q l). rewrite Z.lxor_spec.
  set (w := Z.shiftl 8219 (Z.of_nat k)).
  destruct (Z.testbit u (Z.of_nat k + 13)), (Z.testbit v (Z.of_nat k + 13)); cbn [xorb].
  - by rewrite lxor_4, Z.lxor_nilpotent, Z.lxor_0_r.
  - by rewrite lxor_swap.
  - by rewrite Z.lxor_assoc.
  - done.
Qed.
Lemma field_mul_lin_l b : lin (fun a => field_mul a b).
Proof. intros a a' _ _. unfold field_mul. by rewrite poly_mul_lxor_l, poly_rem_lxor. Qed.
Lemma field_mul_lin_r a : lin (field_mul a).
Proof. intros b b' _ _. unfold field_mul. by rewrite poly_mul_lxor_r, poly_rem_lxor. Qed.
Lemma field_mul_check : forallb (fun x => forallb (fun y => nt_mul x y =? field_mul x y) basis) basis = true.
Proof. by vm_compute. Qed.
Local Opaque field_mul nt_mul.
Lemma nt_mul_field_mul a b : fe a -> fe b -> nt_mul a b = field_mul a b.
Proof.
  intros Ha Hb. pose proof field_mul_check as C. rewrite forallb_forall in C.
  revert a Ha. apply lin_ext; [apply nt_mul_lin_l|apply field_mul_lin_l|].
  intros i Hi. specialize (C _ (basis_elem i Hi)). rewrite forallb_forall in C.
  revert b Hb. apply lin_ext; [apply nt_mul_lin_r, fe_pow, Hi|apply field_mul_lin_r|].
  intros j Hj. specialize (C _ (basis_elem j Hj)). apply Z.eqb_eq in C. exact C.
Qed.

(** ** The field as a type *)
Definition feb (z : Z) : bool := (0 <=? z) && (z <? 8192).
Lemma feb_fe z : feb z = true <-> fe z.
Proof. unfold feb, fe. rewrite andb_true_iff, Z.leb_le, Z.ltb_lt. done. Qed.
Record F : Set := mkF { fv : Z; fok : feb fv = true }.
Lemma F_eq a b : fv a = fv b -> a = b.
Proof.
  destruct a as [a Ha], b as [b Hb]. cbn. intros <-. f_equal. apply UIP_dec. apply Bool.bool_dec.
Qed.
Lemma fv_fe a : fe (fv a). Proof. apply feb_fe, fok. Qed.
Definition toF (z : Z) (H : fe z) : F := mkF z (proj2 (feb_fe z) H).
Definition f0 : F := toF 0 fe_0.
Lemma fe_1 : fe 1. Proof. unfold fe. lia. Qed.
Definition f1 : F := toF 1 fe_1.
Definition fadd (a b : F) : F := toF (Z.lxor (fv a) (fv b)) (fe_lxor _ _ (fv_fe a) (fv_fe b)).
Definition fmul (a b : F) : F := toF (nt_mul (fv a) (fv b)) (nt_mul_fe _ _ (fv_fe a)).
Lemma fe_2 : fe 2. Proof. unfold fe. lia. Qed.
Definition alpha : F := toF 2 fe_2.

Lemma fv_toF a H : fv (toF a H) = a. Proof. reflexivity. Qed.
Lemma fv_mul a b : fv (fmul a b) = nt_mul (fv a) (fv b). Proof. reflexivity. Qed.
Lemma F_ring : ring_theory f0 f1 fadd fmul fadd (fun a => a) eq.
Proof.
  constructor; intros; apply F_eq; cbn [fadd fmul f0 f1 toF fv].
  - apply Z.lxor_0_l.
  - apply Z.lxor_comm.
  - by rewrite Z.lxor_assoc.
  - apply nt_mul_1_l, fv_fe.
  - apply nt_mul_comm; apply fv_fe.
  - apply nt_mul_assoc; apply fv_fe.
  - apply (nt_mul_lin_l (fv z)); apply fv_fe.
  - done.
  - apply Z.lxor_nilpotent.
Qed.
Add Ring Fring : F_ring.
Declare Scope F_scope.
Delimit Scope F_scope with F.
Bind Scope F_scope with F.
Infix "+" := fadd : F_scope.
Infix "*" := fmul : F_scope.
Local Open Scope F_scope.

Lemma fadd_self a : a + a = f0.
Proof. apply F_eq. apply Z.lxor_nilpotent. Qed.
Lemma fadd_eq0 a b : a + b = f0 -> a = b.
Proof. intros H. apply (f_equal fv) in H. apply F_eq. cbn in H. by apply Z.lxor_eq. Qed.
Global Instance F_dec : EqDecision F.
Proof.
  intros a b. destruct (Z.eq_dec (fv a) (fv b)) as [H|H]; [left; by apply F_eq|right; congruence].
Defined.

Fixpoint fpow (a : F) (n : nat) : F := match n with O => f1 | S n => a * fpow a n end.
Lemma fpow_add a m n : fpow a (m + n) = fpow a m * fpow a n.
Proof. induction m as [|m IH]; cbn [fpow Nat.add]; [ring|]. rewrite IH. ring. Qed.
Lemma fpow_mul_l a b n : fpow (a * b) n = fpow a n * fpow b n.
Proof. induction n as [|n IH]; cbn [fpow]; [ring|]. rewrite IH. ring. Qed.
Lemma fpow_mul a m n : fpow a (m * n) = fpow (fpow a m) n.
Proof.
  induction n as [|n IH]; [by rewrite Nat.mul_0_r|]. rewrite Nat.mul_succ_r, Nat.add_comm, fpow_add, IH. done.
Qed.
Lemma fpow_1_l n : fpow f1 n = f1.
Proof. induction n as [|n IH]; cbn [fpow]; [done|]. rewrite IH. ring. Qed.

(** ** The tables *)
Definition ORD : nat := Z.to_nat 8191.
Lemma ORD_val : Z.of_nat ORD = 8191%Z.
Proof. unfold ORD. apply Z2Nat.id. lia. Qed.
Fixpoint powers (n : nat) (a : Z) : list Z := match n with O => [] | S n => a :: powers n (nt_mulx a) end.
Lemma exp_powers : gf13_exp = powers (Datatypes.S ORD) 1.
Proof. by vm_compute. Qed.
Fixpoint index_check (l : list Z) (i : Z) (f : Z -> Z -> bool) : bool :=
  match l with [] => true | x :: l => f i x && index_check l (i + 1) f end.
Lemma index_check_spec f : forall l i, index_check l i f = true -> forall k, (k < length l)%nat -> f (i + Z.of_nat k)%Z (nth k l 0%Z) = true.
Proof.
  induction l as [|x l IH]; intros i H k Hk; cbn [length] in Hk; [lia|]. cbn [index_check] in H.
  apply andb_prop in H as [H1 H2]. destruct k as [|k]; cbn [nth].
  - by rewrite Z.add_0_r.
  - replace (i + Z.of_nat (Datatypes.S k))%Z with (i + 1 + Z.of_nat k)%Z by lia. apply IH; [done|lia].
Qed.
(** log a is in 1..8191 and exp (log a) = a, for a <> 0. *)
Definition log_ok (i x : Z) : bool := (i =? 0)%Z || ((1 <=? x)%Z && (x <=? 8191)%Z && (tab gf13_exp x =? i)%Z).
Lemma log_check : index_check gf13_log 0 log_ok = true.
Proof. by vm_compute. Qed.
(** log (exp i) = i for i <> 0. *)
Definition exp_ok (i x : Z) : bool := (i =? 0)%Z || ((1 <=? x)%Z && (x <=? 8191)%Z && (tab gf13_log x =? i)%Z).
Lemma exp_check : index_check gf13_exp 0 exp_ok = true.
Proof. by vm_compute. Qed.
Lemma log_length : Z.of_nat (length gf13_log) = 8192%Z. Proof. by vm_compute. Qed.
Lemma exp_length : Z.of_nat (length gf13_exp) = 8192%Z. Proof. by vm_compute. Qed.
Local Opaque gf13_log gf13_exp.

Lemma powers_nth n : forall x k, (k < n)%nat -> nth k (powers n (fv x)) 0%Z = fv (fpow alpha k * x).
Proof.
  induction n as [|n IH]; intros x k Hk; [lia|]. destruct k as [|k]; cbn [powers nth fpow].
  - f_equal. ring.
  - replace (nt_mulx (fv x)) with (fv (alpha * x)).
    + rewrite IH by lia. f_equal. ring.
    + cbn [fmul toF fv alpha]. apply nt_mul_2_l, fv_fe.
Qed.
Local Opaque ORD powers.
Lemma exp_pow k : (k <= ORD)%nat -> tab gf13_exp (Z.of_nat k) = fv (fpow alpha k).
Proof.
  intros Hk. unfold tab. rewrite Nat2Z.id, exp_powers. change 1%Z with (fv f1).
  rewrite powers_nth by lia. apply (f_equal fv). ring.
Qed.
Lemma log_elem a : a <> f0 -> exists k, (1 <= k <= ORD)%nat /\ tab gf13_log (fv a) = Z.of_nat k /\ fpow alpha k = a.
Proof.
  intros Ha. pose proof (fv_fe a) as Hf. unfold fe in Hf.
  assert (Hn : fv a <> 0%Z). { intros H. apply Ha, F_eq. exact H. }
  pose proof (index_check_spec log_ok _ _ log_check (Z.to_nat (fv a))) as C.
  rewrite Z.add_0_l, Z2Nat.id in C by lia. specialize (C ltac:(pose proof log_length; lia)).
  fold (tab gf13_log (fv a)) in C. unfold log_ok in C. rewrite (proj2 (Z.eqb_neq _ _) Hn) in C. cbn [orb] in C.
  apply andb_prop in C as [C C3]. apply andb_prop in C as [C1 C2].
  apply Z.leb_le in C1, C2. apply Z.eqb_eq in C3. exists (Z.to_nat (tab gf13_log (fv a))).
  pose proof ORD_val. split; [lia|]. rewrite Z2Nat.id by lia. split; [done|].
  apply F_eq. rewrite <-exp_pow by lia. rewrite Z2Nat.id by lia. exact C3.
Qed.
Lemma log_pow k : (1 <= k <= ORD)%nat -> tab gf13_log (fv (fpow alpha k)) = Z.of_nat k.
Proof.
  intros Hk. pose proof ORD_val. pose proof (index_check_spec exp_ok _ _ exp_check k) as C.
  rewrite Z.add_0_l in C. specialize (C ltac:(pose proof exp_length; lia)).
  replace (nth k gf13_exp 0%Z) with (tab gf13_exp (Z.of_nat k)) in C by (unfold tab; by rewrite Nat2Z.id).
  rewrite exp_pow in C by lia. unfold exp_ok in C. rewrite (proj2 (Z.eqb_neq _ _)) in C by lia. cbn [orb] in C.
  apply andb_prop in C as [_ C]. by apply Z.eqb_eq in C.
Qed.
Lemma alpha_order : fpow alpha ORD = f1.
Proof.
  apply F_eq. rewrite <-exp_pow by lia. rewrite ORD_val. by vm_compute.
Qed.
Lemma alpha_inj i j : (i < ORD)%nat -> (j < ORD)%nat -> fpow alpha i = fpow alpha j -> i = j.
Proof.
  intros Hi Hj E. apply (f_equal (fmul alpha)) in E. change (fpow alpha (Datatypes.S i) = fpow alpha (Datatypes.S j)) in E.
  apply (f_equal fv), (f_equal (tab gf13_log)) in E. rewrite !log_pow in E by lia. lia.
Qed.
Lemma f1_neq_f0 : f1 <> f0.
Proof. intros H. apply (f_equal fv) in H. cbn in H. lia. Qed.
Lemma alpha_neq : alpha <> f0.
Proof. intros H. apply (f_equal fv) in H. cbn in H. lia. Qed.

Lemma fermat a : a <> f0 -> fpow a ORD = f1.
Proof.
  intros Ha. destruct (log_elem a Ha) as (k & _ & _ & <-).
  rewrite <-fpow_mul, Nat.mul_comm, fpow_mul, alpha_order. apply fpow_1_l.
Qed.
Lemma ORD_pos : (1 < ORD)%nat. Proof. pose proof ORD_val. lia. Qed.
Definition finv (a : F) : F := fpow a (ORD - 1).
Lemma finv_r a : a <> f0 -> a * finv a = f1.
Proof.
  intros Ha. unfold finv. change (fpow a (Datatypes.S (ORD - 1)) = f1).
  replace (Datatypes.S (ORD - 1)) with ORD by (pose proof ORD_pos; lia). by apply fermat.
Qed.
Lemma fmul_eq0 a b : a * b = f0 -> a = f0 \/ b = f0.
Proof.
  intros H. destruct (decide (a = f0)) as [|Ha]; [by left|right].
  replace b with (finv a * (a * b)); [rewrite H; ring|].
  replace (finv a * (a * b)) with (a * finv a * b) by ring. rewrite finv_r by done. ring.
Qed.
Lemma fmul_neq0 a b : a <> f0 -> b <> f0 -> a * b <> f0.
Proof. intros Ha Hb H. apply fmul_eq0 in H. tauto. Qed.
Lemma fpow_neq0 a n : a <> f0 -> fpow a n <> f0.
Proof. intros Ha. induction n as [|n IH]; cbn [fpow]; [apply f1_neq_f0|]. by apply fmul_neq0. Qed.
Lemma finv_neq0 a : a <> f0 -> finv a <> f0.
Proof. apply fpow_neq0. Qed.

Lemma inv_unique y u v : y * u = f1 -> u * v = f1 -> v = y.
Proof. intros H1 H2. transitivity (y * u * v); [rewrite H1; ring|]. transitivity (y * (u * v)); [ring|]. rewrite H2. ring. Qed.
Lemma finv_finv y : y <> f0 -> finv (finv y) = y.
Proof. intros Hy. apply (inv_unique y (finv y)); apply finv_r; [done|by apply finv_neq0]. Qed.

(** ** The table-driven functions *)
Lemma t16_sum s : (0 <= s <= 16382)%Z -> t16 s = s.
Proof. intros H. apply t16_small. lia. Qed.
Lemma exp_wrap s : (s <= 2 * ORD)%nat -> tab gf13_exp (gf13_wrap (t16 (Z.of_nat s))) = fv (fpow alpha s).
Proof.
  intros Hs. pose proof ORD_val as HO. rewrite t16_sum by lia. unfold gf13_wrap, GF13_ORDER.
  destruct (Z.leb_spec 8191 (Z.of_nat s)) as [Hge|Hlt].
  - replace (Z.of_nat s - 8191)%Z with (Z.of_nat (s - ORD)) by lia. rewrite exp_pow by lia. f_equal.
    replace s with (ORD + (s - ORD))%nat at 2 by lia. rewrite fpow_add, alpha_order. ring.
  - apply exp_pow. lia.
Qed.
Lemma gf13_mul_F a b : a <> f0 -> b <> f0 -> gf13_mul (fv a) (fv b) = fv (a * b).
Proof.
  intros Ha Hb. destruct (log_elem a Ha) as (i & Hi & Li & Ei). destruct (log_elem b Hb) as (j & Hj & Lj & Ej).
  unfold gf13_mul. rewrite Li, Lj, <-Nat2Z.inj_add, exp_wrap by lia. by rewrite fpow_add, Ei, Ej.
Qed.
Lemma gf13_div_F a b : a <> f0 -> b <> f0 -> gf13_div (fv a) (fv b) = fv (a * finv b).
Proof.
  intros Ha Hb. destruct (log_elem a Ha) as (i & Hi & Li & Ei). destruct (log_elem b Hb) as (j & Hj & Lj & Ej).
  pose proof ORD_val as HO. unfold gf13_div, GF13_ORDER. rewrite Li, Lj.
  replace (Z.of_nat i + 8191 - Z.of_nat j)%Z with (Z.of_nat (i + (ORD - j))) by lia. rewrite exp_wrap by lia.
  rewrite fpow_add, Ei. do 2 f_equal.
  transitivity (fpow alpha (ORD - j) * (b * finv b)); [rewrite finv_r by done; ring|].
  rewrite <-Ej at 1. transitivity (fpow alpha (ORD - j) * fpow alpha j * finv b); [ring|].
  rewrite <-fpow_add. replace (ORD - j + j)%nat with ORD by lia. rewrite alpha_order. ring.
Qed.
Lemma gf13_mulx_F a : a <> f0 -> gf13_mulx (fv a) = fv (alpha * a).
Proof.
  intros Ha. destruct (log_elem a Ha) as (i & Hi & Li & Ei). unfold gf13_mulx. rewrite Li.
  replace (Z.of_nat i + 1)%Z with (Z.of_nat (Datatypes.S i)) by lia. rewrite exp_wrap by lia. cbn [fpow]. by rewrite Ei.
Qed.
Lemma gf13_divx_F a : a <> f0 -> gf13_divx (fv a) = fv (finv alpha * a).
Proof.
  intros Ha. destruct (log_elem a Ha) as (i & Hi & Li & Ei). pose proof ORD_val as HO. unfold gf13_divx, GF13_ORDER. rewrite Li.
  replace (Z.of_nat i + 8191 - 1)%Z with (Z.of_nat (ORD - 1 + i)) by lia. rewrite exp_wrap by lia.
  rewrite fpow_add, Ei. done.
Qed.

(** ** C35 *)
Lemma fe_neq0 a (H : fe a) : a <> 0%Z -> toF a H <> f0.
Proof. intros Hn E. apply Hn. exact (f_equal fv E). Qed.

(** Table-driven multiplication is multiplication of polynomials modulo
    x^13+x^4+x^3+x+1, and the table-free build agrees with it (on zero too). *)
Theorem C35_mul a b : (0 < a < 8192)%Z -> (0 < b < 8192)%Z -> gf13_mul a b = field_mul a b.
Proof.
  intros Ha Hb. assert (Fa : fe a) by (unfold fe; lia). assert (Fb : fe b) by (unfold fe; lia).
  transitivity (nt_mul a b); [|by apply nt_mul_field_mul].
  apply (gf13_mul_F (toF a Fa) (toF b Fb)); apply fe_neq0; lia.
Qed.
Theorem C35_mul_no_tables a b : (0 <= a < 8192)%Z -> (0 <= b < 8192)%Z -> nt_mul a b = field_mul a b.
Proof. apply nt_mul_field_mul. Qed.

(** Division is inverse to multiplication: the quotient is the unique field
    element whose product with the divisor is the dividend. *)
Theorem C35_div a b : (0 < a < 8192)%Z -> (0 < b < 8192)%Z ->
  (0 < gf13_div a b < 8192)%Z /\ field_mul (gf13_div a b) b = a /\
  (forall q, (0 <= q < 8192)%Z -> field_mul q b = a -> q = gf13_div a b).
Proof.
  intros Ha Hb. assert (Fa : fe a) by (unfold fe; lia). assert (Fb : fe b) by (unfold fe; lia).
  pose proof (gf13_div_F (toF a Fa) (toF b Fb) (fe_neq0 a Fa ltac:(lia)) (fe_neq0 b Fb ltac:(lia))) as E.
  cbn [toF fv] in E. fold (toF a Fa) (toF b Fb) in E. rewrite E.
  assert (Hbn : toF b Fb <> f0) by (apply fe_neq0; lia). assert (Han : toF a Fa <> f0) by (apply fe_neq0; lia).
  split; [|split].
  - pose proof (fv_fe (toF a Fa * finv (toF b Fb))) as Hf. unfold fe in Hf.
    assert (Hn : fv (toF a Fa * finv (toF b Fb)) <> 0%Z); [|lia].
    intros H. apply (fmul_neq0 _ _ Han (finv_neq0 _ Hbn)). apply F_eq. exact H.
  - pose proof (fv_fe (toF a Fa * finv (toF b Fb))) as Hf. rewrite <-nt_mul_field_mul by done.
    change (fv (toF a Fa * finv (toF b Fb) * toF b Fb) = fv (toF a Fa)). f_equal.
    transitivity (toF a Fa * (toF b Fb * finv (toF b Fb))); [ring|]. rewrite finv_r by done. ring.
  - intros q Hq Eq. assert (Fq : fe q) by (unfold fe; lia). rewrite <-nt_mul_field_mul in Eq by done.
    change (fv (toF q Fq * toF b Fb) = fv (toF a Fa)) in Eq. apply F_eq in Eq.
    change (fv (toF q Fq) = fv (toF a Fa * finv (toF b Fb))). f_equal. rewrite <-Eq.
    transitivity (toF q Fq * (toF b Fb * finv (toF b Fb))); [rewrite finv_r by done; ring|ring].
Qed.

Fixpoint chain_exp (n e : nat) : nat := match n with O => e | S n => chain_exp n (e + e + 1) end.
Lemma nt_div_loop_F n b : forall e, nt_div_loop n (fv b) (fv (fpow b e)) = fv (fpow b (chain_exp n e)).
Proof.
  induction n as [|n IH]; intros e; [done|]. cbn [nt_div_loop chain_exp]. rewrite <-IH.
  change (nt_mul (nt_mul (fv (fpow b e)) (fv (fpow b e))) (fv b)) with (fv (fpow b e * fpow b e * b)).
  replace (fpow b e * fpow b e * b) with (fpow b (e + e + 1)); [done|]. rewrite !fpow_add. cbn [fpow]. ring.
Qed.
Lemma nt_inverse b : let r := nt_div_loop 12 (fv b) 1 in nt_mul r r = fv (finv b).
Proof.
  cbn zeta. change 1%Z with (fv (fpow b 0)). rewrite nt_div_loop_F.
  assert (He : Z.of_nat (chain_exp 12 0) = 4095%Z) by (by vm_compute). set (e := chain_exp 12 0) in *. clearbody e.
  change (fv (fpow b e * fpow b e) = fv (finv b)). rewrite <-fpow_add. unfold finv. apply (f_equal fv), (f_equal (fpow b)).
  pose proof ORD_val. lia.
Qed.
Theorem C35_div_no_tables a b : (0 < a < 8192)%Z -> (0 < b < 8192)%Z -> nt_div a b = gf13_div a b.
Proof.
  intros Ha Hb. assert (Fa : fe a) by (unfold fe; lia). assert (Fb : fe b) by (unfold fe; lia).
  pose proof (gf13_div_F (toF a Fa) (toF b Fb) (fe_neq0 a Fa ltac:(lia)) (fe_neq0 b Fb ltac:(lia))) as E.
  cbn [toF fv] in E. fold (toF a Fa) (toF b Fb) in E. rewrite E. unfold nt_div.
  pose proof (nt_inverse (toF b Fb)) as I. cbn zeta in I. rewrite fv_toF in I. rewrite I, fv_mul, fv_toF. reflexivity.
Qed.
(** Multiplication and division by x, in both builds. *)
Theorem C35_mulx a : (0 < a < 8192)%Z -> gf13_mulx a = field_mul 2 a /\ nt_mulx a = field_mul 2 a.
Proof.
  intros Ha. assert (Fa : fe a) by (unfold fe; lia). rewrite <-nt_mul_field_mul by (unfold fe; lia). split.
  - apply (gf13_mulx_F (toF a Fa)). apply fe_neq0. lia.
  - by rewrite nt_mul_2_l.
Qed.
Theorem C35_divx a : (0 < a < 8192)%Z -> field_mul 2 (gf13_divx a) = a /\ nt_divx a = gf13_divx a.
Proof.
  intros Ha. assert (Fa : fe a) by (unfold fe; lia).
  pose proof (gf13_divx_F (toF a Fa) (fe_neq0 a Fa ltac:(lia))) as E. cbn [toF fv] in E. fold (toF a Fa) in E.
  rewrite E. rewrite <-nt_mul_field_mul by (unfold fe; lia || apply fv_fe). split.
  - change (fv (alpha * (finv alpha * toF a Fa)) = fv (toF a Fa)). f_equal.
    transitivity (alpha * finv alpha * toF a Fa); [ring|]. rewrite finv_r by apply alpha_neq. ring.
  - unfold nt_divx. rewrite nt_mul_comm by (unfold fe; lia).
    assert (F4 : fe 4109) by (unfold fe; lia).
    transitivity (fv (toF 4109 F4 * toF a Fa)); [rewrite fv_mul, !fv_toF; reflexivity|]. apply (f_equal fv). apply (f_equal (fun u => u * toF a Fa)).
    transitivity (toF 4109 F4 * (alpha * finv alpha)); [rewrite finv_r by apply alpha_neq; ring|].
    transitivity (alpha * toF 4109 F4 * finv alpha); [ring|].
    replace (alpha * toF 4109 F4) with f1; [ring|]. apply F_eq. by vm_compute.
Qed.

(** Concrete instances. *)
Example ex_C35 : gf13_mul 4660 7000 = field_mul 4660 7000 /\ nt_mul 4660 7000 = field_mul 4660 7000 /\
  nt_div 4660 7000 = gf13_div 4660 7000 /\ field_mul (gf13_div 4660 7000) 7000 = 4660%Z.
Proof. by vm_compute. Qed.
Global Opaque finv ORD.
