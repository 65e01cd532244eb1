(** Theorems C32 (BCH part), C36 and C37 about the model of ecc/bch.c. *)
From stdpp Require Import list.
From Coq Require Import ZArith Lia.
From Verif Require Import EccBits Gf13 Fpoly Bch.
Local Open Scope F_scope.

Record good_ops (o : gf_ops) : Prop := {
  g_mul : forall a b, a <> f0 -> b <> f0 -> op_mul o (fv a) (fv b) = fv (a * b);
  g_div : forall a b, a <> f0 -> b <> f0 -> op_div o (fv a) (fv b) = fv (a * finv b);
  g_mulx : forall a, a <> f0 -> op_mulx o (fv a) = fv (alpha * a);
  g_divx : forall a, a <> f0 -> op_divx o (fv a) = fv (finv alpha * a)
}.
Lemma fv_neq0 a : a <> f0 -> (0 < fv a < 8192)%Z.
Proof.
  intros Ha. pose proof (fv_fe a) as H. unfold fe in H. assert (fv a <> 0%Z); [|lia].
  intros E. apply Ha, F_eq. exact E.
Qed.
Lemma fv_eqb0 a : (fv a =? 0)%Z = bool_decide (a = f0).
Proof.
  destruct (decide (a = f0)) as [-> |Ha].
  - by rewrite bool_decide_eq_true_2.
  - rewrite bool_decide_eq_false_2 by done. apply Z.eqb_neq. pose proof (fv_neq0 a Ha). lia.
Qed.
Lemma tables_good : good_ops gf_tables.
Proof. constructor; cbn [gf_tables op_mul op_div op_mulx op_divx]; [apply gf13_mul_F|apply gf13_div_F|apply gf13_mulx_F|apply gf13_divx_F]. Qed.
Lemma no_tables_good : good_ops gf_no_tables.
Proof.
  constructor; cbn [gf_no_tables op_mul op_div op_mulx op_divx].
  - intros a b _ _. reflexivity.
  - intros a b Ha Hb. rewrite <-gf13_div_F by done. apply C35_div_no_tables; by apply fv_neq0.
  - intros a Ha. rewrite <-gf13_mulx_F by done. destruct (C35_mulx (fv a) (fv_neq0 a Ha)) as [-> ->]. reflexivity.
  - intros a Ha. rewrite <-gf13_divx_F by done. apply C35_divx. by apply fv_neq0.
Qed.

(** ** Polynomials as coefficient functions *)
Definition rep (l : list Z) (f : nat -> F) : Prop := length l = 16%nat /\ forall i, (i < 16)%nat -> nth i l 0%Z = fv (f i).

Section Ops.
Context (o : gf_ops) (Ho : good_ops o).

Lemma nth_alter (f : Z -> Z) p l i : nth i (alter f p l) 0%Z = if decide (i = p /\ (p < length l)%nat) then f (nth i l 0%Z) else nth i l 0%Z.
Proof.
  rewrite !nth_lookup. destruct (decide (i = p /\ (p < length l)%nat)) as [[-> Hp]|Hn].
  - rewrite list_lookup_alter. destruct (lookup_lt_is_Some_2 l p Hp) as [x ->]. done.
  - destruct (decide (i = p)) as [-> |]; [|by rewrite list_lookup_alter_ne].
    rewrite list_lookup_alter, lookup_ge_None_2 by lia. done.
Qed.

Lemma poly_add_loop_spec src sf c shift : rep src sf -> c <> f0 -> forall k i dst df,
  rep dst df -> (i + k = 16)%nat ->
  rep (poly_add_loop o k i dst src (fv c) shift)
      (fun p => df p + if decide (i + shift <= p)%nat then sf (p - shift)%nat * c else f0).
Proof.
  intros [Hsl Hs] Hc. induction k as [|k IH]; intros i dst df [Hdl Hd] Hi; cbn [poly_add_loop].
  - split; [done|]. intros p Hp. rewrite Hd by done. rewrite decide_False by lia. f_equal. ring.
  - set (dst' := if (MAX_POLY <=? i + shift)%nat then _ else _).
    assert (H : rep dst' (fun p => df p + if decide (i + shift = p)%nat then sf i * c else f0)).
    { unfold dst', MAX_POLY. destruct (Nat.leb_spec 16 (i + shift)) as [Hge|Hlt].
      - split; [done|]. intros p Hp. rewrite Hd by done. rewrite decide_False by lia. f_equal. ring.
      - rewrite Hs by lia. rewrite fv_eqb0. destruct (decide (sf i = f0)) as [E|Hn].
        + rewrite bool_decide_eq_true_2 by done. split; [done|]. intros p Hp. rewrite Hd by done. rewrite E.
          f_equal. destruct (decide _); ring.
        + rewrite bool_decide_eq_false_2 by done. split; [by rewrite alter_length|]. intros p Hp.
          rewrite nth_alter, Hdl, (g_mul o Ho), Hd by done. destruct (decide (i + shift = p)%nat) as [<- |Hne].
          * rewrite decide_True by lia. reflexivity.
          * rewrite decide_False by lia. f_equal. ring. }
    destruct (IH (S i) dst' _ H ltac:(lia)) as [H1 H2]. split; [done|]. intros p Hp. rewrite H2 by done.
    f_equal. destruct (decide (i + shift = p)%nat) as [<- |Hne].
    + rewrite decide_False, decide_True by lia. replace (i + shift - shift)%nat with i by lia. ring.
    + destruct (decide (S i + shift <= p)%nat); [rewrite decide_True by lia|rewrite decide_False by lia]; ring.
Qed.
Lemma poly_add_spec dst src df sf c shift : rep dst df -> rep src sf -> c <> f0 ->
  rep (poly_add o dst src (fv c) shift) (fun p => df p + if decide (shift <= p)%nat then sf (p - shift)%nat * c else f0).
Proof. intros Hd Hs Hc. apply (poly_add_loop_spec src sf c shift Hs Hc 16 0 dst df Hd). done. Qed.

Lemma poly_eval_loop_spec (f : nat -> F) : forall s i x t sum, x <> f0 -> t <> f0 ->
  (forall j, (j < length s)%nat -> nth j s 0%Z = fv (f (i + j)%nat)) ->
  poly_eval_loop o s (fv x) (fv t) (fv sum) = fv (sum + sumn (length s) (fun j => f (i + j)%nat * (t * fpow x j))).
Proof.
  induction s as [|c s IH]; intros i x t sum Hx Ht H; cbn [poly_eval_loop length].
  - f_equal. cbn [sumn]. ring.
  - pose proof (H 0%nat ltac:(cbn; lia)) as H0. cbn [nth] in H0. rewrite Nat.add_0_r in H0. subst c.
    rewrite (g_mul o Ho) by done.
    assert (E : (if (fv (f i) =? 0)%Z then fv sum else Z.lxor (fv sum) (op_mul o (fv (f i)) (fv t))) = fv (sum + f i * t)).
    { rewrite fv_eqb0. destruct (decide (f i = f0)) as [E|Hn].
      - rewrite bool_decide_eq_true_2 by done. rewrite E. f_equal. ring.
      - rewrite bool_decide_eq_false_2 by done. rewrite (g_mul o Ho) by done. reflexivity. }
    rewrite E, (IH (S i)); [|done|by apply fmul_neq0|].
    + apply (f_equal fv). rewrite sumn_S_l. rewrite Nat.add_0_r. cbn [fpow].
      rewrite (sumn_ext _ (fun j => f (S i + j)%nat * (t * x * fpow x j)) (fun j => f (i + S j)%nat * (t * (x * fpow x j)))); [ring|].
      intros j _. rewrite Nat.add_succ_comm. ring.
    + intros j Hj. specialize (H (S j) ltac:(cbn; lia)). cbn [nth] in H. by rewrite Nat.add_succ_comm.
Qed.
Lemma poly_eval_spec s f x : rep s f -> x <> f0 -> poly_eval o s (fv x) = fv (x * sumn 16 (fun j => f j * fpow x j)).
Proof.
  intros [Hl H] Hx. unfold poly_eval. change 0%Z with (fv f0).
  rewrite (poly_eval_loop_spec f s 0 x x f0); [|done..|by rewrite Hl].
  apply (f_equal fv). rewrite Hl, <-sumn_mul. cbn [Nat.add].
  rewrite (sumn_ext 16 (fun j => f j * (x * fpow x j)) (fun i => x * (f i * fpow x i))); [ring|]. intros; ring.
Qed.

(** ** Berlekamp-Massey on power sums *)
Section BM.
Context (Xs : list F) (N : nat) (s : list Z).
Context (HXd : NoDup Xs) (HX0 : forall X, X ∈ Xs -> X <> f0).
Context (HN : (2 * length Xs <= N <= 8)%nat).
(** The syndromes, preceded by a 1. *)
Definition sq (k : nat) : F := match k with O => f1 | S _ => fsum (fun X => fpow X k) Xs end.
Context (Hs : forall n, (n < N)%nat -> nth n s 0%Z = fv (sq (S n))).

Definition gen (C : nat -> F) (n : nat) : F := sumn 16 (fun i => C i * sq (n - i)).
Definition deg_le (C : nat -> F) (L : nat) : Prop := forall i, (L < i)%nat -> C i = f0.

Lemma disc_loop_spec C Cf n : rep C Cf -> (n < N)%nat -> forall k i d, (1 <= i)%nat -> (i + k <= n + 1)%nat ->
  disc_loop o C s n k i (fv d) = fv (d + sumn k (fun j => Cf (i + j)%nat * sq (n + 1 - (i + j))%nat)).
Proof.
  intros [_ HC] Hn. induction k as [|k IH]; intros i d Hi Hk; cbn [disc_loop].
  - f_equal. cbn [sumn]. ring.
  - rewrite HC, Hs by lia. replace (S (n - i)) with (n + 1 - i)%nat by lia.
    assert (E : (if (fv (Cf i) =? 0)%Z || (fv (sq (n + 1 - i)) =? 0)%Z then fv d
                 else Z.lxor (fv d) (op_mul o (fv (Cf i)) (fv (sq (n + 1 - i))))) = fv (d + Cf i * sq (n + 1 - i))).
    { rewrite !fv_eqb0. destruct (decide (Cf i = f0)) as [E|H1].
      - rewrite bool_decide_eq_true_2 by done. cbn [orb]. rewrite E. f_equal. ring.
      - rewrite bool_decide_eq_false_2 by done. cbn [orb]. destruct (decide (sq (n + 1 - i) = f0)) as [E|H2].
        + rewrite bool_decide_eq_true_2 by done. rewrite E. f_equal. ring.
        + rewrite bool_decide_eq_false_2 by done. rewrite (g_mul o Ho) by done. reflexivity. }
    rewrite E, IH by lia. apply (f_equal fv). rewrite sumn_S_l, Nat.add_0_r.
    rewrite (sumn_ext k (fun j => Cf (S i + j)%nat * sq (n + 1 - (S i + j))) (fun j => Cf (i + S j)%nat * sq (n + 1 - (i + S j)))); [ring|].
    intros j _. by rewrite Nat.add_succ_comm.
Qed.
Lemma disc_spec C Cf n L : rep C Cf -> (n < N)%nat -> (L <= n)%nat -> Cf 0%nat = f1 -> deg_le Cf L ->
  disc_loop o C s n L 1 (nth n s 0%Z) = fv (gen Cf (n + 1)).
Proof.
  intros HC Hn HL H0 Hd. rewrite Hs by done. rewrite (disc_loop_spec C Cf n HC Hn L 1) by lia. apply (f_equal fv).
  unfold gen. change 16%nat with (S 15). rewrite sumn_S_l, H0. replace (n + 1 - 0)%nat with (S n) by lia.
  rewrite (sumn_long L 15); [|lia|].
  - cbn [Nat.add]. ring.
  - intros i Hi. rewrite Hd by lia. ring.
Qed.

(** [gen] as a weighted power sum. *)
Definition weight (C : nat -> F) (L : nat) (X : F) : F := sumn (S L) (fun i => C i * fpow X (L - i)) * X.
Lemma gen_weight C L k : deg_le C L -> (L < 16)%nat -> gen C (L + 1 + k) = fsum (fun X => weight C L X * fpow X k) Xs.
Proof.
  intros Hd HL. unfold gen. rewrite (sumn_long (S L) 16); [|lia|].
  2:{ intros i Hi. rewrite Hd by lia. ring. }
  rewrite (sumn_ext (S L) _ (fun i => fsum (fun X => C i * fpow X (L - i) * X * fpow X k) Xs)).
  - rewrite sumn_fsum. apply fsum_ext. intros X _. unfold weight.
    transitivity (X * fpow X k * sumn (S L) (fun i => C i * fpow X (L - i))); [|ring].
    rewrite <-sumn_mul. apply sumn_ext. intros i _. ring.
  - intros i Hi. replace (L + 1 + k - i)%nat with (S (L - i + k)) by lia. cbn [sq]. rewrite <-fsum_mul.
    apply fsum_ext. intros X _. replace (S (L - i + k)) with (L - i + (1 + k))%nat by lia. rewrite !fpow_add. cbn [fpow]. ring.
Qed.
Lemma gen_zero C L : deg_le C L -> (L < 16)%nat ->
  (forall n, (L + 1 <= n < L + 1 + length Xs)%nat -> gen C n = f0) -> forall X, X ∈ Xs -> weight C L X = f0.
Proof.
  intros Hd HL H. apply vandermonde; [done|]. intros k Hk. rewrite <-gen_weight by done. apply H. lia.
Qed.
(** Massey's lemma. *)
Lemma massey C L n : deg_le C L -> (L < 16)%nat -> (L <= n)%nat ->
  (forall n', (L + 1 <= n' <= n)%nat -> gen C n' = f0) -> gen C (n + 1) <> f0 -> (n + 1 - L <= length Xs)%nat.
Proof.
  intros Hd HL Hn H Hg. destruct (Nat.le_gt_cases (n + 1 - L) (length Xs)) as [|Hlt]; [done|]. exfalso. apply Hg.
  pose proof (gen_zero C L Hd HL ltac:(intros n' Hn'; apply H; lia)) as Hw.
  replace (n + 1)%nat with (L + 1 + (n - L))%nat by lia. rewrite gen_weight by done.
  apply fsum_0. intros X HX. rewrite Hw by done. ring.
Qed.

(** The loop invariant at the start of iteration [n]. *)
Record bm_inv (n : nat) (st : bm) (C B : nat -> F) (b : F) (LB : nat) : Prop := {
  iC : rep (bmC st) C;
  iB : rep (bmB st) B;
  ib : bmb st = fv b;
  ib0 : b <> f0;
  iC0 : C 0%nat = f1;
  iCd : deg_le C (bmL st);
  iBd : deg_le B LB;
  iLn : (bmL st <= n)%nat;
  iLX : (bmL st <= length Xs)%nat;
  im : (1 <= bmm st <= n + 1)%nat;
  iLB : (LB + bmm st + bmL st = n + 1)%nat;
  iCg : forall k, (bmL st + 1 <= k <= n)%nat -> gen C k = f0;
  iBg : forall k, (LB + 1 <= k < n + 1 - bmm st)%nat -> gen B k = f0;
  iBb : gen B (n + 1 - bmm st) = b
}.
(** Effect of adding a shifted multiple of B to C. *)
Definition upd (C B : nat -> F) (c : F) (m : nat) : nat -> F :=
  fun p => C p + if decide (m <= p)%nat then B (p - m)%nat * c else f0.
Lemma gen_upd C B c m LB k : deg_le B LB -> (LB + m < 16)%nat -> gen (upd C B c m) k = gen C k + c * gen B (k - m).
Proof.
  intros Hd Hm. unfold gen, upd.
  rewrite (sumn_ext 16 _ (fun i => C i * sq (k - i) + (if decide (m <= i)%nat then B (i - m)%nat * c else f0) * sq (k - i))) by (intros; ring).
  rewrite sumn_add. apply (f_equal (fadd _)).
  replace 16%nat with (m + (16 - m))%nat at 1 by lia. rewrite sumn_split.
  rewrite (sumn_0 m). 2:{ intros i Hi. rewrite decide_False by lia. ring. }
  rewrite (sumn_long (16 - m) 16); [|lia|].
  2:{ intros i Hi. rewrite Hd by lia. ring. }
  rewrite <-sumn_mul. rewrite (sumn_ext (16 - m) _ (fun i => c * (B i * sq (k - m - i)))); [ring|].
  intros i Hi. rewrite decide_True by lia. replace (m + i - m)%nat with i by lia. replace (k - (m + i))%nat with (k - m - i)%nat by lia. ring.
Qed.
Lemma div_mul d b : b <> f0 -> d * finv b * b = d.
Proof. intros Hb. transitivity (d * (b * finv b)); [ring|]. rewrite finv_r by done. ring. Qed.

Lemma bm_step_inv n st C B b LB : (n < N)%nat -> bm_inv n st C B b LB ->
  exists C' B' b' LB', bm_inv (S n) (bm_step o s n st) C' B' b' LB'.
Proof.
  intros Hn []. destruct st as [Cl Bl L m bz]. cbn [bmC bmB bmL bmm bmb] in *. subst bz.
  unfold bm_step. rewrite (disc_spec Cl C n L) by done. set (d := gen C (n + 1)).
  assert (HLm : (L < 16)%nat) by lia.
  rewrite fv_eqb0. destruct (decide (d = f0)) as [Ed|Hd].
  - rewrite bool_decide_eq_true_2 by done. exists C, B, b, LB. constructor; cbn [bmC bmB bmL bmm bmb]; try done; try lia.
    intros k Hk. destruct (decide (k = n + 1)%nat) as [-> |]; [done|]. apply iCg0. lia.
  - rewrite bool_decide_eq_false_2 by done. rewrite (g_div o Ho) by done.
    set (c := d * finv b). assert (Hc : c <> f0) by (apply fmul_neq0; [done|by apply finv_neq0]).
    pose proof (massey C L n iCd0 HLm iLn0 iCg0 Hd) as HM.
    pose proof (poly_add_spec Cl Bl C B c m iC1 iB0 Hc) as HR. fold (upd C B c m) in HR.
    assert (Hmlb : (LB + m < 16)%nat) by lia.
    assert (HC0' : upd C B c m 0%nat = f1).
    { unfold upd. rewrite decide_False by lia. rewrite iC2. ring. }
    assert (Hdeg : forall L', (L <= L')%nat -> (n + 1 - L <= L')%nat -> deg_le (upd C B c m) L').
    { intros L' H1 H2 i Hi. unfold upd. rewrite iCd0 by lia. destruct (decide _); [|ring]. rewrite iBd0 by lia. ring. }
    assert (Hgen : forall L', (L <= L')%nat -> (n + 1 - L <= L')%nat -> forall k, (L' + 1 <= k <= S n)%nat -> gen (upd C B c m) k = f0).
    { intros L' H1 H2 k Hk. rewrite (gen_upd _ _ _ _ LB) by done. destruct (decide (k = n + 1)%nat) as [-> |Hne].
      - rewrite iBb0. fold d. unfold c. rewrite div_mul by done. apply fadd_self.
      - rewrite iCg0, iBg0 by lia. ring. }
    destruct (Nat.leb_spec (L * 2) n) as [Hle|Hgt].
    + exists (upd C B c m), C, d, L. constructor; cbn [bmC bmB bmL bmm bmb]; try done; try lia.
      * apply Hdeg; lia.
      * apply Hgen; lia.
      * intros k Hk. apply iCg0. lia.
      * unfold d. f_equal. lia.
    + exists (upd C B c m), B, b, LB. constructor; cbn [bmC bmB bmL bmm bmb]; try done; try lia.
      * apply Hdeg; lia.
      * apply Hgen; lia.
Qed.
Lemma bm_loop_inv k : forall n st, (n + k = N)%nat -> (exists C B b LB, bm_inv n st C B b LB) ->
  exists C B b LB, bm_inv N (bm_loop o s k n st) C B b LB.
Proof.
  induction k as [|k IH]; intros n st Hk (C & B & b & LB & H); cbn [bm_loop].
  - replace N with n by lia. eauto.
  - apply IH; [lia|]. apply (bm_step_inv n st C B b LB); [lia|done].
Qed.
Definition onef (i : nat) : F := match i with O => f1 | _ => f0 end.
Lemma one_rep : rep one_poly onef.
Proof.
  split; [done|]. intros i Hi. destruct i as [|i]; [done|]. unfold one_poly. cbn [nth onef].
  rewrite nth_lookup. destruct (replicate 15 0%Z !! i) as [x|] eqn:E; [|done]. apply lookup_replicate in E as [-> _]. done.
Qed.
Lemma bm_init : bm_inv 0 (mkBM one_poly one_poly 0 1 1) onef onef f1 0.
Proof.
  constructor; cbn [bmC bmB bmL bmm bmb]; try lia; try apply one_rep; try done.
  - intros [|i] Hi; [lia|done].
  - intros [|i] Hi; [lia|done].
  - unfold gen. cbn [Nat.add Nat.sub]. change 16%nat with (S 15). rewrite sumn_S_l, sumn_0; [cbn; ring|]. intros i _. cbn [onef]. ring.
Qed.

(** The result is a locator polynomial of the points. *)
Lemma bm_result : exists f, rep (berlekamp_massey o s N) f /\
  forall y, y <> f0 -> (sumn 16 (fun i => f i * fpow y i) = f0 <-> finv y ∈ Xs).
Proof.
  destruct (bm_loop_inv N 0 _ ltac:(lia) ltac:(eauto using bm_init)) as (C & B & b & LB & []).
  set (st := bm_loop o s N 0 _) in *. set (L := bmL st) in *. clear iB0 ib1 ib2 iBd0 im0 iLB0 iBg0 iBb0.
  assert (HL : (L <= 4)%nat) by lia.
  exists C. split.
  - destruct iC1 as [Hl HC]. unfold berlekamp_massey. fold st. split.
    + rewrite app_length, take_length, replicate_length, Hl. done.
    + intros i Hi. destruct (decide (i < 8)%nat) as [Hlt|Hge].
      * rewrite app_nth1 by (rewrite take_length, Hl; lia). rewrite <-HC by done.
        rewrite !nth_lookup, lookup_take by done. done.
      * rewrite iCd0 by lia. rewrite nth_lookup, lookup_app_r by (rewrite take_length, Hl; lia).
        destruct (replicate 8 0%Z !! _) as [x|] eqn:E; [|done]. apply lookup_replicate in E as [-> _]. done.
  - assert (Hlong : forall M y, (L <= M < 16)%nat -> sumn 16 (fun i => C i * fpow y i) = sumn (S M) (fun i => C i * fpow y i)).
    { intros M y HM. apply sumn_long; [lia|]. intros i Hi. rewrite iCd0 by lia. ring. }
    assert (Hroot : forall X, X ∈ Xs -> sumn 16 (fun i => C i * fpow (finv X) i) = f0).
    { intros X HX. pose proof (HX0 X HX) as Hn.
      pose proof (gen_zero C L iCd0 ltac:(lia) ltac:(intros k Hk; apply iCg0; lia) X HX) as Hw.
      unfold weight in Hw. apply fmul_eq0 in Hw as [Hw|]; [|done].
      rewrite (Hlong L) by lia.
      assert (E : fpow X L * sumn (S L) (fun i => C i * fpow (finv X) i) = f0).
      { rewrite <-sumn_mul, <-Hw. apply sumn_ext. intros i Hi.
        replace L with (L - i + i)%nat at 1 by lia. rewrite fpow_add.
        transitivity (C i * fpow X (L - i) * (fpow X i * fpow (finv X) i)); [ring|].
        rewrite <-fpow_mul_l, finv_r, fpow_1_l by done. ring. }
      apply fmul_eq0 in E as [E|]; [|done]. by apply fpow_neq0 in E. }
    assert (Hinv : forall y, y <> f0 -> finv (finv y) = y).
    { apply finv_finv. }
    intros y Hy. split.
    + intros E. assert (Hin : y ∈ map finv Xs).
      { apply (no_other_root C (length Xs)).
        - done.
        - by rewrite map_length.
        - assert (Hinj : forall l, NoDup l -> (forall X, X ∈ l -> X <> f0) -> NoDup (map finv l)).
          { induction 1 as [|X l Hx _ IH]; intros Hl0; [constructor|]. cbn [map]. constructor.
            - intros Hin. apply elem_of_list_fmap in Hin as (X' & E' & Hin'). apply Hx.
              rewrite <-(Hinv X), E', Hinv; [done| |]; apply Hl0; [by apply elem_of_list_further|apply elem_of_list_here].
            - apply IH. intros X' HX'. apply Hl0. by apply elem_of_list_further. }
          by apply Hinj.
        - intros r Hr. apply elem_of_list_fmap in Hr as (X & -> & HX). rewrite <-Hlong by lia. by apply Hroot.
        - rewrite <-Hlong by lia. done. }
      apply elem_of_list_fmap in Hin as (X & -> & HX). rewrite Hinv; [done|]. by apply HX0.
    + intros HX. rewrite (sumn_ext 16 _ (fun i => C i * fpow (finv (finv y)) i)); [by apply Hroot|].
      intros i _. by rewrite Hinv.
Qed.
End BM.
End Ops.

(** ** Code words as bit lists *)
Fixpoint bits (n : nat) (z : Z) : list bool :=
  match n with O => [] | S n => Z.testbit z 0 :: bits n (Z.shiftr z 1) end.
Definition b2f (b : bool) : F := if b then f1 else f0.
Fixpoint ev (l : list bool) (x : F) : F := match l with [] => f0 | b :: l => b2f b + x * ev l x end.
Definition cbits (chunk : list Z) : list bool := concat (map (fun c => bits 8 (Z.lxor c 255)) chunk).
Lemma bits_length n z : length (bits n z) = n.
Proof. revert z. induction n as [|n IH]; intros z; [done|]. cbn [bits length]. by rewrite IH. Qed.
Lemma ev_app a b x : ev (a ++ b) x = ev a x + fpow x (length a) * ev b x.
Proof. induction a as [|c a IH]; cbn [app ev length fpow]; [ring|]. rewrite IH. ring. Qed.
Lemma b2f_xorb a b : b2f (xorb a b) = b2f a + b2f b.
Proof. destruct a, b; cbn [xorb b2f]; rewrite ?fadd_self; ring. Qed.
Lemma ev_lxor n x : forall a b, ev (bits n (Z.lxor a b)) x = ev (bits n a) x + ev (bits n b) x.
Proof.
  induction n as [|n IH]; intros a b; cbn [bits ev]; [ring|].
  rewrite Z.shiftr_lxor, IH, Z.lxor_spec, b2f_xorb. ring.
Qed.
Lemma ev_0 n x : ev (bits n 0) x = f0.
Proof. induction n as [|n IH]; cbn [bits ev]; [done|]. rewrite Z.shiftr_0_l, IH, Z.bits_0. cbn [b2f]. ring. Qed.
Lemma shiftr1_bound n u : (0 <= u < 2 ^ Z.of_nat (S n))%Z -> (0 <= Z.shiftr u 1 < 2 ^ Z.of_nat n)%Z.
Proof.
  rewrite Nat2Z.inj_succ, Z.pow_succ_r by lia. rewrite Z.shiftr_div_pow2 by lia. change (2 ^ 1)%Z with 2%Z. intros H.
  split; [apply Z.div_pos; lia|]. apply Z.div_lt_upper_bound; lia.
Qed.
Lemma ev_high k x : forall n u, (0 <= u < 2 ^ Z.of_nat n)%Z -> ev (bits (n + k) u) x = ev (bits n u) x.
Proof.
  induction n as [|n IH]; intros u Hu.
  - replace u with 0%Z by (cbn in Hu; lia). cbn [Nat.add bits ev]. apply ev_0.
  - cbn [Nat.add bits ev]. rewrite IH by (by apply shiftr1_bound). done.
Qed.
Lemma ev_pow x : forall k n, (k < n)%nat -> ev (bits n (2 ^ Z.of_nat k)) x = fpow x k.
Proof.
  induction k as [|k IH]; intros n Hn; (destruct n as [|n]; [lia|]); cbn [bits ev fpow].
  - change (2 ^ Z.of_nat 0)%Z with 1%Z. change (Z.shiftr 1 1) with 0%Z. rewrite ev_0. cbn [Z.testbit Z.odd b2f]. ring.
  - rewrite Z.shiftr_div_pow2, Z.pow2_bits_false by lia.
    rewrite Nat2Z.inj_succ, Z.pow_succ_r by lia. change (2 ^ 1)%Z with 2%Z. rewrite Z.mul_comm, Z.div_mul by lia.
    rewrite IH by lia. cbn [b2f]. ring.
Qed.

(** *** The remainder register *)
Definition below (n : nat) (z : Z) : Prop := (0 <= z < 2 ^ Z.of_nat n)%Z.
Lemma below_bits n z : (0 <= z)%Z -> (forall k, (Z.of_nat n <= k)%Z -> Z.testbit z k = false) -> below n z.
Proof.
  intros H0 H. split; [done|]. destruct (Z.eq_dec z 0) as [-> |Hn]; [apply Z.pow_pos_nonneg; lia|].
  apply Z.log2_lt_pow2; [lia|].
  destruct (Z.lt_ge_cases (Z.log2 z) (Z.of_nat n)) as [|Hge]; [done|]. specialize (H _ Hge). rewrite Z.bit_log2 in H by lia. done.
Qed.
Lemma below_high n z k : below n z -> (Z.of_nat n <= k)%Z -> Z.testbit z k = false.
Proof.
  intros [H1 H2] Hk. destruct (Z.eq_dec z 0) as [-> |]; [apply Z.bits_0|]. apply Z.bits_above_log2; [lia|].
  apply Z.lt_le_trans with (Z.of_nat n); [|done]. apply Z.log2_lt_pow2; lia.
Qed.
Lemma below_lxor n a b : below n a -> below n b -> below n (Z.lxor a b).
Proof.
  intros Ha Hb. apply below_bits.
  - apply Z.lxor_nonneg. unfold below in *. lia.
  - intros k Hk. rewrite Z.lxor_spec, !(below_high n) by done. done.
Qed.
Lemma below_le m n z : (m <= n)%nat -> below m z -> below n z.
Proof. intros H [H1 H2]. split; [done|]. apply Z.lt_le_trans with (2 ^ Z.of_nat m)%Z; [done|]. apply Z.pow_le_mono_r; lia. Qed.
Lemma byte_below x : byte x <-> below 8 x. Proof. done. Qed.

Lemma land1_test r : (Z.land r 1 =? 0)%Z = negb (Z.testbit r 0).
Proof. apply (land_pow_test r 0). lia. Qed.

Section Rem.
Context (g : Z) (deg : nat) (x : F).
Context (Hg : below (S deg) g) (Hg1 : Z.testbit g 0 = true) (Hdeg : (8 <= deg)%nat).
Lemma rem_step_below r : below deg r -> below deg (Z.shiftr (if Z.testbit r 0 then Z.lxor r g else r) 1).
Proof.
  intros Hr. apply shiftr1_bound. destruct (Z.testbit r 0).
  - apply below_lxor; [|done]. apply (below_le deg); [lia|done].
  - apply (below_le deg); [lia|done].
Qed.
Lemma rem_bits_S n r : rem_bits (S n) g r = rem_bits n g (Z.shiftr (if Z.testbit r 0 then Z.lxor r g else r) 1).
Proof. cbn [rem_bits]. rewrite land1_test. by destruct (Z.testbit r 0). Qed.
Lemma rem_bits_below n : forall r, below deg r -> below deg (rem_bits n g r).
Proof. induction n as [|n IH]; intros r Hr; [done|]. rewrite rem_bits_S. by apply IH, rem_step_below. Qed.
Lemma chunk_remainder_below chunk : forall r, byte_list chunk -> below deg r -> below deg (chunk_remainder_from g chunk r).
Proof.
  induction chunk as [|c chunk IH]; intros r Hc Hr; [done|]. apply Forall_cons in Hc as [H1 H2]. cbn [chunk_remainder_from].
  apply IH; [done|]. apply rem_bits_below, below_lxor; [done|]. apply (below_le 8); [done|]. apply lxor_byte; [done|unfold byte; lia].
Qed.
Context (Hroot : ev (bits (S deg) g) x = f0).
Lemma rem_step_ev r : below deg r -> x * ev (bits deg (Z.shiftr (if Z.testbit r 0 then Z.lxor r g else r) 1)) x = ev (bits deg r) x.
Proof.
  intros Hr. rewrite <-(ev_high 1 x deg r Hr). rewrite Nat.add_1_r.
  transitivity (ev (bits (S deg) (if Z.testbit r 0 then Z.lxor r g else r)) x).
  - cbn [bits ev]. replace (Z.testbit (if Z.testbit r 0 then Z.lxor r g else r) 0) with false; [cbn [b2f]; ring|].
    destruct (Z.testbit r 0) eqn:E; [|done]. by rewrite Z.lxor_spec, E, Hg1.
  - destruct (Z.testbit r 0); [|done]. rewrite ev_lxor, Hroot. ring.
Qed.
Lemma rem_bits_ev n : forall r, below deg r -> fpow x n * ev (bits deg (rem_bits n g r)) x = ev (bits deg r) x.
Proof.
  induction n as [|n IH]; intros r Hr; [cbn [rem_bits fpow]; ring|]. rewrite rem_bits_S. cbn [fpow].
  rewrite <-(rem_step_ev r) by done. rewrite <-(IH _ (rem_step_below r Hr)). ring.
Qed.
Lemma remainder_ev chunk : forall r, byte_list chunk -> below deg r ->
  fpow x (nbits chunk) * ev (bits deg (chunk_remainder_from g chunk r)) x = ev (bits deg r) x + ev (cbits chunk) x.
Proof.
  induction chunk as [|c chunk IH]; intros r Hc Hr.
  - cbn. ring.
  - apply Forall_cons in Hc as [H1 H2]. cbn [chunk_remainder_from].
    assert (Hb : below 8 (Z.lxor c 255)) by (apply lxor_byte; [done|unfold byte; lia]).
    assert (Hb' : below deg (Z.lxor c 255)) by (by apply (below_le 8)).
    replace (nbits (c :: chunk)) with (8 + nbits chunk)%nat by (unfold nbits; cbn [length]; lia).
    rewrite fpow_add.
    transitivity (fpow x 8 * (fpow x (nbits chunk) * ev (bits deg (chunk_remainder_from g chunk (rem_bits 8 g (Z.lxor r (Z.lxor c 255))))) x)); [ring|].
    rewrite IH; [|done|by apply rem_bits_below, below_lxor].
    transitivity (fpow x 8 * ev (bits deg (rem_bits 8 g (Z.lxor r (Z.lxor c 255)))) x + fpow x 8 * ev (cbits chunk) x); [ring|].
    rewrite rem_bits_ev by (by apply below_lxor). rewrite ev_lxor.
    unfold cbits. cbn [map concat]. rewrite ev_app, bits_length.
    replace deg with (8 + (deg - 8))%nat at 2 by lia. rewrite ev_high by done. ring.
Qed.
End Rem.

(** *** Syndromes *)
Section Syn.
Context (o : gf_ops) (Ho : good_ops o).
Lemma syn_bits_spec x : x <> f0 -> forall n c y t, t <> f0 ->
  syn_bits o n c (fv x) (fv y, fv t) = (fv (y + t * ev (bits n c) x), fv (t * fpow x n)).
Proof.
  intros Hx. induction n as [|n IH]; intros c y t Ht; cbn [syn_bits bits ev fpow].
  - apply f_equal2; apply (f_equal fv); ring.
  - rewrite land1_test, (g_mul o Ho) by done.
    replace (if negb (Z.testbit c 0) then fv y else Z.lxor (fv y) (fv t)) with (fv (y + b2f (Z.testbit c 0) * t)).
    + rewrite IH by (by apply fmul_neq0). apply f_equal2; apply (f_equal fv); ring.
    + destruct (Z.testbit c 0); cbn [negb b2f].
      * transitivity (fv (y + t)); [apply (f_equal fv); ring|reflexivity].
      * apply (f_equal fv). ring.
Qed.
Lemma syn_chunk_spec x : x <> f0 -> forall chunk y t, t <> f0 ->
  syn_chunk o chunk (fv x) (fv y, fv t) = (fv (y + t * ev (cbits chunk) x), fv (t * fpow x (nbits chunk))).
Proof.
  intros Hx. induction chunk as [|c chunk IH]; intros y t Ht.
  - cbn [syn_chunk]. apply f_equal2; apply (f_equal fv); cbn; ring.
  - cbn [syn_chunk]. rewrite syn_bits_spec by done. rewrite IH by (apply fmul_neq0; [done|by apply fpow_neq0]).
    replace (nbits (c :: chunk)) with (8 + nbits chunk)%nat by (unfold nbits; cbn [length]; lia).
    unfold cbits. cbn [map concat]. rewrite ev_app, bits_length, fpow_add. apply f_equal2; apply (f_equal fv); ring.
Qed.
Definition word (deg : nat) (chunk : list Z) (r : Z) (x : F) : F :=
  ev (cbits chunk) x + fpow x (nbits chunk) * ev (bits deg r) x.
Lemma syndrome_spec def chunk r x : x <> f0 -> syndrome o def chunk r (fv x) = fv (word (d_degree def) chunk r x).
Proof.
  intros Hx. unfold syndrome. change (0, 1)%Z with (fv f0, fv f1). rewrite syn_chunk_spec by (done || apply f1_neq_f0).
  rewrite syn_bits_spec; [|done|apply fmul_neq0; [apply f1_neq_f0|by apply fpow_neq0]].
  cbn [fst]. apply (f_equal fv). unfold word. ring.
Qed.
Lemma syndromes_spec def chunk r k : forall i n, (n < k)%nat ->
  nth n (syndromes o def chunk r k (fv (fpow alpha (S i)))) 0%Z = fv (word (d_degree def) chunk r (fpow alpha (S (i + n)))).
Proof.
  induction k as [|k IH]; intros i n Hn; [lia|]. cbn [syndromes]. destruct n as [|n]; cbn [nth].
  - rewrite Nat.add_0_r. apply syndrome_spec. apply fpow_neq0, alpha_neq.
  - rewrite (g_mulx o Ho) by apply fpow_neq0, alpha_neq. change (alpha * fpow alpha (S i)) with (fpow alpha (S (S i))).
    rewrite IH by lia. do 3 f_equal. lia.
Qed.
End Syn.

(** *** Errors *)
Lemma flips_cons i is b : flips (i :: is) b = flip i (flips is b). Proof. done. Qed.
Lemma flips_app a b l : flips (a ++ b) l = flips a (flips b l).
Proof. unfold flips. apply foldr_app. Qed.
Lemma flips_nbits is b : nbits (flips is b) = nbits b.
Proof. unfold nbits. by rewrite flips_length. Qed.
Lemma cbits_flip x : forall chunk p, (p < nbits chunk)%nat ->
  ev (cbits (flip p chunk)) x = ev (cbits chunk) x + fpow x p.
Proof.
  induction chunk as [|c chunk IH]; intros p Hp; [unfold nbits in Hp; cbn in Hp; lia|].
  destruct (decide (p < 8)%nat) as [Hlt|Hge].
  - rewrite flip_cons_lt by done. unfold cbits. cbn [map concat]. rewrite !ev_app, !bits_length.
    rewrite lxor_swap, ev_lxor, ev_pow by done. ring.
  - replace p with (8 + (p - 8))%nat at 1 by lia. rewrite flip_cons_ge. unfold cbits. cbn [map concat].
    rewrite !ev_app, !bits_length. fold (cbits (flip (p - 8) chunk)) (cbits chunk).
    rewrite IH by (unfold nbits in *; cbn [length] in Hp; lia).
    replace p with (8 + (p - 8))%nat at 2 by lia. rewrite (fpow_add x 8). ring.
Qed.
Lemma cbits_flips x chunk is : Forall (fun p => (p < nbits chunk)%nat) is ->
  ev (cbits (flips is chunk)) x = ev (cbits chunk) x + fsum (fpow x) is.
Proof.
  induction 1 as [|p is Hp _ IH]; [cbn [flips foldr fsum]; ring|]. rewrite flips_cons, cbits_flip by (by rewrite flips_nbits).
  rewrite IH, fsum_cons. ring.
Qed.

Lemma unpack_below ecc : byte_list ecc -> (length ecc <= 8)%nat -> below (8 * length ecc) (unpack_bytes ecc) /\
  (forall e ecc', ecc = e :: ecc' -> unpack_bytes ecc = Z.lxor (Z.shiftl (unpack_bytes ecc') 8) (Z.lxor e 255)).
Proof.
  induction ecc as [|e ecc IH]; intros Hb Hl.
  - split; [split; cbn; lia|done].
  - apply Forall_cons in Hb as [H1 H2]. cbn [length] in Hl. destruct (IH H2 ltac:(lia)) as [Hu _]. clear IH.
    assert (He : below 8 (Z.lxor e 255)) by (apply lxor_byte; [done|unfold byte; lia]).
    assert (Hs : below (8 * length (e :: ecc)) (Z.shiftl (unpack_bytes ecc) 8)).
    { unfold below in *. rewrite Z.shiftl_mul_pow2 by lia. cbn [length].
      replace (Z.of_nat (8 * S (length ecc))) with (Z.of_nat (8 * length ecc) + 8)%Z by lia. rewrite Z.pow_add_r by lia. nia. }
    assert (Hs64 : t64 (Z.shiftl (unpack_bytes ecc) 8) = Z.shiftl (unpack_bytes ecc) 8).
    { unfold t64. rewrite Z.land_ones by lia. apply Z.mod_small. apply (below_le _ 64) in Hs; [exact Hs|cbn [length]; lia]. }
    assert (E : unpack_bytes (e :: ecc) = Z.lxor (Z.shiftl (unpack_bytes ecc) 8) (Z.lxor e 255)).
    { cbn [unpack_bytes]. rewrite Hs64. symmetry. apply Z.lxor_lor.
      apply Z.bits_inj'. intros k Hk. rewrite Z.land_spec, Z.bits_0.
      destruct (Z.lt_ge_cases k 8) as [Hlt|Hge].
      - rewrite Z.shiftl_spec_low by done. done.
      - rewrite (below_high 8 (Z.lxor e 255)) by done. apply andb_false_r. }
    split.
    + rewrite E. apply below_lxor; [done|]. apply (below_le 8); [cbn [length]; lia|done].
    + intros e' ecc' [= <- <-]. exact E.
Qed.
Lemma unpack_flip ecc : forall k, byte_list ecc -> (length ecc <= 8)%nat -> (k < nbits ecc)%nat ->
  unpack_bytes (flip k ecc) = Z.lxor (unpack_bytes ecc) (2 ^ Z.of_nat k).
Proof.
  induction ecc as [|e ecc IH]; intros k Hb Hl Hk; [unfold nbits in Hk; cbn in Hk; lia|].
  destruct (unpack_below (e :: ecc) Hb Hl) as [_ E]. rewrite (E e ecc eq_refl).
  assert (Hb' : byte_list (flip k (e :: ecc))) by (by apply flip_bytes).
  assert (Hl' : (length (flip k (e :: ecc)) <= 8)%nat) by (by rewrite flip_length).
  destruct (unpack_below _ Hb' Hl') as [_ E']. apply Forall_cons in Hb as [H1 H2]. cbn [length] in Hl.
  destruct (decide (k < 8)%nat) as [Hlt|Hge].
  - rewrite (E' _ _ (flip_cons_lt k e ecc Hlt)). rewrite (lxor_swap e (2 ^ Z.of_nat k) 255), <-Z.lxor_assoc. reflexivity.
  - assert (Ek : flip k (e :: ecc) = e :: flip (k - 8) ecc).
    { replace k with (8 + (k - 8))%nat at 1 by lia. apply flip_cons_ge. }
    rewrite (E' _ _ Ek). rewrite IH; [|done|lia|unfold nbits in *; cbn [length] in Hk; lia].
    rewrite Z.shiftl_lxor, lxor_swap. apply f_equal. rewrite Z.shiftl_mul_pow2, <-Z.pow_add_r by lia. f_equal. lia.
Qed.
Lemma mask_ones n : (Z.shiftl 1 (Z.of_nat n) - 1)%Z = Z.ones (Z.of_nat n).
Proof. rewrite Z.ones_equiv, Z.shiftl_1_l. lia. Qed.
Lemma land_ones_below n z : below n z -> Z.land z (Z.ones (Z.of_nat n)) = z.
Proof. intros H. rewrite Z.land_ones by lia. apply Z.mod_small. exact H. Qed.

Record good_def (t : nat) (def : bch_def) : Prop := {
  gd_syns : d_syns def = (2 * t)%nat;
  gd_t : (t <= 4)%nat;
  gd_gen : below (S (d_degree def)) (d_generator def);
  gd_odd : Z.testbit (d_generator def) 0 = true;
  gd_deg8 : (8 <= d_degree def)%nat;
  gd_deg52 : (d_degree def <= 52)%nat;
  gd_ecc : (d_degree def <= 8 * d_ecc_bytes def)%nat;
  gd_ecc8 : (d_ecc_bytes def <= 8)%nat;
  gd_roots : forall k, (1 <= k <= 2 * t)%nat -> ev (bits (S (d_degree def)) (d_generator def)) (fpow alpha k) = f0
}.

Lemma unpack_poly_flip t def ecc k : good_def t def -> byte_list ecc -> length ecc = d_ecc_bytes def -> (k < d_degree def)%nat ->
  unpack_poly def (flip k ecc) = Z.lxor (unpack_poly def ecc) (2 ^ Z.of_nat k).
Proof.
  intros [] Hb Hl Hk. unfold unpack_poly. rewrite !take_ge by (rewrite ?flip_length; lia).
  rewrite unpack_flip; [|done|lia|unfold nbits; lia]. rewrite mask_ones, land_lxor_l. apply f_equal.
  apply land_ones_below. split; [apply Z.pow_nonneg; lia|]. apply Z.pow_lt_mono_r; lia.
Qed.
Lemma unpack_poly_flips t def ecc ks x : good_def t def -> byte_list ecc -> length ecc = d_ecc_bytes def ->
  Forall (fun k => (k < d_degree def)%nat) ks ->
  ev (bits (d_degree def) (unpack_poly def (flips ks ecc))) x = ev (bits (d_degree def) (unpack_poly def ecc)) x + fsum (fpow x) ks.
Proof.
  intros Hd Hb Hl. induction 1 as [|k ks Hk _ IH]; [cbn [flips foldr fsum]; ring|].
  rewrite flips_cons, (unpack_poly_flip t) by (done || by apply flips_bytes || by rewrite flips_length).
  rewrite ev_lxor, ev_pow by done. rewrite IH, fsum_cons. ring.
Qed.
(** The bits of the last ECC byte beyond the degree are ignored. *)
Lemma unpack_poly_padding t def ecc k : good_def t def -> byte_list ecc -> length ecc = d_ecc_bytes def -> (d_degree def <= k)%nat ->
  unpack_poly def (flip k ecc) = unpack_poly def ecc.
Proof.
  intros [] Hb Hl Hk. destruct (decide (k < nbits ecc)%nat) as [Hlt|]; [|rewrite flip_out by lia; done].
  unfold unpack_poly. rewrite !take_ge by (rewrite ?flip_length; lia).
  rewrite unpack_flip; [|done|lia|done]. rewrite mask_ones, land_lxor_l.
  replace (Z.land (2 ^ Z.of_nat k) (Z.ones (Z.of_nat (d_degree def)))) with 0%Z; [apply Z.lxor_0_r|].
  symmetry. apply Z.bits_inj'. intros j Hj. rewrite Z.land_spec, Z.bits_0, Z.pow2_bits_eqb by lia.
  destruct (Z.eqb_spec (Z.of_nat k) j) as [<- |]; [|done]. rewrite Z.ones_spec_high by lia. apply andb_false_r.
Qed.

(** Every word that verifies is a zero of all syndromes. *)
Lemma verify_zero t def chunk ecc k : good_def t def -> byte_list chunk -> bch_verify def chunk ecc = 0%Z -> (1 <= k <= 2 * t)%nat ->
  word (d_degree def) chunk (unpack_poly def ecc) (fpow alpha k) = f0.
Proof.
  intros [] Hb Hv Hk. unfold bch_verify in Hv. destruct (Z.eqb_spec (chunk_remainder def chunk) (unpack_poly def ecc)) as [E|]; [|done].
  rewrite <-E. unfold word, chunk_remainder. rewrite remainder_ev; [|done|done|done|by apply gd_roots0|done|].
  - rewrite ev_0. transitivity (ev (cbits chunk) (fpow alpha k) + ev (cbits chunk) (fpow alpha k)); [ring|apply fadd_self].
  - split; [lia|]. apply Z.pow_pos_nonneg; lia.
Qed.

(** Positions in the code word: chunk bits first, then ECC bits. *)
Definition positions (chunk : list Z) (is ks : list nat) : list nat := is ++ map (Nat.add (nbits chunk)) ks.
Definition points (ps : list nat) : list F := map (fpow alpha) ps.

Lemma bch_verify_cases def chunk ecc : bch_verify def chunk ecc = 0%Z \/ bch_verify def chunk ecc = (-1)%Z.
Proof. unfold bch_verify. destruct (_ =? _)%Z; [by left|by right]. Qed.

Section Err.
Context (t : nat) (def : bch_def) (Hd : good_def t def) (chunk ecc : list Z) (is ks : list nat).
Context (Hcb : byte_list chunk) (Heb : byte_list ecc) (Hel : length ecc = d_ecc_bytes def).
Context (Hlen : (length chunk <= 1016)%nat).
Context (Hv : bch_verify def chunk ecc = 0%Z).
Context (Hisd : NoDup is) (His : Forall (fun p => (p < nbits chunk)%nat) is).
Context (Hksd : NoDup ks) (Hks : Forall (fun k => (k < d_degree def)%nat) ks).
Let ps := positions chunk is ks.
Let Xs := points ps.

Lemma ps_bound p : p ∈ ps -> (p < nbits chunk + d_degree def)%nat.
Proof.
  unfold ps, positions. rewrite elem_of_app, elem_of_list_fmap. rewrite Forall_forall in His, Hks.
  intros [H|(k & -> & H)]; [specialize (His p H); lia|specialize (Hks k H); lia].
Qed.
Lemma n_ORD : (nbits chunk + d_degree def < ORD)%nat.
Proof. pose proof ORD_val. destruct Hd. unfold nbits. lia. Qed.
Lemma ps_NoDup : NoDup ps.
Proof.
  unfold ps, positions. apply NoDup_app. split_and!; [done| |].
  - intros p Hp Hq. apply elem_of_list_fmap in Hq as (k & -> & _). rewrite Forall_forall in His. specialize (His _ Hp). lia.
  - apply NoDup_fmap_2; [|done]. intros a b. lia.
Qed.
Lemma Xs_in j : (j < nbits chunk + d_degree def)%nat -> (fpow alpha j ∈ Xs <-> j ∈ ps).
Proof.
  intros Hj. pose proof n_ORD. unfold Xs, points. rewrite elem_of_list_fmap. split.
  - intros (p & E & Hp). pose proof (ps_bound p Hp). apply alpha_inj in E; [by subst|lia|lia].
  - intros Hp. by exists j.
Qed.
Lemma Xs_NoDup : NoDup Xs.
Proof.
  unfold Xs, points. pose proof n_ORD as HO. pose proof ps_bound as Hb. pose proof ps_NoDup as Hnd.
  induction Hnd as [|p l Hp _ IH]; [constructor|]. cbn [map]. constructor.
  - intros Hin. apply elem_of_list_fmap in Hin as (q & E & Hq).
    pose proof (Hb p ltac:(apply elem_of_list_here)). pose proof (Hb q ltac:(by apply elem_of_list_further)).
    apply alpha_inj in E; [by subst|lia|lia].
  - apply IH. intros q Hq. apply Hb. by apply elem_of_list_further.
Qed.
Lemma Xs_neq0 X : X ∈ Xs -> X <> f0.
Proof. unfold Xs, points. intros H. apply elem_of_list_fmap in H as (p & -> & _). apply fpow_neq0, alpha_neq. Qed.
Lemma Xs_length : length Xs = (length is + length ks)%nat.
Proof. unfold Xs, points, ps, positions. by rewrite map_length, app_length, map_length. Qed.

(** Syndromes of the damaged word. *)
Lemma err_syndrome k : (1 <= k <= 2 * t)%nat ->
  word (d_degree def) (flips is chunk) (unpack_poly def (flips ks ecc)) (fpow alpha k) = fsum (fun X => fpow X k) Xs.
Proof.
  intros Hk. pose proof (verify_zero t def chunk ecc k Hd Hcb Hv Hk) as Hz. unfold word in *.
  set (x := fpow alpha k) in *.
  rewrite flips_nbits, cbits_flips, (unpack_poly_flips t) by done.
  transitivity (fsum (fpow x) is + fpow x (nbits chunk) * fsum (fpow x) ks +
    (ev (cbits chunk) x + fpow x (nbits chunk) * ev (bits (d_degree def) (unpack_poly def ecc)) x)); [ring|].
  rewrite Hz. unfold Xs, points, ps, positions. rewrite fsum_map, fsum_app, fsum_map.
  rewrite (fsum_ext (fun p => fpow (fpow alpha p) k) (fpow x) is).
  2:{ intros p _. unfold x. rewrite <-!fpow_mul. f_equal. lia. }
  rewrite (fsum_ext (fun p => fpow (fpow alpha (nbits chunk + p)) k) (fun p => fpow x (nbits chunk) * fpow x p) ks).
  2:{ intros p _. rewrite <-fpow_add. unfold x. rewrite <-!fpow_mul. f_equal. lia. }
  rewrite fsum_mul. ring.
Qed.

Lemma err_detected : (1 <= length is + length ks <= 2 * t)%nat -> bch_verify def (flips is chunk) (flips ks ecc) = (-1)%Z.
Proof.
  intros Hn. destruct (Z.eq_dec (bch_verify def (flips is chunk) (flips ks ecc)) 0) as [E|Hne].
  2:{ destruct (bch_verify_cases def (flips is chunk) (flips ks ecc)); [by destruct Hne|done]. }
  exfalso. assert (H0 : forall k, (1 <= k <= 2 * t)%nat -> fsum (fun X => fpow X k) Xs = f0).
  { intros k Hk. rewrite <-err_syndrome by done. apply (verify_zero t); [done|by apply flips_bytes|done|done]. }
  pose proof Xs_length as HL. assert (HX : exists X, X ∈ Xs).
  { destruct Xs as [|X l]; [cbn in HL; lia|]. exists X. apply elem_of_list_here. }
  destruct HX as [X HX]. apply (Xs_neq0 X HX).
  apply (vandermonde Xs (fun X => X) Xs_NoDup); [|done]. intros k Hk. rewrite <-(H0 (S k)) by lia. done.
Qed.

Context (o : gf_ops) (Ho : good_ops o).
Context (Hnt : (length is + length ks <= t)%nat).
Let sigma := berlekamp_massey o (syndromes o def (flips is chunk) (unpack_poly def (flips ks ecc)) (d_syns def) 2) (d_syns def).

Lemma sigma_root j : (j < nbits chunk + d_degree def)%nat ->
  (poly_eval o sigma (fv (fpow (finv alpha) j)) =? 0)%Z = bool_decide (j ∈ ps).
Proof.
  intros Hj. set (s := syndromes o def (flips is chunk) (unpack_poly def (flips ks ecc)) (d_syns def) 2).
  destruct (bm_result o Ho Xs (d_syns def) s Xs_NoDup Xs_neq0) as (f & Hf & Hr).
  - rewrite Xs_length. destruct Hd. lia.
  - intros n Hn. unfold s. replace 2%Z with (fv (fpow alpha 1)).
    + rewrite (syndromes_spec o Ho) by done. apply (f_equal fv). cbn [sq]. apply err_syndrome. destruct Hd. lia.
    + change 2%Z with (fv alpha). apply (f_equal fv). cbn [fpow]. ring.
  - fold sigma in Hf.
    assert (Hx : fpow (finv alpha) j <> f0) by (apply fpow_neq0, finv_neq0, alpha_neq).
    rewrite (poly_eval_spec o Ho sigma f) by done. rewrite fv_eqb0. apply bool_decide_ext.
    assert (Einv : finv (fpow (finv alpha) j) = fpow alpha j).
    { apply (inv_unique (fpow alpha j) (fpow (finv alpha) j)); [|by apply finv_r].
      rewrite <-fpow_mul_l, finv_r, fpow_1_l by apply alpha_neq. done. }
    rewrite <-Xs_in, <-Einv, <-Hr by done. split.
    + intros E. apply fmul_eq0 in E as [E|E]; done.
    + intros ->. ring.
Qed.
Lemma toggle_flip i b : byte_list b -> toggle i b = flip i b.
Proof.
  intros Hb. unfold toggle, flip.
  replace (Z.to_nat (Z.shiftr (Z.of_nat i) 3)) with (i / 8)%nat.
  - apply list_alter_ext; [|done]. intros x Hx. unfold t8. change 255%Z with (Z.ones 8). rewrite Z.land_ones by lia.
    change 7%Z with (Z.ones 3). rewrite Z.land_ones by lia. rewrite Z.shiftl_1_l. change (2 ^ 3)%Z with 8%Z.
    rewrite (Nat2Z.inj_mod i 8). change (Z.of_nat 8) with 8%Z. apply Z.mod_small.
    pose proof (pow_byte i) as Hp. rewrite (Nat2Z.inj_mod i 8) in Hp. apply lxor_byte; [|exact Hp].
    eapply Forall_lookup_1; [exact Hb|exact Hx].
  - rewrite Z.shiftr_div_pow2 by lia. change (2 ^ 3)%Z with (Z.of_nat 8). rewrite <-Nat2Z.inj_div. by rewrite Nat2Z.id.
Qed.
(** Bits flipped by a correction loop: buffer positions from [i] on, code word
    positions from [j] on. *)
Fixpoint hits (k i j : nat) : list nat :=
  match k with O => [] | S k => hits k (S i) (S j) ++ (if bool_decide (j ∈ ps) then [i] else []) end.
Lemma fix_loop_spec k : forall i j b, byte_list b -> (j + k <= nbits chunk + d_degree def)%nat ->
  fix_loop o sigma k i (fv (fpow (finv alpha) j)) b = (fv (fpow (finv alpha) (j + k)), flips (hits k i j) b).
Proof.
  induction k as [|k IH]; intros i j b Hb Hj; cbn [fix_loop hits].
  - by rewrite Nat.add_0_r.
  - rewrite (g_divx o Ho) by (apply fpow_neq0, finv_neq0, alpha_neq).
    change (finv alpha * fpow (finv alpha) j) with (fpow (finv alpha) (S j)).
    rewrite sigma_root by lia. rewrite toggle_flip by done. rewrite flips_app.
    rewrite IH; [|destruct (bool_decide (j ∈ ps)); [by apply flip_bytes|done]|lia].
    rewrite Nat.add_succ_comm. destruct (bool_decide (j ∈ ps)); reflexivity.
Qed.
Lemma hits_elem k : forall i j p, p ∈ hits k i j <-> (i <= p < i + k)%nat /\ (p - i + j)%nat ∈ ps.
Proof.
  induction k as [|k IH]; intros i j p; cbn [hits].
  - rewrite elem_of_nil. split; [done|lia].
  - rewrite elem_of_app, IH. destruct (decide (p = i)) as [-> |Hne].
    + replace (i - i + j)%nat with j by lia. destruct (decide (j ∈ ps)) as [Hin|Hn].
      * rewrite bool_decide_eq_true_2 by done. rewrite elem_of_list_singleton. split; [split; [lia|done]|by right].
      * rewrite bool_decide_eq_false_2 by done. rewrite elem_of_nil. split; [intros [[? _]|[]]; lia|tauto].
    + assert (Hf : p ∈ (if bool_decide (j ∈ ps) then [i] else []) -> False).
      { destruct (bool_decide _); [by rewrite elem_of_list_singleton|by rewrite elem_of_nil]. }
      split.
      * intros [[H1 H2]|H]; [|by apply Hf in H]. split; [lia|]. by replace (p - i + j)%nat with (p - S i + S j)%nat by lia.
      * intros [H1 H2]. left. split; [lia|]. by replace (p - S i + S j)%nat with (p - i + j)%nat by lia.
Qed.
Lemma hits_NoDup k : forall i j, NoDup (hits k i j).
Proof.
  induction k as [|k IH]; intros i j; cbn [hits]; [constructor|]. apply NoDup_app. split_and!; [done| |].
  - intros p Hp Hq. apply hits_elem in Hp as [Hp _]. destruct (bool_decide _); [apply elem_of_list_singleton in Hq; lia|by apply elem_of_nil in Hq].
  - destruct (bool_decide _); [apply NoDup_singleton|constructor].
Qed.
Lemma flips_perm a b l : a ≡ₚ b -> flips a l = flips b l.
Proof.
  induction 1 as [|x a b _ IH|x y a|a b d _ IH1 _ IH2]; [done| | |congruence]; rewrite !flips_cons.
  - by rewrite IH.
  - apply flip_comm.
Qed.
Lemma flip_flips i a l : flip i (flips a l) = flips a (flip i l).
Proof. induction a as [|x a IH]; [done|]. rewrite !flips_cons, flip_comm, IH. done. Qed.
Lemma flips_twice a l : flips a (flips a l) = l.
Proof. induction a as [|x a IH]; [done|]. rewrite !flips_cons, <-flip_flips, flip_flip. done. Qed.
Lemma err_repaired : bch_repair o def (flips is chunk) (flips ks ecc) = (chunk, ecc).
Proof.
  unfold bch_repair. fold sigma. change 1%Z with (fv (fpow (finv alpha) 0)).
  fold (nbits (flips is chunk)). rewrite flips_nbits.
  rewrite fix_loop_spec; [|by apply flips_bytes|lia]. cbn [Nat.add].
  rewrite fix_loop_spec; [|by apply flips_bytes|lia]. apply f_equal2.
  - rewrite (flips_perm _ is); [apply flips_twice|]. apply NoDup_Permutation; [apply hits_NoDup|done|].
    intros p. rewrite hits_elem. replace (p - 0 + 0)%nat with p by lia. unfold ps, positions.
    rewrite elem_of_app, elem_of_list_fmap. rewrite Forall_forall in His. split.
    + intros [Hp [H|(k & -> & _)]]; [done|lia].
    + intros H. split; [|by left]. specialize (His p H). lia.
  - rewrite (flips_perm _ ks); [apply flips_twice|]. apply NoDup_Permutation; [apply hits_NoDup|done|].
    intros p. rewrite hits_elem. replace (p - 0 + nbits chunk)%nat with (nbits chunk + p)%nat by lia. unfold ps, positions.
    rewrite elem_of_app, elem_of_list_fmap. rewrite Forall_forall in His, Hks. split.
    + intros [Hp [H|(k & E & H)]]; [specialize (His _ H); lia|]. by replace p with k by lia.
    + intros H. split; [specialize (Hks p H); lia|]. right. by exists p.
Qed.
End Err.

(** ** The theorems *)
(** The four codes with the number of errors they correct. *)
Definition codes : list (nat * bch_def) := [(1%nat, bch_1bit); (2%nat, bch_2bit); (3%nat, bch_3bit); (4%nat, bch_4bit)].

Definition zeros_ok (t : nat) (def : bch_def) : bool :=
  forallb (fun k => (fv (ev (bits (S (d_degree def)) (d_generator def)) (fpow alpha (S k))) =? 0)%Z) (seq 0 (2 * t)).
Lemma zeros_check : forallb (fun c => zeros_ok (fst c) (snd c)) codes = true.
Proof. by vm_compute. Qed.
Lemma codes_good t def : In (t, def) codes -> good_def t def.
Proof.
  intros H. pose proof zeros_check as C. rewrite forallb_forall in C. specialize (C _ H). cbn [fst snd] in C.
  assert (Hz : forall k, (1 <= k <= 2 * t)%nat -> ev (bits (S (d_degree def)) (d_generator def)) (fpow alpha k) = f0).
  { intros k Hk. unfold zeros_ok in C. rewrite forallb_forall in C. specialize (C (k - 1)%nat ltac:(apply in_seq; lia)).
    replace (S (k - 1)) with k in C by lia. apply Z.eqb_eq in C. apply F_eq. exact C. }
  clear C. destruct H as [E|[E|[E|[E|[]]]]]; apply pair_equal_spec in E as [<- <-];
    (constructor; [done|lia|split; [done|by vm_compute]|done|cbn; lia|cbn; lia|cbn; lia|cbn; lia|exact Hz]).
Qed.

(** C36: the generated ECC has the documented size and verifies (for a chunk of any length). *)
Theorem C36_generated_verifies t def chunk : In (t, def) codes -> byte_list chunk ->
  length (bch_generate def chunk) = d_ecc_bytes def /\ byte_list (bch_generate def chunk) /\
  bch_verify def chunk (bch_generate def chunk) = 0%Z.
Proof.
  intros Hc Hb. destruct (codes_good t def Hc). unfold bch_generate, pack_poly.
  assert (Hr : below (d_degree def) (chunk_remainder def chunk)).
  { apply chunk_remainder_below; [done|done|done|]. split; [lia|]. apply Z.pow_pos_nonneg; lia. }
  set (r := chunk_remainder def chunk) in *.
  assert (Hp : forall n p, length (pack_bytes n p) = n /\ byte_list (pack_bytes n p)).
  { induction n as [|n IH]; intros p; [split; [done|constructor]|]. cbn [pack_bytes length]. destruct (IH (Z.shiftr p 8)) as [-> H2].
    split; [done|]. constructor; [|done]. unfold t8, byte. change 255%Z with (Z.ones 8). rewrite Z.land_ones by lia.
    apply Z.mod_pos_bound. lia. }
  destruct (Hp (d_ecc_bytes def) r) as [Hl Hbb]. split_and!; [done|done|].
  assert (Hu : forall n p, (n <= 8)%nat -> unpack_bytes (pack_bytes n p) = Z.land p (Z.ones (Z.of_nat (8 * n)))).
  { induction n as [|n IH]; intros p Hn; [cbn [pack_bytes unpack_bytes]; by rewrite Z.land_0_r|].
    destruct (Hp (S n) p) as [Hl' Hb']. destruct (unpack_below (pack_bytes (S n) p) Hb' ltac:(lia)) as [_ E].
    rewrite (E _ _ eq_refl), IH by lia. apply Z.bits_inj'. intros k Hk.
    unfold t8. change 255%Z with (Z.ones 8).
    rewrite !Z.lxor_spec, !Z.land_spec. rewrite Z.lnot_spec by lia.
    destruct (Z.lt_ge_cases k 8) as [Hlt|Hge].
    - rewrite Z.shiftl_spec_low by done. rewrite !Z.ones_spec_low by lia. by destruct (Z.testbit p k).
    - rewrite Z.shiftl_spec by lia. rewrite Z.land_spec, Z.shiftr_spec by lia.
      rewrite (Z.ones_spec_high 8 k) by lia. replace (k - 8 + 8)%Z with k by lia.
      destruct (Z.lt_ge_cases k (Z.of_nat (8 * S n))).
      + rewrite !Z.ones_spec_low by lia. by destruct (Z.testbit p k).
      + rewrite !Z.ones_spec_high by lia. by destruct (Z.testbit p k). }
  unfold bch_verify. fold r. rewrite (proj2 (Z.eqb_eq _ _)); [done|]. unfold unpack_poly.
  rewrite take_ge by lia. rewrite Hu by done. rewrite mask_ones.
  rewrite (land_ones_below (8 * d_ecc_bytes def)) by (by apply (below_le (d_degree def))).
  symmetry. by apply land_ones_below.
Qed.

(** C36: from one to 2t flipped bits of a chunk and its ECC are always detected.
    [chunk] and [ecc] are any pair that verifies (in particular a generated
    one), [is] the flipped chunk bits and [ks] the flipped ECC bits. *)
Theorem C36_errors_detected t def chunk ecc is ks : In (t, def) codes ->
  byte_list chunk -> (length chunk <= 1016)%nat -> byte_list ecc -> length ecc = d_ecc_bytes def ->
  bch_verify def chunk ecc = 0%Z ->
  NoDup is -> Forall (fun p => (p < nbits chunk)%nat) is ->
  NoDup ks -> Forall (fun k => (k < d_degree def)%nat) ks ->
  (1 <= length is + length ks <= 2 * t)%nat ->
  bch_verify def (flips is chunk) (flips ks ecc) = (-1)%Z.
Proof. intros Hc Hb Hl He Hel Hv Hd1 Hf1 Hd2 Hf2 Hn. by apply (err_detected t def (codes_good t def Hc)). Qed.

(** The ECC bits beyond the code's degree carry nothing: flipping them is
    neither detected nor of consequence. *)
Theorem C36_padding_ignored t def chunk ecc k : In (t, def) codes ->
  byte_list ecc -> length ecc = d_ecc_bytes def -> (d_degree def <= k)%nat ->
  bch_verify def chunk (flip k ecc) = bch_verify def chunk ecc.
Proof.
  intros Hc He Hel Hk. unfold bch_verify. by rewrite (unpack_poly_padding t def ecc k (codes_good t def Hc)).
Qed.

(** C37: up to t flipped bits of a chunk and its ECC are repaired, in both builds
    of the field arithmetic. *)
Theorem C37_errors_repaired o t def chunk ecc is ks : o = gf_tables \/ o = gf_no_tables -> In (t, def) codes ->
  byte_list chunk -> (length chunk <= 1016)%nat -> byte_list ecc -> length ecc = d_ecc_bytes def ->
  bch_verify def chunk ecc = 0%Z ->
  NoDup is -> Forall (fun p => (p < nbits chunk)%nat) is ->
  NoDup ks -> Forall (fun k => (k < d_degree def)%nat) ks ->
  (length is + length ks <= t)%nat ->
  bch_repair o def (flips is chunk) (flips ks ecc) = (chunk, ecc).
Proof.
  intros Ho Hc Hb Hl He Hel Hv Hd1 Hf1 Hd2 Hf2 Hn. apply (err_repaired t def (codes_good t def Hc)); try done.
  destruct Ho as [-> | ->]; [apply tables_good|apply no_tables_good].
Qed.

(** C32 (BCH): an erased chunk of any length with erased ECC bytes verifies. *)
Theorem C32_bch_erased t def n : In (t, def) codes ->
  bch_verify def (replicate n 255%Z) (replicate (d_ecc_bytes def) 255%Z) = 0%Z.
Proof.
  intros Hc.
  assert (Hr : chunk_remainder def (replicate n 255%Z) = 0%Z).
  { unfold chunk_remainder. induction n as [|n IH]; [done|]. cbn [replicate chunk_remainder_from]. exact IH. }
  assert (Hu : unpack_poly def (replicate (d_ecc_bytes def) 255%Z) = 0%Z).
  { unfold unpack_poly. rewrite take_ge by (by rewrite replicate_length).
    replace (unpack_bytes (replicate (d_ecc_bytes def) 255%Z)) with 0%Z; [apply Z.land_0_l|].
    induction (d_ecc_bytes def) as [|k IH]; [done|]. cbn [replicate unpack_bytes]. rewrite <-IH. done. }
  unfold bch_verify. by rewrite Hr, Hu.
Qed.

(** Concrete instances: the four codes on a three-byte chunk with t errors. *)
Example ex_C36 : bch_verify bch_2bit (flips [3; 20]%nat [1; 2; 3]%Z) (flips [0; 25]%nat (bch_generate bch_2bit [1; 2; 3]%Z)) = (-1)%Z.
Proof. by vm_compute. Qed.
Example ex_C37 : bch_repair gf_tables bch_4bit (flips [3; 20; 21]%nat [1; 2; 3]%Z) (flips [51]%nat (bch_generate bch_4bit [1; 2; 3]%Z)) =
  ([1; 2; 3]%Z, bch_generate bch_4bit [1; 2; 3]%Z).
Proof. by vm_compute. Qed.
