(** Counting the elements of an interval, and the potential used for the space
    argument of Space.v.  Pure arithmetic: nothing here models code. *)
From stdpp Require Import gmap fin_maps.
From Verif Require Import Base.
Local Open Scope Z_scope.

Fixpoint cntn (f : Z -> bool) (a : Z) (n : nat) : Z :=
  match n with
  | O => 0
  | S n => (if f a then 1 else 0) + cntn f (a + 1) n
  end.
(** Number of [v] with [a <= v < b] and [f v]. *)
Definition cnt (f : Z -> bool) (a b : Z) : Z := cntn f a (Z.to_nat (b - a)).

Lemma cnt_empty f a b : b <= a -> cnt f a b = 0.
Proof. intros. unfold cnt. by replace (Z.to_nat (b - a)) with O by lia. Qed.
Lemma cnt_step f a b : a < b -> cnt f a b = (if f a then 1 else 0) + cnt f (a + 1) b.
Proof.
  intros. unfold cnt. replace (Z.to_nat (b - a)) with (S (Z.to_nat (b - (a + 1)))) by lia. done.
Qed.
Lemma cnt_ind (P : Z -> Prop) b : (forall a, b <= a -> P a) -> (forall a, a < b -> P (a + 1) -> P a) -> forall a, P a.
Proof.
  intros H0 H1 a. remember (Z.to_nat (b - a)) as n eqn:E. revert a E. induction n as [|n IH]; intros a E.
  - apply H0. lia.
  - apply H1; [lia|]. apply IH. lia.
Qed.
Lemma cnt_nonneg f a b : 0 <= cnt f a b.
Proof. revert a. refine (cnt_ind _ b _ _); intros a H; [rewrite cnt_empty; lia|intros IH]. rewrite cnt_step by lia. destruct (f a); lia. Qed.
Lemma cnt_bound f a b : a <= b -> cnt f a b <= b - a.
Proof. revert a. refine (cnt_ind _ b _ _); intros a H; [intros; rewrite cnt_empty; lia|intros IH Hle]. rewrite cnt_step by lia. destruct (f a); lia. Qed.
Lemma cnt_split f a m b : a <= m <= b -> cnt f a b = cnt f a m + cnt f m b.
Proof.
  revert a. refine (cnt_ind _ m _ _); intros a H.
  - intros. replace a with m by lia. rewrite (cnt_empty f m m) by lia. lia.
  - intros IH Hm. rewrite (cnt_step f a b), (cnt_step f a m), IH by lia. lia.
Qed.
Lemma cnt_one f a : cnt f a (a + 1) = if f a then 1 else 0.
Proof. rewrite cnt_step, cnt_empty by lia. lia. Qed.
Lemma cnt_le f f' a b : (forall v, a <= v < b -> f v = true -> f' v = true) -> cnt f a b <= cnt f' a b.
Proof.
  revert a. refine (cnt_ind _ b _ _); intros a H; [intros; rewrite !cnt_empty; lia|intros IH Hf].
  rewrite !(cnt_step _ a b) by lia. assert (Hh : cnt f (a + 1) b <= cnt f' (a + 1) b) by (apply IH; intros; apply Hf; [lia|done]).
  specialize (Hf a ltac:(lia)). destruct (f a), (f' a); try lia.
Qed.
Lemma cnt_ext f f' a b : (forall v, a <= v < b -> f v = f' v) -> cnt f a b = cnt f' a b.
Proof. intros H. apply Z.le_antisymm; apply cnt_le; intros v Hv; rewrite H by done; done. Qed.
Lemma cnt_zero f a b : (forall v, a <= v < b -> f v = false) -> cnt f a b = 0.
Proof.
  intros H. rewrite (cnt_ext f (fun _ => false)) by done. clear H. revert a. refine (cnt_ind _ b _ _); intros a H.
  - by rewrite cnt_empty.
  - intros IH. rewrite cnt_step by lia. lia.
Qed.
Lemma cnt_sub f a b a' b' : a' <= a -> b <= b' -> cnt f a b <= cnt f a' b'.
Proof.
  intros H1 H2. destruct (Z.le_gt_cases b a) as [H|H]; [rewrite cnt_empty by lia; apply cnt_nonneg|].
  rewrite (cnt_split f a' a b') by lia. rewrite (cnt_split f a b b') by lia.
  pose proof (cnt_nonneg f a' a). pose proof (cnt_nonneg f b b'). lia.
Qed.
Lemma cnt_shift f a b k : cnt (fun v => f (v + k)) a b = cnt f (a + k) (b + k).
Proof.
  revert a. refine (cnt_ind _ b _ _); intros a H; [rewrite !cnt_empty; lia|intros IH].
  rewrite (cnt_step _ a b), (cnt_step _ (a + k)) by lia. rewrite IH. by replace (a + k + 1) with (a + 1 + k) by lia.
Qed.
Lemma cnt_neg f a b : a <= b -> cnt (fun v => negb (f v)) a b = b - a - cnt f a b.
Proof.
  revert a. refine (cnt_ind _ b _ _); intros a H; [intros; rewrite !cnt_empty; lia|intros IH Hle].
  rewrite !(cnt_step _ a b), IH by lia. destruct (f a); cbn; lia.
Qed.

(** A window of a periodic predicate. *)
Lemma cnt_period f n a : 0 < n -> cnt (fun v => f (v mod n)) a (a + n) = cnt f 0 n.
Proof.
  intros Hn. set (h := fun v => f (v mod n)).
  assert (Hs : forall a, cnt h a (a + n) = cnt h (a + 1) (a + 1 + n)).
  { intros x. rewrite (cnt_step h x) by lia. rewrite (cnt_split h (x + 1) (x + n) (x + 1 + n)) by lia.
    replace (x + 1 + n) with (x + n + 1) by lia. rewrite cnt_one.
    assert (h (x + n) = h x) as ->; [|lia]. unfold h. f_equal. replace (x + n) with (x + 1 * n) by lia. apply Z.mod_add. lia. }
  assert (Hk : forall k : nat, cnt h (Z.of_nat k) (Z.of_nat k + n) = cnt h 0 (0 + n) /\ cnt h (- Z.of_nat k) (- Z.of_nat k + n) = cnt h 0 (0 + n)).
  { induction k as [|k [IH1 IH2]]; [done|]. split.
    - rewrite <-IH1. replace (Z.of_nat (S k)) with (Z.of_nat k + 1) by lia. symmetry. apply Hs.
    - rewrite <-IH2. rewrite (Hs (- Z.of_nat (S k))). replace (- Z.of_nat (S k) + 1) with (- Z.of_nat k) by lia. done. }
  assert (E : cnt h a (a + n) = cnt h 0 (0 + n)).
  { destruct (Z.le_gt_cases 0 a).
    - destruct (Hk (Z.to_nat a)) as [E _]. by rewrite Z2Nat.id in E by lia.
    - destruct (Hk (Z.to_nat (- a))) as [_ E]. rewrite Z2Nat.id in E by lia. by replace (- - a) with a in E by lia. }
  rewrite E, Z.add_0_l. apply cnt_ext. intros v Hv. unfold h. by rewrite Z.mod_small by lia.
Qed.
Lemma cnt_window f n a b : 0 < n -> b - a <= n -> cnt (fun v => f (v mod n)) a b <= cnt f 0 n.
Proof. intros Hn H. rewrite <-(cnt_period f n a) by done. apply cnt_sub; lia. Qed.

(** Counting blocks. *)
Lemma cnt_blocks f (bad : Z -> bool) PB u : 0 < PB ->
  (forall b, cnt f (b * PB) ((b + 1) * PB) = u) ->
  forall a b, a <= b -> cnt (fun v => f v && negb (bad (v / PB))) (a * PB) (b * PB) = (b - a - cnt bad a b) * u.
Proof.
  intros HP Hu a b. revert a. refine (cnt_ind _ b _ _); intros a H.
  { intros. replace a with b by lia. rewrite !cnt_empty by lia. lia. }
  intros IH _. rewrite (cnt_split _ (a * PB) ((a + 1) * PB)) by nia. rewrite IH, (cnt_step bad a b) by lia.
  assert (Hb : forall v, a * PB <= v < (a + 1) * PB -> v / PB = a).
  { intros v Hv. symmetry. apply (Z.div_unique_pos v PB a (v - a * PB)); lia. }
  destruct (bad a) eqn:Eb.
  - rewrite cnt_zero; [lia|]. intros v Hv. rewrite (Hb v Hv), Eb. cbn. apply andb_false_r.
  - rewrite (cnt_ext _ f); [rewrite Hu; lia|]. intros v Hv. rewrite (Hb v Hv), Eb. cbn. apply andb_true_r.
Qed.

(** Elements that name different keys of a finite map. *)
Lemma cnt_inj {A} f a b (h : Z -> Z) (S : gmap Z A) :
  (forall v, a <= v < b -> f v = true -> is_Some (S !! h v)) ->
  (forall v w, a <= v < b -> a <= w < b -> f v = true -> f w = true -> h v = h w -> v = w) ->
  cnt f a b <= Z.of_nat (size S).
Proof.
  revert a S. intros a. revert a. refine (cnt_ind (fun a => forall S : gmap Z A, _ -> _ -> cnt f a b <= Z.of_nat (size S)) b _ _).
  { intros a H S _ _. rewrite cnt_empty by lia. lia. }
  intros a H IH S Hs Hi. rewrite cnt_step by lia. destruct (f a) eqn:Ef.
  - destruct (Hs a ltac:(lia) Ef) as [x Hx]. rewrite <-(insert_delete S (h a) x Hx).
    rewrite map_size_insert_None by apply lookup_delete.
    assert (cnt f (a + 1) b <= Z.of_nat (size (delete (h a) S))); [|lia]. apply IH.
    + intros v Hv Hf. rewrite lookup_delete_ne; [apply Hs; [lia|done]|]. intros E.
      assert (a = v) by (apply Hi; auto; lia). lia.
    + intros v w Hv Hw. apply Hi; lia.
  - assert (cnt f (a + 1) b <= Z.of_nat (size S)); [|lia]. apply IH.
    + intros v Hv. apply Hs. lia.
    + intros v w Hv Hw. apply Hi; lia.
Qed.

(** ** The potential

    [gd v]: position [v] holds a page; [lf v]: it is the current page of a
    sector.  Collecting the journal up to [w] takes [cnt gd tv w] steps and
    leaves [cnt gd w hv + cnt lf tv w] pages. *)
Definition val (R : Z) (gd lf : Z -> bool) (tv hv w : Z) : Z :=
  R * (cnt gd w hv + cnt lf tv w) + cnt gd tv w.
(** [pot]: at least one page is collected. *)
Definition pot (R : Z) (gd lf : Z -> bool) (tv hv y : Z) : Prop :=
  forall w, tv <= w <= hv -> 1 <= cnt gd tv w -> val R gd lf tv hv w <= y.

Lemma cnt_first f a b : 1 <= cnt f a b -> exists w, a < w <= b /\ cnt f a w = 1.
Proof.
  revert a. refine (cnt_ind _ b _ _); intros a H; [rewrite cnt_empty; lia|intros IH H1].
  destruct (f a) eqn:E.
  - exists (a + 1). rewrite cnt_one, E. lia.
  - rewrite cnt_step, E in H1 by lia. destruct IH as (w & Hw & Ew); [lia|]. exists w. split; [lia|].
    rewrite cnt_step, E by lia. lia.
Qed.

Section pot.
Context (R : Z) (HR : 2 <= R).

Lemma pot_mono gd lf tv hv y y' : y <= y' -> pot R gd lf tv hv y -> pot R gd lf tv hv y'.
Proof. intros Hy H w Hw Hc. specialize (H w Hw Hc). lia. Qed.
Lemma pot_N gd lf tv hv y : 0 <= y -> pot R gd lf tv hv y -> R * cnt gd tv hv <= y + R - 1.
Proof.
  intros Hy H. pose proof (cnt_nonneg gd tv hv). destruct (Z.eq_dec (cnt gd tv hv) 0) as [->|Hne]; [lia|].
  destruct (cnt_first gd tv hv ltac:(lia)) as (w & Hw & Ew). specialize (H w ltac:(lia) ltac:(lia)). unfold val in H.
  rewrite (cnt_split gd tv w hv) by lia. pose proof (cnt_nonneg lf tv w). nia.
Qed.
(** Moving the tail forward. *)
Lemma pot_tail gd lf tv tv' hv y : tv <= tv' <= hv -> pot R gd lf tv hv y -> pot R gd lf tv' hv y.
Proof.
  intros Ht H w Hw Hc. pose proof (cnt_sub gd tv' w tv w ltac:(lia) ltac:(lia)). specialize (H w ltac:(lia) ltac:(lia)). unfold val in *.
  pose proof (cnt_sub lf tv' w tv w ltac:(lia) ltac:(lia)). nia.
Qed.
Lemma pot_lf gd lf lf' tv hv y : (forall v, tv <= v < hv -> lf' v = true -> lf v = true) ->
  pot R gd lf tv hv y -> pot R gd lf' tv hv y.
Proof.
  intros Hl H w Hw Hc. specialize (H w Hw Hc). unfold val in *.
  pose proof (cnt_le lf' lf tv w ltac:(intros; apply Hl; auto; lia)). nia.
Qed.
(** Dequeuing a page. *)
Lemma pot_deq gd lf tv tv' hv y : tv <= tv' <= hv -> cnt gd tv tv' = 1 ->
  pot R gd lf tv hv y -> pot R gd lf tv' hv (y - 1).
Proof.
  intros Ht Hg H w Hw Hc. pose proof (cnt_sub gd tv' w tv w ltac:(lia) ltac:(lia)). specialize (H w ltac:(lia) ltac:(lia)). unfold val in *.
  pose proof (cnt_sub lf tv' w tv w ltac:(lia) ltac:(lia)). rewrite (cnt_split gd tv tv' w) in H by lia. nia.
Qed.
(** Few pages. *)
Lemma pot_few gd lf tv hv : tv <= hv -> (forall v, tv <= v < hv -> lf v = true -> gd v = true) ->
  pot R gd lf tv hv ((R + 1) * cnt gd tv hv).
Proof.
  intros Hle Hlg w Hw _. unfold val. pose proof (cnt_le lf gd tv w ltac:(intros; apply Hlg; auto; lia)).
  rewrite (cnt_split gd tv w hv) by lia. pose proof (cnt_nonneg gd w hv). nia.
Qed.

(** Appending a page. *)
Record grow (gd lf gd' lf' : Z -> bool) (tv hv hv' : Z) : Prop := {
  gr_le : tv <= hv <= hv';
  gr_gd : forall v, v < hv -> gd' v = gd v;
  gr_new : cnt gd' hv hv' = 1;
  gr_lf : forall v, tv <= v < hv -> lf' v = true -> lf v = true;
  gr_sub : forall v, tv <= v < hv' -> lf' v = true -> gd' v = true
}.
Lemma grow_N gd lf gd' lf' tv hv hv' a : grow gd lf gd' lf' tv hv hv' -> a <= hv -> cnt gd' a hv' = cnt gd a hv + 1.
Proof. intros [] Ha. rewrite (cnt_split gd' a hv hv'), gr_new0 by lia. rewrite (cnt_ext gd' gd); [done|]. intros. apply gr_gd0. lia. Qed.
Lemma grow_late gd lf gd' lf' tv hv hv' w : grow gd lf gd' lf' tv hv hv' -> hv < w <= hv' ->
  cnt gd' w hv' + cnt lf' tv w <= cnt lf' tv hv + 1 /\ cnt gd' tv w <= cnt gd tv hv + 1.
Proof.
  intros H Hw. pose proof (grow_N _ _ _ _ _ _ _ tv H ltac:(apply H)) as HN. destruct H as [Hle Hgd Hnew Hlf Hsub].
  rewrite (cnt_split lf' tv hv w) by lia.
  pose proof (cnt_le lf' gd' hv w ltac:(intros; apply Hsub; auto; lia)).
  rewrite (cnt_split gd' hv w hv') in Hnew by lia.
  rewrite (cnt_split gd' tv w hv') in HN by lia. pose proof (cnt_nonneg gd' w hv'). lia.
Qed.
Lemma pot_app gd lf gd' lf' tv hv hv' y : grow gd lf gd' lf' tv hv hv' -> pot R gd lf tv hv y ->
  pot R gd' lf' tv hv' (Z.max (y + R) (R * (cnt lf tv hv + 1) + cnt gd tv hv + 1)).
Proof.
  intros H HP w Hw Hc1. pose proof H as [Hle Hgd Hnew Hlf Hsub]. unfold val.
  destruct (Z.le_gt_cases w hv) as [Hc|Hc].
  - rewrite (cnt_ext gd' gd tv w) in Hc1 by (intros; apply Hgd; lia).
    specialize (HP w ltac:(lia) Hc1). unfold val in HP. rewrite (grow_N _ _ _ _ _ _ _ w H) by lia.
    pose proof (cnt_le lf' lf tv w ltac:(intros; apply Hlf; auto; lia)).
    rewrite (cnt_ext gd' gd tv w) by (intros; apply Hgd; lia). nia.
  - destruct (grow_late _ _ _ _ _ _ _ w H ltac:(lia)) as [H1 H2].
    pose proof (cnt_le lf' lf tv hv Hlf). nia.
Qed.
(** Copying the tail page to the head and dequeuing it. *)
Lemma pot_reloc gd lf gd' lf' tv tv' hv hv' y : grow gd lf gd' lf' tv hv hv' -> tv < tv' <= hv ->
  cnt gd tv tv' = 1 -> lf tv = true -> lf' tv = false -> pot R gd lf tv hv y ->
  pot R gd' lf' tv' hv' (Z.max (y - 1) (R * cnt lf tv hv + cnt gd' tv' hv')).
Proof.
  intros H Ht Hg1 Hl1 Hl2 HP w Hw Hc1. pose proof H as [Hle Hgd Hnew Hlf Hsub]. unfold val.
  assert (HL : forall w, tv' <= w <= hv -> cnt lf' tv' w <= cnt lf tv w - 1).
  { intros x Hx. pose proof (cnt_le lf' lf tv' x ltac:(intros; apply Hlf; auto; lia)).
    rewrite (cnt_split lf tv tv' x), (cnt_step lf tv tv'), Hl1 by lia. pose proof (cnt_nonneg lf (tv + 1) tv'). lia. }
  assert (HN : cnt gd' tv' hv' = cnt gd tv hv).
  { rewrite (grow_N _ _ _ _ _ _ _ tv' H), (cnt_split gd tv tv' hv) by lia. lia. }
  destruct (Z.le_gt_cases w hv) as [Hc|Hc].
  - assert (Hc2 : 1 <= cnt gd tv w) by (pose proof (cnt_sub gd tv tv' tv w ltac:(lia) ltac:(lia)); lia).
    specialize (HP w ltac:(lia) Hc2). unfold val in HP. rewrite (grow_N _ _ _ _ _ _ _ w H) by lia.
    specialize (HL w ltac:(lia)). rewrite (cnt_ext gd' gd tv' w) by (intros; apply Hgd; lia).
    rewrite (cnt_split gd tv tv' w) in HP by lia. nia.
  - specialize (HL hv ltac:(lia)).
    rewrite (cnt_split lf' tv' hv w) by lia.
    pose proof (cnt_le lf' gd' hv w ltac:(intros; apply Hsub; auto; lia)).
    assert (cnt gd' tv' w <= cnt gd' tv' hv') by (apply cnt_sub; lia).
    rewrite (cnt_split gd' hv w hv') in Hnew by lia. nia.
Qed.
(** Copying the tail page to the head without dequeuing it. *)
Lemma pot_copy gd lf gd' lf' tv hv hv' y : grow gd lf gd' lf' tv hv hv' -> tv < hv ->
  lf tv = true -> lf' tv = false -> pot R gd lf tv hv y ->
  pot R gd' lf' tv hv' (Z.max y (R * cnt lf tv hv + cnt gd tv hv + 1)).
Proof.
  intros H Ht Hl1 Hl2 HP w Hw Hc1. pose proof H as [Hle Hgd Hnew Hlf Hsub]. unfold val.
  assert (HL : forall x, tv < x <= hv -> cnt lf' tv x <= cnt lf tv x - 1).
  { intros x Hx. rewrite (cnt_step lf tv x), (cnt_step lf' tv x), Hl1, Hl2 by lia.
    pose proof (cnt_le lf' lf (tv + 1) x ltac:(intros; apply Hlf; auto; lia)). lia. }
  assert (Htw : tv < w). { destruct (Z.eq_dec tv w) as [->|]; [|lia]. rewrite cnt_empty in Hc1; lia. }
  destruct (Z.le_gt_cases w hv) as [Hc|Hc].
  - rewrite (cnt_ext gd' gd tv w) in Hc1 |- * by (intros; apply Hgd; lia).
    specialize (HP w ltac:(lia) Hc1). unfold val in HP. rewrite (grow_N _ _ _ _ _ _ _ w H) by lia.
    specialize (HL w ltac:(lia)). nia.
  - destruct (grow_late _ _ _ _ _ _ _ w H ltac:(lia)) as [G1 G2]. specialize (HL hv ltac:(lia)). nia.
Qed.
End pot.
