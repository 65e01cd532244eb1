(** Polynomial facts over GF(2^13) used by the BCH proofs. *)
From stdpp Require Import list.
From Coq Require Import ZArith Lia.
From Verif Require Import EccBits Gf13.
Local Open Scope F_scope.

(** Sums over lists and over initial segments. *)
Definition fsum {A} (f : A -> F) (l : list A) : F := foldr (fun x r => f x + r) f0 l.
Fixpoint sumn (n : nat) (f : nat -> F) : F := match n with O => f0 | S n => sumn n f + f n end.
Lemma fsum_cons {A} (f : A -> F) x l : fsum f (x :: l) = f x + fsum f l. Proof. done. Qed.
Lemma fsum_app {A} (f : A -> F) a b : fsum f (a ++ b) = fsum f a + fsum f b.
Proof. induction a as [|x a IH]; cbn [app fsum foldr]; [change (foldr _ _ b) with (fsum f b); ring|]. fold (fsum f (a ++ b)) (fsum f a). rewrite IH. ring. Qed.
Lemma fsum_add {A} (f g : A -> F) l : fsum (fun x => f x + g x) l = fsum f l + fsum g l.
Proof. induction l as [|x l IH]; [unfold fsum; cbn [foldr]; ring|]. rewrite !fsum_cons, IH. ring. Qed.
Lemma fsum_mul {A} (f : A -> F) c l : fsum (fun x => c * f x) l = c * fsum f l.
Proof. induction l as [|x l IH]; [unfold fsum; cbn [foldr]; ring|]. rewrite !fsum_cons, IH. ring. Qed.
Lemma fsum_ext {A} (f g : A -> F) l : (forall x, x ∈ l -> f x = g x) -> fsum f l = fsum g l.
Proof.
  induction l as [|x l IH]; intros H; [done|]. rewrite !fsum_cons, IH, H; [done|apply elem_of_list_here|].
  intros y Hy. apply H. by apply elem_of_list_further.
Qed.
Lemma fsum_0 {A} (f : A -> F) l : (forall x, x ∈ l -> f x = f0) -> fsum f l = f0.
Proof.
  intros H. rewrite (fsum_ext f (fun _ => f0)) by done. clear H. induction l as [|x l IH]; [done|]. rewrite fsum_cons, IH. ring.
Qed.
Lemma fsum_map {A B} (h : A -> B) (f : B -> F) l : fsum f (map h l) = fsum (fun x => f (h x)) l.
Proof. induction l as [|x l IH]; [done|]. cbn [map]. by rewrite !fsum_cons, IH. Qed.
Lemma sumn_ext n f g : (forall i, (i < n)%nat -> f i = g i) -> sumn n f = sumn n g.
Proof. induction n as [|n IH]; intros H; [done|]. cbn [sumn]. rewrite IH, H; [done|lia|]. intros; apply H; lia. Qed.
Lemma sumn_0 n f : (forall i, (i < n)%nat -> f i = f0) -> sumn n f = f0.
Proof. induction n as [|n IH]; intros H; [done|]. cbn [sumn]. rewrite IH, H; [ring|lia|]. intros; apply H; lia. Qed.
Lemma sumn_add n f g : sumn n (fun i => f i + g i) = sumn n f + sumn n g.
Proof. induction n as [|n IH]; cbn [sumn]; [ring|]. rewrite IH. ring. Qed.
Lemma sumn_mul n f c : sumn n (fun i => c * f i) = c * sumn n f.
Proof. induction n as [|n IH]; cbn [sumn]; [ring|]. rewrite IH. ring. Qed.
Lemma sumn_fsum {A} n (f : nat -> A -> F) l : sumn n (fun i => fsum (f i) l) = fsum (fun x => sumn n (fun i => f i x)) l.
Proof.
  induction n as [|n IH]; cbn [sumn]; [symmetry; by apply fsum_0|]. rewrite IH, fsum_add. done.
Qed.
Lemma sumn_split m k f : sumn (m + k) f = sumn m f + sumn k (fun i => f (m + i)%nat).
Proof.
  induction k as [|k IH]; [rewrite Nat.add_0_r; cbn [sumn]; ring|]. rewrite Nat.add_succ_r. cbn [sumn]. rewrite IH. ring.
Qed.
Lemma sumn_S_l n f : sumn (Datatypes.S n) f = f 0%nat + sumn n (fun i => f (Datatypes.S i)).
Proof. change (Datatypes.S n) with (1 + n)%nat. rewrite sumn_split. cbn [sumn Nat.add]. ring. Qed.
Lemma sumn_long m n f : (m <= n)%nat -> (forall i, (m <= i < n)%nat -> f i = f0) -> sumn n f = sumn m f.
Proof.
  intros Hm H. replace n with (m + (n - m))%nat by lia. rewrite sumn_split.
  rewrite (sumn_0 (n - m)); [ring|]. intros i Hi. apply H. lia.
Qed.

(** A weighted power sum over distinct points that vanishes for as many
    consecutive exponents as there are points has zero weights. *)
Definition prod_diff (rs : list F) (x : F) : F := foldr (fun r p => (x + r) * p) f1 rs.
Lemma prod_diff_0 rs x : x ∈ rs -> prod_diff rs x = f0.
Proof.
  induction 1 as [x l|x y l _ IH]; cbn [prod_diff foldr].
  - rewrite fadd_self. fold (prod_diff l x). ring.
  - fold (prod_diff l x). rewrite IH. ring.
Qed.
Lemma prod_diff_neq0 rs x : x ∉ rs -> prod_diff rs x <> f0.
Proof.
  induction rs as [|r rs IH]; intros H; cbn [prod_diff foldr]; [apply f1_neq_f0|].
  apply not_elem_of_cons in H as [H1 H2]. apply fmul_neq0; [|by apply IH].
  intros E. apply fadd_eq0 in E. done.
Qed.
Lemma power_sum_prod Xs Y rs : forall k n, (k + length rs < n)%nat ->
  (forall k, (k < n)%nat -> fsum (fun X => Y X * fpow X k) Xs = f0) ->
  fsum (fun X => Y X * fpow X k * prod_diff rs X) Xs = f0.
Proof.
  induction rs as [|r rs IH]; intros k n Hk H; cbn [length] in Hk.
  - cbn [prod_diff foldr]. rewrite (fsum_ext _ (fun X => Y X * fpow X k)) by (intros; ring). apply H. lia.
  - rewrite (fsum_ext _ (fun X => Y X * fpow X (Datatypes.S k) * prod_diff rs X + r * (Y X * fpow X k * prod_diff rs X))).
    2:{ intros X _. cbn [prod_diff foldr fpow]. fold (prod_diff rs X). ring. }
    rewrite fsum_add, fsum_mul, (IH (Datatypes.S k) n), (IH k n) by (done || lia). ring.
Qed.
Lemma fsum_single {A} (f : A -> F) l1 x l2 : (forall y, y ∈ l1 ++ l2 -> f y = f0) -> fsum f (l1 ++ x :: l2) = f x.
Proof.
  intros H. rewrite fsum_app, fsum_cons, (fsum_0 f l1), (fsum_0 f l2); [ring| |]; intros y Hy; apply H; apply elem_of_app; tauto.
Qed.
Lemma vandermonde Xs Y : NoDup Xs -> (forall k, (k < length Xs)%nat -> fsum (fun X => Y X * fpow X k) Xs = f0) ->
  forall X, X ∈ Xs -> Y X = f0.
Proof.
  intros Hd H X HX. apply elem_of_list_split in HX as (l1 & l2 & ->).
  assert (Hn : X ∉ l1 ++ l2).
  { apply NoDup_app in Hd as (_ & H1 & H2). apply NoDup_cons in H2 as [H2 _].
    intros Hin. apply elem_of_app in Hin as [Hin|Hin]; [|done]. apply (H1 X Hin). apply elem_of_list_here. }
  pose proof (power_sum_prod _ Y (l1 ++ l2) 0 (length (l1 ++ X :: l2))
    ltac:(rewrite !app_length; cbn; lia) H) as E.
  rewrite fsum_single in E.
  2:{ intros y Hy. rewrite prod_diff_0 by done. ring. }
  apply fmul_eq0 in E as [E|E]; [|by apply prod_diff_neq0 in E].
  apply fmul_eq0 in E as [E|E]; [done|]. by apply f1_neq_f0 in E.
Qed.

(** A polynomial with as many distinct roots as coefficients is zero. *)
Fixpoint peval (c : list F) (x : F) : F := match c with [] => f0 | a :: p => a + x * peval p x end.
Fixpoint quo (c : list F) (r : F) : list F :=
  match c with [] => [] | a :: p => match p with [] => [] | _ => peval p r :: quo p r end end.
Lemma quo_length c r : length (quo c r) = (length c - 1)%nat.
Proof. induction c as [|a [|b p] IH]; [done|done|]. cbn [quo length] in *. rewrite IH. lia. Qed.
Lemma quo_spec c r x : peval c x = peval c r + (x + r) * peval (quo c r) x.
Proof.
  induction c as [|a [|b p] IH]; [cbn; ring|cbn; ring|].
  change (quo (a :: b :: p) r) with (peval (b :: p) r :: quo (b :: p) r).
  change (peval (a :: b :: p) ?y) with (a + y * peval (b :: p) y).
  change (peval (peval (b :: p) r :: ?q) x) with (peval (b :: p) r + x * peval q x).
  set (q := peval (quo (b :: p) r) x) in *. set (P := peval (b :: p) r) in *. rewrite IH.
  pose proof (fadd_self (r * P)) as E1.
  transitivity (a + x * P + x * (x + r) * q); [ring|].
  transitivity (a + x * P + x * (x + r) * q + (r * P + r * P)); [rewrite E1; ring|ring].
Qed.
Lemma quo_zero c r : peval c r = f0 -> Forall (fun a => a = f0) (quo c r) -> Forall (fun a => a = f0) c.
Proof.
  induction c as [|a [|b p] IH]; intros E H; [constructor| |].
  - cbn in E. constructor; [|constructor]. rewrite <-E. ring.
  - change (quo (a :: b :: p) r) with (peval (b :: p) r :: quo (b :: p) r) in H.
    apply Forall_cons in H as [H1 H2]. change (a + r * peval (b :: p) r = f0) in E. rewrite H1 in E.
    constructor; [rewrite <-E; ring|]. by apply IH.
Qed.
Lemma roots_zero c : forall rs, length rs = length c -> NoDup rs -> Forall (fun r => peval c r = f0) rs ->
  Forall (fun a => a = f0) c.
Proof.
  remember (length c) as n eqn:En. revert c En. induction n as [|n IH]; intros c En rs Hl Hd Hr.
  - destruct c; [constructor|done].
  - destruct rs as [|r rs]; [done|]. inversion_clear Hd as [|?? Hd1 Hd2]. inversion_clear Hr as [|?? Hr1 Hr2].
    apply (quo_zero c r Hr1). apply (IH (quo c r)) with (rs := rs).
    + rewrite quo_length. lia.
    + cbn in Hl. lia.
    + done.
    + rewrite Forall_forall in Hr2 |- *. intros x Hx. specialize (Hr2 x Hx). rewrite (quo_spec c r x), Hr1 in Hr2.
      assert (E : (x + r) * peval (quo c r) x = f0) by (rewrite <-Hr2; ring).
      apply fmul_eq0 in E as [E|E]; [|done]. apply fadd_eq0 in E. by subst.
Qed.
Lemma peval_sumn (c : nat -> F) n x : forall s, peval (map c (seq s n)) x = sumn n (fun i => c (s + i)%nat * fpow x i).
Proof.
  induction n as [|n IH]; intros s; [done|]. cbn [seq map peval]. rewrite IH, sumn_S_l. rewrite Nat.add_0_r.
  cbn [fpow]. rewrite <-sumn_mul. rewrite (sumn_ext n _ (fun i => c (s + Datatypes.S i)%nat * (x * fpow x i))); [ring|].
  intros i _. rewrite <-Nat.add_succ_comm. ring.
Qed.
(** If a polynomial with constant coefficient 1 and degree at most n has n
    distinct roots then it has no other root. *)
Lemma no_other_root (c : nat -> F) n rs y : c 0%nat = f1 -> length rs = n -> NoDup rs ->
  (forall r, r ∈ rs -> sumn (Datatypes.S n) (fun i => c i * fpow r i) = f0) ->
  sumn (Datatypes.S n) (fun i => c i * fpow y i) = f0 -> y ∈ rs.
Proof.
  intros H0 Hl Hd Hr Hy. destruct (decide (y ∈ rs)) as [|Hn]; [done|]. exfalso.
  assert (H : Forall (fun a => a = f0) (map c (seq 0 (Datatypes.S n)))).
  { apply (roots_zero _ (y :: rs)).
    - rewrite map_length, seq_length. cbn. lia.
    - by constructor.
    - constructor; [by rewrite peval_sumn|]. apply Forall_forall. intros r Hin. rewrite peval_sumn. by apply Hr. }
  cbn [seq map] in H. inversion_clear H as [|?? H1 _]. rewrite H0 in H1. by apply f1_neq_f0.
Qed.
