(** Model of tools/gftool.c and theorem C53 (polynomial search and field tables). *)
From stdpp Require Import list.
From Coq Require Import ZArith Lia Sorted.
From Verif Require Import EccBits Gf13Tab Gf13 Bch Gf2x.
Local Open Scope Z_scope.

(** ** Model *)

(** poly_t is uint64_t (gftool.c:26); [t64] truncates to it.  Loops that shift a
    poly_t until it is zero run at most 64 times. *)
(** reciprocal (gftool.c:30-41) *)
Fixpoint recip_loop (n : nat) (p r : Z) : Z :=
  match n with
  | O => r
  | S n => if p =? 0 then r else recip_loop n (Z.shiftr p 1) (Z.lor (t64 (Z.shiftl r 1)) (Z.land p 1))
  end.
Definition reciprocal (p : Z) : Z := recip_loop 64 p 0.
(** mul_poly (gftool.c:43-57) *)
Fixpoint mul_loop (n : nat) (a b r : Z) : Z :=
  match n with
  | O => r
  | S n => if a =? 0 then r else
      mul_loop n (Z.shiftr a 1) (t64 (Z.shiftl b 1)) (if negb (Z.land a 1 =? 0) then Z.lxor r b else r)
  end.
Definition mul_poly (a b : Z) : Z := mul_loop 64 a b 0.
(** degree (gftool.c:59-69) *)
Fixpoint degree_loop (n : nat) (p d : Z) : Z :=
  match n with O => d | S n => if 1 <? p then degree_loop n (Z.shiftr p 1) (d + 1) else d end.
Definition degree (p : Z) : Z := degree_loop 64 p 0.
(** print_poly (gftool.c:71-95): the exponents it prints, in order; the two
    numbers in front of them are p and [reciprocal p].  (Not the formatting.) *)
Definition poly_terms (p : Z) : list Z :=
  filter (fun i => Z.land (Z.shiftr p i) 1 <> 0) (map Z.of_nat (rev (seq 0 64))).

(** The step shared by gf_init (gftool.c:138-140) and is_primitive (gftool.c:227-229, 235-237). *)
Definition gstep (p d r : Z) : Z :=
  let r := t64 (Z.shiftl r 1) in
  if negb (Z.shiftr r d =? 0) then Z.lxor r p else r.

(** is_primitive (gftool.c:217-243).  The do-while loop is unbounded in C; here it
    is given 2^d + 1 steps, and [None] means that these did not suffice. *)
Fixpoint cycle_loop (n : nat) (p d start r i : Z) : option Z :=
  match n with
  | O => None
  | S n =>
    let r := gstep p d r in
    let i := i + 1 in
    if r =? start then Some i else cycle_loop n p d start r i
  end.
Definition is_primitive (p : Z) : option bool :=
  let d := degree p in
  let max_order := Z.shiftl 1 d - 1 in
  let start := Nat.iter (Z.to_nat max_order) (gstep p d) 1 in
  match cycle_loop (Z.to_nat (2 ^ d + 1)) p d start start 0 with
  | Some i => Some (i =? max_order)
  | None => None
  end.

(** poly_search (gftool.c:245-256): the polynomials it prints. *)
Fixpoint search_loop (n : nat) (deg i : Z) : option (list Z) :=
  match n with
  | O => None
  | S n =>
    if Z.shiftr i deg <=? 1 then
      match is_primitive i, search_loop n deg (i + 1) with
      | Some true, Some l => Some (i :: l)
      | Some false, Some l => Some l
      | _, _ => None
      end
    else Some []
  end.
Definition poly_search (deg : Z) : option (list Z) := search_loop (Z.to_nat (2 ^ deg + 1)) deg (Z.shiftl 1 deg).

(** gf_elem_t is uint16_t (gftool.c:101).  Table entries are [None] until written. *)
Record gf := { g_order : Z; g_degree : Z; g_exp : list (option Z); g_log : list (option Z) }.
Inductive gf_init_result := Refused | Overrun | Ready (g : gf).
(** The loop of gf_init (gftool.c:134-141) *)
Fixpoint fill_loop (n i : nat) (p d a : Z) (exp log : list (option Z)) : option (list (option Z) * list (option Z)) :=
  match n with
  | O => Some (exp, log)
  | S n =>
    if (i <? length exp)%nat && (0 <=? a) && (Z.to_nat a <? length log)%nat then
      fill_loop n (S i) p d (gstep p d a) (<[i := Some (t16 a)]> exp) (<[Z.to_nat a := Some (t16 (Z.of_nat i))]> log)
    else None
  end.
(** gf_init (gftool.c:108-144); malloc is assumed to succeed *)
Definition gf_init (p : Z) : gf_init_result :=
  let deg := degree p in
  let tab_size := Z.shiftl 1 deg in
  if 16 <? deg then Refused else
  let size := Z.to_nat tab_size in
  match fill_loop size 0 p deg 1 (replicate size None) (replicate size None) with
  | Some (exp, log) => Ready {| g_order := t16 (tab_size - 1); g_degree := t16 deg; g_exp := exp; g_log := log |}
  | None => Overrun
  end.
(** Reading a table; [None] if the entry was never written *)
Definition gtab (t : list (option Z)) (i : Z) : option Z := if 0 <=? i then mjoin (t !! Z.to_nat i) else None.

(** ** Specification *)

(** p is a polynomial of degree d for which x has order 2^d - 1: the powers
    x^0, ..., x^(2^d - 2) are incongruent modulo p and x^(2^d - 1) is 1. *)
Definition primitive (d p : Z) : Prop :=
  0 < p /\ Z.log2 p = d /\ cong p (2 ^ (2 ^ d - 1)) 1 /\ forall k, 0 < k < 2 ^ d - 1 -> ~ cong p (2 ^ k) 1.

(** ** Small functions *)
Lemma t64_small a : 0 <= a < 2 ^ 64 -> t64 a = a.
Proof. intros H. unfold t64. rewrite Z.land_ones by lia. by apply Z.mod_small. Qed.
Lemma shiftr1_lt p n : 0 <= p < 2 ^ Z.of_nat (S n) -> 0 <= Z.shiftr p 1 < 2 ^ Z.of_nat n.
Proof.
  intros H. rewrite Nat2Z.inj_succ, Z.pow_succ_r in H by lia. rewrite Z.shiftr_div_pow2 by lia. change (2 ^ 1) with 2.
  split; [apply Z.div_pos; lia|]. apply Z.div_lt_upper_bound; lia.
Qed.
Lemma log2_shiftr1 p : 1 < p -> Z.log2 p = Z.log2 (Z.shiftr p 1) + 1.
Proof.
  intros H. rewrite Z.log2_shiftr by lia. assert (1 <= Z.log2 p) by (apply Z.log2_le_pow2; lia). lia.
Qed.
Lemma degree_loop_ok n : forall p d, 0 <= p < 2 ^ Z.of_nat n -> degree_loop n p d = d + Z.log2 p.
Proof.
  induction n as [|n IH]; intros p d Hp.
  - change (2 ^ Z.of_nat 0) with 1 in Hp. replace p with 0 by lia. cbn. lia.
  - cbn [degree_loop]. destruct (Z.ltb_spec 1 p) as [H|H].
    + rewrite IH by (by apply shiftr1_lt). rewrite (log2_shiftr1 p) by lia. lia.
    + assert (p = 0 \/ p = 1) as [-> | ->] by lia; cbn; lia.
Qed.
Lemma degree_ok p : 0 <= p < 2 ^ 64 -> degree p = Z.log2 p.
Proof. intros H. unfold degree. rewrite degree_loop_ok; [lia|done]. Qed.

(** ** Pigeonholes *)
Lemma pigeon_dec (f : nat -> Z) n : NoDup (map f (seq 0 n)) \/ exists i j, (i < j < n)%nat /\ f i = f j.
Proof.
  induction n as [|n [IH|(i & j & Hij & E)]]; [left; constructor| |right; exists i, j; split; [lia|done]].
  destruct (decide (f n ∈ map f (seq 0 n))) as [Hin|Hin].
  - right. apply elem_of_list_In, in_map_iff in Hin as (i & E & Hi). apply in_seq in Hi. exists i, n. split; [lia|done].
  - left. rewrite seq_S, map_app. apply NoDup_app. split; [done|]. split.
    + intros x Hx Hx'. cbn in Hx'. apply elem_of_list_singleton in Hx'. by subst.
    + apply NoDup_singleton.
Qed.
Lemma nodup_range (l : list Z) (lo : Z) (n : nat) : NoDup l -> (forall x, x ∈ l -> lo <= x < lo + Z.of_nat n) -> (length l <= n)%nat.
Proof.
  intros Hl Hr. transitivity (length (map (fun i => lo + Z.of_nat i) (seq 0 n))); [|by rewrite map_length, seq_length].
  apply NoDup_incl_length; [by apply NoDup_ListNoDup|]. intros x Hx. apply elem_of_list_In in Hx. apply Hr in Hx.
  apply in_map_iff. exists (Z.to_nat (x - lo)). split; [lia|]. apply in_seq. lia.
Qed.
Lemma nodup_all (l : list Z) (lo : Z) (n : nat) : NoDup l -> (forall x, x ∈ l -> lo <= x < lo + Z.of_nat n) -> (n <= length l)%nat ->
  forall x, lo <= x < lo + Z.of_nat n -> x ∈ l.
Proof.
  intros Hl Hr Hn x Hx. destruct (decide (x ∈ l)) as [|Hin]; [done|]. exfalso.
  pose proof (nodup_range (x :: l) lo n) as H. cbn in H.
  assert (S (length l) <= n)%nat; [|lia]. apply H; [by apply NoDup_cons|].
  intros y Hy. apply elem_of_cons in Hy as [-> |Hy]; [done|by apply Hr].
Qed.

(** ** The step is multiplication by x *)
Section step.
Context (p d : Z) (Hd : 1 <= d <= 62) (Hp : 0 < p) (Hl : Z.log2 p = d).
Notation T := (gstep p d).
Notation E k := (Nat.iter k T 1).
Definition res (r : Z) : Prop := 0 <= r < 2 ^ d.

Lemma p_range : 2 ^ d <= p < 2 ^ (d + 1).
Proof. pose proof (Z.log2_spec p Hp). rewrite Hl in *. lia. Qed.
Lemma res_pos : 1 < 2 ^ d.
Proof. apply Z.pow_gt_1; lia. Qed.
Lemma res_1 : res 1. Proof. pose proof res_pos. unfold res. lia. Qed.
Lemma gstep_eq r : res r -> T r = Z.lxor (Z.shiftl r 1) (if Z.testbit r (d - 1) then p else 0).
Proof.
  intros Hr. unfold res in Hr. unfold gstep.
  assert (Hs : 0 <= Z.shiftl r 1 < 2 ^ (d + 1)).
  { rewrite Z.shiftl_mul_pow2, Z.pow_add_r by lia. lia. }
  assert (2 ^ (d + 1) <= 2 ^ 64) by (apply Z.pow_le_mono_r; lia).
  rewrite t64_small by lia. cbn zeta.
  assert (Et : Z.shiftr (Z.shiftl r 1) d = if Z.testbit r (d - 1) then 1 else 0).
  { apply Z.bits_inj'. intros k Hk. rewrite Z.shiftr_spec, Z.shiftl_spec by lia.
    destruct (Z.eq_dec k 0) as [-> |Hk0].
    - replace (0 + d - 1) with (d - 1) by lia. by destruct (Z.testbit r (d - 1)).
    - rewrite (high_bits r d) by lia. destruct (Z.testbit r (d - 1)); [|by rewrite Z.bits_0].
      symmetry. apply Z.bits_above_log2; cbn; lia. }
  rewrite Et. destruct (Z.testbit r (d - 1)); cbn; [done|]. by rewrite Z.lxor_0_r.
Qed.
Lemma gstep_res r : res r -> res (T r).
Proof.
  intros Hr. rewrite gstep_eq by done. unfold res in *. pose proof p_range as Hpr.
  assert (Hnn : 0 <= Z.lxor (Z.shiftl r 1) (if Z.testbit r (d - 1) then p else 0)).
  { apply nn_lxor; [apply Z.shiftl_nonneg; lia|]. destruct (Z.testbit _ _); lia. }
  split; [done|]. apply lt_pow_bits; [lia|done|]. intros k Hk. rewrite Z.lxor_spec, Z.shiftl_spec by lia.
  destruct (Z.eq_dec k d) as [-> |Hkd].
  - destruct (Z.testbit r (d - 1)); [|by rewrite Z.bits_0]. replace (Z.testbit p d) with true; [done|]. rewrite <-Hl. by rewrite Z.bit_log2 by lia.
  - rewrite (high_bits r d) by lia. rewrite xorb_false_l. destruct (Z.testbit r (d - 1)); [|by rewrite Z.bits_0].
    apply Z.bits_above_log2; lia.
Qed.
Lemma gstep_cong r : res r -> cong p (pmul 2 r) (T r).
Proof.
  intros Hr. rewrite gstep_eq by done. change 2 with (2 ^ Z.of_nat 1). rewrite pmul_pow_l. change (Z.of_nat 1) with 1.
  rewrite <-(Z.lxor_0_r (Z.shiftl r 1)) at 1. apply cong_add; [apply cong_refl|].
  destruct (Z.testbit r (d - 1)); [|apply cong_refl]. exists 1. split; [lia|]. by rewrite pmul_1_l, Z.lxor_0_l.
Qed.
Lemma iter_res k r : res r -> res (Nat.iter k T r).
Proof. intros Hr. induction k as [|k IH]; [done|]. cbn. by apply gstep_res. Qed.
Lemma E_res k : res (E k).
Proof. apply iter_res, res_1. Qed.
Lemma pow_S k : 2 ^ Z.of_nat (S k) = pmul 2 (2 ^ Z.of_nat k).
Proof.
  change 2 with (2 ^ Z.of_nat 1) at 2. rewrite pmul_pow_l, shiftl_pow. f_equal. lia.
Qed.
Lemma E_cong k : cong p (2 ^ Z.of_nat k) (E k).
Proof.
  induction k as [|k IH]; [apply cong_refl|]. rewrite pow_S.
  apply (cong_trans p _ (pmul 2 (E k))).
  - pose proof (E_res k) as H. unfold res in H. apply cong_mul; try lia; done.
  - cbn. apply gstep_cong, E_res.
Qed.
Lemma res_small a b : res a -> res b -> cong p a b -> a = b.
Proof. intros Ha Hb. apply cong_small; [done|by rewrite Hl..]. Qed.
Lemma E_eq i j : E i = E j <-> cong p (2 ^ Z.of_nat i) (2 ^ Z.of_nat j).
Proof.
  split; intros H.
  - apply (cong_trans p _ (E i)); [apply E_cong|]. rewrite H. apply cong_sym, E_cong.
  - apply res_small; [apply E_res..|]. apply (cong_trans p _ (2 ^ Z.of_nat i)); [apply cong_sym, E_cong|].
    by apply (cong_trans p _ (2 ^ Z.of_nat j)); [|apply E_cong].
Qed.
Lemma iter_add m n (r : Z) : Nat.iter m T (Nat.iter n T r) = Nat.iter (m + n) T r.
Proof. induction m as [|m IH]; [done|]. exact (f_equal T IH). Qed.

(** ** The do-while loop *)
Lemma cycle_some n : forall start r i c, cycle_loop n p d start r i = Some c ->
  exists m, (1 <= m <= n)%nat /\ c = i + Z.of_nat m /\ Nat.iter m T r = start /\ forall j, (1 <= j < m)%nat -> Nat.iter j T r <> start.
Proof.
  induction n as [|n IH]; intros start r i c H; [done|]. cbn [cycle_loop] in H.
  destruct (Z.eqb_spec (T r) start) as [Es|Es].
  - injection H as <-. exists 1%nat. split; [lia|]. split; [lia|]. split; [done|]. lia.
  - apply IH in H as (m & Hm & -> & E1 & E2). exists (S m). split; [lia|]. split; [lia|].
    split; [by rewrite <-Nat.add_1_r, <-iter_add|]. intros j Hj.
    destruct (Nat.eq_dec j 1) as [-> |]; [done|]. replace j with ((j - 1) + 1)%nat by lia. rewrite <-iter_add. apply E2. lia.
Qed.
Lemma cycle_none n : forall start r i, cycle_loop n p d start r i = None -> forall j, (1 <= j <= n)%nat -> Nat.iter j T r <> start.
Proof.
  induction n as [|n IH]; intros start r i H j Hj; [lia|]. cbn [cycle_loop] in H.
  destruct (Z.eqb_spec (T r) start) as [Es|Es]; [done|].
  destruct (Nat.eq_dec j 1) as [-> |]; [done|]. replace j with ((j - 1) + 1)%nat by lia. rewrite <-iter_add. apply (IH start (T r) (i + 1)); [done|lia].
Qed.
Definition N : nat := Z.to_nat (2 ^ d - 1).
Lemma N_val : Z.of_nat N = 2 ^ d - 1.
Proof. pose proof res_pos. unfold N. lia. Qed.
(** The loop ends: the start lies on a cycle. *)
Lemma on_cycle : exists c, (1 <= c <= S N)%nat /\ Nat.iter c T (E N) = E N.
Proof.
  destruct (pigeon_dec (fun k => E k) (S (S N))) as [Hn|(i & j & Hij & Eij)].
  - exfalso. pose proof (nodup_range _ 0 (S N) Hn) as H. rewrite map_length, seq_length in H.
    assert (S (S N) <= S N)%nat; [|lia]. apply H. intros x Hx. apply elem_of_list_In, in_map_iff in Hx as (k & <- & _).
    pose proof (E_res k) as Hr. unfold res in Hr. pose proof N_val. lia.
  - exists (j - i)%nat. split; [lia|]. rewrite iter_add.
    replace (j - i + N)%nat with ((N - i) + j)%nat by lia. rewrite <-iter_add. rewrite <-Eij. rewrite iter_add. f_equal. lia.
Qed.
Lemma ord_E k : cong p (2 ^ Z.of_nat k) 1 <-> E k = 1.
Proof. symmetry. apply (E_eq k 0). Qed.
Lemma primitive_E : primitive d p <-> E N = 1 /\ forall k, (0 < k < N)%nat -> E k <> 1.
Proof.
  unfold primitive. pose proof N_val as HN. split.
  - intros (_ & _ & H1 & H2). split.
    + apply ord_E. by rewrite HN.
    + intros k Hk Ek. apply (H2 (Z.of_nat k)); [lia|]. by apply ord_E.
  - intros [H1 H2]. split; [done|]. split; [done|]. split.
    + rewrite <-HN. by apply ord_E.
    + intros k Hk Hc. apply (H2 (Z.to_nat k)); [lia|]. apply ord_E. by rewrite Z2Nat.id by lia.
Qed.
Lemma gstep_0 : T 0 = 0.
Proof. rewrite gstep_eq by (pose proof res_pos; unfold res; lia). by rewrite Z.bits_0. Qed.
Lemma iter_0 k : Nat.iter k T 0 = 0.
Proof. induction k as [|k IH]; [done|]. transitivity (T 0); [exact (f_equal T IH)|apply gstep_0]. Qed.
(** A full cycle of nonzero elements contains 1. *)
Lemma full_cycle s : 2 <= d -> res s -> Nat.iter N T s = s -> (forall j, (1 <= j < N)%nat -> Nat.iter j T s <> s) ->
  exists k, (k < N)%nat /\ Nat.iter k T s = 1.
Proof.
  intros H2 Hs Hc Hm. pose proof N_val as HN. assert (3 < 2 ^ d) by (assert (2 ^ 2 <= 2 ^ d) by (apply Z.pow_le_mono_r; lia); lia).
  assert (Hs0 : s <> 0).
  { intros ->. apply (Hm 1%nat); [lia|]. apply iter_0. }
  assert (Hnd : NoDup (map (fun k => Nat.iter k T s) (seq 0 N))).
  { destruct (pigeon_dec (fun k => Nat.iter k T s) N) as [|(i & j & Hij & Eij)]; [done|]. exfalso.
    apply (Hm (j - i)%nat); [lia|]. rewrite <-Hc at 1. rewrite iter_add.
    replace (j - i + N)%nat with ((N - i) + j)%nat by lia. rewrite <-iter_add, <-Eij, iter_add.
    rewrite <-Hc at 2. f_equal. lia. }
  assert (Hin : 1 ∈ map (fun k => Nat.iter k T s) (seq 0 N)).
  { apply (nodup_all _ 1 N); [done| |by rewrite map_length, seq_length|lia].
    intros x Hx. apply elem_of_list_In, in_map_iff in Hx as (k & <- & Hk). apply in_seq in Hk.
    pose proof (iter_res k s Hs) as Hr. unfold res in Hr.
    assert (Nat.iter k T s <> 0).
    { intros E0. apply Hs0. rewrite <-Hc. replace N with ((N - k) + k)%nat by lia. by rewrite <-iter_add, E0, iter_0. }
    lia. }
  apply elem_of_list_In, in_map_iff in Hin as (k & Ek & Hk). apply in_seq in Hk. exists k. split; [lia|done].
Qed.
Lemma cycle_primitive c : 2 <= d -> cycle_loop (Z.to_nat (2 ^ d + 1)) p d (E N) (E N) 0 = Some c -> (c = 2 ^ d - 1 <-> primitive d p).
Proof.
  intros H2 Hc. apply cycle_some in Hc as (m & Hm & -> & E1 & E2). rewrite primitive_E. pose proof N_val as HN.
  pose proof res_pos as H1.
  split.
  - intros Em. assert (m = N) as -> by lia. clear Em Hm.
    destruct (full_cycle (E N) H2 (E_res N) E1 E2) as (k & Hk & Ek). rewrite iter_add in Ek.
    assert (ENk : forall j, Nat.iter j T (E N) = E (j + N)) by (intros; apply iter_add).
    (* E (j + (k + N)) = E j *)
    assert (HE : forall j, E (j + (k + N)) = E j) by (intros j; rewrite <-iter_add, Ek; done).
    split.
    + rewrite <-(HE N). replace (N + (k + N))%nat with (k + (N + N))%nat by lia. rewrite <-iter_add. rewrite <-ENk, E1.
      by rewrite iter_add.
    + intros j Hj Ej. apply (E2 j); [lia|]. rewrite ENk.
      (* start = E (N - k) shifted *)
      assert (Hs : E N = E (N - k)).
      { rewrite <-(HE (N - k)%nat). replace (N - k + (k + N))%nat with (N + N)%nat by lia. rewrite <-ENk. done. }
      replace (j + N)%nat with (N + j)%nat by lia. rewrite <-iter_add, Ej. done.
  - intros [H3 H4]. rewrite !H3 in E1. rewrite H3 in E2. cut (m = N); [lia|].
    destruct (Nat.lt_trichotomy m N) as [Hlt|[Heq|Hgt]]; [|done|].
    + exfalso. apply (H4 m); [lia|done].
    + exfalso. apply (E2 N); [lia|done].
Qed.
End step.

Lemma log2_range p d : 0 <= d -> 0 < p -> Z.log2 p = d -> p < 2 ^ (d + 1).
Proof. intros Hd Hp Hl. pose proof (Z.log2_spec p Hp). rewrite Hl in *. lia. Qed.
(** The test is right (and terminates) for every polynomial of degree 2 to 30. *)
Theorem C53_is_primitive d p : 2 <= d <= 30 -> 0 < p -> Z.log2 p = d ->
  exists b, is_primitive p = Some b /\ (b = true <-> primitive d p).
Proof.
  intros Hd Hp Hl. unfold is_primitive. pose proof (log2_range p d ltac:(lia) Hp Hl) as Hr.
  assert (2 ^ (d + 1) <= 2 ^ 31) by (apply Z.pow_le_mono_r; lia).
  rewrite degree_ok by (change (2 ^ 64) with 18446744073709551616; change (2 ^ 31) with 2147483648 in *; lia). rewrite Hl. cbn zeta.
  rewrite Z.shiftl_1_l. change (Nat.iter (Z.to_nat (2 ^ d - 1)) (gstep p d) 1) with (Nat.iter (N d) (gstep p d) 1).
  destruct (cycle_loop _ _ _ _ _ _) as [c|] eqn:Hc.
  - exists (c =? 2 ^ d - 1). split; [done|]. rewrite Z.eqb_eq. apply (cycle_primitive p d); try lia; done.
  - exfalso. destruct (on_cycle p d) as (c & Hc1 & Hc2); [lia|done|done|].
    eapply (cycle_none p d); [exact Hc| |exact Hc2]. pose proof (N_val d). lia.
Qed.
(** For degree 1 the test also accepts the polynomial x, which is not primitive. *)
Theorem C53_degree_1 : is_primitive 2 = Some true /\ ~ primitive 1 2.
Proof.
  split; [by vm_compute|]. intros (_ & _ & (q & Hq & E) & _).
  change (Z.lxor (2 ^ (2 ^ 1 - 1)) 1) with 3 in E. change 2 with (2 ^ Z.of_nat 1) in E. rewrite pmul_pow_r in E by done.
  apply (f_equal Z.odd) in E. rewrite <-!Z.bit0_odd, Z.shiftl_spec in E by lia. by rewrite (Z.testbit_neg_r q) in E by lia.
Qed.

(** ** The search *)
Lemma search_ok d n : 2 <= d <= 30 -> forall i, 2 ^ d <= i <= 2 ^ (d + 1) -> 2 ^ (d + 1) - i < Z.of_nat n ->
  exists l, search_loop n d i = Some l /\ (forall p, p ∈ l <-> i <= p /\ primitive d p) /\ StronglySorted Z.lt l.
Proof.
  intros Hd. induction n as [|n IH]; intros i Hi Hn; [lia|]. cbn [search_loop].
  assert (Hpos : 0 < 2 ^ d) by (apply Z.pow_pos_nonneg; lia).
  rewrite Z.shiftr_div_pow2 by lia. assert (E2 : 2 ^ (d + 1) = 2 * 2 ^ d) by (rewrite Z.pow_add_r by lia; lia).
  destruct (Z.leb_spec (i / 2 ^ d) 1) as [H|H].
  - assert (Hlt : i < 2 ^ (d + 1)).
    { rewrite E2. apply Z.nle_gt. intros Hge. assert (2 <= i / 2 ^ d) by (apply Z.div_le_lower_bound; lia). lia. }
    destruct (C53_is_primitive d i Hd ltac:(lia)) as (b & -> & Hb).
    { apply Z.log2_unique; [lia|]. rewrite Z.add_1_r in Hlt. lia. }
    destruct (IH (i + 1) ltac:(lia) ltac:(lia)) as (l & -> & Hl & Hs).
    destruct b.
    + exists (i :: l). split; [done|]. split.
      * intros p. rewrite elem_of_cons, Hl. split; [intros [-> |[H1 H2]]; [split; [lia|by apply Hb]|split; [lia|done]]|].
        intros [H1 H2]. destruct (Z.eq_dec p i); [by left|]. right. split; [lia|done].
      * constructor; [done|]. apply Forall_forall. intros x Hx. apply Hl in Hx. lia.
    + exists l. split; [done|]. split; [|done]. intros p. rewrite Hl. split; [intros [H1 H2]; split; [lia|done]|].
      intros [H1 H2]. split; [|done]. destruct (Z.eq_dec p i) as [-> |]; [|lia]. apply Hb in H2. done.
  - exists []. split; [done|]. split; [|constructor]. intros p. split; [intros Hin; by apply elem_of_nil in Hin|].
    intros [H1 (Hp & Hl & _)]. exfalso. pose proof (log2_range p d ltac:(lia) Hp Hl).
    assert (i < 2 ^ (d + 1)) by lia. assert (i / 2 ^ d < 2) by (apply Z.div_lt_upper_bound; lia). lia.
Qed.
(** C53.  The search prints exactly the primitive polynomials of the given degree,
    each once, in increasing order. *)
Theorem C53_search d : 2 <= d <= 30 ->
  exists l, poly_search d = Some l /\ (forall p, p ∈ l <-> primitive d p) /\ StronglySorted Z.lt l.
Proof.
  intros Hd. unfold poly_search. rewrite Z.shiftl_1_l.
  assert (E2 : 2 ^ (d + 1) = 2 * 2 ^ d) by (rewrite Z.pow_add_r by lia; lia).
  assert (Hpos : 0 < 2 ^ d) by (apply Z.pow_pos_nonneg; lia).
  destruct (search_ok d (Z.to_nat (2 ^ d + 1)) Hd (2 ^ d) ltac:(lia) ltac:(lia)) as (l & H1 & H2 & H3).
  exists l. split; [done|]. split; [|done]. intros p. rewrite H2. split; [by intros []|]. intros H. split; [|done].
  destruct H as (Hp & Hl & _). rewrite <-Hl. apply Z.log2_spec. done.
Qed.

(** ** What primitive means *)
Section prim.
Context (p d : Z) (Hd : 1 <= d <= 62) (HP : primitive d p).
Notation T := (gstep p d).
Notation E k := (Nat.iter k T 1).
Notation N := (N d).
Lemma Hp : 0 < p. Proof. apply HP. Qed.
Lemma Hl : Z.log2 p = d. Proof. apply HP. Qed.
Lemma E_N : E N = 1.
Proof. apply (primitive_E p d Hd Hp Hl). done. Qed.
Lemma E_ord k : (0 < k < N)%nat -> E k <> 1.
Proof. apply (primitive_E p d Hd Hp Hl). done. Qed.
Lemma E_per k : E (k + N) = E k.
Proof. by rewrite <-iter_add, E_N. Qed.
Lemma E_mul m k : E (k + m * N) = E k.
Proof.
  induction m as [|m IH]; [f_equal; lia|]. replace (k + S m * N)%nat with ((k + m * N) + N)%nat by lia. by rewrite E_per.
Qed.
Lemma N_pos : (0 < N)%nat.
Proof. pose proof (N_val d Hd). pose proof (res_pos d Hd). lia. Qed.
Lemma E_neq0 k : E k <> 0.
Proof.
  intros H. pose proof N_pos. assert (E (k * N) = 1) by exact (E_mul k 0).
  assert (E (k * N) = 0); [|congruence]. replace (k * N)%nat with ((k * N - k) + k)%nat by nia.
  rewrite <-iter_add, H. apply (iter_0 p d Hd).
Qed.
Lemma E_inj i j : (i < N)%nat -> (j < N)%nat -> E i = E j -> i = j.
Proof.
  assert (H : forall i j, (i < j < N)%nat -> E i <> E j).
  { intros i' j' Hij Eq. apply (E_ord (j' - i')); [lia|].
    rewrite <-(E_per (j' - i')). replace (j' - i' + N)%nat with ((N - i') + j')%nat by lia.
    rewrite <-iter_add, <-Eq, iter_add. replace (N - i' + i')%nat with N by lia. apply E_N. }
  intros Hi Hj Eq. destruct (Nat.lt_trichotomy i j) as [Hlt|[ |Hgt]]; [|done|]; exfalso.
  - apply (H i j); [lia|done].
  - apply (H j i); [lia|done].
Qed.
Lemma E_all a : 0 < a < 2 ^ d -> exists k, (k < N)%nat /\ E k = a.
Proof.
  intros Ha. pose proof (N_val d Hd) as HN.
  assert (Hin : a ∈ map (fun k => E k) (seq 0 N)).
  { apply (nodup_all _ 1 N); [| |by rewrite map_length, seq_length|lia].
    - destruct (pigeon_dec (fun k => E k) N) as [|(i & j & Hij & Eij)]; [done|]. exfalso.
      assert (i = j); [|lia]. apply E_inj; [lia|lia|done].
    - intros x Hx. apply elem_of_list_In, in_map_iff in Hx as (k & <- & _).
      pose proof (E_neq0 k). pose proof (E_res p d Hd Hp Hl k) as Hr. unfold res in Hr. lia. }
  apply elem_of_list_In, in_map_iff in Hin as (k & Ek & Hk). apply in_seq in Hk. exists k. split; [lia|done].
Qed.
(** Every nonzero residue is a power of x. *)
Theorem C53_generates a : 0 < a < 2 ^ d -> exists k, 0 <= k < 2 ^ d - 1 /\ cong p (2 ^ k) a.
Proof.
  intros Ha. destruct (E_all a Ha) as (k & Hk & <-). exists (Z.of_nat k). pose proof (N_val d Hd).
  split; [lia|]. apply (E_cong p d Hd Hp Hl).
Qed.
Lemma x_not_zero k : ~ cong p (2 ^ Z.of_nat k) 0.
Proof.
  intros H. apply (E_neq0 k). apply (res_small p d Hp Hl); [apply (E_res p d Hd Hp Hl)|pose proof (res_pos d Hd); unfold res; lia|].
  apply (cong_trans p _ (2 ^ Z.of_nat k)); [apply cong_sym, (E_cong p d Hd Hp Hl)|done].
Qed.
(** No zero divisors. *)
Lemma field_nzd a b : 0 <= a -> 0 <= b -> cong p (pmul a b) 0 -> cong p a 0 \/ cong p b 0.
Proof.
  intros Ha Hb H. destruct (cong_residue p Hp a Ha) as (r & Hr & Hca). destruct (cong_residue p Hp b Hb) as (s & Hs & Hcb).
  rewrite Hl in Hr, Hs.
  destruct (Z.eq_dec r 0) as [-> |Hr0]; [by left|]. destruct (Z.eq_dec s 0) as [-> |Hs0]; [by right|]. exfalso.
  destruct (E_all r ltac:(lia)) as (i & _ & Ei). destruct (E_all s ltac:(lia)) as (j & _ & Ej).
  apply (x_not_zero (i + j)). apply (cong_trans p _ (pmul a b)); [|done].
  rewrite <-shiftl_pow, <-pmul_pow_r by apply pow_nn. apply cong_sym.
  apply cong_mul2; try done; try apply pow_nn; try apply Hp.
  - apply (cong_trans p _ r); [done|]. rewrite <-Ei. apply cong_sym, (E_cong p d Hd Hp Hl).
  - apply (cong_trans p _ s); [done|]. rewrite <-Ej. apply cong_sym, (E_cong p d Hd Hp Hl).
Qed.
Lemma log2_0_1 a : 0 < a -> Z.log2 a = 0 -> a = 1.
Proof. intros Ha H. pose proof (Z.log2_spec a Ha) as Hs. rewrite H in Hs. change (2 ^ Z.succ 0) with 2 in Hs. lia. Qed.
(** A primitive polynomial is irreducible. *)
Theorem C53_irreducible a b : 0 <= a -> 0 <= b -> p = pmul a b -> a = 1 \/ b = 1.
Proof.
  intros Ha Hb Eq. pose proof Hp as Hpp.
  assert (Ha0 : 0 < a). { destruct (Z.eq_dec a 0) as [-> |]; [rewrite pmul_0_l in Eq; lia|lia]. }
  assert (Hb0 : 0 < b). { destruct (Z.eq_dec b 0) as [-> |]; [rewrite pmul_0_r in Eq; lia|lia]. }
  destruct (pmul_log2 a b Ha0 Hb0) as [_ Hlg]. rewrite <-Eq, Hl in Hlg.
  pose proof (Z.log2_nonneg a). pose proof (Z.log2_nonneg b).
  destruct (Z.eq_dec (Z.log2 a) 0) as [Ea|Ea]; [left; by apply log2_0_1|].
  destruct (Z.eq_dec (Z.log2 b) 0) as [Eb|Eb]; [right; by apply log2_0_1|]. exfalso.
  assert (Hz : cong p (pmul a b) 0).
  { rewrite <-Eq. exists 1. split; [lia|]. by rewrite pmul_1_l, Z.lxor_0_r. }
  assert (Hz0 : forall c, 0 < c -> Z.log2 c < d -> ~ cong p c 0).
  { intros c Hc Hlc Hcc. assert (c = 0); [|lia]. apply (res_small p d Hp Hl); [| |done]; unfold res.
    - split; [lia|]. apply Z.log2_lt_pow2; lia.
    - pose proof (res_pos d Hd). lia. }
  destruct (field_nzd a b Ha Hb Hz) as [Hc|Hc]; [apply (Hz0 a Ha0); [lia|done]|apply (Hz0 b Hb0); [lia|done]].
Qed.
End prim.

(** ** The tables *)
Lemma fill_ok p d n : 1 <= d <= 16 -> 0 < p -> Z.log2 p = d -> forall i exp log,
  (n + i = Z.to_nat (2 ^ d))%nat -> length exp = Z.to_nat (2 ^ d) -> length log = Z.to_nat (2 ^ d) ->
  (forall k, (k < i)%nat -> exp !! k = Some (Some (Nat.iter k (gstep p d) 1))) ->
  (forall a v, log !! a = Some (Some v) -> exists k, v = Z.of_nat k /\ (k < i)%nat /\ Nat.iter k (gstep p d) 1 = Z.of_nat a /\
     forall k', (k' < i)%nat -> Nat.iter k' (gstep p d) 1 = Z.of_nat a -> (k' <= k)%nat) ->
  (forall a, log !! a = Some None -> forall k, (k < i)%nat -> Nat.iter k (gstep p d) 1 <> Z.of_nat a) ->
  exists exp' log', fill_loop n i p d (Nat.iter i (gstep p d) 1) exp log = Some (exp', log') /\
  length exp' = Z.to_nat (2 ^ d) /\ length log' = Z.to_nat (2 ^ d) /\
  (forall k, (k < Z.to_nat (2 ^ d))%nat -> exp' !! k = Some (Some (Nat.iter k (gstep p d) 1))) /\
  (forall a v, log' !! a = Some (Some v) -> exists k, v = Z.of_nat k /\ (k < Z.to_nat (2 ^ d))%nat /\ Nat.iter k (gstep p d) 1 = Z.of_nat a /\
     forall k', (k' < Z.to_nat (2 ^ d))%nat -> Nat.iter k' (gstep p d) 1 = Z.of_nat a -> (k' <= k)%nat) /\
  (forall a, log' !! a = Some None -> forall k, (k < Z.to_nat (2 ^ d))%nat -> Nat.iter k (gstep p d) 1 <> Z.of_nat a).
Proof.
  intros Hd Hp Hl. induction n as [|n IH]; intros i exp log Hi Le Ll He Hg Hn.
  - exists exp, log. replace (Z.to_nat (2 ^ d)) with i in * by lia. done.
  - cbn [fill_loop]. set (a := Nat.iter i (gstep p d) 1).
    pose proof (E_res p d ltac:(lia) Hp Hl i) as Hr. fold a in Hr. unfold res in Hr.
    assert (2 ^ d <= 65536) by (change 65536 with (2 ^ 16); apply Z.pow_le_mono_r; lia).
    replace ((i <? length exp)%nat && (0 <=? a) && (Z.to_nat a <? length log)%nat) with true.
    2:{ symmetry. rewrite !andb_true_iff, !Nat.ltb_lt, Z.leb_le. lia. }
    rewrite !t16_small by lia.
    apply (IH (S i)); [lia|by rewrite insert_length..| | |].
    + intros k Hk. destruct (Nat.eq_dec k i) as [-> |].
      * rewrite list_lookup_insert by lia. done.
      * rewrite list_lookup_insert_ne by lia. apply He. lia.
    + intros b v Hb. destruct (Nat.eq_dec b (Z.to_nat a)) as [-> |Hne].
      * rewrite list_lookup_insert in Hb by lia. injection Hb as <-. exists i. split; [done|]. split; [lia|].
        split; [rewrite Z2Nat.id by lia; done|]. lia.
      * rewrite list_lookup_insert_ne in Hb by lia. apply Hg in Hb as (k & -> & Hk & Ek & Hm). exists k. split; [done|].
        split; [lia|]. split; [done|]. intros k' Hk' Ek'. destruct (Nat.eq_dec k' i) as [-> |]; [|apply Hm; [lia|done]].
        fold a in Ek'. lia.
    + intros b Hb k Hk. destruct (Nat.eq_dec b (Z.to_nat a)) as [-> |Hne].
      * rewrite list_lookup_insert in Hb by lia. done.
      * rewrite list_lookup_insert_ne in Hb by lia. destruct (Nat.eq_dec k i) as [-> |]; [fold a; lia|]. apply Hn; [done|lia].
Qed.

(** C53.  For a primitive generator of degree 2 to 16 the exponential table lists
    the residues of 1, x, x^2, ..., and the logarithm table inverts it on every
    nonzero residue; the entry for 0 is not written. *)
Theorem C53_tables d p : 2 <= d <= 16 -> primitive d p ->
  exists g, gf_init p = Ready g /\ g_order g = 2 ^ d - 1 /\ g_degree g = d /\
    (forall i, 0 <= i < 2 ^ d -> exists r, gtab (g_exp g) i = Some r /\ 0 <= r < 2 ^ d /\ cong p (2 ^ i) r) /\
    (forall a, 0 < a < 2 ^ d -> exists i, gtab (g_log g) a = Some i /\ 0 < i < 2 ^ d /\ gtab (g_exp g) i = Some a) /\
    gtab (g_log g) 0 = None /\
    Z.of_nat (length (g_exp g)) = 2 ^ d /\ Z.of_nat (length (g_log g)) = 2 ^ d.
Proof.
  intros Hd HP. pose proof HP as (Hp & Hl & _). unfold gf_init.
  assert (Hpw : 2 ^ d <= 65536) by (change 65536 with (2 ^ 16); apply Z.pow_le_mono_r; lia).
  assert (H4 : 4 <= 2 ^ d) by (change 4 with (2 ^ 2); apply Z.pow_le_mono_r; lia).
  pose proof (log2_range p d ltac:(lia) Hp Hl) as Hr. rewrite Z.pow_add_r in Hr by lia.
  rewrite degree_ok by (change (2 ^ 64) with 18446744073709551616; lia). rewrite Hl. cbn zeta.
  destruct (Z.ltb_spec 16 d); [lia|]. rewrite Z.shiftl_1_l.
  destruct (fill_ok p d (Z.to_nat (2 ^ d)) ltac:(lia) Hp Hl 0 (replicate (Z.to_nat (2 ^ d)) None) (replicate (Z.to_nat (2 ^ d)) None))
    as (exp & log & Ef & Le & Ll & He & Hg & Hn).
  - lia.
  - apply replicate_length.
  - apply replicate_length.
  - lia.
  - intros a v Ha. apply lookup_replicate in Ha. by destruct Ha.
  - lia.
  - change (Nat.iter 0 (gstep p d) 1) with 1 in Ef. rewrite Ef. eexists. split; [done|]. cbn [g_order g_degree g_exp g_log].
    rewrite !t16_small by lia. split; [done|]. split; [done|].
    pose proof (N_val d ltac:(lia)) as HN.
    assert (HE : forall i, 0 <= i < 2 ^ d -> gtab exp i = Some (Nat.iter (Z.to_nat i) (gstep p d) 1)).
    { intros i Hi. unfold gtab. destruct (Z.leb_spec 0 i); [|lia]. rewrite He by lia. done. }
    split; [|split; [|split; [|lia]]].
    + intros i Hi. exists (Nat.iter (Z.to_nat i) (gstep p d) 1). split; [by apply HE|].
      split; [apply (E_res p d); [lia|done|done]|]. rewrite <-(Z2Nat.id i) at 1 by lia. apply (E_cong p d); [lia|done|done].
    + intros a Ha. destruct (E_all p d ltac:(lia) HP a Ha) as (k & Hk & Ek).
      assert (Ek' : exists k', (1 <= k' <= N d)%nat /\ Nat.iter k' (gstep p d) 1 = a).
      { destruct k as [|k]; [|exists (S k); split; [lia|done]]. exists (N d). split; [lia|]. rewrite <-Ek. apply (E_N p d); [lia|done]. }
      destruct Ek' as (k' & Hk' & Ek').
      destruct (log !! Z.to_nat a) as [[v|]|] eqn:Ea.
      * pose proof (Hg _ _ Ea) as (m & -> & Hm & Em & Hmax).
        assert (Hge : (k' <= m)%nat) by (apply Hmax; [lia|]; rewrite Z2Nat.id by lia; done).
        exists (Z.of_nat m). split; [|split].
        -- unfold gtab. destruct (Z.leb_spec 0 a); [|lia]. by rewrite Ea.
        -- lia.
        -- rewrite HE by lia. rewrite Nat2Z.id, Em, Z2Nat.id by lia. done.
      * exfalso. apply (Hn _ Ea k'); [lia|]. rewrite Z2Nat.id by lia. done.
      * exfalso. apply lookup_ge_None in Ea. lia.
    + unfold gtab. change (0 <=? 0) with true. change (Z.to_nat 0) with 0%nat. cbv iota. destruct (log !! 0%nat) as [[v|]|] eqn:Ea; [|done|done]. exfalso.
      apply Hg in Ea as (m & _ & _ & Em & _). by apply (E_neq0 p d ltac:(lia) HP m).
Qed.

(** The tables compiled into ecc/gf13.c are those of x^13 + x^4 + x^3 + x + 1. *)
Lemma gstep_alpha a : fv (fmul alpha a) = gstep 8219 13 (fv a).
Proof.
  pose proof (fv_fe a) as Hf. unfold fe in Hf. rewrite fv_mul. change (fv alpha) with 2. rewrite nt_mul_2_l, nt_mulx_eq by (apply fv_fe).
  assert (Hr : res 13 (fv a)) by (unfold res; change (2 ^ 13) with 8192; lia).
  rewrite gstep_eq by (first [done|lia]). change (13 - 1) with 12. unfold sel. destruct (Z.testbit (fv a) 12); done.
Qed.
Lemma E_alpha k : Nat.iter k (gstep 8219 13) 1 = fv (fpow alpha k).
Proof.
  induction k as [|k IH]; [done|]. cbn [fpow]. rewrite gstep_alpha, <-IH. done.
Qed.
Lemma N13 : N 13 = ORD.
Proof. reflexivity. Qed.
Lemma prim13 : primitive 13 8219.
Proof.
  apply (primitive_E 8219 13); [lia|lia|done|]. rewrite N13, E_alpha, alpha_order. split; [done|].
  intros k Hk Ek. rewrite E_alpha in Ek. assert (k = 0)%nat; [|lia]. apply alpha_inj; [lia|lia|]. apply F_eq. done.
Qed.
Lemma gtab_lookup t (i : nat) v : gtab t (Z.of_nat i) = Some v -> t !! i = Some (Some v).
Proof.
  unfold gtab. destruct (Z.leb_spec 0 (Z.of_nat i)); [|lia]. rewrite Nat2Z.id. destruct (t !! i) as [[w|]|]; [|done|done]. by intros [= ->].
Qed.
Lemma tab_lookup l (i : nat) : (i < length l)%nat -> map Some l !! i = Some (Some (tab l (Z.of_nat i))).
Proof.
  intros Hi. rewrite list_lookup_fmap. unfold tab. rewrite Nat2Z.id. destruct (lookup_lt_is_Some_2 l i Hi) as [v Hv]. rewrite Hv.
  by rewrite (nth_lookup_Some _ _ _ _ Hv).
Qed.
Lemma len_tl {A} (l : list A) : length (tl l) = (length l - 1)%nat.
Proof. destruct l; cbn; lia. Qed.
Theorem C53_gf13 : primitive 13 8219 /\ exists g, gf_init 8219 = Ready g /\
  g_exp g = map Some gf13_exp /\ tl (g_log g) = map Some (tl gf13_log).
Proof.
  split; [exact prim13|].
  destruct (C53_tables 13 8219 ltac:(lia) prim13) as (g & Hg & _ & _ & He & Hl & _ & Le & Ll). exists g. split; [done|].
  change (2 ^ 13) with 8192 in *. pose proof exp_length as Le'. pose proof log_length as Ll'. pose proof ORD_val as HO.
  assert (HE : forall i : nat, Z.of_nat i < 8192 -> g_exp g !! i = Some (Some (fv (fpow alpha i)))).
  { intros i Hi. destruct (He (Z.of_nat i) ltac:(lia)) as (r & Hr & Hb & Hc). rewrite (gtab_lookup _ _ _ Hr). do 2 f_equal.
    rewrite <-E_alpha. apply (res_small 8219 13); [lia|done|done| |].
    - apply (E_res 8219 13); [lia|lia|done].
    - apply (cong_trans 8219 _ (2 ^ Z.of_nat i)); [by apply cong_sym|]. apply (E_cong 8219 13); [lia|lia|done]. }
  split.
  - apply list_eq_same_length with (n := length gf13_exp); [by rewrite map_length|lia|].
    intros i x y Hi Hx Hy. rewrite HE in Hx by lia. rewrite tab_lookup, exp_pow in Hy by lia. congruence.
  - apply list_eq_same_length with (n := length (tl gf13_log)); [by rewrite map_length|rewrite !len_tl; lia|].
    intros i x y Hi Hx Hy. rewrite len_tl in Hi. rewrite lookup_tail in Hx.
    change (map Some (tl gf13_log)) with (Some <$> tl gf13_log) in Hy.
    assert (Hy' : map Some gf13_log !! S i = Some y).
    { rewrite list_lookup_fmap in Hy |- *. by rewrite lookup_tail in Hy. }
    rewrite tab_lookup in Hy' by lia. injection Hy' as <-.
    destruct (Hl (Z.of_nat (S i)) ltac:(lia)) as (k & Hk & Hkb & Hke). rewrite (gtab_lookup _ _ _ Hk) in Hx. injection Hx as <-.
    f_equal. rewrite <-(Z2Nat.id k) in Hke by lia. apply gtab_lookup in Hke. rewrite HE in Hke by lia. injection Hke as Hke.
    rewrite <-Hke, log_pow by lia. lia.
Qed.
Example C53_examples : poly_search 2 = Some [7] /\ poly_search 3 = Some [11; 13] /\ poly_search 4 = Some [19; 25] /\
  is_primitive 31 = Some false /\ primitive 4 19 /\ ~ primitive 4 31.
Proof.
  do 4 (split; [by vm_compute|]). split.
  - destruct (C53_is_primitive 4 19) as (b & Hb & Hp); [lia|lia|done|]. apply Hp. assert (H : is_primitive 19 = Some true) by (by vm_compute). congruence.
  - destruct (C53_is_primitive 4 31) as (b & Hb & Hp); [lia|lia|done|]. intros H%Hp. assert (is_primitive 31 = Some false) by (by vm_compute). congruence.
Qed.

(** ** Printing *)
Lemma len_shiftr p : 0 < p -> len p = S (len (Z.shiftr p 1)).
Proof.
  intros Hp. unfold len at 1. destruct (Z.eqb_spec p 0); [lia|]. f_equal. unfold len.
  destruct (Z.eq_dec p 1) as [-> |]; [done|]. rewrite (log2_shiftr1 p) by lia.
  assert (0 < Z.shiftr p 1). { rewrite Z.shiftr_div_pow2 by lia. apply Z.div_str_pos. change (2 ^ 1) with 2. lia. }
  destruct (Z.eqb_spec (Z.shiftr p 1) 0); [lia|]. pose proof (Z.log2_nonneg (Z.shiftr p 1)). lia.
Qed.
Lemma land1_odd p : Z.land p 1 = if Z.odd p then 1 else 0.
Proof. change 1 with (Z.ones 1) at 1. rewrite Z.land_ones by lia. change (2 ^ 1) with 2. apply Zmod_odd. Qed.
Lemma recip_bits n : forall p r k, (n <= 64)%nat -> 0 <= p < 2 ^ Z.of_nat n -> 0 <= r < 2 ^ (64 - Z.of_nat n) -> 0 <= k ->
  Z.testbit (recip_loop n p r) k = if k <? Z.of_nat (len p) then Z.testbit p (Z.of_nat (len p) - 1 - k) else Z.testbit r (k - Z.of_nat (len p)).
Proof.
  induction n as [|n IH]; intros p r k Hn Hp Hr Hk.
  - change (2 ^ Z.of_nat 0) with 1 in Hp. replace p with 0 by lia. cbn [recip_loop]. change (len 0) with 0%nat.
    destruct (Z.ltb_spec k (Z.of_nat 0)); [lia|]. f_equal. lia.
  - cbn [recip_loop]. destruct (Z.eqb_spec p 0) as [-> |Hp0].
    + change (len 0) with 0%nat. destruct (Z.ltb_spec k (Z.of_nat 0)); [lia|]. f_equal. lia.
    + rewrite (len_shiftr p) by lia.
      assert (E2 : 2 ^ (64 - Z.of_nat n) = 2 * 2 ^ (64 - Z.of_nat (S n))).
      { replace (64 - Z.of_nat n) with (Z.succ (64 - Z.of_nat (S n))) by lia. apply Z.pow_succ_r. lia. }
      assert (2 ^ (64 - Z.of_nat n) <= 2 ^ 64) by (apply Z.pow_le_mono_r; lia).
      assert (Es : Z.shiftl r 1 = 2 * r) by (rewrite Z.shiftl_mul_pow2 by lia; lia).
      rewrite t64_small by lia.
      assert (Hb : forall j, 0 <= j -> Z.testbit (Z.lor (Z.shiftl r 1) (Z.land p 1)) j = if j =? 0 then Z.odd p else Z.testbit r (j - 1)).
      { intros j Hj. rewrite Z.lor_spec, Z.shiftl_spec by lia. rewrite land1_odd. destruct (Z.eqb_spec j 0) as [-> |].
        - rewrite (Z.testbit_neg_r r) by lia. by destruct (Z.odd p).
        - replace (Z.testbit (if Z.odd p then 1 else 0) j) with false; [by rewrite orb_false_r|].
          destruct (Z.odd p); [|by rewrite Z.bits_0]. symmetry. apply Z.bits_above_log2; cbn; lia. }
      rewrite IH; [|lia|by apply shiftr1_lt| |lia].
      2:{ split; [apply Z.lor_nonneg; rewrite land1_odd; destruct (Z.odd p); lia|].
          apply lt_pow_bits; [lia|apply Z.lor_nonneg; rewrite land1_odd; destruct (Z.odd p); lia|].
          intros j Hj. rewrite Hb by lia. destruct (Z.eqb_spec j 0); [lia|]. apply (high_bits r (64 - Z.of_nat (S n))); lia. }
      set (L := len (Z.shiftr p 1)).
      destruct (Z.ltb_spec k (Z.of_nat L)), (Z.ltb_spec k (Z.of_nat (S L))); try lia.
      * rewrite Z.shiftr_spec by lia. f_equal. lia.
      * rewrite Hb by lia. destruct (Z.eqb_spec (k - Z.of_nat L) 0); [|lia]. rewrite <-Z.bit0_odd. f_equal. lia.
      * rewrite Hb by lia. destruct (Z.eqb_spec (k - Z.of_nat L) 0); [lia|]. f_equal. lia.
Qed.
(** reciprocal reverses the coefficients, and the terms printed are those of p. *)
Theorem C53_print p : 0 < p < 2 ^ 64 ->
  (forall k, 0 <= k -> Z.testbit (reciprocal p) k = (k <=? Z.log2 p) && Z.testbit p (Z.log2 p - k)) /\
  (forall e, e ∈ poly_terms p <-> Z.testbit p e = true) /\ StronglySorted Z.gt (poly_terms p).
Proof.
  intros Hp. split; [|split].
  - intros k Hk. unfold reciprocal. rewrite recip_bits by (change (2 ^ (64 - Z.of_nat 64)) with 1; change (2 ^ Z.of_nat 64) with (2 ^ 64); lia).
    rewrite Z.bits_0. unfold len. destruct (Z.eqb_spec p 0); [lia|]. pose proof (Z.log2_nonneg p).
    rewrite Nat2Z.inj_succ, Z2Nat.id by lia. replace (Z.succ (Z.log2 p) - 1 - k) with (Z.log2 p - k) by lia.
    destruct (Z.ltb_spec k (Z.succ (Z.log2 p))), (Z.leb_spec k (Z.log2 p)); try lia; done.
  - intros e. unfold poly_terms. rewrite elem_of_list_filter.
    assert (Hb : forall e, 0 <= e -> Z.land (Z.shiftr p e) 1 <> 0 <-> Z.testbit p e = true).
    { intros i Hi. rewrite land1_odd, <-Z.bit0_odd, Z.shiftr_spec by lia. rewrite Z.add_0_l. by destruct (Z.testbit p i). }
    split.
    + intros [H1 H2]. apply elem_of_list_In, in_map_iff in H2 as (i & <- & _). apply Hb; [lia|done].
    + intros H. assert (He : 0 <= e). { destruct (Z.lt_ge_cases e 0); [|done]. by rewrite Z.testbit_neg_r in H. }
      split; [by apply Hb|]. apply elem_of_list_In, in_map_iff. exists (Z.to_nat e). split; [lia|].
      rewrite <-in_rev. apply in_seq. destruct (Z.lt_ge_cases e 64); [lia|]. rewrite (high_bits p 64) in H by lia. done.
  - unfold poly_terms.
    assert (H : forall n, StronglySorted Z.gt (map Z.of_nat (rev (seq 0 n)))).
    { induction n as [|n IH]; [constructor|]. rewrite seq_S, rev_app_distr. cbn. constructor; [done|].
      apply Forall_forall. intros x Hx. apply elem_of_list_In, in_map_iff in Hx as (i & <- & Hi).
      apply in_rev in Hi. apply in_seq in Hi. lia. }
    specialize (H 64%nat). induction H as [|x l Hs IH Hx]; [constructor|]. rewrite filter_cons. destruct (decide _); [|done].
    constructor; [done|]. apply Forall_forall. intros y Hy. apply elem_of_list_filter in Hy as [_ Hy].
    rewrite Forall_forall in Hx. by apply Hx.
Qed.
