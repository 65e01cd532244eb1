(** choose_ppc (journal.c:139-157): correctness, and supported geometries. *)
From Verif Require Import Base Bytes Nand Journal Geom Spec.
Local Open Scope Z_scope.

(** Bytes needed in a checkpoint page for a group of [2 ^ c] pages. *)
Definition cp_bytes (c : Z) : Z := HEADER_SIZE + COOKIE_SIZE + (2 ^ c - 1) * META_SIZE.

Lemma choose_ppc_loop_spec fuel : forall mm ppc max,
  1 <= ppc <= max -> (2 ^ ppc - 1) * META_SIZE <= mm -> max - ppc <= Z.of_nat fuel ->
  let c := choose_ppc_loop fuel mm ((2 ^ ppc - 1) * META_SIZE) ppc max in
  ppc <= c <= max /\ (2 ^ c - 1) * META_SIZE <= mm /\ (c < max -> mm < (2 ^ (c + 1) - 1) * META_SIZE).
Proof.
  induction fuel as [|fuel IH]; intros mm ppc max Hp Hm Hf; cbn [choose_ppc_loop].
  { cbn zeta. split; [lia|]. split; [done|]. lia. }
  destruct (Z.ltb_spec ppc max) as [Hlt|Hge]; [|cbn zeta; split; [lia|split; [done|lia]]].
  assert (E : Z.shiftl ((2 ^ ppc - 1) * META_SIZE) 1 + META_SIZE = (2 ^ (ppc + 1) - 1) * META_SIZE).
  { rewrite Z.shiftl_mul_pow2 by lia. rewrite Z.pow_add_r by lia. change (2 ^ 1) with 2. lia. }
  rewrite E. destruct (Z.ltb_spec mm ((2 ^ (ppc + 1) - 1) * META_SIZE)) as [Hb|Hb].
  - cbn zeta. split; [lia|]. split; [done|]. intros _. exact Hb.
  - specialize (IH mm (ppc + 1) max ltac:(lia) Hb ltac:(lia)). cbn zeta in *.
    destruct IH as (H1 & H2 & H3). split; [lia|]. split; [done|exact H3].
Qed.

Lemma choose_ppc_spec lps lppb : 0 <= lps -> 1 <= lppb -> cp_bytes 1 <= 2 ^ lps ->
  let c := choose_ppc lps lppb in
  1 <= c <= lppb /\ cp_bytes c <= 2 ^ lps /\ (c < lppb -> 2 ^ lps < cp_bytes (c + 1)).
Proof.
  intros H0 H1 H2. unfold choose_ppc. unfold cp_bytes in *.
  rewrite Z.shiftl_mul_pow2, Z.mul_1_l by lia.
  pose proof (choose_ppc_loop_spec (Z.to_nat lppb) (2 ^ lps - HEADER_SIZE - COOKIE_SIZE) 1 lppb) as H.
  change ((2 ^ 1 - 1) * META_SIZE) with META_SIZE in H.
  change ((2 ^ 1 - 1) * META_SIZE) with META_SIZE in H2.
  destruct H as (A & B & C); [lia|lia|lia|]. cbn zeta. split; [done|]. split; [lia|].
  intros Hc. specialize (C Hc). lia.
Qed.

Lemma supported_small_geo g : supported_small g -> geo_ok g (choose_ppc (g_lps g) (g_lppb g)).
Proof.
  intros (Hl & Hb & Hn & Ht).
  assert (H256 : 256 <= 2 ^ g_lps g) by (change 256 with (2 ^ 8); apply Z.pow_le_mono_r; lia).
  assert (H64k : 2 ^ g_lps g <= 65536) by (change 65536 with (2 ^ 16); apply Z.pow_le_mono_r; lia).
  destruct (choose_ppc_spec (g_lps g) (g_lppb g)) as (A & B & C);
    [lia|lia|unfold cp_bytes, HEADER_SIZE, COOKIE_SIZE, META_SIZE; lia|].
  set (c := choose_ppc _ _) in *.
  split; auto; try lia.
  - destruct (Z.le_gt_cases c 8) as [|Hgt]; [done|]. exfalso.
    assert (512 <= 2 ^ c) by (change 512 with (2 ^ 9); apply Z.pow_le_mono_r; lia).
    unfold cp_bytes, HEADER_SIZE, COOKIE_SIZE, META_SIZE in B. lia.
  - unfold page_size. rewrite Z.shiftl_mul_pow2, Z.mul_1_l by lia. exact B.
Qed.
Lemma supported_geo g : supported g -> geo_ok2 g (choose_ppc (g_lps g) (g_lppb g)).
Proof.
  intros (Hl & Hb & Hn & Ht). split; [apply supported_small_geo; unfold supported_small; lia|].
  assert (H512 : 512 <= 2 ^ g_lps g) by (change 512 with (2 ^ 9); apply Z.pow_le_mono_r; lia).
  destruct (choose_ppc_spec (g_lps g) (g_lppb g)) as (A & B & C);
    [lia|lia|unfold cp_bytes, HEADER_SIZE, COOKIE_SIZE, META_SIZE; lia|].
  set (c := choose_ppc _ _) in *.
  destruct (Z.eq_dec c 1) as [E|]; [|lia]. rewrite E in C.
  specialize (C ltac:(lia)). unfold cp_bytes, HEADER_SIZE, COOKIE_SIZE, META_SIZE in C.
  change (2 ^ (1 + 1)) with 4 in C. lia.
Qed.
Lemma supported_is_small g : supported g -> supported_small g.
Proof. unfold supported, supported_small. lia. Qed.
