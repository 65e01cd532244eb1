(** However badly damaged the data, a Hamming repair stays small, and a repair of a full
    chunk that reports success leaves data and ECC in agreement (C61).
    Nothing here models code; the model is Hamming.v. *)
From stdpp Require Import list.
From Coq Require Import ZArith Lia.
From Verif Require Import EccBits Hamming.
Local Open Scope Z_scope.

Lemma locate_pos n : forall s pos bit q, 0 <= pos -> 0 <= bit -> locate n s pos bit = Some q -> 0 <= q.
Proof.
  induction n as [|n IH]; intros s pos bit q Hp Hb; cbn [locate]; [by intros [= <-]|].
  assert (0 <= Z.shiftl bit 1) by (by apply Z.shiftl_nonneg).
  destruct (Z.land s 3 =? 1); [apply IH; [apply Z.lor_nonneg; lia|done]|].
  destruct (negb _); [done|]. by apply IH.
Qed.

Lemma repair_flip b q : 0 <= q ->
  alter (fun x => Z.lxor x (Z.shiftl 1 (Z.land q 7))) (Z.to_nat (Z.shiftr q 3)) b = flip (Z.to_nat q) b.
Proof.
  intros Hq. unfold flip.
  assert (E3 : Z.to_nat (Z.shiftr q 3) = (Z.to_nat q / 8)%nat).
  { rewrite Z.shiftr_div_pow2 by lia. change (2 ^ 3) with 8. by rewrite Z2Nat.inj_div by lia. }
  assert (E7 : Z.shiftl 1 (Z.land q 7) = 2 ^ Z.of_nat (Z.to_nat q mod 8)).
  { change 7 with (Z.ones 3). rewrite Z.land_ones by lia. change (2 ^ 3) with 8.
    rewrite Z.shiftl_mul_pow2 by (apply Z.mod_pos_bound; lia). rewrite Z.mul_1_l. f_equal.
    rewrite Nat2Z.inj_mod, Z2Nat.id by lia. done. }
  by rewrite E3, E7.
Qed.

(** C61.  Whatever the chunk (of any length) and the syndrome: a repair that reports failure
    leaves the chunk alone, any other flips at most one bit of it. *)
Theorem C61_hamming_repair_bounded chunk syndrome r chunk' :
  hamming_repair chunk syndrome = (r, chunk') ->
  (r = -1 /\ chunk' = chunk) \/
  (r = 0 /\ (chunk' = chunk \/ exists p, (p < nbits chunk)%nat /\ chunk' = flip p chunk)).
Proof.
  unfold hamming_repair. destruct (_ =? 0). { intros [= <- <-]. auto. }
  destruct (_ =? 0). { intros [= <- <-]. auto. }
  destruct (locate 12 syndrome 0 1) as [q|] eqn:El; [|intros [= <- <-]; auto].
  apply locate_pos in El; [|lia|lia]. destruct (Z.ltb_spec (Z.shiftr q 3) (Z.of_nat (length chunk))) as [Hlt|]; intros [= <- <-]; [|auto].
  right. split; [done|]. right. exists (Z.to_nat q). split; [|by apply repair_flip].
  rewrite Z.shiftr_div_pow2 in Hlt by lia. change (2 ^ 3) with 8 in Hlt. unfold nbits.
  pose proof (Z.mul_succ_div_gt q 8 ltac:(lia)). lia.
Qed.

(** The location loop succeeds on the patterns of single bits only: the syndromes on which
    it succeeds, with the positions found. *)
Fixpoint sols (n : nat) (pos bit : Z) : list (Z * Z) :=
  match n with
  | O => [(0, pos)]
  | S n => map (fun x => (4 * fst x + 1, snd x)) (sols n (Z.lor pos bit) (Z.shiftl bit 1)) ++
           map (fun x => (4 * fst x + 2, snd x)) (sols n pos (Z.shiftl bit 1))
  end.
Lemma locate_sols n : forall s pos bit q, 0 <= s < 4 ^ Z.of_nat n -> locate n s pos bit = Some q -> In (s, q) (sols n pos bit).
Proof.
  induction n as [|n IH]; intros s pos bit q Hs; cbn [locate sols].
  - intros [= <-]. left. f_equal. change (4 ^ Z.of_nat 0) with 1 in Hs. lia.
  - rewrite Nat2Z.inj_succ, Z.pow_succ_r in Hs by lia.
    change 3 with (Z.ones 2). rewrite Z.land_ones by lia. rewrite Z.shiftr_div_pow2 by lia. change (2 ^ 2) with 4.
    pose proof (Z.div_mod s 4 ltac:(lia)) as Ed. pose proof (Z.mod_pos_bound s 4 ltac:(lia)) as Hm.
    assert (Hq : 0 <= s / 4 < 4 ^ Z.of_nat n) by (split; [apply Z.div_pos; lia|apply Z.div_lt_upper_bound; lia]).
    destruct (Z.eqb_spec (s mod 4) 1) as [E1|N1]; [|destruct (Z.eqb_spec (s mod 4) 2) as [E2|N2]; cbn [negb]; [|done]];
      intros H; apply (IH _ _ _ _ Hq) in H; apply in_or_app; [left|right]; apply in_map_iff;
      (eexists; split; [|exact H]); cbn [fst snd]; f_equal; lia.
Qed.
Lemma sols_patn : forallb (fun x => (patn (snd x) =? fst x) && (0 <=? snd x) && (snd x <? 4096)) (sols 12 0 1) = true.
Proof. by vm_compute. Qed.
Lemma locate_patn s q : 0 <= s < 2 ^ 24 -> locate 12 s 0 1 = Some q -> 0 <= q < 4096 /\ s = patn q.
Proof.
  intros Hs H. apply locate_sols in H; [|exact Hs]. pose proof sols_patn as C. rewrite forallb_forall in C.
  specialize (C _ H). cbn [fst snd] in C. apply andb_prop in C as [C C3]. apply andb_prop in C as [C1 C2].
  apply Z.eqb_eq in C1. apply Z.leb_le in C2. apply Z.ltb_lt in C3. split; [lia|congruence].
Qed.

Lemma land_pow2 s : 0 < s < 2 ^ 24 -> Z.land s (s - 1) = 0 -> exists k, (k < 24)%nat /\ s = 2 ^ Z.of_nat k.
Proof.
  intros Hs H. set (m := Z.log2 s). pose proof (Z.log2_spec s ltac:(lia)) as Hl. fold m in Hl.
  assert (Hm0 : 0 <= m) by apply Z.log2_nonneg.
  assert (Hm : m < 24) by (apply Z.log2_lt_pow2; lia).
  exists (Z.to_nat m). split; [lia|]. rewrite Z2Nat.id by lia.
  destruct (Z.eq_dec s (2 ^ m)) as [|Hne]; [done|]. exfalso.
  rewrite Z.pow_succ_r in Hl by done.
  assert (B : forall x, 2 ^ m <= x < 2 * 2 ^ m -> Z.testbit x m = true).
  { intros x Hx. apply Z.testbit_true; [done|]. replace (x / 2 ^ m) with 1; [done|]. apply (Z.div_unique x (2 ^ m) 1 (x - 2 ^ m)); lia. }
  assert (E : Z.testbit (Z.land s (s - 1)) m = true) by (rewrite Z.land_spec, !B by lia; done).
  rewrite H, Z.bits_0 in E. done.
Qed.

Lemma shiftr24 s : Z.shiftr s 24 = 0 <-> 0 <= s < 2 ^ 24.
Proof.
  rewrite Z.shiftr_div_pow2 by lia. split.
  - intros H. pose proof (Z.div_mod s (2 ^ 24) ltac:(lia)). pose proof (Z.mod_pos_bound s (2 ^ 24) ltac:(lia)). lia.
  - apply Z.div_small.
Qed.
Lemma unpack_24 e : byte_list e -> length e = 3%nat -> Z.shiftr (unpack e) 24 = 0.
Proof.
  intros He Hl. destruct e as [|e0 [|e1 [|e2 [|]]]]; try done.
  inversion_clear He as [|?? H0 He1]. inversion_clear He1 as [|?? H1 He2]. inversion_clear He2 as [|?? H2 _].
  rewrite unpack_lin by done. unfold byte in *. rewrite !Z.shiftr_lxor.
  rewrite (proj2 (shiftr24 e0)) by lia. rewrite !Z.shiftl_mul_pow2 by lia.
  rewrite (proj2 (shiftr24 (e1 * 2 ^ 8))) by lia. rewrite (proj2 (shiftr24 (e2 * 2 ^ 16))) by lia. done.
Qed.
Lemma syndrome_24 b e : byte_list b -> byte_list e -> length e = 3%nat -> 0 <= hamming_syndrome b e < 2 ^ 24.
Proof.
  intros Hb He Hl. apply shiftr24. unfold hamming_syndrome. rewrite Z.shiftr_lxor, unpack_24 by done.
  rewrite <-generate_unpack by done. destruct (generate_bytes b). rewrite unpack_24 by done. done.
Qed.

(** C61.  Whatever was read back from a full chunk and its ECC bytes: if a repair with the
    computed syndrome reports success, the resulting chunk and the ECC bytes agree, or
    agree once one ECC bit is flipped. *)
Theorem C61_hamming_success_agrees chunk ecc chunk' :
  byte_list chunk -> length chunk = 512%nat -> byte_list ecc -> length ecc = 3%nat ->
  hamming_repair chunk (hamming_syndrome chunk ecc) = (0, chunk') ->
  hamming_syndrome chunk' ecc = 0 \/ exists k, (k < 24)%nat /\ hamming_syndrome chunk' (flip k ecc) = 0.
Proof.
  intros Hb Hl He Hel. pose proof (syndrome_24 chunk ecc Hb He Hel) as Hs.
  set (s := hamming_syndrome chunk ecc) in *. unfold hamming_repair.
  destruct (Z.eqb_spec s 0) as [E0|N0]. { intros [= <-]. by left. }
  destruct (Z.eqb_spec (Z.land s (s - 1)) 0) as [E1|N1].
  { intros [= <-]. right. destruct (land_pow2 s ltac:(lia) E1) as (k & Hk & Ek). exists k. split; [done|].
    unfold hamming_syndrome. rewrite unpack_flip by done. rewrite <-Z.lxor_assoc. fold (hamming_syndrome chunk ecc). fold s.
    rewrite Ek. apply Z.lxor_nilpotent. }
  destruct (locate 12 s 0 1) as [q|] eqn:El; [|done].
  destruct (locate_patn s q Hs El) as [Hq Eq].
  assert (Hlt : Z.shiftr q 3 < Z.of_nat (length chunk)).
  { rewrite Z.shiftr_div_pow2 by lia. rewrite Hl. change (2 ^ 3) with 8. apply Z.div_lt_upper_bound; lia. }
  rewrite (proj2 (Z.ltb_lt _ _) Hlt). intros [= <-]. left. rewrite repair_flip by lia.
  unfold hamming_syndrome. rewrite parity_flip by (try done; unfold nbits; lia). rewrite pat_patn, Z2Nat.id by lia.
  rewrite <-Eq, (Z.lxor_comm (parity_scan chunk)), Z.lxor_assoc. fold (hamming_syndrome chunk ecc). fold s. apply Z.lxor_nilpotent.
Qed.

(** The theorems apply to hopeless data: three bits of a chunk of zeros but for one byte, flipped. *)
Definition hb_chunk : list Z := 90 :: replicate 511 0.
Definition hb_read : list Z := flips [0; 9; 77]%nat hb_chunk.
Example ex_C61_wrong : exists p, (p < nbits hb_read)%nat /\
  hamming_repair hb_read (hamming_syndrome hb_read (hamming_generate hb_chunk)) = (0, flip p hb_read) /\ flip p hb_read <> hb_chunk.
Proof.
  exists 68%nat. split; [cbn; lia|]. split; [by vm_compute|]. intros H.
  apply (f_equal (fun l => nth 0 l 0)) in H. by vm_compute in H.
Qed.
(** ... and the second one needs the chunk to be full: on a chunk of one byte a repair may
    report success and change nothing although data and ECC disagree in many bits. *)
Example ex_C61_short : let ecc := [85; 102; 85] in let s := hamming_syndrome [0] ecc in
  hamming_repair [0] s = (0, [0]) /\ s <> 0 /\
  forallb (fun k => negb (hamming_syndrome [0] (flip k ecc) =? 0)) (seq 0 24) = true.
Proof. by vm_compute. Qed.
