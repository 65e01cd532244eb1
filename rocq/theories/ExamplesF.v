(** Concrete cases for the C20 theorems of HistF.v: a history in which programs
    fail in the middle of two blocks, the second one while the first is being
    recovered. *)
From stdpp Require Import gmap.
From Verif Require Import Base Bytes Nand Journal MapModel Api Spec SpecF San History Props HistF Examples Check CheckMap.
From Verif Require Pres.
Local Open Scope Z_scope.

Definition weakF (b : Z) : bool := (b =? 1) || (b =? 2) || (b =? 4).
Definition orcF (ts : list nat) (t : nat) (o : nop) : event :=
  match o with
  | OpProg p => if existsb (Nat.eqb t) ts && weakF (p / 4) then EvFail (fun _ => EJunk None) else EvOk
  | _ => EvOk
  end.
Definition chipF (ts : list nat) : nand := Nand exg (fun _ => Free) (fun b => b =? 4) (orcF ts) 0 (fun _ => 0).

Example exF_fresh ts : fresh_chip exg weakF (chipF ts).
Proof.
  split_and!; [done|by intros ? ?| |].
  - intros b. cbn. unfold weakF. intros ->. by destruct (b =? 1), (b =? 2).
  - split; [intros t b f; cbn; done|]. intros t p f. cbn [n_orc chipF orcF].
    change (2 ^ g_lppb exg) with 4. destruct (weakF (p / 4)); [done|]. by rewrite andb_false_r.
Qed.

Example exF_few_weak : few_weak exg weakF.
Proof.
  intros b. set (r := b mod 30).
  assert (Hr : 0 <= r < 30) by (apply Z.mod_pos_bound; lia).
  assert (E : forall i, weakF ((b + i) mod g_nblk exg) = weakF ((r + i) mod 30)).
  { intros i. cbn. unfold r. by rewrite Zplus_mod_idemp_l. }
  assert (Hx : exists i j, (0 <= i < j /\ j < 8) /\
     (weakF ((r + i) mod 30) || weakF ((r + j) mod 30) = false)).
  { assert (r = 0 \/ r = 1 \/ r = 2 \/ r = 3 \/ r = 4 \/ r = 28 \/ r = 29 \/ (5 <= r <= 27)) as Hc by lia.
    assert (Hk : forall k, 5 <= k < 30 -> weakF k = false).
    { intros k Hk. unfold weakF. repeat rewrite (proj2 (Z.eqb_neq _ _)) by lia. done. }
    destruct Hc as [-> |[-> |[-> |[-> |[-> |[-> |[-> |Hc]]]]]]]; [exists 5, 6|exists 5, 6|exists 5, 6|exists 2, 3|exists 1, 2|exists 0, 1|exists 0, 1|exists 0, 1];
      (split; [lia|]); try done.
    rewrite !(Z.mod_small (_ + _)) by lia. by rewrite !Hk by lia. }
  destruct Hx as (i & j & [H1 H2] & Hw). apply orb_false_elim in Hw as [Hw1 Hw2].
  exists i, j. rewrite !E. done.
Qed.

Definition fuelX : nat := 1000.
Example exF_fuel : enough_fuelF exg fuelX.
Proof. unfold enough_fuelF, fuelX. cbn. lia. Qed.

(** A check of [tame] that can be run, for these chips. *)
Definition gave_upb (r : out resp) : bool :=
  match r with ER E_JOURNAL_FULL | ER E_ECC | ER E_TOO_BAD | ST Crash => true | _ => false end.
Definition duringb (ts : list nat) (n n' : nand) : bool :=
  existsb (fun t => (n_tick n <=? t)%nat && (t <? n_tick n')%nat) ts.
Fixpoint tameb (ts : list nat) (fuel : nat) (gcr junk : Z) (settled : bool) (h : list hop) (s : ms) : bool :=
  match h with
  | [] => true
  | HReset gcr' junk' :: h => tameb ts fuel gcr junk false h (snd (restart gcr' junk' (chip s)))
  | HOp o :: h =>
    let '(r, s1) := exec fuel o s in
    (negb (duringb ts (chip s) (chip s1)) || (settled && (0 <? MapModel.map_size s) && negb (gave_upb r))) &&
    match r with
    | OK _ | ER _ => tameb ts fuel gcr junk (settled || settles o r) h s1
    | ST Crash => tameb ts fuel gcr junk false h (snd (restart gcr junk (chip s1)))
    | ST _ => true
    end
  end.
Lemma tameb_ok ts fuel gcr junk h : forall settled s, n_orc (chip s) = orcF ts ->
  tameb ts fuel gcr junk settled h s = true -> tame fuel gcr junk settled h s.
Proof.
  assert (Hres : forall a b n, chip (snd (restart a b n)) = n).
  { intros a b n. apply (Pres.restart_chip a b n). }
  induction h as [|x h IH]; intros st s Ho Ht; [done|]. destruct x as [o|a b].
  - cbn [tame tameb] in *. pose proof (no_failure_unaffected fuel o s) as Hu.
    destruct (exec_ag fuel o s) as [He _]. destruct (exec fuel o s) as [r s1] eqn:E.
    cbn [fst snd] in *. destruct He as (Eo & ? & He). apply andb_true_iff in Ht as [H1 H2].
    assert (Ho1 : n_orc (chip s1) = orcF ts) by congruence.
    split.
    + apply orb_true_iff in H1 as [H1|H1].
      * left. apply Hu. intros (t & p & f & Ht & Hev & _). apply negb_true_iff in H1.
        rewrite Ho in Hev. cbn [orcF] in Hev. destruct (existsb (Nat.eqb t) ts) eqn:Ex; [|done].
        apply existsb_exists in Ex as (t' & Hin & Heq). apply Nat.eqb_eq in Heq. subst t'.
        assert (Hx : duringb ts (chip s) (chip s1) = true).
        { apply existsb_exists. exists t. split; [done|]. apply andb_true_iff.
          split; [apply Nat.leb_le; lia|apply Nat.ltb_lt; lia]. }
        by rewrite Hx in H1.
      * right. apply andb_true_iff in H1 as [H1 H3]. apply andb_true_iff in H1 as [H0 H1].
        split; [done|]. split; [by apply Z.ltb_lt|].
        intros [->|[->|[->| ->]]]; done.
    + destruct r as [y|y|[]]; auto. apply IH; [by rewrite Hres|done].
  - cbn [tame tameb] in *. apply IH; [by rewrite Hres|done].
Qed.

(** Block 4 is bad from the factory; blocks 1 and 2 fail later. *)
Definition opsF : list op :=
  [ OWrite 7 (ex_data 1); OWrite 9 (ex_data 2); OWrite 2147483655 (ex_data 3);
    OWrite 7 (ex_data 4); OWrite 10 (ex_data 5); OTrim 9; OSync; OWrite 12 (ex_data 6); OGc; OSize ].
Definition tsF : list nat := [7; 10]%nat.
Definition histF : list hop :=
  map HOp opsF ++ [ HReset 2 77; HOp (OWrite 13 (ex_data 7)); HOp (ORead 10) ].
Definition startF : ms := snd (restart 4 99 (chipF tsF)).
Definition runF := run fuelX 4 99 (map HOp opsF) startF.
Definition sF : ms := snd runF.
Definition runF2 := run fuelX 4 99 histF startF.
Definition sF2 : ms := snd runF2.

(** All calls succeed; both failures hit pages that are not the first of their
    block (pages 6 and 9), both in the call that writes sector 10, and both
    blocks are marked bad. *)
Example exF_codes : map code (fst runF) = replicate 10 0 /\
  map code (fst runF2) = replicate 13 0 /\
  map (n_bad (chip sF)) [0;1;2;3;4] = [false;true;true;false;true].
Proof. by vm_compute. Qed.
Definition callF (k : nat) : ms := snd (run fuelX 4 99 (map HOp (take k opsF)) startF).
Example exF_mid :
  (n_tick (chip (callF 4)) = 7 /\ n_tick (chip (callF 5)) = 20)%nat /\
  map code (fst (run fuelX 4 99 (map HOp (take 5 opsF)) startF)) = [0;0;0;0;0] /\
  map (n_bad (chip (callF 4))) [1;2] = [false;false] /\ map (n_bad (chip (callF 5))) [1;2] = [true;true].
Proof. by vm_compute. Qed.

Example exF_valid_ops : Forall (valid_op exg) opsF.
Proof. repeat constructor; cbn; unfold wsector, sector; lia. Qed.
Example exF_valid : Forall (valid_hop exg) histF.
Proof.
  apply Forall_app. split; [apply Forall_map, exF_valid_ops|].
  repeat constructor; cbn; unfold wsector, sector; lia.
Qed.
Example exF_no_copy : Forall no_copy opsF.
Proof. repeat constructor. Qed.
Example exF_completed : Forall completed (fst runF).
Proof. apply code_completed. destruct exF_codes as [-> _]. repeat constructor; lia. Qed.
Example exF_tame : tame fuelX 4 99 false (map HOp opsF) (snd (restart 4 99 (chipF tsF))).
Proof. apply (tameb_ok tsF); [by rewrite Pres.restart_chip|by vm_compute]. Qed.
Example exF_tame2 : tame fuelX 4 99 false histF (snd (restart 4 99 (chipF tsF))).
Proof. apply (tameb_ok tsF); [by rewrite Pres.restart_chip|by vm_compute]. Qed.
Lemma runF_eq : run fuelX 4 99 (map HOp opsF) (snd (restart 4 99 (chipF tsF))) = (fst runF, sF).
Proof. unfold sF, runF, startF. apply run_pair. Qed.
Lemma runF2_eq : run fuelX 4 99 histF (snd (restart 4 99 (chipF tsF))) = (fst runF2, sF2).
Proof. unfold sF2, runF2, startF. apply run_pair. Qed.

Example exF_C20 : exists S H, hist_ok exg ∅ [∅] histF (fst runF2) S H /\ shows exg sF2 S.
Proof.
  exact (C20_block_failure_partial exg weakF ex_supported exF_few_weak (chipF tsF) fuelX 4 99 histF
    (fst runF2) sF2 (exF_fresh tsF) exF_fuel exF_valid exF_tame2 runF2_eq).
Qed.
Example exF_C20_reads : shows exg sF (replay (zip opsF (fst runF))).
Proof.
  exact (C20_reads_latest_partial exg weakF ex_supported exF_few_weak (chipF tsF) fuelX 4 99 opsF
    (fst runF) sF (exF_fresh tsF) exF_fuel exF_valid_ops exF_no_copy exF_tame runF_eq exF_completed).
Qed.
Example exF_contents : map (fun t => first_byte (reads sF t)) [7;9;10;12;2147483655] = [4;255;5;6;3].
Proof. by vm_compute. Qed.
(** C45 and C46 after the two recoveries. *)
Lemma sF2_eq : sF2 = snd (run fuelX 4 99 histF (snd (restart 4 99 (chipF tsF)))).
Proof. rewrite runF2_eq. cbn [snd]. reflexivity. Qed.
Example exF_size : MapModel.map_size sF2 = 4.
Proof. by vm_compute. Qed.
Example exF_C46 : fst (mt_check sF2) = OK tt.
Proof.
  eapply (C46_index_tree_recovery exg weakF ex_supported exF_few_weak (chipF tsF) fuelX 4 99 histF sF2
      (exF_fresh tsF) exF_fuel exF_valid exF_tame2 sF2_eq). left. rewrite exF_size. lia.
Qed.
Example exF_C45 : jt_check exg (js_j (m_js sF2)) = true.
Proof.
  rewrite sF2_eq. exact (C45_journal_pointers_recovery exg weakF ex_supported exF_few_weak (chipF tsF) fuelX 4 99 histF
      (exF_fresh tsF) exF_fuel exF_valid exF_tame2).
Qed.
