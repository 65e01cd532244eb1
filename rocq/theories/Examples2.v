(** Concrete cases for the theorems of Quiet.v. *)
From stdpp Require Import gmap.
From Verif Require Import Base Bytes Nand Journal MapModel Api Spec Ppc Props Wear Quiet Examples.
Local Open Scope Z_scope.

(** The chip of Examples.v (30 blocks of 4 pages, block 3 marked bad in the
    factory), but no operation fails. *)
Definition q_chip : nand := Nand exg (fun _ => Free) (fun b => b =? 3) (fun _ _ => EvOk) 0 (fun _ => 0).

Example q_fresh : fresh exg ex_weak q_chip.
Proof.
  split_and!; [done|by intros ? ?| |by split].
  intros b. cbn. unfold ex_weak. intros ->. by destruct (b =? 1).
Qed.
Example q_quiet : quiet q_chip.
Proof. by split. Qed.
Example q_no_failure : no_failure q_chip.
Proof. split; [by left|done]. Qed.
Example q_no_checkpoint : no_checkpoint q_chip.
Proof. by intros ? ?. Qed.
Example q_good b : 0 <= b < 30 -> b <> 3 -> good_block q_chip b.
Proof. intros H1 H2. split; [done|]. cbn. by apply Z.eqb_neq. Qed.

(** 150 writes to five sectors and back: the journal goes round the chip. *)
Definition q_ops : list op := map (fun i => OWrite (Z.of_nat i mod 5) (ex_data (Z.of_nat i))) (seq 0 150).
Definition q_run := run ex_fuel 1 99 (map HOp q_ops) (snd (restart 1 99 q_chip)).
Example q_valid : Forall (valid_op exg) q_ops.
Proof.
  unfold q_ops. apply Forall_map, Forall_forall. intros i _. cbn. unfold wsector, ex_data, blen.
  split; [|done]. pose proof (Z.mod_pos_bound (Z.of_nat i) 5). lia.
Qed.
Example q_codes : map code (fst q_run) = replicate 150 0.
Proof. by vm_compute. Qed.
Example q_wear : map (n_erases (chip (snd q_run))) (map Z.of_nat (seq 0 30)) =
  [2; 2; 2; 0] ++ replicate 19 2 ++ replicate 7 1.
Proof. by vm_compute. Qed.
Definition q_s : ms := snd q_run.
Lemma q_run_eq : run ex_fuel 1 99 (map HOp q_ops) (snd (restart 1 99 q_chip)) = (fst q_run, q_s).
Proof. unfold q_s, q_run. apply run_pair. Qed.
Example q_completed : Forall completed (fst q_run).
Proof. apply code_completed. rewrite q_codes. apply Forall_replicate. lia. Qed.
Example q_C17 : n_erases (chip q_s) 0 - 0 - (n_erases (chip q_s) 29 - 0) <= 1.
Proof.
  exact (proj1 (C17_wear_level q_chip ex_fuel 1 99 q_ops (fst q_run) q_s OSync _ _ 0 29
    (supported_is_small _ ex_supported) q_no_checkpoint q_no_failure q_run_eq q_completed (run_pair (exec ex_fuel OSync q_s))
    (q_good 0 ltac:(lia) ltac:(lia)) (q_good 29 ltac:(lia) ltac:(lia)))).
Qed.

(** With power cycles in between the distribution is less regular (block 24 has
    been erased twice, 20 and 22 once). *)
Definition q_half : list hop := map HOp (take 60 q_ops) ++ [HReset 1 7] ++ map HOp (take 10 q_ops) ++ [HReset 1 7].
Definition q_hist : list hop := q_half ++ q_half.
Definition q_run2 := run ex_fuel 1 99 q_hist (snd (restart 1 99 q_chip)).
Example q_hist_valid : Forall (valid_hop exg) q_hist.
Proof.
  assert (H : forall k, Forall (valid_hop exg) (map HOp (take k q_ops))).
  { intros k. apply Forall_map. apply Forall_take, q_valid. }
  unfold q_hist, q_half. repeat first [apply Forall_app; split | apply H | by repeat constructor].
Qed.
Example q_wear2 : resets q_hist = 4 /\ map (n_erases (chip (snd q_run2))) [19; 20; 21; 22; 23; 24; 25] = [2; 1; 2; 1; 1; 2; 1].
Proof. by vm_compute. Qed.
Lemma q_run2_eq : run ex_fuel 1 99 q_hist (snd (restart 1 99 q_chip)) = (fst q_run2, snd q_run2).
Proof. unfold q_run2. apply run_pair. Qed.
Example q_C41 : length (fst q_run2) = length q_hist.
Proof.
  exact (proj1 (C41_no_io_errors exg ex_weak ex_supported ex_few_weak q_chip ex_fuel 1 99 q_hist
    (fst q_run2) (snd q_run2) q_fresh q_quiet ex_enough q_hist_valid q_run2_eq)).
Qed.

(** C42: the full map of Examples.v. *)
Lemma q_full_code : fst (exec ex_fuel (OWrite 77 (ex_data 1)) s5) = ER E_MAP_FULL.
Proof. by vm_compute. Qed.
Lemma pair_of {A B} (x : A * B) a : fst x = a -> exists b, x = (a, b).
Proof. destruct x as [x y]. cbn. intros ->. by exists y. Qed.
Example q_C42 : reachable exg ex_weak s5 /\ exists s', exec ex_fuel (OWrite 77 (ex_data 1)) s5 = (ER E_MAP_FULL, s').
Proof. exact (conj ex_reach5 (pair_of _ _ q_full_code)). Qed.
