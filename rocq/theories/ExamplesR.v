(** Concrete cases for the theorems of Room.v. *)
From stdpp Require Import gmap.
From Verif Require Import Base Bytes Nand Journal MapModel Api Spec Props Quiet Examples Examples2 Room.
Local Open Scope Z_scope.

(** The chip of Examples.v without the power failure: 30 blocks of 4 pages, block 3
    marked bad in the factory; erasing block 1 fails and leaves garbage, as does programming the first
    page of block 5. *)
Definition r_orc (t : nat) (o : nop) : event :=
  match o with
  | OpErase b => if b =? 1 then EvFail (fun p => if p =? 5 then EJunk (Some (replicate 512 165)) else ENone) else EvOk
  | OpProg p => if p =? 20 then EvFail (fun _ => EJunk None) else EvOk
  | OpMark _ => EvOk
  end.
Definition r_chip : nand := Nand exg (fun _ => Free) (fun b => b =? 3) r_orc 0 (fun _ => 0).
Example r_fresh : fresh exg ex_weak r_chip.
Proof.
  split_and!; [done|by intros ? ?| |].
  - intros b. cbn. unfold ex_weak. intros ->. by destruct (b =? 1).
  - split.
    + intros t b f. cbn. unfold ex_weak. by destruct (b =? 1).
    + intros t p f. cbn [n_orc r_chip r_orc]. by destruct (Z.eqb_spec p 20) as [-> |].
Qed.
Example r_spare : spare_blocks exg ex_weak (n_bad r_chip).
Proof. by vm_compute. Qed.
Example r_room : room exg 1 (most_bad exg ex_weak) = 7 /\ room exg 1 (fewest_bad exg (n_bad r_chip)) = 12.
Proof. by vm_compute. Qed.

(** Writing seven sectors over and over, more pages than the chip has. *)
Definition r_ops : list op := map (fun i => OWrite (Z.of_nat i mod 7) (ex_data (Z.of_nat i))) (seq 0 100).
Definition r_run := run ex_fuel 1 99 (map HOp r_ops) (snd (restart 1 99 r_chip)).
Definition r_s : ms := snd r_run.
Example r_valid : Forall (valid_op exg) r_ops.
Proof.
  unfold r_ops. apply Forall_map, Forall_forall. intros i _. cbn. unfold wsector, ex_data, blen.
  split; [|done]. pose proof (Z.mod_pos_bound (Z.of_nat i) 7). lia.
Qed.
Lemma r_run_eq : run ex_fuel 1 99 (map HOp r_ops) (snd (restart 1 99 r_chip)) = (fst r_run, r_s).
Proof. unfold r_s, r_run. apply run_pair. Qed.
(** The run goes through, has gone round the chip more than twice, and leaves a map that is full
    as soon as the bounds allow: at seven sectors. *)
Example r_codes : map code (fst r_run) = replicate 100 0.
Proof. by vm_compute. Qed.
Example r_facts : (map_capacity r_s, MapModel.map_size r_s,
  n_erases (chip r_s) 2, n_bad (chip r_s) 1, n_bad (chip r_s) 5,
  code (fst (exec ex_fuel (OWrite 50 (ex_data 1)) r_s)), code (fst (exec ex_fuel (OWrite 3 (ex_data 1)) r_s))) =
  (7, 7, 3, true, true, 1, 0).
Proof. by vm_compute. Qed.
Example r_completed : Forall completed (fst r_run).
Proof. apply code_completed. rewrite r_codes. apply Forall_replicate. lia. Qed.
Example r_C55 : ER E_JOURNAL_FULL ∉ fst r_run.
Proof.
  exact (C55_journal_never_full exg ex_weak ex_supported ex_few_weak r_chip ex_fuel 1 99 r_ops (fst r_run) r_s
    r_fresh ex_enough r_valid r_spare r_run_eq r_completed).
Qed.
Example r_C56 : 7 <= map_capacity r_s <= 12.
Proof.
  pose proof (C56_capacity exg ex_weak ex_supported ex_few_weak r_chip ex_fuel 1 99 r_ops (fst r_run) r_s
    r_fresh ex_enough r_valid r_spare r_run_eq r_completed) as H.
  rewrite (proj1 r_room), (proj2 r_room) in H. exact H.
Qed.

(** The chip of Examples2.v, on which nothing ever fails. *)
Example q_spare : spare_blocks exg ex_weak (n_bad q_chip).
Proof. by vm_compute. Qed.
Lemma q_size : MapModel.map_size q_s = 5.
Proof. by vm_compute. Qed.
Lemma write_unit fuel t d s a s' : exec fuel (OWrite t d) s = (OK a, s') -> a = RUnit.
Proof. cbn [exec]. unfold bind. destruct (map_write fuel t d s) as [[[]|?|?] ?]; intros [= <- _]. done. Qed.
(** Its map holds five sectors: another can be written, whatever its number. *)
Example q_C56 t d : valid_op exg (OWrite t d) -> exists s', exec ex_fuel (OWrite t d) q_s = (OK RUnit, s').
Proof.
  intros Hv. destruct (exec ex_fuel (OWrite t d) q_s) as [r s'] eqn:E.
  pose proof (C56_always_room exg ex_weak ex_supported ex_few_weak q_chip ex_fuel 1 99 q_ops (fst q_run) q_s (OWrite t d) r s'
    q_fresh q_quiet ex_enough q_valid q_spare q_run_eq Hv E) as H.
  destruct r as [a|e|x].
  - exists s'. by rewrite (write_unit _ _ _ _ _ _ E).
  - exfalso. clear E. destruct H as (_ & _ & H). rewrite q_size, (proj1 r_room) in H. lia.
  - destruct H.
Qed.
