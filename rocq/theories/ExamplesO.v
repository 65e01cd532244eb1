(** Concrete cases for the theorems of Orderly.v. *)
From stdpp Require Import gmap.
From Verif Require Import Base Bytes Nand Journal MapModel Api Spec Props Quiet Examples Examples2 Room ExamplesR Orderly NoEcc.
Local Open Scope Z_scope.

(** The chip of ExamplesR.v.  Thirty times: write three sectors (of seven), sync, and
    switch the power off and on; the GC ratio is given as 1 or as 0, which means 1. *)
Definition o_h : list hop := mjoin (map (fun i : nat => 
  let i := Z.of_nat i in
  [HOp (OWrite (3 * i mod 7) (ex_data i)); HOp (OWrite ((3 * i + 1) mod 7) (ex_data i));
   HOp (OWrite ((3 * i + 2) mod 7) (ex_data i)); HOp OSync; HReset (i mod 2) 5]) (seq 0 30)).
Definition o_run := run ex_fuel 1 99 o_h (snd (restart 1 99 r_chip)).
Definition o_s : ms := snd o_run.
Example o_valid : Forall (valid_hop exg) o_h.
Proof.
  unfold o_h. apply Forall_join, Forall_map, Forall_forall. intros i _. cbn [compose].
  repeat apply Forall_cons_2; cbn [valid_hop valid_op]; try done;
    (split; [unfold wsector|done]; match goal with |- _ <= ?x mod 7 < _ => pose proof (Z.mod_pos_bound x 7); lia end).
Qed.
Lemma o_run_eq : run ex_fuel 1 99 o_h (snd (restart 1 99 r_chip)) = (fst o_run, o_s).
Proof. unfold o_s, o_run. apply run_pair. Qed.
Example o_codes : map code (fst o_run) = replicate 150 0.
Proof. by vm_compute. Qed.
(** Enough has been written to go round the chip. *)
Example o_facts : (map_capacity o_s, MapModel.map_size o_s, n_erases (chip o_s) 2, n_bad (chip o_s) 1,
  code (fst (exec ex_fuel (OWrite 50 (ex_data 1)) o_s)), code (fst (exec ex_fuel (OWrite 3 (ex_data 1)) o_s))) =
  (7, 7, 3, true, 1, 0).
Proof. by vm_compute. Qed.
Example o_rs : fst o_run = replicate 150 (OK RUnit).
Proof. by vm_compute. Qed.
Example o_completed : Forall completed (fst o_run).
Proof. rewrite o_rs. by apply Forall_replicate. Qed.
Example o_orderly : orderly 1 true o_h (fst o_run).
Proof. rewrite o_rs. vm_compute. repeat split. Qed.
Example o_C58 : ER E_JOURNAL_FULL ∉ fst o_run.
Proof.
  exact (C58_journal_never_full exg ex_weak ex_supported ex_few_weak r_chip ex_fuel 1 99 o_h (fst o_run) o_s
    r_fresh ex_enough o_valid r_spare o_run_eq o_completed o_orderly).
Qed.
Example o_C58_capacity : 7 <= map_capacity o_s <= 12.
Proof.
  pose proof (C58_capacity exg ex_weak ex_supported ex_few_weak r_chip ex_fuel 1 99 o_h (fst o_run) o_s
    r_fresh ex_enough o_valid r_spare o_run_eq o_completed o_orderly) as H.
  rewrite (proj1 r_room), (proj2 r_room) in H. exact H.
Qed.

(** C59: the chip starts readable; both failures leave spoilt pages, and trims,
    garbage collection and syncs succeed all the same. *)
Example o_readable : readable exg r_chip.
Proof. by intros p Hp. Qed.
Example o_junk : (n_cell (chip o_s) 5, n_cell (chip o_s) 20, n_bad (chip o_s) 1, n_bad (chip o_s) 5) = (Junk (Some (ex_data 165)), Junk None, true, true).
Proof. by vm_compute. Qed.
Example o_C59_case : map code [fst (exec ex_fuel (OTrim 3) o_s); fst (exec ex_fuel OGc o_s); fst (exec ex_fuel OSync o_s);
  fst (exec ex_fuel (OWrite 50 (ex_data 1)) o_s); fst (exec ex_fuel (OCopyPage 20 3) o_s)] = [0; 0; 0; 1; 3].
Proof. by vm_compute. Qed.
Example o_C59 d e s' : blen d = 2 ^ g_lps exg -> exec ex_fuel (OWrite 50 d) o_s = (ER e, s') -> e = E_MAP_FULL.
Proof.
  intros Hd E.
  pose proof (C59_next_call exg ex_weak ex_supported ex_few_weak r_chip ex_fuel 1 99 o_h (fst o_run) o_s (OWrite 50 d) e s'
    r_fresh o_readable ex_enough o_valid r_spare o_run_eq o_completed o_orderly) as H.
  apply H; [|exact E]. split; [unfold wsector; lia|exact Hd].
Qed.
