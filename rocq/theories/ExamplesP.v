(** Concrete cases for the theorems of CopyRoom.v: the run of ExamplesO.v and one more write. *)
From stdpp Require Import gmap.
From Verif Require Import Base Bytes Nand Journal MapModel Api Spec Props Quiet Examples Examples2 Room ExamplesR Orderly NoEcc ExamplesO CopyRoom.
Local Open Scope Z_scope.

Example p_spare : copy_spare exg 1 ex_weak (n_bad r_chip).
Proof. split; [|left; split]; by vm_compute. Qed.

Definition p_h : list hop := o_h ++ [HOp (OWrite 4 (ex_data 7))].
Definition p_run := run ex_fuel 1 99 p_h (snd (restart 1 99 r_chip)).
Definition p_s : ms := snd p_run.
Lemma p_run_eq : run ex_fuel 1 99 p_h (snd (restart 1 99 r_chip)) = (fst p_run, p_s).
Proof. unfold p_s, p_run. apply run_pair. Qed.
Example p_valid : Forall (valid_hop exg) p_h.
Proof. apply Forall_app_2; [exact o_valid|]. repeat constructor; done. Qed.
Example p_rs : fst p_run = replicate 151 (OK RUnit).
Proof. by vm_compute. Qed.
Example p_completed : Forall completed (fst p_run).
Proof. rewrite p_rs. by apply Forall_replicate. Qed.
Example p_orderly : orderly 1 true p_h (fst p_run).
Proof. rewrite p_rs. vm_compute. repeat split. Qed.

(** Copy sector 2 to sector 4. *)
Definition p_s' : ms := snd (map_copy_sector ex_fuel 2 4 p_s).
Example p_code : fst (map_copy_sector ex_fuel 2 4 p_s) = OK tt.
Proof. by vm_compute. Qed.
Lemma p_pair {A B} (x : A * B) a : fst x = a -> x = (a, snd x).
Proof. destruct x. by intros <-. Qed.
Example p_ok : map_copy_sector ex_fuel 2 4 p_s = (OK tt, p_s').
Proof. exact (p_pair _ _ p_code). Qed.
Definition p_page (s : ms) (t : Z) : Z := match fst (map_find t s) with OK p => p | _ => -1 end.
(** Garbage collection is due, and moves the source, the page at the tail, during the copy. *)
Example p_due : (map_capacity p_s, journal_size exg (js_j (m_js p_s)), j_tail (js_j (m_js p_s)), map (p_page p_s) [2; 4], map (p_page p_s') [2; 4]) =
  (7, 11, 18, [18; 32], [33; 36]).
Proof. by vm_compute. Qed.
Example p_C60 : reads p_s' 4 = reads p_s 2 /\ mapped p_s' 4 = mapped p_s 2 /\
  forall u, sector u -> u <> 4 -> same_sector p_s p_s' u.
Proof.
  exact (C60_copy_sector exg ex_weak ex_supported ex_few_weak r_chip ex_fuel 1 99 p_h (fst p_run) p_s 2 4 p_s'
    r_fresh ex_enough p_valid p_spare p_run_eq p_completed p_orderly ltac:(done) ltac:(done) p_ok).
Qed.
Definition p_data (s : ms) (t : Z) : bytes := match reads s t with OK d => take 2 d | _ => [] end.
Example p_case : (map (p_data p_s) [2; 4], map (p_data p_s') [2; 4]) = ([[28; 28]; [7; 7]], [[28; 28]; [28; 28]]).
Proof. by vm_compute. Qed.
Example p_full e s' : map_copy_sector ex_fuel 2 50 p_s = (ER e, s') -> e = E_MAP_FULL.
Proof.
  assert (H2 : sector 2) by done. assert (H50 : wsector 50) by done. intros E.
  pose proof (C60_copy_sector_fails exg ex_weak ex_supported ex_few_weak r_chip ex_fuel 1 99 p_h (fst p_run) p_s 2 50 e s'
    r_fresh o_readable ex_enough p_valid p_spare p_run_eq p_completed p_orderly) as H.
  specialize (H H2 H50 E). destruct H as [H _]. exact H.
Qed.
Example p_full_case : code (fst (exec ex_fuel (OCopySector 2 50) p_s)) = 1.
Proof. by vm_compute. Qed.
