(** C51 on concrete chips. *)
From stdpp Require Import gmap.
From Verif Require Import Base Bytes Nand Journal MapModel Api Spec Ppc History Props Work Examples.
Local Open Scope Z_scope.

(** The number of operations of each kind of call in the state [s5] of a full map
    ([gc_ratio] is 4, a checkpoint every 4 pages), and what C51 allows. *)
Definition opsW : list op :=
  [OWrite 3 (ex_data 5); OTrim 1; OGc; OSync; OClear; ORead 1; OFind 1; OSize].
Definition costW (s : ms) (o : op) : Z := ticks (chip (snd (exec ex_fuel o s))) - ticks (chip s).
Example ex_C51_valid : Forall (valid_op exg) opsW.
Proof. repeat constructor; cbn; unfold wsector, sector; lia. Qed.
Example ex_C51_costs : map (costW s5) opsW = [10; 10; 1; 3; 0; 0; 0; 0] /\
  map (budget 48 (m_gcr s5) (choose_ppc 9 2)) opsW = [288; 288; 48; 144; 0; 0; 0; 0].
Proof. by vm_compute. Qed.
Example ex_C51 o : o ∈ opsW -> costW s5 o <= budget 48 (m_gcr s5) (choose_ppc 9 2) o.
Proof.
  intros Ho. eapply (C51_bounded_work exg ex_weak ex_supported ex_few_weak s5 ex_fuel o); [apply ex_reach5|apply ex_enough| |apply surjective_pairing].
  by eapply Forall_forall in Ho; [|apply ex_C51_valid].
Qed.

(** The same on a chip that never fails. *)
Definition chipW : nand := Nand exg (fun _ => Free) (fun b => b =? 3) (fun _ _ => EvOk) 0 (fun _ => 0).
Definition sW : ms := snd (run ex_fuel 4 99 (map HOp ex_ops5) (snd (restart 4 99 chipW))).
Example ex_reachW : reachable exg ex_weak sW.
Proof.
  exists chipW, ex_fuel, 4, 99, (map HOp ex_ops5). split_and!; [|apply ex_enough| |done].
  - split_and!; [done|by intros ? ?| |by split].
    intros b. cbn. unfold ex_weak. intros ->. by destruct (b =? 1).
  - apply Forall_map, Forall_map. apply Forall_forall. intros i Hi. apply elem_of_seq in Hi.
    split; [unfold wsector; lia|done].
Qed.
Lemma chipW_nofail : no_fail (chip sW).
Proof.
  assert (E : n_orc (chip sW) = fun _ _ => EvOk); [|intros t o f; by rewrite E].
  unfold sW. generalize (map HOp ex_ops5). intros h. 
  pose proof (Pres.k_run (fun a b => n_orc b = n_orc a) (fun _ => eq_refl) (fun a b d H1 H2 => eq_trans H2 H1)) as H.
  rewrite H; [by rewrite Pres.restart_chip|..].
  - intros p d n. unfold nand_prog. cbv zeta. destruct (negb (page_ok _ _)); [done|]. destruct (n_bad n _); [done|].
    destruct (negb (tail_free _ _ _)); [done|]. destruct (negb (_ =? _)); [done|].
    by destruct (n_orc n _ _) as [|f|f]; try destruct (f p).
  - intros b n. unfold nand_erase. cbv zeta. destruct (negb _); [done|]. destruct (n_bad n _); [done|].
    by destruct (n_orc n _ _) as [|f|f].
  - intros b n. unfold nand_mark_bad. cbv zeta. destruct (negb _); [done|].
    by destruct (n_orc n _ _) as [|f|f]; try destruct (f 0).
Qed.
Example ex_C51_fault_free : map (costW sW) opsW = [10; 10; 1; 3; 0; 0; 0; 0] /\
  map (budget 3 (m_gcr sW) (choose_ppc 9 2)) opsW = [18; 18; 3; 9; 0; 0; 0; 0] /\
  forall o, o ∈ opsW -> costW sW o <= budget 3 (m_gcr sW) (choose_ppc 9 2) o.
Proof.
  split; [by vm_compute|]. split; [by vm_compute|]. intros o Ho.
  eapply (C51_fault_free exg ex_weak ex_supported ex_few_weak sW ex_fuel o); [apply ex_reachW|apply ex_enough| |apply chipW_nofail|apply surjective_pairing].
  by eapply Forall_forall in Ho; [|apply ex_C51_valid].
Qed.
