(** Concrete cases for C18 and C19 (CopyProps.v): 49 writes to 4 sectors on a chip
    of 20 blocks of 4 pages. *)
From stdpp Require Import gmap.
From Verif Require Import Base Bytes Nand Journal MapModel Api Spec Props Copy CopyProps Refute.
Local Open Scope Z_scope.

Definition cg : geo := Geo 9 2 20 false.
Definition cweak (b : Z) : bool := b =? 0.
Definition chist (k : nat) : list hop :=
  map HOp (map (fun i => OWrite (Z.of_nat i mod 4) (page9 (Z.of_nat i + 1))) (seq 0 k)).
Definition cst (k : nat) : ms := snd (run 600 4 0 (chist k) (snd (restart 4 0 (blank cg (fun _ _ => EvOk))))).
Lemma c_sup : supported cg. Proof. unfold supported; cbn; lia. Qed.
Lemma c_few : few_weak cg cweak. Proof. apply few_weak_0. cbn. lia. Qed.
Lemma c_fuel : enough_fuel cg 600. Proof. unfold enough_fuel; cbn; lia. Qed.
Lemma c_reach k : reachable cg cweak (cst k).
Proof.
  exists (blank cg (fun _ _ => EvOk)), 600%nat, 4, 0, (chist k). split_and!; try done.
  unfold chist. apply Forall_map, Forall_map. apply Forall_forall. intros i Hi. apply elem_of_seq in Hi.
  split; [|done]. unfold wsector. pose proof (Z.mod_pos_bound (Z.of_nat i) 4 ltac:(lia)). lia.
Qed.

(** Garbage collection is due after 49 writes, and moves the tail; copying sector 1
    to sector 9 succeeds and the source page 60 is kept. *)
Example c_gc_due : (journal_size cg (js_j (m_js (cst 49))) <? map_capacity (cst 49)) = false /\
  j_tail (js_j (m_js (snd (map_copy_sector 600 1 9 (cst 49))))) <> j_tail (js_j (m_js (cst 49))).
Proof. split; by vm_compute. Qed.
Example c_copy_ok : fst (map_copy_sector 600 1 9 (cst 49)) = OK tt /\ fst (map_find 1 (cst 49)) = OK 60.
Proof. by vm_compute. Qed.
Example c_kept : page_kept 60 (chip (cst 49)) (chip (snd (map_copy_sector 600 1 9 (cst 49)))).
Proof. by vm_compute. Qed.
Example c_C18 : reads (snd (map_copy_sector 600 1 9 (cst 49))) 9 = reads (cst 49) 1.
Proof.
  destruct c_copy_ok as [E1 E2].
  eapply (C18_copy_sector_kept_partial cg cweak c_sup c_few (cst 49) 600 1 9); [apply c_reach|exact c_fuel|unfold sector; lia|unfold wsector; lia| |].
  - rewrite <-E1. apply surjective_pairing.
  - intros p Hp. rewrite Hp in E2. injection E2 as ->. exact c_kept.
Qed.
Example c_C18_value : reads (cst 49) 1 = OK (page9 46). Proof. by vm_compute. Qed.

(** A raw page that no sector points to any more: after 54 writes page 0 still
    holds what was written first. *)
Example c_C19 : reads (snd (map_copy_page 600 0 9 (cst 54))) 9 = OK (page9 1).
Proof.
  eapply (C19_copy_page cg cweak c_sup c_few (cst 54) 600 0 9 (page9 1)).
  - apply c_reach.
  - exact c_fuel.
  - unfold wsector; lia.
  - rewrite (surjective_pairing (nand_read _ _ _ _)).
    assert (E1 : fst (nand_read 0 0 (page_size cg) (chip (cst 54))) = OK (page9 1)) by (by vm_compute).
    rewrite E1. rewrite <-(Pres.kn_read eq (fun _ => eq_refl) 0 0 (page_size cg) (chip (cst 54))). reflexivity.
  - assert (E : fst (map_copy_page 600 0 9 (cst 54)) = OK tt) by (by vm_compute).
    rewrite <-E. apply surjective_pairing.
  - by vm_compute.
Qed.

(** The condition [page_kept] is needed although no garbage collection is due:
    after 60 writes the head is about to enter block 0, which is erased before
    page 0 is copied. *)
Definition C19_any_readable_page : Prop := forall g weak s fuel p t d s',
  supported g -> few_weak g weak -> reachable g weak s -> enough_fuel g fuel -> wsector t ->
  journal_size g (js_j (m_js s)) < map_capacity s ->
  fst (nand_read p 0 (page_size g) (chip s)) = OK d ->
  map_copy_page fuel p t s = (OK tt, s') -> reads s' t = OK d.
Theorem C19_any_readable_page_false : ~ C19_any_readable_page.
Proof.
  intros H.
  assert (E : reads (snd (map_copy_page 600 0 9 (cst 60))) 9 = OK (page9 1)).
  { apply (H cg cweak (cst 60) 600%nat 0 9); [apply c_sup|apply c_few|apply c_reach|apply c_fuel|unfold wsector; lia| | |].
    - by vm_compute.
    - by vm_compute.
    - assert (E : fst (map_copy_page 600 0 9 (cst 60)) = OK tt) by (by vm_compute).
      rewrite <-E. apply surjective_pairing. }
  revert E. assert (E1 : reads (snd (map_copy_page 600 0 9 (cst 60))) 9 = OK (page9 255)) by (by vm_compute).
  rewrite E1. by intros [=].
Qed.
