(** Concrete cases: the hypotheses of the theorems in Props.v are satisfiable,
    on a chip with bad blocks, failing erases and power loss. *)
From stdpp Require Import gmap.
From Verif Require Import Base Bytes Nand Journal MapModel Api Spec Props.
Local Open Scope Z_scope.

(** 30 blocks of 4 pages of 512 bytes. *)
Definition exg : geo := Geo 9 2 30 false.
(** Block 3 is marked bad in the factory, erasing block 1 fails, programming the
    first page of block 5 fails, after which that page reads as garbage. *)
Definition ex_weak (b : Z) : bool := (b =? 1) || (b =? 3) || (b =? 5).
Definition ex_orc (t : nat) (o : nop) : event :=
  match o with
  | OpErase b => if b =? 1 then EvFail (fun p => if p =? 5 then EJunk None else ENone)
                 else EvOk
  | OpProg p => if p =? 20 then EvFail (fun _ => EJunk (Some (replicate 512 165)))
                else if (t =? 26)%nat then EvCrash (fun _ => EJunk None) else EvOk
  | OpMark _ => EvOk
  end.
Definition ex_chip : nand :=
  Nand exg (fun _ => Free) (fun b => b =? 3) ex_orc 0 (fun _ => 0).
Definition ex_fuel : nat := 400.
Definition ex_data (x : Z) : bytes := replicate 512 x.

Example ex_supported : supported exg.
Proof. unfold supported, exg. cbn. lia. Qed.

Example ex_few_weak : few_weak exg ex_weak.
Proof.
  intros b. set (r := b mod 30).
  assert (Hr : 0 <= r < 30) by (apply Z.mod_pos_bound; lia).
  assert (E : forall i, ex_weak ((b + i) mod g_nblk exg) = ex_weak ((r + i) mod 30)).
  { intros i. cbn. unfold r. by rewrite Zplus_mod_idemp_l. }
  assert (Hx : exists i j, (0 <= i < j /\ j < 8) /\
     (ex_weak ((r + i) mod 30) || ex_weak ((r + j) mod 30) = false)).
  { assert (r = 0 \/ r = 1 \/ r = 2 \/ r = 3 \/ r = 4 \/ r = 5 \/ r = 28 \/ r = 29 \/ (6 <= r <= 27)) as Hc by lia.
    assert (Hk : forall k, 6 <= k < 30 -> ex_weak k = false).
    { intros k Hk. unfold ex_weak. repeat rewrite (proj2 (Z.eqb_neq _ _)) by lia. done. }
    destruct Hc as [-> |[-> |[-> |[-> |[-> |[-> |[-> |[-> |Hc]]]]]]]]; [exists 6, 7|exists 5, 6|exists 4, 5|exists 3, 4|exists 2, 3|exists 1, 2|exists 0, 1|exists 0, 1|exists 0, 1];
      (split; [lia|]); try done.
    rewrite !(Z.mod_small (_ + _)) by lia. by rewrite !Hk by lia. }
  destruct Hx as (i & j & [H1 H2] & Hw). apply orb_false_elim in Hw as [Hw1 Hw2].
  exists i, j. rewrite !E. done.
Qed.

Example ex_fresh : fresh exg ex_weak ex_chip.
Proof.
  split_and!; [done|by intros ? ?| |].
  - intros b. cbn. unfold ex_weak. intros ->. by destruct (b =? 1).
  - split.
    + intros t b f. cbn. unfold ex_weak. by destruct (b =? 1).
    + intros t p f. cbn [n_orc ex_chip ex_orc]. destruct (Z.eqb_spec p 20) as [-> |]; [done|].
      by destruct (t =? 26)%nat.
Qed.

Example ex_enough : enough_fuel exg ex_fuel.
Proof. unfold enough_fuel, ex_fuel. cbn. lia. Qed.

(** A history with writes (sectors 7, 9 and 0x80000007), overwrites, a sync, a
    trim, a garbage collection, a copy, a power cycle, and later power loss
    while a page is being programmed. *)
Definition ex_ops : list op :=
  [ OWrite 7 (ex_data 1); OWrite 9 (ex_data 2); OWrite 2147483655 (ex_data 3);
    OWrite 7 (ex_data 4); OSync; OTrim 9; ORead 9; OFind 7; OSize;
    OWrite 11 (ex_data 5); OGc; OWrite 12 (ex_data 6) ].
Definition ex_hist : list hop :=
  map HOp ex_ops ++
  [ HReset 2 77; HOp (OCopySector 7 8); HOp (ORead 8);
    HOp (OWrite 20 (ex_data 20)); HOp OSync; HOp (OWrite 21 (ex_data 21));
    HOp (OWrite 22 (ex_data 22)); HOp (OWrite 23 (ex_data 23)); HOp (OWrite 24 (ex_data 24)); HOp (OWrite 25 (ex_data 25));
    HOp OSize; HOp (ORead 7) ].

Example ex_valid_ops : Forall (valid_op exg) ex_ops.
Proof. repeat constructor; cbn; unfold wsector, sector; lia. Qed.
Example ex_valid : Forall (valid_hop exg) ex_hist.
Proof.
  apply Forall_app. split; [apply Forall_map, ex_valid_ops|].
  repeat constructor; cbn; unfold wsector, sector; lia.
Qed.

Definition ex_start : ms := snd (restart 4 99 ex_chip).
Definition ex_run1 := run ex_fuel 4 99 (map HOp ex_ops) ex_start.
Definition ex_run2 := run ex_fuel 4 99 ex_hist ex_start.



(** Return codes only. *)
Definition code {A} (r : out A) : Z :=
  match r with OK _ => 0 | ER E_MAP_FULL => 1 | ER E_NOT_FOUND => 2 | ER _ => 3
             | ST Crash => 10 | ST UB => 11 | ST Fuel => 12 end.
Definition first_byte (r : out bytes) : Z := match r with OK (x :: _) => x | _ => -1 end.

Lemma run_pair {A B} (x : A * B) : x = (fst x, snd x).
Proof. by destruct x. Qed.

Definition s1 : ms := snd ex_run1.
Definition s2 : ms := snd ex_run2.
Example ex_reach1 : reachable exg ex_weak s1.
Proof.
  exists ex_chip, ex_fuel, 4, 99, (map HOp ex_ops). split_and!; auto using ex_fresh, ex_enough.
  apply Forall_map, ex_valid_ops.
Qed.
Example ex_reach2 : reachable exg ex_weak s2.
Proof. exists ex_chip, ex_fuel, 4, 99, ex_hist. split_and!; auto using ex_fresh, ex_enough, ex_valid. Qed.

Lemma ex_run1_eq : run ex_fuel 4 99 (map HOp ex_ops) (snd (restart 4 99 ex_chip)) = (fst ex_run1, s1).
Proof. unfold s1, ex_run1, ex_start. apply run_pair. Qed.
Lemma ex_run2_eq : run ex_fuel 4 99 ex_hist (snd (restart 4 99 ex_chip)) = (fst ex_run2, s2).
Proof. unfold s2, ex_run2, ex_start. apply run_pair. Qed.

(** The first history: all calls succeed, an erase fails and a block is marked
    bad on the way. *)
Example ex_run1_codes : map code (fst ex_run1) = [0;0;0;0;0;0;0;0;0;0;0;0] /\
  n_bad (chip s1) 1 = true /\ n_tick (chip s1) = 17%nat.
Proof. by vm_compute. Qed.
Lemma code_completed rs : Forall (fun x => x <> 10 /\ x <> 11 /\ x <> 12) (map (@code resp) rs) -> Forall completed rs.
Proof.
  intros H. apply Forall_map in H. eapply Forall_impl; [done|]. intros [?|?|[]] Hx; cbn in *; try done; naive_solver.
Qed.
Example ex_completed : Forall completed (fst ex_run1).
Proof. apply code_completed. destruct ex_run1_codes as [-> _]. repeat constructor; lia. Qed.
Example ex_no_copy : Forall no_copy ex_ops.
Proof. repeat constructor. Qed.

(** C01, C02 applied to it. *)
Example ex_C01 : shows exg s1 (replay (zip ex_ops (fst ex_run1))).
Proof.
  exact (C01_reads_latest exg ex_weak ex_supported ex_few_weak ex_chip ex_fuel 4 99 ex_ops
    (fst ex_run1) s1 ex_fresh ex_enough ex_valid_ops ex_no_copy ex_run1_eq ex_completed).
Qed.
Example ex_C01_contents :
  (replay (zip ex_ops (fst ex_run1)) !! 7 = Some (ex_data 4)) /\
  (replay (zip ex_ops (fst ex_run1)) !! 2147483655 = Some (ex_data 3)) /\
  (replay (zip ex_ops (fst ex_run1)) !! 9 = None) /\
  size (replay (zip ex_ops (fst ex_run1))) = 4%nat.
Proof. by vm_compute. Qed.
Example ex_C02 : reachable exg ex_weak s1 /\ sector 9 /\ mapped s1 9 = false.
Proof. split; [apply ex_reach1|]. split; [unfold sector; lia|by vm_compute]. Qed.

(** C12: the second history contains a power cycle and, later, power loss in
    the call writing sector 21, which then has no effect. *)
Example ex_run2_codes : map code (fst ex_run2) =
  [0;0;0;0;0;0;0;0;0;0;0;0; 0;0;0;0;0;10;0;0;0;0;0;0].
Proof. by vm_compute. Qed.
Example ex_s2 : MapModel.map_size s2 = 10 /\
  map (fun t => (mapped s2 t, first_byte (reads s2 t))) [7;8;9;11;12;20;21;22;23] =
  [(true,4);(true,4);(false,255);(true,5);(true,6);(true,20);(false,255);(true,22);(true,23)].
Proof. by vm_compute. Qed.
Example ex_C12 : exists S H, hist_ok exg ∅ [∅] ex_hist (fst ex_run2) S H /\ shows exg s2 S.
Proof.
  exact (C12_history exg ex_weak ex_supported ex_few_weak ex_chip ex_fuel 4 99 ex_hist
    (fst ex_run2) s2 ex_fresh ex_enough ex_valid ex_run2_eq).
Qed.

(** A call interrupted by power loss, right after a sync: C12, C13. *)
Definition ex_ops4 : list op :=
  ex_ops ++ [OCopySector 7 8; OWrite 20 (ex_data 20)].
Definition ex_run4 := run ex_fuel 4 99 (map HOp ex_ops4) (snd (restart 4 99 ex_chip)).
Definition s4 : ms := snd ex_run4.
Definition s4s : ms := snd (map_sync ex_fuel s4).
Example ex_reach4 : reachable exg ex_weak s4.
Proof.
  exists ex_chip, ex_fuel, 4, 99, (map HOp ex_ops4). split_and!; auto using ex_fresh, ex_enough.
  apply Forall_map. apply Forall_app. split; [apply ex_valid_ops|].
  repeat constructor; cbn; unfold wsector, sector; lia.
Qed.
Example ex_C13 : map code (fst ex_run4) = replicate 14 0 /\
  fst (map_sync ex_fuel s4) = OK tt /\
  exists d, valid_op exg (OWrite 7 d) /\ fst (exec ex_fuel (OWrite 7 d) s4s) = ST Crash.
Proof. split; [by vm_compute|]. split; [by vm_compute|]. exists (ex_data 33). split; [split; [unfold wsector; lia|done]|by vm_compute]. Qed.

(** Single calls on the state [s2] (C03, C04, C06, C11, C18, C19): all succeed;
    no automatic garbage collection is due there. *)
Example ex_single :
  fst (map_write ex_fuel 7 (ex_data 40) s2) = OK tt /\
  fst (map_write ex_fuel 40 (ex_data 40) s2) = OK tt /\
  fst (map_trim ex_fuel 7 s2) = OK tt /\ fst (map_gc ex_fuel s2) = OK tt /\
  fst (map_sync ex_fuel s2) = OK tt /\ j_dirty (js_j (m_js s2)) = true /\
  fst (map_copy_sector ex_fuel 7 41 s2) = OK tt /\ fst (map_copy_sector ex_fuel 21 20 s2) = OK tt /\
  fst (map_find 7 s2) = OK 16 /\ fst (map_copy_page ex_fuel 16 42 s2) = OK tt /\
  (journal_size exg (js_j (m_js s2)) <? map_capacity s2) = true.
Proof. by vm_compute. Qed.

(** A full map (C07, C09): 33 sectors written on a chip with bad blocks. *)
Definition ex_orc5 (t : nat) (o : nop) : event :=
  match o with
  | OpErase b => if b =? 1 then EvFail (fun _ => ENone) else EvOk
  | _ => EvOk
  end.
Definition ex_chip5 : nand :=
  Nand exg (fun _ => Free) (fun b => b =? 3) ex_orc5 0 (fun _ => 0).
Definition ex_ops5 : list op :=
  map (fun i => OWrite (Z.of_nat i) (ex_data (Z.of_nat i))) (seq 0 60).
Definition ex_run5 := run ex_fuel 4 99 (map HOp ex_ops5) (snd (restart 4 99 ex_chip5)).
Definition s5 : ms := snd ex_run5.
Example ex_fresh5 : fresh exg ex_weak ex_chip5.
Proof.
  split_and!; [done|by intros ? ?| |].
  - intros b. cbn. unfold ex_weak. intros ->. by destruct (b =? 1).
  - split; [|done]. intros t b f. cbn. unfold ex_weak. by destruct (b =? 1).
Qed.
Example ex_reach5 : reachable exg ex_weak s5.
Proof.
  exists ex_chip5, ex_fuel, 4, 99, (map HOp ex_ops5). split_and!; auto using ex_fresh5, ex_enough.
  apply Forall_map, Forall_map. apply Forall_forall. intros i Hi. apply elem_of_seq in Hi.
  split; [unfold wsector; lia|done].
Qed.

Example ex_C09 : map code (fst ex_run5) = replicate 33 0 ++ replicate 27 1 /\
  MapModel.map_size s5 = 33 /\ map_capacity s5 = 33 /\ mapped s5 77 = false /\
  fst (auto_gc ex_fuel s5) = OK tt /\
  (map_capacity (snd (auto_gc ex_fuel s5)) <=? MapModel.map_size (snd (auto_gc ex_fuel s5))) = true /\
  fst (map_write ex_fuel 77 (ex_data 1) s5) = ER E_MAP_FULL /\
  fst (map_write ex_fuel 7 (ex_data 1) s5) = OK tt.
Proof. by vm_compute. Qed.

(** C14: a chip full of unrelated data. *)
Example ex_C14 : no_checkpoint (Nand exg (fun _ => Data (ex_data 17)) (fun _ => false) ex_orc 0 (fun _ => 0)).
Proof. intros p d [= <-]. done. Qed.
