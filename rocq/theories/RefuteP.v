(** C62: with 256-byte pages (or any page that has room for a single metadata
    entry next to the header) a power cycle loses synced data although nothing ever
    fails.  Concrete histories, evaluated by the kernel.

    There the checkpoint group is two pages, and find_head (journal.c:364-419) takes
    as its first candidate next_upage of the last used group, which already is the
    next group.  When the last group of a block has been used up the candidate lies
    in the next block, which may still hold pages of the previous round: find_head
    walks through that block as if it belonged to the journal and starts one block
    too late.  The skipped block keeps its old checkpoint, so that the binary search
    of the next resume (find_last_checkblock, journal.c:247-279) takes it for the
    end of the current round: everything written after the first power cycle is
    gone. *)
From stdpp Require Import gmap.
From Verif Require Import Base Bytes Nand Journal MapModel Api Spec Refute.
Local Open Scope Z_scope.

(** 24 blocks of four 256-byte pages, no defect, no failure, never. *)
Definition g62 : geo := Geo 8 2 24 false.
Definition n62 : nand := blank g62 (fun _ _ => EvOk).
Definition page8 (x : Z) : bytes := replicate 256 x.

(** 48 writes to four sectors, sync, power cycle, sector 1 written anew. *)
Definition pre62 : list hop :=
  map HOp (map (fun i => OWrite (Z.of_nat i mod 4) (page8 (Z.of_nat i + 1))) (seq 0 48)) ++
  [HOp OSync; HReset 15 0; HOp (OWrite 1 (page8 201))].

(** The write and the sync report success, sector 1 reads as written; after the
    second power cycle it reads as before the write. *)
Theorem C62_refuted :
  drop 48 (play 15 n62 (pre62 ++ [HOp (ORead 1); HOp OSync; HReset 15 0; HOp (ORead 1)])) =
  (* sync, power cycle, write, read, sync, power cycle, read *) [0; 0; 0; 201; 0; 0; 46].
Proof. by vm_compute. Qed.

(** The claim refuted: C11 for every page size the driver accepts, on chips that
    never fail. *)
Definition C62_claim : Prop := forall g s fuel s' gcr junk,
  8 <= g_lps g <= 16 -> 2 <= g_lppb g -> 8 <= g_nblk g -> g_nblk g * 2 ^ g_lppb g <= 2 ^ 31 ->
  reachable g (fun _ => false) s -> (forall t o, n_orc (chip s) t o = EvOk) -> enough_fuel g fuel ->
  map_sync fuel s = (OK tt, s') ->
  forall t, sector t -> reads (snd (restart gcr junk (chip s'))) t = reads s t.

Definition s62 : ms := snd (run 600 15 0 pre62 (snd (restart 15 0 n62))).
Definition hd62 (r : out bytes) : Z := match r with OK (x :: _) => x | _ => -1 end.
Definition z62 : Z * bool * Z :=
  (hd62 (reads s62 1),
   match fst (map_sync 600 s62) with OK _ => true | _ => false end,
   hd62 (reads (snd (restart 15 0 (chip (snd (map_sync 600 s62))))) 1)).
Lemma facts62 : z62 = (201, true, 46).
Proof. by vm_compute. Qed.

Lemma orc62 t o : n_orc (chip s62) t o = EvOk.
Proof. by vm_compute. Qed.
Lemma hist62 : Forall (valid_hop g62) pre62.
Proof.
  unfold pre62. apply Forall_app. split.
  - rewrite Forall_map. rewrite Forall_map. apply Forall_forall. intros i _. cbv beta. split.
    + unfold wsector. (pose proof (Z.mod_pos_bound (Z.of_nat i) 4 eq_refl)). clear -H. change (2^32 - 1) with 4294967295. lia.
    + unfold blen, page8. rewrite replicate_length. reflexivity.
  - apply Forall_cons. split; [exact I|]. apply Forall_cons. split; [exact I|]. apply Forall_cons. split. 2: apply Forall_nil; exact I.
    split; [unfold wsector; lia|unfold blen, page8; rewrite replicate_length; reflexivity].
Qed.
Lemma reach62 : reachable g62 (fun _ => false) s62.
Proof.
  exists n62, 600%nat, 15, 0, pre62. split.
  - split; [reflexivity|]. split; [intros p d E; discriminate E|].
    split; [intros b E; discriminate E|]. split; intros t p f E; discriminate E.
  - split; [unfold enough_fuel; cbn; lia|]. split; [exact hist62|]. unfold s62. reflexivity.
Qed.

Theorem C62_claim_false : ~ C62_claim.
Proof.
  intros H. pose proof facts62 as E. unfold z62 in E.
  assert (Es : forall o s', map_sync 600 s62 = (o, s') -> o = OK tt ->
    reads (snd (restart 15 0 (chip s'))) 1 = reads s62 1).
  { intros o s' Em ->. refine (H g62 s62 600%nat s' 15 0 _ _ _ _ reach62 orc62 _ Em 1 _);
      [cbn; lia..|unfold enough_fuel; cbn; lia|unfold sector; lia]. }
  clear H. pose proof orc62 as _. revert E Es. generalize s62. intros s.
  destruct (map_sync 600 s) as [o s']. cbn [fst snd]. intros E Es.
  specialize (Es _ _ eq_refl).
  destruct o as [[]|e|x]; [|discriminate E..].
  rewrite (Es eq_refl) in E. injection E as E1 E2. congruence.
Qed.
