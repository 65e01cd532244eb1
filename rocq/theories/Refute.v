(** Concrete counterexamples: histories on which the code violates one of the
    properties outside the conditions of the theorems in Props.v.  Each is
    evaluated by the kernel. *)
From stdpp Require Import gmap.
From Verif Require Import Base Bytes Nand Journal MapModel Api Spec.
Local Open Scope Z_scope.

Definition blank (g : geo) (orc : nat -> nop -> event) : nand :=
  Nand g (fun _ => Free) (fun _ => false) orc 0 (fun _ => 0).
(** Programming page [p] fails (once: a failed block is not used again). *)
Definition fail_prog (ps : list Z) (t : nat) (o : nop) : event :=
  match o with
  | OpProg p => if existsb (Z.eqb p) ps then EvFail (fun _ => EJunk None) else EvOk
  | _ => EvOk
  end.
Definition page9 (x : Z) : bytes := replicate 512 x.
Definition hd_of (r : out resp) : Z :=
  match r with OK (RData (x :: _)) => x | OK _ => 0
             | ER E_ECC => -2 | ER E_JOURNAL_FULL => -3 | ER E_TOO_BAD => -4 | ER _ => -1
             | ST Crash => -10 | ST UB => -11 | ST Fuel => -12 end.
Definition play (gcr : Z) (n : nand) (h : list hop) : list Z :=
  map hd_of (fst (run 600 gcr 0 h (snd (restart gcr 0 n)))).


Definition g39 : geo := Geo 9 3 30 false.

(** C21: the only sector is trimmed, then a page program fails in the middle of
    the block: recovery starts from the (absent) root and the driver is asked
    for page 0xfffffff8. *)
Theorem C21_refuted :
  play 4 (blank g39 (fail_prog [1]))
    (map HOp [OWrite 5 (page9 1); OTrim 5; OWrite 6 (page9 2)]) = [0; 0; -11].
Proof. by vm_compute. Qed.

(** C22: three sectors are written and synced, a fourth write succeeds, during
    the fifth a program fails in mid-block; power is lost when recovery has
    written its first checkpoint: sector 0x80000000, although synced, is lost. *)
Definition orc22 (t : nat) (o : nop) : event :=
  match o with
  | OpProg p => if p =? 5 then EvFail (fun _ => EJunk None)
                else if p =? 12 then EvCrash (fun _ => ENone) else EvOk
  | _ => EvOk
  end.
Theorem C22_refuted :
  play 4 (blank g39 orc22)
    (map HOp [OWrite 0 (page9 1); OWrite 1 (page9 2); OWrite 2147483648 (page9 3); OSync;
              ORead 2147483648; OWrite 2147483649 (page9 4); OWrite 7 (page9 5);
              ORead 0; ORead 1; ORead 2147483648]) = [0; 0; 0; 0; 3; 0; -10; 1; 2; 255].
Proof. by vm_compute. Qed.

(** C23: 256-byte pages (one metadata slot per checkpoint): the checkpoint
    program fails, the write reports success but the data is gone. *)
Theorem C23_refuted :
  play 4 (blank (Geo 8 3 30 false) (fail_prog [1]))
    (map HOp [OWrite 5 (replicate 256 1); ORead 5]) = [0; 255].
Proof. by vm_compute. Qed.

(** C24: the journal is full (many bad blocks); a program fails in mid-block,
    the call fails, and the next call programs the failed page again. *)
Definition n24 : nand :=
  Nand (Geo 9 2 20 false) (fun _ => Free) (fun b => (5 <=? b) && (b <=? 18))
       (fail_prog [77]) 0 (fun _ => 0).
Theorem C24_refuted :
  play 255 n24 (map HOp
    (map (fun i => OWrite (Z.of_nat i) (page9 (Z.of_nat i))) (seq 0 15) ++
     [OWrite 0 (page9 50); OWrite 0 (page9 50); OWrite 0 (page9 50)])) =
  [0; 0; 0; 0; 0; 0; 0; 0; 0; 0; 0; 0; 0; 0; 0; -4; -3; -11].
Proof. by vm_compute. Qed.

(** C18: without any fault, with gc_ratio 255, garbage collection inside
    copy_sector erases the source page before it is copied: the target reads as
    blank instead of the source's contents (43). *)
Theorem C18_refuted :
  play 255 (blank (Geo 9 2 20 false) (fun _ _ => EvOk)) (map HOp
    (map (fun i => OWrite (Z.of_nat i mod 4) (page9 (Z.of_nat i + 1))) (seq 0 46) ++
     [ORead 2; OCopySector 2 0; ORead 0; ORead 2])) =
  replicate 46 0 ++ [43; 0; 255; 43].
Proof. by vm_compute. Qed.

(** C39: power is lost while a checkpoint page in the middle of a block is
    programmed and leaves it unreadable.  After resume everything works until
    garbage collection reaches that group: from then on gc and sync fail with
    E_ECC. *)
Definition orc39 (t : nat) (o : nop) : event :=
  match o with
  | OpProg p => if (p =? 7) then EvCrash (fun _ => EJunk None) else EvOk
  | _ => EvOk
  end.
Theorem C39_refuted :
  play 4 (blank g39 orc39) (map HOp
    ([OWrite 0 (page9 1); OWrite 1 (page9 2); OWrite 2 (page9 3); OSync;
      OWrite 3 (page9 4); OWrite 4 (page9 5); OWrite 5 (page9 6);
      OWrite 3 (page9 4); OGc; OGc; OGc; OGc; OSync; OGc; ORead 2])) =
  [0; 0; 0; 0; 0; 0; -10; 0; 0; 0; 0; -2; -2; -2; 3].
Proof. by vm_compute. Qed.

(** C40: a checkpoint program fails in the block the tail is in.  Recovery
    completes and the write succeeds, but from then on gc and sync fail with
    E_ECC ("Was the tail on this page? Skip it forward", journal.c:771, is not
    implemented). *)
Theorem C40_refuted :
  play 4 (blank (Geo 9 2 40 false) (fail_prog [7])) (map HOp
    [OWrite 0 (page9 1); OWrite 0 (page9 2); OSync; OWrite 0 (page9 3); OSync;
     OWrite 0 (page9 4); OWrite 0 (page9 5); OGc; OSync; OGc; ORead 0]) =
  [0; 0; 0; 0; 0; 0; 0; -2; -2; -2; 5].
Proof. by vm_compute. Qed.

(** C43: three sectors are written and synced; a fourth is written; the device is
    switched off and on again (no fault so far: everything synced reads back).
    The next write meets a block that fails in mid-block.  The write succeeds,
    but recovery looked up the metadata of the synced pages in the wrong page:
    all three synced sectors read as blank. *)
Theorem C43_refuted :
  play 4 (blank g39 (fail_prog [5]))
    (map HOp [OWrite 0 (page9 1); OWrite 1 (page9 2); OWrite 2 (page9 3); OSync;
              OWrite 3 (page9 4)] ++ [HReset 4 0] ++
     map HOp [ORead 0; ORead 1; ORead 2; OWrite 7 (page9 5);
              ORead 0; ORead 1; ORead 2; ORead 7]) =
  [0; 0; 0; 0; 0; 0; 1; 2; 3; 0; 255; 255; 255; 5].
Proof. by vm_compute. Qed.

(** ** The refuted claims in general form *)

(** Failures anywhere in the weak blocks, no power loss. *)
Definition faults_any (g : geo) (weak : Z -> bool) (orc : nat -> nop -> event) : Prop :=
  (forall t o f, orc t o <> EvCrash f) /\
  (forall t b f, orc t (OpErase b) = EvFail f -> weak b = true) /\
  (forall t p f, orc t (OpProg p) = EvFail f -> weak (p / 2 ^ g_lppb g) = true).

Lemma few_weak_0 (g : geo) : 8 <= g_nblk g -> few_weak g (fun b => b =? 0).
Proof.
  intros Hn b. set (N := g_nblk g) in *.
  pose proof (Z.mod_pos_bound b N ltac:(lia)) as Hb.
  assert (Hz : forall i, 0 <= i < 8 -> b mod N + i <> N -> (b mod N <> 0 \/ i <> 0) -> ((b + i) mod N =? 0) = false).
  { intros i Hi H1 H2. apply Z.eqb_neq. rewrite <-Zplus_mod_idemp_l.
    destruct (Z.lt_ge_cases (b mod N + i) N).
    - rewrite Z.mod_small; lia.
    - replace ((b mod N + i) mod N) with (b mod N + i - N); [lia|]. apply Z.mod_unique with (q := 1); lia. }
  destruct (Z.eq_dec (b mod N) 0) as [E0|E0].
  { exists 1, 2. split; [lia|]. split; [lia|]. split; apply Hz; lia. }
  destruct (Z.eq_dec (b mod N + 1) N).
  { exists 0, 2. split; [lia|]. split; [lia|]. split; apply Hz; lia. }
  destruct (Z.eq_dec (b mod N) N); [lia|].
  exists 0, 1. split; [lia|]. split; [lia|]. split; apply Hz; lia.
Qed.

(** C20/C21 without the condition that the map is not empty when a block fails. *)
Definition C21_claim : Prop := forall g weak n0 fuel gcr junk ops,
  supported g -> few_weak g weak -> n_geo n0 = g -> (forall p, n_cell n0 p = Free) ->
  (forall b, n_bad n0 b = true -> weak b = true) -> faults_any g weak (n_orc n0) ->
  enough_fuel g fuel -> Forall (valid_op g) ops ->
  ~ ST UB ∈ fst (run fuel gcr junk (map HOp ops) (snd (restart gcr junk n0))).
Theorem C21_claim_false : ~ C21_claim.
Proof.
  intros H.
  refine (H g39 (fun b => b =? 0) (blank g39 (fail_prog [1])) 600%nat 4 0
    [OWrite 5 (page9 1); OTrim 5; OWrite 6 (page9 2)] _ _ _ _ _ _ _ _ _).
  - unfold supported; cbn; lia.
  - apply few_weak_0. cbn. lia.
  - done.
  - done.
  - done.
  - split_and!; cbn.
    + intros t [] f; cbn; try done. by destruct (_ || _).
    + done.
    + intros t p f. cbn. destruct (Z.eqb_spec p 1) as [-> |]; done.
  - unfold enough_fuel. cbn. lia.
  - repeat constructor; cbn; unfold wsector; lia.
  - assert (E : fst (run 600 4 0 (map HOp [OWrite 5 (page9 1); OTrim 5; OWrite 6 (page9 2)])
      (snd (restart 4 0 (blank g39 (fail_prog [1]))))) = [OK RUnit; OK RUnit; ST UB]) by (by vm_compute).
    rewrite E. do 2 apply elem_of_list_further. apply elem_of_list_here.
Qed.

(** C18 without the condition that no garbage collection is due. *)
Definition C18_claim : Prop := forall g weak s fuel a b s',
  supported g -> few_weak g weak -> reachable g weak s -> enough_fuel g fuel ->
  sector a -> wsector b -> map_copy_sector fuel a b s = (OK tt, s') -> reads s' b = reads s a.
Definition h18 : list hop :=
  map HOp (map (fun i => OWrite (Z.of_nat i mod 4) (page9 (Z.of_nat i + 1))) (seq 0 46)).
Definition s18 : ms :=
  snd (run 600 255 0 h18 (snd (restart 255 0 (blank (Geo 9 2 20 false) (fun _ _ => EvOk))))).
Theorem C18_claim_false : ~ C18_claim.
Proof.
  intros H.
  assert (E : reads (snd (map_copy_sector 600 2 0 s18)) 0 = reads s18 2).
  { apply (H (Geo 9 2 20 false) (fun b => b =? 0) s18 600%nat 2 0).
    - unfold supported; cbn; lia.
    - apply few_weak_0. cbn. lia.
    - exists (blank (Geo 9 2 20 false) (fun _ _ => EvOk)), 600%nat, 255, 0, h18. split_and!; try done.
      unfold h18. apply Forall_map, Forall_map. apply Forall_forall. intros i Hi. apply elem_of_seq in Hi.
        split; [|done]. unfold wsector. pose proof (Z.mod_pos_bound (Z.of_nat i) 4 ltac:(lia)). lia.
    - unfold enough_fuel. cbn. lia.
    - unfold sector. lia.
    - unfold wsector. lia.
    - assert (Ef : fst (map_copy_sector 600 2 0 s18) = OK tt) by (by vm_compute).
      rewrite <-Ef. apply surjective_pairing. }
  revert E.
  assert (E1 : reads (snd (map_copy_sector 600 2 0 s18)) 0 = OK (page9 255)) by (by vm_compute).
  assert (E2 : reads s18 2 = OK (page9 43)) by (by vm_compute).
  rewrite E1, E2. done.
Qed.
