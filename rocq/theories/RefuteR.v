(** Counterexample to the extension of C55 to histories with power cuts. *)
From stdpp Require Import gmap.
From Verif Require Import Base Bytes Nand Journal MapModel Api Spec Refute Room.
Local Open Scope Z_scope.

(** The power cuts: while a checkpoint is programmed that is not the first in its
    block (with one exception); nothing is programmed by the interrupted operation.
    No block is bad and no operation ever fails. *)
Definition g57 : geo := Geo 9 4 23 false.
Definition orc57 (t : nat) (o : nop) : event :=
  match o with
  | OpProg p => if (p mod 4 =? 3) && negb (p mod 16 =? 3) && negb (p =? 367) then EvCrash (fun _ => ENone) else EvOk
  | _ => EvOk
  end.
(** Sector 0 is written over and over again, and sector 1 once. *)
Definition w57 (i : nat) : op := OWrite (if (i =? 273)%nat then 1 else 0) (page9 (Z.of_nat i mod 256)).
(** Two power cycles later, what remains possible. *)
Definition tail57 : list hop :=
  [HReset 1 0] ++ map HOp [OWrite 0 (page9 7); OWrite 0 (page9 7); OWrite 0 (page9 7); OWrite 1 (page9 7); OWrite 2 (page9 7); OGc; OTrim 0; OTrim 1] ++
  [HReset 1 0] ++ map HOp [OSync; OWrite 0 (page9 7); OGc; OWrite 2 (page9 7); OClear; OWrite 0 (page9 7); OSync] ++
  [HReset 1 0] ++ map HOp [OWrite 0 (page9 7); ORead 0; ORead 1].
Definition h57 : list hop := map HOp (map w57 (seq 0 540)) ++ tail57.
Definition run57 := run 1000 1 0 h57 (snd (restart 1 0 (blank g57 orc57))).
Definition is_full (r : out resp) : bool := match r with ER E_JOURNAL_FULL => true | _ => false end.
Lemma facts57 : (let l := map hd_of (fst run57) in
  (existsb is_full (fst run57), forallb (fun x => (x =? 0) || (x =? -10)) (take 536 l), drop 536 l, map_capacity (snd run57), MapModel.map_size (snd run57))) =
  (true, true, [-3; -3; -3; -3;  0; -3; -3; -3; -3; -3; -3; -3; -3;  0; 0; -3; 0; -3; 0; -3; -3;  0; -3; 18; 17], 4, 2).
Proof. by vm_compute. Qed.

(** C57.  The first 536 writes succeed or are cut off by a loss of power (0 or
    -10); the map holds two sectors and its capacity is four.  From then on every
    write fails with E_JOURNAL_FULL (-3), power cycles do not help, and neither do
    trimming, clearing, syncing and collecting garbage: the next block of the
    journal holds the only copy of sector 1, which cannot be moved since there is no
    room for it. *)
Theorem C57_refuted :
  Forall (fun x => x = 0 \/ x = -10) (take 536 (map hd_of (fst run57))) /\
  drop 536 (map hd_of (fst run57)) =
    [-3; -3; -3; -3] ++
    (* power cycle, five writes, gc, two trims *) [0; -3; -3; -3; -3; -3; -3; -3; -3] ++
    (* power cycle, sync (nothing to do), write, gc, write, clear, write, sync *) [0; 0; -3; 0; -3; 0; -3; -3] ++
    (* power cycle, write, read sectors 0 and 1 *) [0; -3; 18; 17] /\
  MapModel.map_size (snd run57) = 2 /\ map_capacity (snd run57) = 4.
Proof.
  pose proof facts57 as E. cbv zeta in E. set (rn := run57) in *. clearbody rn. injection E as _ E1 E2 E3 E4. rewrite E2, E3, E4.
  split; [|done]. apply Forall_forall. intros x Hx. rewrite forallb_forall in E1.
  apply elem_of_list_In, E1, orb_prop in Hx. destruct Hx as [Hx|Hx]; apply Z.eqb_eq in Hx; auto.
Qed.

(** The claim refuted: C55 with [Forall completed rs] dropped. *)
Definition C57_claim : Prop := forall g weak n fuel gcr junk h rs s,
  supported g -> few_weak g weak -> fresh g weak n -> enough_fuel g fuel ->
  Forall (fun x => match x with HOp o => valid_op g o | HReset gcr' _ => gcr' = gcr end) h -> spare_blocks g weak (n_bad n) ->
  run fuel gcr junk h (snd (restart gcr junk n)) = (rs, s) -> ER E_JOURNAL_FULL ∉ rs.
Theorem C57_claim_false : ~ C57_claim.
Proof.
  intros H. refine (H g57 (fun b => b =? 0) (blank g57 orc57) 1000%nat 1 0 h57 (fst run57) (snd run57) _ _ _ _ _ _ _ _).
  - unfold supported; cbn; lia.
  - apply few_weak_0. cbn. lia.
  - split_and!; [done|by intros ? ?|done|]. split; [done|]. intros t p f. cbn. by destruct (_ && _).
  - unfold enough_fuel. cbn. lia.
  - unfold h57. apply Forall_app. split.
    + apply Forall_map, Forall_map, Forall_forall. intros i _. unfold w57. split; [|done]. unfold wsector. destruct (i =? 273)%nat; lia.
    + unfold tail57. repeat constructor; cbn; unfold wsector; try lia.
  - by vm_compute.
  - unfold run57. apply surjective_pairing.
  - pose proof facts57 as E. cbv zeta in E. set (rn := run57) in *. clearbody rn. injection E as E _ _ _ _.
    apply existsb_exists in E as (r & Hr & E). destruct r as [|[]|]; try done. by apply elem_of_list_In.
Qed.
