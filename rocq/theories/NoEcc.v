(** Without power loss inside a call, unreadable pages never get in the way (C59).
    Nothing here models code; the model is Journal.v and MapModel.v. *)
From stdpp Require Import gmap fin_maps.
From Verif Require Import Base Bytes Wp Nand Journal MapModel Api Geom Inv StepJ Spec Ppc History Props Quiet Nojunk Space Room Orderly.
Local Open Scope Z_scope.

(** ** Specification *)

(** To begin with, spoilt pages (those that cannot be read, or read as garbage) lie in blocks marked bad only. *)
Definition readable (g : geo) (n : nand) : Prop :=
  forall p o, n_cell n p = Junk o -> n_bad n (p / 2 ^ g_lppb g) = true.

(** ** Proofs *)
Section noecc.
Context (g : geo) (weak : Z -> bool) (Hsup : supported g) (Hfew : few_weak g weak).

(** C59.  However many erases and first-page programs fail, no call but a copy ever
    reports an ECC error, ... *)
Theorem C59_no_ecc n fuel gcr junk h rs s i o :
  fresh g weak n -> readable g n -> enough_fuel g fuel -> Forall (valid_hop g) h -> spare_blocks g weak (n_bad n) ->
  run fuel gcr junk h (snd (restart gcr junk n)) = (rs, s) -> Forall completed rs -> orderly gcr true h rs ->
  h !! i = Some (HOp o) -> rs !! i = Some (ER E_ECC) ->
  match o with OCopySector _ _ | OCopyPage _ _ => True | _ => False end.
Proof.
  intros Hf Hj Hfu Hops Hs E Hon Hor Hh Hr.
  destruct (run_room' g weak Hsup Hfew n fuel gcr junk h rs s Hf Hfu Hops Hs E Hon Hor) as ((_ & Hn) & _).
  exact (Hn Hj i o Hh Hr).
Qed.

(** ... so that trims, garbage collection and syncs never fail, and a write fails only
    for a new sector in a map with as many sectors as fit. *)
Theorem C59_next_call n fuel gcr junk h rs s o e s' :
  fresh g weak n -> readable g n -> enough_fuel g fuel -> Forall (valid_hop g) h -> spare_blocks g weak (n_bad n) ->
  run fuel gcr junk h (snd (restart gcr junk n)) = (rs, s) -> Forall completed rs -> orderly gcr true h rs ->
  valid_op g o -> exec fuel o s = (ER e, s') ->
  match o with
  | OWrite t _ => e = E_MAP_FULL /\ mapped s t = false /\ room g gcr (most_bad g weak) <= MapModel.map_size s
  | OCopySector _ t | OCopyPage _ t =>
      e = E_ECC \/ (e = E_MAP_FULL /\ mapped s t = false /\ room g gcr (most_bad g weak) <= MapModel.map_size s)
  | OFind t => e = E_NOT_FOUND /\ mapped s t = false
  | OTrim _ | OGc | OSync | OClear | ORead _ | OSize => False
  end.
Proof.
  intros Hf Hj Hfu Hops Hs E Hon Hor Ho Eo.
  destruct (run_room' g weak Hsup Hfew n fuel gcr junk h rs s Hf Hfu Hops Hs E Hon Hor) as (_ & _ & Hn).
  destruct (Hn o e s' Ho Eo) as (_ & _ & He). specialize (fun x => He x Hj).
  pose proof (C58_next_call g weak Hsup Hfew n fuel gcr junk h rs s o e s' Hf Hfu Hops Hs E Hon Hor Ho Eo) as H58.
  destruct o; cbn [copies] in He; try tauto.
Qed.

(** The same in terms of the calls of a history: the calls that fail are writes or copies
    to a new sector refused as "map full", searches that find nothing, and copies. *)
Theorem C59_history n fuel gcr junk h rs s i o e :
  fresh g weak n -> readable g n -> enough_fuel g fuel -> Forall (valid_hop g) h -> spare_blocks g weak (n_bad n) ->
  run fuel gcr junk h (snd (restart gcr junk n)) = (rs, s) -> Forall completed rs -> orderly gcr true h rs ->
  h !! i = Some (HOp o) -> rs !! i = Some (ER e) ->
  match o with
  | OWrite _ _ => e = E_MAP_FULL
  | OCopySector _ _ | OCopyPage _ _ => e = E_ECC \/ e = E_MAP_FULL
  | OFind _ => e = E_NOT_FOUND
  | OTrim _ | OGc | OSync | OClear | ORead _ | OSize => False
  end.
Proof.
  intros Hf Hj Hfu Hops Hs E Hon Hor Hh Hr.
  assert (Hsplit : forall h i s0 rs s b, run fuel gcr junk h s0 = (rs, s) -> Forall completed rs -> orderly gcr b h rs ->
    h !! i = Some (HOp o) -> rs !! i = Some (ER e) -> exists rs1 s1 s2, run fuel gcr junk (take i h) s0 = (rs1, s1) /\
    Forall completed rs1 /\ orderly gcr b (take i h) rs1 /\ exec fuel o s1 = (ER e, s2)).
  { clear. induction h as [|a h IH]; intros i s0 rs s b E Hc Hor Hh Hr; [done|]. cbn [run] in E.
    destruct i as [|i].
    - injection Hh as ->. exists [], s0. cbn [take run]. destruct (exec fuel o s0) as [[x|x|x] s1]; cbn in *.
      + destruct (run _ _ _ _ _); injection E as <- <-; discriminate.
      + destruct (run _ _ _ _ _); injection E as <- <-. exists s1. split_and!; [done|by constructor|done|]. cbn in Hr. congruence.
      + exfalso. destruct x; [destruct (run _ _ _ _ _)| |]; injection E as <- <-; discriminate.
    - destruct a as [a|gcr' junk'].
      + cbn [take run]. destruct (exec fuel a s0) as [x s1]. 
        assert (Hx : match x with ST _ => False | _ => True end /\ exists rs1, run fuel gcr junk h s1 = (rs1, s) /\ rs = x :: rs1).
        { destruct x as [x|x|x].
          - destruct (run _ _ _ _ _) as [r1 q]; injection E as <- <-; eauto.
          - destruct (run _ _ _ _ _) as [r1 q]; injection E as <- <-; eauto.
          - exfalso. destruct x; [destruct (run _ _ _ _ _)| |]; injection E as <- <-; by apply Forall_cons in Hc as [Hc _]. }
        destruct Hx as (Hx & rs1 & E1 & ->). apply Forall_cons in Hc as [Hc0 Hc]. cbn in Hh, Hr.
        destruct (orderly_op _ _ _ _ _ _ Hor) as (b' & Hor' & _).
        assert (Hor2 : exists b2, orderly gcr b2 h rs1 /\ forall h1 r1, orderly gcr b2 h1 r1 -> orderly gcr b (HOp a :: h1) (x :: r1)).
        { destruct a; try (exists false; split; [exact Hor|by intros]). destruct x as [y|y|y]; [exists true|exists false|exists false]; (split; [exact Hor|by intros]). }
        destruct Hor2 as (b2 & Hb2 & Hb3).
        destruct (IH i s1 rs1 s b2 E1 Hc Hb2 Hh Hr) as (r2 & s2 & s3 & E2 & F2 & G2 & H2).
        exists (x :: r2), s2, s3. destruct x as [x|x|x]; [| |done]; rewrite E2; (split_and!; [done|by constructor|by apply Hb3|done]).
      + cbn [take run]. destruct (run fuel gcr junk h _) as [rs1 s1] eqn:E1. injection E as <- <-.
        apply Forall_cons in Hc as [Hc0 Hc]. cbn in Hh, Hr. cbn [orderly] in Hor. destruct Hor as (-> & Ho1 & Ho2).
        destruct (IH i _ rs1 s1 true E1 Hc Ho2 Hh Hr) as (r2 & s2 & s3 & E2 & F2 & G2 & H2).
        rewrite E2. exists (OK RUnit :: r2), s2, s3. split_and!; [done|by constructor|by cbn|done]. }
  destruct (Hsplit h i _ rs s true E Hon Hor Hh Hr) as (rs1 & s1 & s2 & E1 & Hc1 & Ho1 & Ee).
  assert (Hv : valid_op g o). { eapply Forall_lookup_1 in Hops; [|exact Hh]. exact Hops. }
  pose proof (C59_next_call n fuel gcr junk (take i h) rs1 s1 o e s2 Hf Hj Hfu ltac:(by apply Forall_take) Hs E1 Hc1 Ho1 Hv Ee) as H.
  destruct o; tauto.
Qed.
End noecc.
