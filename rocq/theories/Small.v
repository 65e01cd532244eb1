(** C64: pages of 256 bytes (any page size the library accepts, 256 bytes to
    64 KiB), from the first use of a chip until power is lost.

    There are two pages to a checkpoint group with such pages, and C62 shows that
    finding the end of the journal after a power cycle is wrong for them.  Between
    power-up on a chip without a journal and the first loss of power nothing of
    this matters: the map behaves as specified, with the same failures allowed as
    everywhere else (erases and the first page of a block may fail). *)
From stdpp Require Import gmap fin_maps.
From Verif Require Import Base Bytes BytesLemmas Wp Nand Journal MapModel Api Geom Tree Rep Age Inv
  StepJ MapStep MapOps Spec Ppc History Pres Props Wear Quiet Refute RefuteP.
Local Open Scope Z_scope.

(** States of a map started on a fresh chip and used correctly, whatever the calls
    returned, as long as power has not been lost. *)
Definition reachable_on (g : geo) (weak : Z -> bool) (s : ms) : Prop :=
  exists n0 fuel gcr junk ops rs,
    fresh g weak n0 /\ enough_fuel g fuel /\ Forall (valid_op g) ops /\
    run fuel gcr junk (map HOp ops) (snd (restart gcr junk n0)) = (rs, s) /\ Forall completed rs.

Section small.
Context (g : geo) (weak : Z -> bool) (Hsup : supported_small g) (Hfew : few_weak g weak).
Let c := choose_ppc (g_lps g) (g_lppb g).
Let Hg : geo_ok g c := supported_small_geo g Hsup.

Lemma fuel_enough fuel : enough_fuel g fuel -> enough g c fuel.
Proof.
  unfold enough_fuel, enough. pose proof (PC_le _ _ Hg).
  change (TT g) with (g_nblk g * 2 ^ g_lppb g). lia.
Qed.
Lemma fuel_pos fuel : enough_fuel g fuel -> (1 <= fuel)%nat.
Proof. unfold enough_fuel. pose proof (TT_pos _ _ Hg). change (TT g) with (g_nblk g * 2 ^ g_lppb g) in *. lia. Qed.

Lemma start_MX gcr junk n0 : fresh g weak n0 -> MX g c weak (snd (restart gcr junk n0)) ∅ ∅.
Proof.
  intros Hf. destruct (restart_none g c Hg weak n0 (Dsk (-1) 0 [] [] ∅) gcr junk) as (s & E & HM & _); auto.
  - by apply (fresh_D g c Hg).
  - by rewrite E.
Qed.

Lemma MX_shows s S Sd : MX g c weak s S Sd -> shows g s S.
Proof.
  intros HM. split_and!.
  - intros t Ht. rewrite <-(read_of_eq g c Hg). by eapply (read_map_spec g c Hg weak).
  - intros t Ht. unfold mapped.
    destruct (find_spec g c Hg weak _ _ _ _ HM Ht) as [[HS E]|(d & v & HS & E & _)]; rewrite E, HS; cbn.
    + split; [done|]. by intros [? ?].
    + split; [by eexists|done].
  - apply HM.
Qed.

(** All calls up to the first loss of power. *)
Lemma run_on fuel gcr junk ops : enough g c fuel -> Forall (valid_op g) ops ->
  forall s S Sd H, MX g c weak s S Sd -> Forall completed (fst (run fuel gcr junk (map HOp ops) s)) ->
  exists S' Sd' H', hist_ok g S H (map HOp ops) (fst (run fuel gcr junk (map HOp ops) s)) S' H' /\
    MX g c weak (snd (run fuel gcr junk (map HOp ops) s)) S' Sd'.
Proof.
  intros Hf. induction 1 as [|o ops Ho Hops IH]; intros s S Sd H HM Hc; cbn [map run] in *.
  { exists S, Sd, H. split; [constructor|done]. }
  pose proof (exec_spec g c Hg weak Hfew fuel o s S Sd Hf HM Ho) as He. unfold wp in He.
  destruct (exec fuel o s) as [r s1] eqn:E. cbn [fst snd] in He.
  destruct r as [a|e|y].
  - destruct He as (S1 & Sd1 & Hca & HM1 & _).
    destruct (IH s1 S1 Sd1 (match o, OK a with OSync, OK _ => [S1] | _, _ => S1 :: H end) HM1) as (S' & Sd' & H' & Hh & HM').
    { destruct (run fuel gcr junk (map HOp ops) s1) as [rs2 s2]. cbn [fst] in *. apply Forall_cons in Hc as [_ Hc]. exact Hc. }
    exists S', Sd', H'. destruct (run fuel gcr junk (map HOp ops) s1) as [rs2 s2]. cbn [fst snd] in *.
    split; [by eapply h_call|done].
  - destruct He as (S1 & Sd1 & Hca & HM1 & _).
    destruct (IH s1 S1 Sd1 (S1 :: H) HM1) as (S' & Sd' & H' & Hh & HM').
    { destruct (run fuel gcr junk (map HOp ops) s1) as [rs2 s2]. cbn [fst] in *. apply Forall_cons in Hc as [_ Hc]. exact Hc. }
    exists S', Sd', H'. destruct (run fuel gcr junk (map HOp ops) s1) as [rs2 s2]. cbn [fst snd] in *.
    split; [eapply h_call; [done|exact Hca|by destruct o]|done].
  - exfalso. destruct He as [-> _]. destruct (restart gcr junk (chip s1)) as [? s2]. cbn [snd] in Hc. destruct (run fuel gcr junk (map HOp ops) s2) as [rs2 s3]. cbn [fst] in Hc. apply Forall_cons in Hc as [Hc _]. exact Hc.
Qed.

Lemma on_MX s : reachable_on g weak s -> exists S Sd, MX g c weak s S Sd.
Proof.
  intros (n0 & fuel & gcr & junk & ops & rs & Hf & Hfu & Hv & E & Hc).
  destruct (run_on fuel gcr junk ops (fuel_enough _ Hfu) Hv _ _ _ [] (start_MX gcr junk n0 Hf)) as (S & Sd & H & _ & HM).
  - by rewrite E.
  - rewrite E in HM. eauto.
Qed.

(** Every sequence of calls: the results are legal and the map shows the contents
    the specification ends with. *)
Theorem C64_history n0 fuel gcr junk ops rs s :
  fresh g weak n0 -> enough_fuel g fuel -> Forall (valid_op g) ops ->
  run fuel gcr junk (map HOp ops) (snd (restart gcr junk n0)) = (rs, s) -> Forall completed rs ->
  exists S H, hist_ok g ∅ [∅] (map HOp ops) rs S H /\ shows g s S.
Proof.
  intros Hf Hfu Hv E Hc.
  destruct (run_on fuel gcr junk ops (fuel_enough _ Hfu) Hv _ _ _ [∅] (start_MX gcr junk n0 Hf)) as (S & Sd & H & Hh & HM).
  { by rewrite E. }
  rewrite E in Hh, HM. exists S, H. split; [done|by eapply MX_shows].
Qed.

(** In particular the map reads as the calls that returned success say. *)
Theorem C64_reads_latest n0 fuel gcr junk ops rs s :
  fresh g weak n0 -> enough_fuel g fuel -> Forall (valid_op g) ops -> Forall no_copy ops ->
  run fuel gcr junk (map HOp ops) (snd (restart gcr junk n0)) = (rs, s) -> Forall completed rs ->
  shows g s (replay (zip ops rs)).
Proof.
  intros Hf Hfu Hv Hn E Hc. destruct (C64_history _ _ _ _ _ _ _ Hf Hfu Hv E Hc) as (S & H & Hh & Hs).
  destruct (hist_replay _ _ _ _ _ _ _ Hh Hn Hc) as [-> _]. done.
Qed.

(** One call: it ends (no loop bound is hit), the driver is never asked for
    something undefined, and the map goes from the contents it shows to contents
    the call may lead to. *)
Theorem C64_one_call s fuel o r s' :
  reachable_on g weak s -> enough_fuel g fuel -> valid_op g o -> exec fuel o s = (r, s') ->
  exists S, shows g s S /\
    (r = ST Crash \/ (completed r /\ exists S', call_ok g S o r S' /\ shows g s' S')).
Proof.
  intros Hr Hf Hv E. destruct (on_MX s Hr) as (S & Sd & HM). exists S. split; [by eapply MX_shows|].
  pose proof (exec_spec g c Hg weak Hfew fuel o s S Sd (fuel_enough _ Hf) HM Hv) as H.
  unfold wp in H. rewrite E in H. cbn [fst snd] in H.
  destruct r as [a|e|x].
  - destruct H as (S' & Sd' & H1 & H2 & _). right. split; [done|]. eauto using MX_shows.
  - destruct H as (S' & Sd' & H1 & H2 & _). right. split; [done|]. eauto using MX_shows.
  - destruct H as [-> _]. by left.
Qed.

(** A write is refused with MAP_FULL only when the sector is unmapped and the map
    has reached its capacity, and always then. *)
Theorem C64_full_only_when_full s fuel t d s' :
  reachable_on g weak s -> enough_fuel g fuel -> wsector t -> blen d = 2 ^ g_lps g ->
  map_write fuel t d s = (ER E_MAP_FULL, s') ->
  mapped s t = false /\ map_capacity s' <= MapModel.map_size s'.
Proof.
  intros Hr Hf Ht Hd E. destruct (on_MX _ Hr) as (S & Sd & HM).
  assert (Ht' : sector t) by (unfold sector; unfold wsector in Ht; lia).
  pose proof (map_write_spec g c Hg weak Hfew fuel s S Sd t d (fuel_pos _ Hf) HM) as H.
  rewrite (ps_eq g c Hg) in H. specialize (H Ht Hd). unfold wp in H. rewrite E in H. cbn [fst snd] in H.
  destruct H as [_ [He (Sd' & _ & HM')]].
  assert (Hcase : S !! t = None /\ map_capacity s' <= Z.of_nat (size S)).
  { destruct He as [He|[[? _]|(_ & ? & ?)]]; [|done|done].
    unfold jerr in He. naive_solver. }
  destruct Hcase as [HS Hcap]. destruct (MX_shows _ _ _ HM) as (_ & A & _). destruct (MX_shows _ _ _ HM') as (_ & _ & ->).
  split; [|done]. specialize (A t Ht'). destruct (mapped s t); [|done].
  destruct (proj1 A eq_refl) as [? ?]. congruence.
Qed.

Theorem C64_full_when_full s fuel t d s1 :
  reachable_on g weak s -> enough_fuel g fuel -> wsector t ->
  auto_gc fuel s = (OK tt, s1) -> mapped s t = false -> map_capacity s1 <= MapModel.map_size s1 ->
  map_write fuel t d s = (ER E_MAP_FULL, s1).
Proof.
  intros Hr Hf Ht E Hm Hcap. destruct (on_MX _ Hr) as (S & Sd & HM).
  assert (Ht' : sector t) by (unfold sector; unfold wsector in Ht; lia).
  pose proof (auto_gc_spec g c Hg weak Hfew fuel s S Sd (fuel_pos _ Hf) HM) as H.
  unfold wp in H. rewrite E in H. cbn [fst snd] in H. destruct H as [_ (Sd1 & _ & HM1)].
  assert (HS : S !! t = None).
  { destruct (MX_shows _ _ _ HM) as (_ & A & _). specialize (A t Ht'). rewrite Hm in A.
    destruct (S !! t) eqn:EX; [|done]. discriminate (proj2 A (ex_intro _ _ eq_refl)). }
  pose proof HM1 as (_ & hv & tv & sv & K & D & HM2).
  assert (Hul : blen uninit_meta = META_SIZE) by done.
  destruct (trace_MI g c Hg weak _ _ _ _ _ _ _ _ t uninit_meta HM2 Ht' Hul) as (nm & Et & _).
  pose proof (mi_rep _ _ _ _ _ _ _ _ _ _ _ HM2) as Hrep.
  destruct (findp K (j_root (js_j (m_js s1))) t) eqn:Ef.
  { assert (Hid : id_ok t) by (unfold id_ok, SECTOR_NONE; unfold wsector in Ht; lia).
    destruct (proj1 (findp_iff _ _ _ _ Hrep Hid)) as [? ?]; [by eexists|]. congruence. }
  unfold map_write. pose proof (fuel_pos _ Hf). destruct fuel as [|n]; [lia|]. cbn [write_loop].
  unfold bind, gets, prepare_write, bind, gets. rewrite E, Et. cbn [fst].
  unfold MapModel.map_size in Hcap. by rewrite (proj2 (Z.leb_le _ _) Hcap).
Qed.

(** dhara_map_find returns a user page, in a block not marked bad, that holds what
    dhara_map_read returns. *)
Theorem C64_find s t p s' :
  reachable_on g weak s -> sector t -> map_find t s = (OK p, s') ->
  s' = s /\ 0 <= p < g_nblk g * 2 ^ g_lppb g /\ n_bad (chip s) (p / 2 ^ g_lppb g) = false /\
  fst (nand_read p 0 (page_size g) (chip s)) = reads s t.
Proof.
  intros Hr Ht E. destruct (on_MX _ Hr) as (S & Sd & HM). pose proof (MX_shows _ _ _ HM) as (A & _).
  destruct (find_spec g c Hg weak _ _ _ _ HM Ht) as [[HS E']|(d & v & HS & E' & Hu & Hb & Hrd)]; rewrite E' in E; [done|].
  injection E as <- <-. split; [done|]. split; [apply (ph_range _ _ Hg)|].
  split; [done|]. rewrite Hrd. change (OK d = reads s t). unfold reads. rewrite A by done. change (OK d = OK (read_of g S t)).
  f_equal. unfold read_of. change (list Z) with bytes. by rewrite HS.
Qed.

(** On a chip that never fails every call completes, and the only errors are map
    full, journal full and (dhara_map_find only) not found. *)
Theorem C64_no_io_errors n0 fuel gcr junk ops rs s :
  fresh g weak n0 -> quiet n0 -> enough_fuel g fuel -> Forall (valid_op g) ops ->
  run fuel gcr junk (map HOp ops) (snd (restart gcr junk n0)) = (rs, s) ->
  length rs = length ops /\
  forall i o r, ops !! i = Some o -> rs !! i = Some r ->
    match r with
    | OK _ => True
    | ER E_JOURNAL_FULL => True
    | ER E_MAP_FULL => match o with OWrite _ _ | OCopySector _ _ | OCopyPage _ _ => True | _ => False end
    | ER E_NOT_FOUND => match o with OFind _ => True | _ => False end
    | _ => False
    end.
Proof.
  intros Hfr Hq Hf Hv Hrun.
  pose proof (start_MX gcr junk n0 Hfr) as HM.
  assert (Hq0 : quiet (chip (snd (restart gcr junk n0)))) by by rewrite restart_chip.
  revert HM Hq0 Hrun. generalize (snd (restart gcr junk n0)) as s0. generalize (∅ : contents) at 1 as S.
  generalize (∅ : contents) as Sd. revert rs.
  induction Hv as [|o ops Hx Hh IH]; intros rs Sd S s0 HM Hq0 Hrun; cbn [map run] in Hrun.
  { injection Hrun as <- <-. split; [done|]. intros i x r Hi. by rewrite lookup_nil in Hi. }
  destruct (quiet_call g c Hg weak Hfew fuel o s0 S Sd (fuel_enough _ Hf) HM Hq0 Hx) as (r & s' & S' & Sd' & E & Hca & HM' & Hq' & Hr).
  rewrite E in Hrun. destruct (run fuel gcr junk (map HOp ops) s') as [rs' s2] eqn:Er.
  assert (Hrs : rs = r :: rs' /\ s = s2).
  { destruct r as [?|?|?]; [by injection Hrun as <- <-|by injection Hrun as <- <-|done]. }
  destruct Hrs as [-> ->]. destruct (IH rs' Sd' S' s' HM' Hq' Er) as [Hl Hres].
  split; [by cbn; f_equal|]. intros [|i] x r' Hi Hri; cbn in Hi, Hri; [|by eapply Hres].
  injection Hi as <-. injection Hri as <-. inversion Hca; subst; try done.
  all: match goal with Hio : io_err _ |- _ => destruct Hio as [-> | ->] | _ => idtac end; try done.
  - naive_solver.
  - by destruct o.
Qed.
End small.

(** The chip of C62 (24 blocks of four 256-byte pages), used for 48 writes to four
    sectors, a sync and one more write: more than a round through the chip. *)
Definition ops64 : list op :=
  map (fun i => OWrite (Z.of_nat i mod 4) (page8 (Z.of_nat i + 1))) (seq 0 48) ++ [OSync; OWrite 1 (page8 201)].
Lemma run64 : forallb (fun r => match r with OK _ => true | _ => false end)
  (fst (run 600 15 0 (map HOp ops64) (snd (restart 15 0 n62)))) = true.
Proof. by vm_compute. Qed.
Lemma few64 : few_weak g62 (fun _ => false).
Proof. intros b. exists 0, 1. split; [lia|]. split; [lia|]. split; reflexivity. Qed.
Lemma valid64 : Forall (valid_op g62) ops64.
Proof.
  unfold ops64. apply Forall_app. split.
  - rewrite Forall_map. apply Forall_forall. intros i _. cbv beta. split.
    + unfold wsector. pose proof (Z.mod_pos_bound (Z.of_nat i) 4 eq_refl) as H. clear -H. change (2 ^ 32 - 1) with 4294967295. lia.
    + unfold blen, page8. rewrite replicate_length. reflexivity.
  - apply Forall_cons. split; [exact Logic.I|]. apply Forall_cons. split; [|apply Forall_nil; exact Logic.I].
    split; [unfold wsector; lia|unfold blen, page8; rewrite replicate_length; reflexivity].
Qed.
Lemma fresh64 : fresh g62 (fun _ => false) n62.
Proof.
  split; [reflexivity|]. split; [intros p d E; discriminate E|].
  split; [intros b E; discriminate E|]. split; intros t p f E; discriminate E.
Qed.
Lemma fuel64 : enough_fuel g62 600.
Proof. unfold enough_fuel. cbn. lia. Qed.
Lemma all_completed rs : forallb (fun r : out resp => match r with OK _ => true | _ => false end) rs = true -> Forall completed rs.
Proof.
  induction rs as [|r rs IH]; cbn [forallb]; [constructor|]. intros H. apply andb_prop in H as [H1 H2].
  constructor; [by destruct r|by apply IH].
Qed.
Example small_C64 : exists rs s,
  supported_small g62 /\ few_weak g62 (fun _ => false) /\ fresh g62 (fun _ => false) n62 /\
  enough_fuel g62 600 /\ Forall (valid_op g62) ops64 /\
  run 600 15 0 (map HOp ops64) (snd (restart 15 0 n62)) = (rs, s) /\ Forall completed rs /\
  reachable_on g62 (fun _ => false) s.
Proof.
  pose proof (all_completed _ run64) as Hc.
  destruct (run 600 15 0 (map HOp ops64) (snd (restart 15 0 n62))) as [rs s] eqn:E.
  exists rs, s. split; [unfold supported_small; cbn; lia|].
  split; [exact few64|]. split; [exact fresh64|]. split; [exact fuel64|]. split; [exact valid64|].
  split; [reflexivity|]. split; [exact Hc|].
  exists n62, 600%nat, 15, 0, ops64, rs.
  split; [exact fresh64|]. split; [exact fuel64|]. split; [exact valid64|]. split; [exact E|exact Hc].
Qed.
