(** Chips whose operations all succeed: wear levelling (C17), no I/O errors
    (C41), and which errors are possible at all (C42). *)
From stdpp Require Import gmap.
From Verif Require Import Base Bytes BytesLemmas Wp Nand Journal MapModel Api Geom Inv MapStep MapOps Spec Ppc
  History Pres Props Wear.
Local Open Scope Z_scope.

(** No operation fails; nothing on the chip is unreadable; power may be lost. *)
Definition no_failure (n : nand) : Prop :=
  (forall t o, n_orc n t o = EvOk \/ exists f, n_orc n t o = EvCrash f) /\
  (forall p o, n_cell n p <> Junk o).
(** Nor is power lost. *)
Definition quiet (n : nand) : Prop :=
  (forall t o, n_orc n t o = EvOk) /\ (forall p o, n_cell n p <> Junk o).
(** A block that is not marked bad. *)
Definition good_block (n : nand) (b : Z) : Prop := 0 <= b < g_nblk (n_geo n) /\ n_bad n b = false.

Lemma start_I pl n gcr junk : supported_small (n_geo n) -> no_checkpoint n ->
  calm (n_geo n) (n_bad n) pl n ->
  I (n_geo n) (choose_ppc (g_lps (n_geo n)) (g_lppb (n_geo n))) (n_bad n) (n_erases n) 0 pl
    (m_js (snd (restart gcr junk n))).
Proof.
  intros Hsup Hno Hc. pose proof (supported_small_geo _ Hsup) as Hg.
  pose proof (PB_pos _ _ Hg). pose proof (PC_ge _ _ Hg). pose proof (TT_pos _ _ Hg).
  pose proof (restart_chip gcr junk n) as Hch.
  destruct (find_checkblock_none MAX_RETRIES 0 (Js n (journal_init (n_geo n)))) as (s' & E & Hp); auto; [lia|].
  set (s := snd (restart gcr junk n)) in *.
  assert (Hs : exists j, j_ppc j = j_ppc (js_j s') /\ js_j (m_js s) = reset_journal_j (n_geo n) j).
  { pose proof (k_find_checkblock eq (fun _ => eq_refl) (fun a b d => @eq_trans _ a b d) 0 (Js n (journal_init (n_geo n)))) as Hn.
    unfold find_checkblock in Hn. rewrite E in Hn. cbn [snd js_n] in Hn.
    exists (js_j s'). split; [done|]. unfold s, restart, map_resume, map_init, bind at 1, attempt, jn, zoom.
    unfold journal_resume, bind at 1, attempt, journal_resume_body, bind at 1, find_checkblock.
    cbn [m_js]. rewrite E. cbn. by rewrite <-Hn. }
  destruct Hs as (j & Hj & Ej).
  exists 0. split; unfold chip in Hch; rewrite ?Ej, ?Hch; cbn [reset_journal_j j_ppc j_recov j_enum j_head]; auto.
  - by rewrite Hj, Hp.
  - lia.
  - unfold Geom.user. rewrite Z.mod_0_l by lia. lia.
  - rewrite Z.mod_0_l, Z.div_0_l by lia. cbn [Z.eqb]. split; [lia|]. intros. lia.
Qed.

(** C17.  On a chip that never fails, from the first use on and until power is
    lost, the numbers of times any two usable blocks have been erased since then
    differ by at most one: after any sequence of calls [ops] that completed, and
    at any moment of a further call [o] (power is lost during it, at an
    arbitrary operation; [s1] is the state at that moment).  The calls need not
    even be valid. *)
Theorem C17_wear_level n0 fuel gcr junk ops rs s o r s1 a b :
  supported_small (n_geo n0) -> no_checkpoint n0 -> no_failure n0 ->
  run fuel gcr junk (map HOp ops) (snd (restart gcr junk n0)) = (rs, s) -> Forall completed rs ->
  exec fuel o s = (r, s1) -> good_block n0 a -> good_block n0 b ->
  (n_erases (chip s) a - n_erases n0 a) - (n_erases (chip s) b - n_erases n0 b) <= 1 /\
  (n_erases (chip s1) a - n_erases n0 a) - (n_erases (chip s1) b - n_erases n0 b) <= 1.
Proof.
  intros Hsup Hno [Hq1 Hq2] Hrun Hrs He [Ha Fa] [Hb Fb].
  pose proof (supported_small_geo _ Hsup) as Hg.
  assert (Hc : calm (n_geo n0) (n_bad n0) True n0).
  { split; auto. intros t x. destruct (Hq1 t x) as [?|?]; auto. }
  pose proof (start_I True n0 gcr junk Hsup Hno Hc) as HI.
  pose proof (w_run _ _ Hg _ _ _ _ fuel gcr junk ops _ HI) as Hw. rewrite Hrun in Hw. cbn [fst snd] in Hw.
  specialize (Hw Hrs). split.
  - eapply level_diff; eauto. by eapply level_I.
  - eapply level_diff; eauto.
    pose proof (w_exec _ _ Hg _ _ _ _ fuel o s Hw) as H. rewrite He in H.
    destruct r; [eapply level_I, H|eapply level_I, H|apply H].
Qed.

Section quiet0.
Context (g : geo) (c : Z) (Hg : geo_ok g c) (weak : Z -> bool) (Hfew : few_weak g weak).

Lemma MX_I pl s S Sd : MX g c weak s S Sd -> calm g (n_bad (chip s)) pl (chip s) ->
  exists E0, I g c (n_bad (chip s)) (n_erases (chip s)) E0 pl (m_js s).
Proof.
  intros (_ & hv & tv & sv & K & D & HM) Hc. pose proof (mi_j _ _ _ _ _ _ _ _ _ _ _ HM) as [Hn Hj HD _].
  eexists. exists hv. split; [done|apply Hj..|apply HD|apply HD|apply Hj|].
  split; [reflexivity|]. intros. unfold chip. lia.
Qed.

Lemma reach_geo s S Sd : MX g c weak s S Sd -> n_geo (chip s) = g.
Proof.
  intros (_ & hv & tv & sv & K & D & HM). apply (mi_j _ _ _ _ _ _ _ _ _ _ _ HM).
Qed.

(** One call on a quiet chip. *)
Lemma quiet_call fuel o s S Sd : enough g c fuel -> MX g c weak s S Sd -> quiet (chip s) -> valid_op g o ->
  exists r s' S' Sd', exec fuel o s = (r, s') /\ call_ok g S o r S' /\ MX g c weak s' S' Sd' /\ quiet (chip s') /\
    match r with
    | OK _ => True
    | ER e => e = E_JOURNAL_FULL \/ e = E_NOT_FOUND \/ e = E_MAP_FULL
    | ST _ => False
    end.
Proof.
  intros Hf HM [Hq1 Hq2] Hv.
  pose proof (exec_spec g c Hg weak Hfew fuel o s S Sd Hf HM Hv) as H. unfold wp in H.
  assert (Hc : calm g (n_bad (chip s)) False (chip s)).
  { split; auto. by eapply reach_geo. }
  destruct (MX_I False s S Sd HM Hc) as (E0 & HI).
  pose proof (w_exec _ _ Hg _ _ _ _ fuel o s HI) as Hw.
  destruct (exec fuel o s) as [r s']. cbn [fst snd] in H. exists r, s'.
  destruct r as [x|e|x].
  - destruct H as (S' & Sd' & H1 & H2 & _). exists S', Sd'. split_and!; auto.
    destruct Hw as [_ Hw]. pose proof (calm_I _ _ _ _ _ _ _ Hw) as [_ Ho Hj _]. split; [|done].
    intros t y. destruct (Ho t y) as [?|[[] _]]. done.
  - destruct H as (S' & Sd' & H1 & H2 & _). exists S', Sd'. destruct Hw as [He Hw]. split_and!; auto.
    + pose proof (calm_I _ _ _ _ _ _ _ Hw) as [_ Ho Hj _]. split; [|done].
      intros t y. destruct (Ho t y) as [?|[[] _]]. done.
    + unfold okerr in He. inversion H1; subst; auto.
      match goal with Hio : io_err _ |- _ => destruct Hio as [-> | ->] end; [auto|]. naive_solver.
  - destruct H as [-> _]. destruct Hw as [Hw _]. by destruct Hw.
Qed.

End quiet0.

Section quiet.
Context (g : geo) (weak : Z -> bool) (Hsup : supported g) (Hfew : few_weak g weak).
Let c := choose_ppc (g_lps g) (g_lppb g).
Let Hg : geo_ok2 g c := supported_geo g Hsup.

(** C17, from any state on: the map may have been used before, with failures and
    power cycles; from then on no operation fails and no power is lost. *)
Theorem C17_session s0 fuel gcr junk ops rs s o r s1 a b :
  reachable g weak s0 -> no_failure (chip s0) ->
  run fuel gcr junk (map HOp ops) s0 = (rs, s) -> Forall completed rs ->
  exec fuel o s = (r, s1) -> good_block (chip s0) a -> good_block (chip s0) b ->
  (n_erases (chip s) a - n_erases (chip s0) a) - (n_erases (chip s) b - n_erases (chip s0) b) <= 1 /\
  (n_erases (chip s1) a - n_erases (chip s0) a) - (n_erases (chip s1) b - n_erases (chip s0) b) <= 1.
Proof.
  intros Hr [Hq1 Hq2] Hrun Hrs He [Ha Fa] [Hb Fb].
  destruct (reach_MX g weak Hsup Hfew s0 Hr) as (S & Sd & HM).
  pose proof (reach_geo g c weak _ _ _ HM) as Eg. rewrite Eg in *.
  assert (Hc : calm g (n_bad (chip s0)) True (chip s0)).
  { split; auto. intros t x. destruct (Hq1 t x) as [?|?]; auto. }
  destruct (MX_I g c weak True s0 S Sd HM Hc) as (E0 & HI).
  pose proof (w_run _ _ Hg _ _ _ _ fuel gcr junk ops _ HI) as Hw. rewrite Hrun in Hw. cbn [fst snd] in Hw.
  specialize (Hw Hrs). split.
  - eapply (level_diff g c Hg); eauto. by eapply level_I.
  - eapply (level_diff g c Hg); eauto.
    pose proof (w_exec _ _ Hg _ _ _ _ fuel o s Hw) as H. rewrite He in H.
    destruct r; [eapply level_I, H|eapply level_I, H|apply H].
Qed.

(** Each power cycle (between calls) can add at most one to the difference. *)
Fixpoint resets (h : list hop) : Z :=
  match h with
  | [] => 0
  | HOp _ :: h => resets h
  | HReset _ _ :: h => 1 + resets h
  end.
Theorem C17_power_cycles n0 fuel gcr junk h rs s a b :
  fresh g weak n0 -> quiet n0 -> enough_fuel g fuel -> Forall (valid_hop g) h ->
  run fuel gcr junk h (snd (restart gcr junk n0)) = (rs, s) -> good_block n0 a -> good_block n0 b ->
  (n_erases (chip s) a - n_erases n0 a) - (n_erases (chip s) b - n_erases n0 b) <= 1 + resets h.
Proof.
  intros Hfr Hq Hf Hv Hrun [Ha Fa] [Hb Fb]. rewrite (proj1 Hfr) in *.
  pose proof (start_MX g weak Hsup Hfew gcr junk n0 Hfr) as HM.
  assert (Hq0 : quiet (chip (snd (restart gcr junk n0)))) by by rewrite restart_chip.
  assert (Hbd : n_bad (chip (snd (restart gcr junk n0))) = n_bad n0) by by rewrite restart_chip.
  pose proof (restart_chip gcr junk n0) as Hch0.
  assert (Hc : calm g (n_bad (chip (snd (restart gcr junk n0)))) False (chip (snd (restart gcr junk n0)))).
  { destruct Hq0. split; auto. by eapply reach_geo. }
  destruct (MX_I g c weak False _ _ _ HM Hc) as (E0 & HI). rewrite !Hch0 in HI. clear Hc.
  set (e0 := n_erases n0) in HI.
  assert (Hk : (e0 a - n_erases n0 a) - (e0 b - n_erases n0 b) <= 0) by (unfold e0; lia).
  replace (1 + resets h) with (0 + 1 + resets h) by lia.
  revert HM Hq0 HI Hk Hrun. clear Hch0 Hbd. generalize 0 as k. clearbody e0. revert E0 e0.
  generalize (snd (restart gcr junk n0)) as s0. generalize (∅ : contents) at 1 as S.
  generalize (∅ : contents) as Sd. revert rs.
  induction Hv as [|x h Hx Hh IH]; intros rs Sd S s0 E0 e0 k HM Hq0 HI Hk Hrun; cbn [run] in Hrun.
  { injection Hrun as <- <-. pose proof (level_diff g c Hg _ _ _ _ a b (level_I _ _ _ _ _ _ _ HI) Ha Hb Fa Fb).
    unfold chip. cbn [resets]. lia. }
  destruct x as [o|gcr' junk'].
  - pose proof (w_exec _ _ Hg _ _ _ _ fuel o s0 HI) as Hw.
    destruct (quiet_call g c Hg weak Hfew fuel o s0 S Sd (fuel_enough g Hsup _ Hf) HM Hq0 Hx) as (r & s' & S' & Sd' & E & Hca & HM' & Hq' & Hr).
    rewrite E in Hrun, Hw. destruct (run fuel gcr junk h s') as [rs' s2] eqn:Er.
    assert (Hrs : s = s2 /\ I g c (n_bad n0) e0 E0 False (m_js s')).
    { destruct r as [?|?|?]; [injection Hrun as <- <-; by split; [|apply Hw]..|done]. }
    destruct Hrs as [-> HI']. exact (IH rs' Sd' S' s' E0 e0 k HM' Hq' HI' Hk Er).
  - destruct (restart_spec g c Hg weak Hfew (go2_c _ _ Hg) _ _ gcr' junk' (MX_CI _ _ _ _ _ _ HM) eq_refl) as (s2 & E2 & HM2 & _).
    pose proof (restart_chip gcr' junk' (chip s0)) as Hch. rewrite E2 in Hrun, Hch.
    destruct (run fuel gcr junk h s2) as [rs' s3] eqn:Er. injection Hrun as <- <-.
    pose proof (calm_I _ _ _ _ _ _ _ HI) as Hc.
    assert (Hb2 : forall x, n_bad (chip s2) x = n_bad n0 x) by (intros x; rewrite Hch; apply Hc).
    assert (Hc2 : calm g (n_bad (chip s2)) False (chip s2)).
    { rewrite Hch. destruct Hc. split; auto. }
    destruct (MX_I g c weak False s2 _ _ HM2 Hc2) as (E1 & HI2).
    assert (HI3 : I g c (n_bad n0) (n_erases (chip s2)) E1 False (m_js s2)).
    { destruct HI2 as [hv [[]]]. exists hv. split; auto; [split; auto; congruence|].
      destruct ah_worn as [H1 H2]. split; [done|]. intros y Hy Fy. apply H2; [done|]. by rewrite Hb2. }
    pose proof (level_diff g c Hg _ _ _ _ a b (level_I _ _ _ _ _ _ _ HI) Ha Hb Fa Fb) as Hd.
    assert (Hk2 : (n_erases (chip s2) a - n_erases n0 a) - (n_erases (chip s2) b - n_erases n0 b) <= k + 1).
    { rewrite Hch. unfold chip in *. lia. }
    rewrite <-Hch in Hq0.
    pose proof (IH rs' Sd Sd s2 E1 _ (k + 1) HM2 Hq0 HI3 Hk2 Er) as Hfin.
    cbn [resets]. lia.
Qed.

(** C41.  On a chip that never fails, calls report no error except map full,
    journal full and (dhara_map_find only) not found, whatever the history, with
    power cycles between calls. *)
Theorem C41_no_io_errors n0 fuel gcr junk h rs s :
  fresh g weak n0 -> quiet n0 -> enough_fuel g fuel -> Forall (valid_hop g) h ->
  run fuel gcr junk h (snd (restart gcr junk n0)) = (rs, s) ->
  length rs = length h /\
  forall i x r, h !! i = Some x -> rs !! i = Some r ->
    match r with
    | OK _ => True
    | ER E_JOURNAL_FULL => True
    | ER E_MAP_FULL => match x with HOp (OWrite _ _ | OCopySector _ _ | OCopyPage _ _) => True | _ => False end
    | ER E_NOT_FOUND => match x with HOp (OFind _) => True | _ => False end
    | _ => False
    end.
Proof.
  intros Hfr Hq Hf Hv Hrun.
  pose proof (start_MX g weak Hsup Hfew gcr junk n0 Hfr) as HM.
  assert (Hq0 : quiet (chip (snd (restart gcr junk n0)))) by by rewrite restart_chip.
  revert HM Hq0 Hrun. generalize (snd (restart gcr junk n0)) as s0. generalize (∅ : contents) at 1 as S.
  generalize (∅ : contents) as Sd. revert rs.
  induction Hv as [|x h Hx Hh IH]; intros rs Sd S s0 HM Hq0 Hrun; cbn [run] in Hrun.
  { injection Hrun as <- <-. split; [done|]. intros i x r Hi. by rewrite lookup_nil in Hi. }
  destruct x as [o|gcr' junk'].
  - destruct (quiet_call g c Hg weak Hfew fuel o s0 S Sd (fuel_enough g Hsup _ Hf) HM Hq0 Hx) as (r & s' & S' & Sd' & E & Hca & HM' & Hq' & Hr).
    rewrite E in Hrun. destruct (run fuel gcr junk h s') as [rs' s2] eqn:Er.
    assert (Hrs : rs = r :: rs' /\ s = s2).
    { destruct r as [?|?|?]; [by injection Hrun as <- <-|by injection Hrun as <- <-|done]. }
    destruct Hrs as [-> ->]. destruct (IH rs' Sd' S' s' HM' Hq' Er) as [Hl Hres].
    split; [by cbn; f_equal|]. intros [|i] x r' Hi Hri; cbn in Hi, Hri; [|by eapply Hres].
    injection Hi as <-. injection Hri as <-. inversion Hca; subst; try done.
    all: match goal with Hio : io_err _ |- _ => destruct Hio as [-> | ->] | _ => idtac end; try done.
    + naive_solver.
    + by destruct o.
  - destruct (restart_spec g c Hg weak Hfew (go2_c _ _ Hg) _ _ gcr' junk' (MX_CI _ _ _ _ _ _ HM) eq_refl) as (s2 & E2 & HM2 & _).
    pose proof (restart_chip gcr' junk' (chip s0)) as Hch. rewrite E2 in Hrun, Hch.
    destruct (run fuel gcr junk h s2) as [rs' s3] eqn:Er. injection Hrun as <- <-.
    rewrite <-Hch in Hq0. destruct (IH rs' Sd Sd s2 HM2 Hq0 Er) as [Hl Hres].
    split; [by cbn; f_equal|]. intros [|i] x r' Hi Hri; cbn in Hi, Hri; [by injection Hri as <-|by eapply Hres].
Qed.

(** C42.  As long as two of any eight consecutive blocks do not fail, no call
    reports "too many bad blocks", "bad block" or "recover": the errors are those
    of map.h. *)
Theorem C42_errors s fuel o e s' :
  reachable g weak s -> enough_fuel g fuel -> valid_op g o -> exec fuel o s = (ER e, s') ->
  match o with
  | OWrite t _ | OCopySector _ t | OCopyPage _ t =>
      e = E_JOURNAL_FULL \/ e = E_ECC \/ (e = E_MAP_FULL /\ mapped s t = false)
  | OTrim _ | OGc | OSync => e = E_JOURNAL_FULL \/ e = E_ECC
  | OFind t => e = E_NOT_FOUND /\ mapped s t = false
  | OClear | ORead _ | OSize => False
  end.
Proof.
  intros Hr Hf Hv E.
  destruct (call_cases g weak Hsup Hfew s fuel o (ER e) s' Hr Hf Hv E Logic.I) as (S & S' & Hs & Hca & Hs').
  inversion Hca; subst.
  - split; [done|]. eapply shows_unmapped; eauto.
  - match goal with Hio : io_err _ |- _ => destruct Hio as [-> | ->] end; destruct o; try done; auto.
  - assert (Hw : forall t, wsector t -> sector t) by (unfold wsector, sector; lia).
    destruct o; try done; subst; right; right; (split; [done|]); eapply shows_unmapped; eauto; cbn in Hv; apply Hw, Hv.
Qed.
End quiet.
