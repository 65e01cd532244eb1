(** Calls of the map during which programs fail in mid-block. *)
From stdpp Require Import gmap fin_maps.
From Verif Require Import Base Bytes BytesLemmas Wp Nand Journal MapModel Api Geom Tree Rep RecTree Inv Hdr StepDI StepNand StepJ StepA StepR StepS StepG Resume MapStep MapOps San Top Bm Rec Rec2 Rec3 Rec4 Rec5 Rec6 Rec7 RecMap RecOps RecOps2 Spec Ppc History.
From Verif Require Pres.
Local Open Scope Z_scope.

Section recops3.
Context (g : geo) (c : Z) (Hg : geo_ok2 g c) (weak : Z -> bool) (Hdense : dense g weak).
Notation PB := (PB g).
Notation PC := (PC c).
Notation NB := (NB g).
Notation TT := (TT g).
Notation ph := (ph g).
Notation user := (user c).
Notation nextv := (nextv c).
Notation badv := (badv g).
Notation nok := (nok g weak).
Notation JInv := (JInv g c).
Notation JI := (JI g c weak).
Notation nokF := (nokF g weak).

Ltac pose_geo :=
  pose proof (PC_ge4 _ (go2_c _ _ Hg)) as HPC4; pose proof (PC_le _ _ Hg) as HPC256;
  pose proof (PB_pos _ _ Hg) as HPB4; pose proof (PB_ge _ _ Hg) as HPBC;
  pose proof (NB_ge _ _ Hg) as HNB8; pose proof (TT_le _ _ Hg) as HTT31;
  pose proof (TT_pos _ _ Hg) as HTTpos.
Notation "'lem' x" := (x g c Hg) (at level 9, x at level 8, only parsing).
Notation "'lemw' x" := (x g c Hg weak) (at level 9, x at level 8, only parsing).

Notation contents := (gmap Z bytes).
Notation rootof s := (j_root (js_j (m_js s))).
Notation dirtyof s := (j_dirty (js_j (m_js s))).
Notation MI := (MapStep.MI g c weak).
Notation MX := (MapStep.MX g c weak).
Notation Rst := (Rst g c weak).
Notation topI := (topI g).
Notation Good := (Good g c weak).
Notation enoughR := (enoughR g c).
Notation mfpost := (mfpost g c weak).
Notation frec := (frec g c weak).
Notation gcn := (gcn g).
Notation sw := (sw g).
Local Opaque lk lkv wf wfv pa meta_get_id meta_get_alt.
Notation G := (G g c weak).

Lemma jerr_leak n e : jerr n e -> leak e.
Proof. unfold jerr, leak. tauto. Qed.
Lemma try_rec_fail fuel e s : e <> E_RECOVER -> try_recover fuel e s = (ER e, s).
Proof. intros H. unfold try_recover. by rewrite decide_True. Qed.

Lemma MI_G s S Sd hv tv sv K D : Good s S Sd -> S <> ∅ -> MI (sanm s) S Sd hv tv sv K D -> G s S Sd hv tv sv K D.
Proof. intros HG HS HM. split; [exact HM|apply HG|]. eapply (Good_top g c weak); eauto. Qed.

Lemma Good_run {A} (m : MM A) s o s' S Sd S' Sd' : sw m -> Good s S Sd -> m s = (o, s') ->
  (match o with ST _ => False | _ => True end) -> MX (sanm s') S' Sd' ->
  Good s' S' Sd' /\ (gcn (chip s') <= gcn (chip s))%nat.
Proof.
  intros Hs HG E Ho HM. split; [by eapply (Good_step g c weak m)|].
  apply gcn_le. pose proof (sw_bad _ _ Hs s) as H. by rewrite E in H.
Qed.

(** ** Garbage collection *)
Definition fgc (s : ms) (S Sd : contents) {A} (o : out A) (s' : ms) : Prop :=
  m_gcr s' = m_gcr s /\
  match o with
  | OK _ => exists Sd', (Sd' = Sd \/ Sd' = S) /\ Good s' S Sd'
  | ER e => leak e
  | ST x => x = Crash
  end.

Lemma fgc_trans s1 s2 S Sd Sd' A (o : out A) s3 : fgc s2 S Sd' o s3 -> m_gcr s2 = m_gcr s1 -> (Sd' = Sd \/ Sd' = S) ->
  fgc s1 S Sd o s3.
Proof.
  intros [Eg H] E HS. split; [congruence|]. destruct o as [a|e|x]; [|done|done].
  destruct H as (Sd'' & H1 & H2). exists Sd''. split; [|done].
  destruct H1 as [-> | ->]; [done|by right].
Qed.

Lemma gc_loopF fuel (Hf : enoughR fuel) n : forall s S Sd, S <> ∅ -> Good s S Sd -> (gcn (chip s) < n)%nat ->
  wp (map_gc_loop n fuel) s (fgc s S Sd).
Proof.
  induction n as [|n IH]; intros s S Sd HS HG Hlt; [lia|]. cbn [map_gc_loop].
  destruct (Good_G g c weak _ _ _ HG HS) as [Hc (hv & tv & sv & K & D & HG0)].
  pose proof (G_mi _ _ _ _ _ _ _ _ _ _ _ HG0) as HM.
  destruct (lemw peek_MI Hdense _ _ _ _ _ _ _ _ HM) as (t1 & tv1 & E1 & Hle & HM1 & Ec1 & Eg1 & En1 & Ed1).
  destruct (ag_run _ _ _ _ (ag_peek s) E1) as (s1 & E1' & <-).
  assert (HX1 : MX (sanm s1) S Sd). { split; [by rewrite Ec1|]. by exists hv, tv1, sv, K, D. }
  cbn [m_count m_gcr sanm] in Ec1, Eg1.
  destruct (Good_run _ _ _ _ _ _ _ _ (sw_peek g) HG E1' Logic.I HX1) as [HG1 Hgc1].
  eapply wp_bind_ok; [exact E1'|]. clear E1 E1'.
  destruct (tv =? hv).
  { rewrite Z.eqb_refl. apply wp_ret. split; [done|]. exists Sd. split; [by left|done]. }
  destruct (Z.eqb_spec (ph tv1) PAGE_NONE) as [E|_]; [pose proof (ph_pn g c Hg tv1); lia|].
  apply wp_bind, wp_attempt.
  pose proof (MI_G _ _ _ _ _ _ _ _ HG1 HS HM1) as HD1.
  eapply wp_mono.
  { eapply (wp_sw g c weak); [apply (sw_raw_gc g c Hg)|exact HG1|].
    eapply dich_wp; [apply (raw_gc_D g c Hg weak Hdense _ _ _ _ _ _ _ _ HD1 HS)|].
    apply (lemw raw_gc_spec Hdense _ _ _ _ _ _ _ _ HM1). cbn [m_count sanm]. congruence. }
  intros o s2 (Ho & Hbl & Hst). apply (gcn_le g) in Hbl.
  destruct Ho as [(Eg2 & Ec2 & Ho)|(Eg2 & Ec2 & Ho)].
  - cbn [m_count m_gcr sanm] in Eg2, Ec2. destruct o as [[]|e|x].
    + destruct Ho as (hv2 & sv2 & K2 & D2 & Sd2 & HM2 & HS2 & Hle2 & Hfp & _).
      assert (HX2 : MX (sanm s2) S Sd2). { split; [cbn; congruence|]. by exists hv2, tv1, sv2, K2, D2. }
      pose proof (Hst Logic.I _ _ HX2) as HG2.
      destruct (lemw dequeue_any _ _ _ _ _ _ _ _ HM2 Hfp) as (t3 & E3 & En3 & Eg3 & Ec3 & Ed3 & tv3 & sv3 & K3 & D3 & HM3 & _).
      destruct (ag_run _ _ _ _ (ag_dequeue s2) E3) as (s3 & E3' & <-).
      cbn [m_count m_gcr sanm] in Eg3, Ec3.
      assert (HX3 : MX (sanm s3) S Sd2). { split; [cbn; congruence|]. by exists hv2, tv3, sv3, K3, D3. }
      destruct (Good_run _ _ _ _ _ _ _ _ (sw_dequeue g) HG2 E3' Logic.I HX3) as [HG3 _].
      unfold wp. rewrite E3'. cbn [fst snd]. split; [congruence|]. exists Sd2. done.
    + destruct Ho as (He & _). apply wp_bind. unfold wp. pose proof (jerr_leak _ _ He) as Hlk.
      rewrite try_rec_fail by (by apply leak_ne). cbn [fst snd]. split; [congruence|done].
    + destruct Ho as (-> & _). split; [congruence|done].
  - destruct o as [[]|e|x]; [done| |split; [congruence|done]].
    apply wp_bind. eapply wp_mono.
    { apply (recover_case g c Hg weak fuel s2 S e Hf HS Ho); [congruence|]. rewrite Eg2, Eg1. apply HM. }
    intros o s3 [Eg3 Ho3]. destruct o as [[]|e'|x]; [|split; [congruence|done]|split; [congruence|done]].
    destruct Ho3 as (HG3 & Hd3 & Hgc3).
    eapply wp_mono; [apply (IH s3 S S HS HG3); lia|].
    intros o s4 H4. eapply fgc_trans; [exact H4|congruence|by right].
Qed.

Definition enoughF (fuel : nat) : Prop := enoughR fuel /\ NB < Z.of_nat fuel /\ TT + PC <= Z.of_nat fuel.
Lemma enoughF_gcn fuel n : enoughF fuel -> (gcn n < fuel)%nat.
Proof. intros (_ & H & _). pose proof (gcn_max g c Hg n). lia. Qed.

Lemma map_gcF fuel s S Sd : enoughF fuel -> S <> ∅ -> Good s S Sd -> wp (map_gc fuel) s (fgc s S Sd).
Proof.
  intros Hf HS HG. unfold map_gc. apply wp_bind, wp_gets. destruct (m_count s =? 0).
  - apply wp_ret. split; [done|]. exists Sd. split; [by left|done].
  - apply gc_loopF; auto; [apply Hf|by apply enoughF_gcn].
Qed.

Lemma repeat_gcF i fuel : enoughF fuel -> forall s S Sd, S <> ∅ -> Good s S Sd -> wp (repeat_gc i fuel) s (fgc s S Sd).
Proof.
  intros Hf. induction i as [|i IH]; intros s S Sd HS HG; cbn [repeat_gc].
  - apply wp_ret. split; [done|]. exists Sd. split; [by left|done].
  - apply wp_bind. eapply wp_mono; [by apply map_gcF|]. intros o s2 [Eg2 Ho].
    destruct o as [[]|e|x]; [|by split|by split].
    destruct Ho as (Sd2 & HS2 & HM2). eapply wp_mono; [by apply IH|].
    intros o s3 H3. by eapply fgc_trans.
Qed.

Lemma auto_gcF fuel s S Sd : enoughF fuel -> S <> ∅ -> Good s S Sd -> wp (auto_gc fuel) s (fgc s S Sd).
Proof.
  intros Hf HS HG. unfold auto_gc. apply wp_bind, wp_gets. destruct (_ <? _).
  - apply wp_ret. split; [done|]. exists Sd. split; [by left|done].
  - apply wp_bind, wp_gets. by apply repeat_gcF.
Qed.
Lemma auto_gcFb fuel s S Sd : enoughF fuel -> S <> ∅ -> Good s S Sd ->
  wp (auto_gc fuel) s (fun o s' => fgc s S Sd o s' /\ (gcn (chip s') <= gcn (chip s))%nat).
Proof.
  intros Hf HS HG. pose proof (auto_gcF fuel s S Sd Hf HS HG) as H. unfold wp in *. split; [exact H|].
  apply gcn_le. apply (sw_auto_gc g c Hg).
Qed.

(** ** Trimming *)
Definition tfpost (s : ms) (S Sd : contents) (t : Z) {A} (o : out A) (s' : ms) : Prop :=
  match o with
  | OK _ => exists Sd', (Sd' = Sd \/ Sd' = S \/ Sd' = delete t S) /\ Good s' (delete t S) Sd'
  | ER e => leak e
  | ST x => x = Crash
  end.

Lemma trim_loopF fuel (Hf : enoughF fuel) t (Ht : 0 <= t < 2 ^ 32) n : forall s S Sd, S <> ∅ -> Good s S Sd -> (gcn (chip s) < n)%nat ->
  wp (trim_loop n fuel t) s (tfpost s S Sd t).
Proof.
  induction n as [|n IH]; intros s S Sd HS HG Hlt; [lia|]. cbn [trim_loop].
  apply wp_bind. eapply wp_mono; [by apply (auto_gcFb fuel s S Sd)|].
  intros o s1 [[Eg1 Ho] Hgc1]. destruct o as [[]|e|x]; [|done|done].
  destruct Ho as (Sd1 & HS1 & HG1).
  destruct (Good_G g c weak _ _ _ HG1 HS) as [Hc1 (hv & tv & sv & K & D & HD1)].
  apply wp_bind, wp_attempt. eapply wp_mono.
  { eapply (wp_sw g c weak); [apply (sw_try_delete g c Hg)|exact HG1|].
    eapply dich_wp; [apply (try_delete_D g c Hg weak Hdense _ _ _ _ _ _ _ _ t HD1 HS Ht)|].
    apply (lemw try_delete_spec Hdense _ _ _ t (gd_mx _ _ _ _ _ _ HG1) Ht). }
  intros o s2 (Ho & Hbl & Hst). apply (gcn_le g) in Hbl.
  destruct Ho as [(Eg2 & Ho)|(Eg2 & Ec2 & Ho)].
  - destruct o as [[]|e|x].
    + destruct Ho as (Sd2 & HS2 & HM2). apply wp_ret. exists Sd2. split; [|by apply Hst].
      destruct HS2 as [-> | [-> | ->]]; auto. destruct HS1 as [-> | ->]; auto.
    + destruct Ho as (He & _). apply wp_bind. unfold wp. pose proof (jerr_leak _ _ He) as Hlk.
      rewrite try_rec_fail by (by apply leak_ne). exact Hlk.
    + by destruct Ho as (-> & _).
  - destruct o as [[]|e|x]; [done| |done].
    apply wp_bind. eapply wp_mono.
    { apply (recover_case g c Hg weak fuel s2 S e (proj1 Hf) HS Ho); [congruence|]. rewrite Eg2.
      destruct (gd_mx _ _ _ _ _ _ HG1) as (_ & hv0 & tv0 & sv0 & K0 & D0 & HMx). exact (mi_gcr _ _ _ _ _ _ _ _ _ _ _ HMx). }
    intros o s3 [Eg3 Ho3]. destruct o as [[]|e'|x]; [|done|done].
    destruct Ho3 as (HG3 & Hd3 & Hgc3).
    eapply wp_mono; [apply (IH s3 S S HS HG3); lia|].
    intros o s4 H4. destruct o as [[]|e'|x]; [|done|done].
    destruct H4 as (Sd4 & HS4 & HG4). exists Sd4. split; [tauto|done].
Qed.

Lemma map_trimF fuel s S Sd t : enoughF fuel -> S <> ∅ -> Good s S Sd -> 0 <= t < 2 ^ 32 ->
  wp (map_trim fuel t) s (tfpost s S Sd t).
Proof. intros Hf HS HG Ht. apply trim_loopF; auto. by apply enoughF_gcn. Qed.

(** ** Writing *)
Definition wfpost (s : ms) (S Sd : contents) (dst : Z) (P : bytes -> Prop) {A} (o : out A) (s' : ms) : Prop :=
  match o with
  | OK _ => exists d Sd', P d /\ (Sd' = Sd \/ Sd' = S \/ Sd' = <[dst:=d]> S) /\ Good s' (<[dst:=d]> S) Sd'
  | ER e => leak e \/ (e = E_MAP_FULL /\ S !! dst = None /\ exists Sd', (Sd' = Sd \/ Sd' = S) /\ Good s' S Sd')
  | ST x => x = Crash
  end.

Lemma sw_gets {A} (f : ms -> A) : sw (gets f).
Proof. split; [intros s; apply ext_refl|apply Top.km_gets|apply Bm.km_gets|intros s; apply badle_refl]. Qed.

Lemma write_loopF fuel (Hf : enoughF fuel) dst (Hid : id_ok dst) app P ecc
  (Hok : forall hv tv sv K D, appok g c weak app P ecc hv tv sv K D)
  (HD : forall s S Sd hv tv sv K D m, G s S Sd hv tv sv K D -> S <> ∅ -> blen m = META_SIZE -> dich sanm (jn (app m)) s (mfpost s S))
  (Hsw : forall m, sw (jn (app m))) n :
  forall s S Sd, S <> ∅ -> Good s S Sd -> (gcn (chip s) < n)%nat ->
  wp (write_loop n fuel dst app) s (wfpost s S Sd dst P).
Proof.
  induction n as [|n IH]; intros s S Sd HS HG Hlt; [lia|]. cbn [write_loop].
  apply wp_bind, wp_gets. apply wp_bind. unfold prepare_write. apply wp_bind.
  assert (Hc : m_count s = Z.of_nat (size S)) by apply HG.
  eapply wp_mono; [by apply (auto_gcFb fuel s S Sd)|].
  intros o s1 [[Eg1 Ho] Hgc1]. destruct o as [[]|e|x]; [|by left|done].
  destruct Ho as (Sd1 & HS1 & HG1).
  destruct (Good_G g c weak _ _ _ HG1 HS) as [Hc1 (hv & tv & sv & K & D & HD1)].
  pose proof (G_mi _ _ _ _ _ _ _ _ _ _ _ HD1) as HM1.
  assert (Hul : blen uninit_meta = META_SIZE) by done.
  assert (0 <= dst < 2 ^ 32) as Hdr by (unfold id_ok, SECTOR_NONE in Hid; lia).
  destruct (lemw trace_MI _ _ _ _ _ _ _ _ dst uninit_meta HM1 Hdr Hul) as (nm & Et & Hp).
  eapply wp_bind_ok; [exact (ag_same g _ _ _ (sw_trace g _ _) (ag_trace _ _ _) Et)|]. cbn [fst snd].
  pose proof (mi_rep _ _ _ _ _ _ _ _ _ _ _ HM1) as Hrep.
  assert (Hgcr : 1 <= m_gcr s1 <= 255) by apply HM1.
  assert (Hmid : forall s2, m_js s2 = m_js s1 -> m_gcr s2 = m_gcr s1 ->
     (forall d : bytes, m_count s2 = Z.of_nat (size (<[dst:=d]> S))) ->
    wp (let! cnt := gets m_count in ck_set_count cnt;;; ret nm) s2
      (fun o s' => match o with
       | OK a => wp (let! r := attempt (jn (app a)) in
           match r with
           | inr _ => ret tt
           | inl my_err => modify (set_count (m_count s));;; try_recover fuel my_err;;; write_loop n fuel dst app
           end) s' (wfpost s S Sd dst P)
       | ER e => wfpost s S Sd dst P (ER e : out unit) s'
       | ST x => wfpost s S Sd dst P (ST x : out unit) s'
       end)).
  { intros s2 Ej2 Eg2 Ec2.
    assert (Ech : chip s2 = chip s1) by (unfold chip; by rewrite Ej2).
    assert (HM2 : MI (sanm s2) S Sd1 hv tv sv K D).
    { destruct HM1 as [? ? ? ? ?]. split; cbn [sanm m_js m_gcr] in *; rewrite ?Ej2, ?Eg2; auto. }
    assert (HD2 : G s2 S Sd1 hv tv sv K D).
    { destruct HD1 as [? ? ?]. split; [exact HM2|by rewrite Ech|by rewrite Ej2]. }
    apply wp_bind, wp_gets.
    destruct (ck_D g c Hg weak _ _ _ _ _ _ _ _ (m_count s2) HD2) as (s3 & E3 & HD3 & Ec3 & Eg3 & Er3 & Eck).
    eapply wp_bind_ok; [exact E3|]. apply wp_ret, wp_bind, wp_attempt.
    assert (HI3 : IT g (js_j (m_js s3)) /\ BM (js_j (m_js s3))).
    { pose proof (G_top _ _ _ _ _ _ _ _ _ _ _ HD3) as []. split; [done|by right]. }
    pose proof (sw_bad _ _ (sw_ck g (m_count s2)) s2) as Hb3. rewrite E3 in Hb3. cbn [snd] in Hb3.
    rewrite Ech in Hb3. apply (gcn_le g) in Hb3.
    pose proof (G_mi _ _ _ _ _ _ _ _ _ _ _ HD3) as HM3.
    assert (Hsp : wp (jn (app nm)) s3 (fun o s' =>
       (let t' := sanm s' in m_gcr t' = m_gcr (sanm s3) /\ m_count t' = m_count (sanm s3) /\
        match o with
        | OK _ => exists d Sd', P d /\ (Sd' = Sd1 \/ Sd' = <[dst:=d]> S) /\
           exists hv' sv' K' D', MI t' (<[dst:=d]> S) Sd' hv' tv sv' K' D'
        | ER e => leak e
        | ST x => x = Crash
        end) \/ mfpost s3 S o s')).
    { eapply (dich_wp _ _ _ (fun o t' => m_gcr t' = m_gcr (sanm s3) /\ m_count t' = m_count (sanm s3) /\
        match o with
        | OK _ => exists d Sd', P d /\ (Sd' = Sd1 \/ Sd' = <[dst:=d]> S) /\
           exists hv' sv' K' D', MI t' (<[dst:=d]> S) Sd' hv' tv sv' K' D'
        | ER e => leak e
        | ST x => x = Crash
        end)); [eapply HD; [exact HD3|exact HS|apply Hp]|].
      eapply wp_mono.
      - eapply (lemw append_MI (sanm s3) S Sd1 hv tv sv K D (app nm) P ecc nm (fun d => <[dst:=d]> S)).
        + exact HM3.
        + apply Hp.
        + intros d _. change (cookie (m_js (sanm s3))) with (cookie (m_js s3)). rewrite Eck, (Ec2 d). done.
        + intros d n0 _ HKn Hnr. eapply repr_insert; eauto.
        + eapply age_path; [exact (mi_age _ _ _ _ _ _ _ _ _ _ _ HM1)|exact Hp].
        + apply Hok; [apply HM3|apply Hp].
      - cbn beta. intros o s4 (Eg4 & Ec4 & Ho). split; [exact Eg4|]. split; [exact Ec4|].
        destruct o as [[]|e|x].
        + destruct Ho as (d & hv' & sv' & D' & Sd' & HP & _ & _ & _ & _ & HM' & HSd & _).
          exists d, Sd'. split; [done|]. split; [done|]. by eexists _, _, _, _.
        + destruct Ho as (He & _). unfold leak. tauto.
        + by destruct Ho as (-> & _). }
    pose proof (Hsw nm) as Hswn.
    assert (Hsp2 : wp (jn (app nm)) s3 (fun o s' => badle (chip s3) (chip s') /\
       ((match o with ST _ => False | _ => True end) -> forall S' Sd', MX (sanm s') S' Sd' -> Good s' S' Sd'))).
    { unfold wp. split; [apply Hswn|]. intros Hns S' Sd' HX.
      assert (HIT : IT g (js_j (m_js (snd (jn (app nm) s3))))).
      { pose proof (sw_it _ _ Hswn s3 (nf_geo _ _ _ (G_nok _ _ _ _ _ _ _ _ _ _ _ HD3))) as [_ H].
        specialize (H (proj1 HI3)). destruct (fst (jn (app nm) s3)); done. }
      split; [exact HX| |exact HIT|apply (sw_bm _ _ Hswn), HI3].
      eapply (ext_nokF g weak); [apply HD3|apply (sw_ext _ _ Hswn)|]. by apply (MX_nok g c weak) in HX. }
    eapply wp_mono; [exact (wp_conj _ _ _ _ Hsp Hsp2)|].
    clear Hsp Hsp2. intros o s4 [Ho [Hbl Hst]]. apply (gcn_le g) in Hbl.
    destruct Ho as [(Eg4 & Ec4 & Ho)|(Eg4 & Ec4 & Ho)].
    - cbn [m_count m_gcr sanm] in Eg4, Ec4. destruct o as [[]|e|x].
      + destruct Ho as (d & Sd' & HP & HSd & hv' & sv' & K' & D' & HM').
        apply wp_ret. exists d, Sd'. split; [done|]. split.
        { destruct HSd as [-> | ->]; [|by right; right]. destruct HS1 as [-> | ->]; auto. }
        apply Hst; [done|]. split; [cbn; rewrite Ec4, Ec3; apply Ec2|]. by eexists _, _, _, _, _.
      + apply wp_bind, wp_modify, wp_bind. unfold wp. rewrite try_rec_fail by (by apply leak_ne). by left.
      + exact Ho.
    - destruct o as [[]|e|x]; [done| |exact Ho].
      apply wp_bind, wp_modify, wp_bind. eapply wp_mono.
      { apply (recover_case g c Hg weak fuel (set_count (m_count s) s4) S e (proj1 Hf) HS Ho); [exact Hc|].
        cbn [m_gcr set_count]. rewrite Eg4, Eg3, Eg2. exact Hgcr. }
      intros o s5 [Eg5 Ho5]. destruct o as [[]|e'|x]; [|by left|done].
      destruct Ho5 as (HG5 & Hd5 & Hgc5). change (chip (set_count (m_count s) s4)) with (chip s4) in Hgc5.
      eapply wp_mono; [apply (IH s5 S S HS HG5); lia|].
      intros o s6 H6. destruct o as [[]|e'|x]; [| |done].
      + destruct H6 as (d & Sd6 & HP & HS6 & HG6). exists d, Sd6. split; [done|]. split; [tauto|done].
      + destruct H6 as [?|(-> & HSn & Sd6 & HS6 & HG6)]; [by left|right]. split; [done|]. split; [done|].
        exists Sd6. split; [tauto|done]. }
  destruct (findp K (rootof (sanm s1)) dst) as [cur|] eqn:Ef.
  - eapply wp_bind_ok; [reflexivity|]. apply Hmid; auto.
    intros d. rewrite Hc1. destruct (proj1 (findp_iff _ _ _ _ Hrep Hid)) as [d0 Hd0]; [by eexists|].
    by erewrite map_size_insert_Some by done.
  - pose proof (findp_None _ _ _ _ Hrep Ef) as HSn. pose proof (capacity_lt s1).
    apply wp_bind, wp_bind, wp_gets. destruct (Z.leb_spec (map_capacity s1) (m_count s1)) as [Hfull|Hfull].
    + apply wp_fail. right. split; [done|]. split; [done|]. exists Sd1. done.
    + apply wp_modify. apply Hmid; auto. intros d. cbn.
      rewrite map_size_insert_None by done. rewrite w32_small by lia. lia.
Qed.

End recops3.
