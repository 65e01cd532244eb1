(** Calls of the map during which programs fail in mid-block. *)
From stdpp Require Import gmap fin_maps.
From Verif Require Import Base Bytes BytesLemmas Wp Nand Journal MapModel Api Geom Tree Rep Age RecTree Inv Hdr StepDI StepNand StepJ StepA StepR StepS StepG Resume MapStep MapOps San Top Bm Rec Rec2 Rec3 Rec4 Rec5 Rec6 Rec7 RecMap.
From Verif Require Pres.
Local Open Scope Z_scope.

Section recops.
Context (g : geo) (c : Z) (Hg : geo_ok2 g c) (weak : Z -> bool) (Hdense : dense g weak).
Notation PB := (PB g).
Notation PC := (PC c).
Notation NB := (NB g).
Notation TT := (TT g).
Notation ph := (ph g).
Notation user := (user c).
Notation nextv := (nextv c).
Notation cpv := (cpv c).
Notation cellv := (cellv g).
Notation badv := (badv g).
Notation cell_ep := (cell_ep g).
Notation blk_ep := (blk_ep g c).
Notation epo := (epo g).
Notation moff := (moff c).
Notation fcp := (fcp g c).
Notation kmeta := (kmeta g c).
Notation kd_ok := (kd_ok g c).
Notation DI := (DI g c).
Notation nok := (nok g weak).
Notation JInv := (JInv g c).
Notation JI := (JI g c weak).
Notation nokF := (nokF g weak).
Notation peF := (peF g weak).
Notation rmet := (rmet g c).
Notation RI := (RI g c weak).
Notation RReady := (RReady g c weak).

Ltac pose_geo :=
  pose proof (PC_ge4 _ (go2_c _ _ Hg)) as HPC4; pose proof (PC_le _ _ Hg) as HPC256;
  pose proof (PB_pos _ _ Hg) as HPB4; pose proof (PB_ge _ _ Hg) as HPBC;
  pose proof (NB_ge _ _ Hg) as HNB8; pose proof (TT_le _ _ Hg) as HTT31;
  pose proof (TT_pos _ _ Hg) as HTTpos.
Notation "'lem' x" := (x g c Hg) (at level 9, x at level 8, only parsing).
Notation "'lemw' x" := (x g c Hg weak) (at level 9, x at level 8, only parsing).

Notation contents := (gmap Z bytes).
Notation rootof s := (j_root (js_j (m_js s))).
Notation dirtyof s := (j_dirty (js_j (m_js s))).
Notation MI := (MapStep.MI g c weak).
Notation MX := (MapStep.MX g c weak).
Notation Rst := (Rst g c weak).
Notation topI := (topI g).
Notation Good := (Good g c weak).
Notation fin := (fin g c weak).
Notation enoughR := (enoughR g c).
Local Opaque lk lkv wf wfv pa meta_get_id meta_get_alt.

(** ** What every function keeps *)
Definition badle (n n' : nand) : Prop := forall b, n_bad n b = true -> n_bad n' b = true.
Lemma badle_refl n : badle n n. Proof. intros b. done. Qed.
Lemma badle_trans n1 n2 n3 : badle n1 n2 -> badle n2 n3 -> badle n1 n3. Proof. unfold badle. auto. Qed.

Ltac bl := repeat match goal with
  | |- badle ?n ?n => apply badle_refl
  | |- context [match ?x with _ => _ end] => destruct x
  | |- context [if ?x then _ else _] => destruct x
  end; try apply badle_refl; try (intros b Hb; exact Hb).
Lemma badle_prog p d n : badle n (snd (nand_prog p d n)).
Proof. unfold nand_prog. cbv zeta. bl. Qed.
Lemma badle_erase p n : badle n (snd (nand_erase p n)).
Proof. unfold nand_erase. cbv zeta. bl. Qed.
Lemma badle_mark p n : badle n (snd (nand_mark_bad p n)).
Proof.
  unfold nand_mark_bad. cbv zeta.
  assert (H : badle n (set_bads (upd (n_bad (bump_tick n)) p true) (bump_tick n))).
  { intros b Hb. cbn. unfold upd. by destruct (_ =? _). }
  bl; exact H.
Qed.

Record sw {A} (m : MM A) : Prop := {
  sw_ext : forall s, ext (chip s) (chip (snd (m s)));
  sw_it : keepI g m;
  sw_bm : Bm.keepm m;
  sw_bad : forall s, badle (chip s) (chip (snd (m s)))
}.
Lemma Hl : 0 <= g_lppb g. Proof. pose proof (go_b _ _ Hg). lia. Qed.
Notation SX f := (f mid mid_l mid_r kn_prog (kn_erase mid) (kn_mark mid)).
Notation SR f := (f mid mid_l mid_r).
Notation PX f := (f badle badle_refl badle_trans badle_prog badle_erase badle_mark).
Notation PR f := (f badle badle_refl badle_trans).
Notation TX f := (f g Hl).
Lemma sw_raw_gc p : sw (raw_gc p).
Proof. split; [intros s; apply (SX San.k_raw_gc)|apply (TX Top.k_raw_gc)|apply Bm.k_raw_gc|apply (PX Pres.k_raw_gc)]. Qed.
Lemma sw_pad_queue : sw pad_queue.
Proof. split; [intros s; apply (SX San.k_pad_queue)|apply (TX Top.k_pad_queue)|apply Bm.k_pad_queue|apply (PX Pres.k_pad_queue)]. Qed.
Lemma sw_try_delete t : sw (try_delete t).
Proof. split; [intros s; apply (SX San.k_try_delete)|apply (TX Top.k_try_delete)|apply Bm.k_try_delete|apply (PX Pres.k_try_delete)]. Qed.
Lemma sw_try_recover f e : sw (try_recover f e).
Proof. split; [intros s; apply (SX San.k_try_recover)|apply (TX Top.k_try_recover)|apply Bm.k_try_recover|apply (PX Pres.k_try_recover)]. Qed.
Lemma sw_auto_gc f : sw (auto_gc f).
Proof. split; [intros s; apply (SX San.k_auto_gc)|apply (TX Top.k_auto_gc)|apply Bm.k_auto_gc|apply (PX Pres.k_auto_gc)]. Qed.
Lemma sw_ck k : sw (ck_set_count k).
Proof. split; [intros s; apply (San.k_ck mid)|apply Top.k_ck|apply Bm.k_ck|apply (Pres.k_ck badle badle_refl)]. Qed.
Lemma sw_peek : sw (jn journal_peek).
Proof.
  split; [intros s; apply (San.km_jn mid), (SR San.k_peek)|apply Top.km_jn, Top.t_peek|apply Bm.km_jn, Bm.k_peek|apply Pres.km_jn, (PR Pres.k_peek)].
Qed.
Lemma sw_dequeue : sw (jn journal_dequeue).
Proof.
  split; [intros s; apply (San.km_jn mid), (SR San.k_dequeue)|apply Top.km_jn, Top.t_dequeue|apply Bm.km_jn, Bm.k_dequeue|apply Pres.km_jn, (PR Pres.k_dequeue)].
Qed.
Lemma sw_enqueue d m : sw (jn (journal_enqueue d m)).
Proof.
  split; [intros s; apply (San.km_jn mid), (SX San.k_enqueue)|apply Top.km_jn, (TX Top.t_enqueue)|apply Bm.km_jn, Bm.k_enqueue|apply Pres.km_jn, (PX Pres.k_enqueue)].
Qed.
Lemma sw_jcopy d m : sw (jn (journal_copy d m)).
Proof.
  split; [intros s; apply (San.km_jn mid), (SX San.k_jcopy)|apply Top.km_jn, (TX Top.t_jcopy)|apply Bm.km_jn, Bm.k_jcopy|apply Pres.km_jn, (PX Pres.k_jcopy)].
Qed.
Lemma sw_trace t nm : sw (trace_path t nm).
Proof. split; [intros s; apply (SR San.k_trace_path)|apply Top.k_trace_path|apply Bm.k_trace_path|apply (PR Pres.k_trace_path)]. Qed.

Lemma MX_nok s S Sd : MX s S Sd -> nok (chip s).
Proof. intros [_ (hv & tv & sv & K & D & [[]])]. done. Qed.
Lemma MX_recov s S Sd : MX s S Sd -> j_recov (js_j (m_js s)) = false.
Proof. intros [_ (hv & tv & sv & K & D & [[? []]])]. done. Qed.

Lemma Good_top s S Sd : Good s S Sd -> S <> ∅ -> topI (js_j (m_js s)).
Proof.
  intros [HM Hn Hit Hbm] HS. pose proof (MX_recov _ _ _ HM) as Hr. split; auto.
  - destruct HM as (_ & hv & tv & sv & K & D & HM). pose proof (mi_rep _ _ _ _ _ _ _ _ _ _ _ HM) as H.
    by destruct (repr_ne _ _ _ H HS).
  - destruct Hbm as [E|E]; [|done]. cbn in Hr. congruence.
Qed.

Lemma Good_step {A} (m : MM A) s o s' S Sd S' Sd' : sw m -> Good s S Sd -> m s = (o, s') ->
  (match o with ST _ => False | _ => True end) -> MX (sanm s') S' Sd' -> Good s' S' Sd'.
Proof.
  intros [H1 H2 H3 _] [HM Hn Hit Hbm] E Ho HM'.
  specialize (H1 s). specialize (H2 s (nf_geo _ _ _ Hn)). specialize (H3 s Hbm). rewrite E in *. cbn [fst snd] in *.
  destruct H2 as [_ H2]. specialize (H2 Hit). split; auto.
  - eapply (ext_nokF g weak); eauto. by apply MX_nok in HM'.
  - destruct o; [done|done|done].
Qed.

(** A function that agrees. *)
Lemma san_back n n' : ext n n' -> san n' = san n -> n' = n.
Proof.
  intros (E1 & _ & _) E. destruct n, n'. cbn in *. unfold san in E. cbn in E. injection E. intros. congruence.
Qed.

Lemma ag_run {A} (m : MM A) s o t : ag sanm m s -> m (sanm s) = (o, t) -> exists s', m s = (o, s') /\ sanm s' = t.
Proof. unfold ag. intros E E2. rewrite E in E2. injection E2 as <- <-. exists (snd (m s)). by destruct (m s). Qed.
Lemma ag_same {A} (m : MM A) s o : sw m -> ag sanm m s -> m (sanm s) = (o, sanm s) -> m s = (o, s).
Proof.
  intros Hs Ha E. destruct (ag_run _ _ _ _ Ha E) as (s' & E1 & E2). rewrite E1. f_equal.
  pose proof (sw_ext _ Hs s) as He. rewrite E1 in He. cbn in He.
  destruct s as [[n j] a b], s' as [[n' j'] a' b']. unfold sanm, sanj in E2. cbn in *. injection E2. intros. subst.
  assert (n' = n) as ->; [|done]. apply san_back; [done|]. unfold san. congruence.
Qed.

(** ** Counting the blocks that are not marked bad *)
Definition gcn (n : nand) : nat := length (filter (fun b => n_bad n b = false) (seqZ 0 NB)).
Lemma flen_le (f f' : Z -> bool) l : (forall b, f b = true -> f' b = true) ->
  (length (filter (fun b => f' b = false) l) <= length (filter (fun b => f b = false) l))%nat.
Proof.
  intros H. induction l as [|x l IH]; [done|]. rewrite !filter_cons.
  destruct (decide (f' x = false)) as [E|E], (decide (f x = false)) as [E'|E']; cbn [length]; try lia.
  apply not_false_is_true in E'. apply H in E'. congruence.
Qed.
Lemma flen_lt (f f' : Z -> bool) l z : (forall b, f b = true -> f' b = true) -> z ∈ l -> f z = false -> f' z = true ->
  (length (filter (fun b => f' b = false) l) < length (filter (fun b => f b = false) l))%nat.
Proof.
  intros H Hx Ef Ef'. induction l as [|y l IH]; [by apply elem_of_nil in Hx|]. rewrite !filter_cons.
  apply elem_of_cons in Hx as [<- |Hx].
  - rewrite (decide_True _ _ Ef), (decide_False (P := f' z = false)) by congruence. cbn [length].
    pose proof (flen_le f f' l H). lia.
  - destruct (decide (f' y = false)) as [E|E], (decide (f y = false)) as [E'|E']; cbn [length].
    all: try (specialize (IH Hx); lia).
    apply not_false_is_true in E'. apply H in E'. congruence.
Qed.
Lemma gcn_le n n' : badle n n' -> (gcn n' <= gcn n)%nat.
Proof. intros H. by apply flen_le. Qed.
Lemma gcn_max n : Z.of_nat (gcn n) <= NB.
Proof.
  pose_geo. unfold gcn. pose proof (filter_length (fun b => n_bad n b = false) (seqZ 0 NB)) as H.
  rewrite seqZ_length in H. lia.
Qed.

(** ** The outcome of an append that was hit by a failure *)
Definition mfpost (s : ms) (S : contents) {A} (o : out A) (s' : ms) : Prop :=
  m_gcr s' = m_gcr s /\ m_count s' = m_count s /\
  match o with
  | OK _ => False
  | ER e => leak e \/ (e = E_RECOVER /\ exists tv sv rv K, Rst (m_js s') tv sv rv K /\ repr K (ph rv) S /\ is_Some (K !! ph rv) /\ aged ph tv K (ph rv) rv)
  | ST x => x = Crash
  end.

Definition frec (s : ms) (S : contents) {A} (o : out A) (s' : ms) : Prop :=
  m_gcr s' = m_gcr s /\
  match o with
  | OK _ => Good s' S S /\ dirtyof s' = false /\ (gcn (chip s') < gcn (chip s))%nat
  | ER e => leak e
  | ST x => x = Crash
  end.

Lemma leak_ne e : leak e -> e <> E_RECOVER.
Proof. unfold leak. intros [->|[->| ->]]; done. Qed.

Lemma recover_case fuel s S e : enoughR fuel -> S <> ∅ ->
  leak e \/ (e = E_RECOVER /\ exists tv sv rv K, Rst (m_js s) tv sv rv K /\ repr K (ph rv) S /\ is_Some (K !! ph rv) /\ aged ph tv K (ph rv) rv) ->
  m_count s = Z.of_nat (size S) -> 1 <= m_gcr s <= 255 ->
  wp (try_recover fuel e) s (frec s S).
Proof.
  intros Hf HS [He|(-> & tv & sv & rv & K & Hst & Hrep & HK & Ha)] Hc Hgc.
  - unfold wp, try_recover. rewrite decide_True by by apply leak_ne. split; done.
  - pose proof (try_recoverR g c Hg weak fuel s S tv sv rv K Hf HS Hst Hrep Hc Hgc Ha) as Hw.
    pose proof (sw_bad _ (sw_try_recover fuel E_RECOVER) s) as Hb.
    unfold wp in *. destruct (try_recover fuel E_RECOVER s) as [o s']. cbn [fst snd] in *.
    destruct Hw as [Eg Ho]. split; [done|]. destruct o as [[]|e|x]; [|done|done].
    destruct Ho as (HG & Hd & _ & Hbad). split; [done|]. split; [done|].
    pose_geo. apply (flen_lt _ _ _ ((rv / PB) mod NB)).
    + exact Hb.
    + apply elem_of_seqZ. pose proof (Z.mod_pos_bound (rv / PB) NB). lia.
    + exact (Rst_good g c Hg weak _ _ _ _ _ Hst HK).
    + exact Hbad.
Qed.

(** Lifting the journal dichotomy. *)
Lemma jn_dich (app : MJ unit) s S Sd hv tv sv K D :
  MI (sanm s) S Sd hv tv sv K D -> S <> ∅ ->
  dich sanj app (m_js s) (fpost g c weak (rootof s) tv sv K) -> dich sanm (jn app) s (mfpost s S).
Proof.
  intros HM HS [Ha|Hw]; [left|right].
  - unfold jn. apply (ag_zoom sanm sanj); auto.
  - unfold jn. apply wp_zoom. eapply wp_mono; [exact Hw|]. intros o x Ho. unfold mfpost. cbn [m_gcr m_count m_js put_js].
    split; [done|]. split; [done|]. destruct o as [a|e|y]; [done| |done].
    destruct Ho as [?|(-> & rv & Er & Hst)]; [by left|right]. split; [done|].
    exists tv, sv, rv, K. pose proof (mi_rep _ _ _ _ _ _ _ _ _ _ _ HM) as Hrep. cbn [m_js sanm js_j sanj] in Hrep.
    rewrite Er. split; [exact Hst|]. split; [exact Hrep|]. destruct (repr_ne _ _ _ Hrep HS) as (Hrn & H & _). split; [exact H|].
    destruct (age_use _ _ _ _ _ (mi_age _ _ _ _ _ _ _ _ _ _ _ HM) I) as (v & Hv & Hr0). cbn [m_js sanm js_j sanj] in Hr0.
    destruct (Hr0 Hrn) as (Ev & Hlo & Ha0). replace rv with v; [exact Ha0|].
    destruct Hst as (hv2 & mo2 & [] & _). pose proof (mi_j _ _ _ _ _ _ _ _ _ _ _ HM) as [_ [] _ _].
    pose proof (lem blk_le sv v ltac:(lia)). pose proof (lem blk_le sv rv ltac:(lia)). pose proof (lem blk_le v hv ltac:(lia)).
    apply (lem win_page (sv / PB + NB - 1)); [lia|lia|congruence].
Qed.

Lemma dich_wp {A} (m : MM A) s (F Q : out A -> ms -> Prop) :
  dich sanm m s F -> wp m (sanm s) Q -> wp m s (fun o s' => Q o (sanm s') \/ F o s').
Proof.
  intros [Ha|Hw] HQ.
  - eapply wp_mono; [by apply (wp_ag sanm)|]. auto.
  - eapply wp_mono; [exact Hw|]. auto.
Qed.

Lemma wp_sw {A} (m : MM A) s (Q : out A -> ms -> Prop) S Sd : sw m -> Good s S Sd -> wp m s Q ->
  wp m s (fun o s' => Q o s' /\ badle (chip s) (chip s') /\
    ((match o with ST _ => False | _ => True end) -> forall S' Sd', MX (sanm s') S' Sd' -> Good s' S' Sd')).
Proof.
  intros Hs HG Hw. unfold wp in *. split; [done|]. split; [apply Hs|].
  intros Ho S' Sd' HM. eapply (Good_step m); eauto. by destruct (m s).
Qed.

End recops.
