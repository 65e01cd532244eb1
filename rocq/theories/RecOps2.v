(** Calls of the map during which programs fail in mid-block. *)
From stdpp Require Import gmap fin_maps.
From Verif Require Import Base Bytes BytesLemmas Wp Nand Journal MapModel Api Geom Tree Rep RecTree Inv Hdr StepDI StepNand StepJ StepA StepR StepS StepG Resume MapStep MapOps San Top Bm Rec Rec2 Rec3 Rec4 Rec5 Rec6 Rec7 RecMap RecOps.
From Verif Require Pres.
Local Open Scope Z_scope.

Section recops2.
Context (g : geo) (c : Z) (Hg : geo_ok2 g c) (weak : Z -> bool) (Hdense : dense g weak).
Notation PB := (PB g).
Notation PC := (PC c).
Notation NB := (NB g).
Notation TT := (TT g).
Notation ph := (ph g).
Notation user := (user c).
Notation nextv := (nextv c).
Notation badv := (badv g).
Notation nok := (nok g weak).
Notation JInv := (JInv g c).
Notation JI := (JI g c weak).
Notation nokF := (nokF g weak).

Ltac pose_geo :=
  pose proof (PC_ge4 _ (go2_c _ _ Hg)) as HPC4; pose proof (PC_le _ _ Hg) as HPC256;
  pose proof (PB_pos _ _ Hg) as HPB4; pose proof (PB_ge _ _ Hg) as HPBC;
  pose proof (NB_ge _ _ Hg) as HNB8; pose proof (TT_le _ _ Hg) as HTT31;
  pose proof (TT_pos _ _ Hg) as HTTpos.
Notation "'lem' x" := (x g c Hg) (at level 9, x at level 8, only parsing).
Notation "'lemw' x" := (x g c Hg weak) (at level 9, x at level 8, only parsing).

Notation contents := (gmap Z bytes).
Notation rootof s := (j_root (js_j (m_js s))).
Notation dirtyof s := (j_dirty (js_j (m_js s))).
Notation MI := (MapStep.MI g c weak).
Notation MX := (MapStep.MX g c weak).
Notation Rst := (Rst g c weak).
Notation topI := (topI g).
Notation Good := (Good g c weak).
Notation enoughR := (enoughR g c).
Notation mfpost := (mfpost g c weak).
Notation frec := (frec g c weak).
Notation gcn := (gcn g).
Notation sw := (sw g).
Local Opaque lk lkv wf wfv pa meta_get_id meta_get_alt.

(** Functions that agree whatever happens. *)
Lemma ag_rm p s : ag sanm (jn (read_meta p)) s.
Proof. apply agm, San.km_jn, (San.k_read_meta nomid nomid_l nomid_r). Qed.
Lemma ag_trace t nm s : ag sanm (trace_path t nm) s.
Proof. apply agm, (San.k_trace_path nomid nomid_l nomid_r). Qed.
Lemma ag_ck k s : ag sanm (ck_set_count k) s.
Proof. apply agm, (San.k_ck nomid). Qed.
Lemma ag_peek s : ag sanm (jn journal_peek) s.
Proof. apply agm, San.km_jn, (San.k_peek nomid nomid_l nomid_r). Qed.
Lemma ag_dequeue s : ag sanm (jn journal_dequeue) s.
Proof. apply agm, San.km_jn, (San.k_dequeue nomid nomid_l nomid_r). Qed.
Lemma ag_clear s : ag sanm (jn journal_clear) s.
Proof. apply agm, San.km_jn, (San.k_clear nomid nomid_l nomid_r). Qed.
Lemma sw_rm p : sw (jn (read_meta p)).
Proof.
  split; [intros s; apply (San.km_jn mid), (San.k_read_meta mid mid_l mid_r)|apply Top.km_jn, Top.t_read_meta|apply Bm.km_jn, Bm.k_read_meta|apply Pres.km_jn, (Pres.k_read_meta badle badle_refl badle_trans)].
Qed.

Record G (s : ms) (S Sd : contents) hv tv sv K D : Prop := {
  G_mi : MI (sanm s) S Sd hv tv sv K D;
  G_nok : nokF (chip s);
  G_top : topI (js_j (m_js s))
}.

Lemma ck_D s S Sd hv tv sv K D k : G s S Sd hv tv sv K D ->
  exists s1, ck_set_count k s = (OK tt, s1) /\ G s1 S Sd hv tv sv K D /\
    m_count s1 = m_count s /\ m_gcr s1 = m_gcr s /\ rootof s1 = rootof s /\ cookie (m_js s1) = w32_bytes k.
Proof.
  intros [HM Hn Ht]. destruct (lemw ck_spec _ _ _ _ _ _ _ _ k HM) as (t & E & HM' & Eck & Ec & Eg & Er & _ & Ech).
  destruct (ag_run _ _ _ _ (ag_ck k s) E) as (s1 & E1 & Es). exists s1. split; [exact E1|]. subst t.
  split; [|split_and!; auto].
  split; [exact HM'| |].
  - unfold ck_set_count, jn, zoom, cookie_put, buf_put in E1. destruct (_ && _) in E1; [|discriminate].
    injection E1 as <-. exact Hn.
  - unfold ck_set_count, jn, zoom, cookie_put, buf_put in E1. destruct (_ && _) in E1; [|discriminate].
    injection E1 as <-. destruct Ht. by split.
Qed.

Lemma K_small s hv tv sv K D p : JI s hv tv sv K D -> is_Some (K !! p) -> 0 <= p < TT.
Proof.
  intros HJ [[d m] HK]. pose proof (JI_j _ _ _ _ _ _ _ _ _ HJ) as Hj.
  destruct (ji_K _ _ _ _ _ _ _ Hj _ _ _ HK) as (v & [_ _ -> _ _] & _). apply (lem ph_range).
Qed.

Lemma copy_D s S Sd hv tv sv K D p m : G s S Sd hv tv sv K D -> S <> ∅ -> 0 <= p < TT -> blen m = META_SIZE ->
  dich sanm (jn (journal_copy p m)) s (mfpost s S).
Proof.
  intros [HM Hn Ht] HS Hp Hm. eapply (jn_dich g c Hg weak); [exact HM|exact HS|].
  apply (copy_dich g c Hg weak Hdense p m tv sv K D (m_js s) hv); auto. apply HM.
Qed.

Lemma mf_same {A} s s1 S (o : out A) s' : m_gcr s1 = m_gcr s -> m_count s1 = m_count s -> mfpost s1 S o s' -> mfpost s S o s'.
Proof. intros E1 E2 (H1 & H2 & H3). split; [congruence|]. split; [congruence|done]. Qed.

Lemma raw_gc_D s S Sd hv tv sv K D : G s S Sd hv tv sv K D -> S <> ∅ -> 
  dich sanm (raw_gc (ph tv)) s (mfpost s S).
Proof.
  intros HG HS. pose proof (G_mi _ _ _ _ _ _ _ _ HG) as HM. pose_geo. unfold raw_gc.
  assert (Htu : user tv) by apply HM.
  destruct (lemw read_meta_any (sanj (m_js s)) hv tv sv K D tv) as [(m & Em & Hm)|[Em Hjk]]; [apply HM|done| |].
  2:{ left. assert (E : jn (read_meta (ph tv)) (sanm s) = (ER E_ECC, sanm s)).
      { unfold jn, zoom. cbn [m_js sanm]. rewrite Em. by destruct s. }
      pose proof (ag_same g _ _ _ (sw_rm (ph tv)) (ag_rm _ _) E) as E'.
      unfold ag, bind. by rewrite E, E'. }
  assert (E : jn (read_meta (ph tv)) (sanm s) = (OK m, sanm s)).
  { unfold jn, zoom. cbn [m_js sanm]. rewrite Em. by destruct s. }
  eapply dich_bind_ok; [exact (ag_same g _ _ _ (sw_rm (ph tv)) (ag_rm _ _) E)|apply ag_rm|].
  destruct (Z.eqb_spec (meta_get_id m) SECTOR_NONE) as [En|Hne]; [left; apply ag_ret|].
  pose proof (get_id_range m) as Hidr.
  destruct (lemw trace_MI _ _ _ _ _ _ _ _ (meta_get_id m) m HM ltac:(lia) Hm) as (nm & Et & Hp).
  eapply dich_bind_ok; [exact (ag_same g _ _ _ (sw_trace g _ _) (ag_trace _ _ _) Et)|apply ag_trace|]. cbn beta iota.
  destruct (findp _ _ (meta_get_id m)) as [cur|] eqn:Ef; cbn beta iota; [|left; apply ag_ret].
  destruct (Z.eqb_spec cur (ph tv)) as [->|Hcur]; cbn [negb]; [|left; apply ag_ret].
  eapply dich_bind_ok; [reflexivity|by apply ag_gets|].
  destruct (ck_D _ _ _ _ _ _ _ _ (m_count s) HG) as (s1 & E1 & HG1 & Ec & Eg & Er & _).
  eapply dich_bind_ok; [exact E1|apply ag_ck|].
  eapply dich_mono; [eapply copy_D; [exact HG1|exact HS|apply (lem ph_range)|apply Hp]|].
  intros o s'. by apply mf_same.
Qed.

Lemma pad_queue_D s S Sd hv tv sv K D : G s S Sd hv tv sv K D -> S <> ∅ -> dich sanm pad_queue s (mfpost s S).
Proof.
  intros HG HS. pose proof (G_mi _ _ _ _ _ _ _ _ HG) as HM. unfold pad_queue, get_root.
  eapply dich_bind_ok. { unfold jn, zoom, getj, gets. rewrite put_js_id. reflexivity. }
  { unfold jn. by apply (ag_zoom sanm sanj). }
  eapply dich_bind_ok; [reflexivity|by apply ag_gets|].
  destruct (ck_D _ _ _ _ _ _ _ _ (m_count s) HG) as (s1 & E1 & HG1 & Ec & Eg & Er & _).
  eapply dich_bind_ok; [exact E1|apply ag_ck|].
  pose proof (mi_rep _ _ _ _ _ _ _ _ _ _ _ HM) as Hrep. cbn [m_js sanm js_j sanj] in Hrep.
  destruct (repr_ne _ _ _ Hrep HS) as (Hrn & [[d m] HK] & _ & _).
  destruct (Z.eqb_spec (rootof s) PAGE_NONE) as [E|_]; [done|].
  pose proof (G_mi _ _ _ _ _ _ _ _ HG1) as HM1.
  pose proof (lemw MI_reads _ _ _ _ _ _ _ _ HM1 _ _ _ HK) as Erd.
  assert (E : jn (read_meta (rootof s)) (sanm s1) = (OK m, sanm s1)).
  { unfold jn, zoom. cbn [m_js sanm] in *. rewrite Erd. by destruct s1. }
  eapply dich_bind_ok; [exact (ag_same g _ _ _ (sw_rm _) (ag_rm _ _) E)|apply ag_rm|].
  assert (Hm : blen m = META_SIZE) by (eapply (r_kr _ _ _ Hrep); eauto).
  eapply dich_mono; [eapply copy_D; [exact HG1|exact HS| |exact Hm]|].
  { eapply K_small; [apply HM|by exists (d, m)]. }
  intros o s'. by apply mf_same.
Qed.

Lemma try_delete_D s S Sd hv tv sv K D t : G s S Sd hv tv sv K D -> S <> ∅ -> 0 <= t < 2 ^ 32 ->
  dich sanm (try_delete t) s (mfpost s S).
Proof.
  intros HG HS Ht. pose proof (G_mi _ _ _ _ _ _ _ _ HG) as HM. unfold try_delete.
  assert (Hul : blen uninit_meta = META_SIZE) by done.
  destruct (lemw trace_MI _ _ _ _ _ _ _ _ t uninit_meta HM Ht Hul) as (nm & Et & Hp).
  eapply dich_bind_ok; [exact (ag_same g _ _ _ (sw_trace g _ _) (ag_trace _ _ _) Et)|apply ag_trace|]. cbn beta iota.
  pose proof (mi_rep _ _ _ _ _ _ _ _ _ _ _ HM) as Hrep.
  destruct (findp _ _ t) as [cur|] eqn:Ef; cbn beta iota; [|left; apply ag_ret].
  pose proof (findp_spec_id _ _ _ _ _ Hrep Ht Ef) as Hid.
  destruct (find_cousin 32 nm) as [[level q]|] eqn:Efc.
  2:{ left. apply ag_bind; [by apply ag_modify|]. intros a s1 _. apply ag_clear. }
  destruct (repr_delete _ _ _ _ _ _ _ Hrep Hp Hid Efc) as (dq & mq & HK & Hdl & Hins).
  pose proof (lemw MI_reads _ _ _ _ _ _ _ _ HM _ _ _ HK) as Erd.
  assert (E : jn (read_meta q) (sanm s) = (OK mq, sanm s)).
  { unfold jn, zoom. cbn [m_js sanm] in *. rewrite Erd. by destruct s. }
  eapply dich_bind_ok; [exact (ag_same g _ _ _ (sw_rm _) (ag_rm _ _) E)|apply ag_rm|].
  fold (del_meta nm mq level).
  eapply dich_bind_ok; [reflexivity|by apply ag_gets|].
  destruct (ck_D _ _ _ _ _ _ _ _ (w32 (m_count s - 1)) HG) as (s1 & E1 & HG1 & Ec & Eg & Er & _).
  eapply dich_bind_ok; [exact E1|apply ag_ck|].
  eapply (dich_bind2 _ _ _ _ (mfpost s1 S)).
  - eapply copy_D; [exact HG1|exact HS| |exact Hdl]. eapply K_small; [apply HM|by exists (dq, mq)].
  - intros a s2 _ _. left. by apply ag_modify.
  - intros Hw. apply wp_bind. eapply wp_mono; [exact Hw|]. intros o s' (H1 & H2 & Ho).
    destruct o as [[]|e|x]; [done| |]; (split; [congruence|]; split; [congruence|done]).
Qed.

Lemma Good_G s S Sd : Good s S Sd -> S <> ∅ ->
  m_count s = Z.of_nat (size S) /\ exists hv tv sv K D, G s S Sd hv tv sv K D.
Proof.
  intros HG HS. pose proof (Good_top g c weak _ _ _ HG HS) as Ht. destruct HG as [[Hc (hv & tv & sv & K & D & HM)] Hn Hit Hbm].
  split; [exact Hc|]. exists hv, tv, sv, K, D. by split.
Qed.

End recops2.
