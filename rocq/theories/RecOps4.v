(** Calls of the map during which programs fail in mid-block. *)
From stdpp Require Import gmap fin_maps.
From Verif Require Import Base Bytes BytesLemmas Wp Nand Journal MapModel Api Geom Tree Rep Age RecTree Inv Hdr StepDI StepNand StepJ StepA StepR StepS StepG Resume MapStep MapOps San Top Bm Rec Rec2 Rec3 Rec4 Rec5 Rec6 Rec7 RecMap RecOps RecOps2 RecOps3 Spec Ppc History.
From Verif Require Pres.
Local Open Scope Z_scope.

Section recops4.
Context (g : geo) (c : Z) (Hg : geo_ok2 g c) (weak : Z -> bool) (Hdense : dense g weak).
Notation PB := (PB g).
Notation PC := (PC c).
Notation NB := (NB g).
Notation TT := (TT g).
Notation ph := (ph g).
Notation user := (user c).
Notation nextv := (nextv c).
Notation badv := (badv g).
Notation nok := (nok g weak).
Notation JInv := (JInv g c).
Notation JI := (JI g c weak).
Notation nokF := (nokF g weak).

Ltac pose_geo :=
  pose proof (PC_ge4 _ (go2_c _ _ Hg)) as HPC4; pose proof (PC_le _ _ Hg) as HPC256;
  pose proof (PB_pos _ _ Hg) as HPB4; pose proof (PB_ge _ _ Hg) as HPBC;
  pose proof (NB_ge _ _ Hg) as HNB8; pose proof (TT_le _ _ Hg) as HTT31;
  pose proof (TT_pos _ _ Hg) as HTTpos.
Notation "'lem' x" := (x g c Hg) (at level 9, x at level 8, only parsing).
Notation "'lemw' x" := (x g c Hg weak) (at level 9, x at level 8, only parsing).

Notation contents := (gmap Z bytes).
Notation rootof s := (j_root (js_j (m_js s))).
Notation dirtyof s := (j_dirty (js_j (m_js s))).
Notation MI := (MapStep.MI g c weak).
Notation MX := (MapStep.MX g c weak).
Notation Rst := (Rst g c weak).
Notation topI := (topI g).
Notation Good := (Good g c weak).
Notation enoughR := (enoughR g c).
Notation mfpost := (mfpost g c weak).
Notation frec := (frec g c weak).
Notation gcn := (gcn g).
Notation sw := (sw g).
Local Opaque lk lkv wf wfv pa meta_get_id meta_get_alt.
Notation G := (G g c weak).
Notation enoughF := (enoughF g c).
Notation fgc := (fgc g c weak).
Notation smeas := (smeas g c).

Lemma map_writeF fuel s S Sd t d : enoughF fuel -> S <> ∅ -> Good s S Sd -> id_ok t -> blen d = page_size g ->
  wp (map_write fuel t d) s (wfpost g c weak s S Sd t (fun x => x = d)).
Proof.
  intros Hf HS HG Hid Hd. unfold map_write.
  apply (write_loopF g c Hg weak Hdense fuel Hf t Hid _ (fun x => x = d) False); auto.
  - intros hv tv sv K D x nm HJ Hnm. by apply (enqueue_data_spec g c Hg weak Hdense).
  - intros s0 S0 Sd0 hv tv sv K D m [HM Hn Ht] HS0 Hm. eapply (jn_dich g c Hg weak); [exact HM|exact HS0|].
    apply (enqueue_data_dich g c Hg weak Hdense d m tv sv K D (m_js s0) hv); auto. apply HM.
  - intros m. apply (sw_enqueue g c Hg).
  - by apply (enoughF_gcn g c Hg).
Qed.

Lemma map_copy_pageF fuel s S Sd p t : enoughF fuel -> S <> ∅ -> Good s S Sd -> id_ok t -> 0 <= p < TT ->
  wp (map_copy_page fuel p t) s (wfpost g c weak s S Sd t (fun x => blen x = page_size g)).
Proof.
  intros Hf HS HG Hid Hp. unfold map_copy_page.
  apply (write_loopF g c Hg weak Hdense fuel Hf t Hid _ (fun x => blen x = page_size g) True); auto.
  - intros hv tv sv K D x nm HJ Hnm. eapply wp_mono; [by apply (copy_any_spec g c Hg weak Hdense p)|].
    intros o x' Ho. unfold StepA.app_post in *. destruct o as [[]|e|y]; [|done|].
    + destruct Ho as (hv' & d & _ & Hdl & H). by exists hv', d.
    + destruct Ho as (-> & Ho). split; [done|]. destruct Ho as [?|(hv' & d & _ & Hdl & H)]; [by left|right; by exists hv', d].
  - intros s0 S0 Sd0 hv tv sv K D m HG0 HS0 Hm. by eapply (copy_D g c Hg weak Hdense).
  - intros m. apply (sw_jcopy g c Hg).
  - by apply (enoughF_gcn g c Hg).
Qed.

(** ** Sync *)
Lemma sync_loopF fuel (Hf : enoughF fuel) n : forall s S Sd hv tv sv K D, S <> ∅ -> Good s S Sd ->
  MI (sanm s) S Sd hv tv sv K D -> smeas hv tv sv < Z.of_nat n ->
  wp (sync_loop n fuel) s (fun o s' => fgc s S Sd o s' /\ (o = OK tt -> Good s' S S)).
Proof.
  induction n as [|n IH]; intros s S Sd hv tv sv K D HS HG HM Hm.
  { pose proof (smeas_ge g c Hg weak _ _ _ _ _ _ _ _ HM). lia. }
  pose proof (smeas_ge g c Hg weak _ _ _ _ _ _ _ _ HM) as Hm2.
  assert (Hc : m_count s = Z.of_nat (size S)) by apply HG.
  assert (Hgcr : 1 <= m_gcr s <= 255) by apply HM.
  cbn [sync_loop].
  eapply wp_bind_ok. { unfold jn, zoom, getj, gets. rewrite put_js_id. reflexivity. }
  assert (Hclean : forall s2 Sd2 k, Good s2 S Sd2 -> (Sd2 = Sd \/ Sd2 = S) -> m_gcr s2 = m_gcr s -> dirtyof s2 = false ->
    (0 < k)%nat -> wp (sync_loop k fuel) s2 (fun o s' => fgc s S Sd o s' /\ (o = OK tt -> Good s' S S))).
  { intros s2 Sd2 k HG2 HS2 Eg2 Ed2 Hk. destruct k as [|k]; [lia|]. cbn [sync_loop].
    eapply wp_bind_ok. { unfold jn, zoom, getj, gets. rewrite put_js_id. reflexivity. }
    rewrite Ed2. apply wp_ret.
    assert (Sd2 = S) as ->.
    { destruct (gd_mx _ _ _ _ _ _ HG2) as (_ & hv2 & tv2 & sv2 & K2 & D2 & HM2).
      exact (mi_clean _ _ _ _ _ _ _ _ _ _ _ HM2 Ed2). }
    split; [|done]. split; [done|]. exists S. split; [by right|done]. }
  destruct (dirtyof s) eqn:Edd.
  2:{ apply wp_ret. pose proof (mi_clean _ _ _ _ _ _ _ _ _ _ _ HM Edd) as ->.
      split; [|done]. split; [done|]. exists S. split; [by left|done]. }
  destruct (lemw peek_MI Hdense _ _ _ _ _ _ _ _ HM) as (t1 & tv1 & E1 & Hle & HM1 & Ec1 & Eg1 & En1 & Ed1).
  destruct (ag_run _ _ _ _ (ag_peek s) E1) as (s1 & E1' & <-).
  assert (HX1 : MX (sanm s1) S Sd). { split; [by rewrite Ec1|]. by exists hv, tv1, sv, K, D. }
  cbn [m_count m_gcr sanm] in Ec1, Eg1.
  destruct (Good_run g c weak _ _ _ _ _ _ _ _ (sw_peek g) HG E1' Logic.I HX1) as [HG1 Hgc1].
  eapply wp_bind_ok; [exact E1'|]. clear E1 E1'.
  pose proof (MI_G g c weak _ _ _ _ _ _ _ _ HG1 HS HM1) as HD1.
  assert (Hnext : forall s2 Sd2, (Sd2 = Sd \/ Sd2 = S) -> m_gcr s2 = m_gcr s -> Good s2 S Sd2 ->
     (exists hv' tv' sv' K' D', MI (sanm s2) S Sd2 hv' tv' sv' K' D' /\ 
        (dirtyof s2 = true -> smeas hv' tv' sv' < smeas hv tv sv)) ->
     wp (sync_loop n fuel) s2 (fun o s' => fgc s S Sd o s' /\ (o = OK tt -> Good s' S S))).
  { intros s2 Sd2 HS2 Eg2 HG2 (hv2 & tv2 & sv2 & K2 & D2 & HM2 & Hms).
    destruct (dirtyof s2) eqn:Ed2.
    - eapply wp_mono; [eapply (IH _ _ _ _ _ _ _ _ HS HG2 HM2); specialize (Hms eq_refl); lia|].
      intros o s3 [H3 H3']. split; [|done]. by eapply fgc_trans.
    - eapply Hclean; eauto. lia. }
  assert (Hleak : forall e s2, m_gcr s2 = m_gcr s -> leak e ->
     wp (try_recover fuel e;;; sync_loop n fuel) s2 (fun o s' => fgc s S Sd o s' /\ (o = OK tt -> Good s' S S))).
  { intros e s2 Eg2 He. apply wp_bind. unfold wp. rewrite try_rec_fail by (by apply leak_ne). cbn [fst snd].
    split; [|done]. split; [congruence|done]. }
  assert (Hrec : forall e s2, m_gcr s2 = m_gcr s1 -> m_count s2 = m_count s1 ->
     leak e \/ (e = E_RECOVER /\ exists tv sv rv K, Rst (m_js s2) tv sv rv K /\ repr K (ph rv) S /\ is_Some (K !! ph rv) /\ aged ph tv K (ph rv) rv) ->
     wp (try_recover fuel e;;; sync_loop n fuel) s2 (fun o s' => fgc s S Sd o s' /\ (o = OK tt -> Good s' S S))).
  { intros e s2 Eg2 Ec2 Ho. apply wp_bind. eapply wp_mono.
    { apply (recover_case g c Hg weak fuel s2 S e (proj1 Hf) HS Ho); [congruence|]. rewrite Eg2, Eg1. exact Hgcr. }
    intros o s3 [Eg3 Ho3]. destruct o as [[]|e'|x]; [|split; [|done]; split; [congruence|done]|split; [|done]; split; [congruence|done]].
    destruct Ho3 as (HG3 & Hd3 & _). eapply Hclean; eauto; [congruence|lia]. }
  apply wp_bind, wp_attempt.
  destruct (Z.eqb_spec tv hv) as [Ethv|Hne].
  - rewrite Z.eqb_refl.
    eapply wp_mono.
    { eapply (wp_sw g c weak); [apply (sw_pad_queue g c Hg)|exact HG1|].
      eapply dich_wp; [apply (pad_queue_D g c Hg weak Hdense _ _ _ _ _ _ _ _ HD1 HS)|].
      apply (lemw pad_queue_spec Hdense _ _ _ _ _ _ _ _ HM1). cbn [m_count sanm]. congruence. }
    intros o s2 (Ho & Hbl & Hst). destruct Ho as [(Eg2 & Ec2 & Ho)|(Eg2 & Ec2 & Ho)].
    + cbn [m_count m_gcr sanm] in Eg2, Ec2. destruct o as [[]|e|x].
      * destruct Ho as (hv2 & sv2 & K2 & D2 & Sd2 & HM2 & HS2 & Hle2 & Hp).
        assert (HX2 : MX (sanm s2) S Sd2). { split; [cbn; congruence|]. by exists hv2, tv1, sv2, K2, D2. }
        apply (Hnext s2 Sd2); [done|congruence|by apply Hst|].
        exists hv2, tv1, sv2, K2, D2. split; [done|]. intros Hd. destruct (Hp Hd) as [-> Hlt].
        unfold MapStep.smeas. lia.
      * destruct Ho as (He & _). apply Hleak; [congruence|]. by eapply jerr_leak.
      * destruct Ho as (-> & _). split; [|done]. split; [congruence|done].
    + destruct o as [[]|e|x]; [done|by apply Hrec|]. split; [|done]. split; [congruence|done].
  - destruct (Z.eqb_spec (ph tv1) PAGE_NONE) as [E|_]; [pose proof (ph_pn g c Hg tv1); lia|].
    apply wp_bind.
    eapply wp_mono.
    { eapply (wp_sw g c weak); [apply (sw_raw_gc g c Hg)|exact HG1|].
      eapply dich_wp; [apply (raw_gc_D g c Hg weak Hdense _ _ _ _ _ _ _ _ HD1 HS)|].
      apply (lemw raw_gc_spec Hdense _ _ _ _ _ _ _ _ HM1). cbn [m_count sanm]. congruence. }
    intros o s2 (Ho & Hbl & Hst). destruct Ho as [(Eg2 & Ec2 & Ho)|(Eg2 & Ec2 & Ho)].
    + cbn [m_count m_gcr sanm] in Eg2, Ec2. destruct o as [[]|e|x].
      * destruct Ho as (hv2 & sv2 & K2 & D2 & Sd2 & HM2 & HS2 & Hle2 & Hfp & Hp).
        assert (HX2 : MX (sanm s2) S Sd2). { split; [cbn; congruence|]. by exists hv2, tv1, sv2, K2, D2. }
        pose proof (Hst Logic.I _ _ HX2) as HG2.
        destruct (lemw dequeue_any _ _ _ _ _ _ _ _ HM2 Hfp) as (t3 & E3 & En3 & Eg3 & Ec3 & Ed3 & tv3 & sv3 & K3 & D3 & HM3 & Hs3 & Ht3 & Ht3').
        destruct (ag_run _ _ _ _ (ag_dequeue s2) E3) as (s3 & E3' & <-).
        cbn [m_count m_gcr sanm] in Eg3, Ec3. cbn [m_js sanm js_j sanj] in Ed3, Hp, Hs3.
        assert (HX3 : MX (sanm s3) S Sd2). { split; [cbn; congruence|]. by exists hv2, tv3, sv3, K3, D3. }
        destruct (Good_run g c weak _ _ _ _ _ _ _ _ (sw_dequeue g) HG2 E3' Logic.I HX3) as [HG3 _].
        unfold wp at 1. rewrite E3'. cbn [fst snd].
        apply (Hnext s3 Sd2); [done|congruence|done|].
        exists hv2, tv3, sv3, K3, D3. split; [done|]. intros Hd. rewrite Ed3 in Hd.
        destruct (Hp Hd) as (-> & Hlt & _). rewrite (Hs3 Hd).
        assert (tv < tv3). { destruct (Z.eq_dec tv1 tv) as [->|]; [|lia]. apply Ht3'. lia. }
        unfold MapStep.smeas. lia.
      * destruct Ho as (He & _). apply Hleak; [congruence|]. by eapply jerr_leak.
      * destruct Ho as (-> & _). split; [|done]. split; [congruence|done].
    + destruct o as [[]|e|x]; [done|by apply Hrec|]. split; [|done]. split; [congruence|done].
Qed.

Lemma map_syncF fuel s S Sd : enoughF fuel -> S <> ∅ -> Good s S Sd ->
  wp (map_sync fuel) s (fun o s' => fgc s S Sd o s' /\ (o = OK tt -> Good s' S S)).
Proof.
  intros Hf HS HG. pose proof (gd_mx _ _ _ _ _ _ HG) as [Hc (hv & tv & sv & K & D & HM)].
  unfold map_sync. eapply sync_loopF; eauto.
  pose_geo. pose proof (mi_j _ _ _ _ _ _ _ _ _ _ _ HM) as [_ Hj _ _]. destruct Hj.
  destruct Hf as (_ & _ & Hf). unfold MapStep.smeas. pose proof (lem slot_range hv).
  pose proof (lem v_decomp sv). pose proof (lem off_range sv). unfold Geom.TT in Hf.
  rewrite Z.mul_add_distr_r. lia.
Qed.

(** ** Any call *)
Definition stepF (S Sd : contents) (o : op) (r : out resp) (s' : ms) : Prop :=
  match r with
  | ST x => x = Crash
  | ER e => leak e \/ exists S' Sd', call_ok g S o r S' /\ Good s' S' Sd' /\ (Sd' = Sd \/ Sd' = S \/ Sd' = S')
  | OK _ => exists S' Sd', call_ok g S o r S' /\ Good s' S' Sd' /\ (Sd' = Sd \/ Sd' = S \/ Sd' = S') /\
      (match o with OSync => Sd' = S' | _ => True end)
  end.

Lemma exec_F fuel o s S Sd : enoughF fuel -> S <> ∅ -> Good s S Sd -> valid_op g o ->
  wp (exec fuel o) s (stepF S Sd o).
Proof.
  intros Hf HS HG Hv. pose_geo.
  pose proof (gd_mx _ _ _ _ _ _ HG) as HX.
  assert (Hagree : (match o with OClear | ORead _ | OFind _ | OSize => True | _ => False end) -> ag sanm (exec fuel o) s).
  { intros Ho. destruct o; try done; cbn [exec]; (apply ag_bind; [|intros; apply ag_ret]).
    - apply agm, (San.k_map_clear nomid nomid_l nomid_r).
    - apply agm, (San.k_map_read nomid nomid_l nomid_r).
    - apply agm, (San.k_map_find nomid nomid_l nomid_r). }
  assert (Hquiet : (match o with OClear | ORead _ | OFind _ | OSize => True | _ => False end) -> wp (exec fuel o) s (stepF S Sd o)).
  { intros Ho. specialize (Hagree Ho).
    assert (Hen : enough g c fuel) by (unfold MapStep.enough; destruct Hf as (_ & _ & ?); lia).
    pose proof (wp_ag _ _ _ _ Hagree (exec_spec g c Hg weak Hdense fuel o (sanm s) S Sd Hen HX Hv)) as Hw.
    pose proof (exec_ag fuel o s) as [He _]. 
    unfold wp in *. 
    pose proof (Top.k_exec g (Hl g c Hg) fuel o s (nf_geo _ _ _ (gd_nok _ _ _ _ _ _ HG))) as [_ Hit].
    specialize (Hit (gd_it _ _ _ _ _ _ HG)).
    pose proof (Bm.k_exec fuel o s (gd_bm _ _ _ _ _ _ HG)) as Hbm.
    destruct (exec fuel o s) as [r s']. cbn [fst snd] in *. unfold step_post in Hw.
    assert (HGs : (match r with ST _ => False | _ => True end) -> forall S' Sd', MX (sanm s') S' Sd' -> Good s' S' Sd').
    { intros Hr S' Sd' HX'. split; [exact HX'| |by destruct r|exact Hbm].
      eapply (ext_nokF g weak); [apply HG|exact He|]. by apply (MX_nok g c weak) in HX'. }
    destruct r as [a|e|x].
    - destruct Hw as (S' & Sd' & H1 & H2 & H3 & H4). exists S', Sd'. split_and!; auto.
    - destruct Hw as (S' & Sd' & H1 & H2 & H3 & H4). right. exists S', Sd'. split_and!; auto.
    - by destruct Hw as [-> _]. }
  assert (Hwf : forall (m : MM unit) b (P : bytes -> Prop) ss, wp m ss (wfpost g c weak ss S Sd b P) ->
     (forall d, P d -> call_ok g S o (OK RUnit) (<[b:=d]> S)) -> 
     (S !! b = None -> call_ok g S o (ER E_MAP_FULL) S) -> (match o with OSync => False | _ => True end) ->
     wp (m;;; ret RUnit) ss (stepF S Sd o)).
  { intros m b P ss Hm H1 H2 Ho. apply wp_bind. eapply wp_mono; [exact Hm|].
    intros r s' Hr. destruct r as [[]|e|x].
    - destruct Hr as (d' & Sd' & HP & HSd & HG'). apply wp_ret. exists (<[b:=d']> S), Sd'.
      split; [by apply H1|]. split; [done|]. split; [done|]. by destruct o.
    - destruct Hr as [?|(-> & HSn & Sd' & HSd & HG')]; [by left|right]. exists S, Sd'. split; [by apply H2|].
      split; [done|]. tauto.
    - done. }
  assert (Htf : forall (m : MM unit) t ss, wp m ss (tfpost g c weak ss S Sd t) ->
     call_ok g S o (OK RUnit) (delete t S) -> (match o with OSync => False | _ => True end) ->
     wp (m;;; ret RUnit) ss (stepF S Sd o)).
  { intros m t ss Hm H1 Ho. apply wp_bind. eapply wp_mono; [exact Hm|].
    intros r s' Hr. destruct r as [[]|e|x]; [|by left|done].
    destruct Hr as (Sd' & HSd & HG'). apply wp_ret. exists (delete t S), Sd'.
    split; [done|]. split; [done|]. split; [done|]. by destruct o. }
  destruct o as [t d|t|a b|p b| | | |t|t| ]; try (by apply Hquiet); cbn [exec valid_op] in *.
  - destruct Hv as [Ht Hd].
    eapply Hwf; [apply map_writeF; auto; by rewrite (ps_eq g c Hg)| | |done].
    + intros d0 ->. constructor.
    + intros HSn. by eapply (c_full _ _ (OWrite t d)).
  - eapply Htf; [by apply (map_trimF g c Hg weak Hdense)|constructor|done].
  - destruct Hv as [Ha Hb]. unfold map_copy_sector.
    assert (Hga : ag sanm (map_find a) s) by apply agm, (San.k_map_find nomid nomid_l nomid_r).
    assert (Hex : ext (chip s) (chip (snd (map_find a s)))) by apply (San.k_map_find mid mid_l mid_r).
    assert (Hsame : forall r, map_find a (sanm s) = (r, sanm s) -> map_find a s = (r, s)).
    { intros r E. eapply (ag_same g); [|exact Hga|exact E].
      split; [intros s0; apply (San.k_map_find mid mid_l mid_r)|apply Top.k_map_find|apply Bm.k_map_find|apply (Pres.k_map_find badle badle_refl badle_trans)]. }
    destruct (find_spec g c Hg weak _ _ _ _ HX Ha) as [[HSa E]|(d & v & HSa & E & _)]; apply Hsame in E.
    + eapply (Htf _ b).
      * apply wp_bind. unfold attempt. unfold wp at 1. rewrite E. cbn [fst snd].
        rewrite decide_True by done. apply (map_trimF g c Hg weak Hdense); auto. unfold wsector in Hb. lia.
      * by constructor.
      * done.
    + eapply (Hwf _ b).
      * apply wp_bind. unfold attempt. unfold wp at 1. rewrite E. cbn [fst snd].
        apply map_copy_pageF; auto. apply (lem ph_range).
      * intros d' Hd'. econstructor; [done|]. by rewrite <-(ps_eq g c Hg).
      * intros HSn. by eapply (c_full _ _ (OCopySector a b)).
      * done.
  - destruct Hv as [Ha Hb].
    eapply Hwf; [by apply map_copy_pageF| | |done].
    + intros d' Hd'. constructor. by rewrite <-(ps_eq g c Hg).
    + intros HSn. by eapply (c_full _ _ (OCopyPage p b)).
  - apply wp_bind. eapply wp_mono; [by apply (map_gcF g c Hg weak Hdense)|].
    intros r s' [_ Hr]. destruct r as [[]|e|x]; [|by left|done].
    destruct Hr as (Sd' & HS' & HG'). apply wp_ret. exists S, Sd'. split; [constructor|]. split; [done|]. tauto.
  - apply wp_bind. eapply wp_mono; [by apply map_syncF|].
    intros r s' [[_ Hr] Hok]. destruct r as [[]|e|x]; [|by left|done].
    apply wp_ret. exists S, S. split; [constructor|]. split; [by apply Hok|]. tauto.
Qed.

End recops4.
