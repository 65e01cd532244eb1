(** Recovery at the level of the map: the loop of try_recover relocates every
    page of the failing block that is still in use, and ends in a state with the
    same contents in which the block is marked bad. *)
From stdpp Require Import gmap fin_maps.
From Verif Require Import Base Bytes BytesLemmas Wp Nand Journal MapModel Api Geom Tree Rep Age RecTree Inv Hdr StepDI StepNand StepJ StepA StepR StepS StepG Resume MapStep San Top Bm Rec Rec2 Rec3 Rec4 Rec5 Rec6 Rec7.
Local Open Scope Z_scope.

Section recmap.
Context (g : geo) (c : Z) (Hg : geo_ok2 g c) (weak : Z -> bool) (Hdense : dense g weak).
Notation PB := (PB g).
Notation PC := (PC c).
Notation NB := (NB g).
Notation TT := (TT g).
Notation ph := (ph g).
Notation user := (user c).
Notation nextv := (nextv c).
Notation cpv := (cpv c).
Notation cellv := (cellv g).
Notation badv := (badv g).
Notation cell_ep := (cell_ep g).
Notation blk_ep := (blk_ep g c).
Notation epo := (epo g).
Notation moff := (moff c).
Notation fcp := (fcp g c).
Notation kmeta := (kmeta g c).
Notation kd_ok := (kd_ok g c).
Notation DI := (DI g c).
Notation nok := (nok g weak).
Notation JInv := (JInv g c).
Notation JI := (JI g c weak).
Notation nokF := (nokF g weak).
Notation peF := (peF g weak).
Notation rmet := (rmet g c).
Notation RI := (RI g c weak).
Notation RReady := (RReady g c weak).

Ltac pose_geo :=
  pose proof (PC_ge4 _ (go2_c _ _ Hg)) as HPC4; pose proof (PC_le _ _ Hg) as HPC256;
  pose proof (PB_pos _ _ Hg) as HPB4; pose proof (PB_ge _ _ Hg) as HPBC;
  pose proof (NB_ge _ _ Hg) as HNB8; pose proof (TT_le _ _ Hg) as HTT31;
  pose proof (TT_pos _ _ Hg) as HTTpos.
Notation "'lem' x" := (x g c Hg) (at level 9, x at level 8, only parsing).
Notation "'lemw' x" := (x g c Hg weak) (at level 9, x at level 8, only parsing).

Notation contents := (gmap Z bytes).
Notation rootof s := (j_root (js_j (m_js s))).
Notation dirtyof s := (j_dirty (js_j (m_js s))).
Notation enumof s := (j_enum (js_j (m_js s))).
Notation MI := (MapStep.MI g c weak).
Notation MX := (MapStep.MX g c weak).
Notation Rst := (Rst g c weak).
Notation topI := (topI g).
Local Opaque lk lkv wf wfv pa meta_get_id meta_get_alt.

Record RM (s : ms) (S : contents) (hv tv sv rv : Z) (mo : option Z) (K K0 : kmap) : Prop := {
  rm_ri : RI (m_js s) true hv tv sv rv mo K K0;
  rm_rep : repr K (rootof s) S;
  rm_rep0 : repr K0 (ph rv) S;
  rm_cnt : m_count s = Z.of_nat (size S);
  rm_gcr : 1 <= m_gcr s <= 255;
  rm_age : age_ok g tv hv K (rootof s);
  rm_age0 : aged ph tv K0 (ph rv) rv
}.

(** No page before [nv] of the failing block is in use. *)
Definition deadb (K : kmap) (root rv nv : Z) : Prop :=
  forall u, user u -> u / PB = rv / PB -> u < nv -> ~ live K root (ph u).

Definition enumI (j : journal) (rv nv : Z) : Prop :=
  (j_enum j = false /\ j_rnext j = ph nv /\ user nv /\ nv / PB = rv / PB /\ nv <= rv) \/
  (j_enum j = true /\ rv < nv).

(** A state in which calls can start. *)
Record Good (s : ms) (S Sd : contents) : Prop := {
  gd_mx : MX (sanm s) S Sd;
  gd_nok : nokF (chip s);
  gd_it : IT g (js_j (m_js s));
  gd_bm : BM (js_j (m_js s))
}.

Definition fin (s' : ms) (S : contents) (rv : Z) : Prop :=
  Good s' S S /\ dirtyof s' = false /\ j_recov (js_j (m_js s')) = false /\ badv (chip s') (rv / PB) = true.

Definition stepR (s : ms) (S : contents) hv tv sv rv mo K0 nv {A} (o : out A) (s' : ms) : Prop :=
  m_gcr s' = m_gcr s /\ m_count s' = m_count s /\
  match o with
  | OK _ => (exists hv' K', RM s' S hv' tv sv rv mo K' K0 /\ deadb K' (rootof s') rv nv /\
              enumof s' = enumof s /\ j_rnext (js_j (m_js s')) = j_rnext (js_j (m_js s)) /\
              (hv <= hv')) \/
            fin s' S rv
  | ER e => leak e \/ (e = E_RECOVER /\ Rst (m_js s') tv sv rv K0)
  | ST x => x = Crash
  end.

Lemma ph_div v : ph v / PB = (v / PB) mod NB.
Proof. apply (lem ph_blk). Qed.

Lemma copy_RM s S hv tv sv rv mo K K0 nv nv' p d m0 m :
  RM s S hv tv sv rv mo K K0 -> S <> ∅ -> cookie (m_js s) = szc S -> K !! p = Some (d, m0) -> blen m = META_SIZE ->
  (forall n, K !! n = None -> 0 <= n < PAGE_NONE -> repr (<[n:=(d,m)]> K) n S /\
     forall q, live (<[n:=(d,m)]> K) n q -> q = n \/ (live K (rootof s) q /\ q <> p)) ->
  (forall v', hv <= v' -> K !! ph v' = None -> aged ph tv (<[ph v':=(d,m)]> K) (ph v') v') ->
  deadb K (rootof s) rv nv ->
  (forall u, user u -> u / PB = rv / PB -> u < nv' -> u < nv \/ ph u = p) ->
  (enumof s = true -> rv < nv') ->
  wp (jn (journal_copy p m)) s (fun o s' => stepR s S hv tv sv rv mo K0 nv' o s' /\
    (o = OK tt -> enumof s = true -> j_recov (js_j (m_js s')) = true -> 
      forall hv', j_head (js_j (m_js s')) = ph hv' -> hv mod PC < hv' mod PC)).
Proof.
  intros HR HS Hck HK Hm Hrep Hage Hdead Hnv Hen. pose_geo. unfold jn. apply wp_zoom.
  eapply wp_mono; [eapply (copyR g c Hg weak); [apply HR|exact HK|exact Hm]|].
  pose proof (rm_ri _ _ _ _ _ _ _ _ _ HR) as HI. pose proof HI as [].
  intros o x Ho. unfold stepR. cbn [m_gcr m_count m_js put_js].
  destruct o as [[]|e|y]; cbn [appR_post pushR_post] in Ho; [|by split|by split].
  destruct Ho as (s1 & hv1 & d' & -> & Hdl & Hle & Hal & HKn & Hb1 & Hb2 & Hu1 & Hjr & Er & Ho).
  destruct (Hrep (ph hv1) HKn (MapStep.ph_pn g c Hg hv1)) as [Hrep' Hlv].
  assert (Hrv0 : 0 <= rv / PB) by (apply Z.div_pos; lia).
  assert (Hsb : sv / PB <= rv / PB) by (apply (lem blk_le); lia).
  assert (Hhv1 : 0 <= hv1). { destruct (Z.le_gt_cases 0 hv1) as [|Hn]; [done|]. assert (hv1 / PB < 0) by (apply Z.div_lt_upper_bound; lia). lia. }
  assert (Hth : tv <= hv1).
  { destruct (Z.le_gt_cases hv rv) as [Hhr|]; [|lia]. pose proof (lem blk_le hv rv Hhr). lia. }
  assert (Hslot : hv1 mod PC <> PC - 2 -> hv mod PC < nextv hv1 mod PC).
  { intros Hs. apply (MapStep.nextv_slot g c Hg); auto. }
  assert (Hdead' : deadb (<[ph hv1 := (d, m)]> K) (ph hv1) rv nv').
  { intros u Hu Hub Hul Hlu. destruct (Hlv _ Hlu) as [E|[H1 H2]].
    - pose proof (ph_div u) as E1. rewrite E, ph_div, Hub in E1.
      apply (mod_inj NB) in E1; lia.
    - destruct (Hnv u Hu Hub Hul) as [?|?]; [|done]. eapply Hdead; eauto. }
  destruct Ho as [(HRI & Ern & Een & Hsl)|(Een & Hs2 & Hnk & Hdi & Hrec & Hbm & Hbad & HJI)].
  - split.
    + split; [done|]. split; [done|]. left. exists (nextv hv1), (<[ph hv1:=(d, m)]> K).
      split; [|split_and!].
      * split; cbn [m_js put_js m_count m_gcr]; try apply HR; [exact HRI|by rewrite Er|]. rewrite Er.
        pose proof (nextv_gt c hv1). apply age_new; [lia|]. intros _. by apply Hage.
      * by rewrite Er.
      * rewrite Een. apply Hjr.
      * rewrite Ern. apply Hjr.
      * pose proof (nextv_gt c hv1). lia.
    + intros _ Hent _ hv' Eh. rewrite <-(r2_enum _ _ Hjr) in Hent. specialize (Hsl Hent).
      rewrite (Rec.ri_head _ _ _ _ _ _ _ _ _ _ _ _ HRI) in Eh.
      assert (E : nextv hv1 mod PC = hv' mod PC).
      { pose proof (lem ph_slot (nextv hv1)) as E1. pose proof (lem ph_slot hv') as E2. congruence. }
      rewrite <-E. by apply Hslot.
  - split; [|intros; congruence].
    split; [done|]. split; [done|]. right.
    rewrite (r2_enum _ _ Hjr) in Een. specialize (Hen Een).
    set (K' := <[ph hv1:=(d, m)]> K) in *.
    set (Kf := filter (fun kv : Z * (bytes * bytes) => kv.1 / PB <> (rv / PB) mod NB) K').
    assert (Hkf : Kf !! ph hv1 = Some (d, m)).
    { apply map_filter_lookup_Some. split; [apply lookup_insert|]. cbn. rewrite ph_div. intros E.
      apply (mod_inj NB) in E; lia. }
    assert (Hsub : Kf ⊆ K') by apply map_filter_subseteq.
    specialize (HJI Kf Hsub Hkf).
    assert (Hkfb : forall p0, is_Some (Kf !! p0) -> p0 / PB <> (rv / PB) mod NB).
    { intros q [v Hv]. apply map_filter_lookup_Some in Hv as [_ Hv]. exact Hv. }
    specialize (HJI Hkfb).
    assert (Hlive : forall q, live K' (ph hv1) q -> is_Some (Kf !! q)).
    { intros q Hq.
      assert (HqK : is_Some (K' !! q)).
      { destruct Hq as (t & Ht & Et). by destruct (findp_Some _ _ _ _ _ Hrep' Ht Et) as (_ & ? & _). }
      destruct HqK as [vq HqK]. exists vq. apply map_filter_lookup_Some. split; [done|]. cbn. intros Eb.
      destruct (Hlv _ Hq) as [->|[Hq1 Hq2]].
      { rewrite ph_div in Eb. apply (mod_inj NB) in Eb; lia. }
      destruct Hq1 as (t & Ht & Et).
      destruct (findp_Some _ _ _ _ _ (rm_rep _ _ _ _ _ _ _ _ _ HR) Ht Et) as (_ & [[dq mq] HqK2] & _).
      destruct (ri_K _ _ _ HqK2) as (v & Hk & _ & Hvr & _).
      pose proof Hk as []. subst q.
      assert (Evb : v / PB = rv / PB).
      { rewrite ph_div in Eb. pose proof (lem blk_le tv v ltac:(lia)). pose proof (lem blk_le v hv ltac:(lia)).
        pose proof (lem blk_le sv tv ltac:(lia)). apply (mod_inj NB) in Eb; lia. }
      specialize (Hvr ltac:(lia)).
      destruct (Hnv v) as [Hlt|]; auto; [lia|].
      eapply (Hdead v); eauto. by exists t. }
    assert (HrepF : repr Kf (ph hv1) S).
    { eapply repr_sub; [exact Hrep'|exact HS|exact Hsub|exact Hlive]. }
    assert (HageF : aged ph tv Kf (ph hv1) hv1).
    { eapply (aged_frame ph tv tv (hv1 + 1) K' Kf (ph hv1) S); [exact Hrep'| |by apply Hage|lia| | |lia].
      - pose proof (MapStep.ph_pn g c Hg hv1). lia.
      - rewrite Hkf. symmetry. apply lookup_insert.
      - intros t q Ht Et. destruct (Hlive q) as [v Hv]; [by exists t|]. rewrite Hv. symmetry. by eapply lookup_weaken. }
    unfold fin, chip. cbn [m_js put_js]. split; [|done].
    pose proof (JI_j _ _ _ _ _ _ _ _ _ HJI) as HJV.
    split.
    + split; [by apply HR|]. exists (nextv hv1), tv, tv, Kf, (Dsk (hv1 + 1) tv (cookie s1) m Kf).
      split; cbn [m_js put_js sanm m_gcr]; try apply HR.
      * exact HJI.
      * cbn [js_j sanj]. by rewrite Er.
      * right. cbn [cv ckd Kd rmd]. replace (hv1 + 1 - 1) with hv1 by lia. split; [lia|]. split.
        { rewrite <-Hck. unfold cookie. by rewrite (r2_buf _ _ Hjr). }
        left. split; [by exists d|]. split; [done|]. intros _. exact HageF.
      * done.
      * cbn [js_j sanj]. rewrite Er. pose proof (nextv_gt c hv1). apply age_new; [lia|]. intros _. exact HageF.
    + exact Hnk.
    + right. right. right. left. cbn [m_js put_js]. rewrite Er.
      pose proof (ji_head _ _ _ _ _ _ _ HJV) as E1. pose proof (ji_ppc _ _ _ _ _ _ _ HJV) as E2.
      cbn [js_j sanj] in E1, E2. rewrite E1, E2. symmetry. by apply (lem next_upage_ph).
    + by right.
Qed.

Lemma RM_chip s S hv tv sv rv mo K K0 : RM s S hv tv sv rv mo K K0 -> nokF (chip s).
Proof. intros [[]]. done. Qed.

Lemma ck_RM s S hv tv sv rv mo K K0 k : RM s S hv tv sv rv mo K K0 ->
  exists s', ck_set_count k s = (OK tt, s') /\ RM s' S hv tv sv rv mo K K0 /\
    cookie (m_js s') = w32_bytes k /\ m_count s' = m_count s /\ m_gcr s' = m_gcr s /\
    rootof s' = rootof s /\ enumof s' = enumof s /\ j_rnext (js_j (m_js s')) = j_rnext (js_j (m_js s)).
Proof.
  intros HR. pose proof (rm_ri _ _ _ _ _ _ _ _ _ HR) as HI.
  unfold ck_set_count, jn, zoom, cookie_put.
  pose proof (go_fit _ _ Hg) as Hfit. pose_geo.
  change (2 ^ c) with PC in Hfit. pose proof (ri_buf _ _ _ _ _ _ _ _ _ _ _ _ HI) as Hbuf.
  pose proof (blen_w32_bytes k) as Hb.
  assert (Hps : 20 <= page_size g) by (unfold HEADER_SIZE, COOKIE_SIZE, META_SIZE in *; lia).
  rewrite buf_put_ok by (unfold HEADER_SIZE, COOKIE_SIZE in *; lia).
  eexists. split; [done|]. cbn [js_n js_j m_js put_js m_count m_gcr].
  assert (Hbl : blen (splice HEADER_SIZE (w32_bytes k) (j_buf (js_j (m_js s)))) = page_size g).
  { rewrite blen_splice; unfold HEADER_SIZE, COOKIE_SIZE in *; lia. }
  split; [|split; [|done]].
  - split; cbn [m_js put_js m_count m_gcr]; try apply HR.
    pose proof HI as []. split; auto; cbn [js_n js_j set_buf j_badmeta j_buf].
    intros p d m Hp. destruct (ri_K _ _ _ Hp) as (v & Hk & Hl & Hv & Hbm & Hm). exists v. split_and!; auto.
    unfold Rec.rmet in *. cbn [js_n js_j set_buf j_buf]. destruct (decide _); [|done].
    pose proof (moff_fit g c Hg v ltac:(apply Hk)) as [Hf1 Hf2].
    rewrite slice_splice_disj; unfold HEADER_SIZE, COOKIE_SIZE, META_SIZE in *; try lia. done.
  - unfold cookie. cbn [js_j set_buf j_buf]. rewrite <-Hb at 1. apply slice_splice_same;
      unfold HEADER_SIZE, COOKIE_SIZE in *; lia.
Qed.

Lemma nextv_le_user nv u : user nv -> user u -> u < nextv nv -> u <= nv.
Proof.
  intros Hn Hu Hlt. destruct (Z.le_gt_cases u nv) as [|Hgt]; [done|]. pose proof (nextv_next g c Hg u nv Hu Hn Hgt). lia.
Qed.

Lemma raw_gcR s S hv tv sv rv mo K K0 nv :
  RM s S hv tv sv rv mo K K0 -> S <> ∅ -> user nv -> nv / PB = rv / PB ->
  deadb K (rootof s) rv nv -> (enumof s = true -> nv = rv) ->
  wp (raw_gc (ph nv)) s (stepR s S hv tv sv rv mo K0 (nextv nv)).
Proof.
  intros HR HS Hu Hb Hdead Hen. pose proof (rm_ri _ _ _ _ _ _ _ _ _ HR) as HI. pose_geo.
  pose proof (rm_rep _ _ _ _ _ _ _ _ _ HR) as Hrep. unfold raw_gc.
  pose proof (ri_n _ _ _ _ _ _ _ _ _ _ _ _ HI) as Hnok.
  destruct (read_meta_anyR g c Hg weak (m_js s) nv) as [(m & Em & Hm)|Em]; auto;
    try (by apply Hnok); try (by apply HI).
  { rewrite (ri_rmeta _ _ _ _ _ _ _ _ _ _ _ _ HI). destruct mo as [q|]; [exists q; by left|exists 0; by right]. }
  2:{ apply wp_bind. unfold jn. apply wp_zoom. unfold wp. rewrite Em. cbn. split; [done|]. split; [done|].
      left. unfold leak. auto. }
  pose proof (readsR g c Hg weak _ _ _ _ _ _ _ _ HI) as Hrd.
  assert (Hread : forall t, id_ok t -> findp K (rootof s) t = Some (ph nv) -> t = meta_get_id m /\ exists d, K !! ph nv = Some (d, m)).
  { intros t Ht Ef. destruct (findp_Some _ _ _ _ _ Hrep Ht Ef) as (E1 & [[d m'] E2] & _).
    pose proof (Hrd _ _ _ E2) as E3. rewrite Em in E3. injection E3 as <-.
    split; [|by exists d]. rewrite <-E1. unfold kid, km. by rewrite E2. }
  eapply wp_bind_ok. { unfold jn, zoom. rewrite Em. rewrite put_js_id. reflexivity. }
  assert (Hstay : (forall t, id_ok t -> findp K (rootof s) t <> Some (ph nv)) ->
     stepR s S hv tv sv rv mo K0 (nextv nv) (OK tt) s).
  { intros H. split; [done|]. split; [done|]. left. exists hv, K. split; [done|]. split_and!; auto; [|lia].
    intros u Huu Hub Hul (t & Ht & Et). pose proof (nextv_le_user nv u Hu Huu Hul).
    destruct (Z.eq_dec u nv) as [->|]; [by eapply H|]. eapply (Hdead u); auto; [lia|by exists t]. }
  destruct (Z.eqb_spec (meta_get_id m) SECTOR_NONE) as [En|Hne].
  { apply wp_ret. apply Hstay. intros t Ht Ef.
    destruct (Hread _ Ht Ef) as [Et _]. rewrite Et, En in Ht. unfold id_ok, SECTOR_NONE in Ht. lia. }
  pose proof (get_id_range m) as Hidr.
  assert (Hid : id_ok (meta_get_id m)). { unfold id_ok. unfold SECTOR_NONE in *. lia. }
  destruct (trace_path_spec K S s (meta_get_id m) m Hrep Hrd ltac:(lia) Hm) as (nm & Et & Hp).
  eapply wp_bind_ok; [exact Et|]. cbn beta iota.
  destruct (findp K (rootof s) (meta_get_id m)) as [cur|] eqn:Ef; cbn beta iota.
  2:{ apply wp_ret. apply Hstay. intros t Ht E. destruct (Hread _ Ht E) as [-> _]. congruence. }
  destruct (Z.eqb_spec cur (ph nv)) as [->|Hcur]; cbn [negb].
  2:{ apply wp_ret. apply Hstay. intros t Ht E. destruct (Hread _ Ht E) as [-> _]. congruence. }
  eapply wp_bind_ok; [reflexivity|].
  destruct (ck_RM _ _ _ _ _ _ _ _ _ (m_count s) HR) as (s1 & E1 & HR1 & Eck & Ec1 & Eg1 & Er1 & Ee1 & En1).
  eapply wp_bind_ok; [exact E1|].
  destruct (Hread _ Hid Ef) as [_ [d HK]].
  eapply wp_mono; [eapply (copy_RM s1 S hv tv sv rv mo K K0 nv (nextv nv) (ph nv) d m nm HR1 HS)|].
  - rewrite Eck, (rm_cnt _ _ _ _ _ _ _ _ _ HR). done.
  - exact HK.
  - apply Hp.
  - rewrite Er1. intros n Hn Hnr. split.
    + eapply repr_reloc; [exact Hrep|exact Hp|exact Hid|exact Hn|exact Hnr|exact Ef|].
      unfold kdata. by rewrite HK.
    + intros q. eapply live_reloc; eauto.
  - intros v' Hv' HKn. eapply (age_path g _ _ _ _ _ _ (fun _ => True)); [apply HR|exact Hp|exact I|done|exact Hv'|exact HKn].
  - by rewrite Er1.
  - intros u Huu Hub Hul. pose proof (nextv_le_user nv u Hu Huu Hul).
    destruct (Z.eq_dec u nv) as [->|]; [by right|left; lia].
  - rewrite Ee1. intros He. rewrite (Hen He). apply nextv_gt.
  - intros o s' [(Eg & Ec & Ho) _]. split; [congruence|]. split; [congruence|].
    destruct o as [[]|e|x]; [|done|done].
    destruct Ho as [(hv' & K' & H1 & H2 & H3 & H4 & H5)|H]; [left|by right].
    exists hv', K'. split_and!; auto; congruence.
Qed.

Lemma pad_queueR s S hv tv sv rv mo K K0 nv :
  RM s S hv tv sv rv mo K K0 -> S <> ∅ ->
  deadb K (rootof s) rv nv -> enumof s = true -> rv < nv ->
  wp pad_queue s (fun o s' => stepR s S hv tv sv rv mo K0 nv o s' /\
    (o = OK tt -> j_recov (js_j (m_js s')) = true ->
      forall hv', j_head (js_j (m_js s')) = ph hv' -> hv mod PC < hv' mod PC)).
Proof.
  intros HR HS Hdead Hen Hlt. pose proof (rm_ri _ _ _ _ _ _ _ _ _ HR) as HI.
  pose proof (rm_rep _ _ _ _ _ _ _ _ _ HR) as Hrep.
  unfold pad_queue, get_root.
  eapply wp_bind_ok. { unfold jn, zoom, getj, gets. rewrite put_js_id. reflexivity. }
  eapply wp_bind_ok; [reflexivity|].
  destruct (ck_RM _ _ _ _ _ _ _ _ _ (m_count s) HR) as (s1 & E1 & HR1 & Eck & Ec1 & Eg1 & Er1 & Ee1 & En1).
  eapply wp_bind_ok; [exact E1|].
  destruct (repr_ne _ _ _ Hrep HS) as (Hrn & [[d m] HK] & _ & _).
  destruct (Z.eqb_spec (rootof s) PAGE_NONE) as [E|_]; [done|].
  pose proof (readsR g c Hg weak _ _ _ _ _ _ _ _ (rm_ri _ _ _ _ _ _ _ _ _ HR1) _ _ _ HK) as Erd.
  eapply wp_bind_ok. { unfold jn, zoom. rewrite Erd, put_js_id. reflexivity. }
  assert (Hm : blen m = META_SIZE) by (eapply (r_kr _ _ _ Hrep); eauto).
  eapply wp_mono; [eapply (copy_RM s1 S hv tv sv rv mo K K0 nv nv (rootof s) d m m HR1 HS)|].
  - rewrite Eck, (rm_cnt _ _ _ _ _ _ _ _ _ HR). done.
  - exact HK.
  - exact Hm.
  - rewrite Er1. intros n Hn Hnr. split.
    + eapply repr_copy_root; eauto.
    + intros q. eapply live_copy_root; eauto.
  - intros v' Hv' HKn. destruct (age_use _ _ _ _ _ (rm_age _ _ _ _ _ _ _ _ _ HR) I) as (v & Hv & Hr0).
    destruct (Hr0 Hrn) as (_ & _ & Ha0). eapply (aged_copy ph tv K (rootof s)); [exact HK|exact HKn| | |exact Ha0]; [lia|].
    destruct (r_root _ _ _ Hrep) as [?|[_ ?]]; [done|done].
  - by rewrite Er1.
  - auto.
  - auto.
  - intros o s' [(Eg & Ec & Ho) Hsl]. split; [|intros; eapply Hsl; eauto; congruence].
    split; [congruence|]. split; [congruence|].
    destruct o as [[]|e|x]; [|done|done].
    destruct Ho as [(hv' & K' & H1 & H2 & H3 & H4 & H5)|H]; [left|by right].
    exists hv', K'. split_and!; auto; congruence.
Qed.

Lemma RI_enum s b hv tv sv rv mo K K0 : RI s true hv tv sv rv mo K K0 ->
  RI (Js (js_n s) (set_enum b (js_j s))) true hv tv sv rv mo K K0.
Proof. intros []. by split. Qed.
Lemma RI_rnext s b hv tv sv rv mo K K0 : RI s true hv tv sv rv mo K K0 ->
  RI (Js (js_n s) (set_rnext b (js_j s))) true hv tv sv rv mo K K0.
Proof. intros []. by split. Qed.

Lemma next_recR s S hv tv sv rv mo K K0 nv : RM s S hv tv sv rv mo K K0 -> enumI (js_j (m_js s)) rv nv ->
  (exists s1, jn next_recoverable s = (OK (ph nv), s1) /\ enumof s = false /\ user nv /\ nv / PB = rv / PB /\
     nv <= rv /\ RM s1 S hv tv sv rv mo K K0 /\ rootof s1 = rootof s /\
     enumI (js_j (m_js s1)) rv (nextv nv) /\ (enumof s1 = true -> nv = rv) /\ m_gcr s1 = m_gcr s /\ m_count s1 = m_count s) \/
  (jn next_recoverable s = (OK PAGE_NONE, s) /\ enumof s = true /\ rv < nv).
Proof.
  intros HR Hen. pose proof (rm_ri _ _ _ _ _ _ _ _ _ HR) as HI. pose proof HI as []. pose_geo.
  unfold jn, zoom, next_recoverable. unfold bind, getg, getj, gets. rewrite ri_recov. cbn [negb].
  destruct Hen as [(He & Hn & Hu & Hb & Hle)|[He Hlt]].
  2:{ right. rewrite He. unfold ret. by rewrite put_js_id. }
  left. rewrite He, Hn, ri_rroot, ri_ppc. 
  assert (Hrv0 : 0 <= rv) by lia.
  assert (Hnv0 : 0 <= nv).
  { destruct (Z.le_gt_cases 0 nv) as [|Hneg]; [done|]. assert (nv / PB < 0) by (apply Z.div_lt_upper_bound; lia).
    assert (0 <= rv / PB) by (apply Z.div_pos; lia). lia. }
  destruct (Z.eqb_spec (ph nv) (ph rv)) as [E|Hne].
  - assert (nv = rv) as ->.
    { pose proof (lem v_decomp nv). pose proof (lem v_decomp rv). pose proof (lem ph_off nv). pose proof (lem ph_off rv).
      rewrite Hb, E in *. lia. }
    unfold modj, modify, ret. eexists. split; [reflexivity|]. cbn [m_js put_js js_j m_gcr m_count].
    split_and!; auto.
    + split; cbn [m_js put_js js_j m_gcr m_count]; try apply HR. by apply RI_enum.
    + right. cbn. split; [done|]. apply nextv_gt.
  - unfold modj, modify, ret. eexists. split; [reflexivity|]. cbn [m_js put_js js_j m_gcr m_count].
    assert (nv <> rv) by congruence.
    assert (Hnx : nextv nv <= rv).
    { destruct (Z.le_gt_cases (nextv nv) rv) as [|Hg2]; [done|]. pose proof (nextv_le_user nv rv Hu ri_ru Hg2). lia. }
    rewrite (nf_geo g weak _ ri_n).
    split_and!; auto.
    + split; cbn [m_js put_js js_j m_gcr m_count]; try apply HR. by apply RI_rnext.
    + left. cbn. split; [done|]. rewrite (lem next_upage_ph) by done. split; [done|].
      split; [by apply (lem nextv_user)|]. split; [|done].
      pose proof (nextv_gt c nv). pose proof (lem blk_le nv (nextv nv)). pose proof (lem blk_le (nextv nv) rv). lia.
    + cbn. congruence.
Qed.

Definition recpost (s : ms) (S : contents) (rv : Z) {A} (o : out A) (s' : ms) : Prop :=
  m_gcr s' = m_gcr s /\
  match o with
  | OK _ => fin s' S rv
  | ER e => leak e
  | ST x => x = Crash
  end.

Definition lmeas (s : ms) (hv rv nv : Z) : Z :=
  if enumof s then PC + 1 - hv mod PC else rv - nv + 1 + PC + 2.

Lemma Rst_RM s S tv sv rv K : Rst (m_js s) tv sv rv K -> repr K (ph rv) S ->
  m_count s = Z.of_nat (size S) -> 1 <= m_gcr s <= 255 -> aged ph tv K (ph rv) rv ->
  exists hv mo, RM s S hv tv sv rv mo K K /\ enumI (js_j (m_js s)) rv (rv / PB * PB) /\
    deadb K (rootof s) rv (rv / PB * PB) /\ enumof s = false.
Proof.
  intros (hv & mo & HI & Er & En & Ee) Hrep Hc Hgc Ha. pose_geo. exists hv, mo.
  pose proof (lem blk_start (rv / PB)) as [E1 E2]. split_and!; auto.
  - split; [exact HI|by rewrite Er|exact Hrep|exact Hc|exact Hgc| |exact Ha]. rewrite Er.
    apply age_new; [|intros _; exact Ha]. pose proof HI as [].
    split; [lia|]. destruct (Z.le_gt_cases hv rv) as [Hhr|]; [|done]. pose proof (lem blk_le hv rv Hhr). lia.
  - left. split_and!; auto.
    + unfold Geom.user. rewrite (lem off_0_slot) by done. lia.
    + pose proof (lem v_decomp rv). pose proof (lem off_range rv). lia.
  - intros u Hu Hub Hlt. exfalso. pose proof (lem v_decomp u). pose proof (lem off_range u). rewrite Hub in *. lia.
Qed.

Lemma recover_loopR fuel : forall rc s S hv tv sv rv mo K K0 nv,
  RM s S hv tv sv rv mo K K0 -> S <> ∅ -> enumI (js_j (m_js s)) rv nv -> deadb K (rootof s) rv nv -> (rc <= 8)%nat ->
  (8 - Z.of_nat rc) * (PB + PC + 3) + lmeas s hv rv nv < Z.of_nat fuel ->
  wp (try_recover_loop fuel rc) s (recpost s S rv).
Proof.
  induction fuel as [|fuel IH]; intros rc s S hv tv sv rv mo K K0 nv HR HS Hen Hdead Hrc Hf; pose_geo.
  { exfalso. unfold lmeas in Hf. pose proof (lem slot_range hv).
    destruct Hen as [(E & _ & _ & _ & ?)|[E ?]]; rewrite E in Hf; nia. }
  assert (Hl1 : 1 <= lmeas s hv rv nv).
  { unfold lmeas. pose proof (lem slot_range hv). destruct Hen as [(E & _ & _ & _ & ?)|[E ?]]; rewrite E; lia. }
  cbn [try_recover_loop].
  eapply wp_bind_ok. { unfold jn, zoom, getj, gets. rewrite put_js_id. reflexivity. }
  rewrite (ri_recov _ _ _ _ _ _ _ _ _ _ _ _ (rm_ri _ _ _ _ _ _ _ _ _ HR)).
  assert (Hfin : forall s2, m_gcr s2 = m_gcr s -> fin s2 S rv -> wp (try_recover_loop fuel rc) s2 (recpost s S rv)).
  { intros s2 Eg2 Hfi. destruct fuel as [|n]; [nia|]. cbn [try_recover_loop].
    eapply wp_bind_ok. { unfold jn, zoom, getj, gets. rewrite put_js_id. reflexivity. }
    destruct Hfi as (H1 & H2 & H3 & H4). rewrite H3. apply wp_ret. split; [done|]. split_and!; auto. }
  assert (Herr : forall s2 e, m_gcr s2 = m_gcr s -> m_count s2 = m_count s ->
     leak e \/ (e = E_RECOVER /\ Rst (m_js s2) tv sv rv K0) ->
     wp (if decide (e <> E_RECOVER) then fail e
        else if (MAX_RETRIES <=? rc)%nat then fail E_TOO_BAD
        else try_recover_loop fuel (Datatypes.S rc)) s2 (recpost s S rv)).
  { intros s2 e Eg2 Ec2 He. destruct (decide (e <> E_RECOVER)) as [Hne|Heq].
    - apply wp_fail. split; [done|]. destruct He as [?|[? _]]; [done|congruence].
    - destruct (Nat.leb_spec MAX_RETRIES rc) as [Hmx|Hmx].
      + apply wp_fail. split; [done|]. unfold leak. auto.
      + unfold MAX_RETRIES in Hmx. destruct He as [Hlk|[_ Hst]].
        { exfalso. apply Heq. unfold leak in Hlk. destruct Hlk as [->|[->| ->]]; done. }
        destruct (Rst_RM _ S _ _ _ _ Hst) as (hv2 & mo2 & HR2 & Hen2 & Hd2 & Ee2).
        { apply HR. } { rewrite Ec2. apply HR. } { rewrite Eg2. apply HR. } { apply HR. }
        eapply wp_mono.
        * eapply (IH (Datatypes.S rc) _ _ _ _ _ _ _ _ _ _ HR2 HS Hen2 Hd2); [lia|].
          unfold lmeas. rewrite Ee2. pose proof (lem v_decomp rv). pose proof (lem off_range rv).
          rewrite Nat2Z.inj_succ. nia.
        * intros o s3 [Eg3 H3]. split; [congruence|done]. }
  destruct (next_recR _ _ _ _ _ _ _ _ _ _ HR Hen) as [(s1 & E1 & Ee & Hu & Hb & Hle & HR1 & Er1 & Hen1 & Hnr & Eg1 & Ec1)|(E1 & Ee & Hlt)].
  - eapply wp_bind_ok; [exact E1|]. pose proof (MapStep.ph_pn g c Hg nv) as Hpn.
    destruct (Z.eqb_spec (ph nv) PAGE_NONE) as [?|_]; [lia|].
    apply wp_bind, wp_attempt.
    eapply wp_mono; [eapply (raw_gcR _ _ _ _ _ _ _ _ _ _ HR1 HS Hu Hb); [by rewrite Er1|exact Hnr]|].
    intros o s2 (Eg2 & Ec2 & Ho). destruct o as [[]|e|x].
    + destruct Ho as [(hv2 & K2 & HR2 & Hd2 & Ee2 & En2 & Hle2)|Hfi].
      * eapply wp_mono.
        -- eapply (IH rc _ _ _ _ _ _ _ _ _ _ HR2 HS); [|exact Hd2|done|].
           ++ unfold enumI in *. rewrite Ee2, En2. exact Hen1.
           ++ unfold lmeas in *. rewrite Ee in Hf. rewrite Ee2. pose proof (nextv_gt c nv). pose proof (lem slot_range hv2).
              destruct (enumof s1); lia.
        -- intros o s3 [Eg3 H3]. split; [congruence|done].
      * apply Hfin; [congruence|done].
    + apply Herr; [congruence|congruence|done].
    + split; [congruence|done].
  - eapply wp_bind_ok; [exact E1|]. rewrite Z.eqb_refl.
    apply wp_bind, wp_attempt.
    eapply wp_mono; [eapply (pad_queueR _ _ _ _ _ _ _ _ _ _ HR HS Hdead Ee Hlt)|].
    intros o s2 [(Eg2 & Ec2 & Ho) Hsl]. destruct o as [[]|e|x].
    + destruct Ho as [(hv2 & K2 & HR2 & Hd2 & Ee2 & En2 & Hle2)|Hfi].
      * eapply wp_mono.
        -- eapply (IH rc _ _ _ _ _ _ _ _ _ _ HR2 HS); [|exact Hd2|done|].
           ++ right. by rewrite Ee2.
           ++ specialize (Hsl eq_refl (ri_recov _ _ _ _ _ _ _ _ _ _ _ _ (rm_ri _ _ _ _ _ _ _ _ _ HR2)) hv2
                (ri_head _ _ _ _ _ _ _ _ _ _ _ _ (rm_ri _ _ _ _ _ _ _ _ _ HR2))).
              unfold lmeas in *. rewrite Ee in Hf. rewrite Ee2, Ee. lia.
        -- intros o s3 [Eg3 H3]. split; [congruence|done].
      * apply Hfin; [congruence|done].
    + apply Herr; [congruence|congruence|done].
    + split; [congruence|done].
Qed.

(** Enough iterations for one recovery. *)
Definition enoughR (fuel : nat) : Prop := 9 * (PB + PC + 3) < Z.of_nat fuel.

Lemma try_recoverR fuel s S tv sv rv K : enoughR fuel -> S <> ∅ ->
  Rst (m_js s) tv sv rv K -> repr K (ph rv) S -> m_count s = Z.of_nat (size S) -> 1 <= m_gcr s <= 255 -> aged ph tv K (ph rv) rv ->
  wp (try_recover fuel E_RECOVER) s (recpost s S rv).
Proof.
  intros Hf HS Hst Hrep Hc Hgc Ha. pose_geo. unfold try_recover. rewrite decide_False by auto.
  destruct (Rst_RM _ S _ _ _ _ Hst) as (hv2 & mo2 & HR2 & Hen2 & Hd2 & Ee2); auto.
  eapply (recover_loopR fuel 0 _ _ _ _ _ _ _ _ _ _ HR2 HS Hen2 Hd2); [lia|].
  unfold enoughR in Hf. unfold lmeas. rewrite Ee2. pose proof (lem v_decomp rv). pose proof (lem off_range rv). lia.
Qed.

(** The failing block was not marked bad before. *)
Lemma Rst_good s tv sv rv K : Rst s tv sv rv K -> is_Some (K !! ph rv) -> badv (js_n s) (rv / PB) = false.
Proof.
  intros (hv & mo & HI & Er & En & Ee) [[d m] HK]. pose proof HI as []. pose_geo.
  destruct (ri_K _ _ _ HK) as (v & Hk & _). pose proof Hk as [_ _ Ep Hb _].
  pose proof (ph_div v) as E1. pose proof (ph_div rv) as E2. rewrite <-Ep, E2 in E1.
  unfold Inv.badv in *. by rewrite E1.
Qed.

End recmap.
