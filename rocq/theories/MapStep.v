(** Map operations on top of the journal: the map invariant. *)
From stdpp Require Import gmap fin_maps.
From Verif Require Import Base Bytes BytesLemmas Wp Nand Journal MapModel Api Geom Tree Rep Age Inv Hdr StepDI StepNand StepJ StepA StepR StepS StepG Resume.
Local Open Scope Z_scope.

Section mapstep.
Context (g : geo) (c : Z) (Hg : geo_ok g c) (weak : Z -> bool) (Hdense : dense g weak) {Ag : Aging}.
Notation PB := (PB g).
Notation PC := (PC c).
Notation NB := (NB g).
Notation TT := (TT g).
Notation GP := (GP g c).
Notation ph := (ph g).
Notation user := (user c).
Notation nextv := (nextv c).
Notation cpv := (cpv c).
Notation cellv := (cellv g).
Notation badv := (badv g).
Notation cell_ep := (cell_ep g).
Notation blk_ep := (blk_ep g c).
Notation fcp := (fcp g c).
Notation epo := (epo g).
Notation moff := (moff c).
Notation kmeta := (kmeta g c).
Notation kd_ok := (kd_ok g c).
Notation DI := (DI g c).
Notation nok := (nok g weak).
Notation JInv := (JInv g c).
Notation JI := (JI g c weak).

Ltac pose_geo :=
  pose proof (PC_ge _ _ Hg) as HPC4; pose proof (PC_le _ _ Hg) as HPC256;
  pose proof (PB_pos _ _ Hg) as HPB4; pose proof (PB_ge _ _ Hg) as HPBC;
  pose proof (NB_ge _ _ Hg) as HNB8; pose proof (TT_le _ _ Hg) as HTT31;
  pose proof (TT_pos _ _ Hg) as HTTpos; pose proof (GP_ge _ _ Hg) as HGP1;
  pose proof (PB_def _ _ Hg) as HPBdef.
Notation "'lem' x" := (x g c Hg) (at level 9, x at level 8, only parsing).
Notation crashed := (crashed g c weak).
Notation app_post := (app_post g c weak).
Notation contents := (gmap Z bytes).
Local Opaque old lk lkv wf wfv pa meta_get_id meta_get_alt.

Definition szc (S : contents) : bytes := w32_bytes (Z.of_nat (size S)).

(** The contents recorded on the chip. *)
Definition dskrep (D : dsk) (Sd : contents) : Prop :=
  (cv D = -1 /\ Sd = ∅) \/
  (0 <= cv D /\ ckd D = szc Sd /\
   (((exists d, Kd D !! ph (cv D - 1) = Some (d, rmd D)) /\ repr (Kd D) (ph (cv D - 1)) Sd /\
     (aging -> aged ph (tdv D) (Kd D) (ph (cv D - 1)) (cv D - 1))) \/
    (Sd = ∅ /\ kr (Kd D) /\ meta_get_id (rmd D) = SECTOR_NONE /\ blen (rmd D) = META_SIZE))).

Definition CI (n : nand) (Sd : contents) : Prop := exists D, crashed n D /\ dskrep D Sd.

Notation rootof s := (j_root (js_j (m_js s))).
Notation dirtyof s := (j_dirty (js_j (m_js s))).

(** Tree pages are older than the pages that point to them. *)
Definition age_ok (tv hv : Z) (K : kmap) (root : Z) : Prop :=
  aging -> root = PAGE_NONE \/ exists v, tv <= v < hv /\ root = ph v /\ aged ph tv K root v.

Lemma age_new tv hv K v : tv <= v < hv -> (aging -> aged ph tv K (ph v) v) -> age_ok tv hv K (ph v).
Proof. intros Hv Ha H. right. exists v. auto. Qed.
Lemma age_none tv hv K : age_ok tv hv K PAGE_NONE.
Proof. intros H. by left. Qed.
Lemma age_mono tv hv hv' K root : hv <= hv' -> age_ok tv hv K root -> age_ok tv hv' K root.
Proof. intros Hle Ha H. destruct (Ha H) as [?|(v & ? & ?)]; [by left|right]. exists v. split; [lia|done]. Qed.
Lemma age_use tv hv K root : age_ok tv hv K root -> aging ->
  exists v, v < hv /\ (root <> PAGE_NONE -> root = ph v /\ tv <= v /\ aged ph tv K root v).
Proof.
  intros Ha H. destruct (Ha H) as [?|(v & Hv & E & Hr)].
  - exists (hv - 1). split; [lia|]. done.
  - exists v. split; [lia|]. intros _. split; [done|]. split; [lia|done].
Qed.
(** Moving the tail and forgetting pages that are not in the tree. *)
Lemma age_tail s hv tv tv' sv K K' root S : JInv s hv tv' sv K' -> repr K root S ->
  tv <= tv' -> hv / PB < tv / PB + NB -> root = PAGE_NONE \/ K' !! root = K !! root ->
  (forall t q, id_ok t -> findp K root t = Some q -> K' !! q = K !! q) ->
  age_ok tv hv K root -> age_ok tv' hv K' root.
Proof.
  intros Hj Hrep Ht Hfull Hr Hag Ha H. destruct Hr as [?|Hr]; [by left|].
  destruct (Ha H) as [?|(v & Hv & E & Hold)]; [by left|right].
  assert (Hlo : forall u, tv <= u < hv -> is_Some (K' !! ph u) -> tv' <= u).
  { intros u Hu [[d m] Hk]. destruct (ji_K _ _ _ _ _ _ _ Hj _ _ _ Hk) as (w & [] & _).
    assert (u = w) as ->; [|lia].
    pose proof (lem blk_le tv u ltac:(lia)).
    pose proof (lem blk_le tv w ltac:(lia)). pose proof (lem blk_le u hv ltac:(lia)).
    pose proof (lem blk_le w hv ltac:(lia)).
    apply (lem win_page (hv / PB)); [lia|lia|congruence]. }
  assert (Hrn : root <> PAGE_NONE).
  { rewrite E. pose_geo. pose proof (lem ph_range v). unfold PAGE_NONE. lia. }
  exists v. split.
  - split; [|lia]. apply Hlo; [lia|]. rewrite <-E, Hr.
    destruct (r_root _ _ _ Hrep) as [?|[? _]]; done.
  - split; [done|]. eapply (aged_frame ph tv tv' hv K K' root S v); auto. lia.
Qed.
Lemma age_path tv hv K root t m (P : bytes -> Prop) : age_ok tv hv K root -> is_path K root t m ->
  aging -> forall d v', P d -> hv <= v' -> K !! ph v' = None -> aged ph tv (<[ph v':=(d,m)]> K) (ph v') v'.
Proof.
  intros Ha Hp H d v' _ Hv HK. destruct (age_use _ _ _ _ Ha H) as (v & Hv1 & Hr).
  eapply (aged_path ph tv K root t m v); [exact Hp|exact HK|lia|exact Hr].
Qed.
Local Opaque age_ok.

(** Map invariant, apart from the counter. *)
Record MI (s : ms) (S Sd : contents) (hv tv sv : Z) (K : kmap) (D : dsk) : Prop := {
  mi_j : JI (m_js s) hv tv sv K D;
  mi_rep : repr K (rootof s) S;
  mi_dsk : dskrep D Sd;
  mi_clean : dirtyof s = false -> Sd = S;
  mi_gcr : 1 <= m_gcr s <= 255;
  mi_age : age_ok tv hv K (rootof s)
}.

Lemma JI_full x hv tv sv K D : JI x hv tv sv K D -> hv / PB < tv / PB + NB.
Proof.
  intros [_ Hj _ _]. assert (sv <= tv) by apply Hj. pose proof (lem blk_le sv tv ltac:(lia)).
  pose proof (ji_full _ _ _ _ _ _ _ Hj). lia.
Qed.

Lemma repr_fun K root S S' : repr K root S -> repr K root S' -> S = S'.
Proof. intros [_ _ H] [_ _ H']. apply map_eq. intros t. by rewrite H, H'. Qed.

Lemma ph_pn v : 0 <= ph v < PAGE_NONE.
Proof. pose_geo. pose proof (lem ph_range v). unfold PAGE_NONE. lia. Qed.

Lemma MI_reads s S Sd hv tv sv K D : MI s S Sd hv tv sv K D -> reads K (m_js s).
Proof. intros [[Hn Hj _ _] _ _ _ _ _]. eapply (read_meta_spec g c Hg); [apply Hn|exact Hj]. Qed.

Lemma trace_MI s S Sd hv tv sv K D t nm : MI s S Sd hv tv sv K D -> 0 <= t < 2 ^ 32 -> blen nm = META_SIZE ->
  exists nm', trace_path t nm s = (OK (findp K (rootof s) t, nm'), s) /\ is_path K (rootof s) t nm'.
Proof.
  intros H Ht Hl. eapply trace_path_spec; eauto; [apply H|by eapply MI_reads].
Qed.

Lemma put_js_id s : put_js (m_js s) s = s. Proof. by destruct s. Qed.

(** Setting the cookie. *)
Lemma ck_spec s S Sd hv tv sv K D k : MI s S Sd hv tv sv K D ->
  exists s', ck_set_count k s = (OK tt, s') /\ MI s' S Sd hv tv sv K D /\
    cookie (m_js s') = w32_bytes k /\ m_count s' = m_count s /\ m_gcr s' = m_gcr s /\
    rootof s' = rootof s /\ dirtyof s' = dirtyof s /\ chip s' = chip s.
Proof.
  intros [HJ Hrep Hd Hcl Hgc Hag]. unfold ck_set_count, jn, zoom.
  destruct (cookie_put_spec g c Hg weak _ _ _ _ _ _ _ HJ (blen_w32_bytes k)) as (x & E & HJ' & E1 & E2 & E3 & E4).
  rewrite E. eexists. split; [reflexivity|]. unfold chip. cbn [m_js m_count m_gcr put_js].
  split_and!; auto. split; cbn [m_js m_gcr put_js]; [done|by rewrite E2|done|by rewrite E3|done|].
  rewrite E2. exact Hag.
Qed.

(** Appending a page to the journal. *)
Lemma append_MI s S Sd hv tv sv K D (app : MJ unit) (P : bytes -> Prop) (ecc : Prop) m (S' : bytes -> contents) :
  MI s S Sd hv tv sv K D -> blen m = META_SIZE ->
  (forall d, P d -> cookie (m_js s) = szc (S' d)) ->
  (forall d n, P d -> K !! n = None -> 0 <= n < PAGE_NONE -> repr (<[n:=(d,m)]> K) n (S' d)) ->
  (aging -> forall d v', P d -> hv <= v' -> K !! ph v' = None -> aged ph tv (<[ph v':=(d,m)]> K) (ph v') v') ->
  wp app (m_js s) (app_post hv tv sv K D (m_js s) P ecc m) ->
  wp (jn app) s (fun o s' => m_gcr s' = m_gcr s /\ m_count s' = m_count s /\
    match o with
    | OK _ => exists d hv' sv' D' Sd', P d /\ hv <= hv' /\ (hv' = hv \/ (hv mod PB = 0 /\ hv' mod PB = 0)) /\
        K !! ph hv' = None /\ rootof s' = ph hv' /\
        MI s' (S' d) Sd' (nextv hv') tv sv' (<[ph hv' := (d, m)]> K) D' /\ (Sd' = Sd \/ Sd' = S' d) /\
        (dirtyof s' = true -> sv' = sv /\ hv' mod PC <> PC - 2)
    | ER e => (e = E_JOURNAL_FULL \/ (e = E_ECC /\ ecc)) /\
        exists hv', hv <= hv' /\ MI s' S Sd hv' tv sv K D
    | ST x => x = Crash /\ exists Sd', (Sd' = Sd \/ exists d, P d /\ Sd' = S' d) /\ CI (chip s') Sd'
    end).
Proof.
  intros [HJ Hrep Hdsk Hcl Hgc Hag] Hm Hck Hnew Hnag Happ. unfold jn. apply wp_zoom.
  eapply wp_mono; [exact Happ|]. intros o j' Ho. cbn [m_gcr m_count put_js].
  split; [done|]. split; [done|]. unfold chip. cbn [m_js put_js].
  assert (HD' : forall hv' d, P d -> K !! ph hv' = None -> 0 <= hv' -> hv <= hv' ->
     dskrep (Dsk (hv' + 1) tv (cookie (m_js s)) m (<[ph hv' := (d, m)]> K)) (S' d)).
  { intros hv' d HP HK Hh Hle. right. cbn [cv ckd rmd Kd]. replace (hv' + 1 - 1) with hv' by lia.
    split; [lia|]. split; [by apply Hck|]. left. split; [exists d; apply lookup_insert|].
    split; [apply Hnew; auto; apply ph_pn|]. intros Hg0. cbn [tdv]. by apply Hnag. }
  assert (Hhv0 : 0 <= hv) by apply HJ.
  destruct o as [[]|e|x]; cbn [StepA.app_post] in Ho.
  - destruct Ho as (hv' & d & HP & Hdl & Hle & HK & Hal & Er & Eck & [(Hdi & Hs & HJ')|(Hdi & Hs & HJ')]).
    + exists d, hv', sv, D, Sd. split_and!; auto.
      split; cbn [m_js m_gcr put_js]; auto.
      * rewrite Er. apply Hnew; auto. apply ph_pn.
      * intros. congruence.
      * rewrite Er. pose proof (nextv_gt c hv'). assert (tv <= hv) by apply HJ.
        apply age_new; [lia|]. intros Hg0. by apply Hnag.
    + eexists d, hv', tv, _, (S' d). split; [done|]. split; [done|]. split; [done|].
      split; [done|]. split; [done|]. split; [|split; [by right|intros; congruence]].
      split; cbn [m_js m_gcr put_js]; [exact HJ'| | | | |]; auto.
      * rewrite Er. apply Hnew; auto. apply ph_pn.
      * apply HD'; auto. lia.
      * rewrite Er. pose proof (nextv_gt c hv'). assert (tv <= hv) by apply HJ.
        apply age_new; [lia|]. intros Hg0. by apply Hnag.
  - destruct Ho as (He & Hr & hv' & Hle & HJ' & _). split; [done|]. exists hv'. split; [done|].
    split; cbn [m_js m_gcr put_js]; [done| |done| |done|].
    + by rewrite (jr_root _ _ Hr).
    + intros Hd0. apply Hcl. destruct (dirtyof s) eqn:E; [|done].
      rewrite (jr_dirty _ _ Hr) in Hd0; [done|exact E].
    + rewrite (jr_root _ _ Hr). by eapply age_mono.
  - destruct Ho as [-> Ho]. split; [done|].
    destruct Ho as [Ho|(hv' & d & HP & Hdl & Hle & HK & _ & Hcr)].
    + exists Sd. split; [by left|]. by exists D.
    + exists (S' d). split; [right; by exists d|]. eexists. split; [exact Hcr|]. apply HD'; auto. lia.
Qed.

(** ** raw_gc on the tail page *)
Lemma read_meta_any' x hv tv sv K D v : JI x hv tv sv K D -> user v ->
  (exists m, read_meta (ph v) x = (OK m, x) /\ blen m = META_SIZE) \/
  (read_meta (ph v) x = (ER E_ECC, x) /\ v <> hv /\ exists o, n_cell (js_n x) (ph (cpv v)) = Junk o).
Proof.
  intros [Hn Hj _ _] Hu. pose_geo. unfold read_meta, bind, getj, gets.
  pose proof (moff_fit g c Hg v Hu) as [Hf1 Hf2].
  unfold HEADER_SIZE, COOKIE_SIZE, META_SIZE in Hf1, Hf2.
  rewrite (ji_ppc _ _ _ _ _ _ _ Hj), (ji_head _ _ _ _ _ _ _ Hj), (ji_rmeta _ _ _ _ _ _ _ Hj).
  rewrite (moff_hdr g c Hg) by done. rewrite (lem align_eq_grp).
  destruct (Z.eqb_spec (ph v / PC) (ph hv / PC)) as [Egr|Egr].
  - left. unfold buf_get. rewrite (ji_buf _ _ _ _ _ _ _ Hj).
    replace (0 <=? moff v) with true by (symmetry; apply Z.leb_le; lia).
    replace (moff v + META_SIZE <=? page_size g) with true by (symmetry; apply Z.leb_le; unfold META_SIZE; lia).
    cbn [andb]. eexists. split; [reflexivity|]. apply blen_slice; rewrite ?(ji_buf _ _ _ _ _ _ _ Hj); unfold META_SIZE; lia.
  - replace (negb (PAGE_NONE =? PAGE_NONE)) with false by done. cbn [andb].
    rewrite (lem cp_grp), <-(lem cpv_ph). unfold io, zoom.
    rewrite (read_spec g c Hg) by (first [apply Hn|unfold META_SIZE; lia]).
    destruct (cell_bytes g (cellv (js_n x) (cpv v))) as [d|] eqn:E.
    + left. eexists. split; [by destruct x|]. apply blen_slice; unfold META_SIZE; try lia.
      erewrite (cell_len g c Hg weak); [|exact Hn| |exact E]; [lia|]. by eexists.
    + right. split; [by destruct x|]. split; [by intros ->|]. unfold cell_bytes, Inv.cellv in E.
      destruct (n_cell (js_n x) (ph (cpv v))) eqn:E2; [discriminate|discriminate|by eexists].
Qed.
Lemma read_meta_any x hv tv sv K D v : JI x hv tv sv K D -> user v ->
  (exists m, read_meta (ph v) x = (OK m, x) /\ blen m = META_SIZE) \/
  (read_meta (ph v) x = (ER E_ECC, x) /\ exists p o, n_cell (js_n x) p = Junk o).
Proof. intros HJ Hu. destruct (read_meta_any' x hv tv sv K D v HJ Hu) as [?|(? & _ & ?)]; [by left|right; eauto]. Qed.

Lemma get_id_range m : 0 <= meta_get_id m < 2 ^ 32.
Proof. Local Transparent meta_get_id. unfold meta_get_id. apply get32_range. Qed.
Local Opaque meta_get_id.

Definition MX (s : ms) (S Sd : contents) : Prop :=
  m_count s = Z.of_nat (size S) /\ exists hv tv sv K D, MI s S Sd hv tv sv K D.

Definition jerr (n : nand) (e : err) : Prop := e = E_JOURNAL_FULL \/
  (e = E_ECC /\ exists p o, n_cell n p = Junk o).

Lemma nextv_slot hv hv' : user hv -> hv' = hv \/ (hv mod PB = 0 /\ hv' mod PB = 0) -> hv' mod PC <> PC - 2 ->
  hv mod PC < nextv hv' mod PC.
Proof.
  intros Hu Hal Hm. pose_geo.
  assert (Hu' : user hv').
  { destruct Hal as [->|[_ H]]; [done|]. unfold Geom.user. rewrite (lem off_0_slot) by done. lia. }
  assert (hv mod PC = hv' mod PC) as ->.
  { destruct Hal as [->|[H1 H2]]; [done|]. by rewrite !(lem off_0_slot) by done. }
  destruct (lem nextv_cases hv' Hu') as [(?&_&_&->)|(?&_&_&->)]; lia.
Qed.

Lemma findp_root K root S : repr K root S -> root <> PAGE_NONE -> id_ok (kid K root) -> findp K root (kid K root) = Some root.
Proof.
  intros Hr Hn Hid. unfold findp. destruct (Z.eqb_spec root PAGE_NONE); [done|].
  destruct (Z.eqb_spec (kid K root) SECTOR_NONE) as [E|_].
  { rewrite E in Hid. unfold id_ok, SECTOR_NONE in Hid. lia. }
  destruct (r_root _ _ _ Hr) as [?|[HK [E|[_ Hw]]]]; [done| |].
  { rewrite E in Hid. unfold id_ok, SECTOR_NONE in Hid. lia. }
  by apply lk_self.
Qed.

Lemma raw_gc_spec s S Sd hv tv sv K D : MI s S Sd hv tv sv K D -> m_count s = Z.of_nat (size S) -> 
  wp (raw_gc (ph tv)) s (fun o s' => m_gcr s' = m_gcr s /\ m_count s' = m_count s /\
    match o with
    | OK _ => exists hv' sv' K' D' Sd', MI s' S Sd' hv' tv sv' K' D' /\ (Sd' = Sd \/ Sd' = S) /\ hv <= hv' /\
        (forall t, id_ok t -> findp K' (rootof s') t <> Some (ph tv)) /\
        (dirtyof s' = true -> sv' = sv /\ hv mod PC <= hv' mod PC /\ (hv' mod PC = hv mod PC -> s' = s))
    | ER e => jerr (chip s') e /\ exists hv', MI s' S Sd hv' tv sv K D
    | ST x => x = Crash /\ exists Sd', (Sd' = Sd \/ Sd' = S) /\ CI (chip s') Sd'
    end).
Proof.
  intros HM Hc. pose_geo. unfold raw_gc.
  assert (Htu : user tv) by apply HM.
  destruct (read_meta_any (m_js s) hv tv sv K D tv) as [(m & Em & Hm)|[Em Hjk]]; [apply HM|done| |].
  2:{ apply wp_bind. unfold jn. apply wp_zoom. unfold wp. rewrite Em. cbn.
      split; [done|]. split; [done|]. split; [right; by unfold chip|]. exists hv. rewrite put_js_id. done. }
  assert (Hread : forall t, id_ok t -> findp K (rootof s) t = Some (ph tv) -> t = meta_get_id m /\ exists d, K !! ph tv = Some (d, m)).
  { intros t Ht Ef. destruct (findp_Some _ _ _ _ _ (mi_rep _ _ _ _ _ _ _ _ HM) Ht Ef) as (E1 & [[d m'] E2] & _).
    pose proof (MI_reads _ _ _ _ _ _ _ _ HM _ _ _ E2) as E3. rewrite Em in E3. injection E3 as <-.
    split; [|by exists d]. rewrite <-E1. unfold kid, km. by rewrite E2. }
  eapply wp_bind_ok. { unfold jn, zoom. rewrite Em. rewrite put_js_id. reflexivity. }
  assert (Hstay : (forall t, id_ok t -> findp K (rootof s) t <> Some (ph tv)) ->
     exists hv' sv' K' D' Sd', MI s S Sd' hv' tv sv' K' D' /\ (Sd' = Sd \/ Sd' = S) /\ hv <= hv' /\
        (forall t, id_ok t -> findp K' (rootof s) t <> Some (ph tv)) /\
        (dirtyof s = true -> sv' = sv /\ hv mod PC <= hv' mod PC /\ (hv' mod PC = hv mod PC -> s = s))).
  { intros H. exists hv, sv, K, D, Sd. split; [done|]. split; [by left|]. split; [lia|]. split; [done|]. intros _. split; [done|]. split; [lia|done]. }
  destruct (Z.eqb_spec (meta_get_id m) SECTOR_NONE) as [En|Hne].
  { apply wp_ret. split; [done|]. split; [done|]. apply Hstay. intros t Ht Ef.
    destruct (Hread _ Ht Ef) as [Et _]. rewrite Et, En in Ht. unfold id_ok, SECTOR_NONE in Ht. lia. }
  pose proof (get_id_range m) as Hidr.
  assert (Hid : id_ok (meta_get_id m)). { unfold id_ok. unfold SECTOR_NONE in *. lia. }
  destruct (trace_MI _ _ _ _ _ _ _ _ (meta_get_id m) m HM ltac:(lia) Hm) as (nm & Et & Hp).
  eapply wp_bind_ok; [exact Et|]. cbn beta iota.
  destruct (findp K (rootof s) (meta_get_id m)) as [cur|] eqn:Ef; cbn beta iota.
  2:{ apply wp_ret. split; [done|]. split; [done|]. apply Hstay. intros t Ht E.
      destruct (Hread _ Ht E) as [-> _]. congruence. }
  destruct (Z.eqb_spec cur (ph tv)) as [->|Hcur]; cbn [negb].
  2:{ apply wp_ret. split; [done|]. split; [done|]. apply Hstay. intros t Ht E.
      destruct (Hread _ Ht E) as [-> _]. congruence. }
  eapply wp_bind_ok; [reflexivity|].
  destruct (ck_spec _ _ _ _ _ _ _ _ (m_count s) HM) as (s1 & E1 & HM1 & Eck & Ec1 & Eg1 & Er1 & Ed1 & En1).
  eapply wp_bind_ok; [exact E1|].
  destruct (Hread _ Hid Ef) as [_ [d HK]].
  eapply wp_mono.
  - eapply (append_MI s1 S Sd hv tv sv K D (journal_copy (ph tv) nm) (fun x => x = d) False nm (fun _ => S)).
    + exact HM1.
    + apply Hp.
    + intros _ _. rewrite Eck, Hc. done.
    + intros x n -> Hn Hnr. eapply repr_reloc; [apply HM|exact Hp|exact Hid|exact Hn|exact Hnr|exact Ef|].
      unfold kdata. by rewrite HK.
    + eapply age_path; [apply HM|exact Hp].
    + eapply (copy_spec g c Hg weak Hdense); [apply HM1|exact HK|apply Hp].
  - intros o s' (Eg & Ec & Ho). split; [congruence|]. split; [congruence|].
    destruct o as [[]|e|x].
    + destruct Ho as (d' & hv' & sv' & D' & Sd' & -> & Hle & Hal & HKn & Er & HM' & HSd & Hd).
      exists (nextv hv'), sv', (<[ph hv':=(d, nm)]> K), D', Sd'. split; [exact HM'|]. split; [exact HSd|].
      pose proof (nextv_gt c hv'). split; [lia|]. split.
      * intros t Ht E. destruct (findp_Some _ _ _ _ _ (mi_rep _ _ _ _ _ _ _ _ HM') Ht E) as (E2 & _ & _).
        assert (Hne2 : ph hv' <> ph tv) by (intros E3; rewrite E3 in HKn; congruence).
        assert (E4 : kid (<[ph hv':=(d, nm)]> K) (ph tv) = meta_get_id m).
        { unfold kid, km. rewrite lookup_insert_ne by done. by rewrite HK. }
        rewrite E4 in E2. subst t.
        pose proof (findp_root _ _ _ (mi_rep _ _ _ _ _ _ _ _ HM')) as E5. rewrite Er in E5, E.
        assert (E6 : kid (<[ph hv':=(d, nm)]> K) (ph hv') = meta_get_id m).
        { unfold kid, km. rewrite lookup_insert. cbn. apply Hp. }
        rewrite E6 in E5. rewrite E5 in E; [congruence|pose proof (ph_pn hv'); lia|done].
      * intros Hdir. destruct (Hd Hdir) as [-> Hm2]. split; [done|].
        assert (Hlt : hv mod PC < nextv hv' mod PC) by (eapply nextv_slot; eauto; apply HM). split; [lia|]. intros. lia.
    + destruct Ho as (He & hv' & _ & HM'). split; [|by exists hv'].
      unfold jerr. naive_solver.
    + destruct Ho as (-> & Sd' & [->|(d' & -> & ->)] & HCI); (split; [done|]); eexists; eauto.
Qed.

Lemma kr_delete K p : kr K -> kr (delete p K).
Proof. intros H q d m E. apply lookup_delete_Some in E as [_ E]. eauto. Qed.

Lemma dskrep_del D Sd p : dskrep D Sd ->
  (repr (Kd D) (ph (cv D - 1)) Sd -> forall t, id_ok t -> findp (Kd D) (ph (cv D - 1)) t <> Some p) ->
  dskrep (Ddel p D) Sd.
Proof.
  intros [H|(Hc & Hk & H)] Hf; [by left|]. right. cbn [Ddel cv ckd rmd Kd].
  split; [done|]. split; [done|].
  destruct H as [([d HK] & Hr & Hag0)|(-> & Hkr & Hid & Hl)]; [|right; split_and!; auto using kr_delete].
  specialize (Hf Hr). pose proof (repr_delete_page _ _ _ _ Hr Hf) as Hr'.
  destruct (Z.eqb_spec (ph (cv D - 1)) p) as [E|Hne].
  - right. apply repr_none_empty in Hr' as ->. split; [done|]. split; [by apply kr_delete, Hr|].
    destruct (r_kr _ _ _ Hr _ _ _ HK) as [_ Hl]. split; [|done].
    destruct (r_root _ _ _ Hr) as [E2|[_ [E2|[Hid _]]]].
    + pose proof (ph_pn (cv D - 1)). lia.
    + unfold kid, km in E2. by rewrite HK in E2.
    + exfalso. eapply Hf; [exact Hid|]. rewrite <-E. eapply findp_root; [exact Hr| |rewrite E in *; done].
      pose proof (ph_pn (cv D - 1)). lia.
  - left. split; [exists d; by rewrite lookup_delete_ne|]. split; [done|]. intros Hg0.
    eapply (aged_frame ph (tdv D) (tdv D) (cv D) (Kd D)); [exact Hr| |by apply Hag0|lia| | |lia].
    + pose proof (ph_pn (cv D - 1)). lia.
    + by rewrite lookup_delete_ne.
    + intros t q Ht Et. rewrite lookup_delete_ne; [done|]. intros <-. by eapply Hf.
Qed.

Lemma dequeue_MI' s S Sd hv tv sv K D : MI s S Sd hv tv sv K D -> tv <> hv ->
  (forall t, id_ok t -> findp K (rootof s) t <> Some (ph tv)) ->
  exists s', jn journal_dequeue s = (OK tt, s') /\ chip s' = chip s /\
    m_gcr s' = m_gcr s /\ m_count s' = m_count s /\ dirtyof s' = dirtyof s /\
    rootof s' = (if rootof s =? ph tv then PAGE_NONE else rootof s) /\
    exists sv' D', MI s' S Sd hv (nextv tv) sv' (delete (ph tv) K) D' /\ sv' = (if dirtyof s then sv else nextv tv).
Proof.
  intros HM Hne Hf. destruct HM as [HJ Hrep Hd Hcl Hgc Hag].
  destruct (dequeue_spec g c Hg weak _ _ _ _ _ _ HJ Hne) as (x & sv' & D' & E & HJ' & Er & Edi & Eb & En & HD).
  unfold jn, zoom. rewrite E. eexists. split; [reflexivity|]. unfold chip. cbn [m_js m_gcr m_count put_js].
  split_and!; auto. exists sv', D'. split.
  - split; cbn [m_js m_gcr put_js]; [done| | | |done|].
    + rewrite Er. by apply repr_delete_page.
    + destruct (dirtyof s) eqn:Edd; destruct HD as [-> ->]; [done|].
      apply dskrep_del; [done|]. pose proof (Hcl eq_refl) as ->.
      destruct (JI_c _ _ _ _ _ _ _ _ _ HJ Edd) as [EK [E0|(Hc0 & E0 & _)]].
      * rewrite E0 in Hrep. apply repr_none_empty in Hrep as ->.
        intros Hr t Ht Et.
        assert (Hs : is_Some (findp (Kd D) (ph (cv D - 1)) t)) by (by eexists).
        apply (findp_iff _ _ _ _ Hr Ht) in Hs as [? Hs]. by rewrite lookup_empty in Hs.
      * rewrite EK, <-E0. intros _. exact Hf.
    + intros Hd'. rewrite Edi in Hd'. auto.
    + rewrite Er. destruct (Z.eqb_spec (rootof s) (ph tv)) as [|Hrt]; [apply age_none|].
      pose proof (nextv_gt c tv). assert (sv <= tv) by apply HJ.
      eapply (age_tail x hv tv (nextv tv) sv' K); [apply HJ'|exact Hrep|lia|by eapply JI_full| | |exact Hag].
      * right. by rewrite lookup_delete_ne.
      * intros t q Ht Et. rewrite lookup_delete_ne; [done|]. intros <-. by eapply Hf.
  - by destruct (dirtyof s); destruct HD as [_ ->].
Qed.
Lemma dequeue_MI s S Sd hv tv sv K D : MI s S Sd hv tv sv K D -> tv <> hv ->
  (forall t, id_ok t -> findp K (rootof s) t <> Some (ph tv)) ->
  exists s', jn journal_dequeue s = (OK tt, s') /\ chip s' = chip s /\
    m_gcr s' = m_gcr s /\ m_count s' = m_count s /\ dirtyof s' = dirtyof s /\
    exists sv' K' D', MI s' S Sd hv (nextv tv) sv' K' D' /\ (dirtyof s = true -> sv' = sv).
Proof.
  intros HM Hne Hf. destruct (dequeue_MI' _ _ _ _ _ _ _ _ HM Hne Hf) as (s' & E & E1 & E2 & E3 & E4 & _ & sv' & D' & HM' & ->).
  exists s'. split_and!; auto. eexists _, _, D'. split; [exact HM'|]. by intros ->.
Qed.

Definition gcpost (s : ms) (S Sd : contents) {A} (o : out A) (s' : ms) : Prop :=
  m_gcr s' = m_gcr s /\
  match o with
  | OK _ => exists Sd', (Sd' = Sd \/ Sd' = S) /\ MX s' S Sd'
  | ER e => jerr (chip s') e /\ exists Sd', (Sd' = Sd \/ Sd' = S) /\ MX s' S Sd'
  | ST x => x = Crash /\ exists Sd', (Sd' = Sd \/ Sd' = S) /\ CI (chip s') Sd'
  end.

Lemma jerr_norec n e : jerr n e -> e <> E_RECOVER.
Proof. unfold jerr. intros [->|[-> _]]; done. Qed.

Lemma try_recover_fail fuel n e s : jerr n e -> try_recover fuel e s = (ER e, s).
Proof. intros H. unfold try_recover. rewrite decide_True by (by eapply jerr_norec). done. Qed.

Lemma peek_MI s S Sd hv tv sv K D : MI s S Sd hv tv sv K D ->
  exists s' tv', jn journal_peek s = (OK (if tv =? hv then PAGE_NONE else ph tv'), s') /\
    tv <= tv' <= hv /\ MI s' S Sd hv tv' sv K D /\ m_count s' = m_count s /\ m_gcr s' = m_gcr s /\
    chip s' = chip s /\ dirtyof s' = dirtyof s.
Proof.
  intros [HJ Hrep Hd Hcl Hgc Hag].
  destruct (peek_spec g c Hg weak Hdense _ _ _ _ _ _ HJ) as (tv' & Hle & Hu & E & HJ').
  unfold jn, zoom. rewrite E. eexists _, tv'. split; [reflexivity|]. split; [done|].
  split; [|by unfold chip].
  split; cbn [m_js m_gcr put_js]; [done|done|done|done|done|].
  eapply (age_tail _ hv tv tv' sv K K); [apply HJ'|exact Hrep|lia|by eapply JI_full|by right|done|exact Hag].
Qed.


Lemma dequeue_any s S Sd hv tv sv K D : MI s S Sd hv tv sv K D ->
  (forall t, id_ok t -> findp K (rootof s) t <> Some (ph tv)) ->
  exists s', jn journal_dequeue s = (OK tt, s') /\ chip s' = chip s /\
    m_gcr s' = m_gcr s /\ m_count s' = m_count s /\ dirtyof s' = dirtyof s /\
    exists tv' sv' K' D', MI s' S Sd hv tv' sv' K' D' /\ (dirtyof s = true -> sv' = sv) /\ tv <= tv' /\
      (tv <> hv -> tv < tv').
Proof.
  intros HM Hf. destruct (Z.eq_dec tv hv) as [->|Hne].
  - exists s. unfold jn, zoom. erewrite (dequeue_empty g c weak) by apply HM.
    rewrite put_js_id. split_and!; auto. exists hv, sv, K, D. split_and!; auto; lia.
  - destruct (dequeue_MI _ _ _ _ _ _ _ _ HM Hne Hf) as (s' & E & ? & ? & ? & ? & sv' & K' & D' & ? & ?).
    exists s'. split_and!; auto. exists (nextv tv), sv', K', D'. pose proof (nextv_gt c tv).
    split_and!; auto; lia.
Qed.

Lemma gc_loop_spec n fuel s S Sd : MX s S Sd ->
  wp (map_gc_loop (Datatypes.S n) fuel) s (gcpost s S Sd).
Proof.
  intros [Hc (hv & tv & sv & K & D & HM)]. cbn [map_gc_loop].
  destruct (peek_MI _ _ _ _ _ _ _ _ HM) as (s1 & tv1 & E1 & Hle & HM1 & Ec1 & Eg1 & En1 & Ed1).
  eapply wp_bind_ok; [exact E1|]. clear E1.
  destruct (tv =? hv).
  { rewrite Z.eqb_refl. apply wp_ret. split; [done|]. exists Sd. split; [by left|].
    split; [congruence|]. by exists hv, tv1, sv, K, D. }
  destruct (Z.eqb_spec (ph tv1) PAGE_NONE) as [E|_]; [pose proof (ph_pn tv1); lia|].
  apply wp_bind, wp_attempt.
  eapply wp_mono; [apply (raw_gc_spec _ _ _ _ _ _ _ _ HM1); congruence|].
  intros o s2 (Eg2 & Ec2 & Ho). destruct o as [[]|e|x].
  - destruct Ho as (hv2 & sv2 & K2 & D2 & Sd2 & HM2 & HS2 & Hle2 & Hf & _).
    destruct (dequeue_any _ _ _ _ _ _ _ _ HM2 Hf) as (s3 & E3 & En3 & Eg3 & Ec3 & Ed3 & tv3 & sv3 & K3 & D3 & HM3 & _).
    unfold wp. rewrite E3. cbn [fst snd]. split; [congruence|]. exists Sd2. split; [done|].
    split; [congruence|]. by exists hv2, tv3, sv3, K3, D3.
  - destruct Ho as (He & hv2 & HM2). apply wp_bind. unfold wp. rewrite (try_recover_fail _ _ _ _ He).
    cbn [fst snd]. split; [congruence|]. split; [done|]. exists Sd. split; [by left|].
    split; [congruence|]. by exists hv2, tv1, sv, K, D.
  - destruct Ho as (-> & Sd' & HS & HCI). split; [congruence|]. split; [done|]. by exists Sd'.
Qed.

Lemma map_gc_spec fuel s S Sd : MX s S Sd -> (1 <= fuel)%nat -> wp (map_gc fuel) s (gcpost s S Sd).
Proof.
  intros HM Hf. unfold map_gc. apply wp_bind, wp_gets.
  destruct (m_count s =? 0).
  - apply wp_ret. split; [done|]. exists Sd. split; [by left|done].
  - destruct fuel as [|n]; [lia|]. by apply gc_loop_spec.
Qed.

Lemma gcpost_trans s1 s2 S Sd Sd' A (o : out A) s3 : gcpost s2 S Sd' o s3 -> m_gcr s2 = m_gcr s1 -> (Sd' = Sd \/ Sd' = S) ->
  gcpost s1 S Sd o s3.
Proof.
  intros [Eg H] E HS. split; [congruence|].
  assert (forall Sd'', Sd'' = Sd' \/ Sd'' = S -> Sd'' = Sd \/ Sd'' = S) as HT.
  { intros ? [-> | ->]; [done|by right]. }
  destruct o as [a|e|x].
  - destruct H as (Sd'' & H1 & H2). exists Sd''. auto.
  - destruct H as (He & Sd'' & H1 & H2). split; [done|]. exists Sd''. auto.
  - destruct H as (He & Sd'' & H1 & H2). split; [done|]. exists Sd''. auto.
Qed.

Lemma repeat_gc_spec i fuel : (1 <= fuel)%nat -> forall s S Sd, MX s S Sd -> wp (repeat_gc i fuel) s (gcpost s S Sd).
Proof.
  intros Hf. induction i as [|i IH]; intros s S Sd HM; cbn [repeat_gc].
  - apply wp_ret. split; [done|]. exists Sd. split; [by left|done].
  - apply wp_bind. eapply wp_mono; [by apply map_gc_spec|]. intros o s2 [Eg2 Ho].
    destruct o as [[]|e|x].
    + destruct Ho as (Sd2 & HS2 & HM2). eapply wp_mono; [by apply IH|].
      intros o s3 H3. by eapply gcpost_trans.
    + by split.
    + by split.
Qed.

Lemma auto_gc_spec fuel s S Sd : (1 <= fuel)%nat -> MX s S Sd -> wp (auto_gc fuel) s (gcpost s S Sd).
Proof.
  intros Hf HM. unfold auto_gc. apply wp_bind, wp_gets.
  destruct (_ <? _).
  - apply wp_ret. split; [done|]. exists Sd. split; [by left|done].
  - apply wp_bind, wp_gets. by apply repeat_gc_spec.
Qed.

(** ** pad_queue *)
Lemma pad_queue_spec s S Sd hv tv sv K D : MI s S Sd hv tv sv K D -> m_count s = Z.of_nat (size S) ->
  wp pad_queue s (fun o s' => m_gcr s' = m_gcr s /\ m_count s' = m_count s /\
    match o with
    | OK _ => exists hv' sv' K' D' Sd', MI s' S Sd' hv' tv sv' K' D' /\ (Sd' = Sd \/ Sd' = S) /\ hv <= hv' /\
        (dirtyof s' = true -> sv' = sv /\ hv mod PC < hv' mod PC)
    | ER e => jerr (chip s') e /\ exists hv', MI s' S Sd hv' tv sv K D
    | ST x => x = Crash /\ exists Sd', (Sd' = Sd \/ Sd' = S) /\ CI (chip s') Sd'
    end).
Proof.
  intros HM Hc. unfold pad_queue, get_root.
  eapply wp_bind_ok. { unfold jn, zoom, getj, gets. rewrite put_js_id. reflexivity. }
  eapply wp_bind_ok; [reflexivity|].
  destruct (ck_spec _ _ _ _ _ _ _ _ (m_count s) HM) as (s1 & E1 & HM1 & Eck & Ec1 & Eg1 & Er1 & Ed1 & En1).
  eapply wp_bind_ok; [exact E1|].
  assert (Hfin : forall (app : MJ unit) d m,
    blen m = META_SIZE ->
    (forall n, K !! n = None -> 0 <= n < PAGE_NONE -> repr (<[n:=(d,m)]> K) n S) ->
    (aging -> forall d' v', d' = d -> hv <= v' -> K !! ph v' = None -> aged ph tv (<[ph v':=(d',m)]> K) (ph v') v') ->
    wp app (m_js s1) (app_post hv tv sv K D (m_js s1) (fun x => x = d) False m) ->
    wp (jn app) s1 (fun o s' => m_gcr s' = m_gcr s /\ m_count s' = m_count s /\
      match o with
      | OK _ => exists hv' sv' K' D' Sd', MI s' S Sd' hv' tv sv' K' D' /\ (Sd' = Sd \/ Sd' = S) /\ hv <= hv' /\
          (dirtyof s' = true -> sv' = sv /\ hv mod PC < hv' mod PC)
      | ER e => jerr (chip s') e /\ exists hv', MI s' S Sd hv' tv sv K D
      | ST x => x = Crash /\ exists Sd', (Sd' = Sd \/ Sd' = S) /\ CI (chip s') Sd'
      end)).
  { intros app d m Hm Hr Hold Happ. eapply wp_mono.
    - eapply (append_MI s1 S Sd hv tv sv K D app (fun x => x = d) False m (fun _ => S)); [exact HM1|exact Hm| | |exact Hold|exact Happ].
      + intros _ _. rewrite Eck, Hc. done.
      + intros x n ->. apply Hr.
    - intros o s' (Eg & Ec & Ho). split; [congruence|]. split; [congruence|].
      destruct o as [[]|e|x].
      + destruct Ho as (d' & hv' & sv' & D' & Sd' & -> & Hle & Hal & HKn & Er & HM' & HSd & Hd).
        exists (nextv hv'), sv', (<[ph hv':=(d, m)]> K), D', Sd'. split; [exact HM'|]. split; [exact HSd|].
        pose proof (nextv_gt c hv'). split; [lia|]. intros Hdir. destruct (Hd Hdir) as [-> Hm2].
        split; [done|]. eapply nextv_slot; eauto. apply HM.
      + destruct Ho as (He & hv' & _ & HM'). split; [|by exists hv'].
        unfold jerr. naive_solver.
      + destruct Ho as (-> & Sd' & [->|(d' & -> & ->)] & HCI); (split; [done|]); eexists; eauto. }
  destruct (Z.eqb_spec (rootof s) PAGE_NONE) as [En|Hne].
  - pose proof (mi_rep _ _ _ _ _ _ _ _ HM) as Hr. rewrite En in Hr. pose proof (repr_none_empty _ _ Hr) as HS.
    eapply Hfin.
    + apply blen_ffs. unfold META_SIZE. lia.
    + intros n HKn Hnr. rewrite HS. apply repr_filler; [apply Hr|done].
    + intros _ d' v' _ _ _. apply aged_filler, get_id_ffs.
    + apply (enqueue_none_spec g c Hg weak Hdense). apply HM1.
  - destruct (r_root _ _ _ (mi_rep _ _ _ _ _ _ _ _ HM)) as [?|[[[d m] HK] _]]; [done|].
    pose proof (MI_reads _ _ _ _ _ _ _ _ HM1 _ _ _ HK) as Erd.
    eapply wp_bind_ok. { unfold jn, zoom. rewrite Erd, put_js_id. reflexivity. }
    assert (Hm : blen m = META_SIZE) by (eapply (r_kr _ _ _ (mi_rep _ _ _ _ _ _ _ _ HM)); eauto).
    eapply Hfin; [exact Hm| | |].
    + intros n HKn Hnr. eapply repr_copy_root; eauto. apply HM.
    + intros H0 d' v' -> Hv' HKn. destruct (age_use _ _ _ _ (mi_age _ _ _ _ _ _ _ _ HM) H0) as (v & Hv & Hr0).
      destruct (Hr0 Hne) as (_ & _ & Ha0). eapply (aged_copy ph tv K (rootof s)); [exact HK|exact HKn| | |exact Ha0]; [lia|].
      destruct (r_root _ _ _ (mi_rep _ _ _ _ _ _ _ _ HM)) as [?|[_ ?]]; [done|done].
    + eapply (copy_spec g c Hg weak Hdense); [apply HM1|exact HK|done].
Qed.

(** ** Writing *)
Definition wpost (s : ms) (S Sd : contents) (dst : Z) (P : bytes -> Prop) (ecc : Prop) {A} (o : out A) (s' : ms) : Prop :=
  m_gcr s' = m_gcr s /\
  match o with
  | OK _ => exists d Sd', P d /\ (Sd' = Sd \/ Sd' = S \/ Sd' = <[dst:=d]> S) /\ MX s' (<[dst:=d]> S) Sd'
  | ER e => (jerr (chip s') e \/ (e = E_ECC /\ ecc) \/
             (e = E_MAP_FULL /\ S !! dst = None /\ map_capacity s' <= Z.of_nat (size S))) /\
      exists Sd', (Sd' = Sd \/ Sd' = S) /\ MX s' S Sd'
  | ST x => x = Crash /\ exists Sd', (Sd' = Sd \/ Sd' = S \/ exists d, P d /\ Sd' = <[dst:=d]> S) /\ CI (chip s') Sd'
  end.

Definition appok (app : bytes -> MJ unit) (P : bytes -> Prop) (ecc : Prop) hv tv sv K D : Prop :=
  forall x nm, JI x hv tv sv K D -> blen nm = META_SIZE ->
    wp (app nm) x (app_post hv tv sv K D x P ecc nm).

Definition agc_ok (fuel : nat) (s : ms) (S Sd : contents) app P ecc : Prop :=
  wp (auto_gc fuel) s (fun o s' => gcpost s S Sd o s' /\
    match o with
    | OK _ => exists Sd' hv tv sv K D, (Sd' = Sd \/ Sd' = S) /\ MI s' S Sd' hv tv sv K D /\
        m_count s' = Z.of_nat (size S) /\ appok app P ecc hv tv sv K D
    | _ => True
    end).

Lemma capacity_lt s : map_capacity s < 4294967296.
Proof. unfold map_capacity. destruct (_ <=? _); [lia|]. apply w32_range. Qed.

Lemma MI_count s S Sd hv tv sv K D k : MI s S Sd hv tv sv K D -> MI (set_count k s) S Sd hv tv sv K D.
Proof. intros [? ? ? ? ? ?]. by split. Qed.

Lemma write_spec n fuel s S Sd dst app P ecc :
  MX s S Sd -> id_ok dst -> agc_ok fuel s S Sd app P ecc ->
  wp (write_loop (Datatypes.S n) fuel dst app) s (wpost s S Sd dst P ecc).
Proof.
  intros [Hc _] Hid Hagc. unfold agc_ok in Hagc. cbn [write_loop]. apply wp_bind, wp_gets.
  apply wp_bind. unfold prepare_write. apply wp_bind.
  eapply wp_mono; [exact Hagc|]. intros o s1 [[Eg1 Ho] Ho']. destruct o as [[]|e|x].
  2:{ split; [done|]. destruct Ho as [He H]. split; [by left|done]. }
  2:{ split; [done|]. destruct Ho as (-> & Sd' & H1 & H2). split; [done|]. exists Sd'. split; [|done]. tauto. }
  clear Ho. destruct Ho' as (Sd1 & hv & tv & sv & K & D & HS1 & HM1 & Hc1 & Happ).
  assert (Hul : blen uninit_meta = META_SIZE) by done.
  assert (0 <= dst < 2 ^ 32) as Hdr by (unfold id_ok, SECTOR_NONE in Hid; lia).
  destruct (trace_MI _ _ _ _ _ _ _ _ dst uninit_meta HM1 Hdr Hul) as (nm & Et & Hp).
  eapply wp_bind_ok; [exact Et|]. cbn [fst snd].
  pose proof (mi_rep _ _ _ _ _ _ _ _ HM1) as Hrep.
  assert (Hmid : forall s2, m_js s2 = m_js s1 -> m_gcr s2 = m_gcr s1 ->
     (forall d : bytes, m_count s2 = Z.of_nat (size (<[dst:=d]> S))) ->
    wp (let! cnt := gets m_count in ck_set_count cnt;;; ret nm) s2
      (fun o s' => match o with
       | OK a => wp (let! r := attempt (jn (app a)) in
           match r with
           | inr _ => ret tt
           | inl my_err => modify (set_count (m_count s));;; try_recover fuel my_err;;; write_loop n fuel dst app
           end) s' (wpost s S Sd dst P ecc)
       | ER e => wpost s S Sd dst P ecc (ER e : out unit) s'
       | ST x => wpost s S Sd dst P ecc (ST x : out unit) s'
       end)).
  { intros s2 Ej2 Eg2 Ec2.
    assert (HM2 : MI s2 S Sd1 hv tv sv K D).
    { destruct HM1 as [? ? ? ? ? ?]. split; rewrite ?Ej2, ?Eg2; auto. }
    apply wp_bind, wp_gets.
    destruct (ck_spec _ _ _ _ _ _ _ _ (m_count s2) HM2) as (s3 & E3 & HM3 & Eck & Ec3 & Eg3 & Er3 & Ed3 & En3).
    eapply wp_bind_ok; [exact E3|]. apply wp_ret, wp_bind, wp_attempt.
    eapply wp_mono.
    - eapply (append_MI s3 S Sd1 hv tv sv K D (app nm) P ecc nm (fun d => <[dst:=d]> S)); [exact HM3| | | | |].
      + apply Hp.
      + intros d _. rewrite Eck, (Ec2 d). done.
      + intros d n0 _ HKn Hnr. eapply repr_insert; eauto.
      + eapply age_path; [apply HM1|exact Hp].
      + apply Happ; [apply HM3|apply Hp].
    - intros o s4 (Eg4 & Ec4 & Ho). destruct o as [[]|e|x].
      + destruct Ho as (d & hv' & sv' & D' & Sd' & HP & Hle & Hal & HKn & Er & HM' & HSd & Hd).
        apply wp_ret. split; [congruence|]. exists d, Sd'. split; [done|]. split.
        { destruct HSd as [-> | ->]; [|by right; right]. destruct HS1 as [-> | ->]; auto. }
        split; [rewrite Ec4, Ec3; apply Ec2|].
        eexists _, _, _, _, _. exact HM'.
      + destruct Ho as (He & hv' & _ & HM').
        apply wp_bind, wp_modify, wp_bind. unfold wp. unfold try_recover.
        rewrite decide_True by (destruct He as [-> | [-> _]]; done).
        cbn [fst snd fail]. split; [by cbn; congruence|]. split.
        { destruct He as [-> | [-> He]]; [left; by left|right; by left]. }
        exists Sd1. split; [done|]. split; [by cbn|].
        eexists _, _, _, _, _. apply MI_count. exact HM'.
      + destruct Ho as (-> & Sd' & HSd & HCI). split; [congruence|]. split; [done|]. exists Sd'. split; [|done].
        destruct HSd as [-> | ?]; [|by right; right]. destruct HS1 as [-> | ->]; auto. }
  destruct (findp K (rootof s1) dst) as [cur|] eqn:Ef.
  - eapply wp_bind_ok; [reflexivity|]. apply Hmid; auto.
    intros d. rewrite Hc1. destruct (proj1 (findp_iff _ _ _ _ Hrep Hid)) as [d0 Hd0]; [by eexists|].
    by erewrite map_size_insert_Some by done.
  - pose proof (findp_None _ _ _ _ Hrep Ef) as HSn. pose proof (capacity_lt s1).
    apply wp_bind, wp_bind, wp_gets. destruct (Z.leb_spec (map_capacity s1) (m_count s1)) as [Hfull|Hfull].
    + apply wp_fail. split; [congruence|]. split; [right; right; rewrite <-Hc1; auto|].
      exists Sd1. split; [done|]. split; [done|]. eexists _, _, _, _, _. exact HM1.
    + apply wp_modify. apply Hmid; auto. intros d. cbn.
      rewrite map_size_insert_None by done. rewrite w32_small by lia. lia.
Qed.


Lemma agc_intro fuel s S Sd app P ecc : (1 <= fuel)%nat -> MX s S Sd ->
  (forall hv tv sv K D, appok app P ecc hv tv sv K D) -> agc_ok fuel s S Sd app P ecc.
Proof.
  intros Hf HM Happ. unfold agc_ok. eapply wp_mono; [by apply auto_gc_spec|].
  intros o s' H. split; [done|]. destruct H as [_ H]. destruct o; [|done|done].
  destruct H as (Sd' & HS & Hc & hv & tv & sv & K & D & HM'). exists Sd', hv, tv, sv, K, D.
  split_and!; auto.
Qed.

Lemma map_write_spec fuel s S Sd t d : (1 <= fuel)%nat -> MX s S Sd -> id_ok t -> blen d = page_size g ->
  wp (map_write fuel t d) s (wpost s S Sd t (fun x => x = d) False).
Proof.
  intros Hf HM Hid Hd. unfold map_write. destruct fuel as [|n]; [lia|].
  apply write_spec; auto. apply agc_intro; auto.
  intros hv tv sv K D x nm HJ Hnm. by apply (enqueue_data_spec g c Hg weak Hdense).
Qed.

Lemma map_copy_page_spec fuel s S Sd p t : (1 <= fuel)%nat -> MX s S Sd -> id_ok t -> 0 <= p < TT ->
  wp (map_copy_page fuel p t) s (wpost s S Sd t (fun x => blen x = page_size g) True).
Proof.
  intros Hf HM Hid Hd. unfold map_copy_page. destruct fuel as [|n]; [lia|].
  apply write_spec; auto. apply agc_intro; auto.
  intros hv tv sv K D x nm HJ Hnm. eapply wp_mono; [by apply (copy_any_spec g c Hg weak Hdense p)|].
  intros o x' Ho. unfold StepA.app_post in *. destruct o as [[]|e|y]; [|done|].
  - destruct Ho as (hv' & d & _ & Hdl & H). by exists hv', d.
  - destruct Ho as (-> & Ho). split; [done|]. destruct Ho as [?|(hv' & d & _ & Hdl & H)]; [by left|right; by exists hv', d].
Qed.

(** ** Clearing *)
Lemma clear_MI s S Sd hv tv sv K D : MI s S Sd hv tv sv K D ->
  exists s', jn journal_clear (set_count 0 s) = (OK tt, s') /\ MX s' ∅ Sd /\ chip s' = chip s /\ m_gcr s' = m_gcr s.
Proof.
  intros [HJ Hrep Hd Hcl Hgc Hag].
  destruct (clear_spec g c Hg weak _ _ _ _ _ _ HJ) as (x & E & HJ' & Er & En & Edd).
  unfold jn, zoom. cbn [m_js set_count]. rewrite E. eexists. split; [reflexivity|].
  unfold chip. cbn [m_js m_gcr put_js]. split; [|done]. split; [done|].
  exists hv, hv, sv, ∅, D. split; cbn [m_js m_gcr put_js]; [done| |done| |done|].
  - rewrite Er. apply repr_clear.
  - intros. congruence.
  - rewrite Er. apply age_none.
Qed.

Lemma size0 (S : contents) : Z.of_nat (size S) = 0 -> S = ∅.
Proof. intros H. apply map_size_empty_iff. lia. Qed.

Lemma map_clear_spec s S Sd : MX s S Sd ->
  exists s', map_clear s = (OK tt, s') /\ MX s' ∅ Sd /\ chip s' = chip s /\ m_gcr s' = m_gcr s.
Proof.
  intros [Hc (hv & tv & sv & K & D & HM)]. unfold map_clear, bind, gets.
  destruct (Z.eqb_spec (m_count s) 0) as [E|E]; cbn [negb].
  - exists s. rewrite Hc in E. pose proof (size0 _ E) as ->. split_and!; auto. split; [done|].
    by exists hv, tv, sv, K, D.
  - eapply clear_MI. exact HM.
Qed.

(** ** Trimming *)
Definition tpost (s : ms) (S Sd : contents) (t : Z) {A} (o : out A) (s' : ms) : Prop :=
  m_gcr s' = m_gcr s /\
  match o with
  | OK _ => exists Sd', (Sd' = Sd \/ Sd' = S \/ Sd' = delete t S) /\ MX s' (delete t S) Sd'
  | ER e => jerr (chip s') e /\ exists Sd', (Sd' = Sd \/ Sd' = S) /\ MX s' S Sd'
  | ST x => x = Crash /\ exists Sd', (Sd' = Sd \/ Sd' = S \/ Sd' = delete t S) /\ CI (chip s') Sd'
  end.

Lemma try_delete_spec s S Sd t : MX s S Sd -> 0 <= t < 2 ^ 32 ->
  wp (try_delete t) s (tpost s S Sd t).
Proof.
  intros [Hc (hv & tv & sv & K & D & HM)] Ht. unfold try_delete.
  assert (Hul : blen uninit_meta = META_SIZE) by done.
  destruct (trace_MI _ _ _ _ _ _ _ _ t uninit_meta HM Ht Hul) as (nm & Et & Hp).
  eapply wp_bind_ok; [exact Et|]. cbn beta iota.
  pose proof (mi_rep _ _ _ _ _ _ _ _ HM) as Hrep.
  destruct (findp K (rootof s) t) as [cur|] eqn:Ef; cbn beta iota.
  2:{ apply wp_ret. split; [done|]. exists Sd. split; [by left|].
      rewrite delete_notin by (by eapply findp_None). split; [done|]. by exists hv, tv, sv, K, D. }
  pose proof (findp_spec_id _ _ _ _ _ Hrep Ht Ef) as Hid.
  destruct (proj1 (findp_iff _ _ _ _ Hrep Hid)) as [d0 Hd0]; [by eexists|].
  assert (Hsz : size (delete t S) = pred (size S)) by (by eapply map_size_delete_Some).
  assert (Hpos : size S <> 0%nat).
  { intros E. apply map_size_empty_iff in E. subst S. by rewrite lookup_empty in Hd0. }
  pose proof (repr_size _ _ _ Hrep) as Hsz2.
  destruct (find_cousin 32 nm) as [[level q]|] eqn:Efc.
  - destruct (repr_delete _ _ _ _ _ _ _ Hrep Hp Hid Efc) as (dq & mq & HK & Hdl & Hins).
    pose proof (MI_reads _ _ _ _ _ _ _ _ HM _ _ _ HK) as Erd.
    eapply wp_bind_ok. { unfold jn, zoom. rewrite Erd, put_js_id. reflexivity. }
    fold (del_meta nm mq level).
    eapply wp_bind_ok; [reflexivity|].
    destruct (ck_spec _ _ _ _ _ _ _ _ (w32 (m_count s - 1)) HM) as (s1 & E1 & HM1 & Eck & Ec1 & Eg1 & Er1 & Ed1 & En1).
    eapply wp_bind_ok; [exact E1|]. apply wp_bind.
    assert (Hw : w32 (m_count s - 1) = Z.of_nat (size (delete t S))).
    { rewrite Hc, Hsz, w32_small by lia. lia. }
    eapply wp_mono.
    + eapply (append_MI s1 S Sd hv tv sv K D (journal_copy q (del_meta nm mq level)) (fun x => x = dq) False (del_meta nm mq level) (fun _ => delete t S)); [exact HM1|exact Hdl| | | |].
      * intros _ _. by rewrite Eck, Hw.
      * intros x n ->. apply Hins.
      * intros H0 d' v' -> Hv' HKn. destruct (age_use _ _ _ _ (mi_age _ _ _ _ _ _ _ _ HM) H0) as (v & Hv & Hr0).
        eapply (aged_delete ph tv K (rootof s) S t nm level q v); [exact Hrep|exact Hp|exact Hid|exact Efc|exact Hr0|exact HK|exact HKn|lia].
      * eapply (copy_spec g c Hg weak Hdense); [apply HM1|exact HK|done].
    + intros o s' (Eg & Ec & Ho). destruct o as [[]|e|x].
      * destruct Ho as (d' & hv' & sv' & D' & Sd' & -> & Hle & Hal & HKn & Er & HM' & HSd & Hd).
        apply wp_modify. split; [by cbn; congruence|]. exists Sd'. split; [naive_solver|].
        split; [cbn; by rewrite Ec, Ec1|]. eexists _, _, _, _, _. apply MI_count. exact HM'.
      * destruct Ho as (He & hv' & _ & HM'). split; [congruence|]. split; [unfold jerr; naive_solver|].
        exists Sd. split; [by left|]. split; [congruence|]. by eexists _, _, _, _, _.
      * destruct Ho as (-> & Sd' & [->|(d' & -> & ->)] & HCI); (split; [congruence|]); (split; [done|]); eexists; eauto.
  - pose proof (repr_delete_last _ _ _ _ _ Hrep Hp Hid Efc) as HE.
    apply wp_bind, wp_modify. destruct (clear_MI _ _ _ _ _ _ _ _ HM) as (s' & E & HM' & En & Eg).
    unfold wp. rewrite E. cbn [fst snd]. split; [done|]. exists Sd. split; [by left|]. by rewrite HE.
Qed.

Lemma map_trim_spec fuel s S Sd t : (1 <= fuel)%nat -> MX s S Sd -> 0 <= t < 2 ^ 32 ->
  wp (map_trim fuel t) s (tpost s S Sd t).
Proof.
  intros Hf HM Ht. unfold map_trim. destruct fuel as [|n]; [lia|]. cbn [trim_loop].
  apply wp_bind. eapply wp_mono; [by apply auto_gc_spec|].
  intros o s1 [Eg1 Ho]. destruct o as [[]|e|x].
  2:{ by split. }
  2:{ split; [done|]. destruct Ho as (-> & Sd' & H1 & H2). split; [done|]. exists Sd'. split; [|done]. tauto. }
  destruct Ho as (Sd1 & HS1 & HM1).
  apply wp_bind, wp_attempt. eapply wp_mono; [by apply try_delete_spec|].
  assert (HT : forall Sd2, Sd2 = Sd1 \/ Sd2 = S -> Sd2 = Sd \/ Sd2 = S).
  { intros ? [-> | ->]; [done|by right]. }
  intros o s2 [Eg2 Ho]. destruct o as [[]|e|x].
  - destruct Ho as (Sd2 & HS2 & HM2). apply wp_ret. split; [congruence|]. exists Sd2. split; [|done].
    destruct HS2 as [-> | [-> | ->]]; auto. destruct HS1 as [-> | ->]; auto.
  - destruct Ho as (He & Sd2 & HS2 & HM2). apply wp_bind. unfold wp.
    rewrite (try_recover_fail _ _ _ _ He). cbn [fst snd].
    split; [congruence|]. split; [done|]. exists Sd2. auto.
  - destruct Ho as (-> & Sd2 & HS2 & HC). split; [congruence|]. split; [done|]. exists Sd2. split; [|done].
    destruct HS2 as [-> | [-> | ->]]; auto. destruct HS1 as [-> | ->]; auto.
Qed.

(** ** Sync *)
Definition smeas (hv tv sv : Z) : Z := (sv / PB + NB) * PB - tv + (PC - 1 - hv mod PC).

Lemma smeas_ge s S Sd hv tv sv K D : MI s S Sd hv tv sv K D -> 2 <= smeas hv tv sv.
Proof.
  intros HM. unfold smeas. pose_geo. pose proof (lem slot_range hv).
  pose proof (mi_j _ _ _ _ _ _ _ _ HM) as [_ Hj _ _]. destruct Hj.
  pose proof (lem v_decomp hv). pose proof (lem off_range hv). unfold Geom.user in *.
  assert ((hv / PB + 1) * PB <= (sv / PB + NB) * PB) by (apply Z.mul_le_mono_nonneg_r; lia). lia.
Qed.

Lemma sync_loop_spec n : forall fuel s S Sd hv tv sv K D, MI s S Sd hv tv sv K D ->
  m_count s = Z.of_nat (size S) -> smeas hv tv sv < Z.of_nat n ->
  wp (sync_loop n fuel) s (fun o s' => gcpost s S Sd o s' /\ (o = OK tt -> MX s' S S)).
Proof.
  induction n as [|n IH]; intros fuel s S Sd hv tv sv K D HM Hc Hm.
  { pose proof (smeas_ge _ _ _ _ _ _ _ _ HM). lia. }
  cbn [sync_loop].
  eapply wp_bind_ok. { unfold jn, zoom, getj, gets. rewrite put_js_id. reflexivity. }
  destruct (dirtyof s) eqn:Edd.
  2:{ apply wp_ret. pose proof (mi_clean _ _ _ _ _ _ _ _ HM Edd) as ->. 
      assert (MX s S S). { split; [done|]. by exists hv, tv, sv, K, D. }
      split; [|done]. split; [done|]. exists S. split; [by left|done]. }
  destruct (peek_MI _ _ _ _ _ _ _ _ HM) as (s1 & tv1 & E1 & Hle & HM1 & Ec1 & Eg1 & En1 & Ed1).
  eapply wp_bind_ok; [exact E1|]. clear E1.
  assert (Hnext : forall s2 Sd2, (Sd2 = Sd \/ Sd2 = S) -> m_gcr s2 = m_gcr s -> m_count s2 = m_count s ->
     (exists hv' tv' sv' K' D', MI s2 S Sd2 hv' tv' sv' K' D' /\ 
        (dirtyof s2 = true -> smeas hv' tv' sv' < smeas hv tv sv)) ->
     wp (sync_loop n fuel) s2 (fun o s' => gcpost s S Sd o s' /\ (o = OK tt -> MX s' S S))).
  { intros s2 Sd2 HS2 Eg2 Ec2 (hv2 & tv2 & sv2 & K2 & D2 & HM2 & Hms).
    destruct (dirtyof s2) eqn:Ed2.
    - eapply wp_mono; [eapply (IH fuel _ _ _ _ _ _ _ _ HM2); [congruence|specialize (Hms eq_refl); lia]|].
      intros o s3 [H3 H3']. split; [|done]. by eapply gcpost_trans.
    - destruct n as [|n'].
      + pose proof (smeas_ge _ _ _ _ _ _ _ _ HM). lia.
      + cbn [sync_loop].
        eapply wp_bind_ok. { unfold jn, zoom, getj, gets. rewrite put_js_id. reflexivity. }
        rewrite Ed2. apply wp_ret. pose proof (mi_clean _ _ _ _ _ _ _ _ HM2 Ed2) as ->. 
        assert (MX s2 S S). { split; [congruence|]. by exists hv2, tv2, sv2, K2, D2. }
        split; [|done]. split; [done|]. exists S. split; [by right|done]. }
  apply wp_bind, wp_attempt.
  assert (Hbad : forall e s2, m_gcr s2 = m_gcr s -> m_count s2 = m_count s -> jerr (chip s2) e ->
     (exists hv' tv' sv' K' D', MI s2 S Sd hv' tv' sv' K' D') ->
     wp (try_recover fuel e;;; sync_loop n fuel) s2 (fun o s' => gcpost s S Sd o s' /\ (o = OK tt -> MX s' S S))).
  { intros e s2 Eg2 Ec2 He HM2. apply wp_bind. unfold wp.
    rewrite (try_recover_fail _ _ _ _ He). cbn [fst snd]. split; [|done].
    split; [congruence|]. split; [done|]. exists Sd. split; [by left|]. split; [congruence|done]. }
  destruct (Z.eqb_spec tv hv) as [Ethv|Hne].
  - rewrite Z.eqb_refl.
    eapply wp_mono; [apply (pad_queue_spec _ _ _ _ _ _ _ _ HM1); congruence|].
    intros o s2 (Eg2 & Ec2 & Ho). destruct o as [[]|e|x].
    + destruct Ho as (hv2 & sv2 & K2 & D2 & Sd2 & HM2 & HS2 & Hle2 & Hp).
      apply (Hnext s2 Sd2); [done|congruence|congruence|].
      exists hv2, tv1, sv2, K2, D2. split; [done|]. intros Hd. destruct (Hp Hd) as [-> Hlt].
      unfold smeas. lia.
    + destruct Ho as (He & hv2 & HM2). apply Hbad; [congruence|congruence|done|].
      by exists hv2, tv1, sv, K, D.
    + destruct Ho as (-> & Sd' & HS & HCI). split; [|done]. split; [congruence|]. split; [done|]. by exists Sd'.
  - destruct (Z.eqb_spec (ph tv1) PAGE_NONE) as [E|_]; [pose proof (ph_pn tv1); lia|].
    apply wp_bind.
    eapply wp_mono; [apply (raw_gc_spec _ _ _ _ _ _ _ _ HM1); congruence|].
    intros o s2 (Eg2 & Ec2 & Ho). destruct o as [[]|e|x].
    + destruct Ho as (hv2 & sv2 & K2 & D2 & Sd2 & HM2 & HS2 & Hle2 & Hf & Hp).
      destruct (dequeue_any _ _ _ _ _ _ _ _ HM2 Hf) as (s3 & E3 & En3 & Eg3 & Ec3 & Ed3 & tv3 & sv3 & K3 & D3 & HM3 & Hs3 & Ht3 & Ht3').
      unfold wp at 1. rewrite E3. cbn [fst snd].
      apply (Hnext s3 Sd2); [done|congruence|congruence|].
      exists hv2, tv3, sv3, K3, D3. split; [done|]. intros Hd. rewrite Ed3 in Hd.
      destruct (Hp Hd) as (-> & Hlt & _). rewrite (Hs3 Hd).
      assert (tv < tv3). { destruct (Z.eq_dec tv1 tv) as [->|]; [|lia]. apply Ht3'. lia. }
      unfold smeas. lia.
    + destruct Ho as (He & hv2 & HM2). apply Hbad; [congruence|congruence|done|].
      by exists hv2, tv1, sv, K, D.
    + destruct Ho as (-> & Sd' & HS & HCI). split; [|done]. split; [congruence|]. split; [done|]. by exists Sd'.
Qed.

(** Enough loop iterations for any reachable state. *)
Definition enough (fuel : nat) : Prop := TT + PC <= Z.of_nat fuel.

Lemma map_sync_spec fuel s S Sd : enough fuel -> MX s S Sd ->
  wp (map_sync fuel) s (fun o s' => gcpost s S Sd o s' /\ (o = OK tt -> MX s' S S)).
Proof.
  intros Hf [Hc (hv & tv & sv & K & D & HM)]. unfold map_sync. eapply sync_loop_spec; eauto.
  pose_geo. pose proof (mi_j _ _ _ _ _ _ _ _ HM) as [_ Hj _ _]. destruct Hj.
  unfold enough in Hf. unfold smeas. pose proof (lem slot_range hv).
  pose proof (lem v_decomp sv). pose proof (lem off_range sv). unfold Geom.TT in Hf.
  rewrite Z.mul_add_distr_r. lia.
Qed.

End mapstep.
