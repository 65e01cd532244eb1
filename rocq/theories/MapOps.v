(** Resume, reads, copies, and single steps of the map interface. *)
From stdpp Require Import gmap fin_maps.
From Verif Require Import Base Bytes BytesLemmas Wp Nand Journal MapModel Api Geom Tree Rep Age Inv Hdr StepDI StepNand StepJ StepA StepR StepS StepG Resume MapStep.
Local Open Scope Z_scope.

Section mapops.
Context (g : geo) (c : Z) (Hg : geo_ok g c) (weak : Z -> bool) (Hdense : dense g weak) {Ag : Aging}.
Notation PB := (PB g).
Notation PC := (PC c).
Notation NB := (NB g).
Notation TT := (TT g).
Notation GP := (GP g c).
Notation ph := (ph g).
Notation user := (user c).
Notation nextv := (nextv c).
Notation cpv := (cpv c).
Notation cellv := (cellv g).
Notation badv := (badv g).
Notation cell_ep := (cell_ep g).
Notation blk_ep := (blk_ep g c).
Notation fcp := (fcp g c).
Notation epo := (epo g).
Notation moff := (moff c).
Notation kmeta := (kmeta g c).
Notation kd_ok := (kd_ok g c).
Notation DI := (DI g c).
Notation nok := (nok g weak).
Notation JInv := (JInv g c).
Notation JI := (JI g c weak).

Ltac pose_geo :=
  pose proof (PC_ge _ _ Hg) as HPC4; pose proof (PC_le _ _ Hg) as HPC256;
  pose proof (PB_pos _ _ Hg) as HPB4; pose proof (PB_ge _ _ Hg) as HPBC;
  pose proof (NB_ge _ _ Hg) as HNB8; pose proof (TT_le _ _ Hg) as HTT31;
  pose proof (TT_pos _ _ Hg) as HTTpos; pose proof (GP_ge _ _ Hg) as HGP1;
  pose proof (PB_def _ _ Hg) as HPBdef.
Notation "'lem' x" := (x g c Hg) (at level 9, x at level 8, only parsing).
Notation crashed := (crashed g c weak).
Notation app_post := (app_post g c weak).
Notation contents := (gmap Z bytes).
Local Opaque lk lkv wf wfv pa meta_get_id meta_get_alt.
Notation dskrep := (dskrep g).
Notation CI := (CI g c weak).
Notation MI := (MI g c weak).
Notation MX := (MX g c weak).
Notation enough := (enough g c).
Notation rootof s := (j_root (js_j (m_js s))).
Notation dirtyof s := (j_dirty (js_j (m_js s))).

Lemma repr_filler' K n d m : kr K -> 0 <= n < PAGE_NONE -> blen m = META_SIZE -> meta_get_id m = SECTOR_NONE ->
  repr (<[n:=(d, m)]> K) n ∅.
Proof.
  intros Hk Hn Hm Hid.
  assert (Hkid : kid (<[n:=(d, m)]> K) n = SECTOR_NONE).
  { unfold kid, km. by rewrite lookup_insert. }
  split.
  - by apply kr_insert.
  - right. split; [rewrite lookup_insert; by eexists|by left].
  - intros t. rewrite lookup_empty. destruct (decide (id_ok t)); [|done].
    unfold findp. rewrite Hkid, Z.eqb_refl. by destruct (n =? PAGE_NONE).
Qed.

(** What the chip holds determines a map after power-up. *)
Lemma MX_CI s S Sd : MX s S Sd -> CI (chip s) Sd.
Proof.
  intros [_ (hv & tv & sv & K & D & HM)]. exists D. split; [|apply HM].
  destruct (mi_j _ _ _ _ _ _ _ _ _ _ _ HM) as [? ? ? ?]. split; [done|]. by exists hv, sv.
Qed.

Definition gcr_of (x : Z) : Z := if w8 x =? 0 then 1 else w8 x.
Lemma gcr_of_range x : 1 <= gcr_of x <= 255.
Proof. unfold gcr_of. pose proof (w8_range x). destruct (Z.eqb_spec (w8 x) 0); lia. Qed.

Lemma age_resume x hv tv K D S d m : JI x hv tv tv K (Dk D K) -> 0 <= cv D ->
  repr K (ph (cv D - 1)) S -> K !! ph (cv D - 1) = Some (d, m) ->
  (aging -> aged ph (tdv D) K (ph (cv D - 1)) (cv D - 1)) -> age_ok g tv hv K (ph (cv D - 1)).
Proof.
  intros [_ _ HD _] Hcv Hr HK Ho H0. right. destruct (d_td _ _ _ _ _ _ HD Hcv) as (T1 & T2 & T3 & T4).
  cbn [Dk cv tdv] in *.
  assert (Hlo : forall u, tdv D <= u < cv D -> is_Some (K !! ph u) -> tv <= u).
  { intros u Hu [[d' m'] Hk]. destruct (d_K _ _ _ _ _ _ HD _ _ _ Hk) as (_ & w & [] & _). cbn [Dk cv] in *.
    assert (u = w) as ->; [|lia].
    pose proof (lem blk_le (tdv D) u ltac:(lia)). pose proof (lem blk_le (tdv D) w ltac:(lia)).
    pose proof (lem blk_le u (cv D) ltac:(lia)). pose proof (lem blk_le w (cv D) ltac:(lia)).
    apply (lem win_page (cv D / PB)); [lia|lia|congruence]. }
  exists (cv D - 1). split; [|split; [done|]].
  - split; [|pose proof (d_cvh _ _ _ _ _ _ HD) as Hh; cbn [Dk cv] in Hh; lia].
    apply Hlo; [lia|]. by eexists.
  - eapply (aged_frame ph (tdv D) tv (cv D) K K (ph (cv D - 1)) S); [exact Hr| |by apply Ho|lia|done|done|exact Hlo].
    pose proof (ph_pn g c Hg (cv D - 1)). lia.
Qed.
Local Opaque age_ok.

Lemma restart_none n D gcr junk : crashed n D -> cv D = -1 -> choose_ppc (g_lps g) (g_lppb g) = c ->
  exists s, snd (restart gcr junk n) = s /\ MX s ∅ ∅ /\ m_gcr s = gcr_of gcr /\ chip s = n /\
    fst (restart gcr junk n) = ER E_TOO_BAD.
Proof.
  intros [Hn (hv & sv & HD)] Hcv Hc. unfold restart, map_resume, map_init.
  set (s0 := Ms _ _ _).
  assert (Ec : j_ppc (js_j (m_js s0)) = c). { cbn. by rewrite (nk_geo _ _ _ Hn). }
  assert (En : js_n (m_js s0) = n) by done.
  destruct (resume_none g c Hg weak (m_js s0) hv sv D) as (x & E & Ex & HJ & Er & Edd & HK); auto.
  unfold bind, attempt, jn, zoom. rewrite E.
  exists (set_count 0 (put_js x s0)). split; [reflexivity|]. cbn [snd fst set_count put_js m_gcr m_js chip]. split; [|done].
  split; [done|]. exists 0, 0, 0, ∅, D. split; cbn [m_js m_gcr set_count put_js].
  - exact HJ.
  - rewrite Er. apply repr_clear.
  - by left.
  - done.
  - apply gcr_of_range.
  - rewrite Er. apply age_none.
Qed.

Lemma restart_spec (Hc2 : 2 <= c) n Sd gcr junk : CI n Sd -> choose_ppc (g_lps g) (g_lppb g) = c ->
  exists s, snd (restart gcr junk n) = s /\ MX s Sd Sd /\ m_gcr s = gcr_of gcr /\ chip s = n /\
    (fst (restart gcr junk n) = OK tt \/ (fst (restart gcr junk n) = ER E_TOO_BAD /\ Sd = ∅)).
Proof.
  intros (D & HC & Hrep) Hc.
  destruct (decide (cv D = -1)) as [Hcv|Hcv].
  { destruct Hrep as [[_ ->]|(Hcv' & _)]; [|lia].
    destruct (restart_none n D gcr junk HC Hcv Hc) as (s & H1 & H2 & H3 & H4 & H5). exists s. tauto. }
  destruct HC as [Hn (hv & sv & HD)]. unfold restart, map_resume, map_init.
  set (s0 := Ms _ _ _).
  assert (Ec : j_ppc (js_j (m_js s0)) = c). { cbn. by rewrite (nk_geo _ _ _ Hn). }
  assert (En : js_n (m_js s0) = n) by done.
  assert (Eb : blen (j_buf (js_j (m_js s0))) = page_size g).
  { cbn. rewrite (nk_geo _ _ _ Hn). apply blen_ffs. pose proof (page_size_pos g c Hg). lia. }
  destruct Hrep as [[Hcv2 ->]|(Hcv2 & Hck & Hrep)]; [done|].
  - destruct (resume_some g c Hg weak Hdense Hc2 (m_js s0) hv sv D) as (x & hv' & tv' & d0 & E & Ex & (HJ & HK) & Er & Edd & Eck); auto.
    set (K' := <[ph (cv D - 1) := (d0, rmd D)]> (Kd D)) in *.
    assert (Hr : repr K' (ph (cv D - 1)) Sd).
    { destruct Hrep as [([d HKd] & Hr & _)|(-> & Hkr & Hid & Hl)].
      - pose proof (lookup_weaken _ _ _ _ HKd HK) as H1. unfold K' in H1. rewrite lookup_insert in H1.
        injection H1 as ->. unfold K'. by rewrite insert_id.
      - apply repr_filler'; auto. apply (ph_pn g c Hg). }
    assert (Hold0 : aging -> aged ph (tdv D) K' (ph (cv D - 1)) (cv D - 1)).
    { intros H0. destruct Hrep as [([d HKd] & _ & Ho)|(-> & Hkr & Hid & Hl)].
      - pose proof (lookup_weaken _ _ _ _ HKd HK) as H1. unfold K' in H1. rewrite lookup_insert in H1.
        injection H1 as ->. unfold K'. rewrite insert_id by done. by apply Ho.
      - unfold K'. by apply aged_filler. }
    unfold bind, attempt, jn, zoom. rewrite E. unfold ck_get_count, jn, zoom, bind.
    cbn [m_js put_js].
    assert (Ebg : buf_get HEADER_SIZE COOKIE_SIZE x = (OK (szc Sd), x)).
    { unfold buf_get. pose proof (JI_j _ _ _ _ _ _ _ _ _ HJ) as Hj. rewrite (ji_buf _ _ _ _ _ _ _ Hj).
      destruct (moff_fit g c Hg 0) as [Hf1 Hf2]. { unfold Geom.user. rewrite Z.mod_0_l by (pose_geo; lia). pose_geo. lia. }
      unfold META_SIZE in *.
      replace (0 <=? HEADER_SIZE) with true by done.
      rewrite (proj2 (Z.leb_le _ _)) by lia. cbn [andb]. rewrite <-Hck, <-Eck. done. }
    rewrite Ebg.
    exists (set_count (r32 (szc Sd)) (put_js x s0)). split; [reflexivity|]. cbn [snd fst set_count put_js m_gcr m_js chip]. split; [|split; [done|split; [done|by left]]].
    split.
    { cbn [m_count set_count]. unfold szc. rewrite r32_w32_bytes. apply w32_small.
      pose proof (repr_size _ _ _ Hr). lia. }
    exists hv', tv', tv', K', (Dk D K'). split; cbn [m_js m_gcr set_count put_js].
    + exact HJ.
    + by rewrite Er.
    + right. cbn [Dk cv ckd rmd Kd]. split; [done|]. split; [done|]. left. split; [|done].
      exists d0. apply lookup_insert.
    + done.
    + apply gcr_of_range.
    + rewrite Er. eapply age_resume; [exact HJ|exact Hcv2|exact Hr|apply lookup_insert|exact Hold0].
Qed.

(** ** Reading *)
Lemma find_spec s S Sd t : MX s S Sd -> 0 <= t < 2 ^ 32 ->
  (S !! t = None /\ map_find t s = (ER E_NOT_FOUND, s)) \/
  (exists d v, S !! t = Some d /\ map_find t s = (OK (ph v), s) /\ user v /\
     n_bad (chip s) (ph v / PB) = false /\ nand_read (ph v) 0 (page_size g) (chip s) = (OK d, chip s)).
Proof.
  intros [_ (hv & tv & sv & K & D & HM)] Ht. unfold map_find.
  assert (Hul : blen uninit_meta = META_SIZE) by done.
  destruct (trace_MI g c Hg weak _ _ _ _ _ _ _ _ t uninit_meta HM Ht Hul) as (nm & Et & Hp).
  pose proof (mi_rep _ _ _ _ _ _ _ _ _ _ _ HM) as Hrep.
  unfold bind. rewrite Et. cbn [fst].
  destruct (findp K (rootof s) t) as [p|] eqn:Ef.
  - right. pose proof (findp_spec_id _ _ _ _ _ Hrep Ht Ef) as Hid.
    destruct (findp_Some _ _ _ _ _ Hrep Hid Ef) as (E1 & [[d m] HK] & E3).
    pose proof (mi_j _ _ _ _ _ _ _ _ _ _ _ HM) as [Hn Hj _ _].
    destruct (ji_K _ _ _ _ _ _ _ Hj _ _ _ HK) as (v & [Hv Hu Hpv Hb Hd] & Hdl & _). subst p.
    exists d, v. split; [rewrite E3; unfold kdata; by rewrite HK|]. split; [done|]. split; [done|].
    split. { rewrite (lem ph_blk). exact Hb. }
    unfold chip. rewrite (read_spec g c Hg) by (first [apply Hn|pose proof (page_size_pos g c Hg); lia]).
    rewrite Hd. unfold slice. cbn. rewrite drop_0. rewrite take_ge; [done|]. unfold blen in Hdl. lia.
  - left. split; [by eapply findp_None|done].
Qed.

Lemma read_map_spec s S Sd t : MX s S Sd -> 0 <= t < 2 ^ 32 ->
  map_read t s = (OK (default (ffs (page_size g)) (S !! t)), s).
Proof.
  intros HM Ht. pose proof HM as [_ (hv & tv & sv & K & D & HM')].
  pose proof (mi_j _ _ _ _ _ _ _ _ _ _ _ HM') as [Hn _ _ _].
  unfold map_read, bind, getg, jn, zoom, gets, attempt. rewrite put_js_id.
  rewrite (nk_geo _ _ _ Hn).
  destruct (find_spec _ _ _ _ HM Ht) as [[HS E]|(d & v & HS & E & _ & _ & Er)]; rewrite E, HS.
  - done.
  - unfold io, zoom. change (js_n (m_js s)) with (chip s). rewrite Er. cbn. 
    unfold chip. destruct s as [[n j] r k]. done.
Qed.

(** Different sectors live in different pages. *)
Lemma find_inj s S Sd t u p s1 s2 : MX s S Sd -> 0 <= t < 2 ^ 32 -> 0 <= u < 2 ^ 32 ->
  map_find t s = (OK p, s1) -> map_find u s = (OK p, s2) -> t = u.
Proof.
  intros [_ (hv & tv & sv & K & D & HM)] Ht Hu. unfold map_find, bind.
  assert (Hul : blen uninit_meta = META_SIZE) by done.
  destruct (trace_MI g c Hg weak _ _ _ _ _ _ _ _ t uninit_meta HM Ht Hul) as (nm & Et & _).
  destruct (trace_MI g c Hg weak _ _ _ _ _ _ _ _ u uninit_meta HM Hu Hul) as (nm' & Eu & _).
  rewrite Et, Eu. cbn [fst]. pose proof (mi_rep _ _ _ _ _ _ _ _ _ _ _ HM) as Hrep.
  destruct (findp K (rootof s) t) as [p1|] eqn:E1; [|done].
  destruct (findp K (rootof s) u) as [p2|] eqn:E2; [|done].
  intros [= -> _] [= -> _].
  pose proof (findp_spec_id _ _ _ _ _ Hrep Ht E1) as Hi1.
  pose proof (findp_spec_id _ _ _ _ _ Hrep Hu E2) as Hi2.
  destruct (findp_Some _ _ _ _ _ Hrep Hi1 E1) as (<- & _).
  destruct (findp_Some _ _ _ _ _ Hrep Hi2 E2) as (<- & _). done.
Qed.

(** Copies when no automatic garbage collection is due. *)
Definition no_gc_due (s : ms) : Prop :=
  journal_size (n_geo (chip s)) (js_j (m_js s)) < map_capacity s.

Lemma auto_gc_none fuel s : no_gc_due s -> auto_gc fuel s = (OK tt, s).
Proof.
  intros H. unfold auto_gc, bind, gets. unfold no_gc_due, chip in H.
  by rewrite (proj2 (Z.ltb_lt _ _) H).
Qed.

Lemma copy_live_spec fuel s S Sd a b d p : (1 <= fuel)%nat -> MX s S Sd -> id_ok b -> 0 <= a < 2 ^ 32 ->
  no_gc_due s -> S !! a = Some d -> map_find a s = (OK p, s) ->
  wp (map_copy_page fuel p b) s (wpost g c weak s S Sd b (fun x => x = d) False).
Proof.
  intros Hf HM Hb Ha Hng HS Hfd. unfold map_copy_page. destruct fuel as [|n]; [lia|].
  apply (write_spec g c Hg weak); auto. unfold agc_ok, wp. rewrite auto_gc_none by done. cbn [fst snd].
  split; [split; [done|exists Sd; split; [by left|done]]|].
  pose proof HM as [Hc (hv & tv & sv & K & D & HM')]. exists Sd, hv, tv, sv, K, D.
  split; [by left|]. split; [done|]. split; [done|].
  intros x nm HJ Hnm. revert Hfd. unfold map_find, bind.
  assert (Hul : blen uninit_meta = META_SIZE) by done.
  destruct (trace_MI g c Hg weak _ _ _ _ _ _ _ _ a uninit_meta HM' Ha Hul) as (nm0 & Et & _).
  rewrite Et. cbn [fst]. pose proof (mi_rep _ _ _ _ _ _ _ _ _ _ _ HM') as Hrep.
  destruct (findp K (rootof s) a) as [p1|] eqn:E1; [|done]. intros [= ->].
  pose proof (findp_spec_id _ _ _ _ _ Hrep Ha E1) as Hi1.
  destruct (findp_Some _ _ _ _ _ Hrep Hi1 E1) as (_ & [[d' m] HK] & E3).
  unfold kdata in E3. rewrite HK in E3. cbn in E3. assert (d' = d) as -> by congruence.
  by eapply (copy_spec g c Hg weak Hdense).
Qed.

End mapops.
