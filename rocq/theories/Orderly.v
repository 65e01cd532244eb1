(** Space: the journal never fills up if power goes away only after a sync (C58).
    Nothing here models code; the model is Journal.v and MapModel.v. *)
From stdpp Require Import gmap fin_maps.
From Verif Require Import Base Bytes BytesLemmas Wp Nand Journal MapModel Api Geom Tree Rep Age Inv Hdr StepDI StepNand StepJ StepA StepR StepS StepG Resume MapStep MapOps Spec Ppc History Props Quiet Cnt Bb Ckpt Nojunk Space Room.
Local Open Scope Z_scope.

(** ** Specification *)

(** A history in which the power goes away only right after a [dhara_map_sync]
    that succeeded (or right after power-up), and the GC ratio stays the same:
    [synced] tells whether the last call was one. *)
Fixpoint orderly (gcr : Z) (synced : bool) (h : list hop) (rs : list (out resp)) : Prop :=
  match h, rs with
  | HReset gcr' _ :: h, _ :: rs => synced = true /\ ratio gcr' = ratio gcr /\ orderly gcr true h rs
  | HOp OSync :: h, OK _ :: rs => orderly gcr true h rs
  | HOp _ :: h, _ :: rs => orderly gcr false h rs
  | _, _ => True
  end.

(** ** Proofs *)
Section orderly.
Context (g : geo) (c : Z) (Hg : geo_ok2 g c) (weak : Z -> bool) (Hdense : dense g weak) {Ag : Aging}.
Context (Hch : choose_ppc (g_lps g) (g_lppb g) = c).
Context (fb : Z -> bool) (e0 E1 r Mx X : Z) (nj : Prop).
Notation PB := (PB g).
Notation PC := (PC c).
Notation NB := (NB g).
Notation TT := (TT g).
Notation ph := (ph g).
Notation cellv := (cellv g).
Notation badv := (badv g).
Notation MI := (MI g c weak).
Notation BBI := (BBI g c weak fb e0 E1).
Notation mcap := (mcap g c r).
Notation upb := (upbk g c).
Notation contents := (gmap Z bytes).
Notation rootof s := (j_root (js_j (m_js s))).
Notation dirtyof s := (j_dirty (js_j (m_js s))).
Notation "'lem' x" := (x g c Hg) (at level 9, x at level 8, only parsing).
Ltac pose_geo :=
  pose proof (PC_ge4 _ (go2_c _ _ Hg)) as HPC4; pose proof (PC_le _ _ Hg) as HPC256;
  pose proof (PB_pos _ _ Hg) as HPB4; pose proof (PB_ge _ _ Hg) as HPBC;
  pose proof (NB_ge _ _ Hg) as HNB8; pose proof (TT_le _ _ Hg) as HTT31;
  pose proof (TT_pos _ _ Hg) as HTTpos; pose proof (GP_ge _ _ Hg) as HGP1;
  pose proof (PB_def _ _ Hg) as HPBdef.
Let R := r + 1.
Let W := cnt weak 0 NB.
Context (He0 : e0 <= cnt fb 0 NB) (HE1 : W <= E1) (He0p : 0 <= e0) (HE1N : E1 < NB) (Hr : 1 <= r <= 255).
Context (HMx : mcap e0 <= Mx).
Context (H1 : R * (Mx + 1) + X + 1 <= R * X) (H2 : 3 <= X) (H3 : X + PC - 2 < (NB - 2 - W) * upb).
Local Opaque lk lkv wf wfv pa meta_get_id meta_get_alt age_ok.

Notation SPQ Q := (SP g c weak fb e0 E1 r Mx X Q nj).
Definition up (Q : nand -> Prop) (n : nand) : Prop := forall gcr junk, gcr_of gcr = r ->
  chip (snd (restart gcr junk n)) = n /\ exists S, SPQ Q (snd (restart gcr junk n)) S (R * X).
Definition Qn : nand -> Prop := up (fun _ => True).

Lemma SP_dirty Q s S y : SPQ Q s S y -> dirtyof s = false -> Q (chip s).
Proof. intros (Sd & hv & tv & sv & K & D & sk & HS). apply HS. Qed.
Lemma SP_weaken (Q Q' : nand -> Prop) s S y : SPQ Q s S y -> (dirtyof s = false -> Q' (chip s)) -> SPQ Q' s S y.
Proof. intros (Sd & hv & tv & sv & K & D & sk & []) H. exists Sd, hv, tv, sv, K, D, sk. by split. Qed.
Lemma SP_up s S : SPQ (fun _ => True) s S (R * X) -> Qn (chip s) -> SPQ Qn s S (R * X).
Proof. intros H Hq. eapply SP_weaken; [exact H|done]. Qed.

Lemma bb_resume s x v cd : BBI (m_js s) -> js_n x = js_n (m_js s) -> j_ppc (js_j x) = c -> v mod PC = PC - 1 ->
  rootof s = ph (v - 1) -> ckh g weak fb e0 E1 (m_js s) -> cellv (js_n x) v = Data cd -> j_head (js_j x) = ph (v + 1) ->
  j_recov (js_j x) = false -> j_enum (js_j x) = false ->
  (if ph (v + 1) =? 0 then j_bbc (js_j x) = 0 /\ j_bbl (js_j x) = hdr_get_bb_current cd
       else j_bbc (js_j x) = hdr_get_bb_current cd /\ j_bbl (js_j x) = hdr_get_bb_last cd) -> BBI x.
Proof.
  intros [H0 _] En Ep Hv Er (d & Hd & Hl & Hf & Hc) Hcd Ehd Erc Ee Hbb. pose_geo.
  destruct (divmod_add PC v (-1)) as [Eg Em]; [lia|lia|].
  replace (v + -1) with (v - 1) in Eg, Em by lia.
  assert (Eb : (v - 1) / PB = v / PB) by (by apply (lem grp_blk)).
  assert (Ep1 : ph v = ph (v - 1) + 1).
  { replace v with ((v - 1) + 1) at 1 by lia. apply (lem ph_add).
    pose proof (lem v_decomp (v - 1)). pose proof (lem v_decomp v). pose proof (lem off_range v). pose proof (lem off_range (v - 1)). rewrite Eb in *. lia. }
  assert (d = cd) as ->.
  { unfold Inv.cellv in Hcd. rewrite Ep1, <-Er, En in Hcd. rewrite Hd in Hcd. congruence. }
  set (h := rootof s / PB) in *.
  assert (Eh : h = ph v / PB) by (unfold h; rewrite Er, !(lem ph_blk); by rewrite Eb).
  pose proof (lem ph_range v) as Hpr.
  assert (Hh : 0 <= h < NB) by (rewrite Eh, (lem ph_blk); apply Z.mod_pos_bound; lia).
  assert (Enext : ph (v + 1) = 0 /\ ph v = TT - 1 \/ ph (v + 1) = ph v + 1 /\ ph v + 1 < TT).
  { unfold Geom.ph in *. rewrite <-Zplus_mod_idemp_l. destruct (Z.eq_dec (v mod TT) (TT - 1)) as [->|].
    - left. split; [|done]. replace (TT - 1 + 1) with TT by lia. apply Z.mod_same. lia.
    - right. rewrite Z.mod_small by lia. lia. }
  pose proof (lem v_decomp (ph v)) as Hdec. pose proof (lem off_range (ph v)) as Hoff. rewrite <-Eh in Hdec.
  split; [split|].
  - pose proof (bi_n _ _ _ _ _ _ _ H0) as []. rewrite En. by split.
  - done.
  - rewrite Ehd. apply (lem ph_range).
  - rewrite Ehd. unfold Geom.user. rewrite (lem ph_slot).
    assert ((v + 1) mod PC = 0) as ->; [|lia].
    rewrite <-Zplus_mod_idemp_l, Hv. replace (PC - 1 + 1) with PC by lia. apply Z.mod_same. lia.
  - done.
  - done.
  - destruct (Z.eqb_spec (ph (v + 1)) 0) as [Hz|Hz]; destruct Hbb as [Hb1 ->]; [|done].
    assert (Hhl : h = NB - 1). { destruct Enext as [[_ E]|[E1' _]]; [|lia]. unfold Geom.TT in E. fold NB in E. fold PB in E. nia. }
    rewrite Hhl in *. split; [|etrans; [apply Hc|]; etrans; [|exact HE1]; apply cnt_sub; lia].
    etrans; [exact He0|]. rewrite (cnt_split fb 0 (NB - 1) NB) by lia. replace NB with (NB - 1 + 1) at 3 by lia. rewrite cnt_one, Hf. lia.
  - unfold bbr, hb. rewrite Ehd. destruct (Z.eqb_spec (ph (v + 1)) 0) as [Hz|Hz]; destruct Hbb as [-> Hb1].
    { rewrite Hz, Z.div_0_l by lia. rewrite !cnt_empty by lia. lia. }
    destruct Enext as [[E _]|[-> Hlt]]; [done|].
    assert (Hcase : (ph v + 1) / PB = h \/ (ph v + 1) / PB = h + 1).
    { destruct (Z.eq_dec (ph v mod PB) (PB - 1)) as [E|E].
      - right. replace (ph v + 1) with ((h + 1) * PB) by lia. apply Z.div_mul. lia.
      - left. symmetry. apply (Z.div_unique _ _ _ (ph v mod PB + 1)); lia. }
    destruct Hcase as [->| ->]; [done|].
    rewrite (cnt_split fb 0 h (h + 1)), cnt_one, Hf by lia. split; [lia|]. etrans; [apply Hc|]. apply cnt_sub; lia.
Qed.

Lemma ck_resume s S hv tv K D sk : MI s S S hv tv tv K D -> ck1 g weak fb e0 E1 s hv tv K D -> BBI (m_js s) -> (nj -> J2 g (m_js s)) ->
  (forall b, sk b = true -> b < hv / PB /\ badv (chip s) b = true) -> (tv mod PB <> 0 -> sk (tv / PB) = false) ->
  (S = ∅ -> cnt (good g c sk) tv hv <= 1) -> Z.of_nat (size S) <= Mx ->
  pot R (good g c sk) (live g K (rootof s)) tv hv (R * X) -> Qn (chip s).
Proof.
  intros HM HC HB HJ2 Hsk Htv He Hsz Hpot gcr junk Hgcr. pose_geo.
  pose proof HM as [HJ Hrep Hdsk _ _ _]. pose proof HJ as [Hn Hj HD _].
  pose proof HC as [C0 Ccv Ctd CK [d Cm] Cr Ch].
  change (js_n (m_js s)) with (chip s) in *. set (n := chip s) in *.
  unfold restart, map_resume, map_init.
  set (s0 := Ms _ _ _).
  assert (Ec : j_ppc (js_j (m_js s0)) = c). { cbn. by rewrite (nk_geo _ _ _ Hn). }
  assert (En : js_n (m_js s0) = n) by done.
  assert (Eb : blen (j_buf (js_j (m_js s0))) = page_size g).
  { cbn. rewrite (nk_geo _ _ _ Hn). apply blen_ffs. pose proof (page_size_pos g c Hg). lia. }
  destruct Hdsk as [[Hcv _]|(Hcv & Hck & Hdr)]; [lia|].
  destruct (resume_some' g c Hg weak Hdense (go2_c _ _ Hg) (m_js s0) hv tv D) as
    (x & hv' & tv' & d0 & E & Ex & (HJ' & HK) & Er & Edd & Eck & T1 & T2 & T3 & T4 & T5 & T6 & Hd0 & cd & Hcd & Hbb); auto.
  assert (hv' = hv) as -> by lia.
  rewrite CK in *.
  assert (d0 = d) as ->.
  { pose proof (lookup_weaken _ _ _ _ Cm HK) as H4. rewrite lookup_insert in H4. congruence. }
  rewrite (insert_id K) in * by done.
  set (p := ph (cv D - 1)) in *.
  unfold bind, attempt, jn, zoom. rewrite E. unfold ck_get_count, jn, zoom, bind.
  cbn [m_js put_js].
  pose proof (JI_j _ _ _ _ _ _ _ _ _ HJ') as Hj'.
  assert (Ebg : buf_get HEADER_SIZE COOKIE_SIZE x = (OK (szc S), x)).
  { unfold buf_get. rewrite (ji_buf _ _ _ _ _ _ _ Hj').
    destruct (moff_fit g c Hg 0) as [Hf1 Hf2]. { unfold Geom.user. rewrite Z.mod_0_l by lia. lia. }
    unfold META_SIZE in *.
    replace (0 <=? HEADER_SIZE) with true by done.
    rewrite (proj2 (Z.leb_le _ _)) by lia. cbn [andb]. rewrite <-Hck, <-Eck. done. }
  rewrite Ebg. cbn [snd].
  assert (Ecn : r32 (szc S) = Z.of_nat (size S)).
  { unfold szc. rewrite r32_w32_bytes. apply w32_small. pose proof (repr_size _ _ _ Hrep). lia. }
  rewrite Ecn.
  match goal with |- chip ?z = _ /\ _ => replace z with (set_count (Z.of_nat (size S)) (put_js x s0)) by reflexivity end.
  split; [exact Ex|].
  assert (Hcc : cnt (good g c sk) tv' hv <= cnt (good g c sk) tv hv) by (apply cnt_sub; lia).
  rewrite Cr in *. fold p in Hpot, Hrep, Hdr.
  exists S, S, hv, tv', tv', K, (Dk D K), sk. split; cbn [m_js m_gcr m_count put_js set_count]; auto.
  - split; cbn [m_js m_gcr set_count put_js].
    + exact HJ'.
    + by rewrite Er.
    + right. cbn [Dk cv ckd rmd Kd tdv]. fold p. split; [done|]. split; [done|]. exact Hdr.
    + done.
    + apply gcr_of_range.
    + rewrite Er. eapply (age_resume g c Hg); [exact HJ'|exact Hcv|exact Hrep|exact Cm|].
      intros Ha. destruct Hdr as [(_ & _ & Ho)|(-> & _ & Hid & _)]; [by apply Ho|].
      rewrite <-(insert_id K p (d, rmd D)) by done. by apply aged_filler.
  - eapply bb_resume; [exact HB|done|apply Hj'|apply HD|by rewrite Cr|exact Ch| | |apply Hj'|apply Hj'|].
    + rewrite Ex. exact Hcd.
    + rewrite (ji_head _ _ _ _ _ _ _ Hj'). by rewrite Ccv.
    + rewrite <-Ccv. exact Hbb.
  - done.
  - unfold chip. cbn [m_js put_js set_count]. by rewrite Ex.
  - destruct T6 as [->|T6]; [|done]. by rewrite Ctd.
  - intros HS. specialize (He HS). lia.
  - eapply pot_mono; [|rewrite Er; eapply (pot_tail R ltac:(unfold R; lia)); [|exact Hpot]; lia]. fold R. lia.
  - assert (2 <= R) by (unfold R; lia). assert (HRX : 0 <= R * X) by nia.
    pose proof (pot_N R ltac:(lia) _ _ _ _ _ HRX Hpot) as HN. pose proof (Z.mod_pos_bound hv PC ltac:(lia)). nia.
  - intros Hnj. destruct (HJ2 Hnj) as [Ha Hb]. split; [by rewrite Ex|]. apply (TB_TI g c Hg tv'); [apply Hj'|].
    rewrite Ex. destruct T6 as [->|T6]; [|intros ?; done]. rewrite Ctd. apply (TB_TI g c Hg tv) in Hb; [exact Hb|apply Hj].
Qed.

Lemma sync_clean n : forall fuel s, wp (sync_loop n fuel) s (fun o s' => match o with OK _ => dirtyof s' = false | _ => True end).
Proof.
  induction n as [|n IH]; intros fuel s; [done|]. cbn [sync_loop].
  eapply wp_bind_ok. { unfold jn, zoom, getj, gets. rewrite put_js_id. reflexivity. }
  destruct (dirtyof s) eqn:E; [|by apply wp_ret].
  apply wp_bind. unfold wp at 1. destruct (jn journal_peek s) as [[p|e|x] s1]; cbn [fst snd]; [|done|done].
  apply wp_bind. unfold wp at 1. destruct (attempt _ s1) as [[[e|[]]|e|x] s2]; cbn [fst snd]; [|apply IH|done|done].
  apply wp_bind. unfold wp at 1. destruct (try_recover fuel e s2) as [[[]|e'|x] s3]; cbn [fst snd]; [apply IH|done|done].
Qed.
Lemma sync_exec fuel s a s' : exec fuel OSync s = (OK a, s') -> dirtyof s' = false.
Proof.
  cbn [exec]. unfold bind. pose proof (sync_clean fuel fuel s) as H. unfold wp in H. change (sync_loop fuel fuel) with (map_sync fuel) in H.
  destruct (map_sync fuel s) as [[[]|e|x] s1]; [|done|done]. intros [= _ <-]. exact H.
Qed.

Lemma orderly_op gcr b o x h rs : orderly gcr b (HOp o :: h) (x :: rs) ->
  exists b', orderly gcr b' h rs /\ (b' = true -> o = OSync /\ exists a, x = OK a).
Proof.
  intros H. destruct o; try (exists false; split; [exact H|done]).
  destruct x as [a|e|x]; [exists true; split; [exact H|by eauto]|exists false; split; [exact H|done]..].
Qed.

Lemma run_orderly fuel gcr junk h : (1 <= fuel)%nat -> gcr_of gcr = r -> Forall (valid_hop g) h -> forall b s S rs s', SPQ Qn s S (R * X) ->
  (b = true -> Qn (chip s)) -> run fuel gcr junk h s = (rs, s') -> Forall completed rs -> orderly gcr b h rs ->
  (ER E_JOURNAL_FULL ∉ rs /\ (nj -> forall i o, h !! i = Some (HOp o) -> rs !! i = Some (ER E_ECC) -> copies o)) /\ exists S', SPQ Qn s' S' (R * X).
Proof.
  intros Hf Hgcr. induction 1 as [|o h Ho Hh IH]; intros b s S rs s' HS Hb E Hrs Hor; cbn [run] in E.
  { injection E as <- <-. split; [split; [apply not_elem_of_nil|done]|by exists S]. }
  destruct o as [o|gcr' junk'].
  - assert (He : wp (exec fuel o) s (spost g c weak fb e0 E1 r Mx X Qn nj (copies o) S)).
    { apply (exec_SP g c Hg weak Hdense fb e0 E1 r Mx X Qn nj); auto. intros. eapply ck_resume; eauto. }
    unfold wp in He. destruct (exec fuel o s) as [a s1] eqn:Eo. cbn [fst snd] in He.
    assert (Hstep : forall S1, SPQ Qn s1 S1 (R * X) -> forall b', (b' = true -> o = OSync /\ exists v, a = OK v) -> b' = true -> Qn (chip s1)).
    { intros S1 HS1 b' Hb' ->. destruct (Hb' eq_refl) as [-> [v ->]]. eapply SP_dirty; [exact HS1|]. by eapply sync_exec. }
    destruct a as [a|e|x]; cbn in He.
    + destruct He as [S1 HS1]. destruct (run fuel gcr junk h s1) as [rs1 s2] eqn:E2. injection E as <- <-.
      apply Forall_cons in Hrs as [_ Hrs]. destruct (orderly_op _ _ _ _ _ _ Hor) as (b' & Hor' & Hb').
      destruct (IH b' _ _ _ _ HS1 (Hstep _ HS1 _ Hb') E2 Hrs Hor') as [[Hno Hec] HS2]. split; [|done].
      split; [apply not_elem_of_cons; done|]. intros Hnj [|i] o' Hhi Hx; [done|]. by eapply Hec.
    + destruct He as [(He & _ & Hec0) [S1 HS1]]. destruct (run fuel gcr junk h s1) as [rs1 s2] eqn:E2. injection E as <- <-.
      apply Forall_cons in Hrs as [_ Hrs]. destruct (orderly_op _ _ _ _ _ _ Hor) as (b' & Hor' & Hb').
      destruct (IH b' _ _ _ _ HS1 (Hstep _ HS1 _ Hb') E2 Hrs Hor') as [[Hno Hec] HS2]. split; [|done].
      split; [apply not_elem_of_cons; split; [congruence|done]|]. intros Hnj [|i] o' Hhi Hx; [|by eapply Hec].
      cbn in Hhi, Hx. assert (o' = o) as -> by congruence. apply Hec0; [congruence|done].
    + exfalso. assert (exists l, rs = ST x :: l) as [l ->].
      { destruct x; try (injection E as <- <-; by eexists). destruct (run fuel gcr junk _ _) as [rs1 s2]. injection E as <- <-. by eexists. }
      by apply Forall_cons in Hrs as [Hrs _].
  - destruct (run fuel gcr junk h (snd (restart gcr' junk' (chip s)))) as [rs1 s2] eqn:E2. injection E as <- <-.
    apply Forall_cons in Hrs as [_ Hrs]. cbn [orderly] in Hor. destruct Hor as (-> & Hrat & Hor).
    specialize (Hb eq_refl). destruct (Hb gcr' junk') as [Ech [S1 HS1]]. { rewrite <-Hgcr. exact Hrat. }
    assert (Hq1 : Qn (chip (snd (restart gcr' junk' (chip s))))) by (by rewrite Ech).
    destruct (IH true _ _ _ _ (SP_up _ _ HS1 Hq1) (fun _ => Hq1) E2 Hrs Hor) as [[Hno Hec] HS2]. split; [|done].
    split; [apply not_elem_of_cons; done|]. intros Hnj [|i] o' Hhi Hx; [done|]. by eapply Hec.
Qed.

Lemma fresh_Qn n : fresh g weak n -> (forall b, n_bad n b = fb b) -> e0 <= NB / 64 <= E1 -> 0 <= Mx -> (nj -> NJ g n) -> Qn n.
Proof.
  intros Hf Hfb He HM HNJ gcr junk Hgcr. split.
  - destruct (fresh_D g c Hg weak n Hf) as [Hn (hv & sv & HD)].
    destruct (restart_spec g c Hg weak Hdense (go2_c _ _ Hg) n ∅ gcr junk) as (s & <- & _ & _ & E & _); [|done|done].
    exists (Dsk (-1) 0 [] [] ∅). split; [|by left]. split; [done|]. by exists hv, sv.
  - apply (start_SP g c Hg weak fb e0 E1 r Mx X (fun _ => True) nj gcr junk n); auto. fold R. assert (2 <= R) by (unfold R; lia). nia.
Qed.
End orderly.

Lemma run_snoc' fuel gcr junk o r s' h : forall s rs s1, run fuel gcr junk h s = (rs, s1) -> Forall completed rs ->
  exec fuel o s1 = (r, s') -> fst (run fuel gcr junk (h ++ [HOp o]) s) = rs ++ [r].
Proof.
  induction h as [|a h IH]; intros s rs s1 E Hc Eo; cbn [app run] in *.
  { injection E as <- <-. rewrite Eo. destruct r as [?|?|[]]; done. }
  destruct a as [a|gcr' junk'].
  - destruct (exec fuel a s) as [x s2]. destruct x as [b|e|y].
    + destruct (run fuel gcr junk h s2) as [rs2 s3] eqn:E2. injection E as <- <-. apply Forall_cons in Hc as [_ Hc].
      specialize (IH _ _ _ E2 Hc Eo). destruct (run fuel gcr junk (h ++ [HOp o]) s2) as [rs4 s4]. cbn in *. by rewrite IH.
    + destruct (run fuel gcr junk h s2) as [rs2 s3] eqn:E2. injection E as <- <-. apply Forall_cons in Hc as [_ Hc].
      specialize (IH _ _ _ E2 Hc Eo). destruct (run fuel gcr junk (h ++ [HOp o]) s2) as [rs4 s4]. cbn in *. by rewrite IH.
    + exfalso. destruct y; [destruct (run fuel gcr junk h _) as [rs2 s3]| |]; injection E as <- <-; by apply Forall_cons in Hc as [Hc _].
  - destruct (run fuel gcr junk h (snd (restart gcr' junk' (chip s)))) as [rs2 s3] eqn:E2. injection E as <- <-. apply Forall_cons in Hc as [_ Hc].
    specialize (IH _ _ _ E2 Hc Eo). destruct (run fuel gcr junk (h ++ [HOp o]) _) as [rs4 s4]. cbn in *. by rewrite IH.
Qed.

Section thms.
Context (g : geo) (weak : Z -> bool) (Hsup : supported g) (Hfew : few_weak g weak).
Let c := choose_ppc (g_lps g) (g_lppb g).
Let Hg : geo_ok2 g c := supported_geo g Hsup.

Lemma run_room' n fuel gcr junk h rs s :
  fresh g weak n -> enough_fuel g fuel -> Forall (valid_hop g) h -> spare_blocks g weak (n_bad n) ->
  run fuel gcr junk h (snd (restart gcr junk n)) = (rs, s) -> Forall completed rs -> orderly gcr true h rs ->
  let e0 := fewest_bad g (n_bad n) in let E1 := most_bad g weak in
  (ER E_JOURNAL_FULL ∉ rs /\ (NJ g n -> forall i o, h !! i = Some (HOp o) -> rs !! i = Some (ER E_ECC) -> copies o)) /\
  mcap g c (gcr_of gcr) E1 <= map_capacity s <= mcap g c (gcr_of gcr) e0 /\
  forall o e s', valid_op g o -> exec fuel o s = (ER e, s') ->
    e <> E_JOURNAL_FULL /\ (e = E_MAP_FULL -> mcap g c (gcr_of gcr) E1 <= MapModel.map_size s) /\ (e = E_ECC -> NJ g n -> copies o).
Proof.
  intros Hf Hfu Hops [Hs1 Hs2] E Hon Hor e0 E1.
  pose proof (NB_ge _ _ Hg) as HNB. unfold NB in HNB.
  pose proof (blocks_cnt g weak ltac:(lia)) as EW. pose proof (blocks_cnt g (n_bad n) ltac:(lia)) as EB.
  pose proof (cnt_nonneg weak 0 (g_nblk g)). pose proof (cnt_nonneg (n_bad n) 0 (g_nblk g)).
  pose proof (Z.div_pos (g_nblk g) 64 ltac:(lia) ltac:(lia)).
  assert (g_nblk g / 64 < g_nblk g) by (apply Z.div_lt; lia).
  set (r := gcr_of gcr). set (Mx := mcap g c r e0). set (X := Xof g gcr e0).
  assert (He0 : 0 <= e0 <= cnt (n_bad n) 0 (g_nblk g)) by (unfold e0, fewest_bad; lia).
  assert (HE1 : cnt weak 0 (g_nblk g) <= E1 /\ E1 < g_nblk g /\ g_nblk g / 64 <= E1) by (unfold E1, most_bad; lia).
  assert (He64 : e0 <= g_nblk g / 64) by (unfold e0, fewest_bad; lia).
  destruct (arith g (supported_is_small g Hsup) gcr e0 (cnt weak 0 (g_nblk g))) as (Ha & Hb & Hc & Hd); [lia|unfold e0; lia|lia|unfold NB; lia|].
  fold c in Ha, Hc, Hd. fold r in Ha, Hd. fold Mx in Ha, Hd. fold X in Ha, Hb, Hc.
  pose proof (gcr_of_range gcr) as Hr. fold r in Hr.
  pose proof (fuel_pos g Hsup fuel Hfu) as Hf1.
  assert (HQ : Qn g c weak (n_bad n) e0 E1 r Mx X (NJ g n) n).
  { eapply (fresh_Qn g c Hg weak Hfew); auto; unfold NB; try lia. }
  destruct (HQ gcr junk eq_refl) as [Ech [S0 HS0]].
  assert (HQ1 : Qn g c weak (n_bad n) e0 E1 r Mx X (NJ g n) (chip (snd (restart gcr junk n)))) by (by rewrite Ech).
  assert (Hhist := run_orderly g c Hg weak Hfew eq_refl (n_bad n) e0 E1 r Mx X (NJ g n) ltac:(unfold NB; lia) ltac:(unfold NB; lia) ltac:(lia) ltac:(unfold NB; lia) Hr ltac:(unfold Mx; lia) Ha Hb Hc
    fuel gcr junk h Hf1 eq_refl Hops true _ _ _ _ (SP_up _ _ _ _ _ _ _ _ _ _ _ _ HS0 HQ1) (fun _ => HQ1) E Hon Hor).
  destruct Hhist as (Hno & S & HS).
  split; [exact Hno|].
  assert (Hcap : mcap g c r E1 <= map_capacity s <= mcap g c r e0 /\ m_count s = Z.of_nat (size S)).
  { destruct HS as (Sd & hv & tv & sv & K & D & sk & HS). split; [|apply HS].
    eapply (map_capacity_bb g c Hg weak (n_bad n) e0 E1); [unfold NB; lia|lia|unfold NB; lia|lia|apply HS|apply HS]. }
  split; [apply Hcap|]. destruct Hcap as [_ Hcount].
  intros o e s' Ho Eo.
  apply (SP_weaken g c weak (n_bad n) e0 E1 r Mx X (NJ g n) _ (fun _ => True)) in HS; [|done].
  assert (Hsp : wp (exec fuel o) s (spost g c weak (n_bad n) e0 E1 r Mx X (fun _ => True) (NJ g n) (copies o) S)).
  { apply (exec_SP g c Hg weak Hfew (n_bad n) e0 E1 r Mx X (fun _ => True) (NJ g n)); auto; unfold NB; try lia. }
  unfold wp in Hsp. rewrite Eo in Hsp. destruct Hsp as [(Hx1 & Hx2 & Hx3) _]. split; [done|]. split; [|done].
  intros He. specialize (Hx2 He). change (MapModel.map_size s) with (m_count s). lia.
Qed.

Lemma room_reach' n fuel gcr junk h s : fresh g weak n -> enough_fuel g fuel -> Forall (valid_hop g) h ->
  snd (run fuel gcr junk h (snd (restart gcr junk n))) = s -> reachable g weak s.
Proof. intros Hf Hfu Hops <-. by exists n, fuel, gcr, junk, h. Qed.

(** C58.  As long as power goes away only after a successful sync, however often it
    does, no call ever reports that the journal is full, ... *)
Theorem C58_journal_never_full n fuel gcr junk h rs s :
  fresh g weak n -> enough_fuel g fuel -> Forall (valid_hop g) h -> spare_blocks g weak (n_bad n) ->
  run fuel gcr junk h (snd (restart gcr junk n)) = (rs, s) -> Forall completed rs -> orderly gcr true h rs ->
  ER E_JOURNAL_FULL ∉ rs.
Proof. intros Hf Hfu Hops Hs E Hon Hor. eapply run_room'; eauto. Qed.

(** ... the next call fails only as in C55, ... *)
Theorem C58_next_call n fuel gcr junk h rs s o e s' :
  fresh g weak n -> enough_fuel g fuel -> Forall (valid_hop g) h -> spare_blocks g weak (n_bad n) ->
  run fuel gcr junk h (snd (restart gcr junk n)) = (rs, s) -> Forall completed rs -> orderly gcr true h rs ->
  valid_op g o -> exec fuel o s = (ER e, s') ->
  match o with
  | OWrite t _ | OCopySector _ t | OCopyPage _ t =>
      e = E_ECC \/ (e = E_MAP_FULL /\ mapped s t = false /\ room g gcr (most_bad g weak) <= MapModel.map_size s)
  | OTrim _ | OGc | OSync => e = E_ECC
  | OFind t => e = E_NOT_FOUND /\ mapped s t = false
  | OClear | ORead _ | OSize => False
  end.
Proof.
  intros Hf Hfu Hops Hs E Hon Hor Ho Eo.
  destruct (run_room' n fuel gcr junk h rs s Hf Hfu Hops Hs E Hon Hor) as (_ & _ & Hn).
  destruct (Hn o e s' Ho Eo) as (Hn1 & Hn2 & _).
  pose proof (C42_errors g weak Hsup Hfew s fuel o e s' (room_reach' n fuel gcr junk h s Hf Hfu Hops ltac:(by rewrite E)) Hfu Ho Eo) as H42.
  rewrite room_mcap. fold c. destruct o; try tauto; destruct H42 as [?|[?|[? ?]]]; try tauto.
Qed.

(** ... the capacity stays within the bounds of C56, ... *)
Theorem C58_capacity n fuel gcr junk h rs s :
  fresh g weak n -> enough_fuel g fuel -> Forall (valid_hop g) h -> spare_blocks g weak (n_bad n) ->
  run fuel gcr junk h (snd (restart gcr junk n)) = (rs, s) -> Forall completed rs -> orderly gcr true h rs ->
  room g gcr (most_bad g weak) <= map_capacity s <= room g gcr (fewest_bad g (n_bad n)).
Proof.
  intros Hf Hfu Hops Hs E Hon Hor. destruct (run_room' n fuel gcr junk h rs s Hf Hfu Hops Hs E Hon Hor) as (_ & Hc & _).
  by rewrite !room_mcap.
Qed.

(** ... and on a chip that never fails every call succeeds, but for a new sector in a
    full map. *)
Theorem C58_always_room n fuel gcr junk h rs s o r s' :
  fresh g weak n -> quiet n -> enough_fuel g fuel -> Forall (valid_hop g) h -> spare_blocks g weak (n_bad n) ->
  run fuel gcr junk h (snd (restart gcr junk n)) = (rs, s) -> orderly gcr true h rs ->
  valid_op g o -> exec fuel o s = (r, s') ->
  match r with
  | OK _ => True
  | ER e =>
      match o with
      | OWrite t _ | OCopySector _ t | OCopyPage _ t =>
          e = E_MAP_FULL /\ mapped s t = false /\ room g gcr (most_bad g weak) <= MapModel.map_size s
      | OFind t => e = E_NOT_FOUND /\ mapped s t = false
      | _ => False
      end
  | ST _ => False
  end.
Proof.
  intros Hf Hq Hfu Hv Hs E Hor Ho Eo.
  destruct (C41_no_io_errors g weak Hsup Hfew n fuel gcr junk _ rs s Hf Hq Hfu Hv E) as [Hl H41].
  assert (Hon : Forall completed rs).
  { apply Forall_lookup. intros i x Hx. pose proof (lookup_lt_Some _ _ _ Hx) as Hlt. rewrite Hl in Hlt.
    destruct (lookup_lt_is_Some_2 _ _ Hlt) as [y Hy]. specialize (H41 _ _ _ Hy Hx). destruct x as [?|?|?]; done. }
  pose proof (run_snoc' _ _ _ _ _ _ _ _ _ _ E Hon Eo) as E2.
  destruct (run fuel gcr junk (h ++ [HOp o]) (snd (restart gcr junk n))) as [rs2 s2] eqn:E3. cbn in E2. subst rs2.
  assert (Hv2 : Forall (valid_hop g) (h ++ [HOp o])).
  { apply Forall_app. split; [done|]. by apply Forall_singleton. }
  destruct (C41_no_io_errors g weak Hsup Hfew n fuel gcr junk _ _ _ Hf Hq Hfu Hv2 E3) as [_ H41'].
  specialize (H41' (length h) (HOp o) r). rewrite <-Hl in H41' at 2. rewrite list_lookup_middle in H41' by done.
  rewrite lookup_app_r, Nat.sub_diag in H41' by lia. cbn [lookup list_lookup] in H41'.
  specialize (H41' eq_refl eq_refl). destruct r as [a|e|x]; [done| |done].
  pose proof (C58_next_call n fuel gcr junk h rs s o e s' Hf Hfu Hv Hs E Hon Hor Ho Eo) as H55.
  destruct o; destruct e; try done; try tauto; destruct H55 as [?|?]; try done.
Qed.
End thms.
