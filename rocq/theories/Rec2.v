(** Bad-block recovery: saving the metadata buffer, starting and restarting. *)
From stdpp Require Import gmap fin_maps.
From Verif Require Import Base Bytes BytesLemmas Wp Nand Journal MapModel Geom Tree Rep Inv Hdr StepDI StepNand StepJ StepA StepR San Top Bm Rec.
Local Open Scope Z_scope.

Section rec2.
Context (g : geo) (c : Z) (Hg : geo_ok2 g c) (weak : Z -> bool) (Hdense : dense g weak).
Notation PB := (PB g).
Notation PC := (PC c).
Notation NB := (NB g).
Notation TT := (TT g).
Notation ph := (ph g).
Notation user := (user c).
Notation nextv := (nextv c).
Notation cpv := (cpv c).
Notation cellv := (cellv g).
Notation badv := (badv g).
Notation cell_ep := (cell_ep g).
Notation blk_ep := (blk_ep g c).
Notation epo := (epo g).
Notation moff := (moff c).
Notation fcp := (fcp g c).
Notation kmeta := (kmeta g c).
Notation kd_ok := (kd_ok g c).
Notation DI := (DI g c).
Notation nok := (nok g weak).
Notation JInv := (JInv g c).
Notation JI := (JI g c weak).
Notation nokF := (nokF g weak).
Notation peF := (peF g weak).
Notation rmet := (rmet g c).
Notation RI := (RI g c weak).
Notation RReady := (RReady g c weak).

Ltac pose_geo :=
  pose proof (PC_ge4 _ (go2_c _ _ Hg)) as HPC4; pose proof (PC_le _ _ Hg) as HPC256;
  pose proof (PB_pos _ _ Hg) as HPB4; pose proof (PB_ge _ _ Hg) as HPBC;
  pose proof (NB_ge _ _ Hg) as HNB8; pose proof (TT_le _ _ Hg) as HTT31;
  pose proof (TT_pos _ _ Hg) as HTTpos.
Notation "'lem' x" := (x g c Hg) (at level 9, x at level 8, only parsing).
Notation "'lemw' x" := (x g c Hg weak) (at level 9, x at level 8, only parsing).

Lemma next_first hv : hv mod PB = 0 -> nextv hv = hv + 1 /\ user (hv + 1) /\ (hv + 1) / PB = hv / PB /\ (hv + 1) mod PB = 1.
Proof.
  intros Ha. pose_geo. assert (Hs : hv mod PC = 0) by by apply (lem off_0_slot).
  assert (Hu : user hv) by (unfold Geom.user; lia).
  destruct (lem nextv_cases hv Hu) as [(_ & E & _ & E2)|(? & _)]; [|lia].
  destruct (divmod_add PB hv 1) as [E3 E4]; [lia|lia|].
  split_and!; auto; [|lia]. rewrite <-E. by apply (lem nextv_user).
Qed.

(** ** dump_meta *)
Lemma RI_dump s n' j' hv tv sv rv K K0 :
  RReady s false hv tv sv rv None K K0 -> hv mod PB = 0 ->
  peF (js_n s) n' hv (written g (j_buf (js_j s))) ->
  j_ppc j' = c -> j_head j' = ph (hv + 1) -> j_tail j' = ph tv -> j_tsync j' = ph sv ->
  j_epoch j' = epo (hv / PB) -> j_recov j' = true -> j_rroot j' = ph rv -> j_rmeta j' = ph hv ->
  blen (j_buf j') = page_size g -> j_badmeta j' = false -> j_root j' = j_root (js_j s) ->
  RI (Js n' j') true (hv + 1) tv sv rv (Some hv) K K0.
Proof.
  intros [HR [Hgood Hfree] _] Ha [Hnok Hbad Hhv Hcell] E1 E2 E3 E4 E5 E6 E7 E8 E9 E10 E11.
  pose proof (lemw RI_sb _ _ _ _ _ _ _ _ _ HR) as (Hb1 & Hb2 & Hb3 & H0 & H0s).
  pose proof (fun v => lemw RI_Kwin _ _ _ _ _ _ _ _ _ v HR) as Hwin.
  destruct HR. pose_geo.
  destruct (next_first hv Ha) as (_ & Hu1 & Hb & Ho1).
  split; cbn [js_n js_j]; auto; try congruence; try lia.
  - intros q [= <-]. split_and!; auto; lia.
  - intros _. rewrite Hb. split; [by rewrite Hbad|]. intros v Hv1 Hv2.
    rewrite Hcell by lia. apply Hfree; [lia|done].
  - intros p d m Hp. destruct (ri_K p d m Hp) as (v & [] & Hd & Hvr & Hbm & Hm).
    pose proof (lem al_lt v hv Ha ltac:(lia)) as Hvb. pose proof (Hwin v ltac:(lia)) as Hvw.
    exists v. split_and!; auto; try congruence.
    + split; auto; [lia|by rewrite Hbad|]. by rewrite Hcell by lia.
    + unfold Rec.rmet in *. cbn [js_n js_j].
      rewrite decide_False by (apply (lem blk_grp_ne); lia).
      destruct (decide (v / PC = rv / PC)) as [E|E].
      * exists (j_buf (js_j s)). split; [|done]. rewrite Hhv. by apply written_bytes.
      * destruct Hm as (cd & H1 & H2). exists cd. split; [|done].
        destruct (lem cpv_facts v) as (_ & _ & Ec).
        rewrite Hcell; [done|lia|]. intros Ex. rewrite Ex in Ec. lia.
  - intros b. rewrite ?Hb. intros Hb' Hbg Hbr Hbm. rewrite Hbad in Hbg.
    assert (Eb : blk_ep n' b = blk_ep (js_n s) b).
    { unfold Inv.blk_ep. pose proof (proj1 (lem fcp_facts b)) as Ef. rewrite Hcell; [done|lia|]. intros Ex.
      rewrite Ex in Ef. lia. }
    rewrite Eb. destruct (ri_ep b) as [?|[H1 H2]]; auto; try lia; try done.
    right. split; [done|]. intros b' Hb''. rewrite Hbad. auto.
  - intros u Hu2. rewrite Hb. intros Hu3 Hu4. assert (u = hv).
    { pose proof (lem blk_ge_start u (hv / PB) ltac:(lia)). pose proof (lem hb_start hv Ha). lia. }
    subst u. pose proof (lem off_0_slot hv Ha). lia.
Qed.

Lemma dump_loopF i : forall s hv tv sv rv K K0,
  RI s false hv tv sv rv None K K0 -> hv mod PB = 0 ->
  wp (dump_meta_loop i) s (fun o s' => match o with
    | OK _ => exists hv', hv <= hv' /\ hv' mod PB = 0 /\
        RI (Js (js_n s') (set_recov true (js_j s'))) true (hv' + 1) tv sv rv (Some hv') K K0 /\
        j_root (js_j s') = j_root (js_j s) /\ j_rnext (js_j s') = j_rnext (js_j s) /\
        j_enum (js_j s') = j_enum (js_j s)
    | ER e => leak e
    | ST x => x = Crash
    end).
Proof.
  induction i as [|i IH]; intros s hv tv sv rv K K0 HR Ha; cbn [dump_meta_loop].
  { apply wp_fail. unfold leak. auto. }
  pose_geo.
  assert (Hretry : forall s1 hv1, hv <= hv1 -> hv1 mod PB = 0 -> RI s1 false hv1 tv sv rv None K K0 ->
    weak ((hv1 / PB) mod NB) = true -> jr2 (js_j s) (js_j s1) ->
    wp (modj (fun j => set_bbc (w32 (j_bbc j + 1)) j);;;
        let! g := getg in
        let! head := getj j_head in
        io (nand_mark_bad (Z.shiftr head (g_lppb g)));;;
        skip_block;;;
        dump_meta_loop i) s1 (fun o s' => match o with
    | OK _ => exists hv', hv <= hv' /\ hv' mod PB = 0 /\
        RI (Js (js_n s') (set_recov true (js_j s'))) true (hv' + 1) tv sv rv (Some hv') K K0 /\
        j_root (js_j s') = j_root (js_j s) /\ j_rnext (js_j s') = j_rnext (js_j s) /\
        j_enum (js_j s') = j_enum (js_j s)
    | ER e => leak e
    | ST x => x = Crash
    end)).
  { intros s1 hv1 Hle Ha1 HR1 Hw Hr1.
    pose proof (lemw RI_sb _ _ _ _ _ _ _ _ _ HR1) as (Hb1 & Hb2 & Hb3 & H0 & H0s).
    pose proof (ri_full _ _ _ _ _ _ _ _ _ _ _ _ HR1) as Hfull.
    pose proof (ri_n _ _ _ _ _ _ _ _ _ _ _ _ HR1) as Hn1.
    apply (wp_bind (modj _)). apply wp_modify.
    set (s2 := Js (js_n s1) (set_bbc (w32 (j_bbc (js_j s1) + 1)) (js_j s1))).
    apply wp_bind. unfold getg. apply wp_gets. apply wp_bind. unfold getj. apply wp_gets.
    change (j_head (js_j s2)) with (j_head (js_j s1)). change (js_n s2) with (js_n s1).
    rewrite (nf_geo _ _ _ Hn1), (lem shiftr_blk), (ri_head _ _ _ _ _ _ _ _ _ _ _ _ HR1), (lem ph_blk).
    apply wp_bind. unfold io. apply wp_zoom. eapply wp_mono; [by apply (lemw markF)|].
    intros o n' (Hn' & Hcell & Hbo & Hbm & Ho). destruct o as [[]|e|x]; [|done|done].
    apply wp_bind. eapply wp_mono.
    { apply (lem skipF) with (hv := hv1) (sv := sv); cbn [js_n js_j put_n];
        [apply Hn'|apply HR1|apply HR1|apply HR1|lia]. }
    intros o s3 Ho3. destruct o as [[]|e|x]; [| |done].
    2: { subst e. unfold leak; auto. }
    destruct Ho3 as (En & Hr & Eh & Ee & Hf). cbn [js_n js_j put_n] in En, Hr, Eh, Ee, Hf.
    pose proof (lem blk_start (hv1 / PB + 1)) as [E1 E2].
    pose proof (lem blk_lt_start hv1 (hv1 / PB + 1) ltac:(lia)) as Hlt.
    assert (Hr3 : jr2 (js_j s1) (js_j s3)) by (eapply jr2_trans; [|exact Hr]; by split).
    assert (HR3 : RI s3 false ((hv1 / PB + 1) * PB) tv sv rv None K K0).
    { eapply (lemw RI_move); [exact HR1|..]; auto; try lia; rewrite ?E1; auto; rewrite ?En; auto.
      - intros b Hb. apply Hbo. apply (lem blk_ne_phys). lia.
      - intros b Hbb. by replace b with (hv1 / PB) by lia. }
    eapply wp_mono; [by eapply IH|]. intros o s4 Ho4. destruct o as [[]|e|x]; auto.
    destruct Ho4 as (hv' & H1 & H2 & H3 & H4 & H5 & H6). exists hv'.
    pose proof (jr2_trans _ _ _ Hr1 Hr3) as [].
    split_and!; auto; [lia|congruence|congruence|congruence]. }
  apply wp_bind. apply wp_attempt. apply wp_bind.
  eapply wp_mono; [by apply (lemw prepareF)|].
  intros o s1 Ho. destruct o as [[]|e|x]; [| |done].
  - destruct Ho as (hv1 & Hle & HRR & Hr1 & Hal).
    assert (Ha1 : hv1 mod PB = 0) by (destruct Hal as [->|[? ?]]; auto).
    pose proof HRR as [HR1 [Hgood Hfree] Hnx].
    apply wp_bind. unfold getj at 1. apply wp_gets.
    rewrite (ri_head _ _ _ _ _ _ _ _ _ _ _ _ HR1).
    unfold io at 1. apply wp_zoom. eapply wp_mono.
    { apply (lemw progF); auto; apply HR1. }
    intros o n' (x & Hpe & Ho). destruct o as [[]|e|y]; [| |done].
    + subst x. destruct (next_first hv1 Ha1) as (Enx & Hu1 & Hb & Ho1).
      pose proof (lemw RI_sb _ _ _ _ _ _ _ _ _ HR1) as (Hb1 & Hb2 & Hb3 & H0 & H0s).
      apply wp_bind. unfold getg at 1. apply wp_gets. cbn [js_n put_n]. rewrite (nf_geo _ _ _ (pf_ok _ _ _ _ _ _ Hpe)).
      apply (wp_bind (modj _)). apply wp_modify. cbn [js_n js_j put_n].
      rewrite (ri_ppc _ _ _ _ _ _ _ _ _ _ _ _ HR1), (ri_head _ _ _ _ _ _ _ _ _ _ _ _ HR1).
      rewrite (lem next_upage_ph) by (auto; apply HR1). rewrite Enx.
      apply wp_bind. unfold getj at 1. apply wp_gets. cbn [js_j set_head j_head].
      assert (Hne : (ph (hv1 + 1) =? 0) = false).
      { apply Z.eqb_neq. intros E. pose proof (lem ph_off (hv1 + 1)) as E'. rewrite E, Ho1 in E'.
        rewrite Z.mod_0_l in E' by lia. done. }
      rewrite Hne. apply wp_bind. apply wp_ret.
      match goal with |- wp _ ?x _ => destruct (lem clear_user_ok x) as (buf' & Ecl & Hbl & _) end;
        [apply Hpe|apply HR1|]. unfold wp. rewrite Ecl. cbn [fst snd].
      exists hv1. cbn [js_n js_j].
      split; [done|]. split; [done|]. split.
      * eapply RI_dump; eauto; try done; try (by apply HR1).
        { cbn. destruct (j_badmeta (js_j s1)) eqn:Eb; [|done].
          destruct (ri_bm _ _ _ _ _ _ _ _ _ _ _ _ HR1 Eb) as (q & ? & _). done. }
      * destruct Hr1. cbn. split_and!; congruence.
    + destruct Ho as [-> Hw]. cbn [decide]. rewrite decide_True by done.
      apply (Hretry _ hv1); auto. eapply (lemw RI_move); [exact HR1|..]; auto; try lia; try apply HR1; cbn [js_n js_j put_n].
      * apply Hpe.
      * apply jr2_refl.
      * intros b _. apply Hpe.
      * intros b. by rewrite (pf_bad _ _ _ _ _ _ Hpe).
      * intros u Hu. apply (pf_cell _ _ _ _ _ _ Hpe); [lia|]. intros ->. lia.
  - destruct Ho as [(-> & hv1 & Hle & _ & Ha1 & HR1 & Hr1 & Hw)|Hl].
    + rewrite decide_True by done. by apply (Hretry _ hv1).
    + rewrite decide_False by (unfold leak in Hl; naive_solver). by apply wp_fail.
Qed.

(** ** Starting a recovery *)
Lemma IT_rv s hv tv sv K : JInv s hv tv sv K -> IT g (js_j s) -> j_root (js_j s) <> PAGE_NONE ->
  hv mod PB <> 0 -> 0 <= hv ->
  exists rv, user rv /\ j_root (js_j s) = ph rv /\ nextv rv = hv /\ tv <= rv < hv /\
    rv / PB = hv / PB /\ is_Some (K !! ph rv).
Proof.
  intros Hj HIT Hr Ha H0. pose_geo. pose proof (sv_le_hb _ _ Hg _ _ _ _ _ Hj) as Hsb. pose proof Hj as [].
  destruct ji_root as [?|[[d m] Hk]]; [done|].
  destruct (ji_K _ _ _ Hk) as (rv & [] & _).
  assert (E : nextv rv = hv).
  { assert (Hph : ph hv = ph (nextv rv)).
    { unfold IT in HIT. rewrite ji_head, ji_ppc in HIT.
      destruct HIT as [?|[?|[Hal|[E|E]]]]; [congruence|done| | |].
      - unfold AL in Hal. rewrite ji_head, (lem aligned_blk), (lem ph_off) in Hal. apply Z.eqb_eq in Hal. done.
      - rewrite E, kd_p. apply (lem next_upage_ph); [lia|done].
      - rewrite kd_p in E. pose proof (lem ph_range rv).
        rewrite w32_small in E by lia.
        pose proof (lem ph_slot rv) as Hs1. pose proof (lem ph_slot hv) as Hs2.
        pose proof (lem slot_range rv) as Hsr.
        destruct (lem nextv_cases rv kd_u) as [(Hs & -> & _)|(Hs & _)].
        + rewrite E. symmetry. apply (lem ph_add). destruct (divmod_add PC rv 1) as [Eg _]; [lia|lia|].
          pose proof (lem grp_blk (rv + 1) rv Eg) as Eb. pose proof (lem v_decomp rv).
          pose proof (lem v_decomp (rv + 1)). pose proof (lem off_range (rv + 1)). pose proof (lem off_range rv). nia.
        + exfalso. rewrite E in Hs2. destruct (divmod_add PC (ph rv) 1) as [_ E4]; [lia|lia|].
          apply ji_hu. lia. }
    symmetry. pose proof (lem nextv_next hv rv ji_hu kd_u ltac:(lia)) as Hnx.
    pose proof (nextv_gt c rv) as Hgt.
    apply (lem win_page (hv / PB)); [lia| |done].
    pose proof (lem blk_le sv (nextv rv) ltac:(lia)). pose proof (lem blk_le (nextv rv) hv ltac:(lia)). lia. }
  exists rv. split_and!; auto; try lia.
  - destruct (lem nextv_blk rv kd_u) as [[Eb _]|(_ & Eo & _)]; [by rewrite <-Eb, E|]. rewrite E in Eo. done.
  - rewrite <-kd_p. eauto.
Qed.

Lemma RI_break s0 s rc hv tv sv rv K D :
  JInv s0 hv tv sv K -> DI (js_n s0) hv sv D -> hv mod PB <> 0 ->
  user rv -> nextv rv = hv -> tv <= rv < hv -> rv / PB = hv / PB -> is_Some (K !! ph rv) ->
  (rc = true -> hv mod PC = 0) -> (rc = false -> hv mod PC <> 0) ->
  nokF (js_n s) -> (forall b, badv (js_n s) b = badv (js_n s0) b) ->
  (forall u, hv / PB - NB < u / PB <= hv / PB -> u < hv -> cellv (js_n s) u = cellv (js_n s0) u) ->
  (forall v, v / PC = hv / PC -> v < hv -> user v ->
     slice (moff v) META_SIZE (j_buf (js_j s)) = slice (moff v) META_SIZE (j_buf (js_j s0))) ->
  blen (j_buf (js_j s)) = page_size g ->
  j_ppc (js_j s) = c -> j_head (js_j s) = ph ((hv / PB + 1) * PB) -> j_tail (js_j s) = ph tv ->
  j_tsync (js_j s) = ph sv -> j_epoch (js_j s) = epo (hv / PB + 1) -> j_recov (js_j s) = rc ->
  j_rroot (js_j s) = ph rv -> j_rmeta (js_j s) = PAGE_NONE -> j_badmeta (js_j s) = false ->
  j_root (js_j s) = ph rv -> hv / PB + 1 < sv / PB + NB -> weak ((hv / PB) mod NB) = true ->
  RI s rc ((hv / PB + 1) * PB) tv sv rv None K K.
Proof.
  intros Hj HD Ha Hur Enx Hrv Erb HKr Hrc1 Hrc0 Hn Hbad Hcell Hbuf Hbl E1 E2 E3 E4 E5 E6 E7 E8 E9 E10 Hf Hw.
  pose_geo. pose proof (sv_le_hb _ _ Hg _ _ _ _ _ Hj) as Hsb.
  pose proof (lem blk_start (hv / PB + 1)) as [F1 F2].
  pose proof (lem blk_lt_start hv (hv / PB + 1) ltac:(lia)) as Hlt.
  assert (H0 : 0 <= hv) by apply HD.
  destruct (ji_free _ _ _ _ _ _ _ Hj Ha) as [Hgood Hfree].
  assert (Hwin : forall v, tv <= v < hv -> hv / PB - NB < v / PB <= hv / PB).
  { intros v Hv. pose proof (ji_order _ _ _ _ _ _ _ Hj). pose proof (ji_full _ _ _ _ _ _ _ Hj).
    pose proof (lem blk_le sv v ltac:(lia)). pose proof (lem blk_le v hv ltac:(lia)). lia. }
  split; rewrite ?F1; auto; try congruence; try lia.
  - destruct (ji_order _ _ _ _ _ _ _ Hj). lia.
  - apply (lem blk_start_user).
  - apply Hj.
  - intros p d m Hp. destruct (ji_K _ _ _ _ _ _ _ Hj p d m Hp) as (v & [] & Hd & Hm).
    pose proof (Hwin v kd_v) as Hvw.
    exists v. split_and!; auto; try congruence.
    + split; auto; [lia|by rewrite Hbad|]. by rewrite Hcell by lia.
    + intros _. destruct (Z.le_gt_cases v rv) as [|Hgt]; [done|].
      pose proof (lem nextv_next v rv kd_u Hur ltac:(lia)). lia.
    + unfold Rec.rmet. destruct rc.
      * specialize (Hrc1 eq_refl). rewrite decide_False.
        -- pose proof (lem grp_lt v hv Hrc1 ltac:(lia)) as Hg1. rewrite decide_False in Hm by done.
           destruct Hm as (cd & M1 & M2). exists cd. split; [|done].
           rewrite Hcell; [done| |apply (lem cpv_lt); [lia|done]]. destruct (lem cpv_facts v) as (_ & _ & ->). lia.
        -- apply (lem blk_grp_ne). rewrite F1. lia.
      * specialize (Hrc0 eq_refl).
        assert (Eg : rv / PC = hv / PC).
        { destruct (lem nextv_cases rv Hur) as [(_ & _ & E & _)|(_ & _ & _ & E)]; rewrite Enx in E; [done|lia]. }
        rewrite Eg. destruct (decide (v / PC = hv / PC)) as [E|E].
        -- rewrite Hbuf; auto. lia.
        -- destruct Hm as (cd & M1 & M2). exists cd. split; [|done].
           rewrite Hcell; [done| |apply (lem cpv_lt); [lia|done]]. destruct (lem cpv_facts v) as (_ & _ & ->). lia.
  - intros p [[d m] Hp]. destruct (ji_K _ _ _ _ _ _ _ Hj p d m Hp) as (v & [] & _). exists v. split; [done|].
    split; [lia|]. destruct (Z.le_gt_cases v rv) as [|Hgt]; [done|].
    pose proof (lem nextv_next v rv kd_u Hur ltac:(lia)). lia.
  - intros b Hb Hbg Hbr _. rewrite Hbad in Hbg.
    assert (Eb : blk_ep (js_n s) b = blk_ep (js_n s0) b).
    { unfold Inv.blk_ep. pose proof (proj1 (lem fcp_facts b)) as Ef. rewrite Hcell; [done|lia|].
      apply Z.nle_gt. intros Hle. pose proof (lem blk_le _ _ Hle). lia. }
    rewrite Eb.
    assert (Ecb : cv D / PB <= hv / PB). { apply (lem blk_le). pose proof (d_cvh _ _ _ _ _ _ HD). lia. }
    pose proof (d_near _ _ _ _ _ _ HD) as Hnear.
    destruct (Z.lt_ge_cases (cv D / PB) b) as [Hgt|Hle].
    { rewrite (d_gap _ _ _ _ _ _ HD) in Hbg by lia. done. }
    destruct (d_ep _ _ _ _ _ _ HD b) as [?|(H1 & H2 & H3)]; auto; [lia|].
    right. split; [done|]. intros b' Hb'. rewrite Hbad. apply H3. lia.
  - intros u _ Hu1 Hu2. pose proof (lem blk_ge_start u (hv / PB + 1) ltac:(lia)). lia.
Qed.

(** ** Restarting a recovery *)
Lemma RI_restart s0 s hv tv sv rv mo K K0 :
  RI s0 true hv tv sv rv mo K K0 ->
  nokF (js_n s) ->
  (forall b, hv / PB - NB < b < hv / PB -> badv (js_n s) b = badv (js_n s0) b) ->
  (forall b, badv (js_n s0) b = true -> badv (js_n s) b = true) ->
  (forall u, hv / PB - NB < u / PB <= hv / PB -> u < hv -> cellv (js_n s) u = cellv (js_n s0) u) ->
  blen (j_buf (js_j s)) = page_size g ->
  j_ppc (js_j s) = c -> j_head (js_j s) = ph ((hv / PB + 1) * PB) -> j_tail (js_j s) = ph tv ->
  j_tsync (js_j s) = ph sv -> j_epoch (js_j s) = epo (hv / PB + 1) -> j_recov (js_j s) = true ->
  j_rroot (js_j s) = ph rv -> j_rmeta (js_j s) = j_rmeta (js_j s0) ->
  j_root (js_j s) = ph rv -> hv / PB + 1 < sv / PB + NB -> weak ((hv / PB) mod NB) = true ->
  (badv (js_n s) (hv / PB) = true /\ j_badmeta (js_j s) = j_badmeta (js_j s0) \/
   j_badmeta (js_j s) = true /\ exists q, mo = Some q /\ q / PB = hv / PB) ->
  RI s true ((hv / PB + 1) * PB) tv sv rv mo K0 K0.
Proof.
  intros HR Hn Hbad Hbm Hcell Hbl E1 E2 E3 E4 E5 E6 E7 E8 E10 Hf Hw Hmk.
  pose_geo. pose proof (lemw RI_sb _ _ _ _ _ _ _ _ _ HR) as (Hb1 & Hb2 & Hb3 & H0 & H0s).
  pose proof (lem blk_start (hv / PB + 1)) as [F1 F2].
  pose proof (lem blk_lt_start hv (hv / PB + 1) ltac:(lia)) as Hlt.
  pose proof (fun v => lemw RI_Kwin _ _ _ _ _ _ _ _ _ v HR) as Hwin.
  assert (Hbmm : j_badmeta (js_j s0) = true -> j_badmeta (js_j s) = true).
  { intros E. destruct Hmk as [[_ ->]|[? _]]; done. }
  pose proof HR as [].
  split; rewrite ?F1; auto; try congruence; try lia.
  - intros q Hq. destruct (ri_mo q Hq) as (?&?&?&?). split_and!; auto. lia.
  - apply (lem blk_start_user).
  - intros Hx. destruct Hmk as [[_ E]|[_ (q & Hq & Eq)]].
    + rewrite E in Hx. destruct (ri_bm Hx) as (q & ? & ? & ?). exists q. split_and!; auto. lia.
    + exists q. rewrite Eq. split_and!; auto. lia.
  - intros p d m Hp. pose proof (lookup_weaken _ _ _ _ Hp ri_sub) as HpK.
    destruct (ri_K p d m HpK) as (v & [] & Hd & Hvr & Hbq & Hm).
    destruct (ri_subv p ltac:(eauto)) as (v' & Hpv & Hv').
    assert (Erv : v = v').
    { pose proof (Hwin v ltac:(lia)). pose proof (lem blk_le v' rv ltac:(lia)). pose proof (lem blk_le tv v' ltac:(lia)).
      apply (lem win_page (hv / PB)); [lia|lia|congruence]. }
    subst v'. pose proof (lem blk_le v rv ltac:(lia)) as Hvb. pose proof (Hwin v kd_v) as Hvw.
    exists v. split_and!; auto; try congruence.
    + split; auto; [lia|by rewrite Hbad by lia|]. by rewrite Hcell by lia.
    + intros _ q Hq. destruct (ri_mo q Hq) as (_ & _ & ? & _). lia.
    + unfold Rec.rmet in *. rewrite decide_False in Hm by (apply (lem blk_grp_ne); lia).
      rewrite decide_False by (apply (lem blk_grp_ne); lia).
      assert (Hkm : kmeta (js_n s0) v m -> kmeta (js_n s) v m).
      { intros (cd & M1 & M2). exists cd. split; [|done].
        destruct (lem cpv_facts v) as (_ & _ & Ec).
        rewrite Hcell; [done|lia|]. apply (lem cpv_lt); [lia|]. apply (lem blk_grp_ne). lia. }
      destruct mo as [q|]; [|auto]. destruct (decide (v / PC = rv / PC)); [|auto].
      destruct Hm as (cd & M1 & M2). exists cd. split; [|done]. destruct (ri_mo q eq_refl) as (_ & _ & ? & ?).
      pose proof (lem blk_le q hv ltac:(lia)). rewrite Hcell; [done|lia|lia].
  - intros b Hb Hbg Hbr Hbx.
    assert (Hbh : b < hv / PB).
    { destruct (Z.eq_dec b (hv / PB)) as [->|]; [|lia]. exfalso.
      destruct Hmk as [[E _]|[E (q & Hq & Eq)]]; [congruence|]. by eapply Hbx. }
    rewrite Hbad in Hbg by lia.
    assert (Eb : blk_ep (js_n s) b = blk_ep (js_n s0) b).
    { unfold Inv.blk_ep. pose proof (proj1 (lem fcp_facts b)) as Ef. rewrite Hcell; [done|lia|].
      apply Z.nle_gt. intros Hle. pose proof (lem blk_le _ _ Hle). lia. }
    rewrite Eb. destruct (ri_ep b) as [?|[H1 H2]]; auto; [lia|].
    right. split; [done|]. intros b' Hb'. apply Hbm, H2. lia.
  - intros u _ Hu1 Hu2. pose proof (lem blk_ge_start u (hv / PB + 1) ltac:(lia)). lia.
Qed.

Lemma block_base_ph v : block_base g (ph v) = ph (v / PB * PB).
Proof.
  unfold block_base. rewrite land_lnot_mask by apply (lem a_nonneg). change (2 ^ g_lppb g) with PB.
  rewrite (lem ph_blk), (lem blk_start_ph). done.
Qed.
End rec2.
