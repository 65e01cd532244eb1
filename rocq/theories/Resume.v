(** Resuming: the main result. *)
From stdpp Require Import gmap.
From Verif Require Import Base Bytes BytesLemmas Wp Nand Journal MapModel Geom Tree Rep Inv Hdr StepDI StepNand StepJ StepA StepR StepS StepG.
Local Open Scope Z_scope.

Section resume.
Context (g : geo) (c : Z) (Hg : geo_ok g c) (weak : Z -> bool) (Hdense : dense g weak).
Notation PB := (PB g).
Notation PC := (PC c).
Notation NB := (NB g).
Notation TT := (TT g).
Notation GP := (GP g c).
Notation ph := (ph g).
Notation user := (user c).
Notation nextv := (nextv c).
Notation cpv := (cpv c).
Notation cellv := (cellv g).
Notation badv := (badv g).
Notation cell_ep := (cell_ep g).
Notation blk_ep := (blk_ep g c).
Notation fcp := (fcp g c).
Notation epo := (epo g).
Notation moff := (moff c).
Notation kmeta := (kmeta g c).
Notation kd_ok := (kd_ok g c).
Notation DI := (DI g c).
Notation nok := (nok g weak).
Notation JInv := (JInv g c).
Notation JI := (JI g c weak).

Ltac pose_geo :=
  pose proof (PC_ge _ _ Hg) as HPC4; pose proof (PC_le _ _ Hg) as HPC256;
  pose proof (PB_pos _ _ Hg) as HPB4; pose proof (PB_ge _ _ Hg) as HPBC;
  pose proof (NB_ge _ _ Hg) as HNB8; pose proof (TT_le _ _ Hg) as HTT31;
  pose proof (TT_pos _ _ Hg) as HTTpos; pose proof (GP_ge _ _ Hg) as HGP1;
  pose proof (PB_def _ _ Hg) as HPBdef.
Notation "'lem' x" := (x g c Hg) (at level 9, x at level 8, only parsing).
Notation gfree := (gfree g c).

Definition kof (v : Z) : Z := (v / PC) mod GP.
Lemma kof_decomp v : v = v / PB * PB + kof v * PC + v mod PC /\ 0 <= kof v < GP.
Proof.
  pose_geo. pose proof (lem v_decomp v) as H. rewrite (lem off_grp) in H. unfold kof.
  split; [lia|]. apply Z.mod_pos_bound. lia.
Qed.

Record head_ok (n : nand) (hv hv' cb : Z) : Prop := {
  ho_user : user hv';
  ho_le : hv' <= hv;
  ho_free : hv' / PB = cb -> forall v, hv' <= v -> v / PB = cb -> cellv n v = Free;
  ho_cases : (hv' / PB = cb /\ hv / PB = cb) \/ (hv' = (cb + 1) * PB /\ cb < hv / PB)
}.

(** What find_last_group, find_root and find_head need to know. *)
Lemma lg_DI s hv sv D : nok (js_n s) -> j_ppc (js_j s) = c -> DI (js_n s) hv sv D -> 0 <= cv D ->
  exists kl, lgfacts g c (js_n s) (cv D / PB) kl /\ kof (cv D) <= kl /\
    ((hv / PB = cv D / PB /\ kof (cv D) < kof hv /\ (kl = kof hv \/ (kl = kof hv - 1 /\
       (cellv (js_n s) (cv D / PB * PB + kl * PC + (PC - 2)) <> Free \/
        cellv (js_n s) (cv D / PB * PB + kl * PC + (PC - 1)) <> Free)))) \/ (cv D / PB < hv / PB /\ kl = GP - 1 /\
       (cellv (js_n s) (cv D / PB * PB + (GP - 1) * PC + (PC - 2)) <> Free \/
        cellv (js_n s) (cv D / PB * PB + (GP - 1) * PC + (PC - 1)) <> Free))).
Proof.
  intros Hn Hc HD Hcv. pose_geo. pose proof HD as [].
  destruct (kof_decomp (cv D)) as [Ecv Hkc]. destruct (kof_decomp hv) as [Ehv Hkh].
  assert (Hcb : cv D / PB <= hv / PB) by (apply (lem blk_le); lia).
  assert (Hgrp : forall k, 0 <= k < GP -> cv D / PB * PB + k * PC + PC <= hv ->
    cellv (js_n s) (cv D / PB * PB + k * PC + (PC - 2)) <> Free \/
    cellv (js_n s) (cv D / PB * PB + k * PC + (PC - 1)) <> Free).
  { intros k Hk Hle. destruct (gstart g c Hg (cv D / PB) k Hk) as (G1 & G2 & G3).
    replace (cv D / PB * PB + k * PC + (PC - 2)) with (cv D / PB * PB + k * PC + PC - 2) by lia.
    replace (cv D / PB * PB + k * PC + (PC - 1)) with (cv D / PB * PB + k * PC + PC - 1) by lia.
    apply d_grp; auto. }
  assert (Hgrp2 : forall k, 0 <= k < GP -> cv D / PB * PB + k * PC + PC <= hv ->
    ~ gfree (js_n s) (cv D / PB * PB + k * PC)).
  { intros k Hk Hle Hf. destruct (Hgrp k Hk Hle) as [Hx|Hx]; apply Hx, Hf; lia. }
  destruct (Z.eq_dec (hv / PB) (cv D / PB)) as [E|Hne].
  - rewrite E in Ehv.
    assert (Hkk : kof (cv D) < kof hv).
    { unfold Geom.user in d_hu. pose proof (lem slot_range hv) as Hs. pose proof (lem slot_range (cv D)). nia. }
    assert (Hgt : forall k, kof hv < k < GP -> gfree (js_n s) (cv D / PB * PB + k * PC)).
    { intros k Hk i Hi. destruct (gstart g c Hg (cv D / PB) k ltac:(lia)) as (G1 & G2 & G3).
      pose proof (lem slot_range hv) as Hs. apply d_free; auto; [nia|].
      rewrite (lem grp_same_blk) by done. by rewrite E. }
    destruct (cp_free_spec g c Hg weak s (cv D / PB) (kof hv) Hn Hc Hkh) as (r & _ & Hr).
    destruct r.
    + assert (Hf : gfree (js_n s) (cv D / PB * PB + kof hv * PC)) by by apply Hr.
      exists (kof hv - 1). split; [|split; [lia|left; split_and!; auto]].
      2: { right. split; [done|]. apply Hgrp; [lia|]. pose proof (lem slot_range hv). nia. }
      split; [lia| |].
      * intros k Hk. apply Hgrp2; [lia|]. pose proof (lem slot_range hv). nia.
      * intros k Hk. destruct (Z.eq_dec k (kof hv)) as [->|]; [done|]. apply Hgt. lia.
    + exists (kof hv). split; [|split; [lia|left; split_and!; auto]]. split; [lia| |].
      * intros k Hk. destruct (Z.eq_dec k (kof hv)) as [->|].
        { intros Hx. apply Hr in Hx. done. }
        apply Hgrp2; [lia|]. pose proof (lem slot_range hv). nia.
      * intros k Hk. apply Hgt. lia.
  - assert (Hall : forall k, 0 <= k < GP -> cv D / PB * PB + k * PC + PC <= hv).
    { intros k Hk. pose proof (lem blk_ge_start hv (cv D / PB + 1) ltac:(lia)). nia. }
    exists (GP - 1). split; [split; [lia| |lia]|].
    + intros k Hk. apply Hgrp2, Hall; lia.
    + split; [lia|]. right. split; [lia|]. split; [done|]. apply Hgrp, Hall; lia.
Qed.

Lemma kmeta_fun n v m m' : kmeta n v m -> kmeta n v m' -> m = m'.
Proof. intros (d & H1 & H2) (d' & H3 & H4). congruence. Qed.

Definition Dk (D : dsk) (K : kmap) : dsk := Dsk (cv D) (tdv D) (ckd D) (rmd D) K.

Lemma JI_resume s hv sv D hv' tv' d0 j' :
  nok (js_n s) -> DI (js_n s) hv sv D -> 0 <= cv D ->
  head_ok (js_n s) hv hv' (cv D / PB) -> cv D < hv' ->
  tdv D <= tv' -> tv' <= sv -> tv' <= cv D - 1 -> user tv' -> hv' / PB < tv' / PB + NB ->
  cell_bytes g (cellv (js_n s) (cv D - 1)) = Some d0 ->
  j_ppc j' = c -> j_head j' = ph hv' -> j_tail j' = ph tv' -> j_tsync j' = ph tv' ->
  j_epoch j' = epo (hv' / PB) -> j_recov j' = false -> j_enum j' = false -> j_rmeta j' = PAGE_NONE ->
  blen (j_buf j') = page_size g -> j_root j' = ph (cv D - 1) ->
  let K' := <[ph (cv D - 1) := (d0, rmd D)]> (Kd D) in
  JI (Js (js_n s) j') hv' tv' tv' K' (Dk D K') /\ Kd D ⊆ K'.
Proof.
  intros Hn HD Hcv [Ho1 Ho2 Ho3 Ho4] Hlt Ht1 Ht2 Ht3 Htu Hfull Hd0 E1 E2 E3 E4 E5 E6 E7 E8 E9 E10 K'.
  pose_geo. pose proof HD as [].
  assert (Hcvs : (cv D - 1) mod PC = PC - 2 /\ (cv D - 1) / PC = cv D / PC /\ (cv D - 1) / PB = cv D / PB).
  { replace (cv D - 1) with (cv D + -1) by lia. destruct (divmod_add PC (cv D) (-1)) as [Q1 Q2]; [lia|lia|].
    split_and!; auto; [lia|]. by apply (lem grp_blk). }
  destruct Hcvs as (Hc1 & Hc2 & Hc3).
  assert (Hcu : user (cv D - 1)) by (unfold Geom.user; lia).
  destruct (d_td Hcv) as (T1 & T2 & T3 & T4).
  destruct (d_cp Hcv) as [Hcbad (cd & Hcd & Hmag & Hep & Htl & Hck)].
  destruct (d_root Hcv) as [(d0' & Hr1 & Hr2) Hr3].
  assert (d0' = d0) as -> by congruence.
  assert (Hcb : cv D / PB <= hv / PB) by (apply (lem blk_le); lia).
  assert (Hcb' : cv D / PB <= hv' / PB) by (apply (lem blk_le); lia).
  assert (Hsvb : cv D / PB < sv / PB + NB) by lia.
  assert (Hhv'g : cv D / PC < hv' / PC).
  { pose proof (Z.div_mod (cv D) PC ltac:(lia)). pose proof (Z.div_mod hv' PC ltac:(lia)).
    pose proof (lem slot_range hv'). unfold Geom.user in Ho1. nia. }
  assert (HKin : forall p d m, K' !! p = Some (d, m) ->
     exists v, kd_ok (js_n s) tv' (cv D) p d m v /\ blen d = page_size g /\ kmeta (js_n s) v m).
  { intros p d m Hp. unfold K' in Hp. apply lookup_insert_Some in Hp as [[<- [= <- <-]]|[Hne Hp]].
    - exists (cv D - 1). split_and!; auto. split; auto; [lia|by rewrite Hc3].
    - destruct (d_K _ _ _ Hp) as (_ & v & [] & Hl & Hm). exists v. split_and!; auto. split; auto. lia. }
  assert (Hsub : Kd D ⊆ K').
  { apply map_subseteq_spec. intros p [d m] Hp. destruct (decide (p = ph (cv D - 1))) as [->|Hne].
    - unfold K'. rewrite lookup_insert.
      destruct (d_K _ _ _ Hp) as (_ & v & [Kv Ku Kp Kb Kdd] & Hl & Hm).
      assert (cv D - 1 = v) as Ev.
      { apply (lem win_page (cv D / PB)); auto; [lia|].
        pose proof (lem blk_le v (cv D) ltac:(lia)). pose proof (lem blk_le sv v ltac:(lia)). lia. }
      subst v. pose proof (kmeta_fun _ _ _ _ Hm Hr3). congruence.
    - unfold K'. rewrite lookup_insert_ne; auto. }
  split; [|done].
  assert (Hb1 : hv' / PB <= cv D / PB + 1).
  { destruct Ho4 as [[-> _]|[-> _]]; [lia|]. rewrite (proj1 (lem blk_start _)). lia. }
  split; cbn [js_n js_j]; auto.
  - split; cbn [js_n js_j]; auto.
    + lia.
    + right. rewrite E10. unfold K'. by rewrite lookup_insert.
    + intros Hal. destruct Ho4 as [[Hx Hy]|[Hx Hy]].
      * rewrite Hx. split; [done|]. by apply Ho3.
      * exfalso. apply Hal. rewrite Hx. apply (lem blk_start).
    + intros p d m Hp. destruct (HKin p d m Hp) as (v & [Kv Ku Kp Kb Kdd] & Hl & Hm).
      exists v. split_and!; auto; [split; auto; lia|].
      destruct (decide (v / PC = hv' / PC)) as [Hx|]; [|done].
      exfalso. assert (v / PC <= cv D / PC) by (apply Z.div_le_mono; lia). lia.
  - split; cbn [Dk cv tdv ckd rmd Kd]; auto; try lia.
    + intros Hx. destruct Ho4 as [[Hy _]|[-> _]]; [lia|]. rewrite (proj2 (lem blk_start _)). lia.
    + intros _ u Hu1 Hu2 Hu3. apply d_grp; auto. lia.
    + intros _ Hx. rewrite Hx. auto.
  - intros _. cbn [Dk Kd]. split; [done|]. right. cbn [cv rmd js_j]. split; [done|]. split; [done|].
    rewrite E10. exists d0. unfold K'. by rewrite lookup_insert.
Qed.

Lemma resume_none' s hv sv D : nok (js_n s) -> DI (js_n s) hv sv D -> cv D = -1 -> j_ppc (js_j s) = c ->
  exists s', journal_resume s = (ER E_TOO_BAD, s') /\ js_n s' = js_n s /\ JI s' 0 0 0 ∅ D /\
    j_root (js_j s') = PAGE_NONE /\ j_dirty (js_j s') = false /\ Kd D = ∅ /\ j_buf (js_j s') = ffs (page_size g).
Proof.
  intros Hn HD Hcv Hc. pose_geo. pose proof HD as [].
  assert (Hcb : -1 / PB = -1).
  { symmetry. apply Z.div_unique with (r := PB - 1); lia. }
  assert (HKe : Kd D = ∅).
  { apply map_empty. intros p. destruct (Kd D !! p) as [[d m]|] eqn:E; [|done].
    apply d_K in E as [? _]. lia. }
  assert (Hpe : forall k, 0 <= k < NB -> pe g c (js_n s) k = None).
  { intros k Hk. assert (E1 : (k - NB) mod NB = k).
    { rewrite <-(mod_add_self (k - NB) NB) by lia. rewrite Z.sub_add. apply Z.mod_small. lia. }
    rewrite <-E1, (pe_virt g c Hg). destruct (badv (js_n s) (k - NB)) eqn:Eb; [done|].
    rewrite Hcv, Hcb in d_ep. destruct (d_ep (k - NB)) as [H|(H & _)]; auto; try lia.
    rewrite H. destruct (decide _); [done|lia]. }
  unfold journal_resume, journal_resume_body, bind at 1, attempt, find_checkblock.
  unfold bind at 1.
  destruct (find_checkblock_loop_spec g c Hg weak MAX_RETRIES 0 s Hn Hc ltac:(lia))
    as [(j & e & b & H1 & H2 & H3 & _)|[H1 (b & H6 & H2)]].
  { rewrite Hpe in H3 by lia. done. }
  rewrite H2. unfold reset_journal, bind, getg, gets, modj, modify, fail. cbn [js_n js_j].
  rewrite (nk_geo _ _ _ Hn).
  eexists. split; [reflexivity|]. cbn [js_n js_j]. split_and!; auto.
  assert (Hu0 : user 0) by (unfold Geom.user; rewrite Z.mod_0_l; lia).
  assert (H00 : 0 / PB = 0) by (apply Z.div_0_l; lia).
  assert (H0m : 0 mod PB = 0) by (apply Z.mod_0_l; lia).
  assert (Hp0 : ph 0 = 0) by (apply (ph_small g 0); lia).
  split; cbn [js_n js_j]; auto.
  - split; cbn [js_n js_j reset_journal_j j_ppc j_head j_tail j_tsync j_epoch j_recov j_enum j_rmeta j_buf j_root set_buf]; auto; try lia.
    { apply blen_ffs. pose proof (page_size_pos g c Hg). lia. }
    intros p d m Hp. by rewrite lookup_empty in Hp.
  - rewrite Hcv, Hcb in *. split; rewrite ?Hcv, ?Hcb; auto; try lia.
    all: try (intros; exfalso; lia).
    intros p d m Hp. rewrite HKe, lookup_empty in Hp. done.
  - intros _. split; [done|]. by left.
Qed.

Lemma resume_none s hv sv D : nok (js_n s) -> DI (js_n s) hv sv D -> cv D = -1 -> j_ppc (js_j s) = c ->
  exists s', journal_resume s = (ER E_TOO_BAD, s') /\ js_n s' = js_n s /\ JI s' 0 0 0 ∅ D /\
    j_root (js_j s') = PAGE_NONE /\ j_dirty (js_j s') = false /\ Kd D = ∅.
Proof. intros H1 H2 H3 H4. destruct (resume_none' s hv sv D H1 H2 H3 H4) as (s' & H). exists s'. naive_solver. Qed.

Lemma resume_some' (Hc2 : 2 <= c) s hv sv D : nok (js_n s) -> DI (js_n s) hv sv D -> 0 <= cv D -> j_ppc (js_j s) = c ->
  blen (j_buf (js_j s)) = page_size g ->
  exists s' hv' tv' d0, journal_resume s = (OK tt, s') /\ js_n s' = js_n s /\
    (let K' := <[ph (cv D - 1) := (d0, rmd D)]> (Kd D) in
     JI s' hv' tv' tv' K' (Dk D K') /\ Kd D ⊆ K') /\
    j_root (js_j s') = ph (cv D - 1) /\ j_dirty (js_j s') = false /\ cookie s' = ckd D /\
    tdv D <= tv' /\ tv' <= sv /\ tv' < cv D /\ cv D < hv' /\
    hv' <= hv /\ (tv' = tdv D \/ tv' mod PB = 0) /\ cell_bytes g (cellv (js_n s) (cv D - 1)) = Some d0 /\
    exists cd, cellv (js_n s) (cv D) = Data cd /\
      (if ph hv' =? 0 then j_bbc (js_j s') = 0 /\ j_bbl (js_j s') = hdr_get_bb_current cd
       else j_bbc (js_j s') = hdr_get_bb_current cd /\ j_bbl (js_j s') = hdr_get_bb_last cd).
Proof.
  intros Hn HD Hcv Hc Hbl. pose_geo. pose proof HD as [].
  pose proof (cbfacts_DI g c Hg weak Hdense _ _ _ _ Hn HD Hcv) as HF.
  destruct (lg_DI s hv sv D Hn Hc HD Hcv) as (kl & HL & Hkl & Hcase).
  set (cb := cv D / PB) in *.
  assert (Hcb0 : 0 <= cb) by (apply Z.div_pos; lia).
  assert (Hcbh : cb <= hv / PB) by (apply (lem blk_le); lia).
  destruct (kof_decomp (cv D)) as [Ecv Hkc]. fold cb in Ecv. rewrite d_cvs in Ecv.
  destruct (d_td Hcv) as (T1 & T2 & T3 & T4). fold cb in T4.
  destruct (d_cp Hcv) as [Hcbad (cd & Hcd & Hmag & Hep & Htl & Hck)].
  destruct (d_root Hcv) as [(d0 & Hr1 & Hr2) Hr3].
  assert (Hcdl : blen cd = page_size g) by (eapply (nk_len _ _ _ Hn); exact Hcd).
  assert (Etdb : tdv D / PB <= cb) by (apply (lem blk_le); lia).
  (* the first checkpoint block *)
  destruct (find_checkblock_ok g c Hg weak s _ _ 0 Hn Hc HF ltac:(pose proof (cf_r _ _ _ _ _ HF); lia))
    as (first & b1 & Hf1 & Hf2 & Hf3 & Hf4).
  set (s1 := Js (js_n s) (set_epoch (epo cb) (set_buf b1 (js_j s)))).
  destruct (find_last_checkblock_spec g c Hg weak s1 (cb mod NB) first Hn Hc Hf3 HF ltac:(lia)) as (b2 & Hl1 & Hl2).
  cbn [s1 js_n js_j] in Hl2.
  set (j2 := set_buf b2 (set_epoch (epo cb) (set_buf b1 (js_j s)))) in *.
  pose proof (find_last_group_spec g c Hg weak (Js (js_n s) j2) cb kl Hn Hc HL) as Hg2.
  assert (Hgn : forall k, kof (cv D) < k <= kl ->
     cell_ep (cellv (js_n s) (cb * PB + k * PC + (PC - 1))) <> Some (epo cb)).
  { intros k Hk. pose proof (lg_r _ _ _ _ _ HL).
    destruct (gstart g c Hg cb k ltac:(lia)) as (G1 & G2 & G3).
    destruct (grp_same c (cb * PB + k * PC) (PC - 1) G3 ltac:(lia)) as [G4 G5].
    apply d_nolater; auto; [nia|]. rewrite (lem grp_same_blk); auto; lia. }
  assert (Ecp : cb * PB + kof (cv D) * PC + (PC - 1) = cv D) by lia.
  assert (Ecr : cb * PB + kof (cv D) * PC + (PC - 2) = cv D - 1) by lia.
  pose proof (find_root_spec g c Hg weak (Js (js_n s) j2) cb kl (kof (cv D)) cd Hn Hc ltac:(lia)
    ltac:(pose proof (lg_r _ _ _ _ _ HL); lia)) as Hrt. rewrite Ecp, Ecr in Hrt.
  specialize (Hrt Hcd Hmag Hep Hgn). cbn [js_n js_j] in Hrt.
  set (j3 := set_root (ph (cv D - 1)) (set_buf cd j2)) in *.
  set (j4 := set_bbl (hdr_get_bb_last cd) (set_bbc (hdr_get_bb_current cd) (set_tail (ph (tdv D)) j3))).
  destruct (clear_user_ok g c Hg (Js (js_n s) j4) ltac:(apply Hn) Hcdl) as (buf & Ebuf & Hbufl & Hbufc).
  cbn [js_n js_j] in Ebuf, Hbufc. change (j_buf j4) with cd in Hbufc. rewrite Hck in Hbufc.
  set (j5 := set_buf buf j4) in *.
  (* the head *)
  assert (Hhead : exists j6 hv' tv',
    find_head (ph (cb * PB + kl * PC)) (Js (js_n s) j5) = (OK tt, Js (js_n s) j6) /\
    head_ok (js_n s) hv hv' cb /\ cv D < hv' /\
    tdv D <= tv' /\ tv' <= sv /\ tv' <= cv D - 1 /\ user tv' /\ hv' / PB < tv' / PB + NB /\
    j_ppc j6 = c /\ j_head j6 = ph hv' /\ j_tail j6 = ph tv' /\ j_epoch j6 = epo (hv' / PB) /\
    j_buf j6 = buf /\ j_root j6 = ph (cv D - 1) /\ (tv' = tdv D \/ tv' mod PB = 0) /\
    (if ph hv' =? 0 then j_bbc j6 = 0 /\ j_bbl j6 = hdr_get_bb_current cd
     else j_bbc j6 = hdr_get_bb_current cd /\ j_bbl j6 = hdr_get_bb_last cd)).
  { assert (Htd1 : tdv D <= cv D - 1) by lia.
    destruct Hcase as [(Eb & Hkh & Hkl2)|(Hlt & -> & Hnf)].
    - destruct (kof_decomp hv) as [Ehv Hkhr]. rewrite Eb in Ehv.
      pose proof (lem slot_range hv) as Hsl. assert (Hsl2 : hv mod PC <= PC - 2) by (unfold Geom.user in d_hu; lia).
      destruct (find_head_same g c Hg weak Hc2 (Js (js_n s) j5) cb kl Hn Hc) as (hv' & F1 & F2 & F3 & F4 & F5 & F6); cbn [js_n].
      + apply HL.
      + apply (lg_le _ _ _ _ _ HL). pose proof (lg_r _ _ _ _ _ HL). lia.
      + intros Hk1. apply (lg_gt _ _ _ _ _ HL). lia.
      + intros Hk1. assert (kl = kof hv) as -> by lia.
        destruct (gstart g c Hg cb (kof hv) Hkhr) as (G1 & G2 & G3).
        split; apply d_free; auto; try lia; rewrite (lem grp_same_blk); auto; try lia; congruence.
      + cbn [js_n js_j] in *.
        assert (Hle : hv' <= hv).
        { destruct Hkl2 as [-> | [-> _]]; [|nia].
          destruct (gstart g c Hg cb (kof hv) Hkhr) as (G1 & G2 & G3).
          assert (Hfr : forall i, hv mod PC <= i < PC -> cellv (js_n s) (cb * PB + kof hv * PC + i) = Free).
          { intros i Hi. apply d_free; auto; [lia|]. rewrite (lem grp_same_blk); auto; [congruence|lia]. }
          destruct F6 as [[-> [Hx|Hx]]|Hx].
          - exfalso. apply Hx, Hfr. lia.
          - exfalso. apply Hx, Hfr. lia.
          - destruct (Z.le_gt_cases hv' hv); [done|]. exfalso. apply Hx.
            replace (hv' - 1) with (cb * PB + kof hv * PC + (hv' - 1 - (cb * PB + kof hv * PC))) by lia.
            apply Hfr. lia. }
        exists (set_head (ph hv') j5), hv', (tdv D). split; [done|]. split_and!; auto; try lia.
        * split; auto. intros _ v Hv Hvb.
          destruct (Z.le_gt_cases hv v) as [Hv2|Hv2].
          { apply d_free; auto. congruence. }
          clear Hle. destruct (Z.lt_ge_cases v (cb * PB + (kl + 1) * PC)) as [Hv3|Hv3].
          { by apply F5; lia. }
          destruct Hkl2 as [-> | [-> _]]; [nia|].
          replace v with (cb * PB + kof hv * PC + (v - (cb * PB + kof hv * PC))) by lia.
          apply (lg_gt _ _ _ _ _ HL); nia.
        * destruct Hkl2 as [-> | [-> Hnf]]; [nia|].
          assert (cb * PB + (kof hv - 1) * PC + (PC - 1) < hv');
            [|assert (kof (cv D) * PC <= (kof hv - 1) * PC) by (apply Z.mul_le_mono_nonneg_r; lia); lia].
          destruct (gstart g c Hg cb (kof hv - 1) ltac:(lia)) as (G1 & G2 & G3).
          destruct (Z.eq_dec hv' (cb * PB + (kof hv - 1) * PC + (PC - 1))) as [Hx|Hxn].
          { exfalso. apply F3. rewrite Hx. apply (grp_same c); auto; lia. }
          destruct (Z.le_gt_cases (cb * PB + (kof hv - 1) * PC + (PC - 1)) hv') as [|Hlt2]; [lia|].
          exfalso. destruct Hnf as [Hx|Hx]; apply Hx, F5; lia.
        * cbn. by rewrite F4.
        * assert (Hnz : ph hv' <> 0); [|by rewrite (proj2 (Z.eqb_neq _ _) Hnz)].
          intros E0. pose proof (lem ph_off hv') as Eo. rewrite E0, Z.mod_0_l in Eo by lia.
          pose proof (lem v_decomp hv') as Ed. rewrite F4, <-Eo in Ed. fold cb in Ed. nia.
    - destruct (find_head_next g c Hg weak Hc2 (Js (js_n s) j5) cb (tdv D) Hn Hc) as (j6 & F1 & F2 & F3 & F4 & F5 & F6 & F7 & F8); auto.
      { lia. }
      cbn [js_n js_j] in *.
      exists j6, ((cb + 1) * PB), (if decide (tdv D / PB + NB = cb + 1) then (tdv D / PB + 1) * PB else tdv D).
      destruct (lem blk_start (cb + 1)) as [B1 B2].
      pose proof (lem blk_lt_start (cv D) (cb + 1) ltac:(unfold cb; lia)) as Hcvlt.
      assert (Htt : tdv D < (tdv D / PB + 1) * PB) by (apply (lem blk_lt_start); lia).
      split; [done|]. split.
      { split; rewrite ?B1; try lia.
        - apply (lem blk_start_user).
        - apply (lem blk_ge_start). lia. }
      rewrite B1. destruct (decide (tdv D / PB + NB = cb + 1)) as [Hd|Hd].
      + destruct (lem blk_start (tdv D / PB + 1)) as [B3 B4]. rewrite B3. split_and!; auto; try lia.
        * apply (lem blk_ge_start). lia.
        * pose proof (kof_decomp (cv D)) as [_ ?]. nia.
        * apply (lem blk_start_user).
      + split_and!; auto; lia. }
  destruct Hhead as (j6 & hv' & tv' & F1 & Ho & H1 & H2 & H3 & H4 & H5 & H6 & F2 & F3 & F4 & F5 & F6 & F7 & F8 & F9).
  set (j7 := clear_recovery_j (set_tsync (j_tail j6) (set_dirty false (set_badmeta false (set_recov false (set_enum false j6)))))).
  assert (Erun : journal_resume s = (OK tt, Js (js_n s) j7)).
  { unfold journal_resume, attempt, bind at 1.
    assert (Eb : journal_resume_body s = (OK tt, Js (js_n s) j7)); [|by rewrite Eb].
    unfold journal_resume_body, bind at 1. rewrite Hf4.
    unfold bind at 1, getj at 1, gets at 1. cbn [js_n js_j]. change (j_buf (set_buf b1 (js_j s))) with b1. rewrite Hf2.
    unfold bind at 1, modj at 1, modify at 1. cbn [js_n js_j]. fold s1.
    unfold bind at 1. rewrite Hl2. fold j2. unfold bind at 1. rewrite Hg2.
    unfold bind at 1. rewrite Hrt. fold j3.
    unfold bind at 1, getj at 1, gets at 1. cbn [js_n js_j]. change (j_buf j3) with cd.
    do 3 (unfold bind at 1, modj at 1, modify at 1; cbn [js_n js_j]). rewrite Htl. fold j4.
    unfold bind at 1. rewrite Ebuf. fold j5. unfold bind at 1. rewrite F1.
    reflexivity. }
  exists (Js (js_n s) j7), hv', tv', d0. split; [done|]. cbn [js_n js_j]. split; [done|].
  split; [|split_and!].
  - apply (JI_resume s hv sv D hv' tv' d0 j7); auto.
    unfold j7. cbn. by rewrite F6.
  - by unfold j7.
  - done.
  - unfold cookie. cbn [js_j]. change (j_buf j7) with (j_buf j6). by rewrite F6.
  - done.
  - done.
  - lia.
  - lia.
  - apply Ho.
  - done.
  - done.
  - exists cd. split; [done|]. exact F9.
Qed.

Lemma resume_some (Hc2 : 2 <= c) s hv sv D : nok (js_n s) -> DI (js_n s) hv sv D -> 0 <= cv D -> j_ppc (js_j s) = c ->
  blen (j_buf (js_j s)) = page_size g ->
  exists s' hv' tv' d0, journal_resume s = (OK tt, s') /\ js_n s' = js_n s /\
    (let K' := <[ph (cv D - 1) := (d0, rmd D)]> (Kd D) in
     JI s' hv' tv' tv' K' (Dk D K') /\ Kd D ⊆ K') /\
    j_root (js_j s') = ph (cv D - 1) /\ j_dirty (js_j s') = false /\ cookie s' = ckd D.
Proof.
  intros Hn HD Hcv Hc Hbl.
  destruct (resume_some' Hc2 s hv sv D) as (s' & hv' & tv' & d0 & H1 & H2 & H3 & H4 & H5 & H6 & _); auto.
  by exists s', hv', tv', d0.
Qed.
End resume.
