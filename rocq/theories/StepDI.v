(** How the on-chip invariant [DI] evolves under each kind of chip update. *)
From stdpp Require Import gmap.
From Verif Require Import Base Bytes BytesLemmas Nand Journal Geom Tree Inv.
Local Open Scope Z_scope.

Section step.
Context (g : geo) (c : Z) (Hg : geo_ok g c) (weak : Z -> bool).
Notation PB := (PB g).
Notation PC := (PC c).
Notation NB := (NB g).
Notation TT := (TT g).
Notation ph := (ph g).
Notation user := (user c).
Notation nextv := (nextv c).
Notation cpv := (cpv c).
Notation cellv := (cellv g).
Notation badv := (badv g).
Notation cell_ep := (cell_ep g).
Notation blk_ep := (blk_ep g c).
Notation epo := (epo g).
Notation fcp := (fcp g c).
Notation kmeta := (kmeta g c).
Notation kd_ok := (kd_ok g c).
Notation DI := (DI g c).

Ltac pose_geo :=
  pose proof (PC_ge _ _ Hg) as HPC4; pose proof (PC_le _ _ Hg) as HPC256;
  pose proof (PB_pos _ _ Hg) as HPB4; pose proof (PB_ge _ _ Hg) as HPBC;
  pose proof (NB_ge _ _ Hg) as HNB8.

(** ** More geometry *)
Lemma grp_same u k : u mod PC = 0 -> 0 <= k < PC -> (u + k) / PC = u / PC /\ (u + k) mod PC = k.
Proof. intros Hu Hk. destruct (divmod_add PC u k) as [H1 H2]; lia. Qed.
Lemma grp_same_blk u k : u mod PC = 0 -> 0 <= k < PC -> (u + k) / PB = u / PB.
Proof. intros Hu Hk. apply (grp_blk _ _ Hg). by apply grp_same. Qed.
Lemma fcp_facts b : fcp b / PB = b /\ fcp b mod PC = PC - 1 /\ fcp b mod PB = PC - 1.
Proof.
  pose_geo. unfold fcp. destruct (blk_eq _ _ Hg (b * PB + (PC - 1)) b (PC - 1)) as [H4 H5]; [lia|done|].
  split_and!; auto. rewrite (slot_of_off _ _ Hg), H5. apply Z.mod_small. lia.
Qed.
Lemma cp_ge_fcp u b : u / PB = b -> u mod PC = PC - 1 -> fcp b <= u.
Proof.
  intros Hb Hs. pose_geo. unfold fcp.
  pose proof (v_decomp _ _ Hg u) as E. rewrite Hb in E.
  pose proof (off_grp _ _ Hg u) as Ho. rewrite Hs in Ho.
  pose proof (Z.mod_pos_bound (u / PC) (GP g c) ltac:(pose proof (GP_ge _ _ Hg); lia)). nia.
Qed.
Lemma first_group v : v mod PB < PC -> user v -> cpv v = fcp (v / PB).
Proof.
  intros Ho Hu. pose_geo. unfold Geom.cpv, fcp.
  pose proof (v_decomp _ _ Hg v) as E.
  pose proof (off_range _ _ Hg v).
  assert (Hs : v mod PC = v mod PB) by (rewrite (slot_of_off _ _ Hg); apply Z.mod_small; lia).
  pose proof (Z.div_mod v PC ltac:(lia)). lia.
Qed.

(** ** Periodicity *)
Lemma ph_per v : ph (v + TT) = ph v.
Proof. unfold Geom.ph. pose proof (TT_pos _ _ Hg). rewrite <-(Z.mul_1_l TT) at 1. by rewrite Z.mod_add by lia. Qed.
Lemma cellv_per n v : cellv n (v + TT) = cellv n v.
Proof. unfold Inv.cellv. by rewrite ph_per. Qed.
Lemma blk_ep_per n b : blk_ep n (b + NB) = blk_ep n b.
Proof.
  unfold Inv.blk_ep, Inv.fcp. rewrite <-(cellv_per n (b * PB + (PC - 1))). do 2 f_equal. unfold Geom.TT. lia.
Qed.
Lemma badv_per n b : badv n (b + NB) = badv n b.
Proof. unfold Inv.badv. pose_geo. rewrite <-(Z.mul_1_l NB) at 1. by rewrite Z.mod_add by lia. Qed.

Lemma epo_succ b : (b + 1) mod NB = 0 -> epo (b + 1) = w8 (epo b + 1).
Proof.
  intros H. unfold Inv.epo, w8. pose_geo.
  assert (E : (b + 1) / NB = b / NB + 1).
  { pose proof (Z.div_mod (b + 1) NB ltac:(lia)). pose proof (Z.div_mod b NB ltac:(lia)).
    pose proof (Z.mod_pos_bound b NB ltac:(lia)). nia. }
  rewrite E. by rewrite Zplus_mod_idemp_l.
Qed.
Lemma epo_same b : (b + 1) mod NB <> 0 -> epo (b + 1) = epo b.
Proof.
  intros H. unfold Inv.epo. pose_geo. f_equal.
  pose proof (Z.div_mod (b + 1) NB ltac:(lia)). pose proof (Z.div_mod b NB ltac:(lia)).
  pose proof (Z.mod_pos_bound b NB ltac:(lia)). pose proof (Z.mod_pos_bound (b + 1) NB ltac:(lia)). nia.
Qed.
Lemma epo_range b : 0 <= epo b < 256.
Proof. apply Z.mod_pos_bound. lia. Qed.

Lemma cell_ep_free : cell_ep Free = None.
Proof.
  unfold Inv.cell_ep. cbn [cell_bytes].
  assert (E : hdr_has_magic (ffs (page_size g)) = false); [|by rewrite E].
  unfold hdr_has_magic, bget, ffs. by destruct (Z.to_nat (page_size g)).
Qed.
Lemma cell_ep_junk o : cell_ep (Junk o) = None.
Proof.
  unfold Inv.cell_ep. cbn [cell_bytes]. unfold garbage. destruct o as [d|]; [|done].
  destruct (blen d =? page_size g); [|done]. cbn [andb]. unfold hdr_has_magic. by destruct (_ && _ && _) eqn:E; cbn [negb]; [|rewrite E].
Qed.

Lemma blk_mono a b : a <= b -> a / PB <= b / PB.
Proof. apply (blk_le _ _ Hg). Qed.

(** ** Updates of the head block while the last checkpoint is in an older one *)
Lemma DI_head_gt n n' hv sv D :
  DI n hv sv D -> cv D / PB < hv / PB ->
  (forall b, hv / PB - NB < b < hv / PB -> badv n' b = badv n b) ->
  (forall u, hv / PB - NB < u / PB < hv / PB -> cellv n' u = cellv n u) ->
  (badv n' (hv / PB) = false -> badv n (hv / PB) = false /\
    (blk_ep n' (hv / PB) = None \/ blk_ep n' (hv / PB) = blk_ep n (hv / PB))) ->
  DI n' hv sv D.
Proof.
  intros [] Hlt Hbad Hcell Hep. pose_geo.
  assert (Hfcp : forall b, hv / PB - NB < b < hv / PB -> blk_ep n' b = blk_ep n b).
  { intros b Hb. unfold Inv.blk_ep. rewrite Hcell; [done|]. rewrite (proj1 (fcp_facts b)). lia. }
  assert (Hkm : forall v m, hv / PB - NB < v / PB < hv / PB -> kmeta n v m -> kmeta n' v m).
  { intros v m Hv (cd & H1 & H2). exists cd. split; [|done]. rewrite Hcell; [done|].
    destruct (cpv_facts _ _ Hg v) as (_ & _ & ->). lia. }
  assert (Hcb1 : 0 <= cv D -> (cv D - 1) / PB = cv D / PB).
  { intros _. replace (cv D) with ((cv D - 1) + 1) at 2 by lia. symmetry.
    apply (grp_blk _ _ Hg). destruct (divmod_add PC (cv D - 1) 1) as [H8 _]; [lia| |done].
    destruct (divmod_add PC (cv D) (-1)) as [_ H8]; [lia|lia|].
    replace (cv D + -1) with (cv D - 1) in H8 by lia. lia. }
  split; auto; try lia.
  - intros b Hb. rewrite Hbad by lia. auto.
  - intros b Hb Hnb.
    assert (Hgap' : forall b', cv D / PB < b' < hv / PB -> badv n' b' = true).
    { intros b' Hb'. rewrite Hbad by lia. auto. }
    destruct (Z.lt_trichotomy b (hv / PB - NB)) as [Hl|[He|Hr]].
    + exfalso. rewrite <-(badv_per n'), Hgap' in Hnb by lia. done.
    + assert (Ep : forall x, blk_ep x b = blk_ep x (hv / PB)).
      { intros x. rewrite <-(blk_ep_per x b). f_equal. lia. }
      assert (Epb : forall x, badv x b = badv x (hv / PB)).
      { intros x. rewrite <-(badv_per x b). f_equal. lia. }
      rewrite Epb in Hnb. destruct (Hep Hnb) as [Hb' [E|E]].
      * right. rewrite Ep. split; [done|]. split; [lia|]. intros b' Hbb'. apply Hgap'. lia.
      * rewrite Ep, E, <-Ep. destruct (d_ep b Hb) as [?|(H7 & H8 & H9)]; [by rewrite Epb|by left|].
        right. split; [done|]. split; [done|]. intros b' Hbb'. apply Hgap'. lia.
    + rewrite Hbad in Hnb by lia. rewrite Hfcp by lia.
      destruct (d_ep b Hb Hnb) as [?|(H7 & H8 & H9)]; [by left|right].
      split; [done|]. split; [done|]. intros b' Hbb'.
      destruct (Z.lt_trichotomy b' (hv / PB)) as [Hl|[He|Hg']].
      * apply Hgap'. lia.
      * subst b'. destruct (badv n' (hv / PB)) eqn:E; [done|].
        destruct (Hep eq_refl) as [E' _]. rewrite H9 in E' by lia. done.
      * specialize (H9 b' Hbb'). rewrite <-H9. replace b' with (b' - NB + NB) by lia.
        rewrite !badv_per. apply Hbad. lia.
  - intros H0'. rewrite Hbad by lia. rewrite Hcell by lia. auto.
  - intros H0' u Hu1 Hu2 Hu3. rewrite Hcell by lia. auto.
  - intros H0' u Hu1 Hu2 Hu3. rewrite !Hcell; auto.
    + replace (u + PC - 1) with (u + (PC - 1)) by lia. rewrite grp_same_blk by lia. lia.
    + replace (u + PC - 2) with (u + (PC - 2)) by lia. rewrite grp_same_blk by lia. lia.
  - intros p d m Hp. destruct (d_K p d m Hp) as (Hc0 & v & [] & Hd & Hm). split; [done|].
    assert (Hvb : hv / PB - NB < v / PB < hv / PB).
    { pose proof (blk_mono sv v ltac:(lia)). pose proof (blk_mono v (cv D) ltac:(lia)). lia. }
    exists v. split_and!; auto. split; auto.
    + by rewrite Hbad by lia.
    + by rewrite Hcell by lia.
  - intros Hc0. destruct (d_root Hc0) as [(d & H7 & H8) H9]. split.
    + exists d. rewrite Hcell; auto. rewrite Hcb1 by done. lia.
    + apply Hkm; auto. rewrite Hcb1 by done. lia.
Qed.

(** ** Updates at the head of the block holding the last checkpoint *)
Lemma DI_head_eq n n' hv hv2 sv D :
  DI n hv sv D -> cv D / PB = hv / PB ->
  (forall b, badv n' b = badv n b) ->
  (forall u, hv / PB - NB < u / PB <= hv / PB -> u < hv -> cellv n' u = cellv n u) ->
  hv <= hv2 <= (hv / PB + 1) * PB -> user hv2 -> hv2 / PB < sv / PB + NB ->
  (forall u, hv2 <= u -> u / PB = hv / PB -> cellv n' u = Free) ->
  (forall u, hv <= u < hv2 -> u mod PC = PC - 1 -> cell_ep (cellv n' u) = None) ->
  (forall u, u mod PC = 0 -> u / PB = hv / PB -> hv < u + PC <= hv2 ->
     cellv n' (u + PC - 2) <> Free \/ cellv n' (u + PC - 1) <> Free) ->
  DI n' hv2 sv D.
Proof.
  intros [] Heq Hbad Hcell Hhv2 Hu2 Hfull2 Hfree2 Hcps Hgrp2. pose_geo.
  assert (Hc0 : 0 <= cv D).
  { assert (0 <= hv / PB) by (apply Z.div_pos; lia).
    pose proof (v_decomp _ _ Hg (cv D)). pose proof (off_range _ _ Hg (cv D)). nia. }
  assert (Hb2 : (hv2 / PB = hv / PB) \/ (hv2 / PB = hv / PB + 1 /\ hv2 = (hv / PB + 1) * PB)).
  { destruct (decide (hv2 = (hv / PB + 1) * PB)) as [E|].
    - right. split; [|done]. rewrite E. apply (blk_start _ _ Hg).
    - left. pose proof (blk_mono hv hv2 ltac:(lia)).
      destruct (Z.le_gt_cases (hv / PB + 1) (hv2 / PB)) as [Hle|]; [|lia].
      apply (blk_ge_start _ _ Hg) in Hle. lia. }
  assert (Hcellold : forall u, hv / PB - NB < u / PB -> u < hv -> cellv n' u = cellv n u).
  { intros u H7 H8. apply Hcell; [|done]. pose proof (blk_mono u hv ltac:(lia)). lia. }
  assert (Hfc : fcp (cv D / PB) < hv).
  { pose proof (cp_ge_fcp (cv D) _ eq_refl d_cvs). lia. }
  assert (Hfcplt : forall b, b <= cv D / PB -> fcp b < hv).
  { intros b Hb. unfold Inv.fcp in *. nia. }
  assert (Hfcp : forall b, hv / PB - NB < b <= cv D / PB -> blk_ep n' b = blk_ep n b).
  { intros b Hb. unfold Inv.blk_ep. rewrite Hcellold; [done| |by apply Hfcplt; lia].
    rewrite (proj1 (fcp_facts b)). lia. }
  assert (Hcpv : forall v, v < cv D -> cpv v <= cv D).
  { intros v Hv. destruct (cpv_facts _ _ Hg v) as (H7 & H8 & _).
    unfold Geom.cpv in *. pose proof (Z.div_mod (cv D) PC ltac:(lia)).
    assert (v / PC <= cv D / PC) by (apply Z.div_le_mono; lia). nia. }
  assert (Hkm : forall v m, hv / PB - NB < v / PB -> v < cv D -> kmeta n v m -> kmeta n' v m).
  { intros v m Hv Hvc (cd & H7 & H8). exists cd. split; [|done]. rewrite Hcellold; [done| |].
    - destruct (cpv_facts _ _ Hg v) as (_ & _ & ->). lia.
    - pose proof (Hcpv v Hvc). lia. }
  assert (Hcb1 : (cv D - 1) / PB = cv D / PB).
  { replace (cv D) with ((cv D - 1) + 1) at 2 by lia. symmetry.
    apply (grp_blk _ _ Hg). destruct (divmod_add PC (cv D - 1) 1) as [H7 _]; [lia| |done].
    destruct (divmod_add PC (cv D) (-1)) as [_ H8]; [lia|lia|].
    replace (cv D + -1) with (cv D - 1) in H8 by lia. lia. }
  split; auto; try lia.
  - intros Hlt. destruct Hb2 as [|[_ E]]; [lia|]. rewrite E.
    rewrite (proj2 (blk_start _ _ Hg _)). lia.
  - intros b Hb. rewrite Hbad. rewrite Hfcp by lia. intros Hnb.
    destruct (d_ep b Hb Hnb) as [?|(H7 & H8 & H9)]; [by left|right].
    split; [done|]. split; [done|]. intros b' Hbb'. rewrite Hbad. auto.
  - intros _. rewrite Hbad. rewrite Hcellold by lia. auto.
  - intros _ u Hu1 Hub Hus. destruct (Z.lt_ge_cases u hv) as [Hlt|Hge].
    + rewrite Hcellold by lia. auto.
    + destruct (Z.lt_ge_cases u hv2) as [Hlt2|Hge2].
      * rewrite Hcps by (auto; lia). done.
      * rewrite Hfree2 by (auto; lia). by rewrite cell_ep_free.
  - intros _ u Hus Hub Hle. destruct (Z.le_gt_cases (u + PC) hv) as [Hle'|Hgt].
    + rewrite !Hcellold; auto; try lia.
      * replace (u + PC - 1) with (u + (PC - 1)) by lia. rewrite grp_same_blk by lia. lia.
      * replace (u + PC - 2) with (u + (PC - 2)) by lia. rewrite grp_same_blk by lia. lia.
    + apply Hgrp2; auto; lia.
  - intros _ Heq2 v Hv Hvb. apply Hfree2; [done|lia].
  - intros p d m Hp. destruct (d_K p d m Hp) as (_ & v & [] & Hd & Hm). split; [done|].
    assert (Hvb : hv / PB - NB < v / PB).
    { pose proof (blk_mono sv v ltac:(lia)). lia. }
    exists v. split_and!; auto; [|by apply Hkm; [| lia |]]. split; auto.
    + by rewrite Hbad.
    + rewrite Hcellold by lia. done.
  - intros _. destruct (d_root Hc0) as [(d & H7 & H8) H9]. split.
    + exists d. rewrite Hcellold; auto; lia.
    + apply Hkm; auto; lia.
Qed.

(** ** Skipping a bad block *)
Lemma dense_gap n hv sv D : dense g weak -> nok g weak n -> DI n hv sv D ->
  badv n (hv / PB) = true -> cv D / PB < hv / PB -> hv / PB + 1 < cv D / PB + NB.
Proof.
  intros Hd Hn HD Hb Hlt. pose_geo.
  destruct (Z.lt_ge_cases (hv / PB + 1) (cv D / PB + NB)) as [|Hge]; [done|exfalso].
  destruct (Hd (cv D / PB + 1)) as (i & j & Hij & Hj & Hi & _).
  pose proof (nk_bad _ _ _ Hn ((cv D / PB + 1 + i) mod NB)) as Hw.
  rewrite Hi in Hw.
  destruct (Z.eq_dec (cv D / PB + 1 + i) (hv / PB)) as [E|Hne].
  - unfold Inv.badv in Hb. rewrite <-E in Hb. specialize (Hw Hb). done.
  - assert (badv n (cv D / PB + 1 + i) = true) as Hb2.
    { apply (d_gap _ _ _ _ _ _ HD). pose proof (d_near _ _ _ _ _ _ HD). lia. }
    specialize (Hw Hb2). done.
Qed.

Lemma DI_skip n hv sv D :
  DI n hv sv D -> hv mod PB = 0 -> badv n (hv / PB) = true ->
  hv / PB + 1 < sv / PB + NB -> hv / PB + 1 < cv D / PB + NB ->
  DI n ((hv / PB + 1) * PB) sv D.
Proof.
  intros [] Hal Hb Hfull Hnear. pose_geo.
  assert (Hlt : cv D / PB < hv / PB).
  { destruct (Z.lt_ge_cases (cv D / PB) (hv / PB)) as [|Hge]; [done|].
    apply (blk_ge_start _ _ Hg) in Hge. pose proof (v_decomp _ _ Hg hv). lia. }
  pose proof (blk_start _ _ Hg (hv / PB + 1)) as [E1 E2].
  assert (Hhv : hv < (hv / PB + 1) * PB) by (apply (blk_lt_start _ _ Hg); lia).
  split; rewrite ?E1, ?E2; auto; try lia.
  - apply (blk_start_user _ _ Hg).
  - intros b Hbb. destruct (Z.eq_dec b (hv / PB)) as [->|]; [done|]. apply d_gap. lia.
  - intros Hc0 u Hu1 Hu2 Hu3. apply d_grp; auto.
    assert (Hub : (u + (PC - 1)) / PB = cv D / PB) by (rewrite grp_same_blk by lia; done).
    pose proof (blk_lt_start _ _ Hg (u + (PC - 1)) (hv / PB) ltac:(lia)).
    pose proof (v_decomp _ _ Hg hv). lia.
Qed.

(** ** A new checkpoint *)
Lemma DI_cp n n' hv tv sv D D' buf :
  DI n hv sv D ->
  sv <= tv <= hv -> user tv -> hv mod PC = PC - 2 -> nextv hv / PB < sv / PB + NB ->
  badv n' (hv / PB) = false ->
  (forall b, badv n' b = badv n b) ->
  (forall u, hv / PB - NB < u / PB <= hv / PB -> u < hv -> cellv n' u = cellv n u) ->
  cellv n' (hv + 1) = Data buf ->
  (forall u, hv + 2 <= u -> u / PB = hv / PB -> cellv n' u = Free) ->
  hdr_has_magic buf = true -> hdr_get_epoch buf = epo (hv / PB) -> hdr_get_tail buf = ph tv ->
  slice HEADER_SIZE COOKIE_SIZE buf = ckd D' -> blen (ckd D') = COOKIE_SIZE ->
  cv D' = hv + 1 -> tdv D' = tv ->
  (forall p d m, Kd D' !! p = Some (d, m) ->
     exists v, kd_ok n' tv (hv + 1) p d m v /\ blen d = page_size g /\ kmeta n' v m) ->
  (exists d, cell_bytes g (cellv n' hv) = Some d /\ blen d = page_size g) ->
  kmeta n' hv (rmd D') ->
  DI n' (hv + 2) tv D'.
Proof.
  intros [] Htv Hut Hslot Hnf Hgood Hbad Hcell Hcp Hfree Hmag Hep Htl Hck Hckl Ecv Etd HK Hroot Hrm.
  pose_geo.
  assert (Hnx : nextv hv = hv + 2).
  { destruct (nextv_cases _ _ Hg hv d_hu) as [(?&?)|(?&?&?)]; [lia|done]. }
  rewrite Hnx in *.
  assert (Hb1 : (hv + 1) / PB = hv / PB).
  { apply (grp_blk _ _ Hg). destruct (divmod_add PC hv 1) as [H7 _]; lia. }
  assert (Hs1 : (hv + 1) mod PC = PC - 1).
  { destruct (divmod_add PC hv 1) as [_ H7]; lia. }
  assert (Hs2 : (hv + 2) mod PC = 0).
  { destruct (divmod_wrap PC hv 2) as [_ H7]; lia. }
  assert (Hb2 : (hv + 2) / PB = hv / PB \/ ((hv + 2) / PB = hv / PB + 1 /\ (hv + 2) mod PB = 0)).
  { destruct (nextv_blk _ _ Hg hv d_hu) as [[H7 _]|(H7 & H8 & _)]; rewrite Hnx in *; auto. }
  assert (Hsb : sv / PB <= tv / PB) by (apply blk_mono; lia).
  assert (Hcb : cv D / PB <= hv / PB) by (apply blk_mono; lia).
  assert (Hold : forall b, hv / PB - NB < b < hv / PB -> badv n' b = false ->
    blk_ep n' b = (if decide (b < 0) then None else Some (epo b)) \/
    (blk_ep n' b = None /\ forall b', hv / PB < b' < b + NB -> badv n' b' = true)).
  { intros b Hb Hbb. rewrite Hbad in Hbb.
    destruct (Z.le_gt_cases b (cv D / PB)) as [Hle|Hgt].
    - unfold Inv.blk_ep. pose proof (proj1 (fcp_facts b)) as Ef. rewrite Hcell.
      + destruct (d_ep b) as [?|(H7 & H8 & H9)]; [lia|done|by left|].
        destruct (Z.eq_dec (cv D / PB) (hv / PB)) as [Heq|Hne].
        * right. split; [done|]. intros b' Hb'. rewrite Hbad. apply H9. lia.
        * exfalso. rewrite Hbad in Hgood. rewrite H9 in Hgood by lia. done.
      + lia.
      + destruct (Z.lt_ge_cases (fcp b) hv) as [|Hge]; [done|]. apply blk_mono in Hge. lia.
    - rewrite d_gap in Hbb by lia. done. }
  assert (Hhb0 : 0 <= hv / PB) by (apply Z.div_pos; lia).
  assert (Hhead : blk_ep n' (hv / PB) = Some (epo (hv / PB))).
  { destruct (Z.eq_dec (cv D / PB) (hv / PB)) as [Heq|Hne].
    - pose proof (cp_ge_fcp (cv D) _ eq_refl d_cvs) as Hf. rewrite Heq in Hf.
      unfold Inv.blk_ep. rewrite Hcell.
      + change (Inv.cell_ep g (cellv n (fcp (hv / PB)))) with (blk_ep n (hv / PB)).
        destruct (d_ep (hv / PB)) as [E|(_ & H8 & _)]; [lia|by rewrite <-Hbad| |lia].
        rewrite E. by rewrite decide_False by lia.
      + rewrite (proj1 (fcp_facts _)). lia.
      + lia.
    - unfold Inv.blk_ep.
      assert (Ef : hv + 1 = fcp (hv / PB)).
      { rewrite <-(first_group hv); [|apply d_first; lia|done].
        unfold Geom.cpv. pose proof (Z.div_mod hv PC ltac:(lia)). lia. }
      rewrite <-Ef, Hcp. unfold Inv.cell_ep. cbn [cell_bytes]. by rewrite Hmag, Hep. }
  split; rewrite ?Ecv, ?Etd, ?Hb1; auto; try lia.
  - unfold Geom.user. lia.
  - intros b Hb Hbb. destruct (Z.eq_dec b (hv / PB)) as [->|].
    + left. rewrite Hhead. by rewrite decide_False by lia.
    + destruct (Hold b) as [?|[H7 H8]]; [lia|done|by left|right]. split_and!; auto. lia.
  - intros _. split; [done|]. exists buf. auto.
  - intros _ u Hu1 Hu2 Hu3. rewrite Hfree by lia. by rewrite cell_ep_free.
  - intros _ u Hus Hub Hle.
    destruct (Z.eq_dec (u + PC) (hv + 2)) as [E|Hne].
    + right. replace (u + PC - 1) with (hv + 1) by lia. by rewrite Hcp.
    + assert (Hle' : u + PC <= hv).
      { destruct (Z.le_gt_cases (u + PC) hv) as [|Hgt]; [done|].
        assert (Eu : u + PC = hv + 1) by lia.
        assert (E : (u + PC) mod PC = 0) by (rewrite <-Hus, <-(Z.mul_1_l PC) at 1; apply Z.mod_add; lia).
        rewrite Eu in E. lia. }
      destruct (Z.eq_dec (cv D / PB) (hv / PB)) as [Heq|Hneq].
      * assert (Hc0 : 0 <= cv D).
        { pose proof (v_decomp _ _ Hg (cv D)). pose proof (off_range _ _ Hg (cv D)). nia. }
        rewrite !Hcell.
        -- apply d_grp; auto. lia.
        -- replace (u + PC - 1) with (u + (PC - 1)) by lia. rewrite grp_same_blk by lia. lia.
        -- lia.
        -- replace (u + PC - 2) with (u + (PC - 2)) by lia. rewrite grp_same_blk by lia. lia.
        -- lia.
      * exfalso. assert (hv mod PB < PC) by (apply d_first; lia).
        pose proof (v_decomp _ _ Hg hv) as E1. pose proof (v_decomp _ _ Hg u) as E2.
        pose proof (off_range _ _ Hg u). rewrite Hub in E2. lia.
  - intros _ Heq v Hv Hvb. apply Hfree; lia.
  - intros _. split_and!; auto; try lia.
  - intros p d m Hp. split; [lia|]. destruct (HK p d m Hp) as (v & Hv & ?). by exists v.
  - intros _. replace (hv + 1 - 1) with hv by lia. auto.
Qed.
End step.
