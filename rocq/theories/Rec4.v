(** Bad-block recovery: the state after an append, and the end of a recovery. *)
From stdpp Require Import gmap fin_maps.
From Verif Require Import Base Bytes BytesLemmas Wp Nand Journal MapModel Geom Tree Rep Inv Hdr StepDI StepNand StepJ StepA StepR San Top Bm Rec Rec2 Rec3.
Local Open Scope Z_scope.

Section rec4.
Context (g : geo) (c : Z) (Hg : geo_ok2 g c) (weak : Z -> bool) (Hdense : dense g weak).
Notation PB := (PB g).
Notation PC := (PC c).
Notation NB := (NB g).
Notation TT := (TT g).
Notation ph := (ph g).
Notation user := (user c).
Notation nextv := (nextv c).
Notation cpv := (cpv c).
Notation cellv := (cellv g).
Notation badv := (badv g).
Notation cell_ep := (cell_ep g).
Notation blk_ep := (blk_ep g c).
Notation epo := (epo g).
Notation moff := (moff c).
Notation fcp := (fcp g c).
Notation kmeta := (kmeta g c).
Notation kd_ok := (kd_ok g c).
Notation DI := (DI g c).
Notation nok := (nok g weak).
Notation JInv := (JInv g c).
Notation JI := (JI g c weak).
Notation nokF := (nokF g weak).
Notation peF := (peF g weak).
Notation rmet := (rmet g c).
Notation RI := (RI g c weak).
Notation RReady := (RReady g c weak).

Ltac pose_geo :=
  pose proof (PC_ge4 _ (go2_c _ _ Hg)) as HPC4; pose proof (PC_le _ _ Hg) as HPC256;
  pose proof (PB_pos _ _ Hg) as HPB4; pose proof (PB_ge _ _ Hg) as HPBC;
  pose proof (NB_ge _ _ Hg) as HNB8; pose proof (TT_le _ _ Hg) as HTT31;
  pose proof (TT_pos _ _ Hg) as HTTpos.
Notation "'lem' x" := (x g c Hg) (at level 9, x at level 8, only parsing).
Notation "'lemw' x" := (x g c Hg weak) (at level 9, x at level 8, only parsing).

Lemma RI_fresh s rc hv tv sv rv mo K K0 : RI s rc hv tv sv rv mo K K0 -> K !! ph hv = None.
Proof.
  intros HR. destruct (K !! ph hv) as [[d m]|] eqn:E; [|done]. exfalso. pose_geo.
  destruct (ri_K _ _ _ _ _ _ _ _ _ _ _ _ HR _ _ _ E) as (v & [] & _).
  assert (v = hv); [|lia].
  pose proof (lemw RI_Kwin _ _ _ _ _ _ _ _ _ v HR kd_v).
  apply (lem win_page (hv / PB)); [lia|lia|done].
Qed.

Lemma RI_app s s' hv tv sv rv mo K K0 d m :
  RReady s true hv tv sv rv mo K K0 ->
  nokF (js_n s') ->
  (forall b, badv (js_n s') b = badv (js_n s) b) ->
  (forall u, hv / PB - NB < u / PB <= hv / PB -> u < hv -> cellv (js_n s') u = cellv (js_n s) u) ->
  cell_bytes g (cellv (js_n s') hv) = Some d -> blen d = page_size g ->
  (forall u, nextv hv <= u -> u / PB = hv / PB -> cellv (js_n s') u = Free) ->
  (nextv hv / PC <> hv / PC -> cell_ep (cellv (js_n s') (hv + 1)) = Some (epo (hv / PB))) ->
  j_ppc (js_j s') = c -> j_head (js_j s') = ph (nextv hv) -> j_tail (js_j s') = ph tv ->
  j_tsync (js_j s') = ph sv -> j_epoch (js_j s') = epo (nextv hv / PB) ->
  j_recov (js_j s') = true -> j_rroot (js_j s') = ph rv -> j_rmeta (js_j s') = j_rmeta (js_j s) ->
  j_badmeta (js_j s') = j_badmeta (js_j s) ->
  j_root (js_j s') = ph hv ->
  blen (j_buf (js_j s')) = page_size g ->
  (forall v, v / PC = hv / PC -> v <> hv -> user v ->
     slice (moff v) META_SIZE (j_buf (js_j s')) = slice (moff v) META_SIZE (j_buf (js_j s))) ->
  slice (moff hv) META_SIZE (j_buf (js_j s')) = m ->
  (nextv hv / PC <> hv / PC -> exists cd, cell_bytes g (cellv (js_n s') (cpv hv)) = Some cd /\
     forall v, user v -> slice (moff v) META_SIZE cd = slice (moff v) META_SIZE (j_buf (js_j s'))) ->
  RI s' true (nextv hv) tv sv rv mo (<[ph hv := (d, m)]> K) K0.
Proof.
  intros [HR [Hgood Hfr] Hnx] Hn Hbad Hcell Hd Hdl Hfree Hep E1 E2 E3 E4 E5 E6 E7 E8 Ebm E9 Hbl Hsl Hm Hcp.
  pose_geo. pose proof (nextv_gt c hv) as Hgt.
  pose proof (lemw RI_sb _ _ _ _ _ _ _ _ _ HR) as (Hb1 & Hb2 & Hb3 & H0 & H0s).
  pose proof (fun v => lemw RI_Kwin _ _ _ _ _ _ _ _ _ v HR) as Hwin.
  pose proof (RI_fresh _ _ _ _ _ _ _ _ _ HR) as Hfresh.
  pose proof HR as [].
  assert (Hnu : user (nextv hv)) by by apply (lem nextv_user).
  assert (Hrh : rv < hv). { destruct (Z.lt_ge_cases rv hv) as [|Hge]; [done|]. pose proof (lem blk_le hv rv Hge). lia. }
  pose proof (lem blk_le hv (nextv hv) ltac:(lia)) as Hbn.
  assert (Hcp1 : nextv hv / PC <> hv / PC -> cpv hv = hv + 1).
  { intros Hne. destruct (lem nextv_cases hv ri_hu) as [(_ & _ & E & _)|(Es & _)]; [done|].
    unfold Geom.cpv. pose proof (Z.div_mod hv PC ltac:(lia)). lia. }
  split; auto; try congruence; try lia.
  - intros q Hq. destruct (ri_mo q Hq) as (?&?&?&?). split_and!; auto. lia.
  - rewrite Ebm. intros Hx. destruct (ri_bm Hx) as (q & ? & ? & ?). exists q. split_and!; auto. lia.
  - rewrite E9, lookup_insert. eauto.
  - intros Hal. destruct (lem nextv_blk hv ri_hu) as [[Eb _]|(_ & ? & _)]; [|lia].
    rewrite Eb. split; [by rewrite Hbad|]. auto.
  - intros p d0 m0 Hp. destruct (decide (p = ph hv)) as [->|Hpne].
    + rewrite lookup_insert in Hp. injection Hp as <- <-. exists hv.
      split_and!; auto.
      * split; auto; [lia|by rewrite Hbad].
      * lia.
      * rewrite Ebm. intros Hx q Hq. destruct (ri_bm Hx) as (q' & Hq' & ? & _). rewrite Hq in Hq'. injection Hq' as <-. lia.
      * unfold Rec.rmet. destruct (decide (hv / PC = nextv hv / PC)) as [E|E]; [done|].
        assert (Hk : kmeta (js_n s') hv m).
        { destruct Hcp as (cd & M1 & M2); [done|]. exists cd. split; [done|]. by rewrite M2. }
        destruct mo as [q|]; [|done]. rewrite decide_False; [done|]. apply (lem blk_grp_ne). lia.
    + rewrite lookup_insert_ne in Hp by done.
      destruct (ri_K _ _ _ Hp) as (v & [] & Hdl0 & Hvr & Hbq & Hm0).
      pose proof (Hwin v kd_v) as Hvw.
      exists v. split_and!; auto.
      { split; auto; [lia|by rewrite Hbad|]. rewrite Hcell by lia. done. }
      { rewrite Ebm. done. }
      unfold Rec.rmet in *.
      destruct (decide (v / PC = hv / PC)) as [Eg|Eg].
      * assert (Hs1 : slice (moff v) META_SIZE (j_buf (js_j s')) = m0).
        { rewrite Hsl; auto. lia. }
        destruct (decide (v / PC = nextv hv / PC)) as [E|E]; [done|].
        assert (Hk : kmeta (js_n s') v m0).
        { destruct Hcp as (cd & M1 & M2); [congruence|]. exists cd.
          split; [|by rewrite M2]. unfold Geom.cpv in *. by rewrite Eg. }
        destruct mo as [q|]; [|done]. rewrite decide_False; [done|]. rewrite Eg. apply (lem blk_grp_ne). lia.
      * assert (Hle : hv / PC <= nextv hv / PC) by (apply Z.div_le_mono; lia).
        assert (Hlt : v / PC < hv / PC).
        { pose proof (Z.div_le_mono v hv PC). lia. }
        rewrite decide_False by lia.
        assert (Hkm : kmeta (js_n s) v m0 -> kmeta (js_n s') v m0).
        { intros (cd & M1 & M2). exists cd. split; [|done].
          rewrite Hcell; [done| |apply (lem cpv_lt); [lia|done]]. destruct (lem cpv_facts v) as (_ & _ & ->). lia. }
        destruct mo as [q|]; [|auto]. destruct (decide (v / PC = rv / PC)); [|auto].
        destruct Hm0 as (cd & M1 & M2). exists cd. split; [|done]. destruct (ri_mo q eq_refl) as (_ & _ & ? & ?).
        pose proof (lem blk_le q hv ltac:(lia)). rewrite Hcell; [done|lia|lia].
  - etrans; [exact ri_sub|]. by apply insert_subseteq.
  - intros b Hb Hbg Hbr Hbx. rewrite Ebm in Hbx. rewrite Hbad in Hbg.
    assert (Eb : b < hv / PB -> blk_ep (js_n s') b = blk_ep (js_n s) b).
    { intros Hbh. unfold Inv.blk_ep. pose proof (proj1 (lem fcp_facts b)) as Ef. rewrite Hcell; [done|lia|].
      apply Z.nle_gt. intros Hle. pose proof (lem blk_le _ _ Hle). lia. }
    destruct (Z.lt_ge_cases b (hv / PB)) as [Hbh|Hbh].
    + rewrite Eb by done. destruct (ri_ep b) as [?|[M1 M2]]; auto; [lia|].
      right. split; [done|]. intros b' Hb'. rewrite Hbad. apply M2. lia.
    + destruct (lem nextv_blk hv ri_hu) as [[Ebb _]|(Ebb & Eo & _)]; [lia|].
      assert (b = hv / PB) by lia. subst b. left.
      rewrite decide_False by (apply Z.nlt_ge; apply Z.div_pos; lia).
      destruct (lem fcp_facts (hv / PB)) as (F1 & F2 & F3). unfold Inv.blk_ep.
      assert (Hne : nextv hv / PC <> hv / PC).
      { intros E. pose proof (lem grp_blk _ _ E). lia. }
      pose proof (Hcp1 Hne) as Ecp. pose proof (lem cpv_facts hv) as (C1 & C2 & C3).
      assert (Hfc : fcp (hv / PB) <= hv + 1).
      { rewrite <-Ecp. by apply (lem cp_ge_fcp). }
      destruct (Z.eq_dec (fcp (hv / PB)) (hv + 1)) as [->|]; [auto|].
      assert (Hlt : fcp (hv / PB) < hv).
      { destruct (Z.eq_dec (fcp (hv / PB)) hv) as [E|]; [|lia]. rewrite E in F2. by destruct ri_hu. }
      rewrite Hcell; [auto|lia|done].
  - intros u Hu1 Hu2 Hu3.
    destruct (lem nextv_blk hv ri_hu) as [[Ebb _]|(Ebb & Eo & _)].
    2: { pose proof (lem al_lt u (nextv hv) Eo Hu3). lia. }
    rewrite Ebb in *.
    destruct (Z.lt_ge_cases u hv) as [Hlt|Hge].
    + rewrite Hcell; [auto|lia|done].
    + assert (u <> hv). { intros ->. by destruct ri_hu. }
      assert (u = hv + 1) by lia. subst u. apply Hep.
      destruct (lem nextv_cases hv ri_hu) as [(_ & E & _)|(_ & _ & E & _)]; lia.
Qed.

(** ** The invariants do not look at the fault schedule *)
Lemma kd_san n lo hi p d m v : kd_ok (san n) lo hi p d m v <-> kd_ok n lo hi p d m v.
Proof. split; intros []; by split. Qed.
Lemma JInv_san s hv tv sv K : JInv (sanj s) hv tv sv K <-> JInv s hv tv sv K.
Proof.
  split; intros []; (split; auto; intros p d m Hp; destruct (ji_K p d m Hp) as (v & Hk & H);
    exists v; split; [by apply kd_san|exact H]).
Qed.
Lemma DI_san n hv sv D : DI (san n) hv sv D <-> DI n hv sv D.
Proof.
  split; intros []; (split; auto; intros p d m Hp; destruct (d_K p d m Hp) as (Hc & v & Hk & H); split; [done|];
    exists v; split; [by apply kd_san|exact H]).
Qed.

(** ** The end of a recovery *)
Lemma RI_fin s s' hv tv sv rv mo K K0 d m buf ck Kf :
  RReady s true hv tv sv rv mo K K0 -> hv mod PC = PC - 2 ->
  nokF (js_n s') ->
  (forall b, hv / PB - NB < b <= hv / PB -> b <> rv / PB ->
     (j_badmeta (js_j s) = true -> forall q, mo = Some q -> b <> q / PB) -> badv (js_n s') b = badv (js_n s) b) ->
  badv (js_n s') (rv / PB) = true ->
  (forall b, badv (js_n s) b = true -> badv (js_n s') b = true) ->
  (j_badmeta (js_j s) = true -> forall q, mo = Some q -> badv (js_n s') (q / PB) = true) ->
  (forall u, hv / PB - NB < u / PB <= hv / PB -> u < hv -> cellv (js_n s') u = cellv (js_n s) u) ->
  cell_bytes g (cellv (js_n s') hv) = Some d -> blen d = page_size g ->
  cellv (js_n s') (hv + 1) = Data buf ->
  (forall u, hv + 2 <= u -> u / PB = hv / PB -> cellv (js_n s') u = Free) ->
  blen buf = page_size g -> hdr_has_magic buf = true -> hdr_get_epoch buf = epo (hv / PB) ->
  hdr_get_tail buf = ph tv -> slice HEADER_SIZE COOKIE_SIZE buf = ck -> blen ck = COOKIE_SIZE ->
  (forall v, v / PC = hv / PC -> v <> hv -> user v ->
     slice (moff v) META_SIZE buf = slice (moff v) META_SIZE (j_buf (js_j s))) ->
  slice (moff hv) META_SIZE buf = m ->
  j_ppc (js_j s') = c -> j_head (js_j s') = ph (nextv hv) -> j_tail (js_j s') = ph tv ->
  j_tsync (js_j s') = ph tv -> j_epoch (js_j s') = epo (nextv hv / PB) ->
  j_recov (js_j s') = false -> j_enum (js_j s') = false -> j_rmeta (js_j s') = PAGE_NONE ->
  j_root (js_j s') = ph hv -> j_buf (js_j s') = buf -> j_dirty (js_j s') = false ->
  Kf ⊆ <[ph hv := (d, m)]> K -> Kf !! ph hv = Some (d, m) ->
  (forall p, is_Some (Kf !! p) -> p / PB <> (rv / PB) mod NB) ->
  JI (sanj s') (nextv hv) tv tv Kf (Dsk (hv + 1) tv ck m Kf).
Proof.
  intros [HR [Hgood Hfr] Hnx] Es Hn Hbad Hbr Hbm Hbq Hcell Hd Hdl Hcpc Hfree Hbl Hmg Hep Htl Hck Hckl Hso Hsm
    E1 E2 E3 E4 E5 E6 E7 E8 E9 E10 E11 Hsub HKh HKf.
  pose_geo.
  pose proof (lemw RI_sb _ _ _ _ _ _ _ _ _ HR) as (Hb1 & Hb2 & Hb3 & H0 & H0s).
  pose proof (fun v => lemw RI_Kwin _ _ _ _ _ _ _ _ _ v HR) as Hwin.
  pose proof HR as [].
  assert (Hnu : user (nextv hv)) by by apply (lem nextv_user).
  assert (Hrh : rv < hv). { destruct (Z.lt_ge_cases rv hv) as [|Hge]; [done|]. pose proof (lem blk_le hv rv Hge). lia. }
  destruct (lem nextv_cases hv ri_hu) as [(? & _)|(_ & Enx & Eg & Es0)]; [lia|].
  destruct (divmod_add PC hv 1) as [Eg1 Es1]; [lia|lia|].
  pose proof (lem grp_blk _ _ Eg1) as Eb1.
  assert (Hcpe : cpv hv = hv + 1).
  { unfold Geom.cpv. pose proof (Z.div_mod hv PC ltac:(lia)). lia. }
  assert (Hgood' : badv (js_n s') (hv / PB) = false).
  { rewrite Hbad; auto; [lia|lia|]. intros Hx q Hq. destruct (ri_bm Hx) as (q' & Hq' & ? & _).
    rewrite Hq in Hq'. injection Hq' as <-. lia. }
  assert (HK : forall p d0 m0, Kf !! p = Some (d0, m0) ->
    exists v, kd_ok (js_n s') tv (hv + 1) p d0 m0 v /\ blen d0 = page_size g /\ kmeta (js_n s') v m0).
  { intros p d0 m0 Hp0. pose proof (HKf p ltac:(eauto)) as Hpb. pose proof (lookup_weaken _ _ _ _ Hp0 Hsub) as Hp.
    destruct (decide (p = ph hv)) as [->|Hpne].
    - rewrite lookup_insert in Hp. injection Hp as <- <-. exists hv. split_and!; auto.
      + split; auto. lia.
      + exists buf. split; [|done]. rewrite Hcpe, Hcpc. done.
    - rewrite lookup_insert_ne in Hp by done.
      destruct (ri_K _ _ _ Hp) as (v & [] & Hdl0 & Hvr & Hbq0 & Hm0).
      pose proof (Hwin v kd_v) as Hvw.
      assert (Hvrb : v / PB <> rv / PB). { intros E. apply Hpb. by rewrite kd_p, (lem ph_blk), E. }
      exists v. split_and!; auto.
      + split; auto; [lia| |by rewrite Hcell by lia]. rewrite Hbad; auto.
      + unfold Rec.rmet in Hm0. destruct (decide (v / PC = hv / PC)) as [E|E].
        * exists buf. split; [|by rewrite Hso by (auto; lia)].
          replace (cpv v) with (hv + 1) by (unfold Geom.cpv in *; by rewrite E). rewrite Hcpc. done.
        * assert (Hk : kmeta (js_n s) v m0).
          { destruct mo as [q|]; [|done]. rewrite decide_False in Hm0; [done|]. by apply (lem blk_grp_ne). }
          destruct Hk as (cd & M1 & M2). exists cd. split; [|done].
          rewrite Hcell; [done| |apply (lem cpv_lt); [lia|done]]. destruct (lem cpv_facts v) as (_ & _ & ->). lia. }
  assert (Hcpb : forall u, u mod PC = PC - 1 -> u / PB = hv / PB -> u <= hv + 1 ->
    cell_ep (cellv (js_n s') u) = Some (epo (hv / PB))).
  { intros u Hu1 Hu2 Hu3. destruct (Z.lt_ge_cases u hv) as [Hlt|Hge].
    - rewrite Hcell; [auto|lia|done].
    - assert (u <> hv). { intros ->. by destruct ri_hu. }
      assert (u = hv + 1) by lia. subst u. rewrite Hcpc. unfold Inv.cell_ep. cbn. by rewrite Hmg, Hep. }
  assert (Hnb : nextv hv / PB = hv / PB \/ (nextv hv / PB = hv / PB + 1 /\ nextv hv mod PB = 0)).
  { destruct (lem nextv_blk hv ri_hu) as [[? _]|(? & ? & _)]; auto. }
  split.
  - apply (nokF_san g weak). exact Hn.
  - apply JInv_san. split; auto; try lia; try congruence.
    + rewrite E9. right. eauto.
    + intros Ha. destruct Hnb as [E|[_ ?]]; [|done]. rewrite E. split; [done|].
      intros v Hv1 Hv2. apply Hfree; [lia|done].
    + intros p d0 m0 Hp. destruct (HK p d0 m0 Hp) as (v & [] & H1 & H2). exists v. split_and!; auto.
      * split; auto. lia.
      * rewrite decide_False; [done|]. rewrite Eg. assert (v / PC <= (hv + 1) / PC) by (apply Z.div_le_mono; lia). lia.
  - apply DI_san.
    split; cbn [cv tdv ckd rmd Kd]; rewrite ?Eb1; auto; try lia; try (by intros; lia); try (intros; destruct Hnb as [?|[? ?]]; lia).
    + intros b Hb Hbg.
      assert (Hbr0 : b <> rv / PB) by congruence.
      assert (Hbx : j_badmeta (js_j s) = true -> forall q, mo = Some q -> b <> q / PB).
      { intros Hx q Hq ->. rewrite (Hbq Hx q Hq) in Hbg. done. }
      left. destruct (Z.eq_dec b (hv / PB)) as [->|Hne].
      * rewrite decide_False by (apply Z.nlt_ge; apply Z.div_pos; lia).
        destruct (lem fcp_facts (hv / PB)) as (F1 & F2 & F3). unfold Inv.blk_ep. apply Hcpb; auto.
        rewrite <-Hcpe. pose proof (lem cpv_facts hv) as (? & ? & ?). by apply (lem cp_ge_fcp).
      * assert (Eb : blk_ep (js_n s') b = blk_ep (js_n s) b).
        { unfold Inv.blk_ep. pose proof (proj1 (lem fcp_facts b)) as Ef. rewrite Hcell; [done|lia|].
          apply Z.nle_gt. intros Hle. pose proof (lem blk_le _ _ Hle). lia. }
        rewrite Eb. rewrite Hbad in Hbg by (auto; lia).
        destruct (ri_ep b) as [?|[M1 M2]]; auto; [lia|]. rewrite (M2 (hv / PB)) in Hgood by lia. done.
    + intros _. split; [done|]. exists buf. split_and!; auto.
    + intros _ u Hu1 Hu2 Hu3. rewrite Hfree by (auto; lia). rewrite cell_ep_free. done.
    + intros _ u Hu1 Hu2 Hu3. right. intros Hfc.
      destruct (grp_same c u (PC - 1) Hu1) as [Eu1 Eu2]; [lia|].
      assert (Hx : cell_ep (cellv (js_n s') (u + PC - 1)) = Some (epo (hv / PB))).
      { apply Hcpb; [by replace (u + PC - 1) with (u + (PC - 1)) by lia| |lia].
        replace (u + PC - 1) with (u + (PC - 1)) by lia. rewrite <-Hu2. by apply (lem grp_blk). }
      rewrite Hfc, cell_ep_free in Hx. done.
    + intros _ Hb v Hv1 Hv2. apply Hfree; [lia|congruence].
    + intros _. split_and!; auto; lia.
    + intros p d0 m0 Hp. split; [lia|]. destruct (HK p d0 m0 Hp) as (v & ? & ? & ?). exists v. auto.
    + intros _. replace (hv + 1 - 1) with hv by lia. split; [eauto|].
      exists buf. split; [|done]. by rewrite Hcpe, Hcpc.
  - intros _. cbn [cv Kd rmd]. change (j_root (js_j (sanj s'))) with (j_root (js_j s')). split; [done|]. right.
    split; [lia|]. rewrite E9. replace (hv + 1 - 1) with hv by lia. split; [done|]. eauto.
Qed.
End rec4.
