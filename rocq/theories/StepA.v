(** Appending to the journal: push_meta and the retry loop of enqueue/copy. *)
From stdpp Require Import gmap.
From Verif Require Import Base Bytes BytesLemmas Wp Nand Journal Geom Tree Inv Hdr StepDI StepNand StepJ Pres.
Local Open Scope Z_scope.

Section stepa.
Context (g : geo) (c : Z) (Hg : geo_ok g c) (weak : Z -> bool) (Hdense : dense g weak).
Notation PB := (PB g).
Notation PC := (PC c).
Notation NB := (NB g).
Notation TT := (TT g).
Notation ph := (ph g).
Notation user := (user c).
Notation nextv := (nextv c).
Notation cpv := (cpv c).
Notation cellv := (cellv g).
Notation badv := (badv g).
Notation cell_ep := (cell_ep g).
Notation blk_ep := (blk_ep g c).
Notation epo := (epo g).
Notation moff := (moff c).
Notation fcp := (fcp g c).
Notation kmeta := (kmeta g c).
Notation kd_ok := (kd_ok g c).
Notation DI := (DI g c).
Notation nok := (nok g weak).
Notation JInv := (JInv g c).
Notation JI := (JI g c weak).
Notation prog_eff := (prog_eff g weak).
Notation Ready := (Ready g c weak).
Notation crashed := (crashed g c weak).

Ltac pose_geo :=
  pose proof (PC_ge _ _ Hg) as HPC4; pose proof (PC_le _ _ Hg) as HPC256;
  pose proof (PB_pos _ _ Hg) as HPB4; pose proof (PB_ge _ _ Hg) as HPBC;
  pose proof (NB_ge _ _ Hg) as HNB8; pose proof (TT_le _ _ Hg) as HTT31;
  pose proof (TT_pos _ _ Hg) as HTTpos.
Notation "'lem' x" := (x g c Hg) (at level 9, x at level 8, only parsing).

(** ** Slots *)
Lemma moff_fit v : user v -> HEADER_SIZE + COOKIE_SIZE <= moff v /\ moff v + META_SIZE <= page_size g.
Proof.
  intros Hu. pose_geo. pose proof (lem slot_range v). pose proof (go_fit _ _ Hg).
  unfold Inv.moff, Geom.user, HEADER_SIZE, COOKIE_SIZE, META_SIZE in *.
  change (2 ^ c) with PC in *. lia.
Qed.
Lemma moff_disj u v : u mod PC <> v mod PC ->
  moff u + META_SIZE <= moff v \/ moff v + META_SIZE <= moff u.
Proof. unfold Inv.moff, HEADER_SIZE, COOKIE_SIZE, META_SIZE. lia. Qed.
Lemma moff_hdr v : user v -> hdr_user_offset (Z.land (ph v) (Z.shiftl 1 c - 1)) = moff v.
Proof.
  intros Hu. unfold hdr_user_offset. rewrite (lem mask_grp), (lem ph_slot).
  pose proof (lem slot_range v). pose_geo. rewrite w8_small by lia. done.
Qed.
Lemma slot_ne u v : u / PC = v / PC -> u <> v -> u mod PC <> v mod PC.
Proof.
  intros H1 H2 H3. apply H2. pose_geo.
  rewrite (Z.div_mod u PC), (Z.div_mod v PC) by lia. by rewrite H1, H3.
Qed.

Lemma K_fresh s hv tv sv K : JInv s hv tv sv K -> K !! ph hv = None.
Proof.
  intros Hj. destruct (K !! ph hv) as [[d m]|] eqn:E; [|done]. exfalso.
  destruct Hj. destruct (ji_K _ _ _ E) as (v & [] & _).
  assert (v = hv); [|lia].
  apply (lem win_page (hv / PB)); [|pose_geo; lia|done].
  split; [pose proof (lem blk_le sv v ltac:(lia)); lia|apply (lem blk_le); lia].
Qed.

(** ** Disk invariant under programs at the head *)
Lemma DI_move_gt n hv hv' sv D : DI n hv sv D -> cv D / PB < hv / PB ->
  hv' / PB = hv / PB -> hv' mod PB < PC -> user hv' -> 0 <= hv' -> DI n hv' sv D.
Proof.
  intros [] Hlt Eb Ho Hu H0. pose_geo.
  assert (Hcv : cv D < hv').
  { destruct (Z.lt_ge_cases (cv D) hv') as [|Hge]; [done|].
    pose proof (lem blk_le _ _ Hge). lia. }
  split; auto; rewrite ?Eb; auto; try lia.
  intros Hc0 u Hu1 Hu2 Hu3. apply d_grp; auto.
  destruct (Z.le_gt_cases (u + PC) hv) as [|Hgt]; [done|].
  assert (u / PB < hv / PB) by lia.
  pose proof (lem blk_lt_start u (hv / PB) ltac:(lia)).
  pose proof (lem v_decomp hv). pose proof (lem off_range hv).
  assert (E : (u + (PC - 1)) / PB = u / PB) by (apply (lem grp_same_blk); lia).
  pose proof (lem blk_lt_start (u + (PC - 1)) (hv / PB) ltac:(lia)). lia.
Qed.

Lemma DI_prog n n' hv sv D :
  DI n hv sv D -> (forall b, badv n' b = badv n b) -> badv n (hv / PB) = false ->
  (forall u, hv <= u -> u / PB = hv / PB -> cellv n u = Free) ->
  (forall u, hv / PB - NB < u / PB <= hv / PB -> u <> hv -> u <> hv + 1 -> cellv n' u = cellv n u) ->
  (hv mod PC <> PC - 2 -> cellv n' (hv + 1) = Free) ->
  cell_ep (cellv n' (hv + 1)) = None ->
  nextv hv / PB < sv / PB + NB ->
  exists hv', DI n' hv' sv D /\ (hv mod PC <> PC - 2 -> hv' = hv + 1).
Proof.
  intros HD Hbad Hgood Hfree Hcell Hn1 Hep1 Hnx. pose_geo.
  assert (Hu : user hv) by apply HD. assert (H0 : 0 <= hv) by apply HD.
  pose proof (lem slot_range hv) as Hsl.
  assert (Hb1 : (hv + 1) / PB = hv / PB).
  { apply (lem grp_blk). destruct (divmod_add PC hv 1) as [E _]; [lia| |done].
    unfold Geom.user in Hu. lia. }
  assert (Hs1 : (hv + 1) mod PC = hv mod PC + 1).
  { destruct (divmod_add PC hv 1) as [_ E]; [lia| |done]. unfold Geom.user in Hu. lia. }
  assert (Hu1 : hv mod PC <> PC - 2 -> user (hv + 1)).
  { unfold Geom.user. lia. }
  assert (Ecb : cv D / PB <= hv / PB). { apply (lem blk_le). pose proof (d_cvh _ _ _ _ _ _ HD). lia. }
  destruct (Z.eq_dec (cv D / PB) (hv / PB)) as [Heq|Hne].
  - (* checkpoint in the head block *)
    assert (Hend : hv + 1 < (hv / PB + 1) * PB).
    { apply (lem blk_lt_start). lia. }
    destruct (Z.eq_dec (hv mod PC) (PC - 2)) as [E2|E2].
    + destruct (nextv_cases _ _ Hg hv Hu) as [[? _]|(_ & Enx & Eg & Es)]; [lia|].
      destruct (is_freec (cellv n' hv) && is_freec (cellv n' (hv + 1))) eqn:Ef.
      * apply andb_prop in Ef as [Ef1 Ef2].
        assert (Hx1 : cellv n' hv = Free) by by destruct (cellv n' hv).
        assert (Hx2 : cellv n' (hv + 1) = Free) by by destruct (cellv n' (hv + 1)).
        exists hv. split; [|lia].
        eapply (lem DI_head_eq) with (hv := hv); eauto; try lia.
        -- intros u H1 H2. apply Hcell; lia.
        -- apply HD.
        -- intros u H1 H2. destruct (Z.eq_dec u hv) as [->|]; [done|].
           destruct (Z.eq_dec u (hv + 1)) as [->|]; [done|].
           rewrite Hcell; auto. lia.
      * exists (hv + 2). split; [|lia].
        eapply (lem DI_head_eq) with (hv := hv); eauto; try lia.
        -- intros u H1 H2. apply Hcell; lia.
        -- rewrite <-Enx. by apply (lem nextv_user).
        -- by rewrite <-Enx.
        -- intros u H1 H2. rewrite Hcell by lia. apply Hfree; [lia|done].
        -- intros u H1 H2. destruct (Z.eq_dec u (hv + 1)) as [->|]; [done|].
           assert (u = hv) by lia. subst u. by destruct Hu.
        -- intros u H1 H2 H3. assert (Eu : u + PC = hv + 2).
           { pose proof (grp_same _ u 0 H1 ltac:(lia)).
             destruct (Z.eq_dec (u + PC) (hv + 1)) as [E|]; [|lia]. exfalso.
             destruct (grp_same _ u (PC - 1) H1 ltac:(lia)) as [_ E3].
             replace (u + (PC - 1)) with hv in E3 by lia. lia. }
           replace (u + PC - 2) with hv by lia. replace (u + PC - 1) with (hv + 1) by lia.
           destruct (cellv n' hv); [|by left|by left].
           destruct (cellv n' (hv + 1)); [done|by right|by right].
    + exists (hv + 1). split; [|done].
      eapply (lem DI_head_eq) with (hv := hv); eauto; try lia.
      * intros u H1 H2. apply Hcell; lia.
      * rewrite Hb1. apply HD.
      * intros u H1 H2. destruct (Z.eq_dec u (hv + 1)) as [->|]; [auto|].
        rewrite Hcell by lia. apply Hfree; [lia|done].
      * intros u H1 H2. assert (u = hv) by lia. subst u. by destruct Hu.
      * intros u H1 H2 H3. exfalso. assert (Eu : u + PC = hv + 1) by lia.
        destruct (grp_same _ u (PC - 1) H1 ltac:(lia)) as [_ E3].
        replace (u + (PC - 1)) with hv in E3 by lia. by destruct Hu.
  - (* no checkpoint in the head block yet *)
    assert (Hfg : hv mod PB < PC). { apply (d_first _ _ _ _ _ _ HD). lia. }
    assert (HD' : DI n' hv sv D).
    { eapply (lem DI_head_gt); eauto; [lia| |].
      - intros u Hub. apply Hcell; [lia| |]; intros ->; lia.
      - intros _. split; [done|]. left.
        unfold Inv.blk_ep. pose proof (lem first_group hv Hfg Hu) as Ef.
        destruct (lem fcp_facts (hv / PB)) as (F1 & F2 & F3).
        destruct (Z.eq_dec (fcp (hv / PB)) (hv + 1)) as [->|Hne1]; [done|].
        rewrite Hcell; [| lia| |done].
        + rewrite Hfree; [by apply cell_ep_free| |done].
          rewrite <-Ef. apply (lem cpv_ge).
        + intros E. rewrite E in F2. by destruct Hu. }
    destruct (Z.eq_dec (hv mod PC) (PC - 2)) as [E2|E2].
    + exists hv. split; [done|lia].
    + exists (hv + 1). split; [|done].
      eapply DI_move_gt; eauto; [lia| |lia].
      destruct (divmod_add PB hv 1) as [_ ->]; [lia| |].
      * pose proof (lem off_range hv). split; [lia|].
        pose proof (lem v_decomp hv). pose proof (lem blk_lt_start (hv + 1) (hv / PB + 1) ltac:(lia)). lia.
      * pose proof (lem slot_of_off hv) as E3. rewrite (Z.mod_small (hv mod PB)) in E3.
        -- unfold Geom.user in Hu. lia.
        -- pose proof (lem off_range hv). lia.
Qed.

(** ** RAM invariant after an append *)
Lemma JInv_app s s' hv tv sv sv' K d m :
  JInv s hv tv sv K -> 0 <= hv ->
  (forall b, badv (js_n s') b = badv (js_n s) b) -> badv (js_n s) (hv / PB) = false ->
  (forall u, hv / PB - NB < u / PB <= hv / PB -> u < hv -> cellv (js_n s') u = cellv (js_n s) u) ->
  cell_bytes g (cellv (js_n s') hv) = Some d -> blen d = page_size g ->
  (forall u, nextv hv <= u -> u / PB = hv / PB -> cellv (js_n s') u = Free) ->
  nextv hv / PB < sv' / PB + NB -> sv <= sv' <= tv -> user sv' ->
  j_ppc (js_j s') = c -> j_head (js_j s') = ph (nextv hv) -> j_tail (js_j s') = ph tv ->
  j_tsync (js_j s') = ph sv' -> j_epoch (js_j s') = epo (nextv hv / PB) ->
  j_recov (js_j s') = false -> j_enum (js_j s') = false -> j_rmeta (js_j s') = PAGE_NONE ->
  j_root (js_j s') = ph hv ->
  blen (j_buf (js_j s')) = page_size g ->
  (forall v, v / PC = hv / PC -> v <> hv -> user v ->
     slice (moff v) META_SIZE (j_buf (js_j s')) = slice (moff v) META_SIZE (j_buf (js_j s))) ->
  slice (moff hv) META_SIZE (j_buf (js_j s')) = m ->
  (nextv hv / PC <> hv / PC -> exists cd, cell_bytes g (cellv (js_n s') (cpv hv)) = Some cd /\
     forall v, user v -> slice (moff v) META_SIZE cd = slice (moff v) META_SIZE (j_buf (js_j s'))) ->
  JInv s' (nextv hv) tv sv' (<[ph hv := (d, m)]> K).
Proof.
  intros Hj H0 Hbad Hgood Hcell Hd Hdl Hfree Hfull Hsv Hsu E1 E2 E3 E4 E5 E6 E7 E8 E9 Hbl Hsl Hm Hcp.
  pose_geo. pose proof (nextv_gt c hv) as Hgt.
  pose proof (sv_le_hb _ _ Hg _ _ _ _ _ Hj) as Hsb.
  destruct Hj.
  assert (Hnu : user (nextv hv)) by by apply (lem nextv_user).
  split; auto; try lia.
  - rewrite E9. right. rewrite lookup_insert. eauto.
  - intros Hal. destruct (lem nextv_blk hv ji_hu) as [[Eb _]|(_ & ? & _)]; [|lia].
    rewrite Eb. split; [by rewrite Hbad|]. auto.
  - intros p d0 m0 Hp. destruct (decide (p = ph hv)) as [->|Hpne].
    + rewrite lookup_insert in Hp. injection Hp as <- <-. exists hv.
      split_and!; auto.
      * split; auto; [lia|by rewrite Hbad].
      * destruct (decide (hv / PC = nextv hv / PC)) as [E|E]; [done|].
        destruct Hcp as (cd & H1 & H2); [done|]. exists cd. split; [done|]. by rewrite H2.
    + rewrite lookup_insert_ne in Hp by done.
      destruct (ji_K _ _ _ Hp) as (v & [] & Hdl0 & Hm0).
      assert (Hvw : hv / PB - NB < v / PB <= hv / PB).
      { split; [pose proof (lem blk_le sv v ltac:(lia)); lia|apply (lem blk_le); lia]. }
      exists v. split_and!; auto.
      { split; auto; [lia|by rewrite Hbad|]. rewrite Hcell by lia. done. }
      destruct (decide (v / PC = hv / PC)) as [Eg|Eg].
      * assert (Hs1 : slice (moff v) META_SIZE (j_buf (js_j s')) = m0).
        { rewrite Hsl; auto. lia. }
        destruct (decide (v / PC = nextv hv / PC)) as [E|E]; [done|].
        destruct Hcp as (cd & H1 & H2); [congruence|]. exists cd.
        split; [|by rewrite H2]. unfold Geom.cpv in *. by rewrite Eg.
      * destruct Hm0 as (cd & H1 & H2).
        assert (Hlt : v / PC < hv / PC).
        { pose proof (Z.div_le_mono v hv PC). lia. }
        assert (Hcv : cpv v < hv).
        { unfold Geom.cpv. pose proof (Z.div_mod hv PC ltac:(lia)). pose proof (lem slot_range hv). nia. }
        assert (Hle : hv / PC <= nextv hv / PC) by (apply Z.div_le_mono; lia).
        rewrite decide_False by lia. exists cd. split; [|done].
        rewrite Hcell; [done| |done]. destruct (lem cpv_facts v) as (_ & _ & ->). done.
Qed.

(** ** The abstract "put data on the head page" operation *)
Definition progs (prog : M nand unit) (P : bytes -> Prop) (ecc : Prop) (n : nand) (hv : Z) : Prop :=
  wp prog n (fun o n' => match o with
    | OK _ => exists x d, prog_eff n n' hv x /\ cell_bytes g x = Some d /\ P d /\ blen d = page_size g
    | ER e => (e = E_BAD_BLOCK /\ hv mod PB = 0 /\ weak ((hv / PB) mod NB) = true /\
                exists x, prog_eff n n' hv x) \/ (e = E_ECC /\ ecc /\ n' = n)
    | ST y => y = Crash /\ exists x, prog_eff n n' hv x
    end).

Definition cookie (s : js) : bytes := slice HEADER_SIZE COOKIE_SIZE (j_buf (js_j s)).
Definition metaof (meta : option bytes) : bytes :=
  match meta with Some m => m | None => ffs META_SIZE end.

Definition push_post (hv tv sv : Z) K D ck d m (o : out unit) (s' : js) : Prop :=
  let K' := <[ph hv := (d, m)]> K in
  let D' := Dsk (hv + 1) tv ck m K' in
  match o with
  | OK _ => j_root (js_j s') = ph hv /\ cookie s' = ck /\
      ((j_dirty (js_j s') = true /\ hv mod PC <> PC - 2 /\ JI s' (nextv hv) tv sv K' D) \/
       (j_dirty (js_j s') = false /\ hv mod PC = PC - 2 /\ JI s' (nextv hv) tv tv K' D'))
  | ER _ => False
  | ST x => x = Crash /\ (crashed (js_n s') D \/ crashed (js_n s') D')
  end.

Lemma push_meta_spec s0 n' hv tv sv K D x d meta :
  Ready s0 hv tv sv K D -> prog_eff (js_n s0) n' hv x ->
  cell_bytes g x = Some d -> blen d = page_size g -> blen (metaof meta) = META_SIZE ->
  wp (push_meta meta) (put_n n' s0) (push_post hv tv sv K D (cookie s0) d (metaof meta)).
Proof.
  intros [HJ Hdirty Hgood Hfree Hnx] [Hnok Hbad Hhv Hcell] Hd Hdl Hml.
  destruct HJ as [Hn Hj HD Hc]. pose_geo. set (m := metaof meta) in *.
  assert (Hu : user hv) by apply HD. assert (H0 : 0 <= hv) by apply HD.
  pose proof (lem slot_range hv) as Hsl.
  pose proof (moff_fit hv Hu) as [Hf1 Hf2].
  pose proof (K_fresh _ _ _ _ _ Hj) as HKf.
  assert (Hb1 : (hv + 1) / PB = hv / PB).
  { apply (lem grp_blk). destruct (divmod_add PC hv 1) as [E _]; [lia| |done].
    unfold Geom.user in Hu. lia. }
  assert (Ho1 : hv mod PB + 1 < PB).
  { pose proof (lem v_decomp hv). pose proof (lem blk_lt_start (hv + 1) (hv / PB + 1) ltac:(lia)). lia. }
  assert (Hph1 : ph (hv + 1) = ph hv + 1).
  { apply (lem ph_add). pose proof (lem off_range hv). lia. }
  pose proof (lem ph_range hv) as Hphr. pose proof (lem ph_range (hv + 1)) as Hphr1.
  assert (Hcell1 : cellv n' (hv + 1) = Free).
  { rewrite Hcell by lia. apply Hfree; lia. }
  assert (Hbuf : blen (j_buf (js_j s0)) = page_size g) by apply Hj.
  assert (Hkw : forall v, hv / PB - NB < v / PB <= hv / PB -> v < hv -> cellv n' v = cellv (js_n s0) v).
  { intros v Hv1 Hv2. apply Hcell; [done|lia]. }
  unfold push_meta.
  apply wp_bind. unfold getg. apply wp_gets. apply wp_bind. unfold getj at 1. apply wp_gets.
  cbn [js_n js_j put_n].
  rewrite (nk_geo _ _ _ Hnok), (ji_ppc _ _ _ _ _ _ _ Hj), (ji_head _ _ _ _ _ _ _ Hj).
  rewrite moff_hdr by done. fold (metaof meta). fold m.
  eapply wp_bind_ok.
  { apply buf_put_ok; cbn [js_j put_n]; rewrite ?Hbuf, ?Hml.
    - unfold HEADER_SIZE, COOKIE_SIZE in Hf1. lia.
    - lia. }
  cbn [js_n js_j put_n].
  set (buf1 := splice (moff hv) m (j_buf (js_j s0))).
  assert (Hbl1 : blen buf1 = page_size g).
  { unfold buf1. rewrite blen_splice; auto; rewrite ?Hml, ?Hbuf; [|lia].
    unfold HEADER_SIZE, COOKIE_SIZE in Hf1. lia. }
  assert (Hsm : slice (moff hv) META_SIZE buf1 = m).
  { unfold buf1. rewrite <-Hml at 1. apply slice_splice_same; rewrite ?Hml, ?Hbuf; [|lia].
    unfold HEADER_SIZE, COOKIE_SIZE in Hf1. lia. }
  assert (Hso : forall v, v / PC = hv / PC -> v <> hv -> user v ->
    slice (moff v) META_SIZE buf1 = slice (moff v) META_SIZE (j_buf (js_j s0))).
  { intros v Hv1 Hv2 Hv3. unfold buf1. pose proof (moff_fit v Hv3) as [Hg1 Hg2].
    unfold HEADER_SIZE, COOKIE_SIZE, META_SIZE in Hf1, Hg1.
    pose proof (moff_disj v hv (slot_ne _ _ Hv1 Hv2)) as Hdj.
    apply slice_splice_disj; rewrite ?Hml, ?Hbuf; unfold META_SIZE in *; lia. }
  assert (Hck : slice HEADER_SIZE COOKIE_SIZE buf1 = cookie s0).
  { unfold buf1, cookie. unfold HEADER_SIZE, COOKIE_SIZE, META_SIZE in *.
    apply slice_splice_disj; rewrite ?Hml, ?Hbuf; lia. }
  assert (Hal : is_aligned (w32 (ph hv + 2)) c = ((hv + 2) mod PC =? 0)).
  { rewrite w32_small by lia. rewrite (lem aligned_grp).
    rewrite <-Zplus_mod_idemp_l, (lem ph_slot), Zplus_mod_idemp_l. done. }
  rewrite Hal.
  assert (Hcase := nextv_cases _ _ Hg hv Hu).
  destruct Hcase as [(Hs & Enx & Eg & Es)|(Hs & Enx & Eg & Es)].
  - (* not the last slot *)
    assert (E2 : ((hv + 2) mod PC =? 0) = false).
    { apply Z.eqb_neq. destruct (divmod_add PC hv 1) as [_ E]; [lia|lia|].
      unfold Geom.nextv in Enx. destruct (Z.eqb_spec ((hv + 2) mod PC) 0); lia. }
    rewrite E2. cbn [negb]. unfold modj. apply wp_modify. cbn [js_n js_j].
    unfold push_post. cbn [js_n js_j set_head set_root set_buf j_root j_head j_dirty].
    rewrite (ji_head _ _ _ _ _ _ _ Hj). split; [done|].
    split; [done|]. left. split; [done|]. split; [lia|].
    destruct (DI_prog (js_n s0) n' hv sv D) as (hv' & HD' & Ehv'); auto.
    { rewrite Hcell1. apply cell_ep_free. }
    rewrite Ehv' in HD' by lia. rewrite Enx in *.
    apply JI_dirty; cbn [js_n js_j]; auto.
    rewrite <-Enx.
    eapply (JInv_app s0); cbn; auto; rewrite ?Enx; auto; try apply Hj.
    + by rewrite Hhv.
    + intros u Hu1 Hu2. rewrite Hcell by lia. apply Hfree; lia.
    + destruct Hj; lia.
    + rewrite Hph1. apply w32_small. lia.
    + rewrite Hb1. apply Hj.
    + intros E. exfalso. apply E. by rewrite <-Enx.
  - (* last slot: write the checkpoint page *)
    assert (E2 : ((hv + 2) mod PC =? 0) = true).
    { apply Z.eqb_eq. by rewrite <-Enx. }
    rewrite E2. cbn [negb].
    set (j1 := set_buf buf1 (js_j s0)).
    assert (Hps : 16 <= page_size g) by (unfold HEADER_SIZE, COOKIE_SIZE, META_SIZE in *; lia).
    unfold wp. rewrite put_hdr_ok by (change (16 <= blen buf1); lia). cbn [js_n js_j].
    change (j_buf j1) with buf1.
    set (buf2 := mk_cp buf1 (j_epoch (js_j s0)) (j_tail (js_j s0)) (j_bbc (js_j s0)) (j_bbl (js_j s0))).
    assert (Hbl2 : blen buf2 = page_size g).
    { unfold buf2. rewrite blen_mk_cp by lia. done. }
    assert (Hs2 : forall off l, 16 <= off -> slice off l buf2 = slice off l buf1).
    { intros. unfold buf2. apply slice_mk_cp; lia. }
    assert (Hmg : hdr_has_magic buf2 = true) by (apply magic_mk_cp; lia).
    assert (Hep : hdr_get_epoch buf2 = epo (hv / PB)).
    { unfold buf2. rewrite epoch_mk_cp by lia. rewrite (ji_epoch _ _ _ _ _ _ _ Hj).
      apply w8_small. apply epo_range. }
    assert (Htl : hdr_get_tail buf2 = ph tv).
    { unfold buf2. rewrite tail_mk_cp by lia. rewrite (ji_tail _ _ _ _ _ _ _ Hj).
      apply w32_small. pose proof (lem ph_range tv). lia. }
    assert (Hck2 : slice HEADER_SIZE COOKIE_SIZE buf2 = cookie s0).
    { rewrite Hs2; [done|]. done. }
    assert (Hckl : blen (cookie s0) = COOKIE_SIZE).
    { unfold cookie. apply blen_slice; rewrite ?Hbuf; unfold HEADER_SIZE, COOKIE_SIZE, META_SIZE in *; lia. }
    set (K' := <[ph hv := (d, m)]> K).
    set (D' := Dsk (hv + 1) tv (cookie s0) m K').
    assert (Hcpe : cpv hv = hv + 1).
    { unfold Geom.cpv. pose proof (Z.div_mod hv PC ltac:(lia)). lia. }
    assert (Hoc : forall n'' x'', prog_eff n' n'' (hv + 1) x'' ->
      forall u, hv / PB - NB < u / PB <= hv / PB -> u <> hv + 1 -> cellv n'' u = cellv n' u).
    { intros n'' x'' Hpe u Hu1 Hu2. apply (pe_cell _ _ _ _ _ _ Hpe); [by rewrite Hb1|done]. }
    assert (HJF : forall n'' j', prog_eff n' n'' (hv + 1) (Data buf2) ->
      j_ppc j' = c -> j_head j' = ph (nextv hv) -> j_tail j' = ph tv -> j_tsync j' = ph tv ->
      j_epoch j' = epo (nextv hv / PB) -> j_recov j' = false -> j_enum j' = false ->
      j_rmeta j' = PAGE_NONE -> j_root j' = ph hv -> j_buf j' = buf2 ->
      JInv (Js n'' j') (nextv hv) tv tv K').
    { intros n'' j' Hpe F1 F2 F3 F4 F5 F6 F7 F8 F9 F10.
      eapply (JInv_app s0 _ hv tv sv); cbn [js_n js_j]; auto; rewrite ?F10; auto.
      - intros b. by rewrite (pe_bad _ _ _ _ _ _ Hpe), Hbad.
      - intros u Hu1 Hu2. rewrite (Hoc _ _ Hpe) by lia. by apply Hkw.
      - rewrite (Hoc _ _ Hpe) by lia. by rewrite Hhv.
      - intros u Hu1 Hu2. rewrite (Hoc _ _ Hpe) by lia. rewrite Hcell by lia. apply Hfree; lia.
      - pose proof (lem blk_le sv tv). destruct Hj. lia.
      - destruct Hj; lia.
      - apply Hj.
      - intros v Hv1 Hv2 Hv3. rewrite Hs2; [by apply Hso|].
        pose proof (moff_fit v Hv3). unfold HEADER_SIZE, COOKIE_SIZE in *. lia.
      - rewrite Hs2; [done|]. unfold HEADER_SIZE, COOKIE_SIZE in *. lia.
      - intros _. exists buf2. split; [|done]. rewrite Hcpe.
        by rewrite (pe_hv _ _ _ _ _ _ Hpe). }
    assert (HDF : forall n'', prog_eff n' n'' (hv + 1) (Data buf2) -> DI n'' (nextv hv) tv D').
    { intros n'' Hpe.
      pose proof (HJF n'' (Journal buf2 c (epo (nextv hv / PB)) false false false false 0 0
        (ph tv) (ph tv) (ph (nextv hv)) (ph hv) 0 0 PAGE_NONE) Hpe
        eq_refl eq_refl eq_refl eq_refl eq_refl eq_refl eq_refl eq_refl eq_refl eq_refl) as HJ.
      assert (HK : forall p d0 m0, K' !! p = Some (d0, m0) ->
        exists v, kd_ok n'' tv (hv + 1) p d0 m0 v /\ blen d0 = page_size g /\ kmeta n'' v m0).
      { intros p d0 m0 Hp. destruct (ji_K _ _ _ _ _ _ _ HJ p d0 m0 Hp) as (v & [] & Hv1 & Hv2).
        assert (Hvn : v < hv + 1).
        { destruct (Z.eq_dec v (hv + 1)) as [->|]; [|lia]. exfalso. apply kd_u.
          destruct (divmod_add PC hv 1) as [_ ->]; lia. }
        assert (Hvg : v / PC <> nextv hv / PC).
        { assert (v / PC <= hv / PC) by (apply Z.div_le_mono; lia). lia. }
        rewrite decide_False in Hv2 by done.
        exists v. split_and!; auto. split; auto. lia. }
      rewrite Enx.
      eapply (lem DI_cp) with (hv := hv) (n := js_n s0) (sv := sv) (buf := buf2); cbn [cv tdv ckd rmd Kd]; eauto.
      - destruct Hj; lia.
      - apply Hj.
      - by rewrite (pe_bad _ _ _ _ _ _ Hpe), Hbad.
      - intros b. by rewrite (pe_bad _ _ _ _ _ _ Hpe), Hbad.
      - intros u Hu1 Hu2. rewrite (Hoc _ _ Hpe) by lia. by apply Hkw.
      - apply Hpe.
      - intros u Hu1 Hu2. rewrite (Hoc _ _ Hpe) by lia. rewrite Hcell by lia. apply Hfree; lia.
      - exists d. rewrite (Hoc _ _ Hpe) by lia. by rewrite Hhv.
      - destruct (HK (ph hv) d m) as (v & [] & _ & Hv2); [by unfold K'; rewrite lookup_insert|].
        assert (v = hv); [|by subst v].
        destruct Hj as [? ? ? ? ? ? ? ? ? Hord Hfl _ _ _ _ _].
        apply (lem win_page (hv / PB)); [|lia|done].
        split; [pose proof (lem blk_le sv v ltac:(lia)); lia|].
        pose proof (lem blk_le v (hv + 1) ltac:(lia)). lia. }
    set (s2 := Js n' (set_buf buf2 j1)).
    match goal with |- ?G => change (wp (let! buf := getj j_buf in
      let! r := attempt (io (nand_prog (w32 (ph hv + 1)) buf)) in
      match r with
      | inl my_err => recover_from my_err
      | inr _ =>
        modj (set_dirty false);;;
        modj (fun j => set_head (next_upage g (j_ppc j) (j_head j)) (set_root (ph hv) j));;;
        let! head := getj j_head in
        (if head =? 0 then roll_stats else ret tt);;;
        let! enum_done := getj j_enum in
        (if (enum_done : bool) then finish_recovery else ret tt);;;
        let! j := getj (fun j => j) in
        if negb (j_recov j) then modj (set_tsync (j_tail j)) else ret tt
      end) s2 (push_post hv tv sv K D (cookie s0) d m)) end.
    apply wp_bind. unfold getj at 1. apply wp_gets. change (j_buf (js_j s2)) with buf2.
    apply wp_bind. apply wp_attempt. unfold io. apply wp_zoom.
    rewrite w32_small by lia. rewrite <-Hph1.
    eapply wp_mono.
    { apply (prog_spec g c Hg weak n' (hv + 1) buf2); auto.
      - by rewrite Hb1, Hbad.
      - intros u Hu1 Hu2. rewrite Hcell by lia. apply Hfree; lia. }
    intros o n'' (x'' & Hpe & Ho).
    assert (Hwr : written g buf2 = Data buf2).
    { unfold written. assert (E3 : all_ff buf2 = false) by (apply all_ff_mk_cp; lia).
      rewrite E3. by rewrite andb_false_r. }
    rewrite Hwr in Ho.
    destruct o as [[]|e|y].
    + (* programmed *)
      subst x''.
      unfold wp, bind, getj, modj, gets, modify.
      cbn [js_n js_j s2 put_n j1 set_buf set_dirty set_root set_head j_head j_ppc].
      rewrite (ji_head _ _ _ _ _ _ _ Hj), (ji_ppc _ _ _ _ _ _ _ Hj).
      rewrite (lem next_upage_ph) by done.
      assert (Eep : epo (nextv hv / PB) = if ph (nextv hv) =? 0 then w8 (epo (hv / PB) + 1) else epo (hv / PB)).
      { destruct (lem nextv_blk hv Hu) as [[Eb Eo]|(Eb & Eo & _ & _)].
        - rewrite Eb. destruct (Z.eqb_spec (ph (nextv hv)) 0) as [Ez|]; [|done]. exfalso.
          pose proof (lem ph_off (nextv hv)) as Eph. rewrite Ez in Eph. rewrite Z.mod_0_l in Eph by lia.
          pose proof (lem off_range hv). lia.
        - assert (Ez : ph (nextv hv) = 0 <-> (hv / PB + 1) mod NB = 0).
          { rewrite <-Eb. rewrite <-(ph_start_0 g c Hg). rewrite (lem v_decomp (nextv hv)) at 1.
            rewrite Eo, Z.add_0_r. done. }
          rewrite Eb. destruct (Z.eqb_spec (ph (nextv hv)) 0) as [E|E].
          + apply (lem epo_succ). by apply Ez.
          + apply (lem epo_same). intros E'. by apply E, Ez. }
      assert (Hgoal : forall j', 
        j_ppc j' = c -> j_head j' = ph (nextv hv) -> j_tail j' = ph tv -> j_tsync j' = ph tv ->
        j_epoch j' = epo (nextv hv / PB) -> j_recov j' = false -> j_enum j' = false ->
        j_rmeta j' = PAGE_NONE -> j_root j' = ph hv -> j_buf j' = buf2 -> j_dirty j' = false ->
        push_post hv tv sv K D (cookie s0) d m (OK tt) (Js n'' j')).
      { intros j' F1 F2 F3 F4 F5 F6 F7 F8 F9 F10 F11.
        unfold push_post. cbn [js_n js_j]. split; [done|].
        split; [by unfold cookie at 1; cbn [js_j]; rewrite F10|].
        right. split; [done|]. split; [done|].
        split; cbn [js_n js_j].
        - apply Hpe.
        - by apply HJF.
        - by apply HDF.
        - intros _. cbn [js_j]. split; [done|]. right. cbn [cv Kd rmd D'].
          split; [lia|]. rewrite F9. replace (hv + 1 - 1) with hv by lia. split; [done|].
          exists d. by rewrite lookup_insert. }
      destruct (ph (nextv hv) =? 0) eqn:Ez0.
      * unfold roll_stats, roll_stats_j, modj, modify.
        cbn [fst snd js_n js_j set_epoch set_bbc set_bbl j_enum set_head set_root set_dirty set_buf j_recov].
        change (j_enum j1) with (j_enum (js_j s0)). rewrite (ji_enum _ _ _ _ _ _ _ Hj). unfold ret.
        cbn [fst snd js_n js_j set_epoch set_bbc set_bbl j_enum set_head set_root set_dirty set_buf j_recov].
        change (j_recov j1) with (j_recov (js_j s0)). rewrite (ji_recov _ _ _ _ _ _ _ Hj). cbn [negb fst snd js_n js_j].
        apply Hgoal; cbn; try (by apply Hj); auto.
        rewrite Eep. by rewrite (ji_epoch _ _ _ _ _ _ _ Hj).
      * unfold ret.
        cbn [fst snd js_n js_j set_epoch set_bbc set_bbl j_enum set_head set_root set_dirty set_buf j_recov].
        change (j_enum j1) with (j_enum (js_j s0)). rewrite (ji_enum _ _ _ _ _ _ _ Hj).
        cbn [fst snd js_n js_j set_epoch set_bbc set_bbl j_enum set_head set_root set_dirty set_buf j_recov].
        change (j_recov j1) with (j_recov (js_j s0)). rewrite (ji_recov _ _ _ _ _ _ _ Hj). cbn [negb fst snd js_n js_j].
        apply Hgoal; cbn; try (by apply Hj); auto.
        rewrite Eep. by rewrite (ji_epoch _ _ _ _ _ _ _ Hj).
    + (* cannot fail: not the first page of a block *)
      exfalso. destruct Ho as (_ & Ho & _).
      destruct (divmod_add PB hv 1) as [_ E3]; [lia|pose proof (lem off_range hv); lia|].
      pose proof (lem off_range hv). lia.
    + destruct Ho as [-> Ho]. unfold push_post. split; [done|]. cbn [js_n put_n].
      destruct Ho as [->|Ho].
      * right. split; [apply Hpe|]. exists (nextv hv), tv. by apply HDF.
      * left. split; [apply Hpe|].
        destruct (DI_prog (js_n s0) n'' hv sv D) as (hv' & HD' & _); auto.
        -- intros b. by rewrite (pe_bad _ _ _ _ _ _ Hpe), Hbad.
        -- intros u Hu1 Hu2 Hu3. rewrite (Hoc _ _ Hpe) by lia. by apply Hcell.
        -- done.
        -- rewrite (pe_hv _ _ _ _ _ _ Hpe). destruct Ho as [->|[oo ->]]; [apply cell_ep_free|apply cell_ep_junk].
        -- by exists hv', sv.
Qed.

(** ** recover_from at the start of a block *)
Lemma recover_aligned_spec s hv tv sv K D :
  JI s hv tv sv K D -> hv mod PB = 0 -> j_dirty (js_j s) = true -> weak ((hv / PB) mod NB) = true ->
  wp (recover_from E_BAD_BLOCK) s (fun o s' => match o with
    | OK _ => JI s' ((hv / PB + 1) * PB) tv sv K D /\ j_dirty (js_j s') = true /\ jrest (js_j s) (js_j s')
    | ER e => e = E_JOURNAL_FULL /\ JI s' hv tv sv K D /\ j_dirty (js_j s') = true /\ jrest (js_j s) (js_j s')
    | ST x => x = Crash /\ crashed (js_n s') D
    end).
Proof.
  intros [Hn Hj HD Hc] Ha Hdirty Hweak. pose_geo.
  pose proof (sv_le_hb _ _ Hg _ _ _ _ _ Hj) as Hsb.
  pose proof (aligned_cb _ _ Hg _ _ _ _ HD Ha) as Hcb.
  unfold recover_from. apply wp_bind. unfold getg. apply wp_gets. apply wp_bind. unfold getj at 1. apply wp_gets.
  rewrite (nk_geo _ _ _ Hn), (ji_head _ _ _ _ _ _ _ Hj).
  rewrite decide_False by (intros E; by apply E).
  apply (wp_bind (modj _)). apply wp_modify.
  set (s1 := Js (js_n s) (set_bbc (w32 (j_bbc (js_j s) + 1)) (js_j s))).
  apply wp_bind. eapply wp_mono.
  { apply (skip_block_spec g c Hg s1 hv sv); try (by apply Hn); try (by apply Hj). split; [done|apply Hj]. }
  intros o s' Ho. assert (Hr1 : jrest (js_j s) (js_j s1)) by by split.
  destruct o as [[]|e|x]; [| |done].
  - destruct Ho as (En & Hr & Hd & Eh & Ee & Hf).
    assert (Hr' : jrest (js_j s) (js_j s')) by by eapply jrest_trans.
    apply wp_bind. unfold getj. apply wp_gets. rewrite (jr_recov _ _ Hr'), (ji_recov _ _ _ _ _ _ _ Hj).
    rewrite (lem aligned_blk), (lem ph_off), Ha. cbn [Z.eqb].
    unfold io. apply wp_zoom. rewrite (lem shiftr_blk), (lem ph_blk).
    eapply wp_mono; [apply (mark_spec g c Hg weak); [by rewrite En|done]|].
    intros o n' (Hn' & Hcell & Hbad & Ho).
    change (js_n s1) with (js_n s) in En. rewrite En in *.
    assert (HD' : DI n' hv sv D).
    { eapply (lem DI_head_gt); eauto.
      intros Hb. split.
      - destruct o as [[]|e|x]; [congruence|done|]. destruct Ho as [_ [?|?]]; congruence.
      - right. unfold Inv.blk_ep. by rewrite Hcell. }
    destruct o as [[]|e|x]; [|done|].
    + pose proof (lem blk_start (hv / PB + 1)) as [E1 E2].
      split; [|split; [by cbn; rewrite Hd|done]].
      apply JI_dirty; cbn [js_n js_j put_n]; auto.
      * eapply (JInv_move g c Hg s); [exact Hj| | | | | | | | |]; auto.
        -- pose proof (lem blk_lt_start hv (hv / PB + 1) ltac:(lia)). lia.
        -- by rewrite E1.
        -- by rewrite E1.
        -- intros. cbn. apply Hbad. pose proof (ji_full _ _ _ _ _ _ _ Hj). lia.
      * apply (lem DI_skip); auto. eapply (lem dense_gap); eauto.
      * by cbn; rewrite Hd.
    + destruct Ho as [-> _]. split; [done|]. split; [done|]. by exists hv, sv.
  - destruct Ho as [-> ->]. split; [done|]. split_and!; auto.
    apply JI_dirty; auto. destruct Hj; by split.
Qed.

(** ** The retry loop of enqueue and copy *)
Definition app_post (hv tv sv : Z) K D (s : js) (P : bytes -> Prop) (ecc : Prop) (m : bytes)
    (o : out unit) (s' : js) : Prop :=
  match o with
  | OK _ => exists hv' d, P d /\ blen d = page_size g /\ hv <= hv' /\ K !! ph hv' = None /\
      (hv' = hv \/ (hv mod PB = 0 /\ hv' mod PB = 0)) /\
      push_post hv' tv sv K D (cookie s) d m (OK tt) s'
  | ER e => (e = E_JOURNAL_FULL \/ (e = E_ECC /\ ecc)) /\
      jrest (js_j s) (js_j s') /\ exists hv', hv <= hv' /\ JI s' hv' tv sv K D /\ (hv' = hv \/ (hv mod PB = 0 /\ hv' mod PB = 0))
  | ST x => x = Crash /\ (crashed (js_n s') D \/
      exists hv' d, P d /\ blen d = page_size g /\ hv <= hv' /\ K !! ph hv' = None /\
        (hv' = hv \/ (hv mod PB = 0 /\ hv' mod PB = 0)) /\
        crashed (js_n s') (Dsk (hv' + 1) tv (cookie s) m (<[ph hv' := (d, m)]> K)))
  end.

Lemma jrest_cookie s s' : jrest (js_j s) (js_j s') -> cookie s' = cookie s.
Proof. intros []. unfold cookie. by rewrite jr_buf. Qed.

(** The same, and the blocks between the last checkpoint and the new page are bad. *)
Definition app_post2 (hv tv sv : Z) K D (s : js) (P : bytes -> Prop) (ecc : Prop) (m : bytes)
    (o : out unit) (s' : js) : Prop :=
  match o with
  | OK _ => exists hv' d, P d /\ blen d = page_size g /\ hv <= hv' /\ K !! ph hv' = None /\
      (hv' = hv \/ (hv mod PB = 0 /\ hv' mod PB = 0)) /\
      push_post hv' tv sv K D (cookie s) d m (OK tt) s' /\
      (forall b, cv D / PB < b < hv' / PB -> badv (js_n s') b = true)
  | _ => app_post hv tv sv K D s P ecc m o s'
  end.
Lemma app_post2_1 hv tv sv K D s P ecc m o s' : app_post2 hv tv sv K D s P ecc m o s' -> app_post hv tv sv K D s P ecc m o s'.
Proof. destruct o as [[]|e|x]; cbn; [|done..]. intros (hv' & d & ? & ? & ? & ? & ? & ? & ?). exists hv', d. auto 10. Qed.

Lemma append_loop_spec2 i prog P ecc meta tv sv K D :
  blen (metaof meta) = META_SIZE ->
  (forall s hv, Ready s hv tv sv K D -> progs (prog (ph hv)) P ecc (js_n s) hv) ->
  forall s hv, JI s hv tv sv K D -> 0 < Z.of_nat i -> (hv mod PB = 0 -> goodin g weak (hv / PB) (Z.of_nat i)) ->
  wp (append_loop i prog meta) s (app_post2 hv tv sv K D s P ecc (metaof meta)).
Proof.
  intros Hml Hprog. induction i as [|i IH]; intros s hv HJ Hi Hgi; cbn [append_loop]; [lia|].
  pose_geo.
  assert (Hretry : forall s1 hv1, hv <= hv1 -> (hv1 = hv \/ (hv mod PB = 0 /\ hv1 mod PB = 0)) ->
    JI s1 hv1 tv sv K D -> hv1 mod PB = 0 -> j_dirty (js_j s1) = true ->
    hv mod PB = 0 -> allweak g weak (hv / PB) (hv1 / PB) -> jrest (js_j s) (js_j s1) ->
    wp (recover_from E_BAD_BLOCK;;; append_loop i prog meta) s1
       (app_post2 hv tv sv K D s P ecc (metaof meta))).
  { intros s1 hv1 Hle Hal HJ1 Ha1 Hd1 Ha Haw Hr1. apply wp_bind.
    pose proof (lem blk_le hv hv1 Hle) as Hbl.
    assert (Hw1 : weak ((hv1 / PB) mod NB) = true) by (apply Haw; lia).
    eapply wp_mono; [by apply recover_aligned_spec|].
    pose proof (lem blk_start (hv1 / PB + 1)) as [E1 E2].
    pose proof (lem blk_lt_start hv1 (hv1 / PB + 1) ltac:(lia)) as Hlt.
    intros o s2 Ho. destruct o as [[]|e|x].
    - destruct Ho as (HJ2 & Hd2 & Hr2).
      assert (Hgi2 : goodin g weak ((hv1 / PB + 1) * PB / PB) (Z.of_nat i)).
      { rewrite E1. eapply goodin_mono; [eapply goodin_step; [by apply Hgi|exact Haw]|lia]. }
      assert (Hi2 : 0 < Z.of_nat i) by (destruct Hgi2 as (G & ? & _); lia).
      eapply wp_mono; [by eapply IH|].
      assert (Hr3 : jrest (js_j s) (js_j s2)) by by eapply jrest_trans.
      pose proof (jrest_cookie _ _ Hr3) as Eck.
      intros o s3 Ho. destruct o as [[]|e|x]; cbn in Ho |- *.
      + destruct Ho as (hv' & d & H1 & H2 & H3 & H4 & H5 & H6). exists hv', d. rewrite <-Eck.
        split; [done|]. split; [done|]. split; [lia|]. split; [done|]. split; [|exact H6].
        right. destruct Hal as [->|[? ?]]; destruct H5 as [->|[? ?]]; auto.
      + destruct Ho as (H1 & H2 & hv' & H3 & H4 & H5). split; [done|]. split; [by eapply jrest_trans|].
        exists hv'. split; [lia|]. split; [done|].
        right. destruct Hal as [->|[? ?]]; destruct H5 as [->|[? ?]]; auto.
      + destruct Ho as [-> [Ho|(hv' & d & H1 & H2 & H3 & H4 & H5 & H6)]]; split; auto.
        right. exists hv', d. rewrite <-Eck. split_and!; auto; [lia|].
        right. destruct Hal as [->|[? ?]]; destruct H5 as [->|[? ?]]; auto.
    - destruct Ho as (-> & HJ2 & Hd2 & Hr2). cbn. split; [auto|]. split; [by eapply jrest_trans|].
      exists hv1. auto.
    - destruct Ho as [-> Ho]. cbn. auto. }
  apply wp_bind. apply wp_attempt. apply wp_bind.
  eapply wp_mono; [by apply (prepare_head_spec g c Hg weak Hdense)|].
  intros o s1 Ho. destruct o as [[]|e|x].
  - destruct Ho as (hv1 & Hle & HR & Hr1 & Hal & Haw).
    apply wp_bind. unfold getj. apply wp_gets.
    rewrite (ji_head _ _ _ _ _ _ _ (JI_j _ _ _ _ _ _ _ _ _ (rd_ji _ _ _ _ _ _ _ _ _ HR))).
    unfold io. apply wp_zoom. eapply wp_mono; [by apply Hprog|].
    pose proof HR as [HJ1 Hd1 Hgood Hfree Hnx]. pose proof HJ1 as [Hn1 Hj1 HD1 Hc1].
    assert (Hu : user hv1) by apply HD1.
    assert (Hbe : (hv1 + 1) / PB = hv1 / PB).
    { apply (lem grp_blk). destruct (divmod_add PC hv1 1) as [E _]; [lia| |done].
      pose proof (lem slot_range hv1). unfold Geom.user in Hu. lia. }
    intros o n' Ho. destruct o as [[]|e|x].
    + destruct Ho as (x & d & Hpe & Hd & HP & Hdl).
      pose proof (k_push_meta bmono bm_refl bm_trans bm_prog bm_erase bm_mark meta (put_n n' s1)) as Hbm.
      assert (Hgap1 : forall b, cv D / PB < b < hv1 / PB -> badv n' b = true).
      { intros b Hb. rewrite (pe_bad _ _ _ _ _ _ Hpe). by apply (d_gap _ _ _ _ _ _ HD1). }
      match goal with |- wp ?M ?S ?Q => enough (Hw : wp M S (fun o s2 => push_post hv1 tv sv K D (cookie s1) d (metaof meta) o s2)) end.
      2: by eapply push_meta_spec.
      unfold wp in *. revert Hw.
      pose proof (jrest_cookie _ _ Hr1) as Eck. pose proof (K_fresh _ _ _ _ _ Hj1) as HKf.
      destruct (push_meta meta (put_n n' s1)) as [o s2]. cbn [fst snd js_n put_n] in Hbm |- *.
      intros Ho. destruct o as [[]|e|y]; [|done|].
      * exists hv1, d. rewrite <-Eck. split_and!; auto. intros b Hb. apply Hbm. by apply Hgap1.
      * destruct Ho as [-> [Ho|Ho]]; split; auto. right. exists hv1, d.
        rewrite <-Eck. split_and!; auto.
    + destruct Ho as [(-> & Ha & Hw & x & Hpe)|(-> & He & ->)].
      * assert (Ha0 : hv mod PB = 0) by (destruct Hal as [<-|[? ?]]; auto).
        assert (Haw' : allweak g weak (hv / PB) (hv1 / PB)).
        { intros y Hy. destruct (Z.eq_dec y (hv1 / PB)) as [->|]; [done|]. apply Haw. lia. }
        apply (Hretry _ hv1); [done|auto| |done..].
        pose proof (aligned_cb _ _ Hg _ _ _ _ HD1 Ha) as Hcb.
        pose proof (ji_full _ _ _ _ _ _ _ Hj1) as Hfull.
        apply JI_dirty; cbn [js_n js_j put_n]; auto; [apply Hpe| |].
        -- eapply (JInv_move g c Hg s1); [exact Hj1| | | | | | | | |]; auto; try lia; try apply Hj1.
           ++ apply jrest_refl.
           ++ intros. apply Hpe.
           ++ intros u Hub. apply (pe_cell _ _ _ _ _ _ Hpe); [lia|]. intros ->. lia.
        -- eapply (lem DI_head_gt); eauto.
           ++ intros. apply Hpe.
           ++ intros u Hub. apply (pe_cell _ _ _ _ _ _ Hpe); [lia|]. intros ->. lia.
           ++ intros Hb. split; [done|]. right. unfold Inv.blk_ep.
              destruct (lem fcp_facts (hv1 / PB)) as (F1 & F2 & F3).
              rewrite (pe_cell _ _ _ _ _ _ Hpe); [done|lia|]. intros E. rewrite E in F3. lia.
      * replace (put_n (js_n s1) s1) with s1 by by destruct s1.
        apply wp_bind. unfold recover_from. apply wp_bind. unfold getg. apply wp_gets.
        apply wp_bind. unfold getj. apply wp_gets. rewrite decide_True by done.
        apply wp_fail. cbn. split; [auto|]. split; [done|]. by exists hv1.
    + destruct Ho as (-> & x0 & Hpe). cbn. split; [done|]. left. split; [apply Hpe|].
      destruct (DI_prog (js_n s1) n' hv1 sv D) as (hv' & HD' & _); auto.
      * intros b. apply Hpe.
      * intros u Hu1 Hu2 Hu3. by apply Hpe.
      * intros _. rewrite (pe_cell _ _ _ _ _ _ Hpe) by lia. apply Hfree; lia.
      * rewrite (pe_cell _ _ _ _ _ _ Hpe) by lia. rewrite Hfree by lia. apply cell_ep_free.
      * by exists hv', sv.
  - destruct Ho as ((hv1 & Hle & HJ1 & Hbb & Hal) & Hr1 & He).
    destruct (decide (e = E_BAD_BLOCK)) as [->|Hne].
    + destruct (Hbb eq_refl) as (Ha & Ha' & Hd & Hw). apply (Hretry _ hv1); auto.
    + apply wp_bind. unfold recover_from. apply wp_bind. unfold getg. apply wp_gets.
      apply wp_bind. unfold getj. apply wp_gets. rewrite decide_True by done.
      apply wp_fail. cbn. split; [destruct He as [?|?]; auto; done|]. split; [done|]. by exists hv1.
  - destruct Ho as [-> Ho]. cbn. auto.
Qed.
Lemma append_loop_spec i prog P ecc meta tv sv K D :
  blen (metaof meta) = META_SIZE ->
  (forall s hv, Ready s hv tv sv K D -> progs (prog (ph hv)) P ecc (js_n s) hv) ->
  forall s hv, JI s hv tv sv K D -> 0 < Z.of_nat i -> (hv mod PB = 0 -> goodin g weak (hv / PB) (Z.of_nat i)) ->
  wp (append_loop i prog meta) s (app_post hv tv sv K D s P ecc (metaof meta)).
Proof.
  intros. eapply wp_mono; [by eapply append_loop_spec2|]. intros. by apply app_post2_1.
Qed.
End stepa.
