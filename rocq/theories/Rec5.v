(** Bad-block recovery: appending to the journal while recovering. *)
From stdpp Require Import gmap fin_maps.
From Verif Require Import Base Bytes BytesLemmas Wp Nand Journal MapModel Geom Tree Rep Inv Hdr StepDI StepNand StepJ StepA StepR San Top Bm Rec Rec2 Rec3 Rec4.
Local Open Scope Z_scope.

Section rec5.
Context (g : geo) (c : Z) (Hg : geo_ok2 g c) (weak : Z -> bool) (Hdense : dense g weak).
Notation PB := (PB g).
Notation PC := (PC c).
Notation NB := (NB g).
Notation TT := (TT g).
Notation ph := (ph g).
Notation user := (user c).
Notation nextv := (nextv c).
Notation cpv := (cpv c).
Notation cellv := (cellv g).
Notation badv := (badv g).
Notation cell_ep := (cell_ep g).
Notation blk_ep := (blk_ep g c).
Notation epo := (epo g).
Notation moff := (moff c).
Notation fcp := (fcp g c).
Notation kmeta := (kmeta g c).
Notation kd_ok := (kd_ok g c).
Notation DI := (DI g c).
Notation nok := (nok g weak).
Notation JInv := (JInv g c).
Notation JI := (JI g c weak).
Notation nokF := (nokF g weak).
Notation peF := (peF g weak).
Notation rmet := (rmet g c).
Notation RI := (RI g c weak).
Notation RReady := (RReady g c weak).

Ltac pose_geo :=
  pose proof (PC_ge4 _ (go2_c _ _ Hg)) as HPC4; pose proof (PC_le _ _ Hg) as HPC256;
  pose proof (PB_pos _ _ Hg) as HPB4; pose proof (PB_ge _ _ Hg) as HPBC;
  pose proof (NB_ge _ _ Hg) as HNB8; pose proof (TT_le _ _ Hg) as HTT31;
  pose proof (TT_pos _ _ Hg) as HTTpos.
Notation "'lem' x" := (x g c Hg) (at level 9, x at level 8, only parsing).
Notation "'lemw' x" := (x g c Hg weak) (at level 9, x at level 8, only parsing).
Notation Rst := (Rst g c weak).

(** The recovery ended with the append to [hv]. *)
Definition finished (s0 s' : js) (hv tv rv : Z) (K' : kmap) (d m : bytes) : Prop :=
  hv mod PC = PC - 2 /\ nokF (js_n s') /\ j_dirty (js_j s') = false /\ j_recov (js_j s') = false /\
  j_badmeta (js_j s') = false /\ badv (js_n s') (rv / PB) = true /\
  forall Kf, Kf ⊆ K' -> Kf !! ph hv = Some (d, m) -> (forall p, is_Some (Kf !! p) -> p / PB <> (rv / PB) mod NB) ->
    JI (sanj s') (nextv hv) tv tv Kf (Dsk (hv + 1) tv (cookie s0) m Kf).

Definition pushR_post (s0 : js) (hv tv sv rv : Z) mo K K0 d m (o : out unit) (s' : js) : Prop :=
  let K' := <[ph hv := (d, m)]> K in
  match o with
  | OK _ => j_root (js_j s') = ph hv /\
      ((RI s' true (nextv hv) tv sv rv mo K' K0 /\ j_rnext (js_j s') = j_rnext (js_j s0) /\
        j_enum (js_j s') = j_enum (js_j s0) /\ (j_enum (js_j s0) = true -> hv mod PC <> PC - 2)) \/
       (j_enum (js_j s0) = true /\ finished s0 s' hv tv rv K' d m))
  | ER e => leak e \/ (e = E_RECOVER /\ Rst s' tv sv rv K0)
  | ST x => x = Crash
  end.

Lemma finish_spec s rv mo :
  nokF (js_n s) -> j_rroot (js_j s) = ph rv ->
  weak ((rv / PB) mod NB) = true ->
  j_rmeta (js_j s) = match mo with Some q => ph q | None => PAGE_NONE end ->
  (j_badmeta (js_j s) = true -> exists q, mo = Some q /\ weak ((q / PB) mod NB) = true) ->
  wp finish_recovery s (fun o s' => match o with
    | OK _ => nokF (js_n s') /\ js_j s' = clear_recovery_j (js_j s) /\
        (forall u, cellv (js_n s') u = cellv (js_n s) u) /\
        (forall b, badv (js_n s) b = true -> badv (js_n s') b = true) /\
        badv (js_n s') (rv / PB) = true /\
        (j_badmeta (js_j s) = true -> forall q, mo = Some q -> badv (js_n s') (q / PB) = true) /\
        (forall b, b mod NB <> (rv / PB) mod NB ->
          (j_badmeta (js_j s) = true -> forall q, mo = Some q -> b mod NB <> (q / PB) mod NB) ->
          badv (js_n s') b = badv (js_n s) b)
    | ER e => False
    | ST x => x = Crash
    end).
Proof.
  intros Hn Er Hw Em Hbm. unfold finish_recovery.
  apply wp_bind. unfold getg. apply wp_gets. apply wp_bind. unfold getj. apply wp_gets.
  rewrite (nf_geo _ _ _ Hn), Er, (lem shiftr_blk), (lem ph_blk).
  apply wp_bind. unfold io at 1. apply wp_zoom. eapply wp_mono; [by apply (lemw markF)|].
  intros o n' (Hn' & Hc' & Hbo & Hbm' & Ho). destruct o as [[]|e|x]; [|done|done].
  apply wp_bind. destruct (j_badmeta (js_j s)) eqn:Eb.
  - destruct (Hbm eq_refl) as (q & -> & Hwq). rewrite Em, (lem shiftr_blk), (lem ph_blk).
    unfold io. apply wp_zoom. cbn [js_n put_n]. eapply wp_mono; [by apply (lemw markF)|].
    intros o n2 (Hn2 & Hc2 & Hbo2 & Hbm2 & Ho2). destruct o as [[]|e|x]; [|done|done].
    unfold clear_recovery, modj. apply wp_modify. cbn [js_n js_j put_n]. split_and!; auto.
    + intros u. by rewrite Hc2.
    + intros _ q' [= <-]. done.
    + intros b H1 H2. rewrite Hbo2, Hbo by eauto. done.
  - apply wp_ret. unfold clear_recovery, modj. apply wp_modify. cbn [js_n js_j put_n]. split_and!; auto. done.
Qed.

Lemma push_metaR s0 n' hv tv sv rv mo K K0 x d meta :
  RReady s0 true hv tv sv rv mo K K0 -> peF (js_n s0) n' hv x ->
  cell_bytes g x = Some d -> blen d = page_size g -> blen (metaof meta) = META_SIZE ->
  wp (push_meta meta) (put_n n' s0) (pushR_post s0 hv tv sv rv mo K K0 d (metaof meta)).
Proof.
  intros HRR [Hnok Hbad Hhv Hcell] Hd Hdl Hml. pose proof HRR as [HR [Hgood Hfree] Hnx].
  pose_geo. set (m := metaof meta) in *.
  pose proof (lemw RI_sb _ _ _ _ _ _ _ _ _ HR) as (Hb1' & Hb2 & Hb3 & H0 & H0s).
  assert (Hu : user hv) by apply HR.
  pose proof (lem slot_range hv) as Hsl.
  pose proof (lem moff_fit hv Hu) as [Hf1 Hf2].
  assert (Hb1 : (hv + 1) / PB = hv / PB).
  { apply (lem grp_blk). destruct (divmod_add PC hv 1) as [E _]; [lia| |done].
    unfold Geom.user in Hu. lia. }
  assert (Ho1 : hv mod PB + 1 < PB).
  { pose proof (lem v_decomp hv). pose proof (lem blk_lt_start (hv + 1) (hv / PB + 1) ltac:(lia)). lia. }
  assert (Hph1 : ph (hv + 1) = ph hv + 1).
  { apply (lem ph_add). pose proof (lem off_range hv). lia. }
  pose proof (lem ph_range hv) as Hphr. pose proof (lem ph_range (hv + 1)) as Hphr1.
  assert (Hcell1 : cellv n' (hv + 1) = Free).
  { rewrite Hcell by lia. apply Hfree; lia. }
  assert (Hbuf : blen (j_buf (js_j s0)) = page_size g) by apply HR.
  assert (Hkw : forall v, hv / PB - NB < v / PB <= hv / PB -> v < hv -> cellv n' v = cellv (js_n s0) v).
  { intros v Hv1 Hv2. apply Hcell; [done|lia]. }
  unfold push_meta.
  apply wp_bind. unfold getg. apply wp_gets. apply wp_bind. unfold getj at 1. apply wp_gets.
  cbn [js_n js_j put_n].
  rewrite (nf_geo _ _ _ Hnok), (ri_ppc _ _ _ _ _ _ _ _ _ _ _ _ HR), (ri_head _ _ _ _ _ _ _ _ _ _ _ _ HR).
  rewrite (lem moff_hdr) by done. fold (metaof meta). fold m.
  eapply wp_bind_ok.
  { apply buf_put_ok; cbn [js_j put_n]; rewrite ?Hbuf, ?Hml.
    - unfold HEADER_SIZE, COOKIE_SIZE in Hf1. lia.
    - lia. }
  cbn [js_n js_j put_n].
  set (buf1 := splice (moff hv) m (j_buf (js_j s0))).
  assert (Hbl1 : blen buf1 = page_size g).
  { unfold buf1. rewrite blen_splice; auto; rewrite ?Hml, ?Hbuf; [|lia].
    unfold HEADER_SIZE, COOKIE_SIZE in Hf1. lia. }
  assert (Hsm : slice (moff hv) META_SIZE buf1 = m).
  { unfold buf1. rewrite <-Hml at 1. apply slice_splice_same; rewrite ?Hml, ?Hbuf; [|lia].
    unfold HEADER_SIZE, COOKIE_SIZE in Hf1. lia. }
  assert (Hso : forall v, v / PC = hv / PC -> v <> hv -> user v ->
    slice (moff v) META_SIZE buf1 = slice (moff v) META_SIZE (j_buf (js_j s0))).
  { intros v Hv1 Hv2 Hv3. unfold buf1. pose proof (lem moff_fit v Hv3) as [Hg1 Hg2].
    unfold HEADER_SIZE, COOKIE_SIZE, META_SIZE in Hf1, Hg1.
    pose proof (moff_disj c v hv (lem slot_ne _ _ Hv1 Hv2)) as Hdj.
    apply slice_splice_disj; rewrite ?Hml, ?Hbuf; unfold META_SIZE in *; lia. }
  assert (Hck : slice HEADER_SIZE COOKIE_SIZE buf1 = cookie s0).
  { unfold buf1, cookie. unfold HEADER_SIZE, COOKIE_SIZE, META_SIZE in *.
    apply slice_splice_disj; rewrite ?Hml, ?Hbuf; lia. }
  assert (Hal : is_aligned (w32 (ph hv + 2)) c = ((hv + 2) mod PC =? 0)).
  { rewrite w32_small by lia. rewrite (lem aligned_grp).
    rewrite <-Zplus_mod_idemp_l, (lem ph_slot), Zplus_mod_idemp_l. done. }
  rewrite Hal.
  assert (Hcase := nextv_cases _ _ Hg hv Hu).
  destruct Hcase as [(Hs & Enx & Eg & Es)|(Hs & Enx & Eg & Es)].
  - (* not the last slot *)
    assert (E2 : ((hv + 2) mod PC =? 0) = false).
    { apply Z.eqb_neq. destruct (divmod_add PC hv 1) as [_ E]; [lia|lia|].
      unfold Geom.nextv in Enx. destruct (Z.eqb_spec ((hv + 2) mod PC) 0); lia. }
    rewrite E2. cbn [negb]. unfold modj. apply wp_modify. cbn [js_n js_j].
    unfold pushR_post. cbn [js_n js_j set_head set_root set_buf j_root j_head j_dirty].
    rewrite (ri_head _ _ _ _ _ _ _ _ _ _ _ _ HR). split; [done|].
    left. split; [|cbn; split_and!; auto; lia].
    eapply (RI_app g c Hg weak s0); cbn [js_n js_j]; auto; rewrite ?Enx; auto; try (by apply HR).
    + by rewrite Hhv.
    + intros u Hu1 Hu2. rewrite Hcell by lia. apply Hfree; lia.
    + intros E. exfalso. apply E. by rewrite <-Enx.
    + cbn. rewrite Hph1. apply w32_small. lia.
    + cbn. rewrite Hb1. apply HR.
    + intros E. exfalso. apply E. by rewrite <-Enx.
  - (* last slot: write the checkpoint page *)
    assert (E2 : ((hv + 2) mod PC =? 0) = true).
    { apply Z.eqb_eq. by rewrite <-Enx. }
    rewrite E2. cbn [negb].
    set (j1 := set_buf buf1 (js_j s0)).
    assert (Hps : 16 <= page_size g) by (unfold HEADER_SIZE, COOKIE_SIZE, META_SIZE in *; lia).
    unfold wp. rewrite put_hdr_ok by (change (16 <= blen buf1); lia). cbn [js_n js_j].
    change (j_buf j1) with buf1.
    set (buf2 := mk_cp buf1 (j_epoch (js_j s0)) (j_tail (js_j s0)) (j_bbc (js_j s0)) (j_bbl (js_j s0))).
    assert (Hbl2 : blen buf2 = page_size g).
    { unfold buf2. rewrite blen_mk_cp by lia. done. }
    assert (Hs2 : forall off l, 16 <= off -> slice off l buf2 = slice off l buf1).
    { intros. unfold buf2. apply slice_mk_cp; lia. }
    assert (Hmg : hdr_has_magic buf2 = true) by (apply magic_mk_cp; lia).
    assert (Hep : hdr_get_epoch buf2 = epo (hv / PB)).
    { unfold buf2. rewrite epoch_mk_cp by lia. rewrite (ri_epoch _ _ _ _ _ _ _ _ _ _ _ _ HR).
      apply w8_small. apply epo_range. }
    assert (Htl : hdr_get_tail buf2 = ph tv).
    { unfold buf2. rewrite tail_mk_cp by lia. rewrite (ri_tail _ _ _ _ _ _ _ _ _ _ _ _ HR).
      apply w32_small. pose proof (lem ph_range tv). lia. }
    assert (Hck2 : slice HEADER_SIZE COOKIE_SIZE buf2 = cookie s0).
    { rewrite Hs2; [done|]. done. }
    assert (Hckl : blen (cookie s0) = COOKIE_SIZE).
    { unfold cookie. apply blen_slice; rewrite ?Hbuf; unfold HEADER_SIZE, COOKIE_SIZE, META_SIZE in *; lia. }
    assert (Hcpe : cpv hv = hv + 1).
    { unfold Geom.cpv. pose proof (Z.div_mod hv PC ltac:(lia)). lia. }
    assert (Hoc : forall n'' x'', peF n' n'' (hv + 1) x'' ->
      forall u, hv / PB - NB < u / PB <= hv / PB -> u <> hv + 1 -> cellv n'' u = cellv n' u).
    { intros n'' x'' Hpe u Hu1 Hu2. apply (pf_cell _ _ _ _ _ _ Hpe); [by rewrite Hb1|done]. }
    assert (Hso2 : forall v, v / PC = hv / PC -> v <> hv -> user v ->
      slice (moff v) META_SIZE buf2 = slice (moff v) META_SIZE (j_buf (js_j s0))).
    { intros v Hv1 Hv2 Hv3. rewrite Hs2; [by apply Hso|].
      pose proof (lem moff_fit v Hv3). unfold HEADER_SIZE, COOKIE_SIZE in *. lia. }
    assert (Hsm2 : slice (moff hv) META_SIZE buf2 = m).
    { rewrite Hs2; [done|]. unfold HEADER_SIZE, COOKIE_SIZE in *. lia. }
    assert (Eep : epo (nextv hv / PB) = if ph (nextv hv) =? 0 then w8 (epo (hv / PB) + 1) else epo (hv / PB)).
    { destruct (lem nextv_blk hv Hu) as [[Eb Eo]|(Eb & Eo & _ & _)].
      - rewrite Eb. destruct (Z.eqb_spec (ph (nextv hv)) 0) as [Ez|]; [|done]. exfalso.
        pose proof (lem ph_off (nextv hv)) as Eph. rewrite Ez in Eph. rewrite Z.mod_0_l in Eph by lia.
        pose proof (lem off_range hv). lia.
      - assert (Ez : ph (nextv hv) = 0 <-> (hv / PB + 1) mod NB = 0).
        { rewrite <-Eb. rewrite <-(ph_start_0 g c Hg). rewrite (lem v_decomp (nextv hv)) at 1.
          rewrite Eo, Z.add_0_r. done. }
        rewrite Eb. destruct (Z.eqb_spec (ph (nextv hv)) 0) as [E|E].
        + apply (lem epo_succ). by apply Ez.
        + apply (lem epo_same). intros E'. by apply E, Ez. }
    set (s2 := Js n' (set_buf buf2 j1)).
    match goal with |- ?G => change (wp (let! buf := getj j_buf in
      let! r := attempt (io (nand_prog (w32 (ph hv + 1)) buf)) in
      match r with
      | inl my_err => recover_from my_err
      | inr _ =>
        modj (set_dirty false);;;
        modj (fun j => set_head (next_upage g (j_ppc j) (j_head j)) (set_root (ph hv) j));;;
        let! head := getj j_head in
        (if head =? 0 then roll_stats else ret tt);;;
        let! enum_done := getj j_enum in
        (if (enum_done : bool) then finish_recovery else ret tt);;;
        let! j := getj (fun j => j) in
        if negb (j_recov j) then modj (set_tsync (j_tail j)) else ret tt
      end) s2 (pushR_post s0 hv tv sv rv mo K K0 d m)) end.
    apply wp_bind. unfold getj at 1. apply wp_gets. change (j_buf (js_j s2)) with buf2.
    apply wp_bind. apply wp_attempt. unfold io at 1. apply wp_zoom.
    rewrite w32_small by lia. rewrite <-Hph1.
    eapply wp_mono.
    { apply (lemw progF n' (hv + 1) buf2); auto.
      - by rewrite Hb1, Hbad.
      - intros u Hu1 Hu2. rewrite Hcell by lia. apply Hfree; lia. }
    intros o n'' (x'' & Hpe & Ho).
    assert (Hwr : written g buf2 = Data buf2).
    { unfold written. assert (E3 : all_ff buf2 = false) by (apply all_ff_mk_cp; lia).
      rewrite E3. by rewrite andb_false_r. }
    rewrite Hwr in Ho.
    assert (Hkw2 : forall u, hv / PB - NB < u / PB <= hv / PB -> u < hv -> cellv n'' u = cellv (js_n s0) u).
    { intros u Hu1 Hu2. rewrite (Hoc _ _ Hpe) by lia. by apply Hkw. }
    assert (Hbad2 : forall b, badv n'' b = badv (js_n s0) b).
    { intros b. by rewrite (pf_bad _ _ _ _ _ _ Hpe), Hbad. }
    destruct o as [[]|e|y].
    + (* programmed *)
      subst x''.
      apply (wp_bind (modj _)). apply wp_modify. apply (wp_bind (modj _)). apply wp_modify.
      cbn [js_n js_j put_n]. change (j_ppc (set_dirty false (js_j s2))) with (j_ppc (js_j s0)).
      change (j_head (set_dirty false (js_j s2))) with (j_head (js_j s0)).
      rewrite (ri_head _ _ _ _ _ _ _ _ _ _ _ _ HR), (ri_ppc _ _ _ _ _ _ _ _ _ _ _ _ HR).
      rewrite (lem next_upage_ph) by done.
      apply wp_bind. unfold getj at 1. apply wp_gets. cbn [js_j set_head j_head].
      set (j3 := set_head (ph (nextv hv)) (set_root (ph hv) (set_dirty false (js_j s2)))).
      apply wp_bind.
      set (e' := epo (nextv hv / PB)).
      assert (Hroll : wp (if ph (nextv hv) =? 0 then roll_stats else ret tt) (Js n'' j3) (fun o s' => o = OK tt /\
        exists bc bl, s' = Js n'' (set_bbl bl (set_bbc bc (set_epoch e' j3))))).
      { unfold e'. rewrite Eep. destruct (ph (nextv hv) =? 0).
        - unfold roll_stats, roll_stats_j, modj. apply wp_modify. split; [done|]. eexists _, _. cbn [js_n js_j].
          f_equal. unfold set_epoch, set_bbc, set_bbl. cbn.
          rewrite (ri_epoch _ _ _ _ _ _ _ _ _ _ _ _ HR). reflexivity.
        - apply wp_ret. split; [done|]. exists (j_bbc j3), (j_bbl j3). f_equal.
          unfold set_epoch, set_bbc, set_bbl. cbn. rewrite <-(ri_epoch _ _ _ _ _ _ _ _ _ _ _ _ HR). by destruct (js_j s0). }
      eapply wp_mono; [exact Hroll|]. intros o s4 (-> & bc & bl & ->). cbn beta iota.
      set (j4 := set_bbl bl (set_bbc bc (set_epoch e' j3))).
      apply wp_bind. unfold getj at 1. apply wp_gets. change (j_enum (js_j (Js n'' j4))) with (j_enum (js_j s0)).
      apply wp_bind. destruct (j_enum (js_j s0)) eqn:Een.
      * eapply wp_mono.
        { apply (finish_spec _ rv mo); cbn [js_n js_j]; [apply Hpe|apply HR|exact (ri_weak _ _ _ _ _ _ _ _ _ _ _ _ HR)|apply HR|].
          change (j_badmeta j4) with (j_badmeta (js_j s0)).
          intros Hx. destruct (ri_bm _ _ _ _ _ _ _ _ _ _ _ _ HR Hx) as (q & ? & ? & ?). eauto. }
        intros o s5 Ho5. destruct o as [[]|e|y]; [|done|done].
        cbn [js_n js_j] in Ho5. destruct Ho5 as (Hn5 & Ej5 & Hc5 & Hbm5 & Hbr5 & Hbq5 & Hbo5).
        change (j_badmeta j4) with (j_badmeta (js_j s0)) in *.
        apply wp_bind. unfold getj at 1. apply wp_gets. rewrite Ej5. cbn [negb clear_recovery_j set_badmeta set_recov j_recov].
        unfold modj. apply wp_modify. unfold pushR_post. cbn [js_n js_j]. rewrite Ej5.
        split; [done|]. right. split; [done|]. split; [done|]. split; [done|]. split; [done|]. split; [done|]. split; [done|].
        split; [done|]. intros Kf HKs HKh HKf.
        pose proof (ri_full _ _ _ _ _ _ _ _ _ _ _ _ HR) as Hfull.
        pose proof (ri_mo _ _ _ _ _ _ _ _ _ _ _ _ HR) as Hmo.
        eapply (RI_fin g c Hg weak s0) with (buf := buf2) (d := d); cbn [js_n js_j]; eauto; try (by apply HR).
        -- intros b Hb Hbr Hbx. rewrite Hbo5; [apply Hbad2| |].
           ++ intros E. apply (mod_inj NB) in E; lia.
           ++ intros Hx q Hq E. apply (Hbx Hx q Hq). destruct (Hmo q Hq) as (_ & _ & ? & Hqh).
              pose proof (lem blk_le q hv ltac:(lia)). apply (mod_inj NB) in E; lia.
        -- intros u Hu1 Hu2. rewrite Hc5. auto.
        -- rewrite Hc5, (Hoc _ _ Hpe) by lia. by rewrite Hhv.
        -- rewrite Hc5. apply Hpe.
        -- intros u Hu1 Hu2. rewrite Hc5, (Hoc _ _ Hpe) by lia. rewrite Hcell by lia. apply Hfree; lia.
      * apply wp_ret. apply wp_bind. unfold getj at 1. apply wp_gets. cbn [js_j].
        change (j_recov j4) with (j_recov (js_j s0)). rewrite (ri_recov _ _ _ _ _ _ _ _ _ _ _ _ HR). cbn [negb].
        apply wp_ret. unfold pushR_post. cbn [js_n js_j]. split; [done|]. left.
        split; [|rewrite Een; cbn; split_and!; auto; done].
        eapply (RI_app g c Hg weak s0); cbn [js_n js_j]; auto; try (by apply HR).
        -- apply Hpe.
        -- rewrite (Hoc _ _ Hpe) by lia. by rewrite Hhv.
        -- intros u Hu1 Hu2. rewrite (Hoc _ _ Hpe) by lia. rewrite Hcell by lia. apply Hfree; lia.
        -- intros _. rewrite (pf_hv _ _ _ _ _ _ Hpe). unfold Inv.cell_ep. cbn. by rewrite Hmg, Hep.
        -- intros _. exists buf2. split; [|done]. by rewrite Hcpe, (pf_hv _ _ _ _ _ _ Hpe).
    + (* the checkpoint page cannot be programmed *)
      destruct Ho as [-> Hw]. rewrite Hb1 in Hw. unfold pushR_post.
      eapply wp_mono.
      { eapply (restart_spec g c Hg weak s0) with (buf := buf2); cbn [js_n js_j put_n]; eauto. apply Hpe. }
      intros o s' Ho. destruct o as [[]|e|y]; auto. done.
    + done.
Qed.
End rec5.
