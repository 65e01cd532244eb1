(** Bad-block recovery: the retry loop of append, and reads. *)
From stdpp Require Import gmap fin_maps.
From Verif Require Import Base Bytes BytesLemmas Wp Nand Journal MapModel Geom Tree Rep Inv Hdr StepDI StepNand StepJ StepA StepR San Top Bm Rec Rec2 Rec3 Rec4 Rec5.
Local Open Scope Z_scope.

Section rec6.
Context (g : geo) (c : Z) (Hg : geo_ok2 g c) (weak : Z -> bool) (Hdense : dense g weak).
Notation PB := (PB g).
Notation PC := (PC c).
Notation NB := (NB g).
Notation TT := (TT g).
Notation ph := (ph g).
Notation user := (user c).
Notation nextv := (nextv c).
Notation cpv := (cpv c).
Notation cellv := (cellv g).
Notation badv := (badv g).
Notation cell_ep := (cell_ep g).
Notation blk_ep := (blk_ep g c).
Notation epo := (epo g).
Notation moff := (moff c).
Notation fcp := (fcp g c).
Notation kmeta := (kmeta g c).
Notation kd_ok := (kd_ok g c).
Notation DI := (DI g c).
Notation nok := (nok g weak).
Notation JInv := (JInv g c).
Notation JI := (JI g c weak).
Notation nokF := (nokF g weak).
Notation peF := (peF g weak).
Notation rmet := (rmet g c).
Notation RI := (RI g c weak).
Notation RReady := (RReady g c weak).

Ltac pose_geo :=
  pose proof (PC_ge4 _ (go2_c _ _ Hg)) as HPC4; pose proof (PC_le _ _ Hg) as HPC256;
  pose proof (PB_pos _ _ Hg) as HPB4; pose proof (PB_ge _ _ Hg) as HPBC;
  pose proof (NB_ge _ _ Hg) as HNB8; pose proof (TT_le _ _ Hg) as HTT31;
  pose proof (TT_pos _ _ Hg) as HTTpos.
Notation "'lem' x" := (x g c Hg) (at level 9, x at level 8, only parsing).
Notation "'lemw' x" := (x g c Hg weak) (at level 9, x at level 8, only parsing).
Notation Rst := (Rst g c weak).

Definition progsF (prog : M nand unit) (P : bytes -> Prop) (n : nand) (hv : Z) : Prop :=
  wp prog n (fun o n' => match o with
    | OK _ => exists x d, peF n n' hv x /\ cell_bytes g x = Some d /\ P d /\ blen d = page_size g
    | ER e => (e = E_BAD_BLOCK /\ weak ((hv / PB) mod NB) = true /\ exists x, peF n n' hv x) \/ (e = E_ECC /\ n' = n)
    | ST y => y = Crash
    end).

Lemma cell_lenF n p d : nokF n -> cell_bytes g (n_cell n p) = Some d -> blen d = page_size g.
Proof.
  intros Hn Hd. destruct (n_cell n p) as [|d'|o] eqn:E.
  - injection Hd as <-. apply blen_ffs. pose proof (page_size_pos g c Hg). lia.
  - injection Hd as ->. by eapply Hn.
  - cbn in Hd. unfold garbage in Hd. destruct o as [d'|]; [|done].
    destruct (blen d' =? page_size g) eqn:E2; [|done]. cbn in Hd. apply Z.eqb_eq in E2.
    destruct (negb _); [|done]. by injection Hd as <-.
Qed.

Lemma progsF_data n hv d : nokF n -> goodfree g n hv -> blen d = page_size g ->
  progsF (nand_prog (ph hv) d) (fun x => x = d) n hv.
Proof.
  intros Hn [Hgood Hfree] Hl. unfold progsF.
  eapply wp_mono; [by apply (lemw progF)|].
  intros o n' (x & Hpe & Ho). destruct o as [[]|e|y].
  - subst x. exists (written g d), d. split_and!; auto. by apply written_bytes.
  - left. destruct Ho as (-> & H1). split_and!; auto. by exists x.
  - done.
Qed.
Lemma progsF_copy n hv p d : nokF n -> goodfree g n hv -> 0 <= p < TT -> cell_bytes g (n_cell n p) = Some d ->
  progsF (nand_copy p (ph hv)) (fun x => x = d) n hv.
Proof.
  intros Hn Hgf Hp Hd. pose proof (page_size_pos g c Hg).
  unfold progsF, nand_copy. apply wp_bind. apply wp_gets. rewrite (nf_geo _ _ _ Hn).
  apply wp_bind. unfold wp at 1. rewrite <-(ph_small g p) by done.
  rewrite (read_spec g c Hg) by (auto; try lia; apply Hn). cbn [fst snd].
  unfold Inv.cellv. rewrite (ph_small g p) by done. rewrite Hd.
  pose proof (cell_lenF _ _ _ Hn Hd) as Hl.
  rewrite slice_all by done. by apply progsF_data.
Qed.

Definition appR_post (s0 : js) (hv tv sv rv : Z) mo K K0 (P : bytes -> Prop) m (o : out unit) (s' : js) : Prop :=
  match o with
  | OK _ => exists s1 hv' d, P d /\ blen d = page_size g /\ hv <= hv' /\
      (hv' = hv \/ (hv mod PB = 0 /\ hv' mod PB = 0)) /\ K !! ph hv' = None /\ rv / PB < hv' / PB /\
      hv' / PB < sv / PB + NB /\ user hv' /\ jr2 (js_j s0) (js_j s1) /\
      pushR_post g c weak s1 hv' tv sv rv mo K K0 d m (OK tt) s'
  | ER e => leak e \/ (e = E_RECOVER /\ Rst s' tv sv rv K0)
  | ST x => x = Crash
  end.

Lemma append_loopR i prog P meta s hv tv sv rv mo K K0 :
  blen (metaof meta) = META_SIZE ->
  (forall s hv, RReady s true hv tv sv rv mo K K0 -> progsF (prog (ph hv)) P (js_n s) hv) ->
  RI s true hv tv sv rv mo K K0 ->
  wp (append_loop i prog meta) s (appR_post s hv tv sv rv mo K K0 P (metaof meta)).
Proof.
  intros Hml Hprog HR. destruct i as [|i]; cbn [append_loop].
  { apply wp_fail. left. unfold leak. auto. }
  pose_geo.
  assert (Hre : forall s0 n' hv1, RI s0 true hv1 tv sv rv mo K K0 -> nokF n' -> weak ((hv1 / PB) mod NB) = true ->
    (forall b, badv n' b = badv (js_n s0) b) ->
    (forall u, hv1 / PB - NB < u / PB <= hv1 / PB -> u < hv1 -> cellv n' u = cellv (js_n s0) u) ->
    wp (recover_from E_BAD_BLOCK;;; append_loop i prog meta) (put_n n' s0) (appR_post s hv tv sv rv mo K K0 P (metaof meta))).
  { intros s0 n' hv1 HR1 Hn Hw Hb Hc. apply wp_bind. eapply wp_mono.
    { eapply (restart_spec g c Hg weak s0) with (buf := j_buf (js_j s0)); cbn [js_n js_j put_n]; eauto; [by destruct (js_j s0)|apply HR1]. }
    intros o s' Ho. destruct o as [[]|e|x]; done. }
  assert (Hfl : forall s1 e, leak e -> wp (recover_from e;;; append_loop i prog meta) s1
    (appR_post s hv tv sv rv mo K K0 P (metaof meta))).
  { intros s1 e He. apply wp_bind. unfold recover_from. apply wp_bind. unfold getg. apply wp_gets.
    apply wp_bind. unfold getj. apply wp_gets. rewrite decide_True by (unfold leak in He; naive_solver).
    apply wp_fail. by left. }
  apply wp_bind. apply wp_attempt. apply wp_bind.
  eapply wp_mono; [by apply (lemw prepareF)|].
  intros o s1 Ho. destruct o as [[]|e|x]; [| |done].
  - destruct Ho as (hv1 & Hle & HRR & Hr1 & Hal). pose proof HRR as [HR1 [Hgood Hfree] Hnx].
    apply wp_bind. unfold getj at 1. apply wp_gets. rewrite (ri_head _ _ _ _ _ _ _ _ _ _ _ _ HR1).
    unfold io. apply wp_zoom. eapply wp_mono; [by apply Hprog|].
    intros o n' Ho. destruct o as [[]|e|x]; [| |done].
    + destruct Ho as (x & d & Hpe & Hd & HP & Hdl).
      eapply wp_mono; [by eapply (lemw push_metaR)|].
      intros o s2 Ho. destruct o as [[]|e|y]; [|done|done].
      exists s1, hv1, d. pose proof (ri_full _ _ _ _ _ _ _ _ _ _ _ _ HR1).
      pose proof (lemw RI_fresh _ _ _ _ _ _ _ _ _ HR1). split_and!; auto; try lia; try (by apply HR1).
    + destruct Ho as [(-> & Hw & x & Hpe)|(-> & ->)].
      * apply (Hre s1 n' hv1); auto; try apply Hpe.
        intros u Hu1 Hu2. apply (pf_cell _ _ _ _ _ _ Hpe); [done|lia].
      * apply Hfl. unfold leak. auto.
  - destruct Ho as [(-> & hv1 & Hle & _ & Ha1 & HR1 & Hr1 & Hw)|Hl]; [|by apply Hfl].
    replace s1 with (put_n (js_n s1) s1) by by destruct s1. apply (Hre s1 (js_n s1) hv1); auto. apply HR1.
Qed.

(** ** Reads *)
Lemma readsR s hv tv sv rv mo K K0 : RI s true hv tv sv rv mo K K0 -> reads K s.
Proof.
  intros HR p d m Hp. pose proof (ri_K _ _ _ _ _ _ _ _ _ _ _ _ HR _ _ _ Hp) as (v & [] & Hl & _ & _ & Hm).
  pose_geo. pose proof (lem moff_fit v kd_u) as [Hf1 Hf2].
  unfold HEADER_SIZE, COOKIE_SIZE, META_SIZE in Hf1, Hf2.
  pose proof (lemw RI_Kwin _ _ _ _ _ _ _ _ _ v HR kd_v) as Hvw.
  pose proof (lemw RI_sb _ _ _ _ _ _ _ _ _ HR) as (Hb1 & Hb2 & Hb3 & H0 & H0s).
  pose proof (ri_full _ _ _ _ _ _ _ _ _ _ _ _ HR) as Hfull.
  assert (Hgeo : n_geo (js_n s) = g) by apply (ri_n _ _ _ _ _ _ _ _ _ _ _ _ HR).
  unfold read_meta, bind, getj, gets. subst p.
  rewrite (ri_ppc _ _ _ _ _ _ _ _ _ _ _ _ HR), (ri_head _ _ _ _ _ _ _ _ _ _ _ _ HR),
    (ri_rmeta _ _ _ _ _ _ _ _ _ _ _ _ HR), (ri_rroot _ _ _ _ _ _ _ _ _ _ _ _ HR).
  rewrite (lem moff_hdr) by done. rewrite !(lem align_eq_grp). unfold Rec.rmet in Hm.
  destruct (Z.eqb_spec (ph v / PC) (ph hv / PC)) as [E|E].
  - apply (lem win_grp (hv / PB)) in E; [|done|lia]. rewrite decide_True in Hm by done.
    unfold buf_get. rewrite (ri_buf _ _ _ _ _ _ _ _ _ _ _ _ HR).
    replace (0 <=? moff v) with true by (symmetry; apply Z.leb_le; lia).
    replace (moff v + META_SIZE <=? page_size g) with true by (symmetry; apply Z.leb_le; unfold META_SIZE; lia).
    cbn [andb]. by rewrite Hm.
  - rewrite decide_False in Hm by (intros E'; apply E; by rewrite !(lem ph_grp), E').
    assert (Hcp : kmeta (js_n s) v m ->
      io (nand_read (Z.lor (ph v) (Z.shiftl 1 c - 1)) (moff v) META_SIZE) s = (OK m, s)).
    { intros (cd & H1 & H2). rewrite (lem cp_grp), <-(lem cpv_ph). unfold io, zoom.
      rewrite (read_spec g c Hg) by (auto; unfold META_SIZE; lia). rewrite H1, H2. by destruct s. }
    destruct mo as [q|].
    + assert (Hne : (ph q =? PAGE_NONE) = false).
      { apply Z.eqb_neq. pose proof (lem ph_range q). unfold PAGE_NONE. lia. }
      rewrite Hne. cbn [negb andb].
      destruct (Z.eqb_spec (ph v / PC) (ph rv / PC)) as [E2|E2].
      * apply (lem win_grp (hv / PB)) in E2; [|done|lia]. rewrite decide_True in Hm by done.
        destruct Hm as (cd & H1 & H2). unfold io, zoom.
        rewrite (read_spec g c Hg) by (auto; unfold META_SIZE; lia). rewrite H1, H2. by destruct s.
      * rewrite decide_False in Hm by (intros E'; apply E2; by rewrite !(lem ph_grp), E'). auto.
    + replace (negb (PAGE_NONE =? PAGE_NONE)) with false by done. cbn [andb]. auto.
Qed.

(** Reading the metadata of any user page does not change the state. *)
Lemma read_meta_anyR s v : n_geo (js_n s) = g -> nokF (js_n s) -> j_ppc (js_j s) = c ->
  blen (j_buf (js_j s)) = page_size g ->
  (exists q, j_rmeta (js_j s) = ph q \/ j_rmeta (js_j s) = PAGE_NONE) -> user v ->
  (exists m, read_meta (ph v) s = (OK m, s) /\ blen m = META_SIZE) \/ read_meta (ph v) s = (ER E_ECC, s).
Proof.
  intros Hgeo Hn Hc Hbuf (q & Hq) Hu. pose_geo. pose proof (lem moff_fit v Hu) as [Hf1 Hf2].
  unfold HEADER_SIZE, COOKIE_SIZE, META_SIZE in Hf1, Hf2.
  assert (Hrd : forall w, (exists m, io (nand_read (ph w) (moff v) META_SIZE) s = (OK m, s) /\ blen m = META_SIZE) \/
    io (nand_read (ph w) (moff v) META_SIZE) s = (ER E_ECC, s)).
  { intros w. unfold io, zoom. rewrite (read_spec g c Hg) by (auto; unfold META_SIZE; lia).
    replace (put_n (js_n s) s) with s by by destruct s.
    destruct (cell_bytes g (cellv (js_n s) w)) as [d|] eqn:E; [|by right]. left. eexists. split; [done|].
    pose proof (cell_lenF _ _ _ Hn E). apply blen_slice; unfold META_SIZE; lia. }
  unfold read_meta, bind, getj, gets. rewrite Hc, (lem moff_hdr) by done. rewrite (lem cp_grp), <-(lem cpv_ph).
  destruct (align_eq (ph v) (j_head (js_j s)) c).
  - left. unfold buf_get. rewrite Hbuf.
    replace (0 <=? moff v) with true by (symmetry; apply Z.leb_le; lia).
    replace (moff v + META_SIZE <=? page_size g) with true by (symmetry; apply Z.leb_le; unfold META_SIZE; lia).
    cbn [andb]. eexists. split; [reflexivity|]. apply blen_slice; rewrite ?Hbuf; unfold META_SIZE; lia.
  - destruct Hq as [->| ->].
    + destruct (_ && _); apply Hrd.
    + replace (negb (PAGE_NONE =? PAGE_NONE)) with false by done. cbn [andb]. apply Hrd.
Qed.

Lemma KR_cell s rc hv tv sv rv mo K K0 p d m : RI s rc hv tv sv rv mo K K0 -> K !! p = Some (d, m) ->
  0 <= p < TT /\ cell_bytes g (n_cell (js_n s) p) = Some d /\ blen d = page_size g.
Proof.
  intros HR Hp. destruct (ri_K _ _ _ _ _ _ _ _ _ _ _ _ HR _ _ _ Hp) as (v & [] & Hl & _). subst p.
  split_and!; auto; apply (lem ph_range).
Qed.

Lemma copyR p d m0 m s hv tv sv rv mo K K0 : RI s true hv tv sv rv mo K K0 -> K !! p = Some (d, m0) ->
  blen m = META_SIZE ->
  wp (journal_copy p m) s (appR_post s hv tv sv rv mo K K0 (fun x => x = d) m).
Proof.
  intros HR Hp Hm. unfold journal_copy.
  apply (append_loopR _ _ (fun x => x = d) (Some m)); auto.
  intros s' hv' [HR' Hgf _]. destruct (KR_cell _ _ _ _ _ _ _ _ _ _ _ _ HR' Hp) as (H1 & H2 & H3).
  apply progsF_copy; auto. apply HR'.
Qed.
End rec6.
