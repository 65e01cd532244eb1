(** The remaining journal operations: enqueue, copy, read_meta, peek, dequeue,
    clear. *)
From stdpp Require Import gmap.
From Verif Require Import Base Bytes BytesLemmas Wp Nand Journal MapModel Geom Tree Rep Inv Hdr StepDI StepNand StepJ StepA.
Local Open Scope Z_scope.

Section stepr.
Context (g : geo) (c : Z) (Hg : geo_ok g c) (weak : Z -> bool) (Hdense : dense g weak).
Notation PB := (PB g).
Notation PC := (PC c).
Notation NB := (NB g).
Notation TT := (TT g).
Notation ph := (ph g).
Notation user := (user c).
Notation nextv := (nextv c).
Notation cpv := (cpv c).
Notation cellv := (cellv g).
Notation badv := (badv g).
Notation cell_ep := (cell_ep g).
Notation epo := (epo g).
Notation moff := (moff c).
Notation kmeta := (kmeta g c).
Notation kd_ok := (kd_ok g c).
Notation DI := (DI g c).
Notation nok := (nok g weak).
Notation JInv := (JInv g c).
Notation JI := (JI g c weak).
Notation prog_eff := (prog_eff g weak).
Notation Ready := (Ready g c weak).
Notation crashed := (crashed g c weak).
Notation progs := (progs g weak).
Notation app_post := (app_post g c weak).
Notation app_post2 := (app_post2 g c weak).

Ltac pose_geo :=
  pose proof (PC_ge _ _ Hg) as HPC4; pose proof (PC_le _ _ Hg) as HPC256;
  pose proof (PB_pos _ _ Hg) as HPB4; pose proof (PB_ge _ _ Hg) as HPBC;
  pose proof (NB_ge _ _ Hg) as HNB8; pose proof (TT_le _ _ Hg) as HTT31;
  pose proof (TT_pos _ _ Hg) as HTTpos.
Notation "'lem' x" := (x g c Hg) (at level 9, x at level 8, only parsing).

Lemma page_size_pos : 0 < page_size g.
Proof. unfold page_size. rewrite Z.shiftl_1_l. pose proof (go_lps _ _ Hg). by apply Z.pow_pos_nonneg. Qed.

(** ** Programming user data *)
Lemma all_ff_eq d : all_ff d = true -> blen d = page_size g -> d = ffs (page_size g).
Proof.
  intros Hf Hl. unfold ffs. assert (E : Z.to_nat (page_size g) = length d) by (unfold blen in Hl; lia).
  rewrite E. clear E Hl. induction d as [|x d IH]; [done|].
  cbn in Hf. apply andb_prop in Hf as [Hx Hf]. apply Z.eqb_eq in Hx as ->. cbn. f_equal. auto.
Qed.
Lemma written_bytes d : blen d = page_size g -> cell_bytes g (written g d) = Some d.
Proof.
  intros Hl. unfold written. destruct (g_ffnoop g && all_ff d) eqn:E; [|done].
  apply andb_prop in E as [_ E]. cbn. f_equal. symmetry. by apply all_ff_eq.
Qed.

Lemma progs_data s hv tv sv K D d : Ready s hv tv sv K D -> blen d = page_size g ->
  progs (nand_prog (ph hv) d) (fun x => x = d) False (js_n s) hv.
Proof.
  intros [HJ Hd Hgood Hfree Hnx] Hl. unfold StepA.progs.
  eapply wp_mono; [apply (prog_spec g c Hg weak); auto; apply HJ|].
  intros o n' (x & Hpe & Ho). destruct o as [[]|e|y].
  - subst x. exists (written g d), d. split_and!; auto. by apply written_bytes.
  - left. destruct Ho as (-> & H1 & H2 & _). split_and!; auto. by exists x.
  - destruct Ho as [-> _]. split; [done|]. by exists x.
Qed.

Lemma progs_none s hv tv sv K D : Ready s hv tv sv K D ->
  progs (ret tt) (fun x => x = ffs (page_size g)) False (js_n s) hv.
Proof.
  intros [HJ Hd Hgood Hfree Hnx]. unfold StepA.progs. apply wp_ret.
  exists Free, (ffs (page_size g)). split_and!; auto.
  - split; auto; [apply HJ|]. apply Hfree; lia.
  - apply blen_ffs. pose proof page_size_pos. lia.
Qed.

Lemma cell_len n x d : nok n -> (exists p, n_cell n p = x) -> cell_bytes g x = Some d -> blen d = page_size g.
Proof.
  intros Hn [p Hp] Hd. destruct x as [|d'|o].
  - injection Hd as <-. apply blen_ffs. pose proof page_size_pos. lia.
  - injection Hd as ->. by eapply Hn.
  - cbn in Hd. unfold garbage in Hd. destruct o as [d'|]; [|done].
    destruct (blen d' =? page_size g) eqn:E; [|done]. cbn in Hd. apply Z.eqb_eq in E.
    destruct (negb _); [|done]. by injection Hd as <-.
Qed.

Lemma progs_copy s hv tv sv K D p : Ready s hv tv sv K D -> 0 <= p < TT ->
  progs (nand_copy p (ph hv)) (fun x => cell_bytes g (n_cell (js_n s) p) = Some x)
    (cell_bytes g (n_cell (js_n s) p) = None) (js_n s) hv.
Proof.
  intros HR Hp. pose proof HR as [HJ Hd Hgood Hfree Hnx].
  assert (Hn : nok (js_n s)) by apply HJ. pose proof page_size_pos.
  unfold StepA.progs, nand_copy. apply wp_bind. apply wp_gets. rewrite (nk_geo _ _ _ Hn).
  apply wp_bind. unfold wp at 1. rewrite <-(ph_small g p) by done.
  rewrite (read_spec g c Hg) by (auto; try lia; apply Hn). cbn [fst snd].
  unfold Inv.cellv. rewrite (ph_small g p) by done.
  destruct (cell_bytes g (n_cell (js_n s) p)) as [d|] eqn:Ed.
  - assert (Hl : blen d = page_size g) by (eapply cell_len; eauto).
    rewrite slice_all by done. eapply wp_mono; [by eapply progs_data|].
    intros o n' Ho. destruct o as [[]|e|x].
    + destruct Ho as (x & d' & H1 & H2 & -> & H3). exists x, d. by split_and!.
    + destruct Ho as [Ho|(_ & [] & _)]. by left.
    + done.
  - right. done.
Qed.

Lemma K_cell s hv tv sv K p d m : JInv s hv tv sv K -> K !! p = Some (d, m) ->
  0 <= p < TT /\ cell_bytes g (n_cell (js_n s) p) = Some d /\ blen d = page_size g /\ badv (js_n s) (p / PB) = false.
Proof.
  intros Hj Hp. destruct (ji_K _ _ _ _ _ _ _ Hj _ _ _ Hp) as (v & [] & Hl & _). subst p.
  split_and!; auto; try apply (lem ph_range). rewrite (lem ph_blk).
  unfold Inv.badv in *. pose_geo. by rewrite Z.mod_mod by lia.
Qed.

Lemma enqueue_data_spec2 d m s hv tv sv K D : JI s hv tv sv K D ->
  blen d = page_size g -> blen m = META_SIZE ->
  wp (journal_enqueue (Some d) (Some m)) s (app_post2 hv tv sv K D s (fun x => x = d) False m).
Proof.
  intros HJ Hd Hm. unfold journal_enqueue.
  apply (append_loop_spec2 g c Hg weak Hdense _ _ (fun x => x = d) False (Some m)); auto; [|by unfold MAX_RETRIES|intros _; by apply retry_good].
  intros. by eapply progs_data.
Qed.
Lemma enqueue_none_spec2 s hv tv sv K D : JI s hv tv sv K D ->
  wp (journal_enqueue None None) s
     (app_post2 hv tv sv K D s (fun x => x = ffs (page_size g)) False (ffs META_SIZE)).
Proof.
  intros HJ. unfold journal_enqueue.
  apply (append_loop_spec2 g c Hg weak Hdense _ _ (fun x => x = ffs (page_size g)) False None); auto; [|by unfold MAX_RETRIES|intros _; by apply retry_good].
  intros. by eapply progs_none.
Qed.
Lemma copy_spec2 p d m0 m s hv tv sv K D : JI s hv tv sv K D -> K !! p = Some (d, m0) ->
  blen m = META_SIZE ->
  wp (journal_copy p m) s (app_post2 hv tv sv K D s (fun x => x = d) False m).
Proof.
  intros HJ Hp Hm. unfold journal_copy.
  apply (append_loop_spec2 g c Hg weak Hdense _ _ (fun x => x = d) False (Some m)); auto; [|by unfold MAX_RETRIES|intros _; by apply retry_good].
  intros s' hv' HR. destruct (K_cell s' hv' tv sv K p d m0) as (H1 & H2 & H3 & _); [apply HR|done|].
  eapply wp_mono; [by eapply progs_copy|]. intros o n' Ho. destruct o as [[]|e|x].
  - destruct Ho as (x & d' & H4 & H5 & H6 & H7). exists x, d'. split_and!; auto. congruence.
  - destruct Ho as [Ho|(_ & Ho & _)]; [by left|congruence].
  - done.
Qed.
Lemma copy_any_spec2 p m s hv tv sv K D : JI s hv tv sv K D -> 0 <= p < TT ->
  blen m = META_SIZE ->
  wp (journal_copy p m) s (app_post2 hv tv sv K D s (fun _ => True) True m).
Proof.
  intros HJ Hp Hm. unfold journal_copy.
  apply (append_loop_spec2 g c Hg weak Hdense _ _ (fun _ => True) True (Some m)); auto; [|by unfold MAX_RETRIES|intros _; by apply retry_good].
  intros s' hv' HR.
  eapply wp_mono; [by eapply progs_copy|]. intros o n' Ho. destruct o as [[]|e|x].
  - destruct Ho as (x & d' & H4 & H5 & H6 & H7). exists x, d'. by split_and!.
  - destruct Ho as [Ho|(H1 & H2 & H3)]; [by left|by right].
  - done.
Qed.

Lemma enqueue_data_spec d m s hv tv sv K D : JI s hv tv sv K D ->
  blen d = page_size g -> blen m = META_SIZE ->
  wp (journal_enqueue (Some d) (Some m)) s (app_post hv tv sv K D s (fun x => x = d) False m).
Proof. intros. eapply wp_mono; [by eapply enqueue_data_spec2|]. intros. by eapply app_post2_1. Qed.
Lemma enqueue_none_spec s hv tv sv K D : JI s hv tv sv K D ->
  wp (journal_enqueue None None) s
     (app_post hv tv sv K D s (fun x => x = ffs (page_size g)) False (ffs META_SIZE)).
Proof. intros. eapply wp_mono; [by eapply enqueue_none_spec2|]. intros. by eapply app_post2_1. Qed.
Lemma copy_spec p d m0 m s hv tv sv K D : JI s hv tv sv K D -> K !! p = Some (d, m0) ->
  blen m = META_SIZE ->
  wp (journal_copy p m) s (app_post hv tv sv K D s (fun x => x = d) False m).
Proof. intros. eapply wp_mono; [by eapply copy_spec2|]. intros. by eapply app_post2_1. Qed.
Lemma copy_any_spec p m s hv tv sv K D : JI s hv tv sv K D -> 0 <= p < TT ->
  blen m = META_SIZE ->
  wp (journal_copy p m) s (app_post hv tv sv K D s (fun _ => True) True m).
Proof. intros. eapply wp_mono; [by eapply copy_any_spec2|]. intros. by eapply app_post2_1. Qed.

(** ** read_meta *)
Lemma read_meta_spec s hv tv sv K : n_geo (js_n s) = g -> JInv s hv tv sv K -> reads K s.
Proof.
  intros Hgeo Hj p d m Hp. pose proof (ji_K _ _ _ _ _ _ _ Hj _ _ _ Hp) as (v & [] & Hl & Hm).
  pose proof (sv_le_hb _ _ Hg _ _ _ _ _ Hj) as Hsb. pose_geo.
  pose proof (moff_fit g c Hg v kd_u) as [Hf1 Hf2].
  unfold HEADER_SIZE, COOKIE_SIZE, META_SIZE in Hf1, Hf2.
  assert (Hvw : hv / PB - NB < v / PB <= hv / PB).
  { destruct Hj. split; [pose proof (lem blk_le sv v ltac:(lia)); lia|apply (lem blk_le); lia]. }
  unfold read_meta, bind, getj, gets. subst p.
  rewrite (ji_ppc _ _ _ _ _ _ _ Hj), (ji_head _ _ _ _ _ _ _ Hj), (ji_rmeta _ _ _ _ _ _ _ Hj).
  rewrite moff_hdr by done. rewrite (lem align_eq_grp).
  destruct (Z.eqb_spec (ph v / PC) (ph hv / PC)) as [E|E].
  - apply (lem win_grp (hv / PB)) in E; [|done|lia]. rewrite decide_True in Hm by done.
    unfold buf_get. rewrite (ji_buf _ _ _ _ _ _ _ Hj).
    replace (0 <=? moff v) with true by (symmetry; apply Z.leb_le; lia).
    replace (moff v + META_SIZE <=? page_size g) with true by (symmetry; apply Z.leb_le; unfold META_SIZE; lia).
    cbn [andb]. by rewrite Hm.
  - rewrite decide_False in Hm by (intros E'; apply E; by rewrite !(lem ph_grp), E').
    replace (negb (PAGE_NONE =? PAGE_NONE)) with false by done. cbn [andb].
    destruct Hm as (cd & H1 & H2).
    rewrite (lem cp_grp), <-(lem cpv_ph). unfold io, zoom.
    rewrite (read_spec g c Hg) by (auto; unfold META_SIZE; lia). rewrite H1, H2.
    by destruct s.
Qed.

(** ** Tail movements *)
Lemma ph_inj_ht s hv tv sv K v : JInv s hv tv sv K -> sv <= v <= hv -> ph hv = ph v -> hv = v.
Proof.
  intros Hj Hv E. pose_geo. pose proof (ji_full _ _ _ _ _ _ _ Hj).
  apply (lem win_page (hv / PB)); auto; [lia|].
  split; [pose proof (lem blk_le sv v ltac:(lia)); lia|apply (lem blk_le); lia].
Qed.

Lemma set_tail_id j : set_tail (j_tail j) j = j. Proof. by destruct j. Qed.
Lemma set_root_id j x : j_root j = x -> set_root x j = j. Proof. intros <-. by destruct j. Qed.

(** Dropping bad blocks from the tail. *)
Lemma JI_tail s hv tv sv K D tv' : JI s hv tv sv K D -> tv <= tv' <= hv -> user tv' ->
  (forall p d m, K !! p = Some (d, m) -> exists v, p = ph v /\ tv' <= v < hv) ->
  JI (Js (js_n s) (set_tail (ph tv') (js_j s))) hv tv' sv K D.
Proof.
  intros [Hn Hj HD Hc] Hle Hu HK. pose proof Hj as []. split; auto.
  split; auto; try lia.
  intros p d m Hp. destruct (ji_K _ _ _ Hp) as (v & [] & Hl & Hm). exists v. split_and!; auto.
  split; auto. destruct (HK _ _ _ Hp) as (v' & Ep & Hv'). subst p.
  assert (v = v'); [|lia].
  apply (lem win_page (hv / PB)); auto.
  - split; [pose proof (lem blk_le sv v ltac:(lia)); lia|apply (lem blk_le); lia].
  - split; [pose proof (lem blk_le sv v' ltac:(lia)); lia|apply (lem blk_le); lia].
Qed.

Lemma peek_loop_spec i s hv tv sv K D b : JI s hv tv sv K D ->
  tv <= b * PB <= hv -> tv mod PB = 0 ->
  (forall b', tv / PB <= b' < b -> badv (js_n s) b' = true) ->
  (exists b', b <= b' < b + Z.of_nat i /\ badv (js_n s) b' = false) ->
  exists tv', tv <= tv' <= hv /\ user tv' /\ tv' mod PB = 0 /\ (tv' < hv -> badv (js_n s) (tv' / PB) = false) /\
    peek_loop i (b mod NB) s = (OK (ph tv'), Js (js_n s) (set_tail (ph tv') (js_j s))) /\
    JI (Js (js_n s) (set_tail (ph tv') (js_j s))) hv tv' sv K D.
Proof.
  intros HJ. pose proof HJ as [Hn Hj HD Hc]. pose_geo.
  revert b. induction i as [|i IH]; intros b Hb Ha Hbad (b' & Hb' & Hgood); [cbn in Hb'; lia|].
  cbn [peek_loop]. unfold bind at 1, getg, gets at 1. unfold bind at 1, getj at 1, gets at 1.
  rewrite (nk_geo _ _ _ Hn), (ji_head _ _ _ _ _ _ _ Hj), (lem shiftr_blk), (lem ph_blk).
  pose proof (sv_le_hb _ _ Hg _ _ _ _ _ Hj) as Hsb.
  pose proof (ji_full _ _ _ _ _ _ _ Hj) as Hfull.
  assert (Hbb : tv / PB <= b <= hv / PB).
  { split.
    - pose proof (lem blk_le tv (b * PB) ltac:(lia)) as H. by rewrite (proj1 (lem blk_start b)) in H.
    - pose proof (lem blk_le (b * PB) hv ltac:(lia)) as H. by rewrite (proj1 (lem blk_start b)) in H. }
  assert (Hst : sv / PB <= tv / PB). { apply (lem blk_le). destruct Hj; lia. }
  assert (Hstop : b = hv / PB \/ badv (js_n s) b = false ->
    exists tv', tv <= tv' <= hv /\ user tv' /\ tv' mod PB = 0 /\ (tv' < hv -> badv (js_n s) (tv' / PB) = false) /\
    (modj (set_tail (w32 (Z.shiftl (b mod NB) (g_lppb g))));;;
      let! tail := getj j_tail in
      (if tail =? ph hv then modj (set_root PAGE_NONE) else ret tt);;;
      ret tail) s = (OK (ph tv'), Js (js_n s) (set_tail (ph tv') (js_j s))) /\
    JI (Js (js_n s) (set_tail (ph tv') (js_j s))) hv tv' sv K D).
  { intros Hstop. exists (b * PB).
    assert (HK : forall p d m, K !! p = Some (d, m) -> exists v, p = ph v /\ b * PB <= v < hv).
    { intros p d m Hp. destruct (ji_K _ _ _ _ _ _ _ Hj _ _ _ Hp) as (v & [] & Hl & _).
      exists v. split; [done|]. split; [|lia]. apply (lem blk_ge_start).
      destruct (Z.le_gt_cases b (v / PB)) as [|Hlt]; [done|].
      rewrite Hbad in kd_b; [done|]. split; [|done]. apply (lem blk_le). lia. }
    assert (HJ' : JI (Js (js_n s) (set_tail (ph (b * PB)) (js_j s))) hv (b * PB) sv K D).
    { apply JI_tail with (tv := tv); auto. apply (lem blk_start_user). }
    split; [done|]. split; [apply (lem blk_start_user)|]. split; [apply (lem blk_start)|]. split.
    { intros Hlt. rewrite (proj1 (lem blk_start b)). destruct Hstop as [->|]; [|done].
      apply (ji_free _ _ _ _ _ _ _ Hj). pose proof (lem v_decomp hv). lia. }
    split; [|done].
    rewrite (w32_blk g c Hg).
    unfold bind, modj, modify, getj, gets. cbn [js_n js_j].
    change (j_tail (set_tail (ph (b * PB)) (js_j s))) with (ph (b * PB)).
    destruct (Z.eqb_spec (ph (b * PB)) (ph hv)) as [E|E]; [|done].
    assert (Ehv : hv = b * PB).
    { eapply ph_inj_ht; [exact Hj| |done]. destruct Hj; lia. }
    cbn [js_n js_j]. unfold ret. do 2 f_equal.
    apply set_root_id. cbn. destruct (ji_root _ _ _ _ _ _ _ Hj) as [?|[[d m] Hr]]; [done|].
    exfalso. destruct (HK _ _ _ Hr) as (v & _ & ?). lia. }
  destruct (Z.eqb_spec (b mod NB) ((hv / PB) mod NB)) as [E|E].
  - unfold bind at 1, ret at 1. apply Hstop. left.
    apply (lem win_blk (hv / PB)); auto; lia.
  - unfold bind at 1, bind at 1, io at 1, zoom at 1. rewrite (lem is_bad_spec) by apply Hn.
    unfold ret at 1. replace (put_n (js_n s) s) with s by by destruct s.
    destruct (badv (js_n s) b) eqn:Eb; cbn [negb].
    + rewrite (lem next_block_ph).
      assert (Hne : b <> hv / PB) by congruence.
      apply IH; auto.
      * assert (Hle : b + 1 <= hv / PB) by lia. apply (lem blk_ge_start) in Hle. nia.
      * intros b0 Hb0. destruct (Z.eq_dec b0 b) as [->|]; [done|]. apply Hbad. lia.
      * exists b'. split; [|done]. destruct (Z.eq_dec b' b) as [->|]; [congruence|]. lia.
    + apply Hstop. auto.
Qed.

Lemma peek_spec' s hv tv sv K D : JI s hv tv sv K D ->
  exists tv', tv <= tv' <= hv /\ user tv' /\
    (tv' = tv \/ tv' mod PB = 0) /\ (tv' < hv -> tv' mod PB = 0 -> badv (js_n s) (tv' / PB) = false) /\
    journal_peek s = (OK (if tv =? hv then PAGE_NONE else ph tv'), Js (js_n s) (set_tail (ph tv') (js_j s))) /\
    JI (Js (js_n s) (set_tail (ph tv') (js_j s))) hv tv' sv K D.
Proof.
  intros HJ. pose proof HJ as [Hn Hj HD Hc]. pose_geo.
  pose proof (ji_order _ _ _ _ _ _ _ Hj) as Hord.
  assert (Hsame : Js (js_n s) (set_tail (ph tv) (js_j s)) = s).
  { rewrite <-(ji_tail _ _ _ _ _ _ _ Hj), set_tail_id. by destruct s. }
  unfold journal_peek, bind, getg, getj, gets.
  rewrite (nk_geo _ _ _ Hn), (ji_head _ _ _ _ _ _ _ Hj), (ji_tail _ _ _ _ _ _ _ Hj).
  destruct (Z.eqb_spec (ph hv) (ph tv)) as [E|E].
  { assert (hv = tv) by (eapply ph_inj_ht; [exact Hj|lia|done]). subst tv.
    exists hv. rewrite Z.eqb_refl. split; [lia|]. split; [apply Hj|]. split; [auto|]. split; [lia|]. rewrite Hsame. done. }
  assert (Hne : tv <> hv) by congruence. rewrite (proj2 (Z.eqb_neq tv hv)) by done.
  rewrite (lem aligned_blk), (lem ph_off).
  destruct (Z.eqb_spec (tv mod PB) 0) as [Ha|Ha].
  - rewrite (lem shiftr_blk), (lem ph_blk).
    pose proof (lem v_decomp tv).
    destruct (peek_loop_spec MAX_RETRIES s hv tv sv K D (tv / PB)) as (tv' & H1 & H2 & H0 & H3 & H4); auto; try lia.
    { destruct (Hdense (tv / PB)) as (i & i2 & Hi & Hj' & Hwi & _).
      exists (tv / PB + i). split; [unfold MAX_RETRIES; lia|].
      unfold Inv.badv. destruct (n_bad (js_n s) _) eqn:Eb; [|done].
      apply Hn in Eb. congruence. }
    exists tv'. split_and!; auto; lia || apply H4.
  - exists tv. split; [lia|]. split; [apply Hj|]. split; [auto|]. split; [done|]. rewrite Hsame. done.
Qed.

Lemma peek_spec s hv tv sv K D : JI s hv tv sv K D ->
  exists tv', tv <= tv' <= hv /\ user tv' /\
    journal_peek s = (OK (if tv =? hv then PAGE_NONE else ph tv'), Js (js_n s) (set_tail (ph tv') (js_j s))) /\
    JI (Js (js_n s) (set_tail (ph tv') (js_j s))) hv tv' sv K D.
Proof.
  intros HJ. destruct (peek_spec' s hv tv sv K D HJ) as (tv' & H1 & H2 & _ & _ & H3 & H4). by exists tv'.
Qed.

(** ** Dequeue *)
Definition Ddel (p : Z) (D : dsk) : dsk := Dsk (cv D) (tdv D) (ckd D) (rmd D) (delete p (Kd D)).

Lemma wrap_spec a b : 0 <= a < 2 * b -> wrap a b = a mod b.
Proof.
  intros H. unfold wrap. destruct (Z.leb_spec b a).
  - rewrite <-(Z.mod_small (a - b) b) by lia. replace a with (a - b + 1 * b) at 2 by lia.
    by rewrite Z.mod_add by lia.
  - by rewrite Z.mod_small by lia.
Qed.
Lemma off_spec h t : 0 <= h - t < TT -> wrap (w32 (ph h + TT - ph t)) TT = h - t.
Proof.
  intros H. pose_geo. pose proof (lem ph_range h). pose proof (lem ph_range t).
  rewrite w32_small by lia. rewrite wrap_spec by lia.
  replace (ph h + TT - ph t) with (ph h - ph t + 1 * TT) by lia. rewrite Z.mod_add by lia.
  unfold Geom.ph. rewrite <-Zminus_mod. by apply Z.mod_small.
Qed.

Lemma dequeue_spec s hv tv sv K D : JI s hv tv sv K D -> tv <> hv ->
  exists s' sv' D', journal_dequeue s = (OK tt, s') /\
    JI s' hv (nextv tv) sv' (delete (ph tv) K) D' /\
    j_root (js_j s') = (if j_root (js_j s) =? ph tv then PAGE_NONE else j_root (js_j s)) /\
    j_dirty (js_j s') = j_dirty (js_j s) /\ j_buf (js_j s') = j_buf (js_j s) /\
    js_n s' = js_n s /\
    if j_dirty (js_j s) then D' = D /\ sv' = sv else D' = Ddel (ph tv) D /\ sv' = nextv tv.
Proof.
  intros HJ Hne. pose proof HJ as [Hn Hj HD Hc]. pose_geo.
  pose proof Hj as [].
  assert (Hnt : nextv tv <= hv). { apply (lem nextv_next); auto. lia. }
  pose proof (nextv_gt c tv) as Hgt.
  assert (Htt : hv - sv < TT).
  { pose proof (lem v_decomp hv). pose proof (lem off_range hv). pose proof (lem v_decomp sv).
    pose proof (lem off_range sv). unfold Geom.TT. nia. }
  unfold journal_dequeue, bind, getg, getj, gets.
  rewrite (nk_geo _ _ _ Hn), ji_head, ji_tail, ji_ppc.
  destruct (Z.eqb_spec (ph hv) (ph tv)) as [E|_].
  { exfalso. apply Hne. symmetry. eapply ph_inj_ht; [exact Hj|lia|done]. }
  rewrite (lem next_upage_ph) by (auto; lia). rewrite (lem num_pages_TT).
  rewrite off_spec by lia. rewrite ji_recov, orb_false_r.
  set (r := hv - nextv tv <? wrap (w32 (ph hv + TT - j_root (js_j s))) TT).
  assert (Hroot : (if r then PAGE_NONE else j_root (js_j s)) =
    (if j_root (js_j s) =? ph tv then PAGE_NONE else j_root (js_j s)) /\
    (j_root (js_j s) = PAGE_NONE \/ r = (j_root (js_j s) =? ph tv))).
  { destruct ji_root as [E|[[d m] Hr]].
    - rewrite E. split; [|by left]. by destruct r, (PAGE_NONE =? ph tv).
    - destruct (ji_K _ _ _ Hr) as (v & [] & _).
      assert (Er : r = (j_root (js_j s) =? ph tv)); [|by rewrite Er; auto].
      unfold r. rewrite kd_p. rewrite off_spec by lia.
      destruct (Z.eqb_spec (ph v) (ph tv)) as [E|E].
      + assert (v = tv).
        { apply (lem win_page (hv / PB)); auto.
          - split; [pose proof (lem blk_le sv v ltac:(lia)); lia|apply (lem blk_le); lia].
          - split; [pose proof (lem blk_le sv tv ltac:(lia)); lia|apply (lem blk_le); lia]. }
        subst v. apply Z.ltb_lt. lia.
      + apply Z.ltb_ge. assert (tv <> v) by congruence.
        pose proof (lem nextv_next v tv kd_u ji_tu ltac:(lia)). lia. }
  assert (HK' : forall p d m, delete (ph tv) K !! p = Some (d, m) ->
    K !! p = Some (d, m) /\ exists v, kd_ok (js_n s) (nextv tv) hv p d m v /\ blen d = page_size g /\
      if decide (v / PC = hv / PC)
      then slice (moff v) META_SIZE (j_buf (js_j s)) = m
      else kmeta (js_n s) v m).
  { intros p d m Hp. apply lookup_delete_Some in Hp as [Hpne Hp]. split; [done|].
    destruct (ji_K _ _ _ Hp) as (v & [] & Hl & Hm). exists v. split_and!; auto. split; auto.
    assert (tv <> v) by congruence. split; [|lia]. apply (lem nextv_next); auto. lia. }
  set (s' := Js (js_n s) (let j1 := set_tail (ph (nextv tv)) (js_j s) in
     let j2 := if j_dirty (js_j s) then j1 else set_tsync (ph (nextv tv)) j1 in
     if r then set_root PAGE_NONE j2 else j2)).
  assert (Hrt' : j_root (js_j s') = if j_root (js_j s) =? ph tv then PAGE_NONE else j_root (js_j s)).
  { unfold s'. cbn [js_j]. rewrite <-(proj1 Hroot). by destruct r, (j_dirty (js_j s)). }
  exists s', (if j_dirty (js_j s) then sv else nextv tv), (if j_dirty (js_j s) then D else Ddel (ph tv) D).
  split.
  { unfold modj, modify, ret. cbn [js_n js_j]. unfold s'.
    destruct (j_dirty (js_j s)), r; done. }
  assert (Hrk : j_root (js_j s') = PAGE_NONE \/
    (j_root (js_j s') = j_root (js_j s) /\ j_root (js_j s) <> ph tv /\ is_Some (K !! j_root (js_j s)))).
  { rewrite Hrt'. destruct (Z.eqb_spec (j_root (js_j s)) (ph tv)); [by left|].
    destruct ji_root as [?|?]; [by left|right; auto]. }
  assert (Hrk2 : j_root (js_j s') = PAGE_NONE \/ is_Some (delete (ph tv) K !! j_root (js_j s'))).
  { destruct Hrk as [?|(-> & H1 & H2)]; [by left|right]. by rewrite lookup_delete_ne. }
  pose proof (lem nextv_user tv ji_tu) as Hnu.
  assert (Hfull' : hv / PB < (if j_dirty (js_j s) then sv else nextv tv) / PB + NB).
  { destruct (j_dirty (js_j s)); [done|]. pose proof (lem blk_le sv (nextv tv) ltac:(lia)). lia. }
  assert (HJ' : JInv s' hv (nextv tv) (if j_dirty (js_j s) then sv else nextv tv) (delete (ph tv) K)).
  { split; auto; try (unfold s'; cbn [js_j js_n]; destruct (j_dirty (js_j s)), r; done || lia).
    intros p d m Hp. destruct (HK' p d m Hp) as (_ & v & H1 & H2 & H3). exists v.
    split_and!; auto. replace (j_buf (js_j s')) with (j_buf (js_j s)); [done|].
    unfold s'. cbn [js_j]. by destruct (j_dirty (js_j s)), r. }
  split.
  { split; auto.
    - unfold s'; cbn [js_n]. destruct (j_dirty (js_j s)) eqn:Ed; [done|].
      destruct HD. destruct (Hc Ed) as [EK _].
      unfold Ddel. split; cbn [cv tdv ckd rmd Kd]; auto; try lia.
      + intros Hc0. destruct (d_td Hc0) as (H1 & H2 & H3 & H4). split_and!; auto; lia.
      + intros p d m Hp. rewrite EK in Hp. destruct (HK' p d m Hp) as (HpK & v & [] & _).
        destruct (d_K p d m) as (Hc0 & v' & [] & H7 & H8); [by rewrite EK|].
        split; [done|]. exists v'. split_and!; auto. split; auto. split; [|lia].
        assert (v = v'); [|subst v'; lia].
        apply (lem win_page (hv / PB)); [| |congruence].
        * split; [pose proof (lem blk_le sv v ltac:(lia)); lia|apply (lem blk_le); lia].
        * split; [pose proof (lem blk_le sv v' ltac:(lia)); lia|apply (lem blk_le); lia].
    - intros Hd'. assert (Ed : j_dirty (js_j s) = false).
      { revert Hd'. unfold s'. cbn [js_j]. destruct (j_dirty (js_j s)) eqn:Ed, r; cbn; congruence. }
      rewrite Ed. destruct (Hc Ed) as [EK HR]. cbn [Ddel Kd cv rmd]. split; [by rewrite EK|].
      destruct Hrk as [?|(Er & H1 & H2)]; [by left|right].
      destruct HR as [E|(Hc0 & E & d & Hd)].
      + exfalso. rewrite E in H2. destruct H2 as [[d m] H2].
        destruct (ji_K _ _ _ H2) as (v & [] & _). pose proof (lem ph_range v).
        unfold PAGE_NONE in kd_p. lia.
      + rewrite Er. split; [done|]. split; [done|]. exists d. by rewrite lookup_delete_ne. }
  split; [done|].
  split; [unfold s'; cbn [js_j]; destruct (j_dirty (js_j s)) eqn:Ed, r; cbn; congruence|].
  split; [unfold s'; cbn [js_j]; destruct (j_dirty (js_j s)) eqn:Ed, r; cbn; congruence|].
  split; [done|]. by destruct (j_dirty (js_j s)).
Qed.

Lemma dequeue_empty s hv sv K D : JI s hv hv sv K D -> journal_dequeue s = (OK tt, s).
Proof.
  intros [Hn Hj HD Hc]. unfold journal_dequeue, bind, getg, getj, gets.
  rewrite (ji_head _ _ _ _ _ _ _ Hj), (ji_tail _ _ _ _ _ _ _ Hj), Z.eqb_refl. done.
Qed.

(** ** Clear *)
Lemma clear_user_ok s : n_geo (js_n s) = g -> blen (j_buf (js_j s)) = page_size g ->
  exists buf, hdr_clear_user s = (OK tt, Js (js_n s) (set_buf buf (js_j s))) /\
    blen buf = page_size g /\ slice HEADER_SIZE COOKIE_SIZE buf = slice HEADER_SIZE COOKIE_SIZE (j_buf (js_j s)).
Proof.
  intros Hgeo Hb. unfold hdr_clear_user, bind, getg, gets. rewrite Hgeo.
  pose proof (go_fit _ _ Hg) as Hfit. pose proof (PC_ge _ _ Hg) as HPC.
  change (2 ^ c) with PC in Hfit. unfold HEADER_SIZE, COOKIE_SIZE, META_SIZE in *.
  assert (Hl : blen (ffs (page_size g - 16 - 4)) = page_size g - 16 - 4) by (apply blen_ffs; lia).
  rewrite buf_put_ok by lia. eexists. split; [done|]. split.
  - rewrite blen_splice; lia.
  - apply slice_splice_disj; lia.
Qed.

Lemma clear_spec' s hv tv sv K D : JI s hv tv sv K D ->
  exists s', journal_clear s = (OK tt, s') /\ JI s' hv hv sv ∅ D /\
    j_root (js_j s') = PAGE_NONE /\ js_n s' = js_n s /\ j_dirty (js_j s') = true /\ cookie s' = cookie s.
Proof.
  intros [Hn Hj HD Hc]. unfold journal_clear, bind at 1, modj, modify.
  set (j1 := set_dirty true (set_root PAGE_NONE (set_tail (j_head (js_j s)) (js_j s)))).
  destruct (clear_user_ok (Js (js_n s) j1)) as (buf & E & Hbl & Hck); [apply Hn|apply Hj|].
  rewrite E. eexists. split; [done|]. cbn [js_n js_j]. split_and!; auto.
  apply JI_dirty; auto. pose proof Hj as []. split; cbn; auto; try lia. intros p d m Hp. by rewrite lookup_empty in Hp.
Qed.

Lemma clear_spec s hv tv sv K D : JI s hv tv sv K D ->
  exists s', journal_clear s = (OK tt, s') /\ JI s' hv hv sv ∅ D /\
    j_root (js_j s') = PAGE_NONE /\ js_n s' = js_n s /\ j_dirty (js_j s') = true.
Proof. intros H. destruct (clear_spec' _ _ _ _ _ _ H) as (s' & H'). exists s'. naive_solver. Qed.

(** ** Cookie *)
Lemma cookie_put_spec s hv tv sv K D b : JI s hv tv sv K D -> blen b = COOKIE_SIZE ->
  exists s', cookie_put b s = (OK tt, s') /\ JI s' hv tv sv K D /\ cookie s' = b /\
    j_root (js_j s') = j_root (js_j s) /\ j_dirty (js_j s') = j_dirty (js_j s) /\ js_n s' = js_n s.
Proof.
  intros [Hn Hj HD Hc] Hb. unfold cookie_put.
  pose proof (go_fit _ _ Hg) as Hfit. pose proof (PC_ge _ _ Hg) as HPC.
  change (2 ^ c) with PC in Hfit. pose proof (ji_buf _ _ _ _ _ _ _ Hj) as Hbuf.
  assert (Hps : 20 <= page_size g) by (unfold HEADER_SIZE, COOKIE_SIZE, META_SIZE in *; lia).
  rewrite buf_put_ok by (unfold HEADER_SIZE, COOKIE_SIZE in *; lia).
  eexists. split; [done|]. cbn [js_n js_j].
  assert (Hbl : blen (splice HEADER_SIZE b (j_buf (js_j s))) = page_size g).
  { rewrite blen_splice; unfold HEADER_SIZE, COOKIE_SIZE in *; lia. }
  split_and!; auto.
  - split; auto. pose proof Hj as []. split; cbn; auto.
    intros p d m Hp. destruct (ji_K _ _ _ Hp) as (v & Hk & Hl & Hm). exists v. split_and!; auto.
    destruct (decide _); [|done].
    pose proof (moff_fit g c Hg v ltac:(apply Hk)) as [Hf1 Hf2].
    rewrite slice_splice_disj; unfold HEADER_SIZE, COOKIE_SIZE, META_SIZE in *; try lia. done.
  - unfold cookie. cbn [js_j set_buf j_buf]. rewrite <-Hb at 1. apply slice_splice_same;
      unfold HEADER_SIZE, COOKIE_SIZE in *; lia.
Qed.
End stepr.
