(** How far the head moves during one call, and which blocks are erased on the way.
    Nothing here models code; the model is Journal.v and MapModel.v. *)
From stdpp Require Import gmap fin_maps.
From Verif Require Import Pres Base Bytes BytesLemmas Wp Nand Journal MapModel Api Geom Tree Rep Age Inv Hdr StepDI StepNand StepJ StepA StepR StepS StepG Resume MapStep MapOps Spec Ppc History Props Misc JSpec JChain JProps JThms JFull Cnt Bb Ckpt Loc Nojunk Space.
Local Open Scope Z_scope.

Section move.
Context (g : geo) (c : Z) (Hg : geo_ok g c) (weak : Z -> bool) (Hdense : dense g weak) {Ag : Aging}.
Notation PB := (PB g).
Notation PC := (PC c).
Notation NB := (NB g).
Notation TT := (TT g).
Notation ph := (ph g).
Notation user := (user c).
Notation nextv := (nextv c).
Notation badv := (badv g).
Notation JInv := (JInv g c).
Notation JI := (JI g c weak).
Notation MI := (MI g c weak).
Notation app_post := (app_post g c weak).
Notation usr := (usr c).
Notation good := (good g c).
Notation upb := (upbk g c).
Notation contents := (gmap Z bytes).
Notation rootof s := (j_root (js_j (m_js s))).
Notation dirtyof s := (j_dirty (js_j (m_js s))).
Notation "'lem' x" := (x g c Hg) (at level 9, x at level 8, only parsing).
Local Opaque lk lkv wf wfv pa meta_get_id meta_get_alt.
Ltac pose_geo :=
  pose proof (PC_ge _ _ Hg) as HPC4; pose proof (PC_le _ _ Hg) as HPC256;
  pose proof (PB_pos _ _ Hg) as HPB4; pose proof (PB_ge _ _ Hg) as HPBC;
  pose proof (NB_ge _ _ Hg) as HNB8; pose proof (TT_le _ _ Hg) as HTT31;
  pose proof (TT_pos _ _ Hg) as HTTpos; pose proof (GP_ge _ _ Hg) as HGP1;
  pose proof (PB_def _ _ Hg) as HPBdef.

(** The head moved from [hv] to [v]: at most [t] of the user pages passed lie in blocks
    that are good at the end, only blocks that were passed have been erased, and only pages of
    these blocks and of the block of [hv] have been programmed. *)
Record MV (n0 : nand) (hv : Z) (n : nand) (v t : Z) : Prop := {
  mv_le : hv <= v;
  mv_bm : bmono n0 n;
  mv_cnt : cnt (good (badv n)) hv v <= t;
  mv_er : forall b, (forall k, hv <= k * PB <= v -> k mod NB <> b) -> n_erases n b = n_erases n0 b;
  mv_ce : forall q, (forall u, hv <= u -> u / PB <= v / PB -> ph u <> q) -> n_cell n q = n_cell n0 q
}.
Lemma MV_refl n hv : MV n hv n hv 0.
Proof. split; [lia|by apply bm_refl|rewrite cnt_empty; lia|done|done]. Qed.
Lemma MV_mono n0 hv n v t t' : t <= t' -> MV n0 hv n v t -> MV n0 hv n v t'.
Proof. intros Ht []. split; auto. lia. Qed.
Lemma good_mono n n' a b : bmono n n' -> cnt (good (badv n')) a b <= cnt (good (badv n)) a b.
Proof.
  intros Hb. apply cnt_le. intros v _. unfold Space.good. intros H. apply andb_prop in H as [-> H]. cbn.
  apply negb_true_iff in H. apply negb_true_iff. unfold Inv.badv in *.
  destruct (n_bad n (v / PB mod NB)) eqn:E; [|done]. apply Hb in E. congruence.
Qed.
Lemma MV_trans n0 hv n1 v1 t1 n2 v2 t2 : MV n0 hv n1 v1 t1 -> MV n1 v1 n2 v2 t2 -> MV n0 hv n2 v2 (t1 + t2).
Proof.
  intros [A1 A2 A3 A4 A5] [B1 B2 B3 B4 B5]. split.
  - lia.
  - by eapply bm_trans.
  - rewrite (cnt_split _ hv v1 v2) by lia. pose proof (good_mono n1 n2 hv v1 B2). lia.
  - intros b Hb. rewrite B4, A4; [done| |]; intros k Hk; apply Hb; lia.
  - pose proof (lem blk_le hv v1 A1). pose proof (lem blk_le v1 v2 B1).
    intros q Hq. rewrite B5, A5; [done| |]; intros u Hu Hu2; apply Hq; lia.
Qed.
Lemma ph1 v : user v -> (v + 1) / PB = v / PB /\ ph (v + 1) = ph v + 1.
Proof.
  intros Hu. pose_geo. pose proof (lem slot_range v). unfold Geom.user in Hu.
  destruct (divmod_add PC v 1) as [E1 E2]; [lia|lia|].
  pose proof (lem grp_blk _ _ E1) as Eb. split; [done|]. apply (lem ph_add).
  pose proof (lem v_decomp v). pose proof (lem v_decomp (v + 1)). pose proof (lem off_range (v + 1)). pose proof (lem off_range v). rewrite Eb in *. lia.
Qed.
Definition ceq hv v (n n' : nand) : Prop := forall q, (forall u, hv <= u -> u / PB <= v / PB -> ph u <> q) -> n_cell n' q = n_cell n q.
Lemma ceq_page hv v n n' w : hv <= w -> w / PB <= v / PB -> (forall q, q <> ph w -> n_cell n' q = n_cell n q) -> ceq hv v n n'.
Proof. intros H1 H2 H q Hq. apply H. intros ->. by eapply Hq. Qed.
Lemma MV_same n0 hv n n' v t : n_bad n' = n_bad n -> n_erases n' = n_erases n -> ceq hv v n n' -> MV n0 hv n v t -> MV n0 hv n' v t.
Proof.
  intros E1 E2 E3 []. split; auto.
  - intros b. rewrite E1. auto.
  - erewrite cnt_ext; [exact mv_cnt0|]. intros w _. unfold Space.good, Inv.badv. by rewrite E1.
  - intros b. rewrite E2. auto.
  - intros q Hq. rewrite E3 by done. auto.
Qed.
Lemma MV_mark n0 hv n n' v t : bmono n n' -> n_erases n' = n_erases n -> n_cell n' = n_cell n -> MV n0 hv n v t -> MV n0 hv n' v t.
Proof.
  intros E1 E2 E3 []. split; auto.
  - by eapply bm_trans.
  - pose proof (good_mono n n' hv v E1). lia.
  - intros b. rewrite E2. auto.
  - intros q. rewrite E3. auto.
Qed.
Lemma MV_skip n0 hv n v t : v mod PB = 0 -> badv n (v / PB) = true -> MV n0 hv n v t -> MV n0 hv n ((v / PB + 1) * PB) t.
Proof.
  intros Ha Hb []. pose_geo. destruct (lem blk_start (v / PB + 1)) as [B1 B2].
  pose proof (lem blk_lt_start v (v / PB + 1) ltac:(lia)).
  split; auto.
  - lia.
  - rewrite (cnt_split _ hv v) by lia. rewrite (cnt_zero _ v); [lia|]. intros w Hw. unfold Space.good.
    assert (w / PB = v / PB) as ->; [|rewrite Hb; apply andb_false_r].
    pose proof (lem blk_le v w ltac:(lia)). destruct (Z.eq_dec (w / PB) (v / PB)) as [|Hne]; [done|].
    pose proof (lem blk_ge_start w (v / PB + 1) ltac:(lia)). lia.
  - intros b Hk. apply mv_er0. intros k Hk2. apply Hk. lia.
  - intros q Hq. apply mv_ce0. intros u Hu Hu2. apply Hq; [done|]. rewrite B1. lia.
Qed.
Lemma MV_erase n0 hv n n' v t : v mod PB = 0 -> n_bad n' = n_bad n -> (forall b, b <> v / PB mod NB -> n_erases n' b = n_erases n b) ->
  (forall q, q / PB <> v / PB mod NB -> n_cell n' q = n_cell n q) ->
  MV n0 hv n v t -> MV n0 hv n' v t.
Proof.
  intros Ha E1 E2 E3 []. split; auto.
  - intros b. rewrite E1. auto.
  - erewrite cnt_ext; [exact mv_cnt0|]. intros w _. unfold Space.good, Inv.badv. by rewrite E1.
  - intros b Hb. rewrite E2; [by apply mv_er0|]. intros ->. apply (Hb (v / PB)); [|done].
    pose proof (lem v_decomp v). lia.
  - intros q Hq. destruct (decide (q / PB = v / PB mod NB)) as [Eq|Hne]; [|rewrite E3 by done; by apply mv_ce0]. exfalso.
    pose_geo. pose proof (Z.mod_pos_bound q PB ltac:(lia)) as Hm. destruct (divmod_add PB (v / PB * PB) (q mod PB)) as [Ed Em]; [lia| |].
    { rewrite Z.mod_mul by lia. lia. }
    rewrite Z.div_mul in Ed by lia.
    apply (Hq (v / PB * PB + q mod PB)); [|lia|].
    + pose proof (lem v_decomp v). lia.
    + rewrite (lem v_decomp (ph _)), (lem ph_blk), (lem ph_off), Ed, Em, Z.mod_mul, Z.add_0_l by lia. rewrite <-Eq. pose proof (Z.div_mod q PB ltac:(lia)). lia.
Qed.

Section append.
Context (hv tv sv : Z) (Hord : 0 <= sv <= tv /\ tv <= hv) (n0 : nand).
Notation VH := (VH g c weak hv tv sv).
Notation M0 := (MV n0 hv).

Definition ef {A} (o : out A) (s : js) : Prop :=
  match o with
  | OK _ => exists v, VH s v /\ M0 (js_n s) v 0
  | ER e => e = E_JOURNAL_FULL \/
      exists v, VH s v /\ M0 (js_n s) v 0 /\ (e = E_BAD_BLOCK -> v mod PB = 0)
  | ST _ => True
  end.

Lemma prep_ef i : forall s v, VH s v -> v mod PB = 0 -> M0 (js_n s) v 0 -> wp (prepare_head_loop i) s ef.
Proof.
  induction i as [|i IH]; intros s v HV Ha HM; cbn [prepare_head_loop].
  { apply wp_fail. right. exists v. done. }
  pose_geo. pose proof HV as [].
  apply wp_bind, wp_gets, wp_bind, wp_gets. rewrite vh_geo, (lem shiftr_blk), vh_head, (lem ph_blk).
  apply wp_bind. unfold io at 1. apply wp_zoom. unfold wp. rewrite (is_bad_spec g c Hg) by done. cbn [fst snd].
  replace (put_n (js_n s) s) with s by by destruct s.
  assert (Hbk : block_ok g ((v / PB) mod NB) = true) by (apply block_ok_NB, Z.mod_pos_bound; lia).
  destruct (badv (js_n s) (v / PB)) eqn:Eb.
  - apply (wp_bind (modj _)), wp_modify, wp_bind. set (s1 := Js _ _). assert (H01 : VH s1 v) by (by split).
    eapply wp_mono; [apply (skip_vh g c Hg weak hv tv sv Hord s1 v H01)|]. intros o s2 Ho. destruct o as [[]|e|x]; [|by left|done].
    destruct Ho as [HV2 En]. destruct (lem blk_start (v / PB + 1)) as [B1 B2].
    eapply IH; [exact HV2|done|]. rewrite En. cbn [js_n s1]. by apply MV_skip.
  - unfold io. apply wp_zoom. unfold wp, nand_erase. rewrite vh_geo, Hbk. unfold Inv.badv in Eb. rewrite Eb. cbn [negb].
    assert (Hin : forall f, M0 (set_cells (erase_cells g ((v / PB) mod NB) f (n_cell (js_n s))) (bump_erase ((v / PB) mod NB) (bump_tick (js_n s)))) v 0).
    { intros f. eapply MV_erase; [done| | | |exact HM]; [done| |].
      - intros b Hb. cbn. unfold upd. by destruct (Z.eqb_spec b ((v / PB) mod NB)).
      - intros q Hq. cbn. unfold erase_cells. rewrite (lem blk_of_PB). by destruct (Z.eqb_spec (q / PB) ((v / PB) mod NB)). }
    destruct (n_orc (js_n s) (n_tick (js_n s)) (OpErase _)) as [|f|f] eqn:Eo; cbn [fst snd]; [| |done].
    + exists v. split; [by split|]. cbn [js_n put_n]. cbn [n_geo n_cell bump_erase bump_tick]. rewrite vh_geo. apply Hin.
    + right. exists v. split; [by split|]. split; [|done]. cbn [js_n put_n]. cbn [n_geo n_cell bump_erase bump_tick]. rewrite vh_geo. apply Hin.
Qed.
Lemma prepare_ef s v : VH s v -> v = hv \/ v mod PB = 0 -> M0 (js_n s) v 0 -> wp prepare_head s ef.
Proof.
  intros HV Hal HM.
  unfold prepare_head. apply wp_bind, wp_gets, wp_bind, wp_gets. cbv zeta. pose proof HV as [].
  destruct (_ && _); [apply wp_fail; by left|]. apply wp_bind, wp_modify. cbn [js_n js_j].
  rewrite vh_geo, (lem aligned_blk), vh_head, (lem ph_off).
  destruct (Z.eqb_spec (v mod PB) 0) as [E|E]; cbn [negb].
  - eapply (prep_ef _ _ v); [by split|done|done].
  - apply wp_ret. exists v. split; [by split|done].
Qed.

Lemma recover_ef s v : VH s v -> v mod PB = 0 -> M0 (js_n s) v 0 ->
  wp (recover_from E_BAD_BLOCK) s (fun o s' => match o with
    | OK _ => exists v, VH s' v /\ v mod PB = 0 /\ M0 (js_n s') v 0
    | ER e => e = E_JOURNAL_FULL | ST _ => True end).
Proof.
  intros HV Ha HM. pose_geo. pose proof HV as [].
  unfold recover_from. apply wp_bind, wp_gets, wp_bind, wp_gets. rewrite decide_False by (intros H; by apply H).
  apply wp_bind, wp_modify, wp_bind. set (s1 := Js _ _). assert (H01 : VH s1 v) by (by split).
  eapply wp_mono; [apply (skip_vh g c Hg weak hv tv sv Hord s1 v H01)|]. intros o s2 Ho. destruct o as [[]|e|x]; [|done|done].
  destruct Ho as (HV2 & En2). apply wp_bind, wp_gets. rewrite (Nojunk.vh_rec _ _ _ _ _ _ _ _ HV2).
  rewrite vh_geo, (lem aligned_blk), vh_head, (lem ph_off), Ha. cbn [Z.eqb].
  rewrite (lem shiftr_blk), (lem ph_blk). unfold io. apply wp_zoom. unfold wp, nand_mark_bad. rewrite En2. cbn [js_n s1].
  rewrite vh_geo. assert (Hbk : block_ok g ((v / PB) mod NB) = true) by (apply block_ok_NB, Z.mod_pos_bound; lia).
  rewrite Hbk. cbn [negb].
  set (n' := set_bads _ _).
  assert (Hfin : exists v0, VH (put_n n' s2) v0 /\ v0 mod PB = 0 /\ M0 (js_n (put_n n' s2)) v0 0).
  { destruct (lem blk_start (v / PB + 1)) as [B1 B2]. exists ((v / PB + 1) * PB). split; [|split; [done|]].
    - destruct HV2. rewrite En2 in *. split; auto.
    - cbn [js_n put_n]. apply MV_skip; [done|unfold Inv.badv; cbn; unfold upd; by rewrite Z.eqb_refl|].
      eapply MV_mark; [| | |exact HM]; [|done|done]. intros b Hb. cbn. unfold upd. by destruct (b =? _). }
  destruct (n_orc (js_n s) _ _) as [|f|f]; cbn [fst snd]; [exact Hfin|exact Hfin|]. by destruct (f 0).
Qed.

(** What an operation on the head page may do. *)
Definition phe (prog : Z -> M nand unit) : Prop := forall h n, n_geo n = g -> classA g weak (n_orc n) ->
  match prog h n with
  | (OK _, n') => n_geo n' = g /\ n_orc n' = n_orc n /\ n_bad n' = n_bad n /\ n_erases n' = n_erases n /\ (forall q, q <> h -> n_cell n' q = n_cell n q)
  | (ER e, n') => n_geo n' = g /\ n_orc n' = n_orc n /\ n_bad n' = n_bad n /\ n_erases n' = n_erases n /\ (forall q, q <> h -> n_cell n' q = n_cell n q) /\
      (e = E_BAD_BLOCK -> h mod PB = 0)
  | (ST _, _) => True
  end.
Lemma phe_prog d : phe (fun h => nand_prog h d).
Proof.
  intros h n Eg Ho. unfold nand_prog. cbv zeta.
  destruct (negb _); [done|]. destruct (n_bad n _) eqn:Eb; [done|]. destruct (negb _); [done|]. destruct (negb _); [done|].
  assert (Hu : forall x q, q <> h -> upd (n_cell n) h x q = n_cell n q).
  { intros x q Hq. unfold upd. by destruct (Z.eqb_spec q h). }
  destruct (n_orc n (n_tick n) (OpProg h)) as [|f|f] eqn:E; [| |done].
  - split_and!; auto. apply Hu.
  - destruct (proj2 Ho _ _ _ E) as [Hh _]. destruct (f h); split_and!; auto; apply Hu.
Qed.
Lemma phe_none : phe (fun _ => ret tt). Proof. by intros h n Hn _. Qed.
Lemma phe_copy p : phe (fun h => nand_copy p h).
Proof.
  intros h n Eg Ho. unfold nand_copy, bind, gets.
  assert (Hr : match nand_read p 0 (page_size (n_geo n)) n with (OK _, n') => n' = n | (ER e, n') => n' = n /\ e = E_ECC | _ => True end).
  { unfold nand_read. cbv zeta. destruct (negb _); [done|]. destruct (negb _); [done|]. by destruct (cell_bytes _ _). }
  destruct (nand_read _ _ _ n) as [[d|e|x] n']; [|destruct Hr as [-> ->]; done|done].
  subst n'. by apply (phe_prog d).
Qed.

Definition fin (o : out unit) (s : js) : Prop :=
  match o with
  | OK _ => exists v, hv <= v /\ v / PB < sv / PB + NB /\ user v /\ j_root (js_j s) = ph v /\ M0 (js_n s) (nextv v) 1
  | ER e => e = E_JOURNAL_FULL \/ exists v, M0 (js_n s) v 1
  | ST _ => True
  end.

Lemma buf_ef s0 s o b : same s0 s /\ j_head (js_j s) = j_head (js_j s0) ->
  wp (buf_put o b) s (fun r s' => match r with OK _ => same s0 s' /\ j_head (js_j s') = j_head (js_j s0) | ER _ => False | ST _ => True end).
Proof. intros ((E1&E2&E3&E4)&E5). unfold wp, buf_put. cbv zeta. by destruct (_ && _). Qed.
Lemma push_ef s v meta : VH s v -> M0 (js_n s) v 0 -> wp (push_meta meta) s fin.
Proof.
  intros HV HM. pose_geo. pose proof HV as [].
  assert (HMn : forall n', n_bad n' = n_bad (js_n s) -> n_erases n' = n_erases (js_n s) -> (forall q, q <> ph v + 1 -> n_cell n' q = n_cell (js_n s) q) -> M0 n' (nextv v) 1).
  { intros n' Eb Ee Ece. pose proof (mv_le _ _ _ _ _ HM) as Hle0. replace 1 with (0 + 1) by lia. eapply (MV_trans n0 hv n' v 0 n' (nextv v) 1); [|].
    { eapply MV_same; [done|done| |exact HM]. destruct (ph1 v vh_user) as (Hpb & Hph).
      eapply (ceq_page _ _ _ _ (v + 1)); [lia|lia|]. intros q Hq. apply Ece. by rewrite <-Hph. }
    pose proof (nextv_gt c v).
    split; [lia|apply bm_refl| | |].
    - rewrite <-(usr_step g c Hg weak 0 v vh_user). apply cnt_le. intros w _. unfold Space.good. intros H9. by apply andb_prop in H9 as [? _].
    - done.
    - done. }
  assert (Hfin : forall x, n_bad (js_n x) = n_bad (js_n s) -> n_erases (js_n x) = n_erases (js_n s) -> (forall q, q <> ph v + 1 -> n_cell (js_n x) q = n_cell (js_n s) q) -> j_root (js_j x) = ph v -> fin (OK tt) x).
  { intros x Eb Ee Ec Er. exists v. split_and!; auto; lia. }
  assert (Hfe : forall e x, n_bad (js_n x) = n_bad (js_n s) -> n_erases (js_n x) = n_erases (js_n s) -> (forall q, q <> ph v + 1 -> n_cell (js_n x) q = n_cell (js_n s) q) -> fin (ER e) x).
  { intros e x Eb Ee Ec. right. eexists. by apply HMn. }
  unfold push_meta. apply wp_bind, wp_gets, wp_bind, wp_gets. cbv zeta.
  apply wp_bind. eapply wp_mono; [apply (buf_ef s s); done|]. intros o s1 Ho. destruct o as [[]|e|x]; [|done|done].
  destruct (negb _).
  { apply wp_modify. destruct Ho as ((En & _) & Eh). apply Hfin; cbn; rewrite ?En, ?Eh; done. }
  unfold hdr_put_magic, hdr_set_epoch, hdr_set_tail, hdr_set_bb_current, hdr_set_bb_last.
  do 5 (apply wp_bind; eapply wp_mono; [apply (buf_ef s); exact Ho|]; clear dependent s1; intros o s1 Ho; destruct o as [[]|e|x]; [|done|done]).
  apply wp_bind, wp_gets, wp_bind, wp_attempt.
  destruct Ho as ((En1 & Et1 & Er1 & Ee1) & _).
  unfold io. apply wp_zoom. unfold wp at 1.
  pose proof (phe_prog (j_buf (js_j s1)) (w32 (j_head (js_j s) + 1)) (js_n s1)) as Hp. cbn beta in Hp.
  specialize (Hp ltac:(by rewrite En1) ltac:(by rewrite En1)).
  destruct (nand_prog _ _ _) as [o n'] eqn:Ep. cbn [fst snd]. destruct o as [[]|e|x]; [| |done].
  2:{ destruct Hp as (_ & _ & Eb & Ee & Ecl & Hp). destruct (decide (e = E_BAD_BLOCK)) as [->|Hne].
      - exfalso. specialize (Hp eq_refl). pose proof (lem ph_range v) as Hpr. rewrite vh_head in Hp.
        rewrite w32_small in Hp by lia. apply (lem off_0_slot) in Hp.
        assert (Hs : ph v mod PC = v mod PC) by apply (lem ph_slot). pose proof (lem slot_range v).
        destruct (divmod_add PC (ph v) 1) as [_ Em]; [lia| |rewrite Hs in Em; lia]. unfold Geom.user in vh_user. lia.
      - unfold recover_from. apply wp_bind, wp_gets, wp_bind, wp_gets. rewrite decide_True by done. apply wp_fail.
        apply Hfe; cbn; try congruence.
        intros q Hq. rewrite Ecl, En1; [done|]. rewrite vh_head. pose proof (lem ph_range v). rewrite w32_small by lia. done. }
  destruct Hp as (_ & _ & Eb & Ee & Ecl).
  assert (Ecl' : forall q, q <> ph v + 1 -> n_cell n' q = n_cell (js_n s) q).
  { intros q Hq. rewrite Ecl, En1; [done|]. rewrite vh_head. pose proof (lem ph_range v). rewrite w32_small by lia. done. }
  set (s2 := put_n n' s1) in *. assert (Hs2 : j_enum (js_j s2) = false /\ n_bad (js_n s2) = n_bad (js_n s) /\ n_erases (js_n s2) = n_erases (js_n s) /\ (forall q, q <> ph v + 1 -> n_cell (js_n s2) q = n_cell (js_n s) q)) by (cbn; split_and!; [congruence..|exact Ecl']).
  clearbody s2. rewrite vh_head. clear - Hfin Hs2.
  apply wp_bind, wp_modify, wp_bind, wp_modify. apply wp_bind, wp_gets.
  set (s3 := Js _ _). assert (Hs3 : j_enum (js_j s3) = false /\ n_bad (js_n s3) = n_bad (js_n s) /\ n_erases (js_n s3) = n_erases (js_n s) /\ (forall q, q <> ph v + 1 -> n_cell (js_n s3) q = n_cell (js_n s) q) /\ j_root (js_j s3) = ph v).
  { destruct Hs2 as (?&?&?&?). done. }
  apply wp_bind. assert (Hroll : forall b : bool, wp (if b then roll_stats else ret ()) s3 (fun o s' => o = OK tt /\ 
     (j_enum (js_j s') = false /\ n_bad (js_n s') = n_bad (js_n s) /\ n_erases (js_n s') = n_erases (js_n s) /\ (forall q, q <> ph v + 1 -> n_cell (js_n s') q = n_cell (js_n s) q) /\ j_root (js_j s') = ph v))).
  { intros []; [|by apply wp_ret]. unfold roll_stats. apply wp_modify. split; [done|]. done. }
  eapply wp_mono; [apply Hroll|]. intros o s4 [-> Hs4]. destruct Hs4 as (F1 & F2 & F3 & F5 & F4).
  apply wp_bind, wp_gets. rewrite F1. eapply wp_bind_ok; [reflexivity|].
  apply wp_bind, wp_gets. destruct (negb _); [apply wp_modify|apply wp_ret]; by apply Hfin.
Qed.

Lemma append_ef i prog meta : phe prog -> forall s v, VH s v -> v = hv \/ v mod PB = 0 -> M0 (js_n s) v 0 ->
  wp (append_loop i prog meta) s fin.
Proof.
  intros Hp. induction i as [|i IH]; intros s v HV Hal HM; cbn [append_loop].
  { apply wp_fail. right. exists v. eapply MV_mono; [|exact HM]. lia. }
  apply wp_bind, wp_attempt, wp_bind. eapply wp_mono; [by eapply prepare_ef|]. intros o s1 Ho.
  assert (Hrec : forall e s1, ef (ER e : out unit) s1 -> wp (recover_from e;;; append_loop i prog meta) s1 fin).
  { clear s1 Ho. intros e s1 Ho. cbn in Ho. apply wp_bind. destruct (decide (e = E_BAD_BLOCK)) as [->|Hne].
    - destruct Ho as [?|(v1 & HV1 & HM1 & Ha1)]; [done|]. specialize (Ha1 eq_refl).
      eapply wp_mono; [by eapply recover_ef|].
      intros o' s2 Ho2. destruct o' as [[]|e|x]; [|by left|done]. destruct Ho2 as (v2 & HV2 & Ha2 & HM2).
      eapply IH; [exact HV2|by right|done].
    - unfold recover_from. apply wp_bind, wp_gets, wp_bind, wp_gets. rewrite decide_True by done. apply wp_fail.
      destruct Ho as [->|(v1 & HV1 & HM1 & _)]; [by left|]. right. exists v1. eapply MV_mono; [|exact HM1]. lia. }
  destruct o as [[]|e|x]; [|by apply Hrec|done]. destruct Ho as (v1 & HV1 & HM1).
  apply wp_bind, wp_gets. unfold io. apply wp_zoom. unfold wp at 1.
  pose proof (Hp (j_head (js_j s1)) (js_n s1) (Nojunk.vh_geo _ _ _ _ _ _ _ _ HV1) (Nojunk.vh_orc _ _ _ _ _ _ _ _ HV1)) as Hq.
  destruct (prog _ _) as [[[]|e|x] n']; cbn [fst snd]; [| |done].
  - destruct Hq as (Eg & Eo & Eb & Ee & Ecl). eapply (push_ef _ v1).
    + destruct HV1. split; auto. cbn. by rewrite Eo.
    + rewrite (Nojunk.vh_head _ _ _ _ _ _ _ _ HV1) in Ecl. pose proof (mv_le _ _ _ _ _ HM1).
      eapply MV_same; [done|done| |exact HM1]. eapply (ceq_page _ _ _ _ v1); [lia|lia|exact Ecl].
  - apply Hrec. destruct Hq as (Eg & Eo & Eb & Ee & Ecl & Hq). right. exists v1. split; [|split].
    + destruct HV1. split; auto. cbn. by rewrite Eo.
    + rewrite (Nojunk.vh_head _ _ _ _ _ _ _ _ HV1) in Ecl. pose proof (mv_le _ _ _ _ _ HM1).
      eapply MV_same; [done|done| |exact HM1]. eapply (ceq_page _ _ _ _ v1); [lia|lia|exact Ecl].
    + intros ->. specialize (Hq eq_refl). rewrite (Nojunk.vh_head _ _ _ _ _ _ _ _ HV1), (lem ph_off) in Hq. done.
Qed.
End append.

(** ** Through the map layer *)
Definition Bw (n : nand) : Prop := forall b, n_bad n b = true -> weak b = true.
Lemma MI_bw s S Sd hv tv sv K D : MI s S Sd hv tv sv K D -> Bw (chip s).
Proof. intros HM b Hb. pose proof (mi_j _ _ _ _ _ _ _ _ _ _ _ HM) as [Hn _ _ _]. by eapply nk_bad. Qed.

Lemma japp_ef i prog meta s hv tv sv K D : phe prog -> JI s hv tv sv K D -> wp (append_loop i prog meta) s (fin hv sv (js_n s)).
Proof.
  intros Hp [Hn Hj _ _]. pose proof (ji_order _ _ _ _ _ _ _ Hj) as Hord.
  eapply (append_ef hv tv sv Hord (js_n s) i prog meta Hp s hv); [|by left|apply MV_refl].
  split; try apply Hj; try apply Hn. split; [lia|]. apply Hj.
Qed.

Lemma ph_link a b hv : ph a = ph b -> hv <= a < hv + TT -> hv <= b < hv + TT -> a = b.
Proof.
  intros E Ha Hb. pose_geo. unfold Geom.ph in E.
  pose proof (Z.div_mod a TT ltac:(lia)). pose proof (Z.div_mod b TT ltac:(lia)).
  assert (-1 < a / TT - b / TT < 1) by nia. assert (a / TT = b / TT) by lia. nia.
Qed.
Lemma below_win a b hv : a / PB < b / PB + NB -> b <= hv -> a < hv + TT.
Proof.
  intros Ha Hb. pose_geo. pose proof (lem v_decomp a). pose proof (lem v_decomp b). pose proof (lem off_range a). pose proof (lem off_range b).
  unfold Geom.TT. fold NB. fold PB. nia.
Qed.

Definition isapp (app : MJ unit) : Prop := exists i prog meta, phe prog /\ app = append_loop i prog meta.

Lemma append_MV s S Sd hv tv sv K D (app : MJ unit) (P : bytes -> Prop) (ecc : Prop) m (S' : bytes -> contents) : isapp app ->
  MI s S Sd hv tv sv K D -> blen m = META_SIZE ->
  (forall d, P d -> cookie (m_js s) = szc (S' d)) ->
  (forall d n, P d -> K !! n = None -> 0 <= n < PAGE_NONE -> repr (<[n:=(d,m)]> K) n (S' d)) ->
  (aging -> forall d v', P d -> hv <= v' -> K !! ph v' = None -> aged ph tv (<[ph v':=(d,m)]> K) (ph v') v') ->
  wp app (m_js s) (app_post hv tv sv K D (m_js s) P ecc m) ->
  wp (jn app) s (fun o s' => m_gcr s' = m_gcr s /\ m_count s' = m_count s /\
    match o with
    | OK _ => exists d hv' sv' D' Sd', P d /\ hv <= hv' /\ K !! ph hv' = None /\ rootof s' = ph hv' /\
        MI s' (S' d) Sd' (nextv hv') tv sv' (<[ph hv' := (d, m)]> K) D' /\ MV (chip s) hv (chip s') (nextv hv') 1
    | ER e => (e = E_JOURNAL_FULL \/ (e = E_ECC /\ ecc)) /\ Bw (chip s') /\ (e = E_JOURNAL_FULL \/ exists v, MV (chip s) hv (chip s') v 1)
    | ST _ => True
    end).
Proof.
  intros (i & prog & meta & Hp & ->) HM Hm Hck Hnew Hnag Happ.
  pose proof (append_MI g c Hg weak s S Sd hv tv sv K D _ P ecc m S' HM Hm Hck Hnew Hnag Happ) as H1.
  pose proof (japp_ef i prog meta (m_js s) hv tv sv K D Hp (mi_j _ _ _ _ _ _ _ _ _ _ _ HM)) as H2.
  unfold wp, jn, zoom in *. destruct (append_loop i prog meta (m_js s)) as [o j']. cbn [fst snd] in *.
  destruct H1 as (Eg & Ec & Ho). split; [done|]. split; [done|]. unfold chip in *. cbn [m_js put_js] in *.
  destruct o as [[]|e|x]; [| |done].
  - destruct Ho as (d & hv' & sv' & D' & Sd' & HP & Hle & _ & HK & Er & HM' & _).
    destruct H2 as (v & Hv1 & Hv2 & _ & Erv & HMV).
    assert (v = hv') as ->.
    { pose proof (mi_j _ _ _ _ _ _ _ _ _ _ _ HM') as [_ Hj' _ _]. cbn [m_js put_js] in Hj'.
      pose proof (ji_order _ _ _ _ _ _ _ Hj') as Hord'. pose proof (ji_full _ _ _ _ _ _ _ Hj') as Hfu'.
      pose proof (mi_j _ _ _ _ _ _ _ _ _ _ _ HM) as [_ Hj _ _]. pose proof (ji_order _ _ _ _ _ _ _ Hj) as Hord.
      pose proof (nextv_gt c hv').
      apply (ph_link _ _ hv); [congruence| |]; (split; [lia|]).
      - apply (below_win v sv hv); [done|lia].
      - pose proof (below_win (nextv hv') sv' hv Hfu' ltac:(lia)). lia. }
    exists d, hv', sv', D', Sd'. done.
  - destruct Ho as (He & hv' & _ & HM'). split; [done|]. split; [by apply MI_bw in HM'|].
    destruct H2 as [?|H2]; [by left|by right].
Qed.

Definition mverr (s : ms) (hv t : Z) (e : err) (s' : ms) : Prop :=
  e <> E_RECOVER /\ (e = E_ECC -> Bw (chip s') /\ exists v, MV (chip s) hv (chip s') v t).

Lemma raw_gc_MV s S Sd hv tv sv K D : MI s S Sd hv tv sv K D -> m_count s = Z.of_nat (size S) -> 
  wp (raw_gc (ph tv)) s (fun o s' => m_gcr s' = m_gcr s /\ m_count s' = m_count s /\
    match o with
    | OK _ => exists hv' sv' K' D' Sd', MI s' S Sd' hv' tv sv' K' D' /\
        (forall t, id_ok t -> findp K' (rootof s') t <> Some (ph tv)) /\ MV (chip s) hv (chip s') hv' 1
    | ER e => mverr s hv 1 e s'
    | ST _ => True
    end).
Proof.
  intros HM Hc. pose_geo. unfold raw_gc.
  assert (Htu : user tv) by apply HM.
  assert (HM01 : MV (chip s) hv (chip s) hv 1) by (eapply MV_mono; [|apply MV_refl]; lia).
  destruct (read_meta_any g c Hg weak (m_js s) hv tv sv K D tv) as [(m & Em & Hm)|[Em Hjk]]; [apply HM|done| |].
  2:{ apply wp_bind. unfold jn. apply wp_zoom. unfold wp. rewrite Em. cbn.
      split; [done|]. split; [done|]. rewrite put_js_id. split; [done|]. intros _. split; [by eapply MI_bw|]. by exists hv. }
  assert (Hread : forall t, id_ok t -> findp K (rootof s) t = Some (ph tv) -> t = meta_get_id m /\ exists d, K !! ph tv = Some (d, m)).
  { intros t Ht Ef. destruct (findp_Some _ _ _ _ _ (mi_rep _ _ _ _ _ _ _ _ _ _ _ HM) Ht Ef) as (E1 & [[d m'] E2] & _).
    pose proof (MI_reads g c Hg weak _ _ _ _ _ _ _ _ HM _ _ _ E2) as E3. rewrite Em in E3. injection E3 as <-.
    split; [|by exists d]. rewrite <-E1. unfold kid, km. by rewrite E2. }
  eapply wp_bind_ok. { unfold jn, zoom. rewrite Em. rewrite put_js_id. reflexivity. }
  assert (Hstay : (forall t, id_ok t -> findp K (rootof s) t <> Some (ph tv)) ->
     exists hv' sv' K' D' Sd', MI s S Sd' hv' tv sv' K' D' /\
        (forall t, id_ok t -> findp K' (rootof s) t <> Some (ph tv)) /\ MV (chip s) hv (chip s) hv' 1).
  { intros H. exists hv, sv, K, D, Sd. done. }
  destruct (Z.eqb_spec (meta_get_id m) SECTOR_NONE) as [En|Hne].
  { apply wp_ret. split; [done|]. split; [done|]. apply Hstay. intros t Ht Ef.
    destruct (Hread _ Ht Ef) as [Et _]. rewrite Et, En in Ht. unfold id_ok, SECTOR_NONE in Ht. lia. }
  pose proof (get_id_range m) as Hidr.
  assert (Hid : id_ok (meta_get_id m)). { unfold id_ok. unfold SECTOR_NONE in *. lia. }
  destruct (trace_MI g c Hg weak _ _ _ _ _ _ _ _ (meta_get_id m) m HM ltac:(lia) Hm) as (nm & Et & Hp).
  eapply wp_bind_ok; [exact Et|]. cbn beta iota.
  destruct (findp K (rootof s) (meta_get_id m)) as [cur|] eqn:Ef; cbn beta iota.
  2:{ apply wp_ret. split; [done|]. split; [done|]. apply Hstay. intros t Ht E.
      destruct (Hread _ Ht E) as [-> _]. congruence. }
  destruct (Z.eqb_spec cur (ph tv)) as [->|Hcur]; cbn [negb].
  2:{ apply wp_ret. split; [done|]. split; [done|]. apply Hstay. intros t Ht E.
      destruct (Hread _ Ht E) as [-> _]. congruence. }
  eapply wp_bind_ok; [reflexivity|].
  destruct (ck_spec g c Hg weak _ _ _ _ _ _ _ _ (m_count s) HM) as (s1 & E1 & HM1 & Eck & Ec1 & Eg1 & Er1 & Ed1 & En1).
  eapply wp_bind_ok; [exact E1|].
  destruct (Hread _ Hid Ef) as [_ [d HK]].
  eapply wp_mono.
  - eapply (append_MV s1 S Sd hv tv sv K D (journal_copy (ph tv) nm) (fun x => x = d) False nm (fun _ => S)).
    + exists MAX_RETRIES, (fun h => nand_copy (ph tv) h), (Some nm). split; [apply phe_copy|done].
    + exact HM1.
    + apply Hp.
    + intros _ _. rewrite Eck, Hc. done.
    + intros x n -> Hn Hnr. eapply repr_reloc; [apply HM|exact Hp|exact Hid|exact Hn|exact Hnr|exact Ef|].
      unfold kdata. by rewrite HK.
    + eapply age_path; [apply HM|exact Hp].
    + eapply (copy_spec g c Hg weak Hdense); [apply HM1|exact HK|apply Hp].
  - intros o s' (Eg & Ec & Ho). split; [congruence|]. split; [congruence|]. rewrite En1 in Ho.
    destruct o as [[]|e|x]; [| |done].
    + destruct Ho as (d' & hv' & sv' & D' & Sd' & -> & Hle & HKn & Er & HM' & HMV).
      exists (nextv hv'), sv', (<[ph hv':=(d, nm)]> K), D', Sd'. split; [exact HM'|].
      pose proof (nextv_gt c hv'). split; [|done].
      intros t Ht E. destruct (findp_Some _ _ _ _ _ (mi_rep _ _ _ _ _ _ _ _ _ _ _ HM') Ht E) as (E2 & _ & _).
      assert (Hne2 : ph hv' <> ph tv) by (intros E3; rewrite E3 in HKn; congruence).
      assert (E4 : kid (<[ph hv':=(d, nm)]> K) (ph tv) = meta_get_id m).
      { unfold kid, km. rewrite lookup_insert_ne by done. by rewrite HK. }
      rewrite E4 in E2. subst t.
      pose proof (findp_root _ _ _ (mi_rep _ _ _ _ _ _ _ _ _ _ _ HM')) as E5. rewrite Er in E5, E.
      assert (E6 : kid (<[ph hv':=(d, nm)]> K) (ph hv') = meta_get_id m).
      { unfold kid, km. rewrite lookup_insert. cbn. apply Hp. }
      rewrite E6 in E5. rewrite E5 in E; [congruence|pose proof (ph_pn g c Hg hv'); lia|done].
    + destruct Ho as (He & HB & Hv). split; [by destruct He as [->|[-> _]]|]. intros ->. split; [done|]. by destruct Hv.
Qed.

(** After a garbage collection of at most [t] pages. *)
Definition gmv (s : ms) (S : contents) (hv t : Z) {A} (o : out A) (s' : ms) : Prop :=
  m_gcr s' = m_gcr s /\
  match o with
  | OK _ => m_count s' = Z.of_nat (size S) /\ exists Sd' hv' tv' sv' K' D', MI s' S Sd' hv' tv' sv' K' D' /\ MV (chip s) hv (chip s') hv' t
  | ER e => mverr s hv t e s'
  | ST _ => True
  end.
Lemma norecs e fuel s : e <> E_RECOVER -> try_recover fuel e s = (ER e, s).
Proof. intros H. unfold try_recover. by rewrite decide_True. Qed.
Lemma gc_loop_MV n fuel s S Sd hv tv sv K D : MI s S Sd hv tv sv K D -> m_count s = Z.of_nat (size S) ->
  wp (map_gc_loop (Datatypes.S n) fuel) s (gmv s S hv 1).
Proof.
  intros HM Hc. cbn [map_gc_loop].
  destruct (peek_MI g c Hg weak Hdense _ _ _ _ _ _ _ _ HM) as (s1 & tv1 & E1 & Hle & HM1 & Ec1 & Eg1 & En1 & Ed1).
  eapply wp_bind_ok; [exact E1|]. clear E1.
  destruct (tv =? hv).
  { rewrite Z.eqb_refl. apply wp_ret. split; [done|]. split; [congruence|]. exists Sd, hv, tv1, sv, K, D. split; [done|].
    rewrite En1. eapply MV_mono; [|apply MV_refl]. lia. }
  destruct (Z.eqb_spec (ph tv1) PAGE_NONE) as [E|_]; [pose proof (ph_pn g c Hg tv1); lia|].
  apply wp_bind, wp_attempt.
  eapply wp_mono; [apply (raw_gc_MV _ _ _ _ _ _ _ _ HM1); congruence|].
  intros o s2 (Eg2 & Ec2 & Ho). destruct o as [[]|e|x]; [| |split; [congruence|done]].
  - destruct Ho as (hv2 & sv2 & K2 & D2 & Sd2 & HM2 & Hf & HV).
    destruct (dequeue_any g c Hg weak _ _ _ _ _ _ _ _ HM2 Hf) as (s3 & E3 & En3 & Eg3 & Ec3 & Ed3 & tv3 & sv3 & K3 & D3 & HM3 & _).
    unfold wp. rewrite E3. cbn [fst snd]. split; [congruence|]. split; [congruence|]. exists Sd2, hv2, tv3, sv3, K3, D3. split; [done|].
    by rewrite En3, <-En1.
  - apply wp_bind. unfold wp. rewrite (norecs e) by apply Ho.
    cbn [fst snd]. split; [congruence|]. unfold mverr in *. by rewrite <-En1.
Qed.
Lemma map_gc_MV fuel s S Sd hv tv sv K D : MI s S Sd hv tv sv K D -> m_count s = Z.of_nat (size S) -> (1 <= fuel)%nat ->
  wp (map_gc fuel) s (gmv s S hv 1).
Proof.
  intros HM Hc Hf. unfold map_gc. apply wp_bind, wp_gets. destruct (m_count s =? 0).
  - apply wp_ret. split; [done|]. split; [done|]. exists Sd, hv, tv, sv, K, D. split; [done|]. eapply MV_mono; [|apply MV_refl]. lia.
  - destruct fuel as [|n]; [lia|]. by eapply gc_loop_MV.
Qed.
Lemma mverr_trans s hv s1 v1 t1 t2 e s' : MV (chip s) hv (chip s1) v1 t1 -> mverr s1 v1 t2 e s' -> mverr s hv (t1 + t2) e s'.
Proof. intros H1 [H2 H3]. split; [done|]. intros He. destruct (H3 He) as [HB [v Hv]]. split; [done|]. exists v. by eapply MV_trans. Qed.
Lemma gmv_trans s S hv s1 v1 t1 t2 A (o : out A) s' : m_gcr s1 = m_gcr s -> MV (chip s) hv (chip s1) v1 t1 -> gmv s1 S v1 t2 o s' -> gmv s S hv (t1 + t2) o s'.
Proof.
  intros Eg H1 [Eg2 H2]. split; [congruence|]. destruct o as [a|e|x]; [| |done].
  - destruct H2 as (Hc & Sd' & hv' & tv' & sv' & K' & D' & HM & HV). split; [done|]. exists Sd', hv', tv', sv', K', D'. split; [done|]. by eapply MV_trans.
  - by eapply mverr_trans.
Qed.
Lemma repeat_gc_MV i fuel : (1 <= fuel)%nat -> forall s S Sd hv tv sv K D, MI s S Sd hv tv sv K D -> m_count s = Z.of_nat (size S) ->
  wp (repeat_gc i fuel) s (gmv s S hv (Z.of_nat i)).
Proof.
  intros Hf. induction i as [|i IH]; intros s S Sd hv tv sv K D HM Hc; cbn [repeat_gc].
  { apply wp_ret. split; [done|]. split; [done|]. exists Sd, hv, tv, sv, K, D. split; [done|apply MV_refl]. }
  apply wp_bind. eapply wp_mono; [by eapply map_gc_MV|]. intros o s2 [Eg2 Ho]. destruct o as [[]|e|x]; [| |by split].
  - destruct Ho as (Hc2 & Sd2 & hv2 & tv2 & sv2 & K2 & D2 & HM2 & HV).
    eapply wp_mono; [by eapply IH|]. intros o s3 H3. replace (Z.of_nat (Datatypes.S i)) with (1 + Z.of_nat i) by lia.
    by eapply gmv_trans.
  - split; [done|]. destruct Ho as [? Ho]. split; [done|]. intros He. destruct (Ho He) as [HB [v Hv]]. split; [done|]. exists v. eapply MV_mono; [|exact Hv]. lia.
Qed.
Lemma auto_gc_MV fuel s S Sd hv tv sv K D : (1 <= fuel)%nat -> MI s S Sd hv tv sv K D -> m_count s = Z.of_nat (size S) -> 0 <= m_gcr s ->
  wp (auto_gc fuel) s (gmv s S hv (m_gcr s + 1)).
Proof.
  intros Hf HM Hc Hg0. unfold auto_gc. apply wp_bind, wp_gets. destruct (_ <? _).
  - apply wp_ret. split; [done|]. split; [done|]. exists Sd, hv, tv, sv, K, D. split; [done|]. eapply MV_mono; [|apply MV_refl]. lia.
  - apply wp_bind, wp_gets. eapply wp_mono; [by eapply repeat_gc_MV|]. intros o s' Ho.
    replace (m_gcr s + 1) with (Z.of_nat (Datatypes.S (Z.to_nat (m_gcr s)))) by lia. exact Ho.
Qed.

Definition wmv (s : ms) (hv t : Z) {A} (o : out A) (s' : ms) : Prop :=
  match o with
  | OK _ => Bw (chip s') /\ exists v, MV (chip s) hv (chip s') v t
  | ER e => mverr s hv t e s'
  | ST _ => True
  end.
Lemma write_MV n fuel s S Sd hv tv sv K D dst app P ecc : (1 <= fuel)%nat -> MI s S Sd hv tv sv K D -> m_count s = Z.of_nat (size S) -> 0 <= m_gcr s ->
  id_ok dst -> (forall nm, isapp (app nm)) -> (forall hv tv sv K D, appok g c weak app P ecc hv tv sv K D) ->
  wp (write_loop (Datatypes.S n) fuel dst app) s (wmv s hv (m_gcr s + 2)).
Proof.
  intros Hf HM Hc Hg0 Hid Hisa Happ. cbn [write_loop]. apply wp_bind, wp_gets.
  apply wp_bind. unfold prepare_write. apply wp_bind.
  eapply wp_mono; [by eapply auto_gc_MV|]. intros o s1 [Eg1 Ho]. destruct o as [[]|e|x]; [| |done].
  2:{ split; [apply Ho|]. intros He. destruct Ho as [_ Ho]. destruct (Ho He) as [HB [v Hv]]. split; [done|]. exists v. eapply MV_mono; [|exact Hv]. lia. }
  destruct Ho as (Hc1 & Sd1 & hv1 & tv1 & sv1 & K1 & D1 & HM1 & HV1).
  assert (Hul : blen uninit_meta = META_SIZE) by done.
  assert (0 <= dst < 2 ^ 32) as Hdr by (unfold id_ok, SECTOR_NONE in Hid; lia).
  destruct (trace_MI g c Hg weak _ _ _ _ _ _ _ _ dst uninit_meta HM1 Hdr Hul) as (nm & Et & Hp).
  eapply wp_bind_ok; [exact Et|]. cbn [fst snd].
  pose proof (mi_rep _ _ _ _ _ _ _ _ _ _ _ HM1) as Hrep.
  assert (Hmid : forall s2, m_js s2 = m_js s1 -> m_gcr s2 = m_gcr s1 ->
     (forall d : bytes, m_count s2 = Z.of_nat (size (<[dst:=d]> S))) ->
    wp (let! cnt := gets m_count in ck_set_count cnt;;; ret nm) s2
      (fun o s' => match o with
       | OK a => wp (let! r := attempt (jn (app a)) in
           match r with
           | inr _ => ret tt
           | inl my_err => modify (set_count (m_count s));;; try_recover fuel my_err;;; write_loop n fuel dst app
           end) s' (wmv s hv (m_gcr s + 2))
       | ER e => wmv s hv (m_gcr s + 2) (ER e : out unit) s'
       | ST x => wmv s hv (m_gcr s + 2) (ST x : out unit) s'
       end)).
  { intros s2 Ej2 Eg2 Ec2.
    assert (HM2 : MI s2 S Sd1 hv1 tv1 sv1 K1 D1).
    { destruct HM1 as [? ? ? ? ? ?]. split; rewrite ?Ej2, ?Eg2; auto. }
    apply wp_bind, wp_gets.
    destruct (ck_spec g c Hg weak _ _ _ _ _ _ _ _ (m_count s2) HM2) as (s3 & E3 & HM3 & Eck & Ec3 & Eg3 & Er3 & Ed3 & En3).
    assert (Ech : chip s3 = chip s1) by (rewrite En3; unfold chip; by rewrite Ej2).
    eapply wp_bind_ok; [exact E3|]. apply wp_ret, wp_bind, wp_attempt.
    eapply wp_mono.
    - eapply (append_MV s3 S Sd1 hv1 tv1 sv1 K1 D1 (app nm) P ecc nm (fun d => <[dst:=d]> S)); [apply Hisa|exact HM3| | | | |].
      + apply Hp.
      + intros d _. rewrite Eck, (Ec2 d). done.
      + intros d n0 _ HKn Hnr. eapply repr_insert; eauto.
      + eapply age_path; [apply HM1|exact Hp].
      + apply Happ; [apply HM3|apply Hp].
    - intros o s4 (Eg4 & Ec4 & Ho). rewrite Ech in Ho. destruct o as [[]|e|x]; [| |done].
      + destruct Ho as (d & hv' & sv' & D' & Sd' & HP & Hle & HKn & Er & HM' & HV').
        apply wp_ret. split; [by eapply MI_bw|]. exists (nextv hv'). replace (m_gcr s + 2) with (m_gcr s + 1 + 1) by lia.
        by eapply MV_trans.
      + destruct Ho as (He & HB & Hv).
        apply wp_bind, wp_modify, wp_bind. unfold wp. rewrite norecs by (destruct He as [-> | [-> _]]; done).
        cbn [fst snd]. split; [destruct He as [-> | [-> _]]; done|]. intros ->. split; [done|]. destruct Hv as [?|[v Hv]]; [done|].
        exists v. replace (m_gcr s + 2) with (m_gcr s + 1 + 1) by lia. by eapply MV_trans. }
  destruct (findp K1 (rootof s1) dst) as [cur|] eqn:Ef.
  - eapply wp_bind_ok; [reflexivity|]. apply Hmid; auto.
    intros d. rewrite Hc1. destruct (proj1 (findp_iff _ _ _ _ Hrep Hid)) as [d0 Hd0]; [by eexists|].
    by erewrite map_size_insert_Some by done.
  - pose proof (findp_None _ _ _ _ Hrep Ef) as HSn. pose proof (capacity_lt s1).
    apply wp_bind, wp_bind, wp_gets. destruct (Z.leb_spec (map_capacity s1) (m_count s1)) as [Hfull|Hfull].
    + by apply wp_fail.
    + apply wp_modify. apply Hmid; auto. intros d. cbn.
      rewrite map_size_insert_None by done. rewrite w32_small by lia. lia.
Qed.
Lemma map_copy_page_MV fuel s S Sd hv tv sv K D p t : (1 <= fuel)%nat -> MI s S Sd hv tv sv K D -> m_count s = Z.of_nat (size S) -> 0 <= m_gcr s ->
  id_ok t -> 0 <= p < TT -> wp (map_copy_page fuel p t) s (wmv s hv (m_gcr s + 2)).
Proof.
  intros Hf HM Hc Hg0 Hid Hp. unfold map_copy_page. destruct fuel as [|n]; [lia|].
  eapply (write_MV n _ s S Sd hv tv sv K D t _ (fun x => blen x = page_size g) True); auto.
  - intros nm. exists MAX_RETRIES, (fun h => nand_copy p h), (Some nm). split; [apply phe_copy|done].
  - intros hv1 tv1 sv1 K1 D1 x nm HJ Hnm. eapply wp_mono; [by apply (copy_any_spec g c Hg weak Hdense p)|].
    intros o x' Ho. unfold StepA.app_post in *. destruct o as [[]|e|y]; [|done|].
    + destruct Ho as (hv' & d & _ & Hdl & H). by exists hv', d.
    + destruct Ho as (-> & Ho). split; [done|]. destruct Ho as [?|(hv' & d & _ & Hdl & H)]; [by left|right; by exists hv', d].
Qed.

(** ** A page the journal still holds is not erased *)
Lemma not_erased n hv sv sk n' v' t X pv : 
  Bw n' -> bmono n n' -> (forall b, sk b = true -> badv n b = true) -> 0 <= sv -> user hv ->
  cnt (good sk) sv hv <= X + hv mod PC -> MV n hv n' v' t -> X + PC - 2 + t < (NB - 2 - cnt weak 0 NB) * upb -> sv <= pv < hv -> hv / PB < sv / PB + NB ->
  n_erases n' (ph pv / PB) = n_erases n (ph pv / PB) /\ n_cell n' (ph pv) = n_cell n (ph pv).
Proof.
  intros HB Hbm Hsk Hsv Hu Hcnt HMV HX Hpv Hfull. pose_geo. destruct HMV as [Hle _ Hc He Hce].
  assert (Hcore : forall k, hv <= k * PB <= v' -> k mod NB <> ph pv / PB).
  2:{ split; [by apply He|]. apply Hce. intros u Hu1 Hu2 Eu. apply (Hcore (u / PB)); [|by rewrite <-(lem ph_blk), Eu].
    pose proof (lem v_decomp v'). pose proof (lem off_range v'). pose proof (lem blk_le sv pv ltac:(lia)).
    assert (Hge : pv + TT <= u).
    { unfold Geom.ph in Eu. pose proof (Z.div_mod u TT ltac:(lia)). pose proof (Z.div_mod pv TT ltac:(lia)).
      assert (0 < u / TT - pv / TT) by nia. nia. }
    assert (pv / PB + NB <= u / PB).
    { rewrite <-(Z.div_add pv NB PB) by lia. apply Z.div_le_mono; [lia|]. rewrite (Z.mul_comm NB), <-(TT_def g). lia. }
    pose proof (lem blk_lt_start hv (u / PB) ltac:(lia)). nia. }
  intros k Hk E. rewrite (lem ph_blk) in E.
  pose proof (lem blk_le sv pv ltac:(lia)) as Hb1. pose proof (lem blk_le sv hv ltac:(lia)) as Hb2.
  pose proof (lem v_decomp pv). pose proof (lem off_range pv).
  pose proof (upbk_pos g c Hg) as Hup.
  assert (Hkp : pv / PB < k) by nia.
  assert (Hkn : pv / PB + NB <= k).
  { pose proof (Z.div_mod k NB ltac:(lia)). pose proof (Z.div_mod (pv / PB) NB ltac:(lia)).
    assert (0 < k / NB - pv / PB / NB) by nia. nia. }
  set (sk' := fun b => if b <? hv / PB then sk b else badv n' b).
  set (B := sv / PB + NB).
  assert (Hhv : hv / PB <= k).
  { destruct (Z.le_gt_cases (hv / PB) k) as [|Hgt]; [done|]. pose proof (lem v_decomp hv). pose proof (lem off_range hv). nia. }
  assert (Hw : cnt sk' (sv / PB + 1) B <= cnt weak 0 NB).
  { etrans; [|apply (cnt_window weak NB (sv / PB + 1) B); unfold B; lia]. apply cnt_le. intros b _ Hb.
    unfold sk' in Hb. destruct (b <? hv / PB).
    - apply HB, Hbm. by apply Hsk.
    - by apply HB. }
  assert (Hblk : forall a b, a <= b -> (b - a - cnt sk' a b) * upb = cnt (good sk') (a * PB) (b * PB)).
  { intros a b Hab. symmetry. unfold Space.good. apply (cnt_blocks usr sk' PB upb); [lia| |done]. intros x. apply (usr_block g c Hg weak 0). }
  assert (Hlow : forall m, m <= hv / PB -> sv / PB + 1 <= m -> (m - (sv / PB + 1) - cnt sk' (sv / PB + 1) m) * upb <= X + PC - 2).
  { intros m Hm1 Hm2. rewrite Hblk by lia. pose proof (lem slot_range hv). unfold Geom.user in Hu.
    etrans; [|etrans; [exact Hcnt|lia]]. etrans; [|apply (cnt_sub (good sk) ((sv / PB + 1) * PB) (m * PB))].
    - apply cnt_le. intros v Hv. unfold Space.good, sk'.
      assert (v / PB < hv / PB).
      { destruct (Z.le_gt_cases m (v / PB)) as [Hx|]; [|lia]. pose proof (lem v_decomp v). pose proof (lem off_range v). nia. }
      replace (v / PB <? hv / PB) with true by (symmetry; apply Z.ltb_lt; lia). done.
    - pose proof (lem v_decomp sv). pose proof (lem off_range sv). nia.
    - pose proof (lem v_decomp hv). pose proof (lem off_range hv). nia. }
  assert (Hhigh : forall m, hv / PB + 1 <= m -> m <= B -> (B - m - cnt sk' m B) * upb <= t).
  { intros m Hm1 Hm2. rewrite Hblk by lia. etrans; [|exact Hc]. etrans; [|apply (cnt_sub (good (badv n')) (m * PB) (B * PB))].
    - apply cnt_le. intros v Hv. unfold Space.good, sk'.
      assert (hv / PB < v / PB).
      { destruct (Z.le_gt_cases m (v / PB)) as [Hx|Hx]; [lia|]. pose proof (lem v_decomp v). pose proof (lem off_range v). nia. }
      replace (v / PB <? hv / PB) with false by (symmetry; apply Z.ltb_ge; lia). done.
    - pose proof (lem v_decomp hv). pose proof (lem off_range hv). nia.
    - unfold B. nia. }
  assert (Hc0 : 0 <= cnt sk' (hv / PB) (hv / PB + 1) <= 1) by (rewrite cnt_one; destruct (sk' _); lia).
  destruct (Z.le_gt_cases B (hv / PB)) as [Hx|Hx].
  - pose proof (Hlow B Hx ltac:(unfold B; lia)). assert (0 <= t). { pose proof (cnt_nonneg (good (badv n')) hv v'). lia. }
    unfold B in *. nia.
  - destruct (Z.eq_dec (sv / PB) (hv / PB)) as [Ee|Hne].
    + pose proof (Hhigh (sv / PB + 1) ltac:(lia) ltac:(unfold B; lia)). pose proof (lem slot_range hv). 
      assert (0 <= X + PC - 2). { pose proof (cnt_nonneg (good sk) sv hv). unfold Geom.user in Hu. lia. }
      unfold B in *. nia.
    + pose proof (Hlow (hv / PB) ltac:(lia) ltac:(lia)) as L1. pose proof (Hhigh (hv / PB + 1) ltac:(lia) ltac:(lia)) as L2.
      rewrite (cnt_split sk' (sv / PB + 1) (hv / PB) B), (cnt_split sk' (hv / PB) (hv / PB + 1) B) in Hw by lia.
      unfold B in *. nia.
Qed.
End move.
