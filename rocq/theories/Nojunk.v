(** As long as power is not lost during a call, pages are unreadable only in blocks
    marked bad, and the tail is not inside such a block.  Used by Space.v.  Nothing
    here models code. *)
From stdpp Require Import gmap.
From Verif Require Import Base Bytes BytesLemmas Wp Nand Journal MapModel Geom Tree Inv StepDI StepNand StepJ.
Local Open Scope Z_scope.

Section nojunk.
Context (g : geo) (c : Z) (Hg : geo_ok g c) (weak : Z -> bool).
Notation PB := (PB g).
Notation PC := (PC c).
Notation NB := (NB g).
Notation TT := (TT g).
Notation ph := (ph g).
Notation user := (user c).
Notation badv := (badv g).
Notation epo := (epo g).
Notation JI := (JI g c weak).
Notation "'lem' x" := (x g c Hg) (at level 9, x at level 8, only parsing).
Ltac pose_geo :=
  pose proof (PC_ge _ _ Hg) as HPC4; pose proof (PC_le _ _ Hg) as HPC256;
  pose proof (PB_pos _ _ Hg) as HPB4; pose proof (PB_ge _ _ Hg) as HPBC;
  pose proof (NB_ge _ _ Hg) as HNB8; pose proof (TT_le _ _ Hg) as HTT31;
  pose proof (TT_pos _ _ Hg) as HTTpos; pose proof (GP_ge _ _ Hg) as HGP1;
  pose proof (PB_def _ _ Hg) as HPBdef.

(** Unreadable pages lie in bad blocks or in block [b]. *)
Definition NJx (n : nand) (b : Z) : Prop := forall p o, n_cell n p = Junk o -> n_bad n (p / PB) = true \/ p / PB = b.
Definition NJ (n : nand) : Prop := forall p o, n_cell n p = Junk o -> n_bad n (p / PB) = true.
(** The tail is not inside a bad block. *)
Definition TI (s : js) : Prop := j_tail (js_j s) mod PB <> 0 -> n_bad (js_n s) (j_tail (js_j s) / PB) = false.
Definition J2 (s : js) : Prop := NJ (js_n s) /\ TI s.
Lemma NJ_x n b : NJ n -> NJx n b. Proof. intros H p o Hp. left. eauto. Qed.

Section append.
Context (hv tv sv : Z) (Hord : 0 <= sv <= tv /\ tv <= hv).
Record VH (s : js) (v : Z) : Prop := {
  vh_geo : n_geo (js_n s) = g;
  vh_orc : classA g weak (n_orc (js_n s));
  vh_ppc : j_ppc (js_j s) = c;
  vh_head : j_head (js_j s) = ph v;
  vh_epoch : j_epoch (js_j s) = epo (v / PB);
  vh_user : user v;
  vh_rng : hv <= v /\ v / PB < sv / PB + NB;
  vh_ts : j_tsync (js_j s) = ph sv;
  vh_tail : j_tail (js_j s) = ph tv;
  vh_rec : j_recov (js_j s) = false;
  vh_enum : j_enum (js_j s) = false
}.
Definition TB (n : nand) : Prop := tv mod PB <> 0 -> badv n (tv / PB) = false.
Lemma TB_TI s : j_tail (js_j s) = ph tv -> TI s <-> TB (js_n s).
Proof. intros E. unfold TI, TB, Inv.badv. rewrite E, (lem ph_off), (lem ph_blk). done. Qed.

Definition nq (al : bool) {A} (o : out A) (s : js) : Prop :=
  match o with
  | OK _ => exists v, VH s v /\ NJ (js_n s) /\ TB (js_n s)
  | ER e => e = E_JOURNAL_FULL \/
      (e = E_BAD_BLOCK /\ exists v, VH s v /\ v mod PB = 0 /\ NJx (js_n s) (v / PB mod NB) /\ TB (js_n s)) \/
      (e <> E_BAD_BLOCK /\ NJ (js_n s) /\ TB (js_n s) /\ j_tail (js_j s) = ph tv)
  | ST _ => True
  end.

Lemma tail_apart v : hv <= v -> v / PB < sv / PB + NB -> v mod PB = 0 -> tv mod PB <> 0 -> (tv / PB) mod NB <> (v / PB) mod NB.
Proof.
  intros Hv Hf Ha Ht E. pose_geo. pose proof (lem blk_le sv tv ltac:(lia)). pose proof (lem blk_le tv v ltac:(lia)).
  assert (Eb : tv / PB = v / PB).
  { destruct (Z.eq_dec (tv / PB) (v / PB)) as [|Hne]; [done|]. exfalso.
    pose proof (Z.div_mod (tv / PB) NB ltac:(lia)). pose proof (Z.div_mod (v / PB) NB ltac:(lia)).
    assert (0 < v / PB / NB - tv / PB / NB < 1) by nia. lia. }
  pose proof (lem v_decomp tv). pose proof (lem v_decomp v). pose proof (lem off_range tv). rewrite Eb in *. lia.
Qed.

Lemma skip_vh s v : VH s v -> wp skip_block s (fun o s' => match o with
  | OK _ => VH s' ((v / PB + 1) * PB) /\ js_n s' = js_n s
  | ER e => e = E_JOURNAL_FULL
  | ST _ => False
  end).
Proof.
  intros []. pose_geo. eapply wp_mono; [apply (skip_block_spec g c Hg s v sv); auto|].
  { split; [|lia]. apply (lem blk_le). lia. }
  intros o s' Ho. destruct o as [[]|e|x]; [|by destruct Ho|done].
  destruct Ho as (En & [] & _ & Eh & Ee & Hlt). destruct (lem blk_start (v / PB + 1)) as [B1 B2].
  split; [|done]. split; rewrite ?En; auto; try congruence.
  - apply (lem blk_start_user).
  - rewrite B1. split; [|done]. pose proof (lem blk_lt_start v (v / PB + 1) ltac:(lia)). lia.
Qed.

Lemma prep_nq i : forall s v, VH s v -> v mod PB = 0 -> NJ (js_n s) -> TB (js_n s) -> wp (prepare_head_loop i) s (nq true).
Proof.
  induction i as [|i IH]; intros s v HV Ha HN HT; cbn [prepare_head_loop].
  { apply wp_fail. right. right. split_and!; auto. apply HV. }
  pose_geo. pose proof HV as [].
  apply wp_bind, wp_gets, wp_bind, wp_gets. rewrite vh_geo0, (lem shiftr_blk), vh_head0, (lem ph_blk).
  apply wp_bind. unfold io at 1. apply wp_zoom. unfold wp. rewrite (is_bad_spec g c Hg) by done. cbn [fst snd].
  replace (put_n (js_n s) s) with s by by destruct s.
  assert (Hbk : block_ok g ((v / PB) mod NB) = true) by (apply block_ok_NB, Z.mod_pos_bound; lia).
  destruct (badv (js_n s) (v / PB)) eqn:Eb.
  - apply (wp_bind (modj _)), wp_modify, wp_bind. set (s1 := Js _ _). assert (H01 : VH s1 v) by (by split).
    eapply wp_mono; [apply (skip_vh s1 v H01)|]. intros o s2 Ho. destruct o as [[]|e|x]; [|by left|done].
    destruct Ho as [HV2 En]. destruct (lem blk_start (v / PB + 1)) as [B1 B2].
    eapply IH; [exact HV2|done|by rewrite En|by rewrite En].
  - unfold io. apply wp_zoom. unfold wp, nand_erase. rewrite vh_geo0, Hbk. unfold Inv.badv in Eb. rewrite Eb. cbn [negb].
    assert (Hin : forall f p o, n_cell (set_cells (erase_cells g ((v / PB) mod NB) f (n_cell (js_n s))) (js_n s)) p = Junk o ->
       n_bad (js_n s) (p / PB) = true \/ p / PB = (v / PB) mod NB).
    { intros f p o. cbn. unfold erase_cells. rewrite (lem blk_of_PB). destruct (Z.eqb_spec (p / PB) ((v / PB) mod NB)); [by right|].
      intros Hp. left. by eapply HN. }
    destruct (n_orc (js_n s) (n_tick (js_n s)) (OpErase _)) as [|f|f] eqn:Eo; cbn [fst snd]; [| |done].
    + exists v. split; [by split|]. split; [|exact HT].
      intros p o. cbn. rewrite vh_geo0. unfold erase_cells. rewrite (lem blk_of_PB). destruct (Z.eqb_spec (p / PB) ((v / PB) mod NB)); [done|].
      intros Hp. by eapply HN.
    + right. left. split; [done|]. exists v. split; [by split|]. split; [done|]. split; [|exact HT].
      intros p o Hp. apply (Hin f p o). cbn in Hp. rewrite vh_geo0 in Hp. exact Hp.
Qed.
Lemma prepare_nq s : VH s hv -> NJ (js_n s) -> TB (js_n s) -> wp prepare_head s (nq false).
Proof.
  intros HV HN HT. unfold prepare_head. apply wp_bind, wp_gets, wp_bind, wp_gets. cbv zeta. pose proof HV as [].
  destruct (_ && _); [apply wp_fail; by left|]. apply wp_bind, wp_modify. cbn [js_n js_j].
  rewrite vh_geo0, (lem aligned_blk), vh_head0, (lem ph_off).
  destruct (Z.eqb_spec (hv mod PB) 0) as [E|E]; cbn [negb].
  - eapply wp_mono; [eapply (prep_nq _ _ hv); [by split|done|done|done]|]. intros o s' Ho. destruct o; exact Ho.
  - apply wp_ret. exists hv. split; [by split|done].
Qed.
Lemma prepare_nq' s v : VH s v -> v = hv \/ v mod PB = 0 -> NJ (js_n s) -> TB (js_n s) -> wp prepare_head s (nq false).
Proof.
  intros HV Hal HN HT. destruct (decide (v = hv)) as [->|Hne]; [by apply prepare_nq|]. destruct Hal as [?|Ha]; [done|].
  unfold prepare_head. apply wp_bind, wp_gets, wp_bind, wp_gets. cbv zeta. pose proof HV as [].
  destruct (_ && _); [apply wp_fail; by left|]. apply wp_bind, wp_modify. cbn [js_n js_j].
  rewrite vh_geo0, (lem aligned_blk), vh_head0, (lem ph_off), Ha. cbn [Z.eqb negb].
  eapply wp_mono; [eapply (prep_nq _ _ v); [by split|done|done|done]|]. intros o s' Ho. destruct o; exact Ho.
Qed.

Lemma recover_nq s v : VH s v -> v mod PB = 0 -> NJx (js_n s) (v / PB mod NB) -> TB (js_n s) ->
  wp (recover_from E_BAD_BLOCK) s (fun o s' => match o with
    | OK _ => exists v, VH s' v /\ v mod PB = 0 /\ NJ (js_n s') /\ TB (js_n s')
    | ER e => e = E_JOURNAL_FULL | ST _ => True end).
Proof.
  intros HV Ha HN HT. pose_geo. pose proof HV as [].
  unfold recover_from. apply wp_bind, wp_gets, wp_bind, wp_gets. rewrite decide_False by (intros H; by apply H).
  apply wp_bind, wp_modify, wp_bind. set (s1 := Js _ _). assert (H01 : VH s1 v) by (by split).
  eapply wp_mono; [apply (skip_vh s1 v H01)|]. intros o s2 Ho. destruct o as [[]|e|x]; [|done|done].
  destruct Ho as (HV2 & En2). apply wp_bind, wp_gets. rewrite (vh_rec _ _ HV2).
  rewrite vh_geo0, (lem aligned_blk), vh_head0, (lem ph_off), Ha. cbn [Z.eqb].
  rewrite (lem shiftr_blk), (lem ph_blk). unfold io. apply wp_zoom. unfold wp, nand_mark_bad. rewrite En2. cbn [js_n s1].
  rewrite vh_geo0. assert (Hbk : block_ok g ((v / PB) mod NB) = true) by (apply block_ok_NB, Z.mod_pos_bound; lia).
  rewrite Hbk. cbn [negb].
  set (n' := set_bads _ _).
  assert (Hfin : exists v0, VH (put_n n' s2) v0 /\ v0 mod PB = 0 /\ NJ (js_n (put_n n' s2)) /\ TB (js_n (put_n n' s2))).
  { destruct (lem blk_start (v / PB + 1)) as [B1 B2]. exists ((v / PB + 1) * PB). split; [|split; [done|split]].
    - destruct HV2. rewrite En2 in *. split; auto.
    - intros p o Hp. cbn in Hp |- *. unfold upd. destruct (Z.eqb_spec (p / PB) ((v / PB) mod NB)); [done|].
      destruct (HN p o Hp); done.
    - intros Ht. specialize (HT Ht). unfold Inv.badv in *. cbn. unfold upd.
      destruct (Z.eqb_spec ((tv / PB) mod NB) ((v / PB) mod NB)) as [E|]; [|done].
      exfalso. eapply tail_apart; [| | |exact Ht|exact E]; [lia|lia|done]. }
  destruct (n_orc (js_n s) _ _) as [|f|f]; cbn [fst snd]; [exact Hfin|exact Hfin|]. by destruct (f 0).
Qed.

(** What an operation on the head page may do. *)
Definition phj (prog : Z -> M nand unit) : Prop := forall h n, n_geo n = g -> classA g weak (n_orc n) -> NJ n ->
  match prog h n with
  | (OK _, n') => n_geo n' = g /\ n_orc n' = n_orc n /\ n_bad n' = n_bad n /\ NJ n'
  | (ER e, n') => n_geo n' = g /\ n_orc n' = n_orc n /\ n_bad n' = n_bad n /\ e <> E_JOURNAL_FULL /\
      if decide (e = E_BAD_BLOCK) then h mod PB = 0 /\ NJx n' (h / PB) else NJ n'
  | (ST _, _) => True
  end.
Lemma phj_prog d : phj (fun h => nand_prog h d).
Proof.
  intros h n Eg Ho HN. unfold nand_prog. cbv zeta.
  destruct (negb _); [done|]. destruct (n_bad n _) eqn:Eb; [done|]. destruct (negb _); [done|]. destruct (negb _); [done|].
  assert (Hw : forall x o, written g x <> Junk o) by (intros x o; unfold written; by destruct (_ && _)).
  destruct (n_orc n (n_tick n) (OpProg h)) as [|f|f] eqn:E; [|split|done].
  - split_and!; auto. intros p o. cbn. unfold upd. destruct (p =? h); [|eapply HN]. rewrite Eg. intros H. by apply Hw in H.
  - by destruct (f h).
  - split; [by destruct (f h)|]. split; [by destruct (f h)|]. split; [done|].
    destruct (proj2 Ho _ _ _ E) as [Hh _]. split; [done|]. intros p o Hp.
    destruct (Z.eq_dec p h) as [->|Hne]; [by right|]. left.
    destruct (f h); cbn in Hp |- *; unfold upd in Hp; rewrite (proj2 (Z.eqb_neq _ _) Hne) in Hp; by eapply HN.
Qed.
Lemma phj_none : phj (fun _ => ret tt). Proof. by intros h n Hn _. Qed.
Lemma phj_copy p : phj (fun h => nand_copy p h).
Proof.
  intros h n Eg Ho HN. unfold nand_copy, bind, gets.
  assert (Hr : match nand_read p 0 (page_size (n_geo n)) n with (OK _, n') => n' = n | (ER e, n') => n' = n /\ e = E_ECC | _ => True end).
  { unfold nand_read. cbv zeta. destruct (negb _); [done|]. destruct (negb _); [done|]. by destruct (cell_bytes _ _). }
  destruct (nand_read _ _ _ n) as [[d|e|x] n']; [|destruct Hr as [-> ->]; done|done].
  subst n'. by apply (phj_prog d).
Qed.

Definition fin (o : out unit) (s : js) : Prop :=
  match o with
  | OK _ => J2 s
  | ER e => e = E_JOURNAL_FULL \/ J2 s
  | ST _ => True
  end.

(** Steps that leave the chip and the tail alone. *)
Definition same (s s' : js) : Prop := js_n s' = js_n s /\ j_tail (js_j s') = j_tail (js_j s) /\
  j_recov (js_j s') = j_recov (js_j s) /\ j_enum (js_j s') = j_enum (js_j s).
Lemma same_J2 s s' : same s s' -> J2 s -> J2 s'.
Proof. intros (E1 & E2 & _) [H1 H2]. split; [by rewrite E1|]. unfold TI. by rewrite E1, E2. Qed.
Lemma same_trans s1 s2 s3 : same s1 s2 -> same s2 s3 -> same s1 s3.
Proof. intros (?&?&?&?) (?&?&?&?). split_and!; congruence. Qed.
Lemma same_buf s0 s o b : same s0 s -> wp (buf_put o b) s (fun r s' => match r with OK _ => same s0 s' | ER _ => False | ST _ => True end).
Proof. intros (E1&E2&E3&E4). unfold wp, buf_put. cbv zeta. by destruct (_ && _). Qed.

Lemma push_nq s v meta : VH s v -> NJ (js_n s) -> TB (js_n s) -> wp (push_meta meta) s fin.
Proof.
  intros HV HN HT. pose_geo. pose proof HV as [].
  assert (HJ : J2 s) by (split; [done|by apply TB_TI]).
  unfold push_meta. apply wp_bind, wp_gets, wp_bind, wp_gets. cbv zeta.
  apply wp_bind. eapply wp_mono; [apply (same_buf s s); done|]. intros o s1 Ho. destruct o as [[]|e|x]; [|done|done].
  destruct (negb _). { apply wp_modify. eapply same_J2; [|exact HJ]. eapply same_trans; [exact Ho|done]. }
  unfold hdr_put_magic, hdr_set_epoch, hdr_set_tail, hdr_set_bb_current, hdr_set_bb_last.
  do 5 (apply wp_bind; eapply wp_mono; [apply (same_buf s); exact Ho|]; clear dependent s1; intros o s1 Ho; destruct o as [[]|e|x]; [|done|done]).
  apply wp_bind, wp_gets, wp_bind, wp_attempt.
  pose proof (same_J2 _ _ Ho HJ) as [HN1 HT1]. destruct Ho as (En1 & Et1 & Er1 & Ee1).
  unfold io. apply wp_zoom. unfold wp at 1.
  pose proof (phj_prog (j_buf (js_j s1)) (w32 (j_head (js_j s) + 1)) (js_n s1)) as Hp. cbn beta in Hp.
  specialize (Hp ltac:(by rewrite En1) ltac:(by rewrite En1) HN1).
  destruct (nand_prog _ _ _) as [o n'] eqn:Ep. cbn [fst snd]. destruct o as [[]|e|x]; [| |done].
  2:{ destruct Hp as (_ & _ & Eb & He & Hp). destruct (decide (e = E_BAD_BLOCK)) as [->|Hne].
      - exfalso. destruct Hp as [Hp _]. pose proof (lem ph_range v) as Hpr. rewrite vh_head0 in Hp.
        rewrite w32_small in Hp by lia. apply (lem off_0_slot) in Hp.
        assert (Hs : ph v mod PC = v mod PC) by apply (lem ph_slot). pose proof (lem slot_range v).
        destruct (divmod_add PC (ph v) 1) as [_ Em]; [lia| |rewrite Hs in Em; lia]. unfold Geom.user in vh_user0. lia.
      - unfold recover_from. apply wp_bind, wp_gets, wp_bind, wp_gets. rewrite decide_True by done. apply wp_fail.
        right. split; [exact Hp|]. unfold TI in *. cbn. rewrite Eb. done. }
  destruct Hp as (_ & _ & Eb & HN').
  assert (HJ' : J2 (put_n n' s1)). { split; [exact HN'|]. unfold TI in *. cbn. by rewrite Eb. }
  set (s2 := put_n n' s1) in *. assert (Hs2 : j_enum (js_j s2) = false /\ j_recov (js_j s2) = false) by (cbn; split; congruence).
  clearbody s2. clear - HJ' Hs2.
  apply wp_bind, wp_modify, wp_bind, wp_modify. apply wp_bind, wp_gets.
  set (s3 := Js _ _). assert (Hs3 : same s2 s3) by done.
  apply wp_bind. assert (Hroll : forall b : bool, wp (if b then roll_stats else ret ()) s3 (fun o s' => o = OK tt /\ same s2 s')).
  { intros []; [|by apply wp_ret]. unfold roll_stats. apply wp_modify. split; [done|]. done. }
  eapply wp_mono; [apply Hroll|]. intros o s4 [-> Hs4]. destruct Hs4 as (F1 & F2 & F3 & F4).
  apply wp_bind, wp_gets. rewrite F4, (proj1 Hs2). eapply wp_bind_ok; [reflexivity|].
  apply wp_bind, wp_gets. destruct (negb _); [apply wp_modify|apply wp_ret]; (eapply same_J2; [|exact HJ']; by split).
Qed.

Lemma append_nq i prog meta : phj prog -> forall s v, VH s v -> v = hv \/ v mod PB = 0 -> NJ (js_n s) -> TB (js_n s) ->
  wp (append_loop i prog meta) s fin.
Proof.
  intros Hp. induction i as [|i IH]; intros s v HV Hal HN HT; cbn [append_loop].
  { apply wp_fail. right. split; [done|]. apply TB_TI; [apply HV|done]. }
  apply wp_bind, wp_attempt, wp_bind. eapply wp_mono; [by eapply prepare_nq'|]. intros o s1 Ho.
  assert (Hrec : forall e s1, nq false (ER e : out unit) s1 -> wp (recover_from e;;; append_loop i prog meta) s1 fin).
  { clear s1 Ho. intros e s1 Ho. cbn in Ho. apply wp_bind. destruct (decide (e = E_BAD_BLOCK)) as [->|Hne].
    - destruct Ho as [?|[(_ & v1 & HV1 & Ha1 & HN1 & HT1)|[? _]]]; [done| |done].
      eapply wp_mono; [by eapply recover_nq|].
      intros o' s2 Ho2. destruct o' as [[]|e|x]; [|by left|done]. destruct Ho2 as (v2 & HV2 & Ha2 & HN2 & HT2).
      eapply IH; [exact HV2|by right|done|done].
    - unfold recover_from. apply wp_bind, wp_gets, wp_bind, wp_gets. rewrite decide_True by done. apply wp_fail.
      destruct Ho as [->|[[? _]|(_ & HN1 & HT1 & Et)]]; [by left|done|]. right. split; [done|]. by apply TB_TI. }
  destruct o as [[]|e|x]; [|by apply Hrec|done]. destruct Ho as (v1 & HV1 & HN1 & HT1).
  apply wp_bind, wp_gets. unfold io. apply wp_zoom. unfold wp at 1.
  pose proof (Hp (j_head (js_j s1)) (js_n s1) (vh_geo _ _ HV1) (vh_orc _ _ HV1) HN1) as Hq.
  destruct (prog _ _) as [[[]|e|x] n']; cbn [fst snd]; [| |done].
  - destruct Hq as (Eg & Eo & Eb & HN2). eapply (push_nq _ v1); [|done|].
    + destruct HV1. split; auto. cbn. by rewrite Eo.
    + unfold TB, Inv.badv in *. cbn. by rewrite Eb.
  - apply Hrec. destruct Hq as (Eg & Eo & Eb & He & Hq). right.
    assert (HT2 : TB n') by (unfold TB, Inv.badv in *; by rewrite Eb).
    destruct (decide (e = E_BAD_BLOCK)) as [->|Hne].
    + left. split; [done|]. destruct Hq as [Ha HN2]. exists v1. rewrite (vh_head _ _ HV1) in Ha, HN2.
      rewrite (lem ph_off) in Ha. rewrite (lem ph_blk) in HN2. split; [|done]. destruct HV1. split; auto. cbn. by rewrite Eo.
    + right. split_and!; auto. apply HV1.
Qed.
End append.

Lemma append_J2 i prog meta s hv tv sv K D : phj prog -> JI s hv tv sv K D -> J2 s -> wp (append_loop i prog meta) s fin.
Proof.
  intros Hp [Hn Hj _ _] [HN HT]. pose proof (ji_order _ _ _ _ _ _ _ Hj) as Hord.
  eapply (append_nq hv tv sv Hord i prog meta Hp s hv); [|by left|done|eapply TB_TI; [apply Hj|done]].
  split; try apply Hj; try apply Hn. split; [lia|]. apply Hj.
Qed.
Lemma enqueue_J2 d m s hv tv sv K D : JI s hv tv sv K D -> J2 s -> wp (journal_enqueue d m) s fin.
Proof. apply append_J2. destruct d; [apply phj_prog|apply phj_none]. Qed.
Lemma copy_J2 p m s hv tv sv K D : JI s hv tv sv K D -> J2 s -> wp (journal_copy p m) s fin.
Proof. apply append_J2, phj_copy. Qed.
End nojunk.
