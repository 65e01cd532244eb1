(** The bad-block counters (bb_current, bb_last) along appends, and what they mean
    for the capacity.  Used by Space.v. *)
From stdpp Require Import gmap.
From Verif Require Import Base Bytes BytesLemmas Wp Nand Journal MapModel Geom Tree Inv StepDI StepNand StepJ Cnt.
Local Open Scope Z_scope.

Section bb.
(** [fb]: blocks marked bad when the chip was new; [e0], [E1]: bounds for the
    number of bad blocks seen in the last round. *)
Context (g : geo) (c : Z) (Hg : geo_ok g c) (weak fb : Z -> bool) (e0 E1 : Z).
Notation PB := (PB g).
Notation PC := (PC c).
Notation NB := (NB g).
Notation TT := (TT g).
Notation user := (user c).
Notation "'lem' x" := (x g c Hg) (at level 9, x at level 8, only parsing).
Ltac pose_geo :=
  pose proof (PC_ge _ _ Hg) as HPC4; pose proof (PC_le _ _ Hg) as HPC256;
  pose proof (PB_pos _ _ Hg) as HPB4; pose proof (PB_ge _ _ Hg) as HPBC;
  pose proof (NB_ge _ _ Hg) as HNB8; pose proof (TT_le _ _ Hg) as HTT31;
  pose proof (TT_pos _ _ Hg) as HTTpos; pose proof (GP_ge _ _ Hg) as HGP1;
  pose proof (PB_def _ _ Hg) as HPBdef.
Context (He0 : e0 <= cnt fb 0 NB) (HE1 : cnt weak 0 NB <= E1).

Record nI (n : nand) : Prop := {
  ni_geo : n_geo n = g;
  ni_orc : classA g weak (n_orc n);
  ni_bad : forall b, n_bad n b = true -> weak b = true;
  ni_fb : forall b, fb b = true -> n_bad n b = true
}.

Definition hb (s : js) : Z := j_head (js_j s) / PB.
(** Everything but the count of the current round. *)
Record BB0 (s : js) : Prop := {
  bi_n : nI (js_n s);
  bi_ppc : j_ppc (js_j s) = c;
  bi_head : 0 <= j_head (js_j s) < TT;
  bi_user : user (j_head (js_j s));
  bi_recov : j_recov (js_j s) = false;
  bi_enum : j_enum (js_j s) = false;
  bi_bbl : e0 <= j_bbl (js_j s) <= E1
}.
Definition bbr (s : js) (h : Z) : Prop := cnt fb 0 h <= j_bbc (js_j s) <= cnt weak 0 h.
Definition BBI (s : js) : Prop := BB0 s /\ bbr s (hb s).

Definition algn (s : js) : Prop := j_head (js_j s) mod PB = 0.
Definition wk (s : js) : Prop := algn s /\ weak (hb s) = true.
Definition bq (al : bool) {A} (o : out A) (s : js) : Prop :=
  match o with
  | OK _ => BBI s /\ (al = true -> algn s)
  | ER e => if decide (e = E_JOURNAL_FULL) then True else
      BBI s /\ (e = E_BAD_BLOCK -> wk s)
  | ST _ => True
  end.

Lemma bq_err al A e s : BBI s -> (e = E_BAD_BLOCK -> wk s) -> bq al (ER e : out A) s.
Proof. intros H1 H2. cbn. by destruct (decide _). Qed.
Lemma bq_full al A s : bq al (ER E_JOURNAL_FULL : out A) s.
Proof. cbn. by rewrite decide_True. Qed.
Lemma fb_weak n b : nI n -> fb b = true -> weak b = true.
Proof. intros [] H. auto. Qed.
Lemma hb_range s : BB0 s -> 0 <= hb s < NB.
Proof.
  intros []. pose_geo. unfold hb. split; [apply Z.div_pos; lia|]. apply Z.div_lt_upper_bound; [lia|].
  unfold Geom.TT in *. lia.
Qed.
Lemma bbr_step s : BBI s -> weak (hb s) = true -> cnt fb 0 (hb s + 1) <= j_bbc (js_j s) + 1 <= cnt weak 0 (hb s + 1).
Proof.
  intros [H0 [H1 H2]] Hw. pose proof (hb_range s H0).
  rewrite (cnt_split fb 0 (hb s)), (cnt_split weak 0 (hb s)), !cnt_one by lia. rewrite Hw. destruct (fb (hb s)); lia.
Qed.
Lemma cw_NB h : 0 <= h <= NB -> 0 <= cnt fb 0 h /\ cnt weak 0 h <= NB.
Proof. intros H. pose proof (cnt_nonneg fb 0 h). pose proof (cnt_bound weak 0 h ltac:(lia)). lia. Qed.

(** The stepping to the next block. *)
Lemma bb_next s j' : BB0 s -> cnt fb 0 (hb s + 1) <= j_bbc (js_j s) <= cnt weak 0 (hb s + 1) ->
  j' = set_head (if hb s + 1 =? NB then 0 else (hb s + 1) * PB) (js_j s) ->
  BBI (Js (js_n s) (if j_head j' =? 0 then roll_stats_j j' else j')) /\
  algn (Js (js_n s) (if j_head j' =? 0 then roll_stats_j j' else j')).
Proof.
  intros H0 Hr Ej. pose_geo. pose proof (hb_range _ H0) as Hh. unfold algn.
  assert (Eh : j_head j' = if hb s + 1 =? NB then 0 else (hb s + 1) * PB) by (by rewrite Ej).
  destruct (Z.eqb_spec (hb s + 1) NB) as [E|E].
  - rewrite Eh. rewrite Z.eqb_refl. subst j'. cbn. split; [|by apply Z.mod_0_l; lia].
    rewrite E in Hr. destruct H0. split; [split; cbn; auto; try lia|].
    + unfold Geom.user. rewrite Z.mod_0_l by lia. lia.
    + unfold bbr, hb. cbn. rewrite Z.div_0_l by lia. rewrite !cnt_empty by lia. lia.
  - rewrite Eh. replace ((hb s + 1) * PB =? 0) with false by (symmetry; apply Z.eqb_neq; nia).
    subst j'. cbn. destruct (lem blk_start (hb s + 1)) as [E2 E3]. split; [|done].
    destruct H0. split; [split; cbn; auto|].
    + unfold Geom.TT. nia.
    + apply (lem blk_start_user).
    + unfold bbr. replace (hb _) with (hb s + 1) by (unfold hb at 2; cbn; by rewrite E2). done.
Qed.

Lemma skip_bb s : BB0 s -> cnt fb 0 (hb s + 1) <= j_bbc (js_j s) <= cnt weak 0 (hb s + 1) ->
  wp skip_block s (fun o s' => match o with
    | OK _ => BBI s' /\ algn s' /\ js_n s' = js_n s
    | ER e => e = E_JOURNAL_FULL
    | ST _ => False
    end).
Proof.
  intros H0 Hr. pose_geo. pose proof (hb_range _ H0) as Hh.
  unfold skip_block, wp, bind, getg, getj, modj, gets, modify.
  rewrite (ni_geo _ (bi_n _ H0)), !(lem shiftr_blk). fold (hb s).
  assert (En : next_block g (hb s) = if hb s + 1 =? NB then 0 else hb s + 1).
  { unfold next_block. rewrite w32_small by (unfold Geom.TT in *; nia). fold NB.
    destruct (Z.leb_spec NB (hb s + 1)); destruct (Z.eqb_spec (hb s + 1) NB); lia. }
  rewrite En. destruct (Z.eqb_spec (j_tsync (js_j s) / PB) (if hb s + 1 =? NB then 0 else hb s + 1)) as [|_]; [done|].
  assert (Ew : w32 (Z.shiftl (if hb s + 1 =? NB then 0 else hb s + 1) (g_lppb g)) = if hb s + 1 =? NB then 0 else (hb s + 1) * PB).
  { rewrite (lem shiftl_blk). destruct (Z.eqb_spec (hb s + 1) NB); [done|]. apply w32_small. unfold Geom.TT in *. nia. }
  rewrite Ew. cbn [js_j js_n].
  pose proof (bb_next s _ H0 Hr eq_refl) as [HB HA]. cbn [j_head set_head] in HB, HA |- *.
  destruct (_ =? 0) eqn:Ez; cbn; auto.
Qed.

Lemma nI_tick n : nI n -> nI (bump_tick n). Proof. by intros []. Qed.
Lemma nI_erase n b : nI n -> nI (bump_erase b n). Proof. by intros []. Qed.
Lemma nI_cells n x : nI n -> nI (set_cells x n). Proof. by intros []. Qed.
Lemma nI_mark n b : nI n -> weak b = true -> nI (set_bads (upd (n_bad n) b true) n).
Proof.
  intros [] Hw. split; cbn; auto; unfold upd.
  - intros x. destruct (Z.eqb_spec x b) as [->|]; auto.
  - intros x Hx. destruct (x =? b); auto.
Qed.
Lemma BBI_n s n : BBI s -> nI n -> BBI (Js n (js_j s)).
Proof. intros [[] H] Hn. by split. Qed.

(** What an operation on the head page may do. *)
Definition phead (prog : Z -> M nand unit) : Prop := forall h n, nI n -> 0 <= h < TT ->
  match prog h n with
  | (OK _, n') => nI n'
  | (ER e, n') => nI n' /\ e <> E_JOURNAL_FULL /\ (e = E_BAD_BLOCK -> h mod PB = 0 /\ weak (h / PB) = true)
  | (ST _, _) => True
  end.
Lemma ph_prog d : phead (fun h => nand_prog h d).
Proof.
  intros h n Hn Hh. pose proof Hn as [Eg Ho _ _]. unfold nand_prog. cbv zeta.
  destruct (negb _); [done|]. destruct (n_bad n _); [done|]. destruct (negb _); [done|]. destruct (negb _); [done|].
  destruct (n_orc n (n_tick n) (OpProg h)) as [|f|f] eqn:E; [|split|done].
  - by apply nI_cells, nI_tick.
  - destruct (f h); by apply nI_cells, nI_tick.
  - split; [done|]. intros _. destruct Ho as [_ Ho]. by eapply Ho.
Qed.
Lemma ph_none : phead (fun _ => ret tt). Proof. by intros h n Hn _. Qed.
Lemma ph_copy p : phead (fun h => nand_copy p h).
Proof.
  intros h n Hn Hh. unfold nand_copy, bind, gets.
  assert (Hr : match nand_read p 0 (page_size (n_geo n)) n with (OK _, n') => n' = n | (ER e, n') => n' = n /\ e = E_ECC | _ => True end).
  { unfold nand_read. cbv zeta. destruct (negb _); [done|]. destruct (negb _); [done|]. by destruct (cell_bytes _ _). }
  destruct (nand_read _ _ _ n) as [[d|e|x] n']; [|destruct Hr as [-> ->]; done|done].
  subst n'. by apply (ph_prog d).
Qed.

Lemma prep_bb i : forall s, BBI s -> algn s -> wp (prepare_head_loop i) s (bq true).
Proof.
  induction i as [|i IH]; intros s HB Ha; cbn [prepare_head_loop]; [apply wp_fail; by apply bq_err|].
  pose proof HB as [H0 Hr]. pose proof (hb_range _ H0) as Hh. pose proof (bi_n _ H0) as Hn. pose_geo.
  apply wp_bind, wp_gets, wp_bind, wp_gets. rewrite (ni_geo _ Hn), (lem shiftr_blk). fold (hb s).
  assert (Hbk : block_ok g (hb s) = true) by by apply block_ok_NB.
  eapply wp_bind_ok. { unfold io, zoom, nand_is_bad. rewrite (ni_geo _ Hn), Hbk. reflexivity. }
  assert (Es : put_n (js_n s) s = s) by by destruct s. rewrite Es.
  destruct (n_bad (js_n s) (hb s)) eqn:Eb.
  - pose proof (bbr_step s HB (ni_bad _ Hn _ Eb)) as Hb'. pose proof (cw_NB (hb s + 1) ltac:(lia)).
    apply wp_bind, wp_modify, wp_bind. rewrite w32_small by (unfold Geom.TT in *; nia).
    set (s1 := Js _ _). assert (H01 : BB0 s1) by (by destruct H0).
    eapply wp_mono; [apply (skip_bb s1 H01); exact Hb'|]. intros o s2 Ho. destruct o as [[]|e|x]; [|subst e; apply bq_full|done].
    destruct Ho as (HB2 & Ha2 & _). by apply IH.
  - unfold wp, io, zoom, nand_erase. rewrite (ni_geo _ Hn), Hbk, Eb. cbn [negb].
    destruct (n_orc (js_n s) (n_tick (js_n s)) (OpErase (hb s))) as [|f|f] eqn:Eo; cbn; [|split|done].
    + split; [|done]. apply BBI_n; [done|]. by apply nI_cells, nI_erase, nI_tick.
    + apply BBI_n; [done|]. by apply nI_cells, nI_erase, nI_tick.
    + intros _. split; [done|]. destruct (ni_orc _ Hn) as [Ho _]. by eapply Ho.
Qed.
Lemma dirty_bb s b : BBI s -> BBI (Js (js_n s) (set_dirty b (js_j s))).
Proof. intros [[] H]. by split. Qed.
Lemma prepare_bb s : BBI s -> wp prepare_head s (bq false).
Proof.
  intros HB. unfold prepare_head. apply wp_bind, wp_gets, wp_bind, wp_gets. cbv zeta. pose proof HB as [H0 _].
  destruct (_ && _); [apply wp_fail, bq_full|]. apply wp_bind, wp_modify. cbn [js_n js_j].
  rewrite (ni_geo _ (bi_n _ H0)), (lem aligned_blk).
  destruct (Z.eqb_spec (j_head (js_j s) mod PB) 0) as [E|E]; cbn [negb].
  - eapply wp_mono; [apply prep_bb; [by apply dirty_bb|done]|]. intros o s' Ho. destruct o; cbn in *; auto. by split; [apply Ho|].
  - apply wp_ret. split; [by apply dirty_bb|done].
Qed.

Lemma recover_bb s : BBI s -> wk s -> wp (recover_from E_BAD_BLOCK) s (bq false).
Proof.
  intros HB [Ha Hw]. pose proof HB as [H0 Hr]. pose proof (hb_range _ H0) as Hh. pose_geo.
  unfold recover_from. apply wp_bind, wp_gets, wp_bind, wp_gets. rewrite decide_False by (intros H; by apply H).
  pose proof (bbr_step s HB Hw) as Hb'. pose proof (cw_NB (hb s + 1) ltac:(lia)).
  apply wp_bind, wp_modify, wp_bind. rewrite w32_small by (unfold Geom.TT in *; nia).
  set (s1 := Js _ _). assert (H01 : BB0 s1) by (by destruct H0).
  eapply wp_mono; [apply (skip_bb s1 H01); exact Hb'|]. intros o s2 Ho. destruct o as [[]|e|x]; [|subst e; apply bq_full|done].
  destruct Ho as (HB2 & Ha2 & En2). apply wp_bind, wp_gets. rewrite (bi_recov _ (proj1 HB2)).
  rewrite (ni_geo _ (bi_n _ H0)), (lem aligned_blk). unfold algn in Ha. rewrite Ha. cbn [Z.eqb].
  rewrite (lem shiftr_blk). fold (hb s). unfold wp, io, zoom, nand_mark_bad. rewrite En2. cbn [js_n s1].
  rewrite (ni_geo _ (bi_n _ H0)). rewrite (proj2 (block_ok_NB g (hb s)) Hh). cbn [negb].
  assert (Hm : nI (set_bads (upd (n_bad (bump_tick (js_n s))) (hb s) true) (bump_tick (js_n s)))).
  { apply nI_mark; [|done]. apply nI_tick, H0. }
  destruct (n_orc (js_n s) _ _) as [|f|f]; cbn; [split; [by apply BBI_n|done]..|]. by destruct (f 0).
Qed.

Definition bsame (s s' : js) : Prop := js_n s' = js_n s /\ exists bf, js_j s' = set_buf bf (js_j s).
Lemma buf_bb s0 s o b : bsame s0 s -> wp (buf_put o b) s (fun r s' => match r with OK _ => bsame s0 s' | ER _ => False | ST _ => True end).
Proof.
  intros [En [bf Ej]]. unfold wp, buf_put. cbv zeta. destruct (_ && _); [|done]. cbn. split; [done|]. eexists. by rewrite Ej.
Qed.
Lemma bsame_BBI s s' : bsame s s' -> BBI s -> BBI s'.
Proof. intros [En [bf Ej]] [[] H]. destruct s' as [n j]. cbn in *. subst n j. by split. Qed.

Lemma push_bb s meta : BBI s -> wp (push_meta meta) s (bq false).
Proof.
  intros HB. pose_geo. unfold push_meta. apply wp_bind, wp_gets, wp_bind, wp_gets. cbv zeta.
  pose proof HB as [H0 Hr]. pose proof (bi_head _ H0) as Hhd. pose proof (bi_user _ H0) as Hu.
  rewrite (ni_geo _ (bi_n _ H0)), (bi_ppc _ H0), (lem aligned_grp).
  assert (Hlt1 : (j_head (js_j s) + 1) / PB = j_head (js_j s) / PB /\ (j_head (js_j s) + 1) mod PB <> 0 /\ j_head (js_j s) + 1 < TT).
  { assert (Eg : (j_head (js_j s) + 1) / PC = j_head (js_j s) / PC /\ (j_head (js_j s) + 1) mod PC = j_head (js_j s) mod PC + 1).
    { pose proof (lem slot_range (j_head (js_j s))). unfold Geom.user in Hu. destruct (divmod_add PC (j_head (js_j s)) 1) as [E E']; [lia|lia|done]. }
    destruct Eg as [Eg Eg']. assert (Eb : (j_head (js_j s) + 1) / PB = j_head (js_j s) / PB) by (by apply (lem grp_blk)).
    split; [done|]. split.
    - intros E. apply (lem off_0_slot) in E. pose proof (lem slot_range (j_head (js_j s))). lia.
    - pose proof (hb_range _ H0) as Hh. unfold hb in Hh. rewrite <-Eb in Hh.
      pose proof (lem v_decomp (j_head (js_j s) + 1)). pose proof (lem off_range (j_head (js_j s) + 1)). unfold Geom.TT. nia. }
  destruct Hlt1 as (Eb & Hb & Hlt).
  rewrite w32_small by lia.
  apply wp_bind. eapply wp_mono; [apply (buf_bb s); split; [done|by exists (j_buf (js_j s)); destruct s as [? []]]|].
  intros o s1 Ho. destruct o as [[]|e|x]; [|done|done].
  assert (Hsl : forall s1, bsame s s1 -> BBI s1 /\ j_head (js_j s1) = j_head (js_j s)).
  { intros s' Hs. split; [by eapply bsame_BBI|]. destruct Hs as [_ [bf ->]]. done. }
  destruct (lem nextv_cases (j_head (js_j s)) Hu) as [(F1 & F2 & F3 & F4)|(F1 & F2 & F3 & F4)].
  - assert (E2 : (j_head (js_j s) + 2) mod PC <> 0).
    { unfold nextv in F2. destruct (Z.eqb_spec ((j_head (js_j s) + 2) mod PC) 0); [lia|done]. }
    rewrite (proj2 (Z.eqb_neq _ _) E2). cbn [negb]. apply wp_modify. split; [|done].
    destruct (Hsl _ Ho) as [[[] Hr1] Eh]. unfold bbr, hb in *. rewrite Eh in *. rewrite w32_small by lia.
    split; [split; cbn; auto; try lia|].
    + rewrite <-F2. by apply (lem nextv_user).
    + unfold bbr, hb in *. cbn. by rewrite Eb.
  - assert (E2 : (j_head (js_j s) + 2) mod PC = 0).
    { unfold nextv in F2. destruct (Z.eqb_spec ((j_head (js_j s) + 2) mod PC) 0); [done|lia]. }
    rewrite E2. cbn [Z.eqb negb].
    unfold hdr_put_magic, hdr_set_epoch, hdr_set_tail, hdr_set_bb_current, hdr_set_bb_last.
    do 5 (apply wp_bind; eapply wp_mono; [apply (buf_bb s); exact Ho|]; clear dependent s1; intros o s1 Ho; destruct o as [[]|e|x]; [|done|done]).
    apply wp_bind, wp_gets, wp_bind, wp_attempt. rewrite w32_small by lia.
    destruct (Hsl _ Ho) as [HB1 Eh]. pose proof (bi_n _ (proj1 HB1)) as Hn1.
    unfold io. apply wp_zoom. unfold wp at 1.
    pose proof (ph_prog (j_buf (js_j s1)) (j_head (js_j s) + 1) (js_n s1) Hn1 ltac:(lia)) as Hp. cbn beta in Hp.
    assert (Hgood : forall n', nand_prog (j_head (js_j s) + 1) (j_buf (js_j s1)) (js_n s1) = (OK tt, n') -> fb (hb s) = false).
    { intros n' E. unfold nand_prog in E. cbv zeta in E. destruct (negb _) in E; [done|].
      rewrite (ni_geo _ Hn1), (lem blk_of_PB), Eb in E. fold (hb s) in E.
      destruct (n_bad (js_n s1) (hb s)) eqn:En; [done|]. destruct (fb (hb s)) eqn:Ef; [|done].
      by rewrite (ni_fb _ Hn1 _ Ef) in En. }
    destruct (nand_prog _ _ _) as [o n'] eqn:Ep. cbn [fst snd]. destruct o as [[]|e|x]; [| |done].
    2:{ destruct Hp as (Hn' & He & Hp). 
        unfold recover_from. destruct (decide (e = E_BAD_BLOCK)) as [->|Hne]; [by destruct (Hp eq_refl)|].
        apply wp_bind, wp_gets, wp_bind, wp_gets. rewrite decide_True by done. apply wp_fail. cbn.
        rewrite decide_False by done. split; [by apply BBI_n|done]. }
    specialize (Hgood n' eq_refl).
    apply wp_bind, wp_modify, wp_bind, wp_modify. cbn [js_n js_j put_n].
    assert (Enx : next_upage g c (j_head (js_j s)) = if j_head (js_j s) + 2 =? TT then 0 else j_head (js_j s) + 2).
    { rewrite <-(ph_small g (j_head (js_j s))) at 1 by lia. rewrite (lem next_upage_ph), F2 by (done || lia).
      unfold ph. destruct (Z.eqb_spec (j_head (js_j s) + 2) TT) as [->|]; [apply Z.mod_same; lia|apply Z.mod_small; lia]. }
    cbn [j_head j_ppc set_dirty]. rewrite (bi_ppc _ (proj1 HB1)), Eh, Enx.
    set (h' := if _ =? TT then _ else _).
    apply wp_bind, wp_gets. cbn [js_j j_head set_head].
    set (s2 := Js n' _).
    assert (H2 : BBI (if h' =? 0 then Js n' (roll_stats_j (js_j s2)) else s2)).
    { set (sX := Js n' (set_root (j_head (js_j s)) (set_dirty false (js_j s1)))).
      assert (HBX : BBI sX). { destruct HB1 as [[] Hr1]. by split. }
      assert (EhX : hb sX = hb s). { unfold hb, sX. cbn. by rewrite Eh. }
      pose proof (hb_range _ H0) as Hh.
      destruct (lem nextv_blk (j_head (js_j s)) Hu) as [[G1 G2]|(G1 & G2 & G3 & G4)]; rewrite F2 in *.
      - assert (Hne : j_head (js_j s) + 2 < TT).
        { unfold hb in Hh. rewrite <-G1 in Hh. pose proof (lem v_decomp (j_head (js_j s) + 2)).
          pose proof (lem off_range (j_head (js_j s) + 2)). unfold Geom.TT. nia. }
        assert (h' = j_head (js_j s) + 2) as Eh'. { unfold h'. destruct (Z.eqb_spec (j_head (js_j s) + 2) TT); [lia|done]. }
        destruct (Z.eqb_spec h' 0); [lia|]. destruct HBX as [[] HrX]. split; [split; cbn; auto; try lia|].
        + rewrite Eh'. unfold Geom.user. rewrite <-F2 in *. lia.
        + unfold bbr, hb in *. cbn. rewrite Eh', G1. rewrite EhX in HrX. exact HrX.
      - assert (Eh' : h' = if hb sX + 1 =? NB then 0 else (hb sX + 1) * PB).
        { rewrite EhX. unfold h'. pose proof (lem v_decomp (j_head (js_j s) + 2)) as Hd. rewrite G1, G2 in Hd. fold (hb s) in Hd.
          rewrite Hd, Z.add_0_r. unfold Geom.TT. destruct (Z.eqb_spec (hb s + 1) NB) as [E|E].
          - by rewrite E, Z.eqb_refl.
          - destruct (Z.eqb_spec ((hb s + 1) * PB) (NB * PB)); [nia|done]. }
        destruct (bb_next sX (js_j s2)) as [HB2 _].
        + apply HBX.
        + rewrite EhX. destruct Hr as [Hr1 Hr2]. rewrite (cnt_split fb 0 (hb s)), (cnt_split weak 0 (hb s)), !cnt_one by lia.
          rewrite Hgood. replace (j_bbc (js_j sX)) with (j_bbc (js_j s)); [destruct (weak (hb s)); lia|].
          unfold sX. cbn. destruct Ho as [_ [bf ->]]. done.
        + rewrite <-Eh'. done.
        + change (j_head (js_j s2)) with h' in HB2. by destruct (h' =? 0). }
    assert (Hfin : forall s3, BBI s3 -> wp (let! enum_done := getj j_enum in (if enum_done then finish_recovery else ret ());;;
        (let! j := getj (fun j => j) in if negb (j_recov j) then modj (set_tsync (j_tail j)) else ret ())) s3 (bq false)).
    { intros s3 H3. apply wp_bind, wp_gets. rewrite (bi_enum _ (proj1 H3)). eapply wp_bind_ok; [reflexivity|].
      apply wp_bind, wp_gets. rewrite (bi_recov _ (proj1 H3)). cbn [negb]. apply wp_modify. split; [|done].
      destruct H3 as [[] H3']. by split. }
    apply wp_bind. destruct (Z.eqb_spec h' 0) as [Ez|Ez].
    + apply wp_modify. by apply Hfin.
    + apply wp_ret. by apply Hfin.
Qed.

Lemma append_bb i prog meta : phead prog -> forall s, BBI s -> wp (append_loop i prog meta) s (bq false).
Proof.
  intros Hp. induction i as [|i IH]; intros s HB; cbn [append_loop]; [apply wp_fail; by apply bq_err|].
  apply wp_bind, wp_attempt, wp_bind. eapply wp_mono; [by apply prepare_bb|]. intros o s1 Ho.
  assert (Hrec : forall e s1, bq false (ER e : out unit) s1 -> wp (recover_from e;;; append_loop i prog meta) s1 (bq false)).
  { clear s1 Ho. intros e s1 Ho. cbn in Ho. apply wp_bind. destruct (decide (e = E_BAD_BLOCK)) as [->|Hne].
    - rewrite decide_False in Ho by done. destruct Ho as [HB1 Hw]. eapply wp_mono; [by apply recover_bb; auto|].
      intros o' s2 Ho2. destruct o' as [[]|e|x]; [|exact Ho2|done]. apply IH, Ho2.
    - unfold recover_from. apply wp_bind, wp_gets, wp_bind, wp_gets. rewrite decide_True by done. apply wp_fail.
      destruct (decide (e = E_JOURNAL_FULL)) as [->|Hj]; [apply bq_full|]. apply bq_err; [|done]. apply Ho. }
  destruct o as [[]|e|x]; [|by apply Hrec|done]. destruct Ho as [HB1 _].
  apply wp_bind, wp_gets. unfold io. apply wp_zoom. unfold wp at 1.
  pose proof (Hp (j_head (js_j s1)) (js_n s1) (bi_n _ (proj1 HB1)) (bi_head _ (proj1 HB1))) as Hq.
  destruct (prog _ _) as [[[]|e|x] n']; cbn [fst snd]; [| |done].
  - apply push_bb. by apply BBI_n.
  - apply Hrec. destruct Hq as (Hn' & He & Hq). apply bq_err; [by apply BBI_n|]. intros E. by apply Hq.
Qed.
Lemma enqueue_bb d m s : BBI s -> wp (journal_enqueue d m) s (bq false).
Proof. apply append_bb. destruct d; [apply ph_prog|apply ph_none]. Qed.
Lemma copy_bb p m s : BBI s -> wp (journal_copy p m) s (bq false).
Proof. apply append_bb, ph_copy. Qed.

(** ** The capacity *)
Context (He0p : 0 <= e0) (HE1N : E1 < NB) (rr : Z) (Hrr : 1 <= rr <= 255).
(** User pages in a block; capacity with [m] blocks set aside as bad, and what a map
    with GC ratio [rr] offers of it. *)
Definition upbk : Z := 2 ^ (g_lppb g - c) * (2 ^ c - 1).
Definition jcap (m : Z) : Z := (NB - m - 1) * upbk.
Definition mcap (m : Z) : Z := Z.max 0 (jcap m - jcap m / (rr + 1) - 8 * PB).
Lemma upbk_pos : 2 <= upbk < PB.
Proof.
  pose_geo. unfold upbk. change (2 ^ (g_lppb g - c)) with (GP g c). change (2 ^ c) with PC.
  rewrite HPBdef. nia.
Qed.
Lemma jcap_eq s : BBI s -> exists m, e0 <= m <= E1 /\ journal_capacity g (js_j s) = jcap m /\ 0 <= jcap m < TT.
Proof.
  intros [H0 [Hr1 Hr2]]. pose_geo. pose proof upbk_pos. pose proof (hb_range _ H0) as Hh.
  pose proof (cnt_nonneg fb 0 (hb s)). pose proof (cnt_sub weak 0 (hb s) 0 NB ltac:(lia) ltac:(lia)).
  set (m := Z.max (j_bbc (js_j s)) (j_bbl (js_j s))).
  pose proof (bi_bbl _ H0) as Hbl. exists m. split; [lia|].
  assert (Hj : 0 <= jcap m < TT). { unfold jcap, Geom.TT. nia. }
  split; [|done]. unfold journal_capacity. cbv zeta.
  replace (if j_bbc (js_j s) <? j_bbl (js_j s) then j_bbl (js_j s) else j_bbc (js_j s)) with m
    by (unfold m; destruct (Z.ltb_spec (j_bbc (js_j s)) (j_bbl (js_j s))); lia).
  rewrite (bi_ppc _ H0). fold NB. rewrite (w32_small (NB - m - 1)) by (unfold Geom.TT in *; nia).
  rewrite !Z.shiftl_mul_pow2 by (pose proof (go_c _ _ Hg); lia).
  change (2 ^ (g_lppb g - c)) with (GP g c). change (2 ^ c) with PC.
  assert (Hk : 0 <= (NB - m - 1) * GP g c * PC < TT). { unfold Geom.TT. rewrite HPBdef. nia. }
  rewrite (w32_small ((NB - m - 1) * GP g c)) by nia. rewrite (w32_small ((NB - m - 1) * GP g c * PC)) by lia.
  assert (E : (NB - m - 1) * GP g c * PC - (NB - m - 1) * GP g c = jcap m).
  { unfold jcap, upbk. change (2 ^ (g_lppb g - c)) with (GP g c). change (2 ^ c) with PC. lia. }
  rewrite E. apply w32_small. lia.
Qed.
Lemma mcap_mono m m' : m <= m' -> mcap m' <= mcap m.
Proof.
  intros H. pose proof upbk_pos. unfold mcap. assert (Hj : jcap m' <= jcap m) by (unfold jcap; nia).
  assert (Hd : jcap m / (rr + 1) <= jcap m' / (rr + 1) + (jcap m - jcap m')).
  { replace (jcap m) with (jcap m' + (jcap m - jcap m')) at 1 by lia.
    rewrite <-(Z.div_add _ (jcap m - jcap m')) by lia. apply Z.div_le_mono; [lia|]. nia. }
  lia.
Qed.
Lemma map_capacity_eq s : BBI (m_js s) -> m_gcr s = rr -> exists m, e0 <= m <= E1 /\ map_capacity s = mcap m.
Proof.
  intros HB Er. destruct (jcap_eq _ HB) as (m & Hm & Ej & Hjr). exists m. split; [done|]. pose_geo.
  unfold map_capacity. cbv zeta. destruct HB as [H0 _]. rewrite (ni_geo _ (bi_n _ H0)), Ej, Er.
  rewrite (lem shiftl_blk). change (Z.of_nat MAX_RETRIES) with 8.
  pose proof (Z.div_pos (jcap m) (rr + 1) ltac:(lia) ltac:(lia)).
  assert (jcap m / (rr + 1) <= jcap m) by (apply Z.div_le_upper_bound; nia).
  rewrite (w32_small (8 * PB)) by (unfold Geom.TT in *; nia).
  rewrite (w32_small (jcap m / (rr + 1) + 8 * PB)) by (unfold Geom.TT in *; nia). unfold mcap.
  destruct (Z.leb_spec (jcap m) (jcap m / (rr + 1) + 8 * PB)); [lia|]. rewrite w32_small; lia.
Qed.
Lemma map_capacity_bb s : BBI (m_js s) -> m_gcr s = rr -> mcap E1 <= map_capacity s <= mcap e0.
Proof.
  intros HB Er. destruct (map_capacity_eq s HB Er) as (m & Hm & ->). split; apply mcap_mono; lia.
Qed.
End bb.
