(** What an append leaves behind: the flag "dirty" is up unless it wrote a
    checkpoint, and a checkpoint records the bad-block counters (see Bb.v).  Used by
    Space.v.  Nothing here models code. *)
From stdpp Require Import gmap.
From Verif Require Import Base Bytes BytesLemmas Wp Nand Journal MapModel Geom Tree Inv Hdr StepDI StepNand StepJ Cnt Bb.
Local Open Scope Z_scope.

(** ** The flag *)
Notation dirtyj s := (j_dirty (js_j s)).
Definition kdj {A} (m : MJ A) : Prop := forall s, dirtyj s = true -> dirtyj (snd (m s)) = true.
Lemma kd_ret {A} (a : A) : kdj (ret a). Proof. by intros s. Qed.
Lemma kd_fail {A} e : kdj (A:=A) (fail e). Proof. by intros s. Qed.
Lemma kd_getj {A} (f : journal -> A) : kdj (getj f). Proof. by intros s. Qed.
Lemma kd_getg : kdj getg. Proof. by intros s. Qed.
Lemma kd_modj f : (forall j, j_dirty j = true -> j_dirty (f j) = true) -> kdj (modj f). Proof. intros H s HB. by apply H. Qed.
Lemma kd_buf_put o b : kdj (buf_put o b).
Proof. intros s H. unfold buf_put. by destruct (_ && _). Qed.
Lemma kd_buf_get o b : kdj (buf_get o b).
Proof. intros s H. unfold buf_get. by destruct (_ && _). Qed.
Lemma kd_bind {A B} (m : MJ A) (f : A -> MJ B) : kdj m -> (forall a, kdj (f a)) -> kdj (bind m f).
Proof.
  intros Hm Hf s H. specialize (Hm s H). unfold bind. destruct (m s) as [[a|e|x] s']; [|done|done].
  by apply Hf.
Qed.
Lemma kd_attempt {A} (m : MJ A) : kdj m -> kdj (attempt m).
Proof. intros Hm s H. specialize (Hm s H). unfold attempt. by destruct (m s) as [[a|e|x] s']. Qed.
Lemma kd_io {A} (m : M nand A) : kdj (io m).
Proof. intros s H. unfold io, zoom. by destruct (m (js_n s)). Qed.
Create HintDb kd.
#[local] Hint Resolve kd_ret kd_fail kd_getj kd_getg kd_buf_put kd_buf_get kd_io : kd.
#[local] Hint Extern 3 (kdj (modj _)) => (apply kd_modj; intros ? ?; first [assumption | reflexivity]) : kd.
Ltac kd := repeat (cbn beta; first
  [ solve [auto with kd]
  | apply kd_bind; [|intros ?]
  | apply kd_attempt
  | match goal with |- kdj (match ?x with _ => _ end) => destruct x end ]).
Lemma d_roll_stats : kdj roll_stats. Proof. unfold roll_stats. kd. Qed.
#[local] Hint Resolve d_roll_stats : kd.
Lemma d_skip_block : kdj skip_block. Proof. unfold skip_block. kd. Qed.
#[local] Hint Resolve d_skip_block : kd.
Lemma d_prep_loop i : kdj (prepare_head_loop i).
Proof. induction i; cbn [prepare_head_loop]; kd. Qed.
#[local] Hint Resolve d_prep_loop : kd.
Lemma d_prepare : kdj prepare_head. Proof. unfold prepare_head. kd. Qed.
#[local] Hint Resolve d_prepare : kd.
Lemma d_restart_recovery h : kdj (restart_recovery h). Proof. unfold restart_recovery. kd. Qed.
Lemma d_dump_meta_loop i : kdj (dump_meta_loop i).
Proof. induction i; cbn [dump_meta_loop]; kd. Qed.
#[local] Hint Resolve d_restart_recovery d_dump_meta_loop : kd.
Lemma d_recover e : kdj (recover_from e).
Proof. unfold recover_from, dump_meta. kd. Qed.
#[local] Hint Resolve d_recover : kd.

Lemma prepare_dirty s : wp prepare_head s (fun o s' => match o with ER e => e <> E_JOURNAL_FULL -> dirtyj s' = true | _ => dirtyj s' = true end).
Proof.
  unfold prepare_head. apply wp_bind, wp_gets, wp_bind, wp_gets. cbv zeta.
  destruct (_ && _); [by apply wp_fail|]. apply wp_bind, wp_modify. cbn [js_n js_j].
  destruct (negb _); [by apply wp_ret|]. set (s1 := Js _ _).
  unfold wp. match goal with |- context [prepare_head_loop ?i s1] => pose proof (d_prep_loop i s1 eq_refl) as H; destruct (prepare_head_loop i s1) as [[?|?|?] ?] end; cbn in *; auto.
Qed.

Section ckpt.
Context (g : geo) (c : Z) (Hg : geo_ok g c) (weak fb : Z -> bool) (e0 E1 : Z).
Notation PB := (PB g).
Notation PC := (PC c).
Notation NB := (NB g).
Notation TT := (TT g).
Notation user := (user c).
Notation "'lem' x" := (x g c Hg) (at level 9, x at level 8, only parsing).
Ltac pose_geo :=
  pose proof (PC_ge _ _ Hg) as HPC4; pose proof (PC_le _ _ Hg) as HPC256;
  pose proof (PB_pos _ _ Hg) as HPB4; pose proof (PB_ge _ _ Hg) as HPBC;
  pose proof (NB_ge _ _ Hg) as HNB8; pose proof (TT_le _ _ Hg) as HTT31;
  pose proof (TT_pos _ _ Hg) as HTTpos; pose proof (GP_ge _ _ Hg) as HGP1;
  pose proof (PB_def _ _ Hg) as HPBdef.
Context (He0 : e0 <= cnt fb 0 NB) (HE1 : cnt weak 0 NB <= E1) (He0p : 0 <= e0) (HE1N : E1 < NB).
Notation BBI := (BBI g c weak fb e0 E1).
Notation phead := (phead g weak fb).

(** The header of the checkpoint that follows the root. *)
Definition ckh (s : js) : Prop := exists d, n_cell (js_n s) (j_root (js_j s) + 1) = Data d /\
  e0 <= hdr_get_bb_last d <= E1 /\ fb (j_root (js_j s) / PB) = false /\
  cnt fb 0 (j_root (js_j s) / PB) <= hdr_get_bb_current d <= cnt weak 0 (j_root (js_j s) / PB).
Definition cq (o : out unit) (s : js) : Prop :=
  match o with
  | OK _ => dirtyj s = false -> ckh s
  | ER e => e <> E_JOURNAL_FULL -> dirtyj s = true
  | ST _ => True
  end.

Lemma buf_len o b s : wp (buf_put o b) s (fun r s' => match r with
  | OK _ => o + blen b <= blen (j_buf (js_j s)) /\ bsame s s' /\ blen (j_buf (js_j s')) = blen (j_buf (js_j s))
  | ER _ => False | ST _ => True end).
Proof.
  unfold wp, buf_put. cbv zeta. destruct (Z.leb_spec 0 o) as [E1'|]; [|done].
  destruct (Z.leb_spec (o + blen b) (blen (j_buf (js_j s)))) as [E2|]; [|done]. cbn.
  split; [done|]. split; [split; [done|by eexists]|]. apply blen_splice; done.
Qed.
Lemma hdr_len e t bc bl {A} (k : MJ A) s (Q : out A -> js -> Prop) :
  (16 <= blen (j_buf (js_j s)) -> wp k (Js (js_n s) (set_buf (mk_cp (j_buf (js_j s)) e t bc bl) (js_j s))) Q) ->
  (forall x s', Q (ST x) s') ->
  wp (hdr_put_magic;;; hdr_set_epoch e;;; hdr_set_tail t;;; hdr_set_bb_current bc;;; hdr_set_bb_last bl;;; k) s Q.
Proof.
  intros Hk HQ. destruct (Z.le_gt_cases 16 (blen (j_buf (js_j s)))) as [Hl|Hl].
  { unfold wp at 1. rewrite put_hdr_ok by done. by apply Hk. }
  unfold hdr_put_magic, hdr_set_epoch, hdr_set_tail, hdr_set_bb_current, hdr_set_bb_last.
  remember (blen (j_buf (js_j s))) as L eqn:EL.
  do 5 (apply wp_bind; eapply wp_mono; [apply buf_len|]; let o := fresh "o" in let s1 := fresh "s1" in
    intros o s1 Ho; destruct o as [[]|?|?]; [|done|by apply HQ];
    let H1 := fresh "H1" in let H2 := fresh "H2" in destruct Ho as (H1 & _ & H2); rewrite <-EL in H1, H2; clear EL; rename H2 into EL; symmetry in EL;
    rewrite ?blen_w32_bytes in H1).
  lia.
Qed.

Lemma nextg s : BB0 g c weak fb e0 E1 s ->
  (j_head (js_j s) + 1) / PB = j_head (js_j s) / PB /\ j_head (js_j s) + 2 <= TT.
Proof.
  intros H0. pose_geo. pose proof (bi_head _ _ _ _ _ _ _ H0) as Hhd. pose proof (bi_user _ _ _ _ _ _ _ H0) as Hu.
  assert (Eg : (j_head (js_j s) + 1) / PC = j_head (js_j s) / PC).
  { pose proof (lem slot_range (j_head (js_j s))). unfold Geom.user in Hu. destruct (divmod_add PC (j_head (js_j s)) 1) as [E E']; [lia|lia|done]. }
  assert (Eb : (j_head (js_j s) + 1) / PB = j_head (js_j s) / PB) by (by apply (lem grp_blk)).
  split; [done|]. pose proof (hb_range g c Hg weak fb e0 E1 _ H0) as Hh. unfold hb in Hh. rewrite <-Eb in Hh.
  pose proof (lem v_decomp (j_head (js_j s) + 1)). pose proof (lem off_range (j_head (js_j s) + 1)). unfold Geom.TT. nia.
Qed.

Lemma push_ck s meta : BBI s -> dirtyj s = true -> wp (push_meta meta) s cq.
Proof.
  intros HB Hd. pose_geo. pose proof HB as [H0 Hr]. pose proof (bi_n _ _ _ _ _ _ _ H0) as Hn.
  pose proof (bi_head _ _ _ _ _ _ _ H0) as Hhd. destruct (nextg s H0) as [Eb Hlt].
  pose proof (hb_range g c Hg weak fb e0 E1 _ H0) as Hh.
  unfold push_meta. apply wp_bind, wp_gets, wp_bind, wp_gets. cbv zeta.
  apply wp_bind. eapply wp_mono; [apply buf_len|]. intros o s1 Ho. destruct o as [[]|e|x]; [|done|done].
  destruct Ho as (_ & (En1 & bf & Ej1) & _).
  destruct (negb _).
  { apply wp_modify. cbn. rewrite Ej1. cbn. congruence. }
  apply hdr_len; [|done]. intros Hl. apply wp_bind, wp_gets, wp_bind, wp_attempt.
  cbn [js_n js_j]. set (buf := mk_cp _ _ _ _ _).
  change (j_buf (set_buf buf (js_j s1))) with buf.
  unfold io. apply wp_zoom. cbn [js_n js_j]. unfold wp at 1.
  destruct (nand_prog _ _ _) as [o n'] eqn:Ep. cbn [fst snd]. destruct o as [[]|e|x]; [| |done].
  2:{ match goal with |- wp (recover_from e) ?s2 _ => pose proof (d_recover e s2) as Hx; unfold wp; destruct (recover_from e s2) as [[?|?|?] s3] eqn:Er end; cbn in Hx |- *; rewrite Ej1 in Hx; cbn in Hx; specialize (Hx Hd).
      - congruence.
      - done.
      - done. }
  assert (Hp : n_cell n' (j_head (js_j s) + 1) = Data buf /\ n_bad n' = n_bad (js_n s) /\ n_bad (js_n s) (hb g s) = false).
  { unfold nand_prog in Ep. cbv zeta in Ep. rewrite En1, (ni_geo _ _ _ _ Hn), w32_small in Ep by lia.
    destruct (negb _) in Ep; [done|]. destruct (n_bad (js_n s) (blk_of g _)) eqn:Ebd; [done|].
    rewrite (lem blk_of_PB), Eb in Ebd. destruct (negb _) in Ep; [done|]. destruct (negb _) in Ep; [done|].
    destruct (n_orc _ _ _); [|done|done]. injection Ep as <-. cbn. unfold upd. rewrite Z.eqb_refl. unfold written.
    unfold buf at 1. rewrite all_ff_mk_cp, andb_false_r by done. done. }
  destruct Hp as (Hp1 & Hp2 & Hp3).
  assert (Hfb : fb (hb g s) = false).
  { destruct (fb (hb g s)) eqn:Ef; [|done]. rewrite (ni_fb _ _ _ _ Hn _ Ef) in Hp3. done. }
  set (QQ := fun x : js => j_root (js_j x) = j_head (js_j s) /\ js_n x = n' /\ j_enum (js_j x) = false /\ j_recov (js_j x) = false).
  assert (Hfin : forall s3, QQ s3 ->
      wp (let! enum_done := getj j_enum in (if enum_done then finish_recovery else ret ());;;
        (let! j := getj (fun j => j) in if negb (j_recov j) then modj (set_tsync (j_tail j)) else ret ())) s3 cq).
  { intros s3 (E1' & E2 & E3 & E4). apply wp_bind, wp_gets. rewrite E3. eapply wp_bind_ok; [reflexivity|].
    apply wp_bind, wp_gets. rewrite E4. cbn [negb]. apply wp_modify. intros _. exists buf. cbn. rewrite E1', E2.
    split; [done|]. fold (hb g s). unfold buf. rewrite bbc_mk_cp, bbl_mk_cp by done.
    pose proof (bi_bbl _ _ _ _ _ _ _ H0) as Hbl. unfold bbr in Hr. pose proof (cnt_nonneg fb 0 (hb g s)).
    pose proof (cnt_bound weak 0 (hb g s) ltac:(lia)).
    assert (NB < 2 ^ 31) by (unfold Geom.TT in *; nia).
    rewrite !w32_small by lia. done. }
  apply wp_bind, wp_modify, wp_bind, wp_modify. cbn [js_n js_j put_n].
  apply wp_bind, wp_gets. match goal with |- context [if ?b then roll_stats else _] => destruct b end.
  - apply wp_bind. unfold roll_stats. apply wp_modify. apply Hfin. unfold QQ. cbn. rewrite Ej1. split_and!; [done|done|apply H0|apply H0].
  - apply wp_bind, wp_ret. apply Hfin. unfold QQ. cbn. rewrite Ej1. split_and!; [done|done|apply H0|apply H0].
Qed.

Lemma append_ck i prog meta : phead prog -> forall s, BBI s -> (i = O -> dirtyj s = true) -> wp (append_loop i prog meta) s cq.
Proof.
  intros Hp. induction i as [|i IH]; intros s HB Hi; cbn [append_loop]; [apply wp_fail; intros _; by apply Hi|].
  apply wp_bind, wp_attempt, wp_bind.
  eapply wp_mono; [apply wp_conj; [by apply (prepare_bb g c Hg weak fb e0 E1)|apply prepare_dirty]|]. intros o s1 [Ho Hd].
  assert (Hrec : forall e s1, bq g c weak fb e0 E1 false (ER e : out unit) s1 -> (e <> E_JOURNAL_FULL -> dirtyj s1 = true) ->
     wp (recover_from e;;; append_loop i prog meta) s1 cq).
  { clear s1 Ho Hd. intros e s1 Ho Hd. cbn in Ho. apply wp_bind. destruct (decide (e = E_BAD_BLOCK)) as [->|Hne].
    - rewrite decide_False in Ho by done. destruct Ho as [HB1 Hw]. specialize (Hd ltac:(done)).
      pose proof (d_recover E_BAD_BLOCK s1 Hd) as Hd2.
      pose proof (recover_bb g c Hg weak fb e0 E1 He0 HE1 s1 HB1 (Hw eq_refl)) as H2. unfold wp in H2 |- *.
      destruct (recover_from E_BAD_BLOCK s1) as [[[]|e|x] s2]; cbn [fst snd] in *; [|intros _; exact Hd2|done].
      apply IH; [apply H2|done].
    - unfold recover_from. apply wp_bind, wp_gets, wp_bind, wp_gets. rewrite decide_True by done. apply wp_fail. done. }
  destruct o as [[]|e|x]; [|by apply Hrec|done]. destruct Ho as [HB1 _].
  apply wp_bind, wp_gets. unfold io. apply wp_zoom. unfold wp at 1.
  pose proof (Hp (j_head (js_j s1)) (js_n s1) (bi_n _ _ _ _ _ _ _ (proj1 HB1)) (bi_head _ _ _ _ _ _ _ (proj1 HB1))) as Hq.
  destruct (prog _ _) as [[[]|e|x] n']; cbn [fst snd]; [| |done].
  - apply push_ck; [by apply BBI_n|done].
  - apply Hrec; [|done]. destruct Hq as (Hn' & He & Hq). apply bq_err; [by apply BBI_n|]. intros E. by apply Hq.
Qed.
Lemma enqueue_ck d m s : BBI s -> wp (journal_enqueue d m) s cq.
Proof. intros H. apply append_ck; [|done|done]. destruct d; [apply ph_prog|apply ph_none]. Qed.
Lemma copy_ck p m s : BBI s -> wp (journal_copy p m) s cq.
Proof. intros H. apply append_ck; [apply ph_copy|done|done]. Qed.
End ckpt.
