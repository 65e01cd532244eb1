(** The append path of the journal: prepare_head, push_meta, enqueue, copy. *)
From stdpp Require Import gmap.
From Verif Require Import Base Bytes BytesLemmas Wp Nand Journal Geom Tree Inv Hdr StepDI StepNand.
Local Open Scope Z_scope.

(** Fields that preparing the head page does not touch. *)
Record jrest (j j' : journal) : Prop := {
  jr_buf : j_buf j' = j_buf j;
  jr_ppc : j_ppc j' = j_ppc j;
  jr_recov : j_recov j' = j_recov j;
  jr_enum : j_enum j' = j_enum j;
  jr_tsync : j_tsync j' = j_tsync j;
  jr_tail : j_tail j' = j_tail j;
  jr_root : j_root j' = j_root j;
  jr_rmeta : j_rmeta j' = j_rmeta j;
  jr_dirty : j_dirty j = true -> j_dirty j' = true
}.
Lemma jrest_refl j : jrest j j. Proof. by split. Qed.
Lemma jrest_trans j1 j2 j3 : jrest j1 j2 -> jrest j2 j3 -> jrest j1 j3.
Proof. intros [] []. split; first [congruence|auto]. Qed.

Lemma mod_add_self a n : n <> 0 -> (a + n) mod n = a mod n.
Proof. intros. replace (a + n) with (a + 1 * n) by lia. by apply Z.mod_add. Qed.

Section stepj.
Context (g : geo) (c : Z) (Hg : geo_ok g c) (weak : Z -> bool) (Hdense : dense g weak).
Notation PB := (PB g).
Notation PC := (PC c).
Notation NB := (NB g).
Notation TT := (TT g).
Notation ph := (ph g).
Notation user := (user c).
Notation nextv := (nextv c).
Notation cpv := (cpv c).
Notation cellv := (cellv g).
Notation badv := (badv g).
Notation cell_ep := (cell_ep g).
Notation blk_ep := (blk_ep g c).
Notation epo := (epo g).
Notation moff := (moff c).
Notation kmeta := (kmeta g c).
Notation kd_ok := (kd_ok g c).
Notation DI := (DI g c).
Notation nok := (nok g weak).
Notation JInv := (JInv g c).
Notation JI := (JI g c weak).

Ltac pose_geo :=
  pose proof (PC_ge _ _ Hg) as HPC4; pose proof (PC_le _ _ Hg) as HPC256;
  pose proof (PB_pos _ _ Hg) as HPB4; pose proof (PB_ge _ _ Hg) as HPBC;
  pose proof (NB_ge _ _ Hg) as HNB8; pose proof (TT_le _ _ Hg) as HTT31;
  pose proof (TT_pos _ _ Hg) as HTTpos.
Notation "'lem' x" := (x g c Hg) (at level 9, x at level 8, only parsing).

Lemma blk_mod_small b : 0 <= b mod NB * PB < TT.
Proof.
  pose_geo. pose proof (Z.mod_pos_bound b NB ltac:(lia)). unfold Geom.TT. nia.
Qed.
Lemma w32_blk b : w32 (Z.shiftl (b mod NB) (g_lppb g)) = ph (b * PB).
Proof.
  rewrite (lem shiftl_blk), (lem blk_start_ph). apply w32_small.
  pose proof (blk_mod_small b). pose_geo. lia.
Qed.
Lemma ph_start_0 b : ph (b * PB) = 0 <-> b mod NB = 0.
Proof. rewrite (lem blk_start_ph). pose_geo. nia. Qed.

(** ** skip_block *)
Lemma skip_block_spec s hv sv :
  n_geo (js_n s) = g -> j_head (js_j s) = ph hv -> j_tsync (js_j s) = ph sv ->
  j_epoch (js_j s) = epo (hv / PB) -> sv / PB <= hv / PB < sv / PB + NB ->
  wp skip_block s (fun o s' => match o with
    | OK _ => js_n s' = js_n s /\ jrest (js_j s) (js_j s') /\
        j_dirty (js_j s') = j_dirty (js_j s) /\
        j_head (js_j s') = ph ((hv / PB + 1) * PB) /\
        j_epoch (js_j s') = epo (hv / PB + 1) /\ hv / PB + 1 < sv / PB + NB
    | ER e => e = E_JOURNAL_FULL /\ s' = s
    | ST _ => False
    end).
Proof.
  intros Eg Eh Et Ee Hb. pose_geo.
  unfold skip_block, wp, bind, getg, getj, modj, gets, modify. rewrite Eg, Eh, Et.
  rewrite !(lem shiftr_blk), !(lem ph_blk), (lem next_block_ph).
  destruct (Z.eqb_spec ((sv / PB) mod NB) ((hv / PB + 1) mod NB)) as [E|Hne]; [done|].
  assert (Hlt : hv / PB + 1 < sv / PB + NB).
  { destruct (Z.eq_dec (hv / PB + 1) (sv / PB + NB)) as [E|]; [|lia]. exfalso. apply Hne.
    rewrite E. by rewrite mod_add_self by lia. }
  cbn [js_j js_n]. rewrite w32_blk. change (j_head (set_head (ph ((hv / PB + 1) * PB)) (js_j s)))
    with (ph ((hv / PB + 1) * PB)).
  destruct (Z.eqb_spec (ph ((hv / PB + 1) * PB)) 0) as [E|E]; rewrite ph_start_0 in E.
  - unfold roll_stats, modj, modify. cbn. split_and!; auto; [by split|].
    rewrite Ee. symmetry. by apply (lem epo_succ).
  - cbn. split_and!; auto; [by split|]. rewrite Ee. symmetry. by apply (lem epo_same).
Qed.

(** ** Moving the head from block start to block start *)
Lemma JInv_move s s' hv hv' tv sv K :
  JInv s hv tv sv K -> hv mod PB = 0 -> hv' mod PB = 0 -> hv <= hv' ->
  hv' / PB < sv / PB + NB ->
  jrest (js_j s) (js_j s') -> j_head (js_j s') = ph hv' -> j_epoch (js_j s') = epo (hv' / PB) ->
  (forall b, sv / PB <= b < hv / PB -> badv (js_n s') b = badv (js_n s) b) ->
  (forall u, sv / PB <= u / PB < hv / PB -> cellv (js_n s') u = cellv (js_n s) u) ->
  JInv s' hv' tv sv K.
Proof.
  intros [] Ha Ha' Hle Hfull [] Eh Ee Hbad Hcell. pose_geo.
  assert (Hslot : hv mod PC = 0) by by apply (lem off_0_slot).
  assert (Hslot' : hv' mod PC = 0) by by apply (lem off_0_slot).
  split; try congruence; try lia; auto.
  { intros p d m Hp. destruct (ji_K p d m Hp) as (v & [] & Hd & Hm).
    assert (Hvb : sv / PB <= v / PB < hv / PB).
    { split; [apply (lem blk_le); lia|].
      pose proof (lem v_decomp hv). pose proof (lem v_decomp v). pose proof (lem off_range v). nia. }
    assert (Hvg : v / PC <> hv / PC).
    { pose proof (Z.div_mod hv PC ltac:(lia)). pose proof (Z.div_mod v PC ltac:(lia)).
      pose proof (lem slot_range v). nia. }
    assert (Hvg' : v / PC <> hv' / PC).
    { pose proof (Z.div_mod hv' PC ltac:(lia)). pose proof (Z.div_mod v PC ltac:(lia)).
      pose proof (lem slot_range v). nia. }
    exists v. rewrite decide_False in Hm by done. rewrite decide_False by done.
    split_and!; auto.
    + split; auto; [lia|by rewrite Hbad|by rewrite Hcell].
    + destruct Hm as (cd & H1 & H2). exists cd. split; [|done]. rewrite Hcell; [done|].
      destruct (lem cpv_facts v) as (_ & _ & ->). done. }
Qed.

(** Head position ready to be programmed. *)
Record Ready (s : js) (hv tv sv : Z) (K : kmap) (D : dsk) : Prop := {
  rd_ji : JI s hv tv sv K D;
  rd_dirty : j_dirty (js_j s) = true;
  rd_good : badv (js_n s) (hv / PB) = false;
  rd_free : forall u, hv <= u -> u / PB = hv / PB -> cellv (js_n s) u = Free;
  rd_next : nextv hv / PB < sv / PB + NB
}.

Definition crashed (n : nand) (D : dsk) : Prop :=
  nok n /\ exists hv sv, DI n hv sv D.

Lemma aligned_cb n hv sv D : DI n hv sv D -> hv mod PB = 0 -> cv D / PB < hv / PB.
Proof.
  intros [] Ha. pose_geo. destruct (Z.lt_ge_cases (cv D / PB) (hv / PB)) as [|Hge]; [done|].
  apply (lem blk_ge_start) in Hge. pose proof (lem v_decomp hv). lia.
Qed.

Lemma sv_le_hb s hv tv sv K : JInv s hv tv sv K -> sv / PB <= hv / PB.
Proof. intros []. apply (lem blk_le). lia. Qed.

Lemma JI_dirty_clean s K D : j_dirty (js_j s) = true -> cleanI g s K D.
Proof. intros H E. congruence. Qed.

Lemma JI_dirty s hv tv sv K D : nok (js_n s) -> JInv s hv tv sv K -> DI (js_n s) hv sv D ->
  j_dirty (js_j s) = true -> JI s hv tv sv K D.
Proof. intros. split; [done..|]. by apply JI_dirty_clean. Qed.

(** One of the [i] blocks from [b] on never fails. *)
Definition goodin (b i : Z) : Prop := exists G, b <= G < b + i /\ weak (G mod NB) = false.
(** All blocks from [a] to [b] may fail. *)
Definition allweak (a b : Z) : Prop := forall x, a <= x <= b -> weak (x mod NB) = true.
Lemma goodin_step a b i : goodin a i -> allweak a b -> goodin (b + 1) (i - 1 - (b - a)).
Proof.
  intros (G & HG & Hw) Ha. exists G. split; [|done].
  destruct (Z.le_gt_cases G b); [|lia]. rewrite Ha in Hw by lia. done.
Qed.
Lemma goodin_mono a i i' : goodin a i -> i <= i' -> goodin a i'.
Proof. intros (G & HG & Hw) Ha. exists G. split; [lia|done]. Qed.
Lemma allweak_cons a b : weak (a mod NB) = true -> allweak (a + 1) b -> allweak a b.
Proof. intros H1 H2 x Hx. destruct (Z.eq_dec x a) as [->|]; [done|]. apply H2. lia. Qed.
Lemma allweak_1 a : weak (a mod NB) = true -> allweak a a.
Proof. intros H1 x Hx. by replace x with a by lia. Qed.

Lemma retry_good b : goodin b (Z.of_nat MAX_RETRIES).
Proof.
  destruct (Hdense b) as (i & k & Hi & Hk & Hw & _). exists (b + i).
  split; [|done]. unfold MAX_RETRIES. lia.
Qed.

(** The outcome of preparing an aligned head. *)
Definition prep_post hv tv sv K D (s : js) (o : out unit) (s' : js) : Prop :=
  match o with
  | OK _ => exists hv', hv <= hv' /\ Ready s' hv' tv sv K D /\ hv' mod PB = 0 /\ jrest (js_j s) (js_j s') /\
      allweak (hv / PB) (hv' / PB - 1)
  | ER e => (exists hv', hv <= hv' /\ JI s' hv' tv sv K D /\ hv' mod PB = 0 /\ j_dirty (js_j s') = true /\
              (e = E_BAD_BLOCK -> allweak (hv / PB) (hv' / PB))) /\
            jrest (js_j s) (js_j s') /\ (e = E_BAD_BLOCK \/ e = E_JOURNAL_FULL)
  | ST x => x = Crash /\ crashed (js_n s') D
  end.

Lemma next_aligned hv : hv mod PB = 0 -> nextv hv / PB = hv / PB.
Proof.
  intros Ha. pose_geo. assert (Hu : user hv).
  { unfold Geom.user. rewrite (lem off_0_slot) by done. lia. }
  destruct (lem nextv_blk hv Hu) as [[? _]|(_ & _ & E & _)]; [done|]. lia.
Qed.

Lemma prep_loop_spec i : forall s hv tv sv K D,
  JI s hv tv sv K D -> hv mod PB = 0 -> j_dirty (js_j s) = true -> goodin (hv / PB) (Z.of_nat i) ->
  wp (prepare_head_loop i) s (prep_post hv tv sv K D s).
Proof.
  induction i as [|i IH]; intros s hv tv sv K D HJ Ha Hdirty Hgi; cbn [prepare_head_loop].
  { exfalso. destruct Hgi as (G & HG & _). lia. }
  destruct HJ as [Hn Hj HD Hc].
  pose proof (sv_le_hb _ _ _ _ _ Hj) as Hsb.
  pose proof (aligned_cb _ _ _ _ HD Ha) as Hcb.
  apply wp_bind. unfold getg at 1. apply wp_gets.
  apply wp_bind. unfold getj at 1. apply wp_gets.
  rewrite (nk_geo _ _ _ Hn), (lem shiftr_blk), (ji_head _ _ _ _ _ _ _ Hj), (lem ph_blk).
  apply wp_bind. unfold io at 1. apply wp_zoom. unfold wp.
  rewrite (lem is_bad_spec) by apply Hn. cbn [fst snd].
  replace (put_n (js_n s) s) with s by by destruct s.
  destruct (badv (js_n s) (hv / PB)) eqn:Hb.
  - (* bad block: skip it *)
    apply (wp_bind (modj _)). apply wp_modify. apply wp_bind.
    set (s1 := Js (js_n s) (set_bbc (w32 (j_bbc (js_j s) + 1)) (js_j s))).
    pose proof (skip_block_spec s1 hv sv) as Hsk.
    eapply wp_mono; [apply Hsk|]; try (by apply Hn); try (by apply Hj).
    { split; [done|]. apply Hj. }
    intros o s' Ho. destruct o as [[]|e|x]; [| |done].
    + destruct Ho as (En & Hr & Hd & Eh & Ee & Hf).
      pose proof (lem blk_start (hv / PB + 1)) as [E1 E2].
      assert (HJ' : JI s' ((hv / PB + 1) * PB) tv sv K D).
      { split.
        - by rewrite En.
        - eapply JInv_move; [exact Hj| | | | | | | | |]; auto.
          + pose proof (lem blk_lt_start hv (hv / PB + 1) ltac:(lia)). lia.
          + by rewrite E1.
          + eapply jrest_trans; [|exact Hr]. by split.
          + by rewrite E1.
          + intros. by rewrite En.
          + intros. by rewrite En.
        - rewrite En. apply (lem DI_skip); auto. by eapply (lem dense_gap).
        - apply JI_dirty_clean. rewrite Hd. done. }
      assert (Hwk : weak ((hv / PB) mod NB) = true) by (apply (nk_bad _ _ _ Hn); exact Hb).
      assert (Hgi' : goodin ((hv / PB + 1) * PB / PB) (Z.of_nat i)).
      { rewrite E1. eapply goodin_mono; [eapply goodin_step; [exact Hgi|by apply allweak_1]|lia]. }
      eapply wp_mono; [eapply IH; [exact HJ'|done|by rewrite Hd|exact Hgi']|].
      intros o s2 Ho. assert (Hr1 : jrest (js_j s) (js_j s')) by (eapply jrest_trans; [|exact Hr]; by split).
      destruct o as [[]|e|x]; cbn in *; auto.
      * destruct Ho as (hv' & H0 & H1 & H2 & H3 & H4). exists hv'. split_and!; auto; [|by eapply jrest_trans|].
        { pose proof (lem blk_lt_start hv (hv / PB + 1) ltac:(lia)). lia. }
        rewrite E1 in H4. by apply allweak_cons.
      * destruct Ho as ((hv' & H0 & H1) & H2 & H3). split_and!; auto; [|by eapply jrest_trans].
        exists hv'. split; [pose proof (lem blk_lt_start hv (hv / PB + 1) ltac:(lia)); lia|].
        destruct H1 as (H4 & H5 & H6 & H7). split_and!; auto. intros He. rewrite E1 in H7.
        apply allweak_cons; auto.
    + destruct Ho as [-> ->]. split; [|split; [by split|auto]].
      exists hv. split_and!; auto; [lia| |done].
      apply JI_dirty; auto.
      eapply JInv_move; [exact Hj| | | | | | | | |]; auto; try lia; [apply Hj|by split|apply Hj|apply Hj].
  - (* good block: erase it *)
    unfold io. apply wp_zoom.
    eapply wp_mono; [by apply (lem erase_spec)|].
    intros o n' (Hn' & [Hbad' Hcell'] & Hep & Ho).
    set (s' := put_n n' s).
    assert (HD' : DI n' hv sv D).
    { eapply (lem DI_head_gt); eauto. }
    assert (HJ' : JI s' hv tv sv K D).
    { apply JI_dirty; auto.
      pose proof (ji_full _ _ _ _ _ _ _ Hj) as Hfull.
      eapply JInv_move; [exact Hj| | | | | | | | |]; auto; try lia; try apply Hj.
      - apply jrest_refl.
      - intros u Hu. apply Hcell'. lia. }
    destruct o as [[]|e|x]; cbn.
    + exists hv. split_and!; auto; [lia| |apply jrest_refl|intros y Hy; lia].
      split; auto.
      * cbn. by rewrite Hbad'.
      * rewrite next_aligned by done. apply Hj.
    + destruct Ho as [-> Hw]. split_and!; auto; [|apply jrest_refl].
      exists hv. split_and!; auto; [lia|]. intros _. by apply allweak_1.
    + split; [done|]. split; [done|]. by exists hv, sv.
Qed.

Lemma prepare_head_spec s hv tv sv K D : JI s hv tv sv K D ->
  wp prepare_head s (fun o s' => match o with
    | OK _ => exists hv', hv <= hv' /\ Ready s' hv' tv sv K D /\ jrest (js_j s) (js_j s') /\
        (hv' = hv \/ (hv mod PB = 0 /\ hv' mod PB = 0)) /\ allweak (hv / PB) (hv' / PB - 1)
    | ER e => (exists hv', hv <= hv' /\ JI s' hv' tv sv K D /\
                (e = E_BAD_BLOCK -> hv mod PB = 0 /\ hv' mod PB = 0 /\ j_dirty (js_j s') = true /\ allweak (hv / PB) (hv' / PB)) /\
                (hv' = hv \/ (hv mod PB = 0 /\ hv' mod PB = 0))) /\
            jrest (js_j s) (js_j s') /\ (e = E_BAD_BLOCK \/ e = E_JOURNAL_FULL)
    | ST x => x = Crash /\ crashed (js_n s') D
    end).
Proof.
  intros HJ. pose proof HJ as [Hn Hj HD Hc]. pose_geo.
  pose proof (sv_le_hb _ _ _ _ _ Hj) as Hsb.
  pose proof (d_hv _ _ _ _ _ _ HD) as Hhv0.
  unfold prepare_head. apply wp_bind. unfold getg. apply wp_gets. apply wp_bind. unfold getj. apply wp_gets.
  rewrite (nk_geo _ _ _ Hn), (ji_ppc _ _ _ _ _ _ _ Hj), (ji_head _ _ _ _ _ _ _ Hj), (ji_tsync _ _ _ _ _ _ _ Hj).
  rewrite (lem next_upage_ph) by (auto; apply Hj).
  rewrite !(lem align_eq_blk), !(lem ph_blk).
  assert (Hu : user hv) by apply Hj.
  pose proof (retry_good (hv / PB)) as Hgi.
  pose proof (ji_full _ _ _ _ _ _ _ Hj) as Hfull.
  destruct ((nextv hv / PB) mod NB =? (sv / PB) mod NB) eqn:E1; cbn [andb].
  - destruct ((nextv hv / PB) mod NB =? (hv / PB) mod NB) eqn:E2; cbn [negb].
    + (* nextv hv is in the head block *)
      apply Z.eqb_eq in E2.
      assert (Enb : nextv hv / PB = hv / PB).
      { destruct (lem nextv_blk hv Hu) as [[? _]|(E & _)]; [done|]. rewrite E in E2.
        apply (mod_inj NB) in E2; lia. }
      cbn [andb negb]. apply (wp_bind (modj _)). apply wp_modify.
      set (s1 := Js (js_n s) (set_dirty true (js_j s))).
      assert (HJ1 : JI s1 hv tv sv K D).
      { apply JI_dirty; auto. destruct Hj. by split. }
      rewrite (lem aligned_blk), (lem ph_off).
      destruct (Z.eqb_spec (hv mod PB) 0) as [Ha|Ha]; cbn [negb].
      * eapply wp_mono; [by eapply prep_loop_spec|].
        intros o s' Ho. assert (Hr1 : jrest (js_j s) (js_j s1)) by by split.
        destruct o as [[]|e|x]; cbn in Ho; auto.
        -- destruct Ho as (hv' & H0 & H1 & H2 & H3 & H4). exists hv'. split_and!; auto. by eapply jrest_trans.
        -- destruct Ho as ((hv' & H0 & H1 & H2 & H3 & H4) & H5 & H6). split_and!; auto; [|by eapply jrest_trans].
           exists hv'. split_and!; auto.
      * apply wp_ret. exists hv. split_and!; auto; [lia| |by split|intros y Hy; lia].
        destruct (ji_free _ _ _ _ _ _ _ Hj Ha) as [Hgd Hfr].
        split; auto. by rewrite Enb.
    + apply wp_fail. split_and!; auto; [|by split]. exists hv. split_and!; auto; [lia|done].
  - (* the next page is not in the tail block *)
    apply Z.eqb_neq in E1.
    assert (Hnx : nextv hv / PB < sv / PB + NB).
    { destruct (lem nextv_blk hv Hu) as [[-> _]|(E & _)]; [done|].
      rewrite E in *. destruct (Z.eq_dec (hv / PB + 1) (sv / PB + NB)) as [E'|]; [|lia].
      exfalso. apply E1. rewrite E'. by rewrite mod_add_self by lia. }
    apply (wp_bind (modj _)). apply wp_modify.
    set (s1 := Js (js_n s) (set_dirty true (js_j s))).
    assert (HJ1 : JI s1 hv tv sv K D).
    { apply JI_dirty; auto. destruct Hj. by split. }
    rewrite (lem aligned_blk), (lem ph_off).
    destruct (Z.eqb_spec (hv mod PB) 0) as [Ha|Ha]; cbn [negb].
    + eapply wp_mono; [by eapply prep_loop_spec|].
      intros o s' Ho. assert (Hr1 : jrest (js_j s) (js_j s1)) by by split.
      destruct o as [[]|e|x]; cbn in Ho; auto.
      * destruct Ho as (hv' & H0 & H1 & H2 & H3 & H4). exists hv'. split_and!; auto. by eapply jrest_trans.
      * destruct Ho as ((hv' & H0 & H1 & H2 & H3 & H4) & H5 & H6). split_and!; auto; [|by eapply jrest_trans].
        exists hv'. split_and!; auto.
    + apply wp_ret. exists hv. split_and!; auto; [lia| |by split|intros y Hy; lia].
      destruct (ji_free _ _ _ _ _ _ _ Hj Ha) as [Hgd Hfr].
      split; auto.
Qed.
End stepj.
