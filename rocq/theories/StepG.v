(** Resuming, continued: the last group, the root and the head. *)
From stdpp Require Import gmap.
From Verif Require Import Base Bytes BytesLemmas Wp Nand Journal MapModel Geom Tree Rep Inv Hdr StepDI StepNand StepJ StepA StepR StepS.
Local Open Scope Z_scope.

Section stepg.
Context (g : geo) (c : Z) (Hg : geo_ok g c) (weak : Z -> bool) (Hdense : dense g weak).
Notation PB := (PB g).
Notation PC := (PC c).
Notation NB := (NB g).
Notation TT := (TT g).
Notation GP := (GP g c).
Notation ph := (ph g).
Notation user := (user c).
Notation nextv := (nextv c).
Notation cpv := (cpv c).
Notation cellv := (cellv g).
Notation badv := (badv g).
Notation cell_ep := (cell_ep g).
Notation blk_ep := (blk_ep g c).
Notation fcp := (fcp g c).
Notation epo := (epo g).
Notation moff := (moff c).
Notation kmeta := (kmeta g c).
Notation kd_ok := (kd_ok g c).
Notation DI := (DI g c).
Notation nok := (nok g weak).
Notation JInv := (JInv g c).
Notation JI := (JI g c weak).

Ltac pose_geo :=
  pose proof (PC_ge _ _ Hg) as HPC4; pose proof (PC_le _ _ Hg) as HPC256;
  pose proof (PB_pos _ _ Hg) as HPB4; pose proof (PB_ge _ _ Hg) as HPBC;
  pose proof (NB_ge _ _ Hg) as HNB8; pose proof (TT_le _ _ Hg) as HTT31;
  pose proof (TT_pos _ _ Hg) as HTTpos; pose proof (GP_ge _ _ Hg) as HGP1;
  pose proof (PB_def _ _ Hg) as HPBdef.
Notation "'lem' x" := (x g c Hg) (at level 9, x at level 8, only parsing).

(** ** Free groups *)
Lemma is_free_eq n v : n_geo n = g -> nand_is_free (ph v) n = (OK (is_freec (cellv n v)), n).
Proof. intros E. unfold nand_is_free. by rewrite E, (lem ph_ok). Qed.
Lemma is_freec_true x : is_freec x = true <-> x = Free.
Proof. by destruct x. Qed.

Lemma cp_free_loop_spec k : forall v p s, nok (js_n s) -> v mod PB + Z.of_nat k <= PB ->
  ((0 < k)%nat -> p = ph v) ->
  exists b, cp_free_loop k p s = (OK b, s) /\
    (b = true <-> forall i, 0 <= i < Z.of_nat k -> cellv (js_n s) (v + i) = Free).
Proof.
  induction k as [|k IH]; intros v p s Hn Hv Hp; cbn [cp_free_loop].
  { exists true. split; [done|]. split; [intros _ i Hi; lia|done]. }
  pose_geo. rewrite (Hp ltac:(lia)). unfold bind, io, zoom.
  rewrite is_free_eq by apply Hn. replace (put_n (js_n s) s) with s by by destruct s.
  pose proof (lem off_range v) as Hor.
  destruct (is_freec (cellv (js_n s) v)) eqn:E.
  - apply is_freec_true in E.
    assert (Hv1 : (0 < k)%nat -> (v + 1) mod PB = v mod PB + 1).
    { intros. apply divmod_add; lia. }
    destruct (IH (v + 1) (w32 (ph v + 1)) s Hn) as (b & H1 & H2).
    + destruct k; [|rewrite Hv1 by lia; lia].
      pose proof (lem off_range (v + 1)). lia.
    + intros Hk. rewrite (lem ph_add) by (rewrite <-(ph_off _ _ Hg); rewrite (ph_off _ _ Hg); lia).
      pose proof (lem ph_range v). rewrite w32_small; lia.
    + exists b. rewrite H1. split; [done|]. rewrite H2. split.
      * intros H i Hi. destruct (Z.eq_dec i 0) as [->|]; [by rewrite Z.add_0_r|].
        replace (v + i) with (v + 1 + (i - 1)) by lia. apply H. lia.
      * intros H i Hi. replace (v + 1 + i) with (v + (i + 1)) by lia. apply H. lia.
  - exists false. split; [done|]. split; [done|]. intros H.
    specialize (H 0 ltac:(lia)). rewrite Z.add_0_r in H. by rewrite H in E.
Qed.

Definition gfree (n : nand) (u : Z) : Prop := forall i, 0 <= i < PC -> cellv n (u + i) = Free.

Lemma gstart b k : 0 <= k < GP -> (b * PB + k * PC) / PB = b /\ (b * PB + k * PC) mod PB = k * PC /\
  (b * PB + k * PC) mod PC = 0.
Proof.
  intros Hk. pose_geo. destruct (lem blk_eq (b * PB + k * PC) b (k * PC)) as [H1 H2]; [nia|done|].
  split_and!; auto. rewrite HPBdef. replace (b * (PC * GP) + k * PC) with ((b * GP + k) * PC) by lia.
  apply Z.mod_mul. lia.
Qed.

Lemma cp_free_spec s b k : nok (js_n s) -> j_ppc (js_j s) = c -> 0 <= k < GP ->
  exists r, cp_free (ph (b * PB + k * PC)) s = (OK r, s) /\
    (r = true <-> gfree (js_n s) (b * PB + k * PC)).
Proof.
  intros Hn Hc Hk. pose_geo. destruct (gstart b k Hk) as (H1 & H2 & H3).
  unfold cp_free, bind, getj, gets. rewrite Hc, shiftl_PC.
  destruct (cp_free_loop_spec (Z.to_nat PC) (b * PB + k * PC) (ph (b * PB + k * PC)) s Hn) as (r & H4 & H5); auto.
  { rewrite H2. nia. }
  exists r. split; [done|]. rewrite H5. unfold gfree. by rewrite Z2Nat.id by lia.
Qed.

(** [kl] is the last group of block [b] that is not entirely free. *)
Record lgfacts (n : nand) (b kl : Z) : Prop := {
  lg_r : 0 <= kl < GP;
  lg_le : forall k, 0 <= k <= kl -> ~ gfree n (b * PB + k * PC);
  lg_gt : forall k, kl < k < GP -> gfree n (b * PB + k * PC)
}.

Lemma grp_page b k : 0 <= k < GP ->
  Z.lor (Z.shiftl k c) (w32 (Z.shiftl (b mod NB) (g_lppb g))) = ph (b * PB + k * PC).
Proof.
  intros Hk. pose_geo. destruct (gstart b k Hk) as (H1 & H2 & H3).
  pose proof (Z.mod_pos_bound b NB ltac:(lia)).
  rewrite (Z.shiftl_mul_pow2 k) by apply (lem c_nonneg). change (2 ^ c) with PC.
  rewrite w32_small.
  - rewrite lor_shiftl_add; [|apply (lem a_nonneg)|].
    + change (2 ^ g_lppb g) with PB. rewrite (lem ph_add); [|rewrite (proj2 (lem blk_start b)); nia].
      rewrite (lem blk_start_ph). lia.
    + change (2 ^ g_lppb g) with PB. nia.
  - rewrite (lem shiftl_blk). unfold Geom.TT in *. nia.
Qed.

Lemma flg_loop_spec fuel : forall s b kl low high,
  nok (js_n s) -> j_ppc (js_j s) = c -> lgfacts (js_n s) b kl ->
  0 <= low <= kl -> kl <= high -> high < GP -> high - low < Z.of_nat fuel ->
  find_last_group_loop fuel (b mod NB) GP low high s = (OK (ph (b * PB + kl * PC)), s).
Proof.
  induction fuel as [|fuel IH]; intros s b kl low high Hn Hc HL Hlo Hhi Hh Hm; [lia|].
  pose proof HL as [L1 L2 L3].
  cbn [find_last_group_loop]. pose_geo. unfold bind at 1, getg at 1, gets at 1.
  unfold bind at 1, getj at 1, gets at 1. rewrite (nk_geo _ _ _ Hn), Hc.
  rewrite (proj2 (Z.leb_le low high)) by lia.
  rewrite Z.shiftr_div_pow2 by lia. change (2 ^ 1) with 2.
  set (mid := (low + high) / 2).
  assert (Hmid : low <= mid <= high).
  { unfold mid. split; [apply Z.div_le_lower_bound|apply Z.div_le_upper_bound]; lia. }
  rewrite grp_page by lia. unfold bind at 1.
  destruct (cp_free_spec s b mid Hn Hc ltac:(lia)) as (r & E & Hr). rewrite E.
  destruct r.
  - assert (gfree (js_n s) (b * PB + mid * PC)) by by apply Hr.
    assert (kl < mid) by (destruct (Z.le_gt_cases mid kl); [|done]; exfalso; apply (L2 mid); [lia|done]).
    apply IH; auto; lia.
  - assert (Hnf : ~ gfree (js_n s) (b * PB + mid * PC)) by (intros Hx; apply Hr in Hx; done).
    assert (mid <= kl) by (destruct (Z.le_gt_cases mid kl); [done|]; exfalso; apply Hnf, L3; lia).
    unfold bind at 1. destruct (Z.leb_spec GP (mid + 1)) as [Hge|Hlt].
    + unfold ret. repeat f_equal. lia.
    + destruct (gstart b mid ltac:(lia)) as (G1 & G2 & G3).
      assert (Ep : w32 (ph (b * PB + mid * PC) + Z.shiftl 1 c) = ph (b * PB + (mid + 1) * PC)).
      { rewrite shiftl_PC. replace (b * PB + (mid + 1) * PC) with (b * PB + mid * PC + PC) by lia.
        rewrite (ph_add g c Hg (b * PB + mid * PC) PC) by (rewrite G2; nia).
        pose proof (lem ph_range (b * PB + mid * PC)). rewrite w32_small; lia. }
      rewrite Ep. destruct (cp_free_spec s b (mid + 1) Hn Hc ltac:(lia)) as (r & E2 & Hr2). rewrite E2.
      destruct r.
      * assert (mid = kl); [|unfold ret; by subst].
        assert (gfree (js_n s) (b * PB + (mid + 1) * PC)) by by apply Hr2.
        destruct (Z.eq_dec mid kl); [done|]. exfalso. apply (L2 (mid + 1)); [lia|done].
      * assert (mid + 1 <= kl).
        { destruct (Z.le_gt_cases (mid + 1) kl); [done|]. exfalso.
          assert (false = true); [|done]. apply Hr2, L3. lia. }
        apply IH; auto; lia.
Qed.

Lemma find_last_group_spec s b kl : nok (js_n s) -> j_ppc (js_j s) = c -> lgfacts (js_n s) b kl ->
  find_last_group (b mod NB) s = (OK (ph (b * PB + kl * PC)), s).
Proof.
  intros Hn Hc HL. pose_geo. pose proof HL as [L1 L2 L3].
  unfold find_last_group, bind, getg, getj, gets. rewrite (nk_geo _ _ _ Hn), Hc.
  rewrite Z.shiftl_1_l. fold GP. apply flg_loop_spec; auto; lia.
Qed.

(** ** The root *)
Lemma find_root_loop_spec i : forall s b kc d,
  nok (js_n s) -> j_ppc (js_j s) = c -> 0 <= kc <= Z.of_nat i -> Z.of_nat i < GP ->
  cellv (js_n s) (b * PB + kc * PC + (PC - 1)) = Data d -> hdr_has_magic d = true ->
  hdr_get_epoch d = j_epoch (js_j s) ->
  (forall k, kc < k <= Z.of_nat i -> cell_ep (cellv (js_n s) (b * PB + k * PC + (PC - 1))) <> Some (j_epoch (js_j s))) ->
  find_root_loop i (b mod NB) s =
    (OK tt, Js (js_n s) (set_root (ph (b * PB + kc * PC + (PC - 2))) (set_buf d (js_j s)))).
Proof.
  assert (Hpage : forall x b, Z.of_nat x < GP ->
    w32 (w32 (Z.shiftl (b mod NB) (g_lppb g)) + Z.shiftl (Z.of_nat x + 1) c - 1) =
    ph (b * PB + Z.of_nat x * PC + (PC - 1))).
  { intros x b Hi. pose_geo. destruct (gstart b (Z.of_nat x) ltac:(lia)) as (G1 & G2 & G3).
    rewrite (lem w32_blk). rewrite (Z.shiftl_mul_pow2 _ c) by apply (lem c_nonneg). change (2 ^ c) with PC.
    replace (b * PB + Z.of_nat x * PC + (PC - 1)) with (b * PB + (Z.of_nat x * PC + (PC - 1))) by lia.
    rewrite (lem ph_add) by (rewrite (proj2 (lem blk_start b)); nia).
    pose proof (lem ph_range (b * PB + (Z.of_nat x * PC + (PC - 1)))) as Hr.
    rewrite (lem ph_add) in Hr by (rewrite (proj2 (lem blk_start b)); nia).
    rewrite w32_small; lia. }
  induction i as [|i IH]; intros s b kc d Hn Hc Hkc Hi Hcell Hm He Hno; pose_geo.
  all: cbn [find_root_loop]; unfold bind at 1, getg at 1, gets at 1;
    unfold bind at 1, getj at 1, gets at 1; rewrite (nk_geo _ _ _ Hn), Hc;
    rewrite Hpage by lia; unfold bind at 1, attempt at 1;
    rewrite (read_page_buf_eq g c Hg weak) by (auto; apply (lem ph_range));
    unfold bind at 1.
  - assert (kc = 0) as -> by lia. unfold Inv.cellv in Hcell. change (Z.of_nat 0) with 0. rewrite Hcell. cbn [cell_bytes].
    unfold bind, getj, gets, ret. cbn [js_j js_n]. 
    change (j_buf (set_buf d (js_j s))) with d. change (j_epoch (set_buf d (js_j s))) with (j_epoch (js_j s)).
    rewrite Hm, He, Z.eqb_refl. cbn [andb]. unfold modj, modify. cbn [js_n js_j]. repeat f_equal.
    replace (b * PB + 0 * PC + (PC - 1)) with (b * PB + 0 * PC + (PC - 2) + 1) by lia.
    destruct (gstart b 0 ltac:(lia)) as (G1 & G2 & G3).
    destruct (divmod_add PB (b * PB + 0 * PC) (PC - 2)) as [D1 D2]; [lia|rewrite G2; lia|].
    rewrite (ph_add g c Hg _ 1) by (rewrite D2, G2; lia). lia.
  - destruct (Z.eq_dec kc (Z.of_nat (S i))) as [->|Hne].
    + unfold Inv.cellv in Hcell. rewrite Hcell. cbn [cell_bytes].
      unfold bind, getj, gets, ret. cbn [js_j js_n].
      change (j_buf (set_buf d (js_j s))) with d. change (j_epoch (set_buf d (js_j s))) with (j_epoch (js_j s)).
      rewrite Hm, He, Z.eqb_refl. cbn [andb]. unfold modj, modify. cbn [js_n js_j]. repeat f_equal.
      destruct (gstart b (Z.of_nat (S i)) ltac:(lia)) as (G1 & G2 & G3).
      replace (b * PB + Z.of_nat (S i) * PC + (PC - 1)) with (b * PB + Z.of_nat (S i) * PC + (PC - 2) + 1) by lia.
      destruct (divmod_add PB (b * PB + Z.of_nat (S i) * PC) (PC - 2)) as [D1 D2]; [lia|rewrite G2; nia|].
      rewrite (ph_add g c Hg _ 1) by (rewrite D2, G2; nia). lia.
    + pose proof (Hno (Z.of_nat (S i)) ltac:(lia)) as Hx. unfold Inv.cellv, Inv.cell_ep in Hx.
      destruct (cell_bytes g (n_cell (js_n s) (ph (b * PB + Z.of_nat (S i) * PC + (PC - 1))))) as [d'|].
      * unfold bind at 1, getj at 1, gets at 1. unfold bind at 1, getj at 1, gets at 1. unfold ret at 1.
        cbn [js_j js_n].
        change (j_buf (set_buf d' (js_j s))) with d'. change (j_epoch (set_buf d' (js_j s))) with (j_epoch (js_j s)).
        replace (hdr_has_magic d' && (hdr_get_epoch d' =? j_epoch (js_j s)))%bool with false.
        -- rewrite (IH (Js (js_n s) (set_buf d' (js_j s))) b kc d); auto; try lia. intros k Hk. apply Hno. lia.
        -- destruct (hdr_has_magic d'); [|done]. destruct (Z.eqb_spec (hdr_get_epoch d') (j_epoch (js_j s))); [|done]. congruence.
      * unfold ret at 1. rewrite (IH s b kc d); auto; try lia. intros k Hk. apply Hno. lia.
Qed.

Lemma find_root_spec s b kl kc d :
  nok (js_n s) -> j_ppc (js_j s) = c -> 0 <= kc <= kl -> kl < GP ->
  cellv (js_n s) (b * PB + kc * PC + (PC - 1)) = Data d -> hdr_has_magic d = true ->
  hdr_get_epoch d = j_epoch (js_j s) ->
  (forall k, kc < k <= kl -> cell_ep (cellv (js_n s) (b * PB + k * PC + (PC - 1))) <> Some (j_epoch (js_j s))) ->
  find_root (ph (b * PB + kl * PC)) s =
    (OK tt, Js (js_n s) (set_root (ph (b * PB + kc * PC + (PC - 2))) (set_buf d (js_j s)))).
Proof.
  intros Hn Hc Hk Hl Hcell Hm He Hno. pose_geo.
  unfold find_root, bind, getg, getj, gets. rewrite (nk_geo _ _ _ Hn), Hc.
  destruct (gstart b kl ltac:(lia)) as (G1 & G2 & G3).
  rewrite land_mask by apply (lem a_nonneg). change (2 ^ g_lppb g) with PB.
  rewrite (lem ph_off), G2, (lem shiftr_blk), (lem ph_blk), G1.
  rewrite Z.shiftr_div_pow2 by apply (lem c_nonneg). change (2 ^ c) with PC. rewrite Z.div_mul by lia.
  apply find_root_loop_spec; rewrite ?Z2Nat.id by lia; auto.
Qed.

(** ** The head *)
Lemma trailing_free_spec k : forall v s, nok (js_n s) -> Z.of_nat k - 1 <= v mod PB ->
  exists m, trailing_free k (ph v) s = (OK m, s) /\ 0 <= m <= Z.of_nat k /\
    (forall i, 0 <= i < m -> cellv (js_n s) (v - i) = Free) /\
    (m < Z.of_nat k -> cellv (js_n s) (v - m) <> Free).
Proof.
  induction k as [|k IH]; intros v s Hn Hv; cbn [trailing_free].
  { exists 0. split_and!; try done; lia. }
  pose_geo. unfold bind, io, zoom. rewrite is_free_eq by apply Hn.
  replace (put_n (js_n s) s) with s by by destruct s.
  pose proof (lem off_range v) as Hor.
  destruct (is_freec (cellv (js_n s) v)) eqn:E.
  - apply is_freec_true in E. destruct (Nat.eq_dec k 0%nat) as [->|Hk].
    { cbn [trailing_free]. unfold ret. exists 1. split_and!; try done; try lia.
      intros i Hi. assert (i = 0) as -> by lia. by rewrite Z.sub_0_r. }
    assert (Ep : ph v - 1 = ph (v - 1)).
    { replace (v - 1) with (v + -1) by lia. rewrite (lem ph_add); lia. }
    rewrite Ep. destruct (IH (v - 1) s Hn) as (m & H1 & H2 & H3 & H4).
    { replace (v - 1) with (v + -1) by lia. destruct (divmod_add PB v (-1)) as [_ ->]; lia. }
    exists (m + 1). rewrite H1. split; [done|]. split; [lia|]. split.
    + intros i Hi. destruct (Z.eq_dec i 0) as [->|]; [by rewrite Z.sub_0_r|].
      replace (v - i) with (v - 1 - (i - 1)) by lia. apply H3. lia.
    + intros Hlt. replace (v - (m + 1)) with (v - 1 - m) by lia. apply H4. lia.
  - exists 0. split_and!; try done; try lia. intros _. rewrite Z.sub_0_r. intros Hx. by rewrite Hx in E.
Qed.

Lemma find_head_loop_S fuel s b k w :
  nok (js_n s) -> j_ppc (js_j s) = c -> 0 <= k < GP -> j_head (js_j s) = ph w ->
  w / PC = (b * PB + k * PC) / PC ->
  exists m, 0 <= m <= PC /\
    (forall i, PC - m <= i < PC -> cellv (js_n s) (b * PB + k * PC + i) = Free) /\
    (m < PC -> cellv (js_n s) (b * PB + k * PC + (PC - 1 - m)) <> Free) /\
    find_head_loop (S fuel) s =
      if 1 <? m then (OK tt, Js (js_n s) (set_head (ph (b * PB + k * PC + (PC - m))) (js_j s)))
      else (modj (set_head (w32 (ph (b * PB + k * PC) + PC)));;;
      let! head := getj j_head in
      (if TT <=? head
       then modj (set_head 0);;; roll_stats else ret tt);;;
      let! head := getj j_head in
      if is_aligned head (g_lppb g) then
        let! tail := getj j_tail in
        if align_eq head tail (g_lppb g)
        then modj (set_tail (w32 (Z.shiftl
               (next_block g (Z.shiftr tail (g_lppb g))) (g_lppb g))))
        else ret tt
      else find_head_loop fuel) s.
Proof.
  intros Hn Hc Hk Hh Hw. pose_geo. destruct (gstart b k Hk) as (G1 & G2 & G3).
  set (u := b * PB + k * PC) in *.
  cbn [find_head_loop]. unfold bind at 1, getg at 1, gets at 1.
  unfold bind at 1, getj at 1, gets at 1. unfold bind at 1, getj at 1, gets at 1.
  rewrite (nk_geo _ _ _ Hn), Hc, Hh.
  rewrite land_lnot_mask by apply (lem c_nonneg). rewrite shiftl_PC. change (2 ^ c) with PC.
  assert (E1 : ph w / PC * PC = ph u).
  { rewrite (lem ph_grp), Hw, <-(lem ph_grp).
    pose proof (Z.div_mod (ph u) PC ltac:(lia)) as Ed. rewrite (lem ph_slot), G3 in Ed. lia. }
  rewrite E1.
  pose proof (lem ph_range u) as Hpu.
  assert (Epk : forall i, 0 <= i < PC -> ph (u + i) = ph u + i).
  { intros i Hi. apply (lem ph_add). rewrite G2. nia. }
  assert (E2 : w32 (ph u + PC - 1) = ph (u + (PC - 1))).
  { rewrite Epk by lia. rewrite w32_small; lia. }
  rewrite E2. unfold bind at 1.
  destruct (trailing_free_spec (Z.to_nat PC) (u + (PC - 1)) s Hn) as (m & H1 & H2 & H3 & H4).
  { destruct (divmod_add PB u (PC - 1)) as [_ ->]; nia. }
  rewrite Z2Nat.id in H2, H4 by lia.
  exists m. split; [done|]. split.
  { intros i Hi. replace (u + i) with (u + (PC - 1) - (PC - 1 - i)) by lia. apply H3. lia. }
  split.
  { intros Hm. replace (u + (PC - 1 - m)) with (u + (PC - 1) - m) by lia. by apply H4. }
  rewrite H1. rewrite (lem num_pages_TT). destruct (Z.ltb_spec 1 m).
  - unfold modj, modify. repeat f_equal. replace (ph u + PC - m) with (ph u + (PC - m)) by lia.
    rewrite <-Epk by lia. pose proof (lem ph_range (u + (PC - m))). rewrite w32_small; lia.
  - done.
Qed.

Lemma find_head_start (Hc2 : 2 <= c) s b k : nok (js_n s) -> j_ppc (js_j s) = c -> 0 <= k < GP ->
  find_head (ph (b * PB + k * PC)) s =
  find_head_loop (S (Z.to_nat PB)) (Js (js_n s) (set_head (ph (b * PB + k * PC + 1)) (js_j s))).
Proof.
  intros Hn Hc Hk. pose_geo. pose proof (PC_ge4 c Hc2) as HPC4'. destruct (gstart b k Hk) as (G1 & G2 & G3).
  set (u := b * PB + k * PC) in *.
  unfold find_head, bind at 1, getg at 1, gets at 1. unfold bind at 1, getj at 1, gets at 1.
  rewrite (nk_geo _ _ _ Hn), Hc.
  assert (Eu : next_upage g c (ph u) = ph (u + 1)).
  { rewrite <-(lem ph_ph u). pose proof (lem ph_range u).
    assert (Hu : user (ph u)) by (unfold Geom.user; rewrite (lem ph_slot), G3; lia).
    rewrite (lem next_upage_ph) by (auto; lia).
    destruct (lem nextv_cases (ph u) Hu) as [(_&->&_)|(H1&_)].
    - rewrite !(lem ph_add); [by rewrite (lem ph_ph)| |]; rewrite ?(lem ph_off), G2; nia.
    - rewrite (lem ph_slot), G3 in H1. lia. }
  rewrite Eu. unfold bind at 1, modj at 1, modify at 1. unfold bind at 1, getj at 1, gets at 1.
  cbn [js_j js_n]. change (j_head (set_head (ph (u + 1)) (js_j s))) with (ph (u + 1)).
  rewrite (lem ph_add) by (rewrite G2; nia). pose proof (lem ph_range u).
  destruct (Z.eqb_spec (ph u + 1) 0); [lia|]. unfold bind at 1, ret at 1.
  by rewrite (lem ppb_PB).
Qed.

(** Head inside the last checkpoint's block. *)
Lemma find_head_same (Hc2 : 2 <= c) s b kl :
  nok (js_n s) -> j_ppc (js_j s) = c -> 0 <= kl < GP ->
  ~ gfree (js_n s) (b * PB + kl * PC) ->
  (kl + 1 < GP -> gfree (js_n s) (b * PB + (kl + 1) * PC)) ->
  (kl + 1 = GP -> cellv (js_n s) (b * PB + kl * PC + (PC - 2)) = Free /\
                  cellv (js_n s) (b * PB + kl * PC + (PC - 1)) = Free) ->
  exists hv', find_head (ph (b * PB + kl * PC)) s = (OK tt, Js (js_n s) (set_head (ph hv') (js_j s))) /\
    b * PB + kl * PC < hv' <= b * PB + kl * PC + PC /\ user hv' /\ hv' / PB = b /\
    (forall v, hv' <= v < b * PB + (kl + 1) * PC -> cellv (js_n s) v = Free) /\
    ((hv' = b * PB + kl * PC + PC /\
      (cellv (js_n s) (b * PB + kl * PC + (PC - 2)) <> Free \/
       cellv (js_n s) (b * PB + kl * PC + (PC - 1)) <> Free)) \/ cellv (js_n s) (hv' - 1) <> Free).
Proof.
  intros Hn Hc Hk Hnf Hnext Hlast. pose_geo. pose proof (PC_ge4 c Hc2) as HPC4'. rewrite (find_head_start Hc2) by auto.
  destruct (gstart b kl Hk) as (G1 & G2 & G3). set (u := b * PB + kl * PC) in *.
  assert (Hgrp : forall i, 0 <= i < PC -> (u + i) / PB = b /\ (u + i) / PC = u / PC /\ (u + i) mod PC = i).
  { intros i Hi. destruct (grp_same c u i G3 Hi) as [Hg1 Hg2]. split_and!; auto.
    rewrite (lem grp_same_blk); auto. }
  destruct (find_head_loop_S (Z.to_nat PB) (Js (js_n s) (set_head (ph (u + 1)) (js_j s))) b kl (u + 1))
    as (m & H1 & H2 & H3 & H4); auto.
  { apply Hgrp. lia. }
  rewrite H4. fold u in H2, H3, H4. fold u. cbn [js_n js_j] in *.
  assert (Hm : m < PC).
  { destruct (Z.lt_ge_cases m PC); [done|]. exfalso. apply Hnf. intros i Hi. apply H2. lia. }
  destruct (Z.ltb_spec 1 m) as [Hm1|Hm1].
  - exists (u + (PC - m)). split; [done|]. split; [lia|].
    destruct (Hgrp (PC - m) ltac:(lia)) as (D1 & D2 & D3).
    split; [unfold Geom.user; lia|]. split; [done|]. split.
    + intros v Hv. replace v with (u + (v - u)) by lia. apply H2. unfold u in *. lia.
    + right. replace (u + (PC - m) - 1) with (u + (PC - 1 - m)) by lia. auto.
  - assert (Hk1 : kl + 1 < GP).
    { destruct (Z.lt_ge_cases (kl + 1) GP); [done|]. exfalso.
      destruct (Hlast ltac:(lia)) as [F1 F2].
      assert (m = 0 \/ m = 1) as [-> | ->] by lia.
      - apply H3; [lia|]. rewrite <-F2. f_equal. lia.
      - apply H3; [lia|]. rewrite <-F1. f_equal. lia. }
    destruct (gstart b (kl + 1) ltac:(lia)) as (J1 & J2 & J3).
    assert (Ep : w32 (ph u + PC) = ph (b * PB + (kl + 1) * PC)).
    { replace (b * PB + (kl + 1) * PC) with (u + PC) by (unfold u; lia).
      rewrite (lem ph_add) by (rewrite G2; nia). pose proof (lem ph_range u). rewrite w32_small; lia. }
    rewrite Ep. unfold bind at 1, modj at 1, modify at 1. unfold bind at 1, getj at 1, gets at 1.
    cbn [js_n js_j].
    set (w := b * PB + (kl + 1) * PC) in *.
    change (j_head (set_head (ph w) (set_head (ph (u + 1)) (js_j s)))) with (ph w).
    destruct (Z.leb_spec TT (ph w)); [pose proof (lem ph_range w); lia|].
    unfold bind at 1, ret at 1. unfold bind at 1, getj at 1, gets at 1. cbn [js_n js_j].
    change (j_head (set_head (ph w) (set_head (ph (u + 1)) (js_j s)))) with (ph w).
    rewrite (lem aligned_blk), (lem ph_off), J2. destruct (Z.eqb_spec ((kl + 1) * PC) 0); [nia|].
    destruct (Z.to_nat PB) as [|fuel] eqn:Efuel; [lia|].
    destruct (find_head_loop_S fuel (Js (js_n s) (set_head (ph w) (set_head (ph (u + 1)) (js_j s)))) b (kl + 1) w)
      as (m' & K1 & K2 & K3 & K4); auto; [lia|].
    rewrite K4. fold w in K2, K3, K4. fold w. cbn [js_n js_j] in *.
    assert (m' = PC) as ->.
    { destruct (Z.lt_ge_cases m' PC); [|lia]. exfalso. apply K3; [done|].
      apply Hnext; [done|]. lia. }
    destruct (Z.ltb_spec 1 PC); [|lia].
    assert (Ew : w = u + PC) by (unfold w, u; lia).
    exists w. rewrite Z.sub_diag, Z.add_0_r. split; [done|]. rewrite Ew at 1 2. split; [lia|].
    split; [unfold Geom.user; lia|]. split; [done|]. split; [lia|]. left.
    split; [lia|]. fold u. destruct (Z.eq_dec m 0) as [->|].
    + right. rewrite <-(Z.sub_0_r (PC - 1)). apply H3. lia.
    + left. replace (PC - 2) with (PC - 1 - m) by lia. apply H3. lia.
Qed.

(** Head at the start of the next block. *)
Lemma find_head_next (Hc2 : 2 <= c) s b tv :
  nok (js_n s) -> j_ppc (js_j s) = c -> j_tail (js_j s) = ph tv ->
  b + 1 - NB <= tv / PB <= b -> j_epoch (js_j s) = epo b ->
  (cellv (js_n s) (b * PB + (GP - 1) * PC + (PC - 2)) <> Free \/
   cellv (js_n s) (b * PB + (GP - 1) * PC + (PC - 1)) <> Free) ->
  exists j', find_head (ph (b * PB + (GP - 1) * PC)) s = (OK tt, Js (js_n s) j') /\
    j_head j' = ph ((b + 1) * PB) /\ j_epoch j' = epo (b + 1) /\
    j_tail j' = ph (if decide (tv / PB + NB = b + 1) then (tv / PB + 1) * PB else tv) /\
    j_buf j' = j_buf (js_j s) /\ j_ppc j' = c /\ j_root j' = j_root (js_j s) /\
    (if ph ((b + 1) * PB) =? 0 then j_bbc j' = 0 /\ j_bbl j' = j_bbc (js_j s)
     else j_bbc j' = j_bbc (js_j s) /\ j_bbl j' = j_bbl (js_j s)).
Proof.
  intros Hn Hc Ht Htb He Hnf. pose_geo. pose proof (PC_ge4 c Hc2) as HPC4'. rewrite (find_head_start Hc2) by (auto; lia).
  destruct (gstart b (GP - 1) ltac:(lia)) as (G1 & G2 & G3). set (u := b * PB + (GP - 1) * PC) in *.
  destruct (find_head_loop_S (Z.to_nat PB) (Js (js_n s) (set_head (ph (u + 1)) (js_j s))) b (GP - 1) (u + 1))
    as (m & H1 & H2 & H3 & H4); auto; [lia| |].
  { apply (grp_same c); auto; lia. }
  rewrite H4. fold u in H2, H3, H4. fold u. cbn [js_n js_j] in *.
  assert (Hm : m <= 1).
  { destruct (Z.le_gt_cases m 1); [done|]. exfalso. destruct Hnf as [Hx|Hx]; apply Hx, H2; lia. }
  destruct (Z.ltb_spec 1 m) as [Hm1|Hm1]; [lia|].
  assert (Ephu : ph u = (b mod NB) * PB + (GP - 1) * PC).
  { unfold u. rewrite (lem ph_add); [by rewrite (lem blk_start_ph)|].
    rewrite (proj2 (lem blk_start b)). nia. }
  pose proof (Z.mod_pos_bound b NB ltac:(lia)) as Hbr.
  assert (Ew : w32 (ph u + PC) = (b mod NB + 1) * PB).
  { rewrite Ephu. rewrite w32_small; [nia|]. unfold Geom.TT in *. nia. }
  rewrite Ew. unfold bind at 1, modj at 1, modify at 1. unfold bind at 1, getj at 1, gets at 1.
  cbn [js_n js_j].
  set (j1 := set_head ((b mod NB + 1) * PB) (set_head (ph (u + 1)) (js_j s))).
  change (j_head j1) with ((b mod NB + 1) * PB).
  assert (Hstep : exists j2, (if TT <=? (b mod NB + 1) * PB then modj (set_head 0);;; roll_stats else ret tt)
      (Js (js_n s) j1) = (OK tt, Js (js_n s) j2) /\ j_head j2 = ph ((b + 1) * PB) /\
      j_epoch j2 = epo (b + 1) /\ j_tail j2 = j_tail (js_j s) /\ j_buf j2 = j_buf (js_j s) /\ j_ppc j2 = c /\
      j_root j2 = j_root (js_j s) /\
      (if ph ((b + 1) * PB) =? 0 then j_bbc j2 = 0 /\ j_bbl j2 = j_bbc (js_j s)
       else j_bbc j2 = j_bbc (js_j s) /\ j_bbl j2 = j_bbl (js_j s))).
  { rewrite (lem blk_start_ph). unfold Geom.TT. destruct (Z.leb_spec (NB * PB) ((b mod NB + 1) * PB)) as [Hw|Hw].
    - assert (Hbn : b mod NB + 1 = NB) by nia.
      destruct (divmod_wrap NB b 1 ltac:(lia) Hbn) as [Hd1 Hd2].
      eexists. split; [reflexivity|]. rewrite Hd2. cbn. rewrite He. split_and!; auto.
      + symmetry. by apply (lem epo_succ).
      + by rewrite Z.mul_0_l, Z.eqb_refl.
    - assert (Hbn : b mod NB + 1 < NB) by nia.
      destruct (divmod_add NB b 1 ltac:(lia) ltac:(lia)) as [Hd1 Hd2].
      eexists. split; [reflexivity|]. rewrite Hd2. cbn [set_head j1 j_head j_epoch j_tail j_buf j_ppc j_root j_bbc j_bbl]. rewrite He.
      assert (Hnz : ((b mod NB + 1) * PB =? 0) = false) by (apply Z.eqb_neq; nia). rewrite Hnz. split_and!; auto.
      symmetry. apply (lem epo_same). lia. }
  destruct Hstep as (j2 & E2 & J1 & J2 & J3 & J4 & J5 & J6 & J7).
  unfold bind at 1. rewrite E2. unfold bind at 1, getj at 1, gets at 1. cbn [js_n js_j].
  rewrite J1. rewrite (lem aligned_blk), (lem ph_off), (proj2 (lem blk_start (b + 1))).
  change (0 =? 0) with true. cbn [negb]. unfold bind at 1, getj at 1, gets at 1. cbn [js_n js_j].
  rewrite J3, Ht. rewrite (lem align_eq_blk), !(lem ph_blk), (proj1 (lem blk_start (b + 1))).
  rewrite (lem shiftr_blk), (lem ph_blk), (lem next_block_ph), (lem w32_blk).
  destruct (Z.eqb_spec ((b + 1) mod NB) ((tv / PB) mod NB)) as [E|Hne].
  - destruct (decide (tv / PB + NB = b + 1)) as [Hd|Hd].
    2: { exfalso. rewrite <-(mod_add_self (tv / PB) NB) in E by lia. apply (mod_inj NB) in E; lia. }
    eexists. split; [reflexivity|]. cbn. split_and!; auto.
  - destruct (decide (tv / PB + NB = b + 1)) as [Hd|Hd].
    { exfalso. apply Hne. rewrite <-Hd. by apply mod_add_self; lia. }
    eexists. split; [reflexivity|]. split_and!; auto. by rewrite J3.
Qed.
End stepg.
