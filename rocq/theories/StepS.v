(** Resuming: the journal found on the chip after power-up is the one the disk
    invariant describes. *)
From stdpp Require Import gmap.
From Verif Require Import Base Bytes BytesLemmas Wp Nand Journal MapModel Geom Tree Rep Inv Hdr StepDI StepNand StepJ StepA StepR.
Local Open Scope Z_scope.

Section steps.
Context (g : geo) (c : Z) (Hg : geo_ok g c) (weak : Z -> bool) (Hdense : dense g weak).
Notation PB := (PB g).
Notation PC := (PC c).
Notation NB := (NB g).
Notation TT := (TT g).
Notation GP := (GP g c).
Notation ph := (ph g).
Notation user := (user c).
Notation nextv := (nextv c).
Notation cpv := (cpv c).
Notation cellv := (cellv g).
Notation badv := (badv g).
Notation cell_ep := (cell_ep g).
Notation blk_ep := (blk_ep g c).
Notation fcp := (fcp g c).
Notation epo := (epo g).
Notation moff := (moff c).
Notation kmeta := (kmeta g c).
Notation kd_ok := (kd_ok g c).
Notation DI := (DI g c).
Notation nok := (nok g weak).
Notation JInv := (JInv g c).
Notation JI := (JI g c weak).

Ltac pose_geo :=
  pose proof (PC_ge _ _ Hg) as HPC4; pose proof (PC_le _ _ Hg) as HPC256;
  pose proof (PB_pos _ _ Hg) as HPB4; pose proof (PB_ge _ _ Hg) as HPBC;
  pose proof (NB_ge _ _ Hg) as HNB8; pose proof (TT_le _ _ Hg) as HTT31;
  pose proof (TT_pos _ _ Hg) as HTTpos; pose proof (GP_ge _ _ Hg) as HGP1;
  pose proof (PB_def _ _ Hg) as HPBdef.
Notation "'lem' x" := (x g c Hg) (at level 9, x at level 8, only parsing).

Lemma set_buf_id j : set_buf (j_buf j) j = j. Proof. by destruct j. Qed.
Lemma Js_id s : Js (js_n s) (js_j s) = s. Proof. by destruct s. Qed.

(** ** Reading pages *)
Lemma read_page_buf_eq s p : nok (js_n s) -> 0 <= p < TT ->
  read_page_buf p s = match cell_bytes g (n_cell (js_n s) p) with
    | Some d => (OK tt, Js (js_n s) (set_buf d (js_j s)))
    | None => (ER E_ECC, s)
    end.
Proof.
  intros Hn Hp. pose proof (page_size_pos g c Hg) as Hps.
  unfold read_page_buf, bind, getg, gets. rewrite (nk_geo _ _ _ Hn). unfold io, zoom.
  rewrite <-(ph_small g p) at 1 by done.
  rewrite (read_spec g c Hg) by (auto; try lia; apply Hn).
  unfold Inv.cellv. rewrite (ph_small g p) by done.
  destruct (cell_bytes g (n_cell (js_n s) p)) as [d|] eqn:E.
  - rewrite slice_all; [by destruct s|]. symmetry. eapply (cell_len g c Hg weak); eauto.
  - by destruct s.
Qed.

(** Epoch stored in physical block [i]. *)
Definition pe (n : nand) (i : Z) : option Z :=
  if n_bad n i then None else cell_ep (n_cell n (i * PB + (PC - 1))).

Lemma fcp_phys b : ph (fcp b) = (b mod NB) * PB + (PC - 1).
Proof.
  pose_geo. unfold Inv.fcp. rewrite (lem ph_add).
  - by rewrite (lem blk_start_ph).
  - rewrite (proj2 (lem blk_start b)). lia.
Qed.
Lemma pe_virt n b : pe n (b mod NB) = if badv n b then None else blk_ep n b.
Proof. unfold pe, Inv.badv, Inv.blk_ep, Inv.cellv. by rewrite fcp_phys. Qed.

Lemma page_in i o : 0 <= i < NB -> 0 <= o < PB -> 0 <= i * PB + o < TT.
Proof. intros. unfold Geom.TT. nia. Qed.

Lemma cp_page i : 0 <= i < NB ->
  Z.lor (w32 (Z.shiftl i (g_lppb g))) (Z.shiftl 1 c - 1) = i * PB + (PC - 1).
Proof.
  intros Hi. pose_geo. rewrite (lem shiftl_blk).
  pose proof (page_in i 0 Hi ltac:(lia)) as Hr. rewrite w32_small by lia.
  rewrite (lem cp_grp). f_equal. rewrite HPBdef.
  replace (i * (PC * GP)) with (i * GP * PC) by lia. by rewrite Z.div_mul by lia.
Qed.

Definition fc_post (n : nand) (j0 : journal) (blk i : Z) (r : out Z * js) : Prop :=
  (exists j e b, blk <= j < blk + i /\ j < NB /\ pe n j = Some e /\
     (forall k, blk <= k < j -> pe n k = None) /\
     hdr_get_epoch b = e /\ blen b = page_size g /\
     r = (OK j, Js n (set_buf b j0))) \/
  ((forall k, blk <= k < blk + i -> k < NB -> pe n k = None) /\
     exists b, (blen (j_buf j0) = page_size g -> blen b = page_size g) /\ r = (ER E_TOO_BAD, Js n (set_buf b j0))).

Lemma find_checkblock_loop_spec i : forall blk s, nok (js_n s) -> j_ppc (js_j s) = c -> 0 <= blk <= NB ->
  fc_post (js_n s) (js_j s) blk (Z.of_nat i) (find_checkblock_loop i blk s).
Proof.
  induction i as [|i IH]; intros blk s Hn Hc Hb; cbn [find_checkblock_loop]; pose_geo.
  { right. split; [lia|]. exists (j_buf (js_j s)). split; [done|]. rewrite set_buf_id, Js_id. reflexivity. }
  unfold bind at 1, getg at 1, gets at 1. rewrite (nk_geo _ _ _ Hn).
  change (g_nblk g) with NB.
  destruct (Z.ltb_spec blk NB) as [Hlt|Hge].
  2: { right. split; [lia|]. exists (j_buf (js_j s)). split; [done|]. rewrite set_buf_id, Js_id. reflexivity. }
  unfold bind at 1, getj at 1, gets at 1. rewrite Hc. rewrite cp_page by lia.
  unfold bind at 1, io at 1, zoom at 1, nand_is_bad at 1. rewrite (nk_geo _ _ _ Hn).
  rewrite (proj2 (block_ok_NB g blk)) by lia.
  replace (put_n (js_n s) s) with s by by destruct s.
  assert (Hnext : forall s', js_n s' = js_n s -> (exists b0, js_j s' = set_buf b0 (js_j s) /\
      (blen (j_buf (js_j s)) = page_size g -> blen b0 = page_size g)) ->
    pe (js_n s) blk = None ->
    fc_post (js_n s) (js_j s) blk (Z.of_nat (S i)) (find_checkblock_loop i (w32 (blk + 1)) s')).
  { intros s' En (b0 & Ej & Hbl) Hpe. assert (Hnb : NB <= TT) by (unfold Geom.TT; nia).
    rewrite w32_small by lia.
    destruct (IH (blk + 1) s') as [(j & e & b & H1 & H2 & H3 & H4 & H5 & H6 & H7)|[H1 (b & H6 & H2)]].
    - by rewrite En.
    - by rewrite Ej.
    - lia.
    - left. exists j, e, b. rewrite En, Ej in *. split_and!; auto; try lia.
      intros k Hk. destruct (Z.eq_dec k blk) as [->|]; [done|]. apply H4. lia.
    - right. rewrite En, Ej in *. split.
      + intros k Hk Hk2. destruct (Z.eq_dec k blk) as [->|]; [done|]. apply H1; lia.
      + exists b. split; [|done]. intros Hx. apply H6. cbn. auto. }
  destruct (n_bad (js_n s) blk) eqn:Ebad.
  { unfold bind at 1, ret at 1. apply Hnext; [done| |by unfold pe; rewrite Ebad].
    exists (j_buf (js_j s)). by rewrite set_buf_id. }
  unfold bind at 1. unfold bind at 1. unfold attempt at 1.
  rewrite read_page_buf_eq by (auto; apply page_in; lia).
  assert (Epe : pe (js_n s) blk = cell_ep (n_cell (js_n s) (blk * PB + (PC - 1)))).
  { unfold pe. by rewrite Ebad. }
  unfold Inv.cell_ep in Epe.
  destruct (cell_bytes g (n_cell (js_n s) (blk * PB + (PC - 1)))) as [d|] eqn:Ed.
  - assert (Hd : blen d = page_size g) by (eapply (cell_len g c Hg weak); eauto).
    cbn [js_n js_j]. unfold bind at 1, getj at 1, gets at 1, ret at 1. cbn [js_n js_j].
    change (j_buf (set_buf d (js_j s))) with d.
    destruct (hdr_has_magic d).
    + unfold ret. left. exists blk, (hdr_get_epoch d), d. split_and!; auto; lia.
    + apply Hnext; [done|by exists d|done].
  - unfold ret at 1. apply Hnext; [done| |done].
    exists (j_buf (js_j s)). by rewrite set_buf_id.
Qed.

(** ** Which blocks hold which epoch *)
Record cbfacts (n : nand) (cbp E : Z) : Prop := {
  cf_r : 0 <= cbp < NB;
  cf_1 : pe n cbp = Some E;
  cf_2 : forall i, 0 <= i <= cbp -> pe n i = None \/ pe n i = Some E;
  cf_3 : forall i, cbp < i < NB -> pe n i <> Some E;
  cf_4 : forall i, 0 <= i <= cbp -> exists j, i <= j < i + 8 /\ j <= cbp /\ pe n j = Some E
}.

Lemma find_checkblock_ok s cbp E i : nok (js_n s) -> j_ppc (js_j s) = c -> cbfacts (js_n s) cbp E ->
  0 <= i <= cbp -> exists j b, i <= j <= cbp /\ hdr_get_epoch b = E /\ blen b = page_size g /\
    find_checkblock i s = (OK j, Js (js_n s) (set_buf b (js_j s))).
Proof.
  intros Hn Hc [Hr F1 F2 F3 F4] Hi. unfold find_checkblock.
  destruct (F4 i Hi) as (j0 & Hj1 & Hj2 & Hj3).
  destruct (find_checkblock_loop_spec MAX_RETRIES i s Hn Hc ltac:(lia))
    as [(j & e & b & H1 & H2 & H3 & H4 & H5 & H6 & H7)|[H1 _]].
  - assert (Hjj : j <= j0).
    { destruct (Z.le_gt_cases j j0) as [|Hgt]; [done|]. rewrite H4 in Hj3 by lia. done. }
    exists j, b. split_and!; auto; try lia.
    destruct (F2 j ltac:(lia)); congruence.
  - rewrite H1 in Hj3; [done|unfold MAX_RETRIES; lia|lia].
Qed.

Lemma badv_good n b : nok n -> weak (b mod NB) = false -> badv n b = false.
Proof.
  intros Hn Hw. destruct (badv n b) eqn:E; [|done]. apply (nk_bad _ _ _ Hn) in E. congruence.
Qed.

Lemma cbfacts_DI n hv sv D : nok n -> DI n hv sv D -> 0 <= cv D ->
  cbfacts n ((cv D / PB) mod NB) (epo (cv D / PB)).
Proof.
  intros Hn HD Hc. pose_geo. set (cb := cv D / PB). set (cbp := cb mod NB).
  pose proof (Z.mod_pos_bound cb NB ltac:(lia)) as Hr. fold cbp in Hr.
  pose proof (Z.div_mod cb NB ltac:(lia)) as Edm. fold cbp in Edm.
  assert (Hcb0 : 0 <= cb) by (apply Z.div_pos; lia).
  assert (Hq0 : 0 <= cb / NB) by (apply Z.div_pos; lia).
  pose proof (d_ep _ _ _ _ _ _ HD) as Hep. fold cb in Hep.
  assert (Hcbe : pe n cbp = Some (epo cb)).
  { unfold cbp. rewrite pe_virt. destruct (d_cp _ _ _ _ _ _ HD Hc) as [Hb _]. fold cb in Hb. rewrite Hb.
    destruct (Hep cb) as [H|(_ & H & _)]; try lia; auto.
    rewrite H. by destruct (decide (cb < 0)); [lia|]. }
  assert (Hlow : forall i, 0 <= i <= cbp -> (cb - cbp + i) mod NB = i /\ (cb - cbp + i) / NB = cb / NB).
  { intros i Hi. replace (cb - cbp + i) with (i + (cb / NB) * NB) by lia.
    rewrite Z.mod_add, Z.div_add by lia. rewrite Z.mod_small, Z.div_small by lia. lia. }
  split; auto.
  - intros i Hi. destruct (Hlow i Hi) as [E1 E2]. rewrite <-E1, pe_virt.
    destruct (badv n (cb - cbp + i)) eqn:Eb; [by left|].
    destruct (Hep (cb - cbp + i)) as [H|(H & _)]; try lia; auto.
    rewrite H. destruct (decide _); [by left|right]. unfold Inv.epo. by rewrite E2.
  - intros i Hi. 
    assert (E1 : (cb - cbp + i - NB) mod NB = i /\ (cb - cbp + i - NB) / NB = cb / NB - 1).
    { replace (cb - cbp + i - NB) with (i + (cb / NB - 1) * NB) by lia.
      rewrite Z.mod_add, Z.div_add by lia. rewrite Z.mod_small, Z.div_small by lia. lia. }
    destruct E1 as [E1 E2]. rewrite <-E1, pe_virt.
    destruct (badv n (cb - cbp + i - NB)) eqn:Eb; [done|].
    destruct (Hep (cb - cbp + i - NB)) as [H|(H & _)]; try lia; auto; rewrite H; [|done].
    destruct (decide _); [done|]. unfold Inv.epo. rewrite E2. intros [=E3].
    apply (mod_inj 256) in E3; lia.
  - intros i Hi. destruct (Z.lt_ge_cases (cbp - i) 8).
    { exists cbp. split_and!; auto; lia. }
    destruct (Hdense (cb - cbp + i)) as (x & y & Hxy & Hy & Hwx & Hwy).
    apply (badv_good n) in Hwx, Hwy; auto.
    exists (i + y). split; [lia|]. split; [lia|].
    destruct (Hlow (i + y) ltac:(lia)) as [E1 E2].
    rewrite <-E1, pe_virt. replace (cb - cbp + (i + y)) with (cb - cbp + i + y) in * by lia. rewrite Hwy.
    destruct (Hep (cb - cbp + i + y)) as [H1|(_ & _ & H1)]; try lia; auto.
    + rewrite H1. destruct (decide _); [lia|]. unfold Inv.epo. by rewrite E2.
    + rewrite <-(badv_per g c Hg), H1 in Hwx; [done|]. lia.
Qed.

(** ** Binary search for the last block of the current epoch *)
Lemma find_checkblock_cur_le s cbp i : nok (js_n s) -> j_ppc (js_j s) = c ->
  cbfacts (js_n s) cbp (j_epoch (js_j s)) -> 0 <= i <= cbp ->
  exists j b, i <= j <= cbp /\ blen b = page_size g /\
    find_checkblock_cur i s = (OK (Some j), Js (js_n s) (set_buf b (js_j s))).
Proof.
  intros Hn Hc HF Hi. unfold find_checkblock_cur, bind, attempt.
  destruct (find_checkblock_ok s cbp _ i Hn Hc HF Hi) as (j & b & H1 & H2 & H3 & H4).
  exists j, b. split; [done|]. split; [done|]. rewrite H4. unfold getj, gets, ret. cbn [js_j js_n]. change (j_buf (set_buf b (js_j s))) with b. change (j_epoch (set_buf b (js_j s))) with (j_epoch (js_j s)).
  by rewrite H2, Z.eqb_refl.
Qed.
Lemma find_checkblock_cur_gt s cbp i : nok (js_n s) -> j_ppc (js_j s) = c ->
  cbfacts (js_n s) cbp (j_epoch (js_j s)) -> cbp < i <= NB ->
  exists b, (blen (j_buf (js_j s)) = page_size g -> blen b = page_size g) /\
    find_checkblock_cur i s = (OK None, Js (js_n s) (set_buf b (js_j s))).
Proof.
  intros Hn Hc [Hr F1 F2 F3 F4] Hi. unfold find_checkblock_cur, bind, attempt, find_checkblock.
  destruct (find_checkblock_loop_spec MAX_RETRIES i s Hn Hc ltac:(lia))
    as [(j & e & b & H1 & H2 & H3 & H4 & H5 & H6 & H7)|[H1 (b & H6 & H2)]].
  - exists b. split; [done|]. rewrite H7. unfold getj, gets, ret. cbn [js_j js_n]. change (j_buf (set_buf b (js_j s))) with b. change (j_epoch (set_buf b (js_j s))) with (j_epoch (js_j s)).
    destruct (Z.eqb_spec (hdr_get_epoch b) (j_epoch (js_j s))) as [E|]; [|done].
    exfalso. apply (F3 j); [lia|]. congruence.
  - exists b. split; [done|]. by rewrite H2.
Qed.

Lemma flcb_loop_spec fuel : forall s cbp first low high,
  nok (js_n s) -> j_ppc (js_j s) = c -> blen (j_buf (js_j s)) = page_size g ->
  cbfacts (js_n s) cbp (j_epoch (js_j s)) ->
  0 <= low <= cbp -> cbp <= high -> high < NB -> high - low < Z.of_nat fuel ->
  exists b, blen b = page_size g /\
    find_last_checkblock_loop fuel first low high s = (OK cbp, Js (js_n s) (set_buf b (js_j s))).
Proof.
  induction fuel as [|fuel IH]; intros s cbp first low high Hn Hc Hbl HF Hlo Hhi Hh Hm; [lia|].
  cbn [find_last_checkblock_loop]. pose_geo.
  assert (Hnb : NB <= 268435456 * 2) by (unfold Geom.TT in *; nia).
  rewrite (proj2 (Z.leb_le low high)) by lia.
  rewrite w32_small by lia. rewrite Z.shiftr_div_pow2 by lia. change (2 ^ 1) with 2.
  set (mid := (low + high) / 2).
  assert (Hmid : low <= mid <= high).
  { unfold mid. split; [apply Z.div_le_lower_bound|apply Z.div_le_upper_bound]; lia. }
  unfold bind at 1.
  destruct (Z.le_gt_cases mid cbp) as [Hle|Hgt].
  - destruct (find_checkblock_cur_le s cbp mid Hn Hc HF ltac:(lia)) as (j & b & H1 & H2 & H3).
    rewrite H3. unfold bind at 1, getg at 1, gets at 1. cbn [js_n js_j]. rewrite (nk_geo _ _ _ Hn).
    rewrite w32_small by lia. change (g_nblk g) with NB.
    set (s1 := Js (js_n s) (set_buf b (js_j s))) in *.
    destruct (Z.leb_spec NB (j + 1)).
    + exists b. split; [done|]. unfold ret. by replace cbp with j by lia.
    + unfold bind at 1.
      destruct (Z.eq_dec j cbp) as [->|Hne].
      * destruct (find_checkblock_cur_gt s1 cbp (cbp + 1) Hn Hc HF ltac:(lia)) as (b2 & H4 & H5).
        rewrite H5. exists b2. split; [by apply H4|]. done.
      * destruct (find_checkblock_cur_le s1 cbp (j + 1) Hn Hc HF ltac:(lia)) as (k & b2 & H4 & H5 & H6).
        rewrite H6. destruct (IH (Js (js_n s1) (set_buf b2 (js_j s1))) cbp first k high) as (b3 & H7 & H8); auto; try lia.
        exists b3. split; [done|]. rewrite H8. done.
  - destruct (find_checkblock_cur_gt s cbp mid Hn Hc HF ltac:(lia)) as (b & H1 & H2).
    rewrite H2. destruct (Z.eqb_spec mid 0); [lia|].
    destruct (IH (Js (js_n s) (set_buf b (js_j s))) cbp first low (mid - 1)) as (b3 & H7 & H8); auto; try lia.
    exists b3. split; [done|]. rewrite H8. done.
Qed.

Lemma find_last_checkblock_spec s cbp first :
  nok (js_n s) -> j_ppc (js_j s) = c -> blen (j_buf (js_j s)) = page_size g ->
  cbfacts (js_n s) cbp (j_epoch (js_j s)) -> 0 <= first <= cbp ->
  exists b, blen b = page_size g /\
    find_last_checkblock first s = (OK cbp, Js (js_n s) (set_buf b (js_j s))).
Proof.
  intros Hn Hc Hbl HF Hf. pose_geo. unfold find_last_checkblock, bind, getg, gets.
  rewrite (nk_geo _ _ _ Hn). change (g_nblk g) with NB.
  assert (Hnb : NB <= 268435456 * 2) by (unfold Geom.TT in *; nia).
  rewrite w32_small by lia. destruct (cf_r _ _ _ HF).
  apply flcb_loop_spec; auto; lia.
Qed.
End steps.
