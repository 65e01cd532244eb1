(** Specifications of the NAND operations at virtual positions. *)
From stdpp Require Import gmap.
From Verif Require Import Base Bytes BytesLemmas Wp Nand Journal Geom Tree Inv StepDI.
Local Open Scope Z_scope.

Section nand.
Context (g : geo) (c : Z) (Hg : geo_ok g c) (weak : Z -> bool).
Notation PB := (PB g).
Notation PC := (PC c).
Notation NB := (NB g).
Notation TT := (TT g).
Notation ph := (ph g).
Notation cellv := (cellv g).
Notation badv := (badv g).
Notation cell_ep := (cell_ep g).
Notation blk_ep := (blk_ep g c).
Notation nok := (nok g weak).

Lemma blk_phys v : blk_of g (ph v) = (v / PB) mod NB.
Proof. rewrite (blk_of_PB _ _ Hg). apply (ph_blk _ _ Hg). Qed.
Lemma block_ok_mod b : block_ok g (b mod NB) = true.
Proof. apply block_ok_NB. apply Z.mod_pos_bound. pose proof (NB_ge _ _ Hg). lia. Qed.
Lemma blk_ne_phys a b : a - NB < b < a -> b mod NB <> a mod NB.
Proof. intros H E. apply (mod_inj NB) in E; pose proof (NB_ge _ _ Hg); lia. Qed.

Lemma is_bad_spec n b : n_geo n = g -> nand_is_bad (b mod NB) n = (OK (badv n b), n).
Proof. intros E. unfold nand_is_bad. by rewrite E, block_ok_mod. Qed.

(** The chip changed only in the block of virtual number [hb]. *)
Record chg_blk (n n' : nand) (hb : Z) : Prop := {
  cb_bad : forall b, badv n' b = badv n b;
  cb_cell : forall u, hb - NB < u / PB < hb -> cellv n' u = cellv n u
}.

Lemma erase_spec n hb : nok n -> badv n hb = false ->
  wp (nand_erase (hb mod NB)) n (fun o n' => nok n' /\ chg_blk n n' hb /\
    (blk_ep n' hb = None \/ blk_ep n' hb = blk_ep n hb) /\
    match o with
    | OK _ => forall u, u / PB = hb -> cellv n' u = Free
    | ER e => e = E_BAD_BLOCK /\ weak (hb mod NB) = true
    | ST x => x = Crash
    end).
Proof.
  intros Hn Hb. unfold wp, nand_erase. rewrite (nk_geo _ _ _ Hn), block_ok_mod. cbn [negb].
  change (n_bad n (hb mod NB)) with (badv n hb). rewrite Hb.
  set (ev := n_orc n (n_tick n) (OpErase (hb mod NB))).
  assert (Hcells : forall f n', n_geo n' = g -> n_bad n' = n_bad n -> n_orc n' = n_orc n ->
     n_cell n' = erase_cells g (hb mod NB) f (n_cell n) ->
     nok n' /\ chg_blk n n' hb /\ (blk_ep n' hb = None \/ blk_ep n' hb = blk_ep n hb)).
  { intros f n' E1 E2 E3 E4. split_and!.
    - destruct Hn. split; [done| |by rewrite E2|by rewrite E3].
      intros p d. rewrite E4. unfold erase_cells.
      destruct (_ =? _); [|apply nk_len]. destruct (f p); cbn; [done|apply nk_len|done].
    - split.
      + intros b. unfold Inv.badv. by rewrite E2.
      + intros u Hu. unfold Inv.cellv. rewrite E4. unfold erase_cells.
        rewrite blk_phys. destruct (Z.eqb_spec ((u / PB) mod NB) (hb mod NB)) as [E|]; [|done].
        by apply blk_ne_phys in E.
    - unfold Inv.blk_ep, Inv.cellv. rewrite E4. unfold erase_cells.
      rewrite blk_phys, (proj1 (fcp_facts _ _ Hg hb)), Z.eqb_refl.
      destruct (f _); cbn [erase_eff].
      + left. apply cell_ep_free.
      + by right.
      + left. apply cell_ep_junk. }
  destruct ev as [|f|f] eqn:Eev; cbn [fst snd].
  - destruct (Hcells (fun _ => EDone) 
      (set_cells (erase_cells (n_geo (bump_tick n)) (hb mod NB) (fun _ => EDone) (n_cell (bump_tick n))) (bump_erase (hb mod NB) (bump_tick n))))
      as (H1 & H2 & H3); try done.
    { by destruct Hn. } { cbn. by rewrite (nk_geo _ _ _ Hn). }
    split_and!; auto. intros u Hu. unfold Inv.cellv. cbn. rewrite (nk_geo _ _ _ Hn).
    unfold erase_cells. rewrite blk_phys, Hu, Z.eqb_refl. done.
  - destruct (Hcells f (set_cells (erase_cells (n_geo (bump_tick n)) (hb mod NB) f (n_cell (bump_tick n))) (bump_erase (hb mod NB) (bump_tick n))))
      as (H1 & H2 & H3); try done.
    { by destruct Hn. } { cbn. by rewrite (nk_geo _ _ _ Hn). }
    split_and!; auto.
    destruct Hn as [_ _ _ [He _]]. by eapply He.
  - destruct (Hcells f (set_cells (erase_cells (n_geo (bump_tick n)) (hb mod NB) f (n_cell (bump_tick n))) (bump_erase (hb mod NB) (bump_tick n))))
      as (H1 & H2 & H3); try done.
    { by destruct Hn. } { cbn. by rewrite (nk_geo _ _ _ Hn). }
Qed.

Lemma tail_free_spec n hv : n_geo n = g ->
  (forall u, hv <= u -> u / PB = hv / PB -> cellv n u = Free) ->
  tail_free g (n_cell n) (ph hv) = true.
Proof.
  intros E Hf. unfold tail_free. apply forallb_forall. intros i Hi%in_seq.
  assert (Hoff : ppb g - Z.land (ph hv) (ppb g - 1) = PB - hv mod PB).
  { rewrite (ppb_PB _ _ Hg). unfold Geom.PB at 2.
    replace (2 ^ g_lppb g - 1) with (Z.shiftl 1 (g_lppb g) - 1) by (rewrite Z.shiftl_1_l; done).
    rewrite land_mask by apply (a_nonneg _ _ Hg). fold PB. by rewrite (ph_off _ _ Hg). }
  rewrite Hoff in Hi. pose proof (off_range _ _ Hg hv).
  assert (Hk : 0 <= hv mod PB + Z.of_nat i < PB) by lia.
  rewrite <-(ph_add _ _ Hg) by done.
  change (n_cell n (ph (hv + Z.of_nat i))) with (cellv n (hv + Z.of_nat i)).
  rewrite Hf; [done|lia|]. by destruct (divmod_add PB hv (Z.of_nat i)) as [-> _]; [lia|lia|].
Qed.

Lemma cellv_set n p u x n' : n_cell n' = upd (n_cell n) p x ->
  cellv n' u = if decide (ph u = p) then x else cellv n u.
Proof.
  intros E. unfold Inv.cellv. rewrite E. unfold upd.
  destruct (Z.eqb_spec (ph u) p), (decide (ph u = p)); done.
Qed.

(** Outcome of programming the page at [hv]. *)
Record prog_eff (n n' : nand) (hv : Z) (x : cell) : Prop := {
  pe_ok : nok n';
  pe_bad : forall b, badv n' b = badv n b;
  pe_hv : cellv n' hv = x;
  pe_cell : forall u, hv / PB - NB < u / PB <= hv / PB -> u <> hv -> cellv n' u = cellv n u
}.

Lemma prog_spec n hv d : nok n -> badv n (hv / PB) = false ->
  (forall u, hv <= u -> u / PB = hv / PB -> cellv n u = Free) ->
  blen d = page_size g ->
  wp (nand_prog (ph hv) d) n (fun o n' => exists x, prog_eff n n' hv x /\
    match o with
    | OK _ => x = written g d
    | ER e => e = E_BAD_BLOCK /\ hv mod PB = 0 /\ weak ((hv / PB) mod NB) = true /\
              (x = written g d \/ (exists o, x = Junk o))
    | ST e => e = Crash /\ (x = written g d \/ x = Free \/ (exists o, x = Junk o))
    end).
Proof.
  intros Hn Hb Hf Hd. unfold wp, nand_prog. rewrite (nk_geo _ _ _ Hn), (ph_ok _ _ Hg). cbn [negb].
  rewrite blk_phys. change (n_bad n ((hv / PB) mod NB)) with (badv n (hv / PB)). rewrite Hb.
  rewrite tail_free_spec by (auto; by destruct Hn). cbn [negb].
  rewrite (proj2 (Z.eqb_eq _ _) Hd). cbn [negb].
  set (ev := n_orc n (n_tick n) (OpProg (ph hv))).
  assert (Hput : forall x n', n_geo n' = g -> n_bad n' = n_bad n -> n_orc n' = n_orc n ->
     n_cell n' = upd (n_cell n) (ph hv) x -> (forall d', x = Data d' -> blen d' = page_size g) ->
     prog_eff n n' hv x).
  { intros x n' E1 E2 E3 E4 Hx. split.
    - destruct Hn. split; [done| |by rewrite E2|by rewrite E3].
      intros p d'. rewrite E4. unfold upd. destruct (_ =? _); [apply Hx|apply nk_len].
    - intros b. unfold Inv.badv. by rewrite E2.
    - rewrite (cellv_set _ _ _ _ _ E4). by rewrite decide_True.
    - intros u Hu Hne. rewrite (cellv_set _ _ _ _ _ E4).
      destruct (decide (ph u = ph hv)) as [E|]; [|done].
      apply (win_page _ _ Hg (hv / PB)) in E; [done|lia|]. pose proof (NB_ge _ _ Hg). lia. }
  assert (Hw : forall d', written g d = Data d' -> blen d' = page_size g).
  { intros d'. unfold written. destruct (_ && _); [done|]. by intros [= <-]. }
  assert (Hg' : n_geo n = g) by by destruct Hn.
  assert (Hwe : match ev with EvFail _ => hv mod PB = 0 /\ weak ((hv / PB) mod NB) = true | _ => True end).
  { destruct ev as [|f|f] eqn:E; auto. destruct Hn as [_ _ _ [_ Hp]]. apply Hp in E as [E1 E2].
    by rewrite (ph_off _ _ Hg) in E1; rewrite (ph_blk _ _ Hg) in E2. }
  destruct ev as [|f|f]; cbn [fst snd].
  - eexists. split; [apply Hput|]; done.
  - destruct (f (ph hv)); eexists; (split; [apply Hput; done|]); naive_solver.
  - destruct (f (ph hv)).
    + eexists; (split; [apply Hput; done|]); naive_solver.
    + exists Free. split; [|naive_solver].
      assert (Hfr : cellv n hv = Free) by (apply Hf; done).
      split; try done.
      * destruct Hn. by split.
    + eexists; (split; [apply Hput; done|]); naive_solver.
Qed.

Lemma mark_spec n b : nok n -> weak (b mod NB) = true ->
  wp (nand_mark_bad (b mod NB)) n (fun o n' => nok n' /\
    (forall u, cellv n' u = cellv n u) /\
    (forall b', b - NB < b' < b -> badv n' b' = badv n b') /\
    match o with
    | OK _ => badv n' b = true
    | ST x => x = Crash /\ (badv n' b = true \/ badv n' b = badv n b)
    | ER _ => False
    end).
Proof.
  intros Hn Hw. unfold wp, nand_mark_bad. rewrite (nk_geo _ _ _ Hn), block_ok_mod. cbn [negb].
  set (m := set_bads (upd (n_bad (bump_tick n)) (b mod NB) true) (bump_tick n)).
  assert (Hm : nok m /\ (forall u, cellv m u = cellv n u) /\
    (forall b', b - NB < b' < b -> badv m b' = badv n b') /\ badv m b = true).
  { split_and!.
    - destruct Hn. split; auto. cbn. intros b'. unfold upd.
      destruct (Z.eqb_spec b' (b mod NB)) as [->|]; auto.
    - done.
    - intros b' Hb'. unfold Inv.badv. cbn. unfold upd.
      destruct (Z.eqb_spec (b' mod NB) (b mod NB)) as [E|]; [|done]. by apply blk_ne_phys in E.
    - unfold Inv.badv. cbn. unfold upd. by rewrite Z.eqb_refl. }
  destruct Hm as (H1 & H2 & H3 & H4).
  assert (Hb : nok (bump_tick n)) by (destruct Hn; by split).
  destruct (n_orc n (n_tick n) _) as [|f|f]; cbn [fst snd]; auto.
  destruct (f 0); cbn [fst snd]; split_and!; auto.
Qed.

Lemma is_free_spec n v : n_geo n = g -> nand_is_free (ph v) n = (OK (is_freec (cellv n v)), n).
Proof. intros E. unfold nand_is_free. by rewrite E, (ph_ok _ _ Hg). Qed.

Lemma read_spec n v off len : n_geo n = g -> 0 <= off -> 0 <= len -> off + len <= page_size g ->
  nand_read (ph v) off len n =
    (match cell_bytes g (cellv n v) with Some d => OK (slice off len d) | None => ER E_ECC end, n).
Proof.
  intros E H1 H2 H3. unfold nand_read. rewrite E, (ph_ok _ _ Hg). cbn [negb].
  rewrite (proj2 (Z.leb_le 0 off)), (proj2 (Z.leb_le 0 len)), (proj2 (Z.leb_le _ _)) by done. cbn.
  unfold Inv.cellv. by destruct (cell_bytes g _).
Qed.
End nand.
