(** Bad-block recovery in the journal: the state between a program failure in
    the middle of a block and the end of the relocation. *)
From stdpp Require Import gmap fin_maps.
From Verif Require Import Base Bytes BytesLemmas Wp Nand Journal MapModel Geom Tree Rep Inv Hdr StepDI StepNand StepJ StepA StepR San Top Bm.
Local Open Scope Z_scope.

(** Errors after which nothing is claimed when a program failed in the middle of
    a block: the refutations of C21-C24 show why. *)
Definition leak (e : err) : Prop := e = E_JOURNAL_FULL \/ e = E_ECC \/ e = E_TOO_BAD.

(** Fields that moving the head to another block does not touch. *)
Record jr2 (j j' : journal) : Prop := {
  r2_buf : j_buf j' = j_buf j;
  r2_ppc : j_ppc j' = j_ppc j;
  r2_recov : j_recov j' = j_recov j;
  r2_enum : j_enum j' = j_enum j;
  r2_tsync : j_tsync j' = j_tsync j;
  r2_tail : j_tail j' = j_tail j;
  r2_root : j_root j' = j_root j;
  r2_rmeta : j_rmeta j' = j_rmeta j;
  r2_rroot : j_rroot j' = j_rroot j;
  r2_rnext : j_rnext j' = j_rnext j;
  r2_badmeta : j_badmeta j' = j_badmeta j
}.
Lemma jr2_refl j : jr2 j j. Proof. by split. Qed.
Lemma jr2_trans j1 j2 j3 : jr2 j1 j2 -> jr2 j2 j3 -> jr2 j1 j3.
Proof. intros [] []. split; congruence. Qed.

(** Transport of specifications from the sanitised chip. *)
Lemma wp_ag {St A} (sf : St -> St) (m : M St A) s (Q : out A -> St -> Prop) :
  ag sf m s -> wp m (sf s) Q -> wp m s (fun o s' => Q o (sf s')).
Proof. unfold ag, wp. intros ->. done. Qed.

Section rec.
Context (g : geo) (c : Z) (Hg : geo_ok2 g c) (weak : Z -> bool) (Hdense : dense g weak).
Notation PB := (PB g).
Notation PC := (PC c).
Notation NB := (NB g).
Notation TT := (TT g).
Notation ph := (ph g).
Notation user := (user c).
Notation nextv := (nextv c).
Notation cpv := (cpv c).
Notation cellv := (cellv g).
Notation badv := (badv g).
Notation cell_ep := (cell_ep g).
Notation blk_ep := (blk_ep g c).
Notation epo := (epo g).
Notation moff := (moff c).
Notation fcp := (fcp g c).
Notation kmeta := (kmeta g c).
Notation kd_ok := (kd_ok g c).
Notation DI := (DI g c).
Notation nok := (nok g weak).
Notation JInv := (JInv g c).
Notation JI := (JI g c weak).

Ltac pose_geo :=
  pose proof (PC_ge4 _ (go2_c _ _ Hg)) as HPC4; pose proof (PC_le _ _ Hg) as HPC256;
  pose proof (PB_pos _ _ Hg) as HPB4; pose proof (PB_ge _ _ Hg) as HPBC;
  pose proof (NB_ge _ _ Hg) as HNB8; pose proof (TT_le _ _ Hg) as HTT31;
  pose proof (TT_pos _ _ Hg) as HTTpos.
Notation "'lem' x" := (x g c Hg) (at level 9, x at level 8, only parsing).

(** Faults: power loss, erase and program failures of weak blocks, at any page. *)
Record nokF (n : nand) : Prop := {
  nf_geo : n_geo n = g;
  nf_len : forall p d, n_cell n p = Data d -> blen d = page_size g;
  nf_bad : forall b, n_bad n b = true -> weak b = true;
  nf_er : forall t b f, n_orc n t (OpErase b) = EvFail f -> weak b = true;
  nf_pr : forall t p f, n_orc n t (OpProg p) = EvFail f -> weak (p / PB) = true
}.
Lemma nokF_san n : nokF n -> nok (san n).
Proof.
  intros []. split; auto. split.
  - intros t b f H. cbn in H. eauto.
  - intros t p f H. cbn in H. rewrite nf_geo0 in H. fold PB in H.
    destruct (Z.eqb_spec (p mod PB) 0) as [E|E]; [eauto|]. destruct (n_orc n t (OpProg p)); done.
Qed.
Lemma san_nokF n : nok (san n) -> (forall t p f, n_orc n t (OpProg p) = EvFail f -> weak (p / PB) = true) -> nokF n.
Proof. intros [H1 H2 H3 [H4 H5]] H. split; auto. Qed.

(** ** Chip operations *)
Lemma eraseF n hb : nokF n -> badv n hb = false ->
  wp (nand_erase (hb mod NB)) n (fun o n' => nokF n' /\ chg_blk g n n' hb /\
    match o with
    | OK _ => forall u, u / PB = hb -> cellv n' u = Free
    | ER e => e = E_BAD_BLOCK /\ weak (hb mod NB) = true
    | ST x => x = Crash
    end).
Proof.
  intros Hn Hb. unfold wp, nand_erase. rewrite (nf_geo _ Hn), (lem block_ok_mod). cbn [negb].
  change (n_bad n (hb mod NB)) with (badv n hb). rewrite Hb.
  assert (Hcells : forall f n', n_geo n' = g -> n_bad n' = n_bad n -> n_orc n' = n_orc n ->
     n_cell n' = erase_cells g (hb mod NB) f (n_cell n) -> nokF n' /\ chg_blk g n n' hb).
  { intros f n' E1 E2 E3 E4. split.
    - destruct Hn. split; [done| |by rewrite E2|by rewrite E3|by rewrite E3].
      intros p d. rewrite E4. unfold erase_cells.
      destruct (_ =? _); [|apply nf_len0]. destruct (f p); cbn; [done|apply nf_len0|done].
    - split.
      + intros b. unfold Inv.badv. by rewrite E2.
      + intros u Hu. unfold Inv.cellv. rewrite E4. unfold erase_cells.
        rewrite (lem blk_phys). destruct (Z.eqb_spec ((u / PB) mod NB) (hb mod NB)) as [E|]; [|done].
        by apply (lem blk_ne_phys) in E. }
  destruct (n_orc n (n_tick n) (OpErase (hb mod NB))) as [|f|f] eqn:Eev; cbn [fst snd].
  - destruct (Hcells (fun _ => EDone) 
      (set_cells (erase_cells (n_geo (bump_tick n)) (hb mod NB) (fun _ => EDone) (n_cell (bump_tick n))) (bump_erase (hb mod NB) (bump_tick n))))
      as (H1 & H2); try done.
    { by destruct Hn. } { cbn. by rewrite (nf_geo _ Hn). }
    split_and!; auto. intros u Hu. unfold Inv.cellv. cbn. rewrite (nf_geo _ Hn).
    unfold erase_cells. rewrite (lem blk_phys), Hu, Z.eqb_refl. done.
  - destruct (Hcells f (set_cells (erase_cells (n_geo (bump_tick n)) (hb mod NB) f (n_cell (bump_tick n))) (bump_erase (hb mod NB) (bump_tick n))))
      as (H1 & H2); try done.
    { by destruct Hn. } { cbn. by rewrite (nf_geo _ Hn). }
    split_and!; auto. by eapply (nf_er _ Hn).
  - destruct (Hcells f (set_cells (erase_cells (n_geo (bump_tick n)) (hb mod NB) f (n_cell (bump_tick n))) (bump_erase (hb mod NB) (bump_tick n))))
      as (H1 & H2); try done.
    { by destruct Hn. } { cbn. by rewrite (nf_geo _ Hn). }
Qed.

Record peF (n n' : nand) (hv : Z) (x : cell) : Prop := {
  pf_ok : nokF n';
  pf_bad : forall b, badv n' b = badv n b;
  pf_hv : cellv n' hv = x;
  pf_cell : forall u, hv / PB - NB < u / PB <= hv / PB -> u <> hv -> cellv n' u = cellv n u
}.

Lemma progF n hv d : nokF n -> badv n (hv / PB) = false ->
  (forall u, hv <= u -> u / PB = hv / PB -> cellv n u = Free) ->
  blen d = page_size g ->
  wp (nand_prog (ph hv) d) n (fun o n' => exists x, peF n n' hv x /\
    match o with
    | OK _ => x = written g d
    | ER e => e = E_BAD_BLOCK /\ weak ((hv / PB) mod NB) = true
    | ST e => e = Crash
    end).
Proof.
  intros Hn Hb Hf Hd. unfold wp, nand_prog. rewrite (nf_geo _ Hn), (lem ph_ok). cbn [negb].
  rewrite (lem blk_phys). change (n_bad n ((hv / PB) mod NB)) with (badv n (hv / PB)). rewrite Hb.
  rewrite (lem tail_free_spec) by (auto; by destruct Hn). cbn [negb].
  rewrite (proj2 (Z.eqb_eq _ _) Hd). cbn [negb].
  set (ev := n_orc n (n_tick n) (OpProg (ph hv))).
  assert (Hput : forall x n', n_geo n' = g -> n_bad n' = n_bad n -> n_orc n' = n_orc n ->
     n_cell n' = upd (n_cell n) (ph hv) x -> (forall d', x = Data d' -> blen d' = page_size g) ->
     peF n n' hv x).
  { intros x n' E1 E2 E3 E4 Hx. split.
    - destruct Hn. split; [done| |by rewrite E2|by rewrite E3|by rewrite E3].
      intros p d'. rewrite E4. unfold upd. destruct (_ =? _); [apply Hx|apply nf_len0].
    - intros b. unfold Inv.badv. by rewrite E2.
    - rewrite (cellv_set g _ _ _ _ _ E4). by rewrite decide_True.
    - intros u Hu Hne. rewrite (cellv_set g _ _ _ _ _ E4).
      destruct (decide (ph u = ph hv)) as [E|]; [|done].
      apply (win_page _ _ Hg (hv / PB)) in E; [done|lia|]. pose proof (NB_ge _ _ Hg). lia. }
  assert (Hw : forall d', written g d = Data d' -> blen d' = page_size g).
  { intros d'. unfold written. destruct (_ && _); [done|]. by intros [= <-]. }
  assert (Hg' : n_geo n = g) by by destruct Hn.
  assert (Hwe : match ev with EvFail _ => weak ((hv / PB) mod NB) = true | _ => True end).
  { destruct ev as [|f|f] eqn:E; auto. apply (nf_pr _ Hn) in E. by rewrite (lem ph_blk) in E. }
  destruct ev as [|f|f]; cbn [fst snd].
  - eexists. split; [apply Hput|]; done.
  - destruct (f (ph hv)); eexists; (split; [apply Hput; done|]); naive_solver.
  - destruct (f (ph hv)).
    + eexists; (split; [apply Hput; done|]); naive_solver.
    + exists Free. split; [|naive_solver].
      assert (Hfr : cellv n hv = Free) by (apply Hf; done).
      split; try done. destruct Hn. by split.
    + eexists; (split; [apply Hput; done|]); naive_solver.
Qed.

Lemma markF n b : nokF n -> weak (b mod NB) = true ->
  wp (nand_mark_bad (b mod NB)) n (fun o n' => nokF n' /\
    (forall u, cellv n' u = cellv n u) /\
    (forall b', b' mod NB <> b mod NB -> badv n' b' = badv n b') /\
    (forall b', badv n b' = true -> badv n' b' = true) /\
    match o with
    | OK _ => badv n' b = true
    | ST x => x = Crash
    | ER _ => False
    end).
Proof.
  intros Hn Hw. unfold wp, nand_mark_bad. rewrite (nf_geo _ Hn), (lem block_ok_mod). cbn [negb].
  set (m := set_bads (upd (n_bad (bump_tick n)) (b mod NB) true) (bump_tick n)).
  assert (Hm : nokF m /\ (forall u, cellv m u = cellv n u) /\
    (forall b', b' mod NB <> b mod NB -> badv m b' = badv n b') /\
    (forall b', badv n b' = true -> badv m b' = true) /\ badv m b = true).
  { split_and!.
    - destruct Hn. split; auto. cbn. intros b'. unfold upd.
      destruct (Z.eqb_spec b' (b mod NB)) as [->|]; auto.
    - done.
    - intros b' Hb'. unfold Inv.badv. cbn. unfold upd.
      destruct (Z.eqb_spec (b' mod NB) (b mod NB)) as [E|]; done.
    - intros b' Hb'. unfold Inv.badv in *. cbn. unfold upd. by destruct (_ =? _).
    - unfold Inv.badv. cbn. unfold upd. by rewrite Z.eqb_refl. }
  destruct Hm as (H1 & H2 & H3 & H4 & H5).
  assert (Hb : nokF (bump_tick n)) by (destruct Hn; by split).
  destruct (n_orc n (n_tick n) _) as [|f|f]; cbn [fst snd]; auto.
  destruct (f 0); cbn [fst snd]; split_and!; auto.
Qed.

(** ** skip_block *)
Lemma skipF s hv sv :
  n_geo (js_n s) = g -> j_head (js_j s) = ph hv -> j_tsync (js_j s) = ph sv ->
  j_epoch (js_j s) = epo (hv / PB) -> sv / PB <= hv / PB < sv / PB + NB ->
  wp skip_block s (fun o s' => match o with
    | OK _ => js_n s' = js_n s /\ jr2 (js_j s) (js_j s') /\
        j_head (js_j s') = ph ((hv / PB + 1) * PB) /\
        j_epoch (js_j s') = epo (hv / PB + 1) /\ hv / PB + 1 < sv / PB + NB
    | ER e => e = E_JOURNAL_FULL
    | ST _ => False
    end).
Proof.
  intros Eg Eh Et Ee Hb. pose_geo.
  unfold skip_block, wp, bind, getg, getj, modj, gets, modify. rewrite Eg, Eh, Et.
  rewrite !(lem shiftr_blk), !(lem ph_blk), (lem next_block_ph).
  destruct (Z.eqb_spec ((sv / PB) mod NB) ((hv / PB + 1) mod NB)) as [E|Hne]; [done|].
  assert (Hlt : hv / PB + 1 < sv / PB + NB).
  { destruct (Z.eq_dec (hv / PB + 1) (sv / PB + NB)) as [E|]; [|lia]. exfalso. apply Hne.
    rewrite E. by rewrite mod_add_self by lia. }
  cbn [js_j js_n]. rewrite (w32_blk g c Hg). change (j_head (set_head (ph ((hv / PB + 1) * PB)) (js_j s)))
    with (ph ((hv / PB + 1) * PB)).
  destruct (Z.eqb_spec (ph ((hv / PB + 1) * PB)) 0) as [E|E]; rewrite (ph_start_0 g c Hg) in E.
  - unfold roll_stats, modj, modify. cbn. split_and!; auto; [by split|].
    rewrite Ee. symmetry. by apply (lem epo_succ).
  - cbn. split_and!; auto; [by split|]. rewrite Ee. symmetry. by apply (lem epo_same).
Qed.

(** ** The invariant during recovery.  [rv] is the root when the block failed,
    [mo] the page the metadata buffer was saved to, [K0] the pages live when the
    block failed, [K] those live now.  [rc] tells whether the metadata was saved
    already. *)
Definition rmet (s : js) (rc : bool) (hv rv : Z) (mo : option Z) (v : Z) (m : bytes) : Prop :=
  if decide (v / PC = (if rc then hv else rv) / PC)
  then slice (moff v) META_SIZE (j_buf (js_j s)) = m
  else match mo with
       | Some q => if decide (v / PC = rv / PC)
                   then exists cd, cell_bytes g (cellv (js_n s) q) = Some cd /\ slice (moff v) META_SIZE cd = m
                   else kmeta (js_n s) v m
       | None => kmeta (js_n s) v m
       end.

Record RI (s : js) (rc : bool) (hv tv sv rv : Z) (mo : option Z) (K K0 : kmap) : Prop := {
  ri_n : nokF (js_n s);
  ri_ppc : j_ppc (js_j s) = c;
  ri_head : j_head (js_j s) = ph hv;
  ri_tail : j_tail (js_j s) = ph tv;
  ri_tsync : j_tsync (js_j s) = ph sv;
  ri_epoch : j_epoch (js_j s) = epo (hv / PB);
  ri_recov : j_recov (js_j s) = rc;
  ri_rroot : j_rroot (js_j s) = ph rv;
  ri_rmeta : j_rmeta (js_j s) = match mo with Some q => ph q | None => PAGE_NONE end;
  ri_mo : forall q, mo = Some q -> rc = true /\ q mod PB = 0 /\ rv / PB < q / PB /\ q < hv;
  ri_buf : blen (j_buf (js_j s)) = page_size g;
  ri_order : 0 <= sv <= tv /\ tv <= rv;
  ri_full : rv / PB < hv / PB < sv / PB + NB;
  ri_hu : user hv;
  ri_tu : user tv;
  ri_ru : user rv;
  ri_weak : weak ((rv / PB) mod NB) = true;
  ri_bm : j_badmeta (js_j s) = true -> exists q, mo = Some q /\ q / PB < hv / PB /\ weak ((q / PB) mod NB) = true;
  ri_root : is_Some (K !! j_root (js_j s));
  ri_free : hv mod PB <> 0 -> badv (js_n s) (hv / PB) = false /\
    forall v, hv <= v -> v / PB = hv / PB -> cellv (js_n s) v = Free;
  ri_K : forall p d m, K !! p = Some (d, m) ->
    exists v, kd_ok (js_n s) tv hv p d m v /\ blen d = page_size g /\ (v / PB <= rv / PB -> v <= rv) /\
      (j_badmeta (js_j s) = true -> forall q, mo = Some q -> v / PB <> q / PB) /\
      rmet s rc hv rv mo v m;
  ri_sub : K0 ⊆ K;
  ri_subv : forall p, is_Some (K0 !! p) -> exists v, p = ph v /\ tv <= v <= rv;
  ri_rr : is_Some (K0 !! ph rv);
  ri_ep : forall b, hv / PB - NB < b < hv / PB -> badv (js_n s) b = false -> b <> rv / PB ->
    (j_badmeta (js_j s) = true -> forall q, mo = Some q -> b <> q / PB) ->
    blk_ep (js_n s) b = (if decide (b < 0) then None else Some (epo b)) \/
    (blk_ep (js_n s) b = None /\ forall b', hv / PB <= b' < b + NB -> badv (js_n s) b' = true);
  ri_cp : forall u, u mod PC = PC - 1 -> u / PB = hv / PB -> u < hv ->
    cell_ep (cellv (js_n s) u) = Some (epo (hv / PB))
}.

Lemma hb_start hv : hv mod PB = 0 -> hv = hv / PB * PB.
Proof. intros H. pose proof (lem v_decomp hv). lia. Qed.
Lemma al_lt v hv : hv mod PB = 0 -> v < hv -> v / PB < hv / PB.
Proof.
  intros H Hv. apply hb_start in H. destruct (Z.lt_ge_cases (v / PB) (hv / PB)) as [|Hge]; [done|].
  apply (lem blk_ge_start) in Hge. lia.
Qed.
Lemma grp_lt v hv : hv mod PC = 0 -> v < hv -> v / PC <> hv / PC.
Proof.
  intros H Hv E. pose_geo. pose proof (Z.div_mod hv PC ltac:(lia)). pose proof (Z.div_mod v PC ltac:(lia)).
  pose proof (lem slot_range v). rewrite E in *. lia.
Qed.
Lemma cpv_lt v hv : v < hv -> v / PC <> hv / PC -> cpv v < hv.
Proof.
  intros Hv Hne. pose_geo. assert (v / PC < hv / PC). { pose proof (Z.div_le_mono v hv PC). lia. }
  unfold Geom.cpv. pose proof (Z.div_mod hv PC ltac:(lia)). pose proof (lem slot_range hv). nia.
Qed.
Lemma blk_grp_ne v hv : v / PB <> hv / PB -> v / PC <> hv / PC.
Proof. intros H E. apply H. by apply (lem grp_blk). Qed.

Lemma RI_sb s rc hv tv sv rv mo K K0 : RI s rc hv tv sv rv mo K K0 ->
  sv / PB <= tv / PB /\ tv / PB <= rv / PB /\ hv / PB - NB < sv / PB /\ 0 <= hv /\ 0 <= sv / PB.
Proof.
  intros []. pose_geo. pose proof (lem blk_le sv tv). pose proof (lem blk_le tv rv).
  split_and!; try lia; [|by apply Z.div_pos; lia].
  assert (Hb : 0 <= rv / PB) by (apply Z.div_pos; lia).
  destruct (Z.le_gt_cases 0 hv) as [|Hneg]; [done|]. assert (hv / PB < 0) by (apply Z.div_lt_upper_bound; lia). lia.
Qed.
Lemma RI_Kwin s rc hv tv sv rv mo K K0 v : RI s rc hv tv sv rv mo K K0 -> tv <= v < hv ->
  hv / PB - NB < v / PB <= hv / PB.
Proof.
  intros HR Hv. pose proof (RI_sb _ _ _ _ _ _ _ _ _ HR). pose proof (lem blk_le tv v). pose proof (lem blk_le v hv). lia.
Qed.

(** Moving the head from block start to block start. *)
Lemma RI_move s s' rc hv hv' tv sv rv mo K K0 :
  RI s rc hv tv sv rv mo K K0 -> hv mod PB = 0 -> hv' mod PB = 0 -> hv <= hv' ->
  hv' / PB < sv / PB + NB -> nokF (js_n s') ->
  jr2 (js_j s) (js_j s') -> j_head (js_j s') = ph hv' -> j_epoch (js_j s') = epo (hv' / PB) ->
  (forall b, hv / PB - NB < b < hv / PB -> badv (js_n s') b = badv (js_n s) b) ->
  (forall b, badv (js_n s) b = true -> badv (js_n s') b = true) ->
  (forall u, hv / PB - NB < u / PB < hv / PB -> cellv (js_n s') u = cellv (js_n s) u) ->
  (forall b, hv / PB <= b < hv' / PB -> badv (js_n s') b = true) ->
  RI s' rc hv' tv sv rv mo K K0.
Proof.
  intros HR Ha Ha' Hle Hfull Hn' [] Eh Ee Hbad Hmon Hcell Hskip.
  pose proof (RI_sb _ _ _ _ _ _ _ _ _ HR) as (Hb1 & Hb2 & Hb3 & H0 & H0s).
  pose proof HR as []. pose_geo.
  assert (Hs : hv mod PC = 0) by by apply (lem off_0_slot).
  assert (Hs' : hv' mod PC = 0) by by apply (lem off_0_slot).
  pose proof (lem blk_le hv hv' Hle) as Hbb.
  split; auto; try congruence; try lia.
  - intros q Hq. destruct (ri_mo0 q Hq) as (?&?&?&?). split_and!; auto. lia.
  - rewrite r2_badmeta0. intros Hbm. destruct (ri_bm0 Hbm) as (q & ? & ? & ?). exists q. split_and!; auto. lia.
  - intros p d m Hp. destruct (ri_K0 p d m Hp) as (v & [] & Hd & Hvr & Hbm & Hm).
    pose proof (al_lt v hv Ha ltac:(lia)) as Hvb.
    assert (Hvw : hv / PB - NB < v / PB < hv / PB). { pose proof (lem blk_le tv v). lia. }
    exists v. split_and!; auto; try (by rewrite r2_badmeta0).
    + split; auto; [lia|by rewrite Hbad|by rewrite Hcell].
    + assert (Hkm : kmeta (js_n s) v m -> kmeta (js_n s') v m).
      { intros (cd & H1 & H2). exists cd. split; [|done]. rewrite Hcell; [done|].
        destruct (lem cpv_facts v) as (_ & _ & ->). done. }
      unfold rmet in *. rewrite r2_buf0.
      assert (Hdec : v / PC = (if rc then hv' else rv) / PC <-> v / PC = (if rc then hv else rv) / PC).
      { destruct rc; [|done]. pose proof (grp_lt v hv Hs ltac:(lia)). pose proof (grp_lt v hv' Hs' ltac:(lia)). done. }
      destruct (decide (v / PC = (if rc then hv else rv) / PC)) as [E|E].
      { rewrite decide_True by tauto. done. }
      rewrite decide_False by tauto.
      destruct mo as [q|]; [|auto]. destruct (decide (v / PC = rv / PC)); [|auto].
      destruct Hm as (cd & H1 & H2). exists cd. split; [|done]. rewrite Hcell; [done|].
      destruct (ri_mo0 q eq_refl) as (_ & _ & ? & ?). pose proof (al_lt q hv Ha ltac:(lia)). lia.
  - intros b Hb Hbg Hbr Hbm. rewrite r2_badmeta0 in Hbm.
    assert (Hbh : b < hv / PB).
    { destruct (Z.lt_ge_cases b (hv / PB)) as [|Hge]; [done|]. rewrite Hskip in Hbg by lia. done. }
    assert (Eb : blk_ep (js_n s') b = blk_ep (js_n s) b).
    { unfold Inv.blk_ep. rewrite Hcell; [done|]. rewrite (proj1 (lem fcp_facts b)). lia. }
    rewrite Eb. destruct (ri_ep0 b) as [?|[H1 H2]]; auto; [lia|by rewrite <-Hbad by lia|].
    right. split; [done|]. intros b' Hb'. apply Hmon, H2. lia.
  - intros u Hu1 Hu2 Hu3. pose proof (al_lt u hv' Ha' Hu3). lia.
Qed.

Lemma RI_bbc s rc hv tv sv rv mo K K0 k : RI s rc hv tv sv rv mo K K0 ->
  RI (Js (js_n s) (set_bbc k (js_j s))) rc hv tv sv rv mo K K0.
Proof. intros []. by split. Qed.
Lemma RI_dirty s rc hv tv sv rv mo K K0 k : RI s rc hv tv sv rv mo K K0 ->
  RI (Js (js_n s) (set_dirty k (js_j s))) rc hv tv sv rv mo K K0.
Proof. intros []. by split. Qed.

Definition goodfree (n : nand) (hv : Z) : Prop := badv n (hv / PB) = false /\
  forall u, hv <= u -> u / PB = hv / PB -> cellv n u = Free.

Lemma prep_loopF i : forall s rc hv tv sv rv mo K K0,
  RI s rc hv tv sv rv mo K K0 -> hv mod PB = 0 ->
  wp (prepare_head_loop i) s (fun o s' => match o with
    | OK _ => exists hv', hv <= hv' /\ hv' mod PB = 0 /\ RI s' rc hv' tv sv rv mo K K0 /\
        jr2 (js_j s) (js_j s') /\ goodfree (js_n s') hv'
    | ER e => (e = E_BAD_BLOCK /\ exists hv', hv <= hv' /\ hv' mod PB = 0 /\ RI s' rc hv' tv sv rv mo K K0 /\
        jr2 (js_j s) (js_j s') /\ weak ((hv' / PB) mod NB) = true) \/ leak e
    | ST x => x = Crash
    end).
Proof.
  induction i as [|i IH]; intros s rc hv tv sv rv mo K K0 HR Ha; cbn [prepare_head_loop].
  { apply wp_fail. right. unfold leak. auto. }
  pose proof (RI_sb _ _ _ _ _ _ _ _ _ HR) as (Hb1 & Hb2 & Hb3 & H0 & H0s).
  pose proof (ri_full _ _ _ _ _ _ _ _ _ HR) as Hfull.
  apply wp_bind. unfold getg at 1. apply wp_gets.
  apply wp_bind. unfold getj at 1. apply wp_gets.
  pose proof (ri_n _ _ _ _ _ _ _ _ _ HR) as Hn.
  rewrite (nf_geo _ Hn), (lem shiftr_blk), (ri_head _ _ _ _ _ _ _ _ _ HR), (lem ph_blk).
  apply wp_bind. unfold io at 1. apply wp_zoom. unfold wp.
  rewrite (lem is_bad_spec) by apply Hn. cbn [fst snd].
  replace (put_n (js_n s) s) with s by by destruct s.
  destruct (badv (js_n s) (hv / PB)) eqn:Hb.
  - apply (wp_bind (modj _)). apply wp_modify. apply wp_bind.
    set (s1 := Js (js_n s) (set_bbc (w32 (j_bbc (js_j s) + 1)) (js_j s))).
    eapply wp_mono; [apply (skipF s1 hv sv)|]; try apply HR; try (by apply Hn); [lia|].
    intros o s' Ho. destruct o as [[]|e|x]; [| |done].
    + destruct Ho as (En & Hr & Eh & Ee & Hf).
      pose proof (lem blk_start (hv / PB + 1)) as [E1 E2].
      pose proof (lem blk_lt_start hv (hv / PB + 1) ltac:(lia)) as Hlt.
      assert (Hr1 : jr2 (js_j s) (js_j s')) by (eapply jr2_trans; [|exact Hr]; by split).
      assert (HR' : RI s' rc ((hv / PB + 1) * PB) tv sv rv mo K K0).
      { change (js_n s1) with (js_n s) in En.
        eapply RI_move; [exact HR|..]; auto; try lia; rewrite ?E1; auto; rewrite ?En; auto.
        intros b Hbb. by replace b with (hv / PB) by lia. }
      eapply wp_mono; [by eapply IH|]. intros o s2 Ho. destruct o as [[]|e|x]; auto.
      * destruct Ho as (hv' & ? & ? & ? & ? & ?). exists hv'. split_and!; auto; [lia|by eapply jr2_trans].
      * destruct Ho as [(-> & hv' & ? & ? & ? & ? & ?)|?]; [left|by right]. split; [done|].
        exists hv'. split_and!; auto; [lia|by eapply jr2_trans].
    + subst e. right. unfold leak. auto.
  - unfold io. apply wp_zoom. eapply wp_mono; [by apply eraseF|].
    intros o n' (Hn' & [Hbad' Hcell'] & Ho).
    assert (HR' : RI (put_n n' s) rc hv tv sv rv mo K K0).
    { eapply RI_move; [exact HR|..]; auto; try lia; try apply HR; cbn [js_n put_n js_j]; auto.
      - apply jr2_refl.
      - intros b. by rewrite Hbad'. }
    destruct o as [[]|e|x]; [| |done].
    + exists hv. split_and!; auto; [lia|apply jr2_refl|]. split; [by cbn; rewrite Hbad'|]. cbn. auto.
    + left. destruct Ho as [-> Hw]. split; [done|]. exists hv. split_and!; auto; [lia|apply jr2_refl].
Qed.

(** The head page is ready to be programmed. *)
Record RReady (s : js) (rc : bool) (hv tv sv rv : Z) (mo : option Z) (K K0 : kmap) : Prop := {
  rr_ri : RI s rc hv tv sv rv mo K K0;
  rr_good : goodfree (js_n s) hv;
  rr_next : nextv hv / PB < sv / PB + NB
}.

Lemma prepareF s rc hv tv sv rv mo K K0 :
  RI s rc hv tv sv rv mo K K0 ->
  wp prepare_head s (fun o s' => match o with
    | OK _ => exists hv', hv <= hv' /\ RReady s' rc hv' tv sv rv mo K K0 /\ jr2 (js_j s) (js_j s') /\
        (hv' = hv \/ (hv mod PB = 0 /\ hv' mod PB = 0))
    | ER e => (e = E_BAD_BLOCK /\ exists hv', hv <= hv' /\ hv mod PB = 0 /\ hv' mod PB = 0 /\
        RI s' rc hv' tv sv rv mo K K0 /\ jr2 (js_j s) (js_j s') /\ weak ((hv' / PB) mod NB) = true) \/ leak e
    | ST x => x = Crash
    end).
Proof.
  intros HR. pose_geo.
  pose proof (RI_sb _ _ _ _ _ _ _ _ _ HR) as (Hb1 & Hb2 & Hb3 & H0 & H0s).
  pose proof (ri_n _ _ _ _ _ _ _ _ _ HR) as Hn.
  pose proof (ri_hu _ _ _ _ _ _ _ _ _ HR) as Hu.
  pose proof (ri_full _ _ _ _ _ _ _ _ _ HR) as Hfull.
  unfold prepare_head. apply wp_bind. unfold getg. apply wp_gets. apply wp_bind. unfold getj. apply wp_gets.
  rewrite (nf_geo _ Hn), (ri_ppc _ _ _ _ _ _ _ _ _ HR), (ri_head _ _ _ _ _ _ _ _ _ HR), (ri_tsync _ _ _ _ _ _ _ _ _ HR).
  rewrite (lem next_upage_ph) by auto.
  rewrite !(lem align_eq_blk), !(lem ph_blk).
  destruct (_ && _) eqn:E1; [apply wp_fail; right; unfold leak; auto|].
  assert (Hnx : nextv hv / PB < sv / PB + NB).
  { destruct (lem nextv_blk hv Hu) as [[-> _]|(E & _)]; [lia|]. rewrite E in *.
    destruct (Z.eq_dec (hv / PB + 1) (sv / PB + NB)) as [E'|]; [|lia]. exfalso.
    rewrite E' in E1. rewrite mod_add_self in E1 by lia. rewrite Z.eqb_refl in E1. cbn [andb] in E1.
    apply negb_false_iff, Z.eqb_eq in E1. replace (sv / PB) with (hv / PB + 1 - NB) in E1 by lia.
    assert (E3 : (hv / PB + 1) mod NB = (hv / PB) mod NB).
    { rewrite <-E1. rewrite <-(mod_add_self (hv / PB + 1 - NB) NB) by lia. f_equal. lia. }
    apply (mod_inj NB) in E3; lia. }
  apply (wp_bind (modj _)). apply wp_modify.
  set (s1 := Js (js_n s) (set_dirty true (js_j s))).
  assert (HR1 : RI s1 rc hv tv sv rv mo K K0) by by apply RI_dirty.
  assert (Hr1 : jr2 (js_j s) (js_j s1)) by by split.
  rewrite (lem aligned_blk), (lem ph_off).
  destruct (Z.eqb_spec (hv mod PB) 0) as [Ha|Ha]; cbn [negb].
  - eapply wp_mono; [by eapply prep_loopF|].
    intros o s' Ho. destruct o as [[]|e|x]; auto.
    + destruct Ho as (hv' & H1 & H2 & H3 & H4 & H5). exists hv'. split_and!; auto; [|by eapply jr2_trans].
      split; auto. rewrite (next_aligned g c Hg) by done. apply H3.
    + destruct Ho as [(-> & hv' & ? & ? & ? & ? & ?)|?]; [left|by right]. split; [done|].
      exists hv'. split_and!; auto. by eapply jr2_trans.
  - apply wp_ret. exists hv. split_and!; auto; [lia|]. split; auto.
    destruct (ri_free _ _ _ _ _ _ _ _ _ HR Ha) as [Hgd Hfr]. by split.
Qed.
End rec.
