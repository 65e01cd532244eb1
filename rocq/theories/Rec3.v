(** Bad-block recovery: appending to the journal while recovering. *)
From stdpp Require Import gmap fin_maps.
From Verif Require Import Base Bytes BytesLemmas Wp Nand Journal MapModel Geom Tree Rep Inv Hdr StepDI StepNand StepJ StepA StepR San Top Bm Rec Rec2.
Local Open Scope Z_scope.

Section rec3.
Context (g : geo) (c : Z) (Hg : geo_ok2 g c) (weak : Z -> bool) (Hdense : dense g weak).
Notation PB := (PB g).
Notation PC := (PC c).
Notation NB := (NB g).
Notation TT := (TT g).
Notation ph := (ph g).
Notation user := (user c).
Notation nextv := (nextv c).
Notation cpv := (cpv c).
Notation cellv := (cellv g).
Notation badv := (badv g).
Notation cell_ep := (cell_ep g).
Notation blk_ep := (blk_ep g c).
Notation epo := (epo g).
Notation moff := (moff c).
Notation fcp := (fcp g c).
Notation kmeta := (kmeta g c).
Notation kd_ok := (kd_ok g c).
Notation DI := (DI g c).
Notation nok := (nok g weak).
Notation JInv := (JInv g c).
Notation JI := (JI g c weak).
Notation nokF := (nokF g weak).
Notation peF := (peF g weak).
Notation rmet := (rmet g c).
Notation RI := (RI g c weak).
Notation RReady := (RReady g c weak).

Ltac pose_geo :=
  pose proof (PC_ge4 _ (go2_c _ _ Hg)) as HPC4; pose proof (PC_le _ _ Hg) as HPC256;
  pose proof (PB_pos _ _ Hg) as HPB4; pose proof (PB_ge _ _ Hg) as HPBC;
  pose proof (NB_ge _ _ Hg) as HNB8; pose proof (TT_le _ _ Hg) as HTT31;
  pose proof (TT_pos _ _ Hg) as HTTpos.
Notation "'lem' x" := (x g c Hg) (at level 9, x at level 8, only parsing).
Notation "'lemw' x" := (x g c Hg weak) (at level 9, x at level 8, only parsing).

(** A recovery (re)starts: the tree is the one of when the block failed. *)
Definition Rst (s : js) (tv sv rv : Z) (K : kmap) : Prop :=
  exists hv mo, RI s true hv tv sv rv mo K K /\ j_root (js_j s) = ph rv /\
    j_rnext (js_j s) = ph (rv / PB * PB) /\ j_enum (js_j s) = false.

Lemma break_spec s0 s buf hv tv sv rv K D :
  JInv s0 hv tv sv K -> DI (js_n s0) hv sv D -> hv mod PB <> 0 ->
  user rv -> j_root (js_j s0) = ph rv -> nextv rv = hv -> tv <= rv < hv -> rv / PB = hv / PB -> is_Some (K !! ph rv) ->
  j_badmeta (js_j s0) = false ->
  nokF (js_n s) -> (forall b, badv (js_n s) b = badv (js_n s0) b) ->
  (forall u, hv / PB - NB < u / PB <= hv / PB -> u < hv -> cellv (js_n s) u = cellv (js_n s0) u) ->
  js_j s = set_buf buf (js_j s0) ->
  (forall v, v / PC = hv / PC -> v < hv -> user v ->
     slice (moff v) META_SIZE buf = slice (moff v) META_SIZE (j_buf (js_j s0))) ->
  blen buf = page_size g -> weak ((hv / PB) mod NB) = true ->
  wp (recover_from E_BAD_BLOCK) s (fun o s' => match o with
    | OK _ => False
    | ER e => leak e \/ (e = E_RECOVER /\ Rst s' tv sv rv K)
    | ST x => x = Crash
    end).
Proof.
  intros Hj HD Ha Hur Hroot Enx Hrv Erb HKr Hbm Hn Hbad Hcell Ej Hbuf Hbl Hw. pose_geo.
  pose proof (sv_le_hb _ _ Hg _ _ _ _ _ Hj) as Hsb.
  unfold recover_from. apply wp_bind. unfold getg. apply wp_gets. apply wp_bind. unfold getj at 1. apply wp_gets.
  rewrite (nf_geo _ _ _ Hn), Ej. cbn [set_buf j_head]. rewrite (ji_head _ _ _ _ _ _ _ Hj).
  rewrite decide_False by (intros E; by apply E).
  apply (wp_bind (modj _)). apply wp_modify. rewrite Ej.
  set (j1 := set_bbc _ _).
  apply wp_bind. eapply wp_mono.
  { apply (lem skipF) with (hv := hv) (sv := sv); cbn [js_n js_j]; [apply Hn|apply Hj|apply Hj|apply Hj|].
    split; [lia|apply Hj]. }
  intros o s1 Ho. destruct o as [[]|e|x]; [| |done].
  2: { subst e. left. unfold leak; auto. }
  destruct Ho as (En & Hr & Eh & Ee & Hf). cbn [js_n js_j] in En, Hr.
  pose proof Hr as [].
  apply wp_bind. unfold getj at 1. apply wp_gets. rewrite r2_recov. change (j_recov j1) with (j_recov (js_j s0)).
  rewrite (ji_recov _ _ _ _ _ _ _ Hj). rewrite (lem aligned_blk), (lem ph_off).
  rewrite (proj2 (Z.eqb_neq _ _) Ha).
  apply (wp_bind (modj _)). apply wp_modify. apply wp_bind. unfold getj at 1. apply wp_gets.
  set (s2 := Js (js_n s1) _).
  change (j_ppc (js_j s2)) with (j_ppc (js_j s1)). rewrite r2_ppc.
  change (j_ppc j1) with (j_ppc (js_j s0)). rewrite (ji_ppc _ _ _ _ _ _ _ Hj).
  rewrite (lem aligned_grp), (lem ph_slot).
  assert (Ej2 : j_root (js_j s2) = ph rv /\ j_rnext (js_j s2) = ph (rv / PB * PB) /\ j_enum (js_j s2) = false /\
    j_rroot (js_j s2) = ph rv).
  { unfold s2. cbn. rewrite r2_root, r2_enum. cbn. rewrite Hroot, (lem block_base_ph).
    rewrite (ji_enum _ _ _ _ _ _ _ Hj). done. }
  destruct Ej2 as (G1 & G2 & G3 & G4).
  assert (HRI : forall j' rc, (rc = true -> hv mod PC = 0) -> (rc = false -> hv mod PC <> 0) -> j' = set_recov rc (js_j s2) ->
    RI (Js (js_n s1) j') rc ((hv / PB + 1) * PB) tv sv rv None K K).
  { intros j' rc Hr1 Hr2 ->.
    eapply (RI_break g c Hg weak s0) with (D := D); cbn [js_n js_j]; rewrite ?En; eauto; try (cbn; congruence).
    - cbn. rewrite r2_buf. done.
    - cbn. rewrite r2_buf. done.
    - cbn. rewrite r2_ppc. apply Hj.
    - cbn. rewrite r2_tail. apply Hj.
    - cbn. rewrite r2_tsync. apply Hj.
    - cbn. rewrite r2_rmeta. apply Hj. }
  destruct (Z.eqb_spec (hv mod PC) 0) as [Es|Es]; cbn [negb].
  - apply wp_bind. apply wp_ret. apply (wp_bind (modj _)). apply wp_modify. apply wp_fail.
    right. split; [done|]. eexists _, None. split; [by apply HRI|]. cbn [js_j]. done.
  - apply wp_bind. unfold dump_meta. eapply wp_mono.
    { eapply (lemw dump_loopF). 2: apply (lem blk_start).
      replace s2 with (Js (js_n s1) (set_recov false (js_j s2))); [by apply HRI|].
      unfold s2. f_equal. cbn. unfold set_rnext, set_rroot, set_recov. cbn. f_equal.
      rewrite r2_recov. cbn. symmetry. apply Hj. }
    intros o s3 Ho. destruct o as [[]|e|x]; [| |done].
    + destruct Ho as (hv' & _ & _ & HR & F1 & F2 & F3).
      apply (wp_bind (modj _)). apply wp_modify. apply wp_fail. right. split; [done|].
      eexists _, _. split; [exact HR|]. cbn. rewrite F1, F2, F3. done.
    + by left.
Qed.

Lemma restart_spec s0 s buf hv tv sv rv mo K K0 :
  RI s0 true hv tv sv rv mo K K0 ->
  nokF (js_n s) -> (forall b, badv (js_n s) b = badv (js_n s0) b) ->
  (forall u, hv / PB - NB < u / PB <= hv / PB -> u < hv -> cellv (js_n s) u = cellv (js_n s0) u) ->
  js_j s = set_buf buf (js_j s0) -> blen buf = page_size g -> weak ((hv / PB) mod NB) = true ->
  wp (recover_from E_BAD_BLOCK) s (fun o s' => match o with
    | OK _ => False
    | ER e => leak e \/ (e = E_RECOVER /\ Rst s' tv sv rv K0)
    | ST x => x = Crash
    end).
Proof.
  intros HR Hn Hbad Hcell Ej Hbl Hw. pose_geo.
  pose proof (lemw RI_sb _ _ _ _ _ _ _ _ _ HR) as (Hb1 & Hb2 & Hb3 & H0 & H0s).
  pose proof (ri_full _ _ _ _ _ _ _ _ _ _ _ _ HR) as Hfull.
  unfold recover_from. apply wp_bind. unfold getg at 1. apply wp_gets. apply wp_bind. unfold getj at 1. apply wp_gets.
  rewrite (nf_geo _ _ _ Hn), Ej. cbn [set_buf j_head]. rewrite (ri_head _ _ _ _ _ _ _ _ _ _ _ _ HR).
  rewrite decide_False by (intros E; by apply E).
  apply (wp_bind (modj _)). apply wp_modify. rewrite Ej.
  set (j1 := set_bbc _ _).
  apply wp_bind. eapply wp_mono.
  { apply (lem skipF) with (hv := hv) (sv := sv); cbn [js_n js_j]; [apply Hn|apply HR|apply HR|apply HR|lia]. }
  intros o s1 Ho. destruct o as [[]|e|x]; [| |done].
  2: { subst e. left. unfold leak; auto. }
  destruct Ho as (En & Hr & Eh & Ee & Hf). cbn [js_n js_j] in En, Hr.
  pose proof Hr as [].
  apply wp_bind. unfold getj at 1. apply wp_gets. rewrite r2_recov. change (j_recov j1) with (j_recov (js_j s0)).
  rewrite (ri_recov _ _ _ _ _ _ _ _ _ _ _ _ HR).
  apply wp_bind. unfold restart_recovery. apply wp_bind. unfold getg at 1. apply wp_gets.
  apply wp_bind. unfold getj at 1. apply wp_gets. rewrite En, (nf_geo _ _ _ Hn).
  rewrite r2_rmeta. change (j_rmeta j1) with (j_rmeta (js_j s0)).
  rewrite (ri_rmeta _ _ _ _ _ _ _ _ _ _ _ _ HR), (lem shiftr_blk), (lem ph_blk).
  assert (Hbase : block_base g (j_rroot (js_j s1)) = ph (rv / PB * PB)).
  { rewrite r2_rroot. change (j_rroot j1) with (j_rroot (js_j s0)).
    rewrite (ri_rroot _ _ _ _ _ _ _ _ _ _ _ _ HR). by apply (lem block_base_ph). }
  assert (HRI : forall n' j', nokF n' ->
    (forall b, hv / PB - NB < b < hv / PB -> badv n' b = badv (js_n s0) b) ->
    (forall b, badv (js_n s0) b = true -> badv n' b = true) ->
    (forall u, cellv n' u = cellv (js_n s) u) -> 
    (badv n' (hv / PB) = true /\ j_badmeta j' = j_badmeta (js_j s0) \/
     j_badmeta j' = true /\ exists q, mo = Some q /\ q / PB = hv / PB) ->
    j' = set_badmeta (j_badmeta j') (set_root (j_rroot (js_j s1))
                   (set_rnext (block_base g (j_rroot (js_j s1))) (set_enum false (js_j s1)))) ->
    Rst (Js n' j') tv sv rv K0).
  { intros n' j' G1 G2 G3 G4 G5 Ej'. exists ((hv / PB + 1) * PB), mo. split.
    - eapply (RI_restart g c Hg weak s0); cbn [js_n js_j]; eauto; try (rewrite Ej'; cbn; congruence);
        try (rewrite Ej'; cbn; rewrite ?r2_ppc, ?r2_tail, ?r2_tsync, ?r2_recov, ?r2_rroot, ?r2_buf; first [done|by apply HR]).
      + intros u Hu1 Hu2. rewrite G4. auto.
    - rewrite Ej'. cbn. rewrite Hbase. split_and!; auto. rewrite r2_rroot. apply HR. }
  match goal with |- context [if ?b then _ else _] => destruct b eqn:Eb end.
  - apply wp_bind. unfold io. apply wp_zoom. rewrite En. eapply wp_mono; [by apply (lemw markF)|].
    intros o n' (Hn' & Hc' & Hbo & Hbm & Ho). destruct o as [[]|e|x]; [|done|done].
    unfold modj. apply wp_modify. apply wp_fail. right. split; [done|]. apply HRI; cbn [js_n js_j put_n]; auto.
    + intros b Hb. rewrite Hbo; [apply Hbad|]. apply (lem blk_ne_phys). lia.
    + intros b Hb. apply Hbm. by rewrite Hbad.
  - apply (wp_bind (modj _)). apply wp_modify. unfold modj. apply wp_modify. apply wp_fail. right. split; [done|].
    apply orb_false_iff in Eb as [Eb1 Eb2]. destruct mo as [q|].
    2: { rewrite Z.eqb_refl in Eb1. done. }
    apply negb_false_iff in Eb2. rewrite (lem align_eq_blk), !(lem ph_blk) in Eb2. apply Z.eqb_eq in Eb2.
    destruct (ri_mo _ _ _ _ _ _ _ _ _ _ _ _ HR q eq_refl) as (_ & _ & Hq1 & Hq2).
    pose proof (lem blk_le q hv ltac:(lia)) as Hq3.
    apply (mod_inj NB) in Eb2; [|lia|lia].
    apply HRI; cbn [js_n js_j put_n]; auto; try (by rewrite En).
    + rewrite En. intros b Hb. by rewrite Hbad.
    + right. split; [done|]. by exists q.
Qed.
End rec3.
