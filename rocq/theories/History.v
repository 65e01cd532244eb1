(** Histories of calls and power cycles refine the specification. *)
From stdpp Require Import gmap fin_maps.
From Verif Require Import Base Bytes BytesLemmas Wp Nand Journal MapModel Api Geom Tree Rep Age Inv Hdr StepDI StepNand StepJ StepA StepR StepS StepG Resume MapStep MapOps Spec Ppc.
Local Open Scope Z_scope.

Section history.
Context (g : geo) (c : Z) (Hg : geo_ok g c) (weak : Z -> bool) (Hdense : dense g weak) {Ag : Aging}.
Notation PB := (PB g).
Notation PC := (PC c).
Notation NB := (NB g).
Notation TT := (TT g).
Notation GP := (GP g c).
Notation ph := (ph g).
Notation user := (user c).
Notation nextv := (nextv c).
Notation cpv := (cpv c).
Notation cellv := (cellv g).
Notation badv := (badv g).
Notation cell_ep := (cell_ep g).
Notation blk_ep := (blk_ep g c).
Notation fcp := (fcp g c).
Notation epo := (epo g).
Notation moff := (moff c).
Notation kmeta := (kmeta g c).
Notation kd_ok := (kd_ok g c).
Notation DI := (DI g c).
Notation nok := (nok g weak).
Notation JInv := (JInv g c).
Notation JI := (JI g c weak).

Ltac pose_geo :=
  pose proof (PC_ge _ _ Hg) as HPC4; pose proof (PC_le _ _ Hg) as HPC256;
  pose proof (PB_pos _ _ Hg) as HPB4; pose proof (PB_ge _ _ Hg) as HPBC;
  pose proof (NB_ge _ _ Hg) as HNB8; pose proof (TT_le _ _ Hg) as HTT31;
  pose proof (TT_pos _ _ Hg) as HTTpos; pose proof (GP_ge _ _ Hg) as HGP1;
  pose proof (PB_def _ _ Hg) as HPBdef.
Notation "'lem' x" := (x g c Hg) (at level 9, x at level 8, only parsing).
Notation crashed := (crashed g c weak).
Notation app_post := (app_post g c weak).
Local Opaque lk lkv wf wfv pa meta_get_id meta_get_alt.
Notation dskrep := (dskrep g).
Notation CI := (CI g c weak).
Notation MI := (MI g c weak).
Notation MX := (MX g c weak).
Notation enough := (enough g c).

Lemma magic_take b : (3 <= length b)%nat -> hdr_has_magic b = true -> map w8 (take 3 b) = [68; 104; 97].
Proof.
  intros Hl Hm. destruct b as [|x [|y [|z b]]]; cbn in Hl; try lia. cbn [take map].
  unfold hdr_has_magic, bget in Hm.
  change (Z.to_nat 0) with 0%nat in Hm. change (Z.to_nat 1) with 1%nat in Hm. change (Z.to_nat 2) with 2%nat in Hm.
  cbn [nth] in Hm. cbn [map].
  apply andb_prop in Hm as [Hm Hz]. apply andb_prop in Hm as [Hx Hy].
  apply Z.eqb_eq in Hx, Hy, Hz. by rewrite Hx, Hy, Hz.
Qed.

Lemma ps_eq : page_size g = 2 ^ g_lps g.
Proof. unfold page_size. rewrite Z.shiftl_mul_pow2, Z.mul_1_l by apply Hg. done. Qed.

Lemma fresh_D n : fresh g weak n -> crashed n (Dsk (-1) 0 [] [] ∅).
Proof.
  intros (Eg & Hc & Hb & Ho). pose_geo.
  assert (Hm1 : -1 / PB = -1). { symmetry. apply Z.div_unique with (r := PB - 1); lia. }
  assert (Hm2 : -1 mod PC = PC - 1). { symmetry. apply Z.mod_unique with (q := -1); lia. }
  split.
  { split; [done|intros p d E; rewrite ps_eq; destruct (Hc _ _ E) as [Hl _]; by rewrite Eg in Hl|done|done]. }
  exists 0, 0. split; cbn [cv tdv ckd rmd Kd]; rewrite ?Hm1; try lia.
  - unfold Geom.user. rewrite Z.mod_0_l by lia. lia.
  - rewrite Z.div_0_l by lia. lia.
  - intros b Hb'. rewrite Z.div_0_l in Hb' by lia. lia.
  - rewrite Z.mod_0_l by lia. lia.
  - intros b Hb' _. left. rewrite decide_True by lia.
    unfold Inv.blk_ep, Inv.cellv. destruct (n_cell n _) as [|d|] eqn:E; [apply cell_ep_free| |apply cell_ep_junk].
    unfold cell_ep. cbn [cell_bytes]. destruct (Hc _ _ E) as [Hl Hm].
    destruct (hdr_has_magic d) eqn:Em; [|done]. apply magic_take in Em; [done|].
    rewrite Eg in Hl. pose proof (go_fit _ _ Hg) as Hfit. rewrite ps_eq in Hfit. unfold HEADER_SIZE, COOKIE_SIZE, META_SIZE in Hfit.
    change (2 ^ c) with PC in Hfit. unfold blen in Hl. lia.
  - intros p d m E. by rewrite lookup_empty in E.
Qed.
Lemma fresh_CI n : fresh g weak n -> CI n ∅.
Proof. intros H. exists (Dsk (-1) 0 [] [] ∅). split; [by apply fresh_D|by left]. Qed.

Lemma read_of_eq S t : default (ffs (page_size g)) (S !! t) = read_of g S t.
Proof.
  unfold read_of, ffs, page_size. rewrite Z.shiftl_mul_pow2, Z.mul_1_l by apply Hg. done.
Qed.

(** One call. *)
Definition step_post (S Sd : contents) (o : op) (r : out resp) (s' : ms) : Prop :=
  match r with
  | ST x => x = Crash /\ exists Sd', (Sd' = Sd \/ Sd' = S \/ exists r', call_ok g S o (OK r') Sd') /\ CI (chip s') Sd'
  | _ => exists S' Sd', call_ok g S o r S' /\ MX s' S' Sd' /\ (Sd' = Sd \/ Sd' = S \/ Sd' = S') /\
      (match o, r with OSync, OK _ => Sd' = S' | _, _ => True end)
  end.

Lemma jerr_io n e : jerr n e -> io_err e.
Proof. unfold jerr, io_err. tauto. Qed.

Lemma exec_spec fuel o s S Sd : enough fuel -> MX s S Sd -> valid_op g o ->
  wp (exec fuel o) s (step_post S Sd o).
Proof.
  intros Hf HM Hv. pose_geo.
  assert (Hf1 : (1 <= fuel)%nat). { unfold MapStep.enough in Hf. lia. }
  destruct o as [t d|t|a b|p b| | | |t|t| ]; cbn [exec valid_op] in *.
  - destruct Hv as [Ht Hd]. apply wp_bind.
    eapply wp_mono; [apply (map_write_spec g c Hg weak Hdense); [exact Hf1|exact HM|exact Ht|by rewrite ps_eq]|].
    intros r s' [_ Hr]. destruct r as [[]|e|x].
    + destruct Hr as (d' & Sd' & -> & HS & HM'). apply wp_ret. exists (<[t:=d]> S), Sd'.
      split; [constructor|]. done.
    + destruct Hr as (He & Sd' & HS & HM'). exists S, Sd'. split; [|split; [done|split; [tauto|done]]].
      destruct He as [He|[[_ []]|(-> & HSn & _)]]; [constructor; [by eapply jerr_io|done]|by eapply (c_full _ _ (OWrite t d))].
    + destruct Hr as (-> & Sd' & HS & HC). split; [done|]. exists Sd'. split; [|done].
      destruct HS as [?|[?|(d' & -> & ->)]]; auto. right; right. eexists. constructor.
  - apply wp_bind. eapply wp_mono; [by apply (map_trim_spec g c Hg weak Hdense)|].
    intros r s' [_ Hr]. destruct r as [[]|e|x].
    + destruct Hr as (Sd' & HS & HM'). apply wp_ret. exists (delete t S), Sd'. split; [constructor|]. done.
    + destruct Hr as (He & Sd' & HS & HM'). exists S, Sd'. split; [|split; [done|split; [tauto|done]]].
      constructor; [by eapply jerr_io|done].
    + destruct Hr as (-> & Sd' & HS & HC). split; [done|]. exists Sd'. split; [|done].
      destruct HS as [?|[?| ->]]; auto. right; right. eexists. constructor.
  - destruct Hv as [Ha Hb]. apply wp_bind. unfold map_copy_sector. apply wp_bind.
    unfold attempt. unfold wp at 1.
    destruct (find_spec g c Hg weak _ _ _ _ HM Ha) as [[HS E]|(d & v & HS & E & _)]; rewrite E; cbn [fst snd].
    + rewrite decide_True by done. eapply wp_mono; [apply (map_trim_spec g c Hg weak Hdense); [exact Hf1|exact HM|unfold wsector in Hb; lia]|].
      intros r s' [_ Hr]. destruct r as [[]|e|x].
      * destruct Hr as (Sd' & HS' & HM'). apply wp_ret. exists (delete b S), Sd'. split; [by constructor|]. done.
      * destruct Hr as (He & Sd' & HS' & HM'). exists S, Sd'. split; [|split; [done|split; [tauto|done]]].
        constructor; [by eapply jerr_io|done].
      * destruct Hr as (-> & Sd' & HS' & HC). split; [done|]. exists Sd'. split; [|done].
        destruct HS' as [?|[?| ->]]; auto. right; right. eexists. by constructor.
    + eapply wp_mono; [apply (map_copy_page_spec g c Hg weak Hdense); [exact Hf1|exact HM|exact Hb|apply (lem ph_range)]|].
      intros r s' [_ Hr]. destruct r as [[]|e|x].
      * destruct Hr as (d' & Sd' & Hd' & HS' & HM'). apply wp_ret. exists (<[b:=d']> S), Sd'.
        split; [|done]. econstructor; [done|by rewrite <-ps_eq].
      * destruct Hr as (He & Sd' & HS' & HM'). exists S, Sd'. split; [|split; [done|split; [tauto|done]]].
        destruct He as [He|[[-> _]|(-> & HSn & _)]]; [constructor; [by eapply jerr_io|done]|constructor; [by right|done]|by eapply (c_full _ _ (OCopySector a b))].
      * destruct Hr as (-> & Sd' & HS' & HC). split; [done|]. exists Sd'. split; [|done].
        destruct HS' as [?|[?|(d' & Hd' & ->)]]; auto. right; right. eexists. econstructor; [done|by rewrite <-ps_eq].
  - destruct Hv as [Ha Hb]. apply wp_bind.
    eapply wp_mono; [apply (map_copy_page_spec g c Hg weak Hdense); [exact Hf1|exact HM|exact Hb|exact Ha]|].
    intros r s' [_ Hr]. destruct r as [[]|e|x].
    + destruct Hr as (d' & Sd' & Hd' & HS' & HM'). apply wp_ret. exists (<[b:=d']> S), Sd'.
      split; [|done]. constructor. by rewrite <-ps_eq.
    + destruct Hr as (He & Sd' & HS' & HM'). exists S, Sd'. split; [|split; [done|split; [tauto|done]]].
      destruct He as [He|[[-> _]|(-> & HSn & _)]]; [constructor; [by eapply jerr_io|done]|constructor; [by right|done]|by eapply (c_full _ _ (OCopyPage p b))].
    + destruct Hr as (-> & Sd' & HS' & HC). split; [done|]. exists Sd'. split; [|done].
      destruct HS' as [?|[?|(d' & Hd' & ->)]]; auto. right; right. eexists. constructor. by rewrite <-ps_eq.
  - destruct (map_clear_spec g c Hg weak _ _ _ HM) as (s' & E & HM' & _).
    eapply wp_bind_ok; [exact E|]. apply wp_ret. exists ∅, Sd. split; [constructor|]. auto.
  - apply wp_bind. eapply wp_mono; [by apply (map_gc_spec g c Hg weak Hdense)|].
    intros r s' [_ Hr]. destruct r as [[]|e|x].
    + destruct Hr as (Sd' & HS & HM'). apply wp_ret. exists S, Sd'. split; [constructor|]. split; [done|]. tauto.
    + destruct Hr as (He & Sd' & HS & HM'). exists S, Sd'. split; [|split; [done|split; [tauto|done]]].
      constructor; [by eapply jerr_io|done].
    + destruct Hr as (-> & Sd' & HS & HC). split; [done|]. exists Sd'. split; [tauto|done].
  - apply wp_bind. eapply wp_mono; [by apply (map_sync_spec g c Hg weak Hdense)|].
    intros r s' [[_ Hr] Hok]. destruct r as [[]|e|x].
    + apply wp_ret. exists S, S. split; [constructor|]. split; [by apply Hok|]. tauto.
    + destruct Hr as (He & Sd' & HS & HM'). exists S, Sd'. split; [|split; [done|split; [tauto|done]]].
      constructor; [by eapply jerr_io|done].
    + destruct Hr as (-> & Sd' & HS & HC). split; [done|]. exists Sd'. split; [tauto|done].
  - eapply wp_bind_ok; [by eapply (read_map_spec g c Hg weak)|]. apply wp_ret.
    exists S, Sd. split; [|auto]. rewrite read_of_eq. constructor.
  - apply wp_bind. unfold wp at 1.
    destruct (find_spec g c Hg weak _ _ _ _ HM Hv) as [[HS E]|(d & v & HS & E & _)]; rewrite E; cbn [fst snd].
    + exists S, Sd. split; [by constructor|]. auto.
    + apply wp_ret. exists S, Sd. split; [by econstructor|]. auto.
  - apply wp_bind, wp_gets, wp_ret. exists S, Sd. split; [|auto].
    destruct HM as [Hc _]. change (MapModel.map_size s) with (m_count s). rewrite Hc. constructor.
Qed.

(** All histories. *)
Lemma run_spec (Hc2 : 2 <= c) fuel gcr junk h : choose_ppc (g_lps g) (g_lppb g) = c -> enough fuel -> Forall (valid_hop g) h ->
  forall s S Sd H, MX s S Sd -> S ∈ H -> Sd ∈ H ->
  exists S' Sd' H', hist_ok g S H h (fst (run fuel gcr junk h s)) S' H' /\
    MX (snd (run fuel gcr junk h s)) S' Sd' /\ S' ∈ H' /\ Sd' ∈ H'.
Proof.
  intros Hppc Hf. induction 1 as [|x h Hx Hh IH]; intros s S Sd H HM HS HSd; cbn [run].
  { exists S, Sd, H. split; [constructor|done]. }
  destruct x as [o|gcr' junk'].
  - pose proof (exec_spec fuel o s S Sd Hf HM Hx) as He. unfold wp in He.
    destruct (exec fuel o s) as [r s1] eqn:E. cbn [fst snd] in He.
    destruct r as [a|e|y].
    + destruct He as (S1 & Sd1 & Hc & HM1 & HSd1 & Hsy).
      set (H1 := match o, OK a with OSync, OK _ => [S1] | _, _ => S1 :: H end).
      destruct (IH s1 S1 Sd1 H1 HM1) as (S' & Sd' & H' & Hh' & HM' & ? & ?).
      { unfold H1. destruct o; apply elem_of_list_here. }
      { unfold H1. destruct o; cbn in Hsy; try (destruct HSd1 as [-> | [-> | ->]]; [by right|by right|by left]).
        subst Sd1. by left. }
      exists S', Sd', H'. destruct (run fuel gcr junk h s1) as [rs s2]. cbn [fst snd] in *.
      split; [by eapply h_call|]. done.
    + destruct He as (S1 & Sd1 & Hc & HM1 & HSd1 & Hsy).
      destruct (IH s1 S1 Sd1 (S1 :: H) HM1) as (S' & Sd' & H' & Hh' & HM' & ? & ?).
      { by left. }
      { destruct HSd1 as [-> | [-> | ->]]; [by right|by right|by left]. }
      exists S', Sd', H'. destruct (run fuel gcr junk h s1) as [rs s2]. cbn [fst snd] in *.
      split; [eapply h_call; [done|exact Hc|by destruct o]|]. done.
    + destruct He as (-> & Sd1 & HS1 & HC).
      destruct (restart_spec g c Hg weak Hdense Hc2 _ _ gcr junk HC Hppc) as (s2 & E2 & HM2 & _). rewrite E2.
      destruct (IH s2 Sd1 Sd1 [Sd1] HM2) as (S' & Sd' & H' & Hh' & HM' & ? & ?); [by left|by left|].
      exists S', Sd', H'. destruct (run fuel gcr junk h s2) as [rs s3]. cbn [fst snd] in *.
      split; [|done]. eapply h_crash; [|exact Hh'].
      destruct HS1 as [-> | [-> |?]]; auto.
  - destruct (restart_spec g c Hg weak Hdense Hc2 _ _ gcr' junk' (MX_CI _ _ _ _ _ _ HM) Hppc) as (s2 & E2 & HM2 & _). rewrite E2.
    destruct (IH s2 Sd Sd [Sd] HM2) as (S' & Sd' & H' & Hh' & HM' & ? & ?); [by left|by left|].
    exists S', Sd', H'. destruct (run fuel gcr junk h s2) as [rs s3]. cbn [fst snd] in *.
    split; [|done]. by eapply h_reset.
Qed.
End history.
