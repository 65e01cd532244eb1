(** Calls of the map during which programs fail in mid-block. *)
From stdpp Require Import gmap fin_maps.
From Verif Require Import Base Bytes BytesLemmas Wp Nand Journal MapModel Api Geom Tree Rep RecTree Inv Hdr StepDI StepNand StepJ StepA StepR StepS StepG Resume MapStep MapOps San Top Bm Rec Rec2 Rec3 Rec4 Rec5 Rec6 Rec7 RecMap RecOps RecOps2 RecOps3 RecOps4 Spec SpecF Ppc History Props.
From Verif Require Pres.
Local Open Scope Z_scope.

Section histf.
Context (g : geo) (c : Z) (Hg : geo_ok2 g c) (weak : Z -> bool) (Hdense : dense g weak).
Notation PB := (PB g).
Notation PC := (PC c).
Notation NB := (NB g).
Notation TT := (TT g).
Notation ph := (ph g).
Notation user := (user c).
Notation nextv := (nextv c).
Notation badv := (badv g).
Notation nok := (nok g weak).
Notation JInv := (JInv g c).
Notation JI := (JI g c weak).
Notation nokF := (nokF g weak).

Ltac pose_geo :=
  pose proof (PC_ge4 _ (go2_c _ _ Hg)) as HPC4; pose proof (PC_le _ _ Hg) as HPC256;
  pose proof (PB_pos _ _ Hg) as HPB4; pose proof (PB_ge _ _ Hg) as HPBC;
  pose proof (NB_ge _ _ Hg) as HNB8; pose proof (TT_le _ _ Hg) as HTT31;
  pose proof (TT_pos _ _ Hg) as HTTpos.
Notation "'lem' x" := (x g c Hg) (at level 9, x at level 8, only parsing).
Notation "'lemw' x" := (x g c Hg weak) (at level 9, x at level 8, only parsing).

Notation contents := (gmap Z bytes).
Notation rootof s := (j_root (js_j (m_js s))).
Notation dirtyof s := (j_dirty (js_j (m_js s))).
Notation MI := (MapStep.MI g c weak).
Notation MX := (MapStep.MX g c weak).
Notation Rst := (Rst g c weak).
Notation topI := (topI g).
Notation Good := (Good g c weak).
Notation enoughR := (enoughR g c).
Notation mfpost := (mfpost g c weak).
Notation frec := (frec g c weak).
Notation gcn := (gcn g).
Notation sw := (sw g).
Local Opaque lk lkv wf wfv pa meta_get_id meta_get_alt.
Context (Hppc : choose_ppc (g_lps g) (g_lppb g) = c).
Notation CI := (MapStep.CI g c weak).

(** Between calls. *)
Record IF (st : bool) (s : ms) (S Sd : contents) : Prop := {
  if_mx : MX (sanm s) S Sd;
  if_nok : nokF (chip s);
  if_bm : BM (js_j (m_js s));
  if_it : st = true -> IT g (js_j (m_js s))
}.

Lemma restart_F n Sd gcr junk : nokF n -> CI (san n) Sd -> IF false (snd (restart gcr junk n)) Sd Sd.
Proof.
  intros Hn HC. destruct (MapOps.restart_spec g c Hg weak Hdense (go2_c _ _ Hg) _ _ gcr junk HC Hppc) as (s2 & E2 & HM2 & _).
  rewrite restart_ag in E2. cbn [snd] in E2. subst s2.
  split; [exact HM2| |apply BM_restart|done].
  eapply (ext_nokF g weak); [exact Hn| |by apply (MX_nok g c weak) in HM2].
  unfold restart. apply (San.k_map_resume mid mid_l mid_r).
Qed.

Lemma exec_geo fuel o s : n_geo (chip s) = g -> n_geo (chip (snd (exec fuel o s))) = g.
Proof. intros E. apply (Top.k_exec g (Hl g c Hg) fuel o s E). Qed.

Lemma exec_settles fuel o s r s' : n_geo (chip s) = g -> exec fuel o s = (r, s') -> settles o r = true -> IT g (js_j (m_js s')).
Proof.
  intros E0 E Hs. destruct o as [t0 d| | |p0 t0| | | | | | ]; try done; cbn [exec] in E; destruct r as [a|e|x]; try done.
  - pose proof (map_write_est g (Hl g c Hg) fuel t0 d s E0) as Hw. unfold wp in Hw. unfold bind in E.
    destruct (map_write fuel t0 d s) as [[[]|e|x] s1]; try discriminate.
    injection E as <- <-. by apply Hw.
  - pose proof (map_copy_page_est g (Hl g c Hg) fuel p0 t0 s E0) as Hw. unfold wp in Hw. unfold bind in E.
    destruct (map_copy_page fuel p0 t0 s) as [[[]|e|x] s1]; try discriminate.
    injection E as <- <-. by apply Hw.
Qed.

Lemma IF_next st fuel o s r s' S Sd S' Sd' : IF st s S Sd -> exec fuel o s = (r, s') ->
  (match r with ST _ => False | _ => True end) -> MX (sanm s') S' Sd' -> IF (st || settles o r) s' S' Sd'.
Proof.
  intros [HM Hn Hb Hi] E Hr HM'. split; [exact HM'| | |].
  - pose proof (exec_ag fuel o s) as [He _]. rewrite E in He.
    eapply (ext_nokF g weak); [exact Hn|exact He|]. by apply (MX_nok g c weak) in HM'.
  - pose proof (Bm.k_exec fuel o s Hb) as H. by rewrite E in H.
  - intros H. apply orb_true_iff in H as [->|H].
    + pose proof (Top.k_exec g (Hl g c Hg) fuel o s (nf_geo _ _ _ Hn)) as [_ Hk]. rewrite E in Hk. cbn [fst snd] in Hk.
      specialize (Hk (Hi eq_refl)). by destruct r.
    + eapply exec_settles; eauto. apply Hn.
Qed.

Lemma leak_gave e : leak e -> gave_up (ER e).
Proof. unfold leak, gave_up. intros [->|[->| ->]]; auto. Qed.

Lemma exec_step st fuel o s S Sd r s' : enoughF g c fuel -> IF st s S Sd -> valid_op g o -> exec fuel o s = (r, s') ->
  unaffected fuel o s \/ (st = true /\ 0 < MapModel.map_size s /\ ~ gave_up r) ->
  match r with
  | ST x => x = Crash /\ exists Sd', (Sd' = Sd \/ Sd' = S \/ exists r', call_ok g S o (OK r') Sd') /\ CI (san (chip s')) Sd' /\ nokF (chip s')
  | _ => exists S' Sd', call_ok g S o r S' /\ IF (st || settles o r) s' S' Sd' /\ (Sd' = Sd \/ Sd' = S \/ Sd' = S') /\
      (match o, r with OSync, OK _ => Sd' = S' | _, _ => True end)
  end.
Proof.
  intros Hf HI Hv E Hc.
  assert (Hq : ag sanm (exec fuel o) s -> match r with
  | ST x => x = Crash /\ exists Sd', (Sd' = Sd \/ Sd' = S \/ exists r', call_ok g S o (OK r') Sd') /\ CI (san (chip s')) Sd' /\ nokF (chip s')
  | _ => exists S' Sd', call_ok g S o r S' /\ IF (st || settles o r) s' S' Sd' /\ (Sd' = Sd \/ Sd' = S \/ Sd' = S') /\
      (match o, r with OSync, OK _ => Sd' = S' | _, _ => True end)
  end).
  { intros Ha. assert (Hen : enough g c fuel) by (unfold MapStep.enough; destruct Hf as (_ & _ & ?); lia).
    pose proof (wp_ag _ _ _ _ Ha (exec_spec g c Hg weak Hdense fuel o (sanm s) S Sd Hen (if_mx _ _ _ _ HI) Hv)) as Hw.
    unfold wp in Hw. rewrite E in Hw. cbn [fst snd] in Hw. unfold step_post in Hw.
    destruct r as [a|e|x].
    - destruct Hw as (S' & Sd' & H1 & H2 & H3 & H4). exists S', Sd'. split; [exact H1|]. split; [|done].
      by eapply (IF_next st).
    - destruct Hw as (S' & Sd' & H1 & H2 & H3 & H4). exists S', Sd'. split; [exact H1|]. split; [|done].
      by eapply (IF_next st).
    - destruct Hw as (-> & Sd' & H1 & H2). split; [done|]. exists Sd'. split; [done|]. split; [exact H2|].
      pose proof (exec_ag fuel o s) as [He _]. rewrite E in He.
      eapply (ext_nokF g weak); [apply HI|exact He|]. by destruct H2 as (D & [H _] & _). }
  destruct Hc as [Hnm|(-> & Hsz & Hng)].
  { apply Hq. exact Hnm. }
  destruct HI as [HM Hn Hb Hi]. specialize (Hi eq_refl).
  assert (HG : Good s S Sd) by by split.
  assert (HS : S <> ∅).
  { intros ->. assert (E0 : m_count s = 0) by apply HM. unfold MapModel.map_size in Hsz. lia. }
  pose proof (exec_F g c Hg weak Hdense fuel o s S Sd Hf HS HG Hv) as Hw.
  unfold wp in Hw. rewrite E in Hw. cbn [fst snd] in Hw. unfold stepF in Hw.
  destruct r as [a|e|x].
  - destruct Hw as (S' & Sd' & H1 & [G1 G2 G3 G4] & H3 & H4). exists S', Sd'. split; [exact H1|]. split; [by split|].
    split; [done|]. destruct o; done.
  - destruct Hw as [Hl|(S' & Sd' & H1 & [G1 G2 G3 G4] & H3)]; [by apply leak_gave in Hl|].
    exists S', Sd'. split; [exact H1|]. split; [by split|]. split; [done|]. destruct o; done.
  - exfalso. subst x. apply Hng. unfold gave_up. auto.
Qed.

Lemma run_F fuel gcr junk h : enoughF g c fuel -> Forall (valid_hop g) h ->
  forall st s S Sd H, IF st s S Sd -> S ∈ H -> Sd ∈ H -> tame fuel gcr junk st h s ->
  exists st' S' Sd' H', hist_ok g S H h (fst (run fuel gcr junk h s)) S' H' /\
    IF st' (snd (run fuel gcr junk h s)) S' Sd' /\ S' ∈ H' /\ Sd' ∈ H'.
Proof.
  intros Hf. induction 1 as [|x h Hx Hh IH]; intros st s S Sd H HI HS HSd HT; cbn [run].
  { exists st, S, Sd, H. split; [constructor|done]. }
  destruct x as [o|gcr' junk']; cbn [tame] in HT.
  - destruct (exec fuel o s) as [r s1] eqn:E. destruct HT as [HT1 HT2].
    pose proof (exec_step st fuel o s S Sd r s1 Hf HI Hx E HT1) as He.
    destruct r as [a|e|y].
    + destruct He as (S1 & Sd1 & Hc & HM1 & HSd1 & Hsy).
      set (H1 := match o, OK a with OSync, OK _ => [S1] | _, _ => S1 :: H end).
      destruct (IH _ s1 S1 Sd1 H1 HM1) as (st' & S' & Sd' & H' & Hh' & HM' & ? & ?).
      { unfold H1. destruct o; apply elem_of_list_here. }
      { unfold H1. destruct o; cbn in Hsy; try (destruct HSd1 as [-> | [-> | ->]]; [by right|by right|by left]).
        subst Sd1. by left. }
      { exact HT2. }
      exists st', S', Sd', H'. destruct (run fuel gcr junk h s1) as [rs s2]. cbn [fst snd] in *.
      split; [by eapply h_call|]. done.
    + destruct He as (S1 & Sd1 & Hc & HM1 & HSd1 & Hsy).
      destruct (IH _ s1 S1 Sd1 (S1 :: H) HM1) as (st' & S' & Sd' & H' & Hh' & HM' & ? & ?).
      { by left. }
      { destruct HSd1 as [-> | [-> | ->]]; [by right|by right|by left]. }
      { exact HT2. }
      exists st', S', Sd', H'. destruct (run fuel gcr junk h s1) as [rs s2]. cbn [fst snd] in *.
      split; [eapply h_call; [done|exact Hc|by destruct o]|]. done.
    + destruct He as (-> & Sd1 & HS1 & HC & Hn1).
      pose proof (restart_F _ _ gcr junk Hn1 HC) as HI2.
      destruct (IH _ _ Sd1 Sd1 [Sd1] HI2) as (st' & S' & Sd' & H' & Hh' & HM' & ? & ?); [by left|by left|exact HT2|].
      exists st', S', Sd', H'. destruct (run fuel gcr junk h _) as [rs s3]. cbn [fst snd] in *.
      split; [|done]. eapply h_crash; [|exact Hh'].
      destruct HS1 as [-> | [-> |?]]; auto.
  - pose proof (restart_F _ _ gcr' junk' (if_nok _ _ _ _ HI) (MX_CI _ _ _ _ _ _ (if_mx _ _ _ _ HI))) as HI2.
    destruct (IH _ _ Sd Sd [Sd] HI2) as (st' & S' & Sd' & H' & Hh' & HM' & ? & ?); [by left|by left|exact HT|].
    exists st', S', Sd', H'. destruct (run fuel gcr junk h _) as [rs s3]. cbn [fst snd] in *.
    split; [|done]. by eapply h_reset.
Qed.

Lemma fresh_F n : fresh_chip g weak n -> nokF n /\ CI (san n) ∅.
Proof.
  intros (Eg & Hc & Hb & He & Hp). split.
  - split; auto. intros p d E. rewrite (ps_eq g c Hg). destruct (Hc _ _ E) as [Hl _]. by rewrite Eg in Hl.
  - apply (fresh_CI g c Hg). split; [exact Eg|]. split; [exact Hc|]. split; [exact Hb|]. split.
    + intros t b f H. exact (He t b f H).
    + intros t p f H. cbn [san n_orc] in H. unfold sano in H. rewrite Eg in H.
      destruct (Z.eqb_spec (p mod 2 ^ g_lppb g) 0) as [E0|E0]; [split; [done|by eapply Hp]|].
      destruct (n_orc n t (OpProg p)); done.
Qed.

Lemma fuelF fuel : enough_fuelF g fuel -> enoughF g c fuel.
Proof.
  pose_geo. unfold enough_fuelF. change (g_nblk g * 2 ^ g_lppb g) with (NB * PB). intros H.
  unfold enoughF, RecMap.enoughR, Geom.TT. assert (8 * PB <= NB * PB) by nia.
  assert (NB <= NB * PB) by nia. lia.
Qed.

Lemma IF_shows st s S Sd : IF st s S Sd -> shows g s S.
Proof.
  intros [HM Hn Hb Hi]. split_and!.
  - intros t Ht. pose proof (read_map_spec g c Hg weak _ _ _ t HM Ht) as E.
    rewrite <-(read_of_eq g c Hg). eapply (ag_same g); [|apply agm, (San.k_map_read nomid nomid_l nomid_r)|exact E].
    split; [intros s0; apply (San.k_map_read mid mid_l mid_r)|apply Top.k_map_read|apply Bm.k_map_read|apply (Pres.k_map_read badle badle_refl badle_trans)].
  - intros t Ht.
    assert (Hf : fst (map_find t s) = fst (map_find t (sanm s))).
    { pose proof (agm (map_find t) (San.k_map_find nomid nomid_l nomid_r t) s) as E. unfold ag in E. rewrite E. done. }
    unfold mapped. rewrite Hf.
    destruct (find_spec g c Hg weak _ _ _ _ HM Ht) as [[HS E]|(d & v & HS & E & _)]; rewrite E, HS; cbn.
    + split; [done|]. by intros [? ?].
    + split; [by eexists|done].
  - apply HM.
Qed.
End histf.

Lemma no_failure_unaffected fuel o s : ~ mid_failure (chip s) (chip (snd (exec fuel o s))) -> unaffected fuel o s.
Proof. intros H. destruct (exec_ag fuel o s) as [_ [Ha|Hm]]; [exact Ha|]. by apply H in Hm. Qed.

Section C20.
Context (g : geo) (weak : Z -> bool) (Hsup : supported g) (Hfew : few_weak g weak).
Let c := choose_ppc (g_lps g) (g_lppb g).
Let Hg : geo_ok2 g c := supported_geo g Hsup.

Lemma run_mainF n0 fuel gcr junk h : fresh_chip g weak n0 -> enough_fuelF g fuel -> Forall (valid_hop g) h ->
  tame fuel gcr junk false h (snd (restart gcr junk n0)) ->
  exists st S Sd H, hist_ok g ∅ [∅] h (fst (run fuel gcr junk h (snd (restart gcr junk n0)))) S H /\
    IF g c weak st (snd (run fuel gcr junk h (snd (restart gcr junk n0)))) S Sd /\ S ∈ H /\ Sd ∈ H.
Proof.
  intros Hf Hfu Hv HT. destruct (fresh_F g c Hg weak n0 Hf) as [Hn HC].
  eapply (run_F g c Hg weak Hfew eq_refl fuel gcr junk h); [by apply (fuelF g c Hg)|exact Hv| | | |exact HT].
  - by apply (restart_F g c Hg weak Hfew eq_refl).
  - by left.
  - by left.
Qed.

(** C20: programs may fail in the middle of a block during any call that comes
    after a write, finds a non-empty map and does not give up. *)
Theorem C20_block_failure_partial n0 fuel gcr junk h rs s' :
  fresh_chip g weak n0 -> enough_fuelF g fuel -> Forall (valid_hop g) h ->
  tame fuel gcr junk false h (snd (restart gcr junk n0)) ->
  run fuel gcr junk h (snd (restart gcr junk n0)) = (rs, s') ->
  exists S H, hist_ok g ∅ [∅] h rs S H /\ shows g s' S.
Proof.
  intros Hf Hfu Hv HT E. destruct (run_mainF n0 fuel gcr junk h Hf Hfu Hv HT) as (st & S & Sd & H & Hh & HI & _).
  rewrite E in Hh, HI. exists S, H. split; [done|]. by eapply (IF_shows g c Hg).
Qed.

(** In terms of the calls and their return codes alone, when power is not lost. *)
Theorem C20_reads_latest_partial n0 fuel gcr junk ops rs s' :
  fresh_chip g weak n0 -> enough_fuelF g fuel -> Forall (valid_op g) ops -> Forall no_copy ops ->
  tame fuel gcr junk false (map HOp ops) (snd (restart gcr junk n0)) ->
  run fuel gcr junk (map HOp ops) (snd (restart gcr junk n0)) = (rs, s') ->
  Forall completed rs ->
  shows g s' (replay (zip ops rs)).
Proof.
  intros Hf Hfu Hv Hn HT E Hc.
  destruct (run_mainF n0 fuel gcr junk (map HOp ops) Hf Hfu) as (st & S & Sd & H & Hh & HI & _).
  { apply Forall_map. exact Hv. }
  { exact HT. }
  rewrite E in Hh, HI. cbn [fst snd] in Hh, HI.
  destruct (hist_replay _ _ _ _ _ _ _ Hh Hn Hc) as [-> _]. by eapply (IF_shows g c Hg).
Qed.

(** Power lost afterwards, between two calls. *)
Theorem C20_power_loss_after_partial n0 fuel gcr junk gcr' junk' ops rs s :
  fresh_chip g weak n0 -> enough_fuelF g fuel -> Forall (valid_op g) ops -> Forall no_copy ops ->
  tame fuel gcr junk false (map HOp ops) (snd (restart gcr junk n0)) ->
  run fuel gcr junk (map HOp ops) (snd (restart gcr junk n0)) = (rs, s) ->
  Forall completed rs ->
  exists k, (k <= length ops)%nat /\ (forall i, synced ops rs i -> (i < k)%nat) /\
    shows g (snd (restart gcr' junk' (chip s))) (replay (take k (zip ops rs))).
Proof.
  intros Hf Hfu Hv Hn HT E Hc.
  destruct (run_mainF n0 fuel gcr junk (map HOp ops) Hf Hfu) as (st & S & Sd & H & Hh & HI & HS & HSd).
  { apply Forall_map. exact Hv. }
  { exact HT. }
  rewrite E in Hh, HI. cbn [fst snd] in Hh, HI.
  destruct (hist_replay _ _ _ _ _ _ _ Hh Hn Hc) as [_ HX].
  pose proof (restart_F g c Hg weak Hfew eq_refl _ _ gcr' junk' (if_nok _ _ _ _ _ _ _ HI) (MX_CI _ _ _ _ _ _ (if_mx _ _ _ _ _ _ _ HI))) as HI2.
  pose proof (IF_shows g c Hg weak _ _ _ _ HI2) as Hsh.
  destruct (HX Sd HSd) as [[HE Hns]|(k & Hk & Hsy & ->)].
  - apply elem_of_list_singleton in HE. subst Sd. exists 0%nat. split; [lia|]. split; [|done].
    intros i Hi. exfalso. by eapply Hns.
  - exists k. split; [done|]. split; [done|]. exact Hsh.
Qed.

End C20.
