(** With room to spare, a copy of a sector always is one (C60): garbage collection inside
    dhara_map_copy_sector never gets to erase the source page before it is copied.
    Nothing here models code; the model is Journal.v and MapModel.v. *)
From stdpp Require Import gmap fin_maps.
From Verif Require Import Base Bytes BytesLemmas Wp Nand Journal MapModel Api Geom Tree Rep Age Inv StepDI StepJ StepA MapStep MapOps Spec Ppc History Props Quiet Cnt Bb Nojunk Space Room Orderly NoEcc Move Copy CopyProps.
From Verif Require Pres.
Local Open Scope Z_scope.

(** ** Specification *)

(** Few enough blocks go bad, and few enough garbage collections run per call. *)
Definition copy_spare (g : geo) (gcr : Z) (weak bad : Z -> bool) : Prop :=
  blocks g weak + 6 <= g_nblk g /\
  (blocks g weak <= fewest_bad g bad + 6 /\ ratio gcr <= 4 \/
   blocks g weak <= fewest_bad g bad + 5 /\ ratio gcr <= 2 ^ g_lppb g).

(** ** Proofs *)
Section copyroom.
Context (g : geo) (weak : Z -> bool) (Hsup : supported g) (Hfew : few_weak g weak).
Let c := choose_ppc (g_lps g) (g_lppb g).
Let Hg : geo_ok2 g c := supported_geo g Hsup.

Lemma copy_spare_spare gcr bad : copy_spare g gcr weak bad -> spare_blocks g weak bad.
Proof. intros [H1 [[H2 _]|[H2 _]]]; split; lia. Qed.

Lemma copy_arith gcr e0 W : 0 <= e0 -> 0 <= W -> W + 6 <= NB g ->
  W <= e0 + 6 /\ ratio gcr <= 4 \/ W <= e0 + 5 /\ ratio gcr <= 2 ^ g_lppb g ->
  Xof g gcr e0 + PC c - 2 + (gcr_of gcr + 2) < (NB g - 2 - W) * upbk g c.
Proof.
  intros He HW HWN Hc. rewrite <-!ratio_gcr in Hc. set (r := gcr_of gcr) in *. pose proof (gcr_of_range gcr) as Hr. fold r in Hr.
  pose proof (PC_ge4 _ (go2_c _ _ Hg)) as HPC4. pose proof (PB_ge _ _ Hg) as HPBC. pose proof (GP_ge _ _ Hg) as HGP.
  pose proof (PB_def _ _ Hg) as HPBd. pose proof (upbk_pos g c Hg) as Hup.
  change (2 ^ g_lppb g) with (PB g) in Hc.
  assert (Eup : upbk g c = PB g - GP g c). { unfold upbk. change (2 ^ (g_lppb g - c)) with (GP g c). change (2 ^ c) with (PC c). rewrite HPBd. lia. }
  unfold Xof, jcap. fold c. rewrite Eup in *.
  assert (Hpg : 4 * GP g c <= PB g) by nia.
  assert (Hq : PC c - 1 <= PB g - GP g c) by nia.
  destruct (Z.max_spec 3 ((NB g - e0 - 1) * (PB g - GP g c) - 8 * PB g + 2)) as [[Ha ->]|[Ha ->]].
  - assert (4 * (PB g - GP g c) <= (NB g - 2 - W) * (PB g - GP g c)) by nia.
    destruct Hc as [[H1 H2]|[H1 H2]]; nia.
  - destruct Hc as [[H1 H2]|[H1 H2]].
    + assert ((NB g - e0 - 1) * (PB g - GP g c) <= (NB g - 2 - W) * (PB g - GP g c) + 7 * (PB g - GP g c)) by nia. nia.
    + assert ((NB g - e0 - 1) * (PB g - GP g c) <= (NB g - 2 - W) * (PB g - GP g c) + 6 * (PB g - GP g c)) by nia. nia.
Qed.

(** The state after an orderly history. *)
Lemma run_SPx n fuel gcr junk h rs s :
  fresh g weak n -> enough_fuel g fuel -> Forall (valid_hop g) h -> spare_blocks g weak (n_bad n) ->
  run fuel gcr junk h (snd (restart gcr junk n)) = (rs, s) -> Forall completed rs -> orderly gcr true h rs ->
  let e0 := fewest_bad g (n_bad n) in let E1 := most_bad g weak in
  exists S Q y, SP g c weak (n_bad n) e0 E1 (gcr_of gcr) (mcap g c (gcr_of gcr) e0) (Xof g gcr e0) Q (NJ g n) s S y.
Proof.
  intros Hf Hfu Hops [Hs1 Hs2] E Hon Hor e0 E1.
  pose proof (NB_ge _ _ Hg) as HNB. unfold NB in HNB.
  pose proof (blocks_cnt g weak ltac:(lia)) as EW. pose proof (blocks_cnt g (n_bad n) ltac:(lia)) as EB.
  pose proof (cnt_nonneg weak 0 (g_nblk g)). pose proof (cnt_nonneg (n_bad n) 0 (g_nblk g)).
  pose proof (Z.div_pos (g_nblk g) 64 ltac:(lia) ltac:(lia)).
  assert (g_nblk g / 64 < g_nblk g) by (apply Z.div_lt; lia).
  set (r := gcr_of gcr). set (Mx := mcap g c r e0). set (X := Xof g gcr e0).
  assert (He0 : 0 <= e0 <= cnt (n_bad n) 0 (g_nblk g)) by (unfold e0, fewest_bad; lia).
  assert (HE1 : cnt weak 0 (g_nblk g) <= E1 /\ E1 < g_nblk g /\ g_nblk g / 64 <= E1) by (unfold E1, most_bad; lia).
  assert (He64 : e0 <= g_nblk g / 64) by (unfold e0, fewest_bad; lia).
  destruct (arith g (supported_is_small g Hsup) gcr e0 (cnt weak 0 (g_nblk g))) as (Ha & Hb & Hc & Hd); [lia|unfold e0; lia|lia|unfold NB; lia|].
  fold c in Ha, Hc, Hd. fold r in Ha, Hd. fold Mx in Ha, Hd. fold X in Ha, Hb, Hc.
  pose proof (gcr_of_range gcr) as Hr. fold r in Hr.
  pose proof (fuel_pos g Hsup fuel Hfu) as Hf1.
  assert (HQ : Qn g c weak (n_bad n) e0 E1 r Mx X (NJ g n) n).
  { eapply (fresh_Qn g c Hg weak Hfew); auto; unfold NB; try lia. }
  destruct (HQ gcr junk eq_refl) as [Ech [S0 HS0]].
  assert (HQ1 : Qn g c weak (n_bad n) e0 E1 r Mx X (NJ g n) (chip (snd (restart gcr junk n)))) by (by rewrite Ech).
  assert (Hhist := run_orderly g c Hg weak Hfew eq_refl (n_bad n) e0 E1 r Mx X (NJ g n) ltac:(unfold NB; lia) ltac:(unfold NB; lia) ltac:(lia) ltac:(unfold NB; lia) Hr ltac:(unfold Mx; lia) Ha Hb Hc
    fuel gcr junk h Hf1 eq_refl Hops true _ _ _ _ (SP_up _ _ _ _ _ _ _ _ _ _ _ _ HS0 HQ1) (fun _ => HQ1) E Hon Hor).
  destruct Hhist as (_ & S & HS). eexists S, _, _. exact HS.
Qed.

(** The page of a mapped sector is in the journal. *)
Lemma find_v s S Sd hv tv sv K D a p s1 : MI g c weak s S Sd hv tv sv K D -> sector a -> map_find a s = (OK p, s1) ->
  exists v, tv <= v < hv /\ p = ph g v.
Proof.
  intros HM Ha E. unfold map_find in E. assert (Hul : blen uninit_meta = META_SIZE) by done.
  destruct (trace_MI g c Hg weak _ _ _ _ _ _ _ _ a uninit_meta HM Ha Hul) as (nm & Et & Hp).
  pose proof (mi_rep _ _ _ _ _ _ _ _ _ _ _ HM) as Hrep. unfold bind in E. rewrite Et in E.
  destruct (findp K (j_root (js_j (m_js s))) a) as [q|] eqn:Ef; [|done].
  pose proof (findp_spec_id _ _ _ _ _ Hrep Ha Ef) as Hid.
  destruct (findp_Some _ _ _ _ _ Hrep Hid Ef) as (E1 & [[d m] HK] & E3).
  pose proof (mi_j _ _ _ _ _ _ _ _ _ _ _ HM) as [Hn Hj _ _].
  destruct (ji_K _ _ _ _ _ _ _ Hj _ _ _ HK) as (v & [Hv Hu Hpv Hb Hd] & Hdl & _). exists v.
  injection E as E _. split; [done|]. by rewrite <-E.
Qed.

(** A call that copies the page of a sector neither erases nor programs it. *)
Lemma copy_kept n fuel gcr junk h rs s a p t r s' :
  fresh g weak n -> enough_fuel g fuel -> Forall (valid_hop g) h -> copy_spare g gcr weak (n_bad n) ->
  run fuel gcr junk h (snd (restart gcr junk n)) = (rs, s) -> Forall completed rs -> orderly gcr true h rs ->
  sector a -> wsector t -> map_find a s = (OK p, s) -> map_copy_page fuel p t s = (r, s') ->
  r = OK tt \/ r = ER E_ECC -> page_kept p (chip s) (chip s').
Proof.
  intros Hf Hfu Hops Hsp E Hon Hor Ha Ht Ef Ec Hr.
  destruct (run_SPx n fuel gcr junk h rs s Hf Hfu Hops (copy_spare_spare _ _ Hsp) E Hon Hor) as (S & Q & y & Sd & hv & tv & sv & K & D & sk & HS).
  set (e0 := fewest_bad g (n_bad n)) in *.
  pose proof (sp_m _ _ _ _ _ _ _ _ _ _ _ _ _ _ _ _ _ _ _ _ _ HS) as HM.
  pose proof (sp_c _ _ _ _ _ _ _ _ _ _ _ _ _ _ _ _ _ _ _ _ _ HS) as Hcnt.
  pose proof (sp_r _ _ _ _ _ _ _ _ _ _ _ _ _ _ _ _ _ _ _ _ _ HS) as Hgcr.
  pose proof (sp_sk _ _ _ _ _ _ _ _ _ _ _ _ _ _ _ _ _ _ _ _ _ HS) as Hsk.
  pose proof (sp_syn _ _ _ _ _ _ _ _ _ _ _ _ _ _ _ _ _ _ _ _ _ HS) as Hsyn.
  pose proof (gcr_of_range gcr) as Hgr.
  destruct (find_v _ _ _ _ _ _ _ _ _ _ _ HM Ha Ef) as (v & Hv & ->).
  pose proof (map_copy_page_MV g c Hg weak Hfew fuel s S Sd hv tv sv K D (ph g v) t (fuel_pos g Hsup fuel Hfu) HM Hcnt ltac:(lia) Ht (ph_range g c Hg v)) as Hw.
  unfold wp in Hw. rewrite Ec in Hw. cbn [fst snd] in Hw.
  assert (HMV : Bw weak (chip s') /\ exists v', MV g c (chip s) hv (chip s') v' (m_gcr s + 2)).
  { destruct Hr as [-> | ->]; [exact Hw|]. by apply Hw. }
  destruct HMV as (HB & v' & HMV).
  pose proof (mi_j _ _ _ _ _ _ _ _ _ _ _ HM) as [Hn Hj _ _].
  pose proof (ji_order _ _ _ _ _ _ _ Hj) as Hord.
  unfold page_kept. change (js_n (m_js s)) with (chip s) in Hn. rewrite (nk_geo _ _ _ Hn).
  pose proof (NB_ge _ _ Hg) as HNB. unfold NB in HNB.
  pose proof (blocks_cnt g weak ltac:(lia)) as EW. pose proof (cnt_nonneg weak 0 (g_nblk g)).
  eapply (not_erased g c Hg weak (chip s) hv sv sk (chip s') v' _ (Xof g gcr e0) v); [exact HB|apply HMV| |lia|apply Hj|exact Hsyn|exact HMV| |lia|apply Hj].
  - intros b Hb. by apply Hsk.
  - rewrite Hgcr. destruct Hsp as [H1 H2]. apply copy_arith; [|unfold NB; lia..|unfold NB; rewrite <-EW; exact H2].
    unfold e0, fewest_bad. pose proof (blocks_cnt g (n_bad n) ltac:(lia)) as EB. pose proof (cnt_nonneg (n_bad n) 0 (g_nblk g)).
    pose proof (Z.div_pos (g_nblk g) 64 ltac:(lia) ltac:(lia)). lia.
Qed.

(** C60.  On a chip with room to spare, a copy of a sector that succeeds is one: the
    target reads as the source did, and is mapped if the source was; no other sector
    changes. *)
Theorem C60_copy_sector n fuel gcr junk h rs s a b s' :
  fresh g weak n -> enough_fuel g fuel -> Forall (valid_hop g) h -> copy_spare g gcr weak (n_bad n) ->
  run fuel gcr junk h (snd (restart gcr junk n)) = (rs, s) -> Forall completed rs -> orderly gcr true h rs ->
  sector a -> wsector b -> map_copy_sector fuel a b s = (OK tt, s') ->
  reads s' b = reads s a /\ mapped s' b = mapped s a /\
  forall u, sector u -> u <> b -> same_sector s s' u.
Proof.
  intros Hf Hfu Hops Hsp E Hon Hor Ha Hb Ec.
  assert (Hr : reachable g weak s) by (eapply (room_reach' g weak n fuel gcr junk h); eauto; by rewrite E).
  eapply (C18_copy_sector_kept_partial g weak Hsup Hfew s fuel a b s'); auto.
  intros p Hp. eapply (copy_kept n fuel gcr junk h rs s a p b (OK tt) s'); eauto.
  unfold map_copy_sector, bind, attempt in Ec. by rewrite Hp in Ec.
Qed.

(** It fails only for a new sector in a map with as many sectors as fit. *)
Theorem C60_copy_sector_fails n fuel gcr junk h rs s a b e s' :
  fresh g weak n -> readable g n -> enough_fuel g fuel -> Forall (valid_hop g) h -> copy_spare g gcr weak (n_bad n) ->
  run fuel gcr junk h (snd (restart gcr junk n)) = (rs, s) -> Forall completed rs -> orderly gcr true h rs ->
  sector a -> wsector b -> map_copy_sector fuel a b s = (ER e, s') ->
  e = E_MAP_FULL /\ mapped s a = true /\ mapped s b = false /\ room g gcr (most_bad g weak) <= MapModel.map_size s.
Proof.
  intros Hf Hj Hfu Hops Hsp E Hon Hor Ha Hb Ec. pose proof (copy_spare_spare _ _ Hsp) as Hs.
  assert (Hr : reachable g weak s) by (eapply (room_reach' g weak n fuel gcr junk h); eauto; by rewrite E).
  pose proof (C59_next_call g weak Hsup Hfew n fuel gcr junk h rs s) as H59.
  assert (Ea : mapped s a = true).
  { destruct (mapped s a) eqn:Ea; [done|]. exfalso. unfold mapped in Ea.
    unfold map_copy_sector, bind, attempt in Ec. destruct (reach_MX g weak Hsup Hfew _ Hr) as (S & Sd & HM).
    destruct (find_spec g c Hg weak _ _ _ _ HM Ha) as [[HSn E']|(d & v & HSn & E' & _)]; rewrite E' in *; [|done].
    rewrite decide_True in Ec by done.
    refine (H59 (OTrim b) e s' Hf Hj Hfu Hops Hs E Hon Hor _ _); [unfold valid_op, sector, wsector in *; lia|].
    cbn [exec]. unfold bind. by rewrite Ec. }
  pose proof (H59 (OCopySector a b) e s' Hf Hj Hfu Hops Hs E Hon Hor ltac:(by split) ltac:(cbn [exec]; unfold bind; by rewrite Ec)) as [->|(He & Hm & Hc)]; [|done].
  exfalso. destruct (reach_MX g weak Hsup Hfew _ Hr) as (S & Sd & HM).
  destruct (find_spec g c Hg weak _ _ _ _ HM Ha) as [[HSn E']|(d & v & HSn & E' & _ & _ & Erd)].
  { unfold mapped in Ea. by rewrite E' in Ea. }
  assert (Ecp : map_copy_page fuel (ph g v) b s = (ER E_ECC, s')).
  { unfold map_copy_sector, bind, attempt in Ec. by rewrite E' in Ec. }
  pose proof (copy_kept n fuel gcr junk h rs s a _ b _ s' Hf Hfu Hops Hsp E Hon Hor Ha Hb E' Ecp ltac:(by right)) as Hk.
  assert (Eg : n_geo (chip s) = g).
  { destruct HM as (_ & hv & tv & sv & K & D & HM). by pose proof (mi_j _ _ _ _ _ _ _ _ _ _ _ HM) as [[] _ _ _]. }
  assert (Ew : map_write fuel b d s = (ER E_ECC, s')).
  { eapply C19_copy_is_write; [|rewrite Eg; exact Erd|exact Ecp|exact Hk]. rewrite Eg. unfold supported in Hsup. lia. }
  pose proof (H59 (OWrite b d) E_ECC s' Hf Hj Hfu Hops Hs E Hon Hor) as Hx. cbn [exec valid_op] in Hx. unfold bind in Hx. rewrite Ew in Hx.
  destruct Hx as [Hx _]; [|done|done]. split; [done|].
  eapply (reach_read_len g weak Hsup Hfew s (ph g v) d Hr). 
  pose proof (Pres.kn_read eq (fun _ => eq_refl) (ph g v) 0 (page_size g) (chip s)) as Hkn.
  destruct (nand_read _ _ _ _) as [x n1]. cbn in *. congruence.
Qed.

(** The same holds for dhara_map_copy_page applied to what dhara_map_find just returned. *)
Theorem C60_copy_found_page n fuel gcr junk h rs s a p b r s' :
  fresh g weak n -> readable g n -> enough_fuel g fuel -> Forall (valid_hop g) h -> copy_spare g gcr weak (n_bad n) ->
  run fuel gcr junk h (snd (restart gcr junk n)) = (rs, s) -> Forall completed rs -> orderly gcr true h rs ->
  sector a -> wsector b -> map_find a s = (OK p, s) -> map_copy_page fuel p b s = (r, s') ->
  match r with
  | OK _ => reads s' b = reads s a /\ mapped s' b = true /\ forall u, sector u -> u <> b -> same_sector s s' u
  | ER e => e = E_MAP_FULL /\ mapped s b = false /\ room g gcr (most_bad g weak) <= MapModel.map_size s
  | ST _ => True
  end.
Proof.
  intros Hf Hj Hfu Hops Hsp E Hon Hor Ha Hb Ef Ec.
  assert (Es : map_copy_sector fuel a b s = (r, s')) by (unfold map_copy_sector, bind, attempt; by rewrite Ef).
  assert (Ema : mapped s a = true) by (unfold mapped; by rewrite Ef).
  destruct r as [[]|e|x]; [| |done].
  - rewrite <-Ema. by eapply C60_copy_sector.
  - destruct (C60_copy_sector_fails n fuel gcr junk h rs s a b e s') as (?&_&?&?); auto.
Qed.
End copyroom.
