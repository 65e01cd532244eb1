(** C44 for maps in use. *)
From stdpp Require Import gmap.
From Verif Require Import Base Bytes Nand Journal MapModel Api Geom Tree Rep Inv StepDI MapStep MapOps Spec Ppc History Props Live Examples.
Local Open Scope Z_scope.

Section live.
Context (g : geo) (weak : Z -> bool) (Hsup : supported g) (Hfew : few_weak g weak).
Let c := choose_ppc (g_lps g) (g_lppb g).
Let Hg : geo_ok2 g c := supported_geo g Hsup.

(** Calling dhara_map_resume on a map in use is a power cycle: same result, and
    the same state except that gc_ratio is kept. *)
Theorem C44_resume_in_use s gcr junk : reachable g weak s ->
  let s2 := snd (restart gcr junk (chip s)) in
  map_resume s = (fst (restart gcr junk (chip s)), Ms (m_js s2) (m_gcr s) (m_count s2)).
Proof.
  intros Hr. pose proof (C44_resume_any_state s gcr junk) as H.
  destruct (reach_MX g weak Hsup Hfew _ Hr) as (S & Sd & HM). pose proof HM as (_ & hv & tv & sv & K & D & HI).
  pose proof (mi_j _ _ _ _ _ _ _ _ _ _ _ HI) as [Hn Hj _ _].
  destruct (MapOps.restart_spec g c Hg weak Hfew (go2_c _ _ Hg) _ _ gcr junk (MX_CI _ _ _ _ _ _ HM) eq_refl) as (s2 & E2 & _ & _ & _ & E3).
  destruct (map_resume s) as [r s1]. destruct (restart gcr junk (chip s)) as [r' s2']. cbn [fst snd] in *. subst s2'.
  destruct H as (-> & _ & H).
  { change (js_n (m_js s)) with (chip s) in Hn. rewrite (nk_geo _ _ _ Hn). apply Hj. }
  destruct H as (H1 & H2 & H3).
  { intros x. destruct E3 as [->|[-> _]]; done. }
  destruct s1. cbn in *. by subst.
Qed.
Theorem C44_resume_is_power_cycle s junk : reachable g weak s -> 1 <= m_gcr s <= 255 ->
  map_resume s = restart (m_gcr s) junk (chip s).
Proof.
  intros Hr Hgc. rewrite (C44_resume_in_use s (m_gcr s) junk Hr). cbn zeta.
  assert (E : m_gcr (snd (restart (m_gcr s) junk (chip s))) = m_gcr s).
  { destruct (reach_MX g weak Hsup Hfew _ Hr) as (S & Sd & HM).
    destruct (MapOps.restart_spec g c Hg weak Hfew (go2_c _ _ Hg) _ _ (m_gcr s) junk (MX_CI _ _ _ _ _ _ HM) eq_refl) as (s2 & -> & _ & -> & _).
    unfold gcr_of, w8. rewrite Z.mod_small by lia. destruct (Z.eqb_spec (m_gcr s) 0); lia. }
  destruct (restart _ _ _) as [r [js gc ct]]. cbn in *. by subst.
Qed.
End live.

(** A history of Examples.v and then dhara_map_resume: sector 20, written last, is
    lost, sectors 7 and 12 keep their values. *)
Example live_C44 : map_resume s4 = restart 4 0 (chip s4) /\
  fst (map_resume s4) = OK tt /\
  map (fun s => (mapped s 7, mapped s 12, mapped s 20, first_byte (reads s 7))) [s4; snd (map_resume s4)] =
    [(true, true, true, 4); (true, true, false, 4)].
Proof.
  split; [|by vm_compute].
  assert (E : m_gcr s4 = 4) by (by vm_compute). rewrite <-E at 1.
  apply (C44_resume_is_power_cycle exg ex_weak ex_supported ex_few_weak s4 0 ex_reach4). rewrite E. lia.
Qed.
