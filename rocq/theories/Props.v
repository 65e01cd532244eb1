(** The properties of the map interface (properties.jsonl), proved for every
    history, schedule of failures and crash point. *)
From stdpp Require Import gmap fin_maps.
From Verif Require Import Base Bytes BytesLemmas Wp Nand Journal MapModel Api Geom Tree Rep Age Inv
  StepJ MapStep MapOps Spec Ppc History Pres.
Local Open Scope Z_scope.

Section props.
Context (g : geo) (weak : Z -> bool) (Hsup : supported g) (Hfew : few_weak g weak).
Let c := choose_ppc (g_lps g) (g_lppb g).
Let Hg : geo_ok2 g c := supported_geo g Hsup.

Lemma fuel_enough fuel : enough_fuel g fuel -> enough g c fuel.
Proof.
  unfold enough_fuel, enough. pose proof (PC_le _ _ Hg).
  change (TT g) with (g_nblk g * 2 ^ g_lppb g). lia.
Qed.
Lemma fuel_pos fuel : enough_fuel g fuel -> (1 <= fuel)%nat.
Proof. unfold enough_fuel. pose proof (TT_pos _ _ Hg). change (TT g) with (g_nblk g * 2 ^ g_lppb g) in *. lia. Qed.

Lemma start_MX gcr junk n0 : fresh g weak n0 -> MX g c weak (snd (restart gcr junk n0)) ∅ ∅.
Proof.
  intros Hf. destruct (restart_spec g c Hg weak Hfew (go2_c _ _ Hg) n0 ∅ gcr junk) as (s & E & HM & _); auto.
  - by apply (fresh_CI g c Hg).
  - by rewrite E.
Qed.

Lemma run_main n0 fuel gcr junk h : fresh g weak n0 -> enough_fuel g fuel -> Forall (valid_hop g) h ->
  exists S Sd H, hist_ok g ∅ [∅] h (fst (run fuel gcr junk h (snd (restart gcr junk n0)))) S H /\
    MX g c weak (snd (run fuel gcr junk h (snd (restart gcr junk n0)))) S Sd /\ S ∈ H /\ Sd ∈ H.
Proof.
  intros Hf Hfu Hv. eapply (run_spec g c Hg weak Hfew (go2_c _ _ Hg)); auto.
  - by apply fuel_enough.
  - by apply start_MX.
  - by left.
  - by left.
Qed.

Lemma reach_MX s : reachable g weak s -> exists S Sd, MX g c weak s S Sd.
Proof.
  intros (n0 & fuel & gcr & junk & h & Hf & Hfu & Hv & ->).
  destruct (run_main n0 fuel gcr junk h Hf Hfu Hv) as (S & Sd & H & _ & HM & _). eauto.
Qed.

Lemma MX_shows s S Sd : MX g c weak s S Sd -> shows g s S.
Proof.
  intros HM. split_and!.
  - intros t Ht. rewrite <-(read_of_eq g c Hg). by eapply (read_map_spec g c Hg weak).
  - intros t Ht. unfold mapped.
    destruct (find_spec g c Hg weak _ _ _ _ HM Ht) as [[HS E]|(d & v & HS & E & _)]; rewrite E, HS; cbn.
    + split; [done|]. by intros [? ?].
    + split; [by eexists|done].
  - apply HM.
Qed.

Lemma shows_same s s' S t : shows g s S -> shows g s' S -> sector t -> same_sector s s' t.
Proof.
  intros (A1 & A2 & _) (B1 & B2 & _) Ht. unfold same_sector, reads. rewrite A1, B1 by done. split; [done|].
  specialize (A2 t Ht). specialize (B2 t Ht).
  destruct (mapped s t), (mapped s' t); naive_solver.
Qed.

Lemma shows_read s S t : shows g s S -> sector t -> reads s t = OK (read_of g S t).
Proof. intros (A1 & _) Ht. unfold reads. by rewrite A1. Qed.

Lemma shows_unmapped s S t : shows g s S -> sector t -> S !! t = None -> mapped s t = false.
Proof.
  intros (_ & A & _) Ht E. specialize (A t Ht). destruct (mapped s t); [|done].
  destruct A as [A _]. destruct (A eq_refl) as [? ?]. congruence.
Qed.
Lemma shows_mapped s S t d : shows g s S -> sector t -> S !! t = Some d -> mapped s t = true.
Proof. intros (_ & A & _) Ht E. apply A; eauto. Qed.
Lemma mapped_Some s S t : shows g s S -> sector t -> mapped s t = true -> is_Some (S !! t).
Proof. intros (_ & A & _) Ht E. by apply A. Qed.

Lemma reach_shows s : reachable g weak s -> exists S, shows g s S.
Proof. intros H. destruct (reach_MX s H) as (S & Sd & HM). exists S. by eapply MX_shows. Qed.

Lemma read_None (S : contents) t : S !! t = None -> read_of g S t = replicate (Z.to_nat (2 ^ g_lps g)) 255.
Proof. intros E. unfold read_of. change (list Z) with bytes. by rewrite E. Qed.
Lemma read_Some (S : contents) t d : S !! t = Some d -> read_of g S t = d.
Proof. intros E. unfold read_of. change (list Z) with bytes. by rewrite E. Qed.

(** Results of single calls. *)
Lemma call_cases s fuel o r s' : reachable g weak s -> enough_fuel g fuel -> valid_op g o ->
  exec fuel o s = (r, s') -> completed r ->
  exists S S', shows g s S /\ call_ok g S o r S' /\ shows g s' S'.
Proof.
  intros Hr Hf Hv E Hc. destruct (reach_MX s Hr) as (S & Sd & HM).
  pose proof (exec_spec g c Hg weak Hfew fuel o s S Sd (fuel_enough _ Hf) HM Hv) as H.
  unfold wp in H. rewrite E in H. cbn [fst snd] in H.
  destruct r as [a|e|x]; [| |done].
  - destruct H as (S' & Sd' & H1 & H2 & _). exists S, S'. split_and!; eauto using MX_shows.
  - destruct H as (S' & Sd' & H1 & H2 & _). exists S, S'. split_and!; eauto using MX_shows.
Qed.

Lemma exec_ok {A} (m : MM A) (f : A -> resp) s a s' : m s = (OK a, s') ->
  (let! x := m in ret (f x)) s = (OK (f a), s').
Proof. intros E. unfold bind. by rewrite E. Qed.
Lemma exec_er {A} (m : MM A) (f : A -> resp) s e s' : m s = (ER e, s') ->
  (let! x := m in ret (f x)) s = (ER e, s').
Proof. intros E. unfold bind. by rewrite E. Qed.

(** ** Histories: C01, C02, C12, C13, C16, C27 *)

Lemma call_replay S o r S' : no_copy o -> call_ok g S o r S' -> S' = replay1 S (o, r).
Proof. intros Hn H. destruct H; try done; destruct o; try done. Qed.

Definition synced (ops : list op) (rs : list (out resp)) (i : nat) : Prop :=
  ops !! i = Some OSync /\ exists a, rs !! i = Some (OK a).

Lemma hist_replay ops : forall S H rs S' H', hist_ok g S H (map HOp ops) rs S' H' ->
  Forall no_copy ops -> Forall completed rs ->
  S' = foldl replay1 S (zip ops rs) /\
  forall X, X ∈ H' -> (X ∈ H /\ forall i, ~ synced ops rs i) \/
    exists k, (k <= length ops)%nat /\ (forall i, synced ops rs i -> (i < k)%nat) /\
      X = foldl replay1 S (take k (zip ops rs)).
Proof.
  induction ops as [|o ops IH]; intros S H rs S' H' Hh Hn Hc; cbn [map] in Hh.
  { inversion Hh; subst. split; [done|]. intros X HX. left. split; [done|]. intros i [Hi _]. by rewrite lookup_nil in Hi. }
  inversion Hn; subst.
  inversion Hh; subst.
  2:{ inversion Hc; subst. done. }
  inversion Hc; subst.
  match goal with Hca : call_ok _ _ _ _ ?S1, Hh' : hist_ok _ ?S1 _ _ _ _ _ |- _ =>
    pose proof (call_replay _ _ _ _ ltac:(done) Hca) as ->; destruct (IH _ _ _ _ _ Hh' ltac:(done) ltac:(done)) as [HS HX] end.
  split; [by cbn|]. intros X HXin. destruct (HX X HXin) as [[HH Hns]|(k & Hk & Hsy & ->)].
  - assert (Hcase : X = replay1 S (o, r) \/ (X ∈ H /\ ~ (o = OSync /\ exists a, r = OK a))).
    { destruct o, r; try (apply elem_of_cons in HH as [?|HH]; [by left|right; split; [done|intros [? [? ?]]; done]]).
      apply elem_of_list_singleton in HH. by left. }
    destruct Hcase as [->|[HH' Hno]].
    + right. exists 1%nat. split; [cbn; lia|]. split; [|done].
      intros [|i] Hi; [lia|]. exfalso. destruct Hi as [Hi1 Hi2]. eapply Hns. split; eauto.
    + left. split; [done|]. intros [|i] [Hi1 Hi2].
      * apply Hno. cbn in Hi1, Hi2. split; [congruence|]. destruct Hi2 as [a Ha]. exists a. congruence.
      * eapply Hns. split; eauto.
  - right. exists (Datatypes.S k). split; [cbn; lia|]. split; [|done].
    intros [|i] Hi; [lia|]. destruct Hi as [Hi1 Hi2]. apply -> Nat.succ_lt_mono. apply Hsy. split; eauto.
Qed.

(** C01, C02: after any sequence of calls without power loss the map reads as
    the calls that returned success say. *)
Theorem C01_reads_latest n0 fuel gcr junk ops rs s' :
  fresh g weak n0 -> enough_fuel g fuel -> Forall (valid_op g) ops -> Forall no_copy ops ->
  run fuel gcr junk (map HOp ops) (snd (restart gcr junk n0)) = (rs, s') ->
  Forall completed rs ->
  shows g s' (replay (zip ops rs)).
Proof.
  intros Hf Hfu Hv Hn E Hc.
  destruct (run_main n0 fuel gcr junk (map HOp ops) Hf Hfu) as (S & Sd & H & Hh & HM & _).
  { apply Forall_map. exact Hv. }
  rewrite E in Hh, HM. cbn [fst snd] in Hh, HM.
  destruct (hist_replay _ _ _ _ _ _ Hh Hn Hc) as [-> _]. by eapply MX_shows.
Qed.

(** Every history, with power cycles, crashes and copies. *)
Theorem C12_history n0 fuel gcr junk h rs s' :
  fresh g weak n0 -> enough_fuel g fuel -> Forall (valid_hop g) h ->
  run fuel gcr junk h (snd (restart gcr junk n0)) = (rs, s') ->
  exists S H, hist_ok g ∅ [∅] h rs S H /\ shows g s' S.
Proof.
  intros Hf Hfu Hv E. destruct (run_main n0 fuel gcr junk h Hf Hfu Hv) as (S & Sd & H & Hh & HM & _).
  rewrite E in Hh, HM. exists S, H. split; [done|]. by eapply MX_shows.
Qed.

(** Power lost between two calls: the map comes back as it was after some
    prefix of the calls that includes the last successful sync. *)
Theorem C12_power_loss_between_calls n0 fuel gcr junk gcr' junk' ops rs s :
  fresh g weak n0 -> enough_fuel g fuel -> Forall (valid_op g) ops -> Forall no_copy ops ->
  run fuel gcr junk (map HOp ops) (snd (restart gcr junk n0)) = (rs, s) ->
  Forall completed rs ->
  exists k, (k <= length ops)%nat /\ (forall i, synced ops rs i -> (i < k)%nat) /\
    shows g (snd (restart gcr' junk' (chip s))) (replay (take k (zip ops rs))).
Proof.
  intros Hf Hfu Hv Hn E Hc.
  destruct (run_main n0 fuel gcr junk (map HOp ops) Hf Hfu) as (S & Sd & H & Hh & HM & HS & HSd).
  { apply Forall_map. exact Hv. }
  rewrite E in Hh, HM. cbn [fst snd] in Hh, HM.
  destruct (hist_replay _ _ _ _ _ _ Hh Hn Hc) as [_ HX].
  destruct (restart_spec g c Hg weak Hfew (go2_c _ _ Hg) _ _ gcr' junk' (MX_CI _ _ _ _ _ _ HM) eq_refl) as (s2 & E2 & HM2 & _).
  rewrite E2. destruct (HX Sd HSd) as [[HH Hns]|(k & Hk & Hsy & EX)].
  - apply elem_of_list_singleton in HH. subst Sd. exists 0%nat. split; [lia|].
    split; [intros i Hi; by apply Hns in Hi|]. by eapply MX_shows.
  - exists k. split; [done|]. split; [done|]. unfold replay. rewrite <-EX. by eapply MX_shows.
Qed.

(** Power lost during a call: as before, or the interrupted call took full
    effect. *)
Theorem C12_power_loss_during_call n0 fuel gcr junk gcr' junk' ops rs s o s1 :
  fresh g weak n0 -> enough_fuel g fuel -> Forall (valid_op g) ops -> Forall no_copy ops ->
  run fuel gcr junk (map HOp ops) (snd (restart gcr junk n0)) = (rs, s) ->
  Forall completed rs ->
  valid_op g o -> no_copy o -> exec fuel o s = (ST Crash, s1) ->
  exists X, shows g (snd (restart gcr' junk' (chip s1))) X /\
   (X = replay1 (replay (zip ops rs)) (o, OK RUnit) \/
    exists k, (k <= length ops)%nat /\ (forall i, synced ops rs i -> (i < k)%nat) /\
      X = replay (take k (zip ops rs))).
Proof.
  intros Hf Hfu Hv Hn E Hc Ho Hno Ex.
  destruct (run_main n0 fuel gcr junk (map HOp ops) Hf Hfu) as (S & Sd & H & Hh & HM & HS & HSd).
  { apply Forall_map. exact Hv. }
  rewrite E in Hh, HM. cbn [fst snd] in Hh, HM.
  destruct (hist_replay _ _ _ _ _ _ Hh Hn Hc) as [HSeq HX].
  pose proof (exec_spec g c Hg weak Hfew fuel o s S Sd (fuel_enough _ Hfu) HM Ho) as He.
  unfold wp in He. rewrite Ex in He. cbn [fst snd step_post] in He.
  destruct He as (_ & X & HXc & HC).
  destruct (restart_spec g c Hg weak Hfew (go2_c _ _ Hg) _ _ gcr' junk' HC eq_refl) as (s2 & E2 & HM2 & _).
  exists X. rewrite E2. split; [by eapply MX_shows|].
  assert (HinH : X ∈ H -> exists k, (k <= length ops)%nat /\ (forall i, synced ops rs i -> (i < k)%nat) /\
      X = replay (take k (zip ops rs))).
  { intros Hin. destruct (HX X Hin) as [[HH Hns]|(k & Hk & Hsy & EX)].
    - apply elem_of_list_singleton in HH. subst X. exists 0%nat. split; [lia|]. split; [|done].
      intros i Hi; by apply Hns in Hi.
    - by exists k. }
  destruct HXc as [-> | [-> | [r Hr]]]; auto.
  left. pose proof (call_replay _ _ _ _ Hno Hr) as ->. rewrite HSeq. by destruct o.
Qed.

(** C13: atomicity from a synced state. *)
Theorem C13_atomic s0 fuel s o s1 gcr junk :
  reachable g weak s0 -> enough_fuel g fuel -> map_sync fuel s0 = (OK tt, s) ->
  valid_op g o -> exec fuel o s = (ST Crash, s1) ->
  exists S X, shows g s S /\ shows g (snd (restart gcr junk (chip s1))) X /\
    (X = S \/ exists r, call_ok g S o (OK r) X).
Proof.
  intros Hr Hf Hs Hv Ex. destruct (reach_MX _ Hr) as (S & Sd & HM).
  pose proof (map_sync_spec g c Hg weak Hfew fuel s0 S Sd (fuel_enough _ Hf) HM) as H.
  unfold wp in H. rewrite Hs in H. cbn [fst snd] in H. destruct H as [_ H]. specialize (H eq_refl).
  pose proof (exec_spec g c Hg weak Hfew fuel o s S S (fuel_enough _ Hf) H Hv) as He.
  unfold wp in He. rewrite Ex in He. cbn [fst snd step_post] in He.
  destruct He as (_ & X & HXc & HC).
  destruct (restart_spec g c Hg weak Hfew (go2_c _ _ Hg) _ _ gcr junk HC eq_refl) as (s2 & E2 & HM2 & _).
  exists S, X. rewrite E2. split_and!; eauto using MX_shows. naive_solver.
Qed.

(** C16, C27: no call ever violates the driver's contract or a buffer bound, and
    none exhausts the loop bound; power loss is the only way not to return. *)
Lemma hist_results S H h rs S' H' : hist_ok g S H h rs S' H' -> Forall (fun r => r <> ST UB /\ r <> ST Fuel) rs /\ length rs = length h.
Proof.
  induction 1; [done| | |]; destruct IHhist_ok as [? ?]; (split; [constructor; [|done]|cbn; congruence]); try done.
  by destruct r.
Qed.

Theorem C16_no_undefined_behaviour n0 fuel gcr junk h rs s' :
  fresh g weak n0 -> enough_fuel g fuel -> Forall (valid_hop g) h ->
  run fuel gcr junk h (snd (restart gcr junk n0)) = (rs, s') ->
  length rs = length h /\ ~ ST UB ∈ rs.
Proof.
  intros Hf Hfu Hv E. destruct (run_main n0 fuel gcr junk h Hf Hfu Hv) as (S & Sd & H & Hh & _).
  rewrite E in Hh. destruct (hist_results _ _ _ _ _ _ Hh) as [HF HL]. split; [done|].
  intros Hin. by apply (proj1 (Forall_forall _ _) HF) in Hin as [? _].
Qed.

Theorem C27_terminates n0 fuel gcr junk h rs s' :
  fresh g weak n0 -> enough_fuel g fuel -> Forall (valid_hop g) h ->
  run fuel gcr junk h (snd (restart gcr junk n0)) = (rs, s') ->
  length rs = length h /\ ~ ST Fuel ∈ rs.
Proof.
  intros Hf Hfu Hv E. destruct (run_main n0 fuel gcr junk h Hf Hfu Hv) as (S & Sd & H & Hh & _).
  rewrite E in Hh. destruct (hist_results _ _ _ _ _ _ Hh) as [HF HL]. split; [done|].
  intros Hin. by apply (proj1 (Forall_forall _ _) HF) in Hin as [_ ?].
Qed.

(** ** Single calls: C02-C10, C14, C18, C19 *)

Theorem C02_unmapped_reads_blank s t :
  reachable g weak s -> sector t ->
  (mapped s t = false ->
     reads s t = OK (replicate (Z.to_nat (2 ^ g_lps g)) 255) /\ map_find t s = (ER E_NOT_FOUND, s)).
Proof.
  intros Hr Ht Hm. destruct (reach_MX _ Hr) as (S & Sd & HM). pose proof (MX_shows _ _ _ HM) as Hs.
  destruct (find_spec g c Hg weak _ _ _ _ HM Ht) as [[HS E]|(d & v & HS & E & _)].
  - split; [|done]. rewrite (shows_read _ _ _ Hs Ht). by rewrite (read_None _ _ HS).
  - rewrite (shows_mapped _ _ _ _ Hs Ht HS) in Hm. done.
Qed.

Theorem C02_fresh_all_unmapped n0 gcr junk t :
  fresh g weak n0 -> sector t -> mapped (snd (restart gcr junk n0)) t = false.
Proof.
  intros Hf Ht. eapply shows_unmapped; [by eapply MX_shows, start_MX|done|apply lookup_empty].
Qed.

Theorem C03_write_one_sector s fuel t d s' :
  reachable g weak s -> enough_fuel g fuel -> wsector t -> blen d = 2 ^ g_lps g ->
  map_write fuel t d s = (OK tt, s') ->
  reads s' t = OK d /\ mapped s' t = true /\
  (forall u, sector u -> u <> t -> same_sector s s' u) /\
  MapModel.map_size s' = MapModel.map_size s + (if mapped s t then 0 else 1).
Proof.
  intros Hr Hf Ht Hd E.
  destruct (call_cases s fuel (OWrite t d) (OK RUnit) s' Hr Hf (conj Ht Hd)) as (S & S' & Hs & Hc & Hs');
    [cbn [exec]; unfold bind; by rewrite E|done|].
  inversion Hc; subst. assert (Ht' : sector t) by (unfold sector; unfold wsector in Ht; lia).
  split. { rewrite (shows_read _ _ _ Hs' Ht'). by rewrite (read_Some _ _ _ (lookup_insert _ _ _)). }
  split. { eapply shows_mapped; [done|done|apply lookup_insert]. }
  split.
  - intros u Hu Hne. destruct Hs as (A1 & A2 & _). destruct Hs' as (B1 & B2 & _).
    unfold same_sector, reads. rewrite A1, B1 by done. unfold read_of. change (list Z) with bytes. rewrite lookup_insert_ne by done.
    split; [done|]. specialize (A2 u Hu). specialize (B2 u Hu). rewrite lookup_insert_ne in B2 by done.
    destruct (mapped s u), (mapped s' u); naive_solver.
  - destruct (S !! t) as [d0|] eqn:EX.
    + rewrite (shows_mapped _ _ _ _ Hs Ht' EX). destruct Hs as (_ & _ & ->), Hs' as (_ & _ & ->).
      erewrite map_size_insert_Some by done. lia.
    + rewrite (shows_unmapped _ _ _ Hs Ht' EX). destruct Hs as (_ & _ & ->), Hs' as (_ & _ & ->).
      rewrite map_size_insert_None by done. lia.
Qed.

Theorem C04_trim_one_sector s fuel t s' :
  reachable g weak s -> enough_fuel g fuel -> sector t -> map_trim fuel t s = (OK tt, s') ->
  mapped s' t = false /\
  (forall u, sector u -> u <> t -> same_sector s s' u) /\
  (mapped s t = false -> same_sector s s' t) /\
  MapModel.map_size s' = MapModel.map_size s - (if mapped s t then 1 else 0).
Proof.
  intros Hr Hf Ht E.
  destruct (call_cases s fuel (OTrim t) (OK RUnit) s' Hr Hf Ht) as (S & S' & Hs & Hc & Hs');
    [cbn [exec]; unfold bind; by rewrite E|done|].
  inversion Hc; subst.
  split. { eapply shows_unmapped; [done|done|apply lookup_delete]. }
  split.
  { intros u Hu Hne. destruct Hs as (A1 & A2 & _). destruct Hs' as (B1 & B2 & _).
    unfold same_sector, reads. rewrite A1, B1 by done. unfold read_of. change (list Z) with bytes. rewrite lookup_delete_ne by done.
    split; [done|]. specialize (A2 u Hu). specialize (B2 u Hu). rewrite lookup_delete_ne in B2 by done.
    destruct (mapped s u), (mapped s' u); naive_solver. }
  split.
  { intros Hm. assert (EX : S !! t = None).
    { destruct (S !! t) eqn:EX; [|done]. by rewrite (shows_mapped _ _ _ _ Hs Ht EX) in Hm. }
    rewrite delete_notin in Hs' by done. by eapply shows_same. }
  destruct (S !! t) as [d0|] eqn:EX.
  + rewrite (shows_mapped _ _ _ _ Hs Ht EX). destruct Hs as (_ & _ & ->), Hs' as (_ & _ & ->).
    erewrite map_size_delete_Some by (by eexists).
    assert (size S <> 0%nat). { intros E0. apply map_size_empty_iff in E0. subst. by rewrite lookup_empty in EX. }
    lia.
  + rewrite (shows_unmapped _ _ _ Hs Ht EX). destruct Hs as (_ & _ & ->), Hs' as (_ & _ & ->).
    rewrite delete_notin by done. lia.
Qed.

Theorem C05_clear_empties s :
  reachable g weak s ->
  exists s', map_clear s = (OK tt, s') /\ chip s' = chip s /\ MapModel.map_size s' = 0 /\
    forall t, sector t -> mapped s' t = false.
Proof.
  intros Hr. destruct (reach_MX _ Hr) as (S & Sd & HM).
  destruct (map_clear_spec g c Hg weak _ _ _ HM) as (s' & E & HM' & En & _). exists s'.
  pose proof (MX_shows _ _ _ HM') as Hs. split_and!; auto.
  - by destruct Hs as (_ & _ & ->).
  - intros t Ht. eapply shows_unmapped; [done|done|apply lookup_empty].
Qed.

Theorem C06_gc_sync_invisible s fuel o r s' :
  reachable g weak s -> enough_fuel g fuel -> o = OGc \/ o = OSync ->
  exec fuel o s = (r, s') -> completed r ->
  MapModel.map_size s' = MapModel.map_size s /\ forall t, sector t -> same_sector s s' t.
Proof.
  intros Hr Hf Ho E Hc. assert (Hv : valid_op g o) by (by destruct Ho as [-> | ->]).
  destruct (call_cases s fuel o r s' Hr Hf Hv E Hc) as (S & S' & Hs & Hca & Hs').
  assert (S' = S) as ->. { inversion Hca; subst; naive_solver. }
  split.
  - by destruct Hs as (_ & _ & ->), Hs' as (_ & _ & ->).
  - intros t Ht. by eapply shows_same.
Qed.

Theorem C07_failed_calls_change_nothing s fuel o e s' :
  reachable g weak s -> enough_fuel g fuel -> valid_op g o ->
  exec fuel o s = (ER e, s') ->
  MapModel.map_size s' = MapModel.map_size s /\ forall t, sector t -> same_sector s s' t.
Proof.
  intros Hr Hf Hv E.
  destruct (call_cases s fuel o (ER e) s' Hr Hf Hv E I) as (S & S' & Hs & Hca & Hs').
  assert (S' = S) as ->. { inversion Hca; subst; naive_solver. }
  split.
  - by destruct Hs as (_ & _ & ->), Hs' as (_ & _ & ->).
  - intros t Ht. by eapply shows_same.
Qed.

Theorem C08_size_counts_mapped s :
  reachable g weak s ->
  exists X : gset Z, MapModel.map_size s = Z.of_nat (size X) /\
    (forall t, t ∈ X <-> sector t /\ mapped s t = true) /\ forall t, t ∈ X -> wsector t.
Proof.
  intros Hr. destruct (reach_MX _ Hr) as (S & Sd & HM). pose proof (MX_shows _ _ _ HM) as Hs.
  assert (Hw : forall t, is_Some (S !! t) -> wsector t).
  { intros t [d Hd]. destruct HM as (_ & hv & tv & sv & K & D & HM).
    pose proof (mi_rep _ _ _ _ _ _ _ _ _ _ _ HM) as Hrep.
    destruct (decide (id_ok t)) as [Hid|Hid].
    - unfold wsector. unfold id_ok, SECTOR_NONE in Hid. lia.
    - rewrite (repr_out _ _ _ _ Hrep Hid) in Hd. done. }
  exists (dom S). destruct Hs as (A1 & A2 & A3). split; [by rewrite A3, size_dom|]. split.
  - intros t. rewrite elem_of_dom. split.
    + intros HS. pose proof (Hw t HS). assert (sector t) by (unfold sector; unfold wsector in *; lia).
      split; [done|]. by apply A2.
    + intros [Ht Hm]. by apply A2.
  - intros t Ht. apply Hw. by apply elem_of_dom.
Qed.

(** C09.  Automatic garbage collection comes first; the check uses the capacity
    it leaves. *)
Theorem C09_full_only_when_full s fuel t d s' :
  reachable g weak s -> enough_fuel g fuel -> wsector t -> blen d = 2 ^ g_lps g ->
  map_write fuel t d s = (ER E_MAP_FULL, s') ->
  mapped s t = false /\ map_capacity s' <= MapModel.map_size s'.
Proof.
  intros Hr Hf Ht Hd E. destruct (reach_MX _ Hr) as (S & Sd & HM).
  assert (Ht' : sector t) by (unfold sector; unfold wsector in Ht; lia).
  pose proof (map_write_spec g c Hg weak Hfew fuel s S Sd t d (fuel_pos _ Hf) HM) as H.
  rewrite (ps_eq g c Hg) in H. specialize (H Ht Hd). unfold wp in H. rewrite E in H. cbn [fst snd] in H.
  destruct H as [_ [He (Sd' & _ & HM')]].
  assert (Hcase : S !! t = None /\ map_capacity s' <= Z.of_nat (size S)).
  { destruct He as [He|[[? _]|(_ & ? & ?)]]; [|done|done].
    unfold jerr in He. naive_solver. }
  destruct Hcase as [HS Hcap]. split; [by eapply shows_unmapped; [eapply MX_shows| |]|].
  destruct (MX_shows _ _ _ HM') as (_ & _ & ->). done.
Qed.

Theorem C09_full_when_full s fuel t d s1 :
  reachable g weak s -> enough_fuel g fuel -> wsector t ->
  auto_gc fuel s = (OK tt, s1) -> mapped s t = false -> map_capacity s1 <= MapModel.map_size s1 ->
  map_write fuel t d s = (ER E_MAP_FULL, s1).
Proof.
  intros Hr Hf Ht E Hm Hcap. destruct (reach_MX _ Hr) as (S & Sd & HM).
  assert (Ht' : sector t) by (unfold sector; unfold wsector in Ht; lia).
  pose proof (auto_gc_spec g c Hg weak Hfew fuel s S Sd (fuel_pos _ Hf) HM) as H.
  unfold wp in H. rewrite E in H. cbn [fst snd] in H. destruct H as [_ (Sd1 & _ & HM1)].
  assert (HS : S !! t = None).
  { destruct (S !! t) eqn:EX; [|done]. by rewrite (shows_mapped _ _ _ _ (MX_shows _ _ _ HM) Ht' EX) in Hm. }
  pose proof HM1 as (_ & hv & tv & sv & K & D & HM2).
  assert (Hul : blen uninit_meta = META_SIZE) by done.
  destruct (trace_MI g c Hg weak _ _ _ _ _ _ _ _ t uninit_meta HM2 Ht' Hul) as (nm & Et & _).
  pose proof (mi_rep _ _ _ _ _ _ _ _ _ _ _ HM2) as Hrep.
  destruct (findp K (j_root (js_j (m_js s1))) t) eqn:Ef.
  { assert (Hid : id_ok t) by (unfold id_ok, SECTOR_NONE; unfold wsector in Ht; lia).
    destruct (proj1 (findp_iff _ _ _ _ Hrep Hid)) as [? ?]; [by eexists|]. congruence. }
  unfold map_write. pose proof (fuel_pos _ Hf). destruct fuel as [|n]; [lia|]. cbn [write_loop].
  unfold bind, gets, prepare_write, bind, gets. rewrite E, Et. cbn [fst].
  unfold MapModel.map_size in Hcap. by rewrite (proj2 (Z.leb_le _ _) Hcap).
Qed.

Theorem C09_success_when_room s fuel t d s' :
  reachable g weak s -> enough_fuel g fuel -> wsector t -> blen d = 2 ^ g_lps g ->
  map_write fuel t d s = (OK tt, s') -> mapped s t = false ->
  exists s1, auto_gc fuel s = (OK tt, s1) /\ MapModel.map_size s1 < map_capacity s1 /\
    MapModel.map_size s1 = MapModel.map_size s.
Proof.
  intros Hr Hf Ht Hd E Hm.
  destruct (reach_MX _ Hr) as (S & Sd & HM).
  pose proof (auto_gc_spec g c Hg weak Hfew fuel s S Sd (fuel_pos _ Hf) HM) as H. unfold wp in H.
  destruct (auto_gc fuel s) as [[[]|e|x] s1] eqn:Eg; cbn [fst snd] in H.
  - exists s1. split; [done|]. destruct H as [_ (Sd1 & _ & HM1)].
    split; [|unfold MapModel.map_size; destruct HM as [-> _], HM1 as [-> _]; done].
    destruct (Z.lt_ge_cases (MapModel.map_size s1) (map_capacity s1)) as [|Hge]; [done|].
    rewrite (C09_full_when_full s fuel t d s1 Hr Hf Ht Eg Hm Hge) in E. done.
  - exfalso. revert E. unfold map_write. pose proof (fuel_pos _ Hf). destruct fuel as [|n]; [lia|]. cbn [write_loop].
    unfold bind, gets, prepare_write, bind, gets. by rewrite Eg.
  - exfalso. revert E. unfold map_write. pose proof (fuel_pos _ Hf). destruct fuel as [|n]; [lia|]. cbn [write_loop].
    unfold bind, gets, prepare_write, bind, gets. by rewrite Eg.
Qed.

Theorem C10_find s t p s' :
  reachable g weak s -> sector t -> map_find t s = (OK p, s') ->
  s' = s /\ 0 <= p < g_nblk g * 2 ^ g_lppb g /\
  (p + 1) mod 2 ^ j_ppc (js_j (m_js s)) <> 0 /\
  n_bad (chip s) (p / 2 ^ g_lppb g) = false /\
  fst (nand_read p 0 (page_size g) (chip s)) = reads s t.
Proof.
  intros Hr Ht E. destruct (reach_MX _ Hr) as (S & Sd & HM). pose proof (MX_shows _ _ _ HM) as Hs.
  destruct (find_spec g c Hg weak _ _ _ _ HM Ht) as [[HS E']|(d & v & HS & E' & Hu & Hb & Hrd)]; rewrite E' in E; [done|].
  injection E as <- <-. split; [done|]. split; [apply (ph_range _ _ Hg)|]. split.
  { destruct HM as (_ & hv & tv & sv & K & D & HM).
    pose proof (mi_j _ _ _ _ _ _ _ _ _ _ _ HM) as [_ Hj _ _]. rewrite (ji_ppc _ _ _ _ _ _ _ Hj).
    fold (PC c). pose proof (PC_ge4 _ (go2_c _ _ Hg)). pose proof (ph_slot g c Hg v) as Hsl. unfold user in Hu.
    intros Hz. apply Hu. rewrite <-Hsl.
    apply Z.mod_divide in Hz as [q Hq]; [|lia]. symmetry. apply Z.mod_unique with (q := q - 1); lia. }
  split; [done|]. rewrite Hrd. rewrite (shows_read _ _ _ Hs Ht). by rewrite (read_Some _ _ _ HS).
Qed.

Theorem C10_find_injective s t u p :
  reachable g weak s -> sector t -> sector u ->
  fst (map_find t s) = OK p -> fst (map_find u s) = OK p -> t = u.
Proof.
  intros Hr Ht Hu E1 E2. destruct (reach_MX _ Hr) as (S & Sd & HM).
  destruct (map_find t s) as [r1 s1] eqn:F1, (map_find u s) as [r2 s2] eqn:F2. cbn in E1, E2. subst.
  exact (find_inj g c Hg weak s S Sd t u p s1 s2 HM Ht Hu F1 F2).
Qed.

Theorem C11_sync_durable s fuel s' gcr junk :
  reachable g weak s -> enough_fuel g fuel -> map_sync fuel s = (OK tt, s') ->
  let s2 := snd (restart gcr junk (chip s')) in
  MapModel.map_size s2 = MapModel.map_size s /\ forall t, sector t -> same_sector s s2 t.
Proof.
  intros Hr Hf E. destruct (reach_MX _ Hr) as (S & Sd & HM).
  pose proof (map_sync_spec g c Hg weak Hfew fuel s S Sd (fuel_enough _ Hf) HM) as H.
  unfold wp in H. rewrite E in H. cbn [fst snd] in H. destruct H as [_ H]. specialize (H eq_refl).
  destruct (restart_spec g c Hg weak Hfew (go2_c _ _ Hg) _ _ gcr junk (MX_CI _ _ _ _ _ _ H) eq_refl) as (s2 & E2 & HM2 & _).
  cbn zeta. rewrite E2. split.
  - unfold MapModel.map_size. destruct HM as [-> _], HM2 as [-> _]. done.
  - intros t Ht. eapply shows_same; eauto using MX_shows.
Qed.

(** C18, C19: copies when no automatic garbage collection is due, i.e. when
    dhara_journal_size is below dhara_map_capacity. *)
Theorem C18_copy_sector_partial s fuel a b s' :
  reachable g weak s -> enough_fuel g fuel -> sector a -> wsector b ->
  (mapped s a = true -> journal_size g (js_j (m_js s)) < map_capacity s) ->
  map_copy_sector fuel a b s = (OK tt, s') ->
  reads s' b = reads s a /\ mapped s' b = mapped s a /\
  forall u, sector u -> u <> b -> same_sector s s' u.
Proof.
  intros Hr Hf Ha Hb Hng E. destruct (reach_MX _ Hr) as (S & Sd & HM). pose proof (MX_shows _ _ _ HM) as Hs.
  assert (Hb' : sector b) by (unfold sector; unfold wsector in Hb; lia).
  unfold map_copy_sector, bind, attempt in E.
  destruct (find_spec g c Hg weak _ _ _ _ HM Ha) as [[HS E']|(d & v & HS & E' & _)]; rewrite E' in E.
  - rewrite decide_True in E by done.
    destruct (C04_trim_one_sector s fuel b s' Hr Hf Hb' E) as (H1 & H2 & _).
    assert (Hr' : exists S', shows g s' S' /\ S' !! b = None).
    { destruct (call_cases s fuel (OTrim b) (OK RUnit) s' Hr Hf Hb') as (S0 & S' & Hs0 & Hc & Hs');
        [cbn [exec]; unfold bind; by rewrite E|done|].
      inversion Hc; subst. exists (delete b S0). split; [done|apply lookup_delete]. }
    destruct Hr' as (S' & Hs' & HS').
    rewrite (shows_read _ _ _ Hs' Hb'), (shows_read _ _ _ Hs Ha). rewrite (read_None _ _ HS), (read_None _ _ HS').
    split; [done|]. split; [|done]. by rewrite H1, (shows_unmapped _ _ _ Hs Ha HS).
  - assert (Hn : no_gc_due s).
    { unfold no_gc_due. destruct HM as (_ & hv & tv & sv & K & D & HM).
      pose proof (mi_j _ _ _ _ _ _ _ _ _ _ _ HM) as [Hn _ _ _]. unfold chip. rewrite (nk_geo _ _ _ Hn).
      apply Hng. by eapply shows_mapped. }
    pose proof (copy_live_spec g c Hg weak Hfew fuel s S Sd a b d _ (fuel_pos _ Hf) HM Hb Ha Hn HS E') as H.
    unfold wp in H. rewrite E in H. cbn [fst snd] in H. destruct H as (_ & d' & Sd' & -> & _ & HM').
    pose proof (MX_shows _ _ _ HM') as Hs'.
    split. { rewrite (shows_read _ _ _ Hs' Hb'), (shows_read _ _ _ Hs Ha). rewrite (read_Some _ _ _ HS). by rewrite (read_Some _ _ _ (lookup_insert _ _ _)). }
    split. { erewrite (shows_mapped s'); [|done|done|apply lookup_insert]. by erewrite shows_mapped. }
    intros u Hu Hne. destruct Hs as (A1 & A2 & _). destruct Hs' as (B1 & B2 & _).
    unfold same_sector, reads. rewrite A1, B1 by done. unfold read_of. change (list Z) with bytes. rewrite lookup_insert_ne by done.
    split; [done|]. specialize (A2 u Hu). specialize (B2 u Hu). rewrite lookup_insert_ne in B2 by done.
    destruct (mapped s u), (mapped s' u); naive_solver.
Qed.

Theorem C19_copy_page_partial s fuel a p b s' :
  reachable g weak s -> enough_fuel g fuel -> sector a -> wsector b ->
  journal_size g (js_j (m_js s)) < map_capacity s ->
  map_find a s = (OK p, s) -> map_copy_page fuel p b s = (OK tt, s') ->
  reads s' b = fst (nand_read p 0 (page_size g) (chip s)) /\
  forall u, sector u -> u <> b -> same_sector s s' u.
Proof.
  intros Hr Hf Ha Hb Hng Ef E.
  destruct (C10_find s a p s Hr Ha Ef) as (_ & _ & _ & _ & ->).
  assert (Hm : map_copy_sector fuel a b s = (OK tt, s')).
  { unfold map_copy_sector, bind, attempt. by rewrite Ef. }
  destruct (C18_copy_sector_partial s fuel a b s' Hr Hf Ha Hb (fun _ => Hng) Hm) as (H1 & _ & H2). done.
Qed.
End props.

(** C15: starting up never writes to the chip, whatever is on it. *)
Theorem C15_resume_reads_only gcr junk n : chip (snd (restart gcr junk n)) = n.
Proof. apply restart_chip. Qed.


(** ** C14: chips without a checkpoint ([no_checkpoint], Spec.v) *)

Lemma find_checkblock_none i : forall b s, supported_small (n_geo (js_n s)) -> no_checkpoint (js_n s) ->
  j_ppc (js_j s) = choose_ppc (g_lps (n_geo (js_n s))) (g_lppb (n_geo (js_n s))) -> 0 <= b ->
  exists s', find_checkblock_loop i b s = (ER E_TOO_BAD, s') /\ j_ppc (js_j s') = j_ppc (js_j s).
Proof.
  induction i as [|i IH]; intros b s Hsup Hno Hc Hb; [by eexists|].
  set (g := n_geo (js_n s)) in *. pose proof (supported_small_geo g Hsup) as Hg.
  set (c := choose_ppc (g_lps g) (g_lppb g)) in *.
  cbn [find_checkblock_loop]. unfold bind at 1, getg, gets. fold g.
  destruct (Z.ltb_spec b (g_nblk g)) as [Hlt|]; [|by eexists].
  unfold bind at 1, getj, gets. rewrite Hc. unfold bind at 1, io, zoom.
  unfold nand_is_bad. fold g. unfold block_ok. rewrite (proj2 (Z.leb_le _ _)) by lia.
  rewrite (proj2 (Z.ltb_lt _ _)) by lia. cbn [andb].
  destruct (n_bad (js_n s) b) eqn:Ebad.
  { unfold bind at 1, ret. destruct (IH (w32 (b + 1)) s) as (s' & F1 & F2); try done.
    { unfold w32. pose proof (Z.mod_pos_bound (b + 1) 4294967296 ltac:(lia)). lia. }
    exists s'. split; [by destruct s|by rewrite F2]. }
  set (p := Z.lor _ _).
  assert (Hp : 0 <= p < g_nblk g * 2 ^ g_lppb g).
  { destruct Hsup as (H1 & H2 & H3 & H4).
    pose proof (PC_le g c Hg) as H6. pose proof (PC_ge g c Hg) as H7.
    pose proof (PB_ge g c Hg) as H8. pose proof (go_c _ _ Hg) as Hc1. unfold PC, PB in *.
    unfold p. rewrite lor_mask by lia. unfold w32. rewrite Z.shiftl_mul_pow2 by lia.
    rewrite Z.mod_small by nia.
    pose proof (Z.mul_div_le (b * 2 ^ g_lppb g) (2 ^ c) ltac:(lia)).
    pose proof (Z.div_pos (b * 2 ^ g_lppb g) (2 ^ c) ltac:(nia) ltac:(lia)). nia. }
  assert (Hps : page_size g = 2 ^ g_lps g).
  { unfold page_size. rewrite Z.shiftl_mul_pow2, Z.mul_1_l; [done|]. destruct Hsup. lia. }
  assert (Hps9 : 256 <= 2 ^ g_lps g).
  { change 256 with (2 ^ 8). apply Z.pow_le_mono_r; destruct Hsup; lia. }
  assert (Hw : 0 <= w32 (b + 1)).
  { unfold w32. pose proof (Z.mod_pos_bound (b + 1) 4294967296 ltac:(lia)). lia. }
  assert (Es : put_n (js_n s) s = s) by (by destruct s). rewrite Es.
  assert (Hrd : read_page_buf p s = match n_cell (js_n s) p with
    | Data d => (OK tt, Js (js_n s) (set_buf d (js_j s)))
    | Free => (OK tt, Js (js_n s) (set_buf (ffs (2 ^ g_lps g)) (js_j s)))
    | Junk o => match garbage g o with Some d => (OK tt, Js (js_n s) (set_buf d (js_j s))) | None => (ER E_ECC, s) end end).
  { unfold read_page_buf, bind, getg, gets, io, zoom, nand_read. fold g.
    unfold page_ok. rewrite (proj2 (Z.leb_le _ _)) by lia.
    rewrite (proj2 (Z.ltb_lt _ _)) by lia. cbn [andb negb].
    rewrite Hps. rewrite (proj2 (Z.leb_le 0 (2 ^ g_lps g))) by lia.
    rewrite (proj2 (Z.leb_le (0 + 2 ^ g_lps g) (2 ^ g_lps g))) by lia. cbn [Z.leb Z.compare andb negb].
    assert (Hsl : forall d, blen d = 2 ^ g_lps g -> slice 0 (2 ^ g_lps g) d = d).
    { intros d Hl. unfold slice. cbn [drop]. apply take_ge. unfold blen in Hl. lia. }
    destruct (n_cell (js_n s) p) as [|d|o] eqn:Ecell; cbn [cell_bytes].
    - rewrite Hps, Hsl; [done|]. apply blen_ffs. lia.
    - rewrite Hsl; [done|]. apply (Hno _ _ Ecell).
    - destruct (garbage g o) as [d|] eqn:Eo; [|by rewrite Es].
      rewrite Hsl; [done|]. unfold garbage in Eo. destruct o as [d'|]; [|done]. rewrite Hps in Eo.
      destruct (blen d' =? 2 ^ g_lps g) eqn:E2; [|done]. cbn in Eo. apply Z.eqb_eq in E2.
      destruct (negb _); [|done]. by injection Eo as <-. }
  unfold bind at 1, bind at 1, attempt. rewrite Hrd.
  destruct (n_cell (js_n s) p) as [|d|o] eqn:Ecell.
  - unfold bind at 1, getj, gets, ret. cbn [js_j js_n j_buf set_buf].
    assert (Hffm : hdr_has_magic (ffs (2 ^ g_lps g)) = false).
    { unfold ffs. destruct (Z.to_nat (2 ^ g_lps g)) as [|k] eqn:Ek; [lia|]. done. }
    rewrite Hffm. destruct (IH (w32 (b + 1)) (Js (js_n s) (set_buf (ffs (2 ^ g_lps g)) (js_j s)))) as (s' & F1 & F2); try done. exists s'. split; [done|rewrite F2; done].
  - unfold bind at 1, getj, gets, ret. cbn [js_j js_n j_buf set_buf].
    destruct (Hno _ _ Ecell) as [Hl Hm]. fold g in Hl.
    destruct (hdr_has_magic d) eqn:Em.
    + apply magic_take in Em; [done|]. unfold blen in Hl. lia.
    + destruct (IH (w32 (b + 1)) (Js (js_n s) (set_buf d (js_j s)))) as (s' & F1 & F2); try done. exists s'. split; [done|rewrite F2; done].
  - destruct (garbage g o) as [d|] eqn:Eo.
    + unfold bind at 1, getj, gets, ret. cbn [js_j js_n j_buf set_buf].
      assert (Hnm : hdr_has_magic d = false).
      { unfold garbage in Eo. destruct o as [d'|]; [|done]. destruct (_ =? _); [|done]. cbn [andb] in Eo.
        destruct (negb _) eqn:E3; [|done]. injection Eo as <-. by apply negb_true_iff in E3. }
      rewrite Hnm. destruct (IH (w32 (b + 1)) (Js (js_n s) (set_buf d (js_j s)))) as (s' & F1 & F2); try done. exists s'. split; [done|rewrite F2; done].
    + destruct (IH (w32 (b + 1)) s) as (s' & F1 & F2); try done. exists s'. split; [done|by rewrite F2].
Qed.

(** On a chip holding no checkpoint (whatever else it holds) resume reports
    failure. *)
Theorem C14_resume_without_journal gcr junk n :
  supported_small (n_geo n) -> no_checkpoint n -> fst (restart gcr junk n) = ER E_TOO_BAD.
Proof.
  intros Hsup Hno. unfold restart, map_resume, map_init, bind at 1, attempt, jn, zoom.
  unfold journal_resume, bind at 1, attempt, journal_resume_body, bind at 1, find_checkblock.
  cbn [m_js].
  destruct (find_checkblock_none MAX_RETRIES 0 (Js n (journal_init (n_geo n)))) as (s' & E & _); auto; [lia|].
  rewrite E. done.
Qed.

(** Whenever resume reports failure, for whatever reason and on whatever chip,
    the map is empty: every sector is unmapped and reads as blank. *)
Theorem C14_failed_resume_is_empty gcr junk n e s :
  restart gcr junk n = (ER e, s) ->
  MapModel.map_size s = 0 /\ chip s = n /\
  forall t, map_find t s = (ER E_NOT_FOUND, s) /\
            map_read t s = (OK (replicate (Z.to_nat (page_size (n_geo n))) 255), s).
Proof.
  intros E. pose proof (restart_chip gcr junk n) as Hch. rewrite E in Hch. cbn [snd] in Hch.
  assert (H : MapModel.map_size s = 0 /\ j_root (js_j (m_js s)) = PAGE_NONE).
  { revert E. unfold restart, map_resume, bind at 1, attempt, jn at 1, zoom.
    unfold journal_resume, bind at 1, attempt.
    destruct (journal_resume_body _) as [[x|e'|x] s1] eqn:Eb.
    - unfold ret, ck_get_count, bind, jn, zoom, modify. destruct (buf_get _ _ _) as [[?|?|?] ?] eqn:Eg; try done.
      exfalso. revert Eg. unfold buf_get. by destruct (_ && _).
    - unfold reset_journal, bind, getg, gets, modj, modify, fail. cbn [set_count put_js js_n js_j m_js].
      intros [= <- <-]. done.
    - done. }
  destruct H as [Hz Hroot]. split; [done|]. split; [done|].
  assert (Hf : forall t, map_find t s = (ER E_NOT_FOUND, s)).
  { intros t. unfold map_find, trace_path, bind, get_root, jn, zoom, getj, gets. rewrite Hroot.
    rewrite Z.eqb_refl. cbn. by destruct s as [[] ? ?]. }
  intros t. split; [done|]. unfold map_read, bind, attempt, jn, zoom, getg, gets.
  replace (put_js (m_js s) s) with s by (by destruct s). rewrite Hf. cbn. unfold chip in Hch. by rewrite Hch.
Qed.
