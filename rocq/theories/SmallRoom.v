(** C64 (continued): room on chips with pages of 256 bytes.

    What C55 and C56 say holds for every page size the library accepts: as long as
    power stays on, no call reports that the journal is full, the capacity stays
    within its bounds, and a sector is refused only when as many are stored as fit.
    Nothing here models code. *)
From stdpp Require Import gmap fin_maps.
From Verif Require Import Base Bytes BytesLemmas Wp Nand Journal MapModel Api Geom Tree Rep Age Inv
  StepJ MapStep MapOps Spec Ppc History Pres Props Wear Quiet Refute RefuteP Cnt Bb Nojunk Space Room Small.
Local Open Scope Z_scope.

Section smallroom.
Context (g : geo) (weak : Z -> bool) (Hsup : supported_small g) (Hfew : few_weak g weak).
Let c := choose_ppc (g_lps g) (g_lppb g).
Let Hg : geo_ok g c := supported_small_geo g Hsup.

Theorem C64_journal_never_full n fuel gcr junk ops rs s :
  fresh g weak n -> enough_fuel g fuel -> Forall (valid_op g) ops -> spare_blocks g weak (n_bad n) ->
  run fuel gcr junk (map HOp ops) (snd (restart gcr junk n)) = (rs, s) -> Forall completed rs ->
  ER E_JOURNAL_FULL ∉ rs.
Proof. intros Hf Hfu Hops Hs E Hon. by eapply (run_room g weak Hsup Hfew). Qed.

Theorem C64_next_call n fuel gcr junk ops rs s o e s' :
  fresh g weak n -> enough_fuel g fuel -> Forall (valid_op g) ops -> spare_blocks g weak (n_bad n) ->
  run fuel gcr junk (map HOp ops) (snd (restart gcr junk n)) = (rs, s) -> Forall completed rs ->
  valid_op g o -> exec fuel o s = (ER e, s') ->
  match o with
  | OWrite t _ | OCopySector _ t | OCopyPage _ t =>
      e = E_ECC \/ (e = E_MAP_FULL /\ mapped s t = false /\ room g gcr (most_bad g weak) <= MapModel.map_size s)
  | OTrim _ | OGc | OSync => e = E_ECC
  | OFind t => e = E_NOT_FOUND /\ mapped s t = false
  | OClear | ORead _ | OSize => False
  end.
Proof.
  intros Hf Hfu Hops Hs E Hon Ho Eo.
  destruct (run_room g weak Hsup Hfew n fuel gcr junk ops rs s Hf Hfu Hops Hs E Hon) as (_ & _ & Hn).
  destruct (Hn o e s' Ho Eo) as (Hn1 & Hn2 & _).
  assert (Hr : reachable_on g weak s) by (exists n, fuel, gcr, junk, ops, rs; done).
  destruct (on_MX g weak Hsup Hfew s Hr) as (S & Sd & HM).
  pose proof (MX_shows g weak Hsup s S Sd HM) as (_ & Hmp & _).
  assert (Hun : forall t, sector t -> S !! t = None -> mapped s t = false).
  { intros t Ht HS. specialize (Hmp t Ht). destruct (mapped s t); [|done].
    destruct (proj1 Hmp eq_refl) as [? ?]. congruence. }
  assert (Hw : forall t, wsector t -> sector t) by (unfold wsector, sector; lia).
  pose proof (exec_spec g c Hg weak Hfew fuel o s S Sd (fuel_enough g Hsup _ Hfu) HM Ho) as Hx.
  unfold wp in Hx. rewrite Eo in Hx. cbn [fst snd] in Hx. destruct Hx as (S1 & Sd1 & Hca & _).
  inversion Hca; subst.
  - split; [done|]. by apply Hun.
  - match goal with Hio : io_err _ |- _ => destruct Hio as [-> | ->] end; [done|]. destruct o; try done; by left.
  - specialize (Hn2 eq_refl). rewrite room_mcap.
    destruct o; try done; subst; right; (split; [done|]); (split; [|exact Hn2]); apply Hun; auto; cbn in Ho; apply Hw, Ho.
Qed.

Theorem C64_capacity n fuel gcr junk ops rs s :
  fresh g weak n -> enough_fuel g fuel -> Forall (valid_op g) ops -> spare_blocks g weak (n_bad n) ->
  run fuel gcr junk (map HOp ops) (snd (restart gcr junk n)) = (rs, s) -> Forall completed rs ->
  room g gcr (most_bad g weak) <= map_capacity s <= room g gcr (fewest_bad g (n_bad n)).
Proof.
  intros Hf Hfu Hops Hs E Hon. destruct (run_room g weak Hsup Hfew n fuel gcr junk ops rs s Hf Hfu Hops Hs E Hon) as (_ & Hc & _).
  by rewrite !room_mcap.
Qed.

(** On a chip that never fails, every call succeeds, however many there have been, but
    for a new sector in a map with as many sectors as fit. *)
Theorem C64_always_room n fuel gcr junk ops rs s o r s' :
  fresh g weak n -> quiet n -> enough_fuel g fuel -> Forall (valid_op g) ops -> spare_blocks g weak (n_bad n) ->
  run fuel gcr junk (map HOp ops) (snd (restart gcr junk n)) = (rs, s) ->
  valid_op g o -> exec fuel o s = (r, s') ->
  match r with
  | OK _ => True
  | ER e =>
      match o with
      | OWrite t _ | OCopySector _ t | OCopyPage _ t =>
          e = E_MAP_FULL /\ mapped s t = false /\ room g gcr (most_bad g weak) <= MapModel.map_size s
      | OFind t => e = E_NOT_FOUND /\ mapped s t = false
      | _ => False
      end
  | ST _ => False
  end.
Proof.
  intros Hf Hq Hfu Hops Hs E Ho Eo.
  destruct (C64_no_io_errors g weak Hsup Hfew n fuel gcr junk ops rs s Hf Hq Hfu Hops E) as [Hl H41].
  assert (Hon : Forall completed rs).
  { apply Forall_lookup. intros i x Hx. pose proof (lookup_lt_Some _ _ _ Hx) as Hlt. rewrite Hl in Hlt.
    destruct (lookup_lt_is_Some_2 _ _ Hlt) as [y Hy]. specialize (H41 _ _ _ Hy Hx). destruct x as [?|?|?]; done. }
  pose proof (run_snoc _ _ _ _ _ _ _ _ _ _ E Hon Eo) as E2.
  destruct (run fuel gcr junk (map HOp (ops ++ [o])) (snd (restart gcr junk n))) as [rs2 s2] eqn:E3. cbn in E2. subst rs2.
  assert (Hv2 : Forall (valid_op g) (ops ++ [o])).
  { apply Forall_app. split; [done|]. by apply Forall_singleton. }
  destruct (C64_no_io_errors g weak Hsup Hfew n fuel gcr junk _ _ _ Hf Hq Hfu Hv2 E3) as [_ H41'].
  specialize (H41' (length ops) o r). rewrite <-Hl in H41' at 2. rewrite !list_lookup_middle in H41' by done.
  specialize (H41' eq_refl eq_refl). destruct r as [a|e|x]; [done| |done].
  pose proof (C64_next_call n fuel gcr junk ops rs s o e s' Hf Hfu Hops Hs E Hon Ho Eo) as H55.
  destruct o; destruct e; try done; try tauto; destruct H55 as [?|?]; try done.
Qed.
End smallroom.

(** The chip and the calls of [small_C64] meet the hypotheses. *)
Lemma quiet62 : quiet n62.
Proof. done. Qed.
Lemma spare62 : spare_blocks g62 (fun _ => false) (n_bad n62).
Proof. split; vm_compute; congruence. Qed.
Example smallroom_C64 : exists rs s,
  supported_small g62 /\ few_weak g62 (fun _ => false) /\ fresh g62 (fun _ => false) n62 /\ quiet n62 /\
  enough_fuel g62 600 /\ Forall (valid_op g62) ops64 /\ spare_blocks g62 (fun _ => false) (n_bad n62) /\
  run 600 15 0 (map HOp ops64) (snd (restart 15 0 n62)) = (rs, s) /\ Forall completed rs /\
  room g62 15 (most_bad g62 (fun _ => false)) = 12.
Proof.
  pose proof (all_completed _ run64) as Hc.
  destruct (run 600 15 0 (map HOp ops64) (snd (restart 15 0 n62))) as [rs s] eqn:E.
  exists rs, s. split; [unfold supported_small; cbn; lia|].
  split; [exact few64|]. split; [exact fresh64|]. split; [exact quiet62|]. split; [exact fuel64|]. split; [exact valid64|].
  split; [exact spare62|]. split; [reflexivity|]. split; [exact Hc|vm_compute; reflexivity].
Qed.
