(** Space: a map that is not full can always be written (C55), and how much fits (C56).
    Nothing here models code; the model is Journal.v and MapModel.v. *)
From stdpp Require Import gmap fin_maps.
From Verif Require Import Base Bytes BytesLemmas Wp Nand Journal MapModel Api Geom Tree Rep Age Inv StepJ MapStep MapOps Spec Ppc History Props Quiet Cnt Bb Nojunk Space.
Local Open Scope Z_scope.

(** ** Specification *)

(** The number of blocks with property [f]. *)
Definition blocks (g : geo) (f : Z -> bool) : Z :=
  Z.of_nat (length (filter (fun b => f b = true) (seqZ 0 (g_nblk g)))).

(** The GC ratio in force: dhara_map_init takes a uint8_t and replaces 0 by 1. *)
Definition ratio (gcr : Z) : Z := if gcr mod 256 =? 0 then 1 else gcr mod 256.

(** How many sectors a map offers if [m] blocks are set aside as bad: of the
    pages of the other blocks but one, leave out one page in every checkpoint
    group (of [2 ^ c] pages); of the pages left, keep a fraction
    1 / (ratio + 1) and another eight blocks free. *)
Definition room (g : geo) (gcr m : Z) : Z :=
  let c := choose_ppc (g_lps g) (g_lppb g) in
  let pages := (g_nblk g - m - 1) * (2 ^ (g_lppb g - c) * (2 ^ c - 1)) in
  Z.max 0 (pages - pages / (ratio gcr + 1) - 8 * 2 ^ g_lppb g).

(** Bounds for the number of blocks the journal takes for bad on a chip that
    starts with [bad] blocks marked and on which only [weak] blocks ever fail: it
    starts from a guess of one block in 64. *)
Definition fewest_bad (g : geo) (bad : Z -> bool) : Z := Z.min (g_nblk g / 64) (blocks g bad).
Definition most_bad (g : geo) (weak : Z -> bool) : Z := Z.max (g_nblk g / 64) (blocks g weak).

(** Not too many blocks go bad. *)
Definition spare_blocks (g : geo) (weak bad : Z -> bool) : Prop :=
  blocks g weak <= fewest_bad g bad + 6 /\ blocks g weak + 4 <= g_nblk g.

(** ** Proofs *)
Lemma blocks_cnt g f : 0 <= g_nblk g -> blocks g f = cnt f 0 (g_nblk g).
Proof.
  intros HN. unfold blocks, cnt, seqZ. rewrite Z.sub_0_r. generalize 0 as a. induction (Z.to_nat (g_nblk g)) as [|n IH]; intros a; [done|].
  cbn [seq fmap list_fmap cntn]. rewrite <-(IH (a + 1)). 
  assert (E : forall k a l, (fun i => Z.of_nat i + a) <$> seq (S k) l = (fun i => Z.of_nat i + (a + 1)) <$> seq k l).
  { clear. intros k a l. rewrite <-fmap_S_seq. rewrite <-list_fmap_compose. apply list_fmap_ext. intros i x _. cbn. lia. }
  rewrite E. rewrite filter_cons. replace (Z.of_nat 0 + a) with a by lia. destruct (f a); [rewrite decide_True by done; cbn [length]; lia|].
  rewrite decide_False by done. lia.
Qed.
Lemma ratio_gcr gcr : gcr_of gcr = ratio gcr.
Proof. done. Qed.

Lemma run_snoc fuel gcr junk o r s' ops : forall s rs s1, run fuel gcr junk (map HOp ops) s = (rs, s1) -> Forall completed rs ->
  exec fuel o s1 = (r, s') -> fst (run fuel gcr junk (map HOp (ops ++ [o])) s) = rs ++ [r].
Proof.
  induction ops as [|a ops IH]; intros s rs s1 E Hc Eo; cbn [map app run] in *.
  { injection E as <- <-. rewrite Eo. destruct r as [?|?|[]]; done. }
  destruct (exec fuel a s) as [x s2]. destruct x as [b|e|y].
  - destruct (run fuel gcr junk (map HOp ops) s2) as [rs2 s3] eqn:E2. injection E as <- <-. apply Forall_cons in Hc as [_ Hc].
    specialize (IH _ _ _ E2 Hc Eo). destruct (run fuel gcr junk (map HOp (ops ++ [o])) s2) as [rs4 s4]. cbn in *. by rewrite IH.
  - destruct (run fuel gcr junk (map HOp ops) s2) as [rs2 s3] eqn:E2. injection E as <- <-. apply Forall_cons in Hc as [_ Hc].
    specialize (IH _ _ _ E2 Hc Eo). destruct (run fuel gcr junk (map HOp (ops ++ [o])) s2) as [rs4 s4]. cbn in *. by rewrite IH.
  - exfalso. destruct y; [destruct (run fuel gcr junk (map HOp ops) _) as [rs2 s3]| |]; injection E as <- <-; by apply Forall_cons in Hc as [Hc _].
Qed.

Section room0.
Context (g : geo) (weak : Z -> bool) (Hsup : supported_small g) (Hfew : few_weak g weak).
Let c := choose_ppc (g_lps g) (g_lppb g).
Let Hg : geo_ok g c := supported_small_geo g Hsup.

Lemma fuel_pos0 fuel : enough_fuel g fuel -> (1 <= fuel)%nat.
Proof. unfold enough_fuel. pose proof (TT_pos _ _ Hg). change (TT g) with (g_nblk g * 2 ^ g_lppb g) in *. lia. Qed.

Lemma room_mcap gcr m : room g gcr m = mcap g c (gcr_of gcr) m.
Proof. done. Qed.

Definition Xof (gcr e0 : Z) : Z := Z.max 3 (jcap g c e0 - 8 * PB g + 2).
Lemma arith gcr e0 W : 0 <= e0 -> W <= e0 + 6 -> 0 <= W -> W + 4 <= NB g ->
  let r := gcr_of gcr in let Mx := mcap g c r e0 in let X := Xof gcr e0 in
  (r + 1) * (Mx + 1) + X + 1 <= (r + 1) * X /\ 3 <= X /\ X + PC c - 2 < (NB g - 2 - W) * upbk g c /\ 0 <= Mx.
Proof.
  intros He HW HW0 HWN r Mx X. pose proof (gcr_of_range gcr) as Hr. fold r in Hr.
  pose proof (PC_ge _ _ Hg) as HPC4. pose proof (PB_ge _ _ Hg) as HPBC. pose proof (GP_ge _ _ Hg) as HGP.
  pose proof (PB_def _ _ Hg) as HPBd. pose proof (upbk_pos g c Hg) as Hup.
  assert (Eup : upbk g c = PB g - GP g c). { unfold upbk. change (2 ^ (g_lppb g - c)) with (GP g c). change (2 ^ c) with (PC c). rewrite HPBd. lia. }
  assert (Hup2 : PC c - 1 <= upbk g c). { unfold upbk. change (2 ^ (g_lppb g - c)) with (GP g c). change (2 ^ c) with (PC c). nia. }
  unfold Mx, X, Xof, mcap. set (J := jcap g c e0).
  pose proof (Z.div_mod J (r + 1) ltac:(lia)) as Hd. pose proof (Z.mod_pos_bound J (r + 1) ltac:(lia)) as Hm.
  set (q := J / (r + 1)) in *. set (u := J mod (r + 1)) in *.
  split_and!; [|lia| |lia].
  - destruct (Z.max_spec 3 (J - 8 * PB g + 2)) as [[Ha ->]|[Ha ->]].
    + destruct (Z.max_spec 0 (J - q - 8 * PB g)) as [[Hb ->]|[Hb ->]]; nia.
    + destruct (Z.max_spec 0 (J - q - 8 * PB g)) as [[Hb ->]|[Hb ->]]; [|nia].
      assert (q <= 0) by lia. assert (J - q - 8 * PB g <= 1 - q) by lia. 
      destruct (Z.eq_dec q 0) as [Eq|Eq]; [|nia]. rewrite Eq in *. nia.
  - destruct (Z.max_spec 3 (J - 8 * PB g + 2)) as [[Ha ->]|[Ha ->]].
    + assert (Hk : (NB g - e0 - 1) * upbk g c <= (NB g - 2 - W + 7) * upbk g c) by (apply Z.mul_le_mono_nonneg_r; lia).
      unfold J, jcap in *. lia.
    + assert (Hu3 : PC c + 1 < 2 * upbk g c).
      { pose proof (PB_pos _ _ Hg). destruct (Z_le_gt_dec 4 (PC c)); [lia|].
        assert (2 <= GP g c) by nia. assert (upbk g c = GP g c * (PC c - 1)) by (rewrite Eup, HPBd; ring).
        assert (PC c = 2 \/ PC c = 3) as [E|E] by lia; rewrite E in *; lia. }
      assert (2 * upbk g c <= (NB g - 2 - W) * upbk g c) by (apply Z.mul_le_mono_nonneg_r; lia).
      lia.
Qed.

Lemma run_room n fuel gcr junk ops rs s :
  fresh g weak n -> enough_fuel g fuel -> Forall (valid_op g) ops -> spare_blocks g weak (n_bad n) ->
  run fuel gcr junk (map HOp ops) (snd (restart gcr junk n)) = (rs, s) -> Forall completed rs ->
  let e0 := fewest_bad g (n_bad n) in let E1 := most_bad g weak in
  ER E_JOURNAL_FULL ∉ rs /\ mcap g c (gcr_of gcr) E1 <= map_capacity s <= mcap g c (gcr_of gcr) e0 /\
  forall o e s', valid_op g o -> exec fuel o s = (ER e, s') ->
    e <> E_JOURNAL_FULL /\ (e = E_MAP_FULL -> mcap g c (gcr_of gcr) E1 <= MapModel.map_size s) /\ (e = E_ECC -> NJ g n -> copies o).
Proof.
  intros Hf Hfu Hops [Hs1 Hs2] E Hon e0 E1.
  pose proof (NB_ge _ _ Hg) as HNB. unfold NB in HNB.
  pose proof (blocks_cnt g weak ltac:(lia)) as EW. pose proof (blocks_cnt g (n_bad n) ltac:(lia)) as EB.
  pose proof (cnt_nonneg weak 0 (g_nblk g)). pose proof (cnt_nonneg (n_bad n) 0 (g_nblk g)).
  pose proof (Z.div_pos (g_nblk g) 64 ltac:(lia) ltac:(lia)).
  assert (g_nblk g / 64 < g_nblk g) by (apply Z.div_lt; lia).
  set (r := gcr_of gcr). set (Mx := mcap g c r e0). set (X := Xof gcr e0).
  assert (He0 : 0 <= e0 <= cnt (n_bad n) 0 (g_nblk g)) by (unfold e0, fewest_bad; lia).
  assert (HE1 : cnt weak 0 (g_nblk g) <= E1 /\ E1 < g_nblk g /\ g_nblk g / 64 <= E1) by (unfold E1, most_bad; lia).
  assert (He64 : e0 <= g_nblk g / 64) by (unfold e0, fewest_bad; lia).
  destruct (arith gcr e0 (cnt weak 0 (g_nblk g))) as (Ha & Hb & Hc & Hd); [lia|unfold e0; lia|lia|unfold NB; lia|].
  fold r in Ha, Hd. fold Mx in Ha, Hd. fold X in Ha, Hb, Hc.
  pose proof (gcr_of_range gcr) as Hr. fold r in Hr.
  pose proof (fuel_pos0 fuel Hfu) as Hf1.
  destruct (start_SP g c Hg weak (n_bad n) e0 E1 r Mx X (fun _ => True) (NJ g n) gcr junk n) as (S0 & HS0); auto.
  { unfold NB. lia. } { nia. }
  destruct (run_SP g c Hg weak Hfew (n_bad n) e0 E1 r Mx X (fun _ => True) (NJ g n) ltac:(unfold NB; lia) ltac:(unfold NB; lia) ltac:(lia) ltac:(unfold NB; lia) Hr ltac:(unfold Mx; lia) Ha Hb Hc ltac:(done)
    fuel gcr junk ops Hf1 Hops _ _ _ _ HS0 E Hon) as (Hno & S & HS).
  split; [exact Hno|].
  assert (Hcap : mcap g c r E1 <= map_capacity s <= mcap g c r e0 /\ m_count s = Z.of_nat (size S)).
  { destruct HS as (Sd & hv & tv & sv & K & D & sk & HS). split; [|apply HS].
    eapply (map_capacity_bb g c Hg weak (n_bad n) e0 E1); [unfold NB; lia|lia|unfold NB; lia|lia|apply HS|apply HS]. }
  split; [apply Hcap|]. destruct Hcap as [_ Hcount].
  intros o e s' Ho Eo.
  assert (Hsp : wp (exec fuel o) s (spost g c weak (n_bad n) e0 E1 r Mx X (fun _ => True) (NJ g n) (copies o) S)).
  { apply (exec_SP g c Hg weak Hfew (n_bad n) e0 E1 r Mx X (fun _ => True) (NJ g n)); auto; unfold NB; try lia. }
  unfold wp in Hsp. rewrite Eo in Hsp. destruct Hsp as [(Hx1 & Hx2 & Hx3) _]. split; [done|]. split; [|done].
  intros He. specialize (Hx2 He). change (MapModel.map_size s) with (m_count s). lia.
Qed.

End room0.

Section room.
Context (g : geo) (weak : Z -> bool) (Hsup : supported g) (Hfew : few_weak g weak).
Let c := choose_ppc (g_lps g) (g_lppb g).
Let Hs0 : supported_small g := supported_is_small g Hsup.
Notation run_room := (run_room g weak Hs0 Hfew).

Lemma room_reach n fuel gcr junk ops s : fresh g weak n -> enough_fuel g fuel -> Forall (valid_op g) ops ->
  snd (run fuel gcr junk (map HOp ops) (snd (restart gcr junk n))) = s -> reachable g weak s.
Proof.
  intros Hf Hfu Hops <-. exists n, fuel, gcr, junk, (map HOp ops). split_and!; auto. apply Forall_map. done.
Qed.

(** C55.  As long as power stays on, no call ever reports that the journal is full,
    and a write (or copy) is refused as "map full" only if the map holds as many
    sectors as fit with all the weak blocks set aside. *)
Theorem C55_journal_never_full n fuel gcr junk ops rs s :
  fresh g weak n -> enough_fuel g fuel -> Forall (valid_op g) ops -> spare_blocks g weak (n_bad n) ->
  run fuel gcr junk (map HOp ops) (snd (restart gcr junk n)) = (rs, s) -> Forall completed rs ->
  ER E_JOURNAL_FULL ∉ rs.
Proof. intros Hf Hfu Hops Hs E Hon. by eapply run_room; eauto. Qed.

Theorem C55_next_call n fuel gcr junk ops rs s o e s' :
  fresh g weak n -> enough_fuel g fuel -> Forall (valid_op g) ops -> spare_blocks g weak (n_bad n) ->
  run fuel gcr junk (map HOp ops) (snd (restart gcr junk n)) = (rs, s) -> Forall completed rs ->
  valid_op g o -> exec fuel o s = (ER e, s') ->
  match o with
  | OWrite t _ | OCopySector _ t | OCopyPage _ t =>
      e = E_ECC \/ (e = E_MAP_FULL /\ mapped s t = false /\ room g gcr (most_bad g weak) <= MapModel.map_size s)
  | OTrim _ | OGc | OSync => e = E_ECC
  | OFind t => e = E_NOT_FOUND /\ mapped s t = false
  | OClear | ORead _ | OSize => False
  end.
Proof.
  intros Hf Hfu Hops Hs E Hon Ho Eo.
  destruct (run_room n fuel gcr junk ops rs s Hf Hfu Hops Hs E Hon) as (_ & _ & Hn).
  destruct (Hn o e s' Ho Eo) as (Hn1 & Hn2 & _).
  pose proof (C42_errors g weak Hsup Hfew s fuel o e s' (room_reach n fuel gcr junk ops s Hf Hfu Hops ltac:(by rewrite E)) Hfu Ho Eo) as H42.
  rewrite room_mcap. destruct o; try tauto; destruct H42 as [?|[?|[? ?]]]; try tauto.
Qed.

(** C56.  The capacity the map reports is between the bounds that the weak blocks and
    the blocks marked bad give. *)
Theorem C56_capacity n fuel gcr junk ops rs s :
  fresh g weak n -> enough_fuel g fuel -> Forall (valid_op g) ops -> spare_blocks g weak (n_bad n) ->
  run fuel gcr junk (map HOp ops) (snd (restart gcr junk n)) = (rs, s) -> Forall completed rs ->
  room g gcr (most_bad g weak) <= map_capacity s <= room g gcr (fewest_bad g (n_bad n)).
Proof.
  intros Hf Hfu Hops Hs E Hon. destruct (run_room n fuel gcr junk ops rs s Hf Hfu Hops Hs E Hon) as (_ & Hc & _).
  by rewrite !room_mcap.
Qed.

(** On a chip that never fails, every call succeeds, however many there have been, but
    for a new sector in a map with as many sectors as fit. *)
Theorem C56_always_room n fuel gcr junk ops rs s o r s' :
  fresh g weak n -> quiet n -> enough_fuel g fuel -> Forall (valid_op g) ops -> spare_blocks g weak (n_bad n) ->
  run fuel gcr junk (map HOp ops) (snd (restart gcr junk n)) = (rs, s) ->
  valid_op g o -> exec fuel o s = (r, s') ->
  match r with
  | OK _ => True
  | ER e =>
      match o with
      | OWrite t _ | OCopySector _ t | OCopyPage _ t =>
          e = E_MAP_FULL /\ mapped s t = false /\ room g gcr (most_bad g weak) <= MapModel.map_size s
      | OFind t => e = E_NOT_FOUND /\ mapped s t = false
      | _ => False
      end
  | ST _ => False
  end.
Proof.
  intros Hf Hq Hfu Hops Hs E Ho Eo.
  assert (Hv : Forall (valid_hop g) (map HOp ops)) by (by apply Forall_map).
  destruct (C41_no_io_errors g weak Hsup Hfew n fuel gcr junk _ rs s Hf Hq Hfu Hv E) as [Hl H41].
  assert (Hon : Forall completed rs).
  { apply Forall_lookup. intros i x Hx. pose proof (lookup_lt_Some _ _ _ Hx) as Hlt. rewrite Hl in Hlt.
    destruct (lookup_lt_is_Some_2 _ _ Hlt) as [y Hy]. specialize (H41 _ _ _ Hy Hx). destruct x as [?|?|?]; done. }
  pose proof (run_snoc _ _ _ _ _ _ _ _ _ _ E Hon Eo) as E2.
  destruct (run fuel gcr junk (map HOp (ops ++ [o])) (snd (restart gcr junk n))) as [rs2 s2] eqn:E3. cbn in E2. subst rs2.
  assert (Hv2 : Forall (valid_hop g) (map HOp (ops ++ [o]))).
  { apply Forall_map, Forall_app. split; [done|]. by apply Forall_singleton. }
  destruct (C41_no_io_errors g weak Hsup Hfew n fuel gcr junk _ _ _ Hf Hq Hfu Hv2 E3) as [_ H41'].
  rewrite map_length in Hl.
  specialize (H41' (length ops) (HOp o) r). rewrite <-Hl in H41' at 2. rewrite list_lookup_middle in H41' by done.
  rewrite map_app, lookup_app_r, map_length, Nat.sub_diag in H41' by (rewrite map_length; lia). cbn [map lookup list_lookup] in H41'.
  specialize (H41' eq_refl eq_refl). destruct r as [a|e|x]; [done| |done].
  pose proof (C55_next_call n fuel gcr junk ops rs s o e s' Hf Hfu Hops Hs E Hon Ho Eo) as H55.
  destruct o; destruct e; try done; try tauto; destruct H55 as [?|?]; try done.
Qed.
End room.
