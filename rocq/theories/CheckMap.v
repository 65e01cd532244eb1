(** The check the project's test suite makes on a live map (tests/map.c), as a
    function, and C46: it never fails, except that a map that was emptied and
    synced holds a filler page mt_check counts. *)
From stdpp Require Import gmap fin_maps.
From Verif Require Import Base Bytes BytesLemmas Nand Journal MapModel Api Geom Tree Rep Age Inv StepR MapStep Spec SpecF Ppc San History Props HistF Check Examples.
Local Open Scope Z_scope.

(** assert(): a failed assertion stops the run. *)
Definition assertm (b : bool) : MM unit := if b then ret tt else halt UB.

(** check_recurse (tests/map.c:47-93) from its first statement to the loop,
    which is [alts]; counts ([int]) are far below 2^31. *)
Definition check_page (alts : Z -> Z -> bytes -> Z -> MM Z) (depth parent page id_expect : Z) : MM Z :=
  let! j := jn (getj (fun j => j)) in
  let h_offset := w32 (j_head j - j_tail j) in
  let p_offset := w32 (parent - j_tail j) in
  let offset := w32 (page - j_tail j) in
  if page =? PAGE_NONE then ret 0 else
  assertm (offset <? p_offset);;;
  assertm (offset <? h_offset);;;
  assertm (negb (Z.land (Z.lnot page) (Z.shiftl 1 (j_ppc j) - 1) =? 0));;;
  let! r := attempt (jn (read_meta page)) in
  match r with
  | inl _ => halt UB (* dabort *)
  | inr meta =>
    let id := get32 0 meta in
    (if depth =? 0 then ret tt
     else assertm (Z.shiftr (Z.lxor id id_expect) (32 - depth) =? 0));;;
    alts page id meta 1
  end.
(** The loop of check_recurse (tests/map.c:84-90): [k] levels remain, so [i] is
    [32 - k]; the recursive call is made at depth [i + 1]. *)
Fixpoint check_alts (k : nat) (page id : Z) (meta : bytes) (count : Z) : MM Z :=
  match k with
  | O => ret count
  | S k' =>
    let i := 31 - Z.of_nat k' in
    let child := get32 (Z.shiftl i 2 + 4) meta in
    let! n := check_page (check_alts k') (i + 1) page child (Z.lxor id (Z.shiftl 1 (31 - i))) in
    check_alts k' page id meta (count + n)
  end.
(** mt_check (tests/map.c:95-106); sim_freeze/sim_thaw only suspend the
    simulator's statistics. *)
Definition mt_count : MM Z :=
  let! j := jn (getj (fun j => j)) in
  check_page (check_alts 32) 0 (j_head j) (j_root j) 0.
Definition mt_check : MM unit :=
  let! count := mt_count in
  let! c := gets m_count in
  assertm (c =? count).

(** ** Sectors of a subtree *)
Fixpoint ids (K : kmap) (k : nat) (p : Z) : list Z :=
  match k with
  | O => [kid K p]
  | S k => ids K k p ++ (if kalt K p (lvl k) =? PAGE_NONE then [] else ids K k (kalt K p (lvl k)))
  end.

Lemma ids_spec K k p : wf K k p -> is_Some (K !! p) -> id_ok (kid K p) ->
  NoDup (ids K k p) /\ (forall t, t ∈ ids K k p <-> same k t (kid K p) /\ is_Some (lk K k p t)).
Proof.
  revert p. induction k as [|k IH]; intros p Hw Hp Hid; cbn [ids wf lk] in *.
  { split; [apply NoDup_singleton|]. intros t. rewrite elem_of_list_singleton. split.
    - intros ->. split; [done|by eexists].
    - intros [H _]. by apply same_0. }
  destruct Hw as [Hw Ha]. destruct (IH p Hw Hp Hid) as [N1 M1].
  destruct (Z.eqb_spec (kalt K p (lvl k)) PAGE_NONE) as [E|Hne].
  { rewrite app_nil_r. split; [done|]. intros t. rewrite M1.
    destruct (Bool.eqb (sbit k t) (sbit k (kid K p))) eqn:Eb.
    - apply eqb_prop in Eb. split; intros [H1 H2]; (split; [|done]); [by apply same_S|by apply same_step].
    - apply eqb_false_iff in Eb. split; [|by intros [_ [? ?]]]. intros [H1 _]. by apply same_bit in H1. }
  destruct Ha as [|(Hq & Hidq & Hsq & Hbq & Hwq)]; [done|].
  set (q := kalt K p (lvl k)) in *. destruct (IH q Hwq Hq Hidq) as [N2 M2].
  split.
  - apply NoDup_app. split; [done|]. split; [|done]. intros t H1 H2.
    apply M1 in H1 as [H1 _]. apply M2 in H2 as [H2 _]. apply same_bit in H1, H2. congruence.
  - intros t. rewrite elem_of_app, M1, M2.
    destruct (Bool.eqb (sbit k t) (sbit k (kid K p))) eqn:Eb.
    + apply eqb_prop in Eb. split.
      * intros [[H1 H2]|[H1 _]]; [split; [by apply same_S|done]|]. apply same_bit in H1. congruence.
      * intros [H1 H2]. left. split; [by apply same_step|done].
    + apply eqb_false_iff in Eb. split.
      * intros [[H1 _]|[H1 H2]]; [by apply same_bit in H1|]. split; [|done].
        eapply same_trans; [by apply same_S|done].
      * intros [H1 H2]. right. split; [|done]. apply same_step.
        -- eapply same_trans; [exact H1|by apply same_sym].
        -- destruct (sbit k t), (sbit k (kid K p)), (sbit k (kid K q)); congruence.
Qed.

Lemma ids_size K root S : repr K root S -> root <> PAGE_NONE -> id_ok (kid K root) ->
  length (ids K 32 root) = size S.
Proof.
  intros Hr Hn Hid. destruct (r_root _ _ _ Hr) as [?|[Hp [E|[_ Hw]]]]; [done| |].
  { rewrite E in Hid. unfold id_ok, SECTOR_NONE in Hid. lia. }
  destruct (ids_spec K 32 root Hw Hp Hid) as [N Hin].
  rewrite <-size_dom. erewrite <-(size_list_to_set (C := gset Z)) by exact N.
  f_equal. apply set_eq. intros t. rewrite elem_of_list_to_set, elem_of_dom, Hin.
  assert (Ef : forall t, findp K root t = lk K 32 root t).
  { intros u. unfold findp. destruct (Z.eqb_spec root PAGE_NONE); [done|].
    destruct (Z.eqb_spec (kid K root) SECTOR_NONE); [unfold id_ok in Hid; lia|done]. }
  split.
  - intros [H1 [q H2]].
    destruct (lk_Some K 32 root t q) as (H3 & _ & H4); auto. rewrite H3 in H4.
    apply (findp_iff _ _ _ _ Hr H4). rewrite Ef. by eexists.
  - intros Hs. destruct (decide (id_ok t)) as [Ht|Ht].
    + apply (findp_iff _ _ _ _ Hr Ht) in Hs. rewrite Ef in Hs. split; [|done].
      apply same_32; by apply id_ok_32.
    + rewrite (repr_out _ _ _ _ Hr Ht) in Hs. by destruct Hs.
Qed.

Lemma flip_same k a b : same (S k) a b -> sbit k a <> sbit k b ->
  Z.shiftr (Z.lxor a (Z.lxor b (Z.shiftl 1 (Z.of_nat k)))) (Z.of_nat k) = 0.
Proof.
  intros Hs Hb. apply Z.bits_inj'. intros i Hi. rewrite Z.bits_0, Z.shiftr_spec, !Z.lxor_spec by lia.
  rewrite Z.shiftl_spec by lia. replace (i + Z.of_nat k - Z.of_nat k) with i by lia.
  destruct (Z.eq_dec i 0) as [->|].
  - cbn [Z.add]. unfold sbit in Hb. change (Z.testbit 1 0) with true.
    destruct (Z.testbit a _), (Z.testbit b _); done.
  - rewrite (Hs (i + Z.of_nat k)) by lia.
    replace (Z.testbit 1 i) with false.
    + rewrite xorb_false_r. apply xorb_nilpotent.
    + symmetry. apply (Z.bits_above_log2 1); [lia|]. change (Z.log2 1) with 0. lia.
Qed.

Section check.
Context (g : geo) (c : Z) (Hg : geo_ok g c) (weak : Z -> bool).
Notation "'lem' x" := (x g c Hg) (at level 9, x at level 8, only parsing).
Notation PB := (PB g).
Notation TT := (TT g).
Notation ph := (ph g).
Notation MI := (MapStep.MI g c weak).

Lemma MI_win s S Sd hv tv sv K D : MI s S Sd hv tv sv K D -> 0 <= tv /\ hv - tv < TT.
Proof.
  intros HM. pose proof (mi_j _ _ _ _ _ _ _ _ _ _ _ HM) as [_ [] _ _].
  pose proof (lem PB_pos) as HPB. pose proof (lem NB_ge) as HNB. unfold Geom.TT.
  pose proof (lem v_decomp hv). pose proof (lem v_decomp sv).
  pose proof (lem off_range hv). pose proof (lem off_range sv). split; [lia|]. nia.
Qed.

(** A page of the tree, the position [w] of its parent being known. *)
Lemma check_page_run s S Sd hv tv sv K D alts depth v w p ide d m : MI s S Sd hv tv sv K D ->
  K !! p = Some (d, m) -> p = ph v -> tv <= v -> v < w -> v < hv -> w <= hv ->
  (depth = 0 \/ Z.shiftr (Z.lxor (meta_get_id m) ide) (32 - depth) = 0) ->
  check_page alts depth (ph w) p ide s = alts p (meta_get_id m) m 1 s.
Proof.
  intros HM HK Ep Hv Hvw Hvh Hwh Hid.
  destruct (MI_win _ _ _ _ _ _ _ _ HM) as [Ht Hw].
  pose proof (mi_j _ _ _ _ _ _ _ _ _ _ _ HM) as [_ Hj _ _].
  pose proof (MI_reads g c Hg weak _ _ _ _ _ _ _ _ HM _ _ _ HK) as Erd.
  destruct (ji_K _ _ _ _ _ _ _ Hj _ _ _ HK) as (v' & [] & _).
  pose proof (check_upage_ph g c Hg (js_j (m_js s)) v' (ji_ppc _ _ _ _ _ _ _ Hj) kd_u) as Hu.
  unfold check_upage in Hu. apply andb_true_iff in Hu as [Hu _]. rewrite <-kd_p in Hu.
  assert (Hne : p <> PAGE_NONE).
  { rewrite Ep. pose proof (ph_pn g c Hg v). unfold PAGE_NONE in *. lia. }
  unfold check_page. unfold bind at 1. unfold jn at 1, zoom, getj, gets. rewrite put_js_id.
  rewrite (proj2 (Z.eqb_neq _ _) Hne).
  assert (E1 : (w32 (p - ph tv) <? w32 (ph w - ph tv)) = true).
  { rewrite Ep. apply Z.ltb_lt. apply (off_mono g c Hg tv v w); lia. }
  assert (E2 : (w32 (p - ph tv) <? w32 (ph hv - ph tv)) = true).
  { rewrite Ep. apply Z.ltb_lt. apply (off_mono g c Hg tv v hv); lia. }
  rewrite (ji_head _ _ _ _ _ _ _ Hj), (ji_tail _ _ _ _ _ _ _ Hj), E1, E2.
  rewrite Hu. unfold assertm at 1 2 3. unfold bind, ret, attempt, jn, zoom.
  rewrite Erd, put_js_id. unfold meta_get_id in *.
  destruct Hid as [-> |Hid]; [done|]. rewrite Hid. cbn [Z.eqb assertm]. by destruct (depth =? 0).
Qed.

Lemma check_alts_run s S Sd hv tv sv K D : MI s S Sd hv tv sv K D -> forall k p v d m count,
  (k <= 32)%nat -> wf K k p -> old ph tv K k p v -> K !! p = Some (d, m) -> p = ph v -> tv <= v < hv ->
  check_alts k p (meta_get_id m) m count s =
    (OK (count + Z.of_nat (length (ids K k p)) - 1), s).
Proof.
  intros HM. induction k as [|k IH]; intros p v d m count Hk Hw Ho HK Ep Hv.
  { cbn. unfold ret. do 2 f_equal. lia. }
  cbn [check_alts ids wf old] in *. destruct Hw as [Hw Ha]. destruct Ho as [Ho Hq].
  assert (Ekm : km K p = m) by (unfold km; by rewrite HK).
  assert (Echild : get32 (Z.shiftl (31 - Z.of_nat k) 2 + 4) m = kalt K p (lvl k)).
  { unfold kalt, meta_get_alt, lvl. rewrite Ekm. f_equal. lia. }
  rewrite Echild.
  destruct (Z.eqb_spec (kalt K p (lvl k)) PAGE_NONE) as [E|Hne].
  { rewrite E. unfold bind at 1. unfold check_page, bind at 1, jn, zoom, getj, gets. rewrite put_js_id. cbn [Z.eqb].
    replace (PAGE_NONE =? PAGE_NONE) with true by (symmetry; apply Z.eqb_refl).
    unfold ret. rewrite (IH p v d m) by (auto; lia). rewrite app_nil_r. do 2 f_equal. lia. }
  destruct Ha as [|([[dq mq] HKq] & Hidq & Hsq & Hbq & Hwq)]; [done|].
  destruct Hq as [|(u & Hu & Eu & Hou)]; [done|].
  set (q := kalt K p (lvl k)) in *.
  assert (Ekq : kid K q = meta_get_id mq) by (unfold kid, km; by rewrite HKq).
  assert (Ekp : kid K p = meta_get_id m) by (unfold kid; by rewrite Ekm).
  unfold bind at 1. rewrite Ep at 1.
  rewrite (check_page_run _ _ _ _ _ _ _ _ _ _ u v q _ dq mq HM); auto; try lia.
  2:{ right. replace (32 - (31 - Z.of_nat k + 1)) with (Z.of_nat k) by lia.
      replace (31 - (31 - Z.of_nat k)) with (Z.of_nat k) by lia. rewrite <-Ekq, <-Ekp. by apply flip_same. }
  rewrite (IH q u dq mq) by (auto; lia). rewrite (IH p v d m) by (auto; lia).
  rewrite app_length. do 2 f_equal. lia.
Qed.

Lemma MX_check s S Sd : MX g c weak s S Sd -> m_count s <> 0 \/ j_root (js_j (m_js s)) = PAGE_NONE ->
  mt_count s = (OK (m_count s), s).
Proof.
  intros [Hc (hv & tv & sv & K & D & HM)] Hor. unfold mt_count.
  unfold bind, jn, zoom, getj, gets. rewrite put_js_id.
  pose proof (mi_rep _ _ _ _ _ _ _ _ _ _ _ HM) as Hr.
  destruct (Z.eq_dec (j_root (js_j (m_js s))) PAGE_NONE) as [E|Hne].
  { unfold check_page, bind, jn, zoom, getj, gets. rewrite put_js_id, E.
    replace (PAGE_NONE =? PAGE_NONE) with true by (symmetry; apply Z.eqb_refl).
    rewrite E in Hr. apply repr_none_empty in Hr as ->. rewrite Hc, map_size_empty. done. }
  destruct Hor as [H0|?]; [|done].
  destruct (r_root _ _ _ Hr) as [?|[[[d m] HK] [E|[Hid Hw]]]]; [done| |].
  { exfalso. apply H0. rewrite Hc. replace S with (∅ : gmap Z bytes); [by rewrite map_size_empty|].
    symmetry. apply map_empty. intros t. rewrite (r_spec _ _ _ Hr). destruct (decide (id_ok t)); [|done].
    unfold findp. destruct (_ =? _); [done|]. rewrite E. done. }
  destruct (mi_age _ _ _ _ _ _ _ _ _ _ _ HM I) as [?|(v & Hv & Ev & Ha)]; [done|].
  assert (Ho : old ph tv K 32 (j_root (js_j (m_js s))) v).
  { destruct Ha as [E|?]; [|done]. rewrite E in Hid. unfold id_ok, SECTOR_NONE in Hid. lia. }
  pose proof (mi_j _ _ _ _ _ _ _ _ _ _ _ HM) as [_ Hj _ _].
  rewrite (ji_head _ _ _ _ _ _ _ Hj).
  rewrite (check_page_run _ _ _ _ _ _ _ _ _ _ v hv _ _ d m HM); auto; try lia.
  rewrite (check_alts_run _ _ _ _ _ _ _ _ HM 32 _ v d m) by (auto; lia).
  rewrite (ids_size _ _ _ Hr Hne Hid). rewrite Hc. do 2 f_equal. lia.
Qed.
End check.

(** The check only reads: it does not depend on what fails. *)
Lemma ag_page alts depth parent page ide s : (forall a b d e s, ag sanm (alts a b d e) s) ->
  ag sanm (check_page alts depth parent page ide) s.
Proof.
  intros Ha. unfold check_page. apply ag_bind; [done|]. intros j s' _. cbv zeta.
  destruct (page =? PAGE_NONE); [apply ag_ret|].
  assert (Has : forall b s, ag sanm (assertm b) s) by (intros [] ?; done).
  do 3 (apply ag_bind; [apply Has|]; intros _ ? _).
  apply ag_bind.
  - apply ag_attempt. unfold jn. apply (ag_zoom sanm sanj); [done|done|].
    destruct (San.k_read_meta (fun _ _ => False) (fun _ _ _ _ H => H) (fun _ _ _ H _ => H) page (m_js s'2)) as [_ [H|[]]]. exact H.
  - intros [e|m] s4 _; [apply ag_halt|]. apply ag_bind; [|intros _ ? _; apply Ha].
    destruct (depth =? 0); [apply ag_ret|apply Has].
Qed.
Lemma ag_alts k : forall page id m n s, ag sanm (check_alts k page id m n) s.
Proof.
  induction k as [|k IH]; intros; cbn [check_alts]; [apply ag_ret|].
  apply ag_bind; [by apply ag_page|]. intros. apply IH.
Qed.
Lemma ag_check s : ag sanm mt_check s.
Proof.
  unfold mt_check, mt_count. apply ag_bind.
  - apply ag_bind; [done|]. intros. apply ag_page. apply ag_alts.
  - intros. apply ag_bind; [by apply ag_gets|]. intros. unfold assertm. destruct (_ =? _); [apply ag_ret|apply ag_halt].
Qed.

Section claims.
Context (g : geo) (weak : Z -> bool) (Hsup : supported g) (Hfew : few_weak g weak).
Let c := choose_ppc (g_lps g) (g_lppb g).
Let Hg : geo_ok2 g c := supported_geo g Hsup.

(** C46: whatever was called and however often power was lost, the index tree
    passes mt_check, when the map is not empty or has no root page. *)
Theorem C46_index_tree s : reachable g weak s ->
  MapModel.map_size s <> 0 \/ j_root (js_j (m_js s)) = PAGE_NONE ->
  mt_check s = (OK tt, s).
Proof.
  intros Hr Hor. destruct (reach_MX g weak Hsup Hfew _ Hr) as (S & Sd & HX).
  unfold mt_check, bind. rewrite (MX_check g c Hg weak _ _ _ HX) by exact Hor.
  unfold gets, assertm. by rewrite Z.eqb_refl.
Qed.

(** The same when programs fail in the middle of blocks, for the histories of C20. *)
Theorem C46_index_tree_recovery n0 fuel gcr junk h s :
  fresh_chip g weak n0 -> enough_fuelF g fuel -> Forall (valid_hop g) h ->
  tame fuel gcr junk false h (snd (restart gcr junk n0)) ->
  s = snd (run fuel gcr junk h (snd (restart gcr junk n0))) ->
  MapModel.map_size s <> 0 \/ j_root (js_j (m_js s)) = PAGE_NONE ->
  fst (mt_check s) = OK tt.
Proof.
  intros Hf Hfu Hv HT Es Hor. destruct (run_mainF g weak Hsup Hfew n0 fuel gcr junk h Hf Hfu Hv HT) as (st & S & Sd & H & _ & HI & _).
  rewrite <-Es in HI. pose proof (if_mx _ _ _ _ _ _ _ HI) as HX.
  pose proof (MX_check g c Hg weak _ _ _ HX Hor) as E.
  assert (E2 : fst (mt_check (sanm s)) = OK tt).
  { unfold mt_check, bind. rewrite E. unfold gets, assertm. by rewrite Z.eqb_refl. }
  rewrite (ag_check s) in E2. exact E2.
Qed.
End claims.

(** A map of ten sectors that passes; the check fails when the count or one
    pointer of the journal is off by one. *)
Definition mt_code (s : ms) : Z := code (fst (mt_check s)).
Example ex_C46 : reachable exg ex_weak s2 /\ MapModel.map_size s2 = 10 /\ mt_code s2 = 0 /\
  mt_code (set_count 9 s2) = 11 /\
  mt_code (put_js (Js (js_n (m_js s2)) (set_root (j_root (js_j (m_js s2)) - 1) (js_j (m_js s2)))) s2) = 11 /\
  mt_code (put_js (Js (js_n (m_js s2)) (set_tail (j_root (js_j (m_js s2))) (js_j (m_js s2)))) s2) = 11.
Proof. split; [exact ex_reach2|]. by vm_compute. Qed.

(** The condition of C46 is needed: a sector is written, trimmed, and the map
    synced; the map is empty and its journal holds filler pages only, and
    mt_check counts one page. *)
Definition ops46 : list op := [OWrite 3 (ex_data 1); OTrim 3; OSync].
Definition s46 : ms := snd (run ex_fuel 4 99 (map HOp ops46) (snd (restart 4 99 ex_chip))).
Example ex_C46_filler : reachable exg ex_weak s46 /\ MapModel.map_size s46 = 0 /\
  fst (mt_count s46) = OK 1 /\ mt_code s46 = 11.
Proof.
  split; [|by vm_compute].
  exists ex_chip, ex_fuel, 4, 99, (map HOp ops46). split_and!; auto using ex_fresh, ex_enough.
  repeat constructor; cbn; unfold wsector, sector; lia.
Qed.
