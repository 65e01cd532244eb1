(** The checks the project's own test suite makes on a live journal
    (tests/jtutil.c), as functions, and C45: they never fail.

    [jt_check j] is [true] when no assertion of jt_check fails. *)
From stdpp Require Import gmap.
From Verif Require Import Base Bytes BytesLemmas Nand Journal MapModel Api Geom Tree Inv StepR MapStep Spec SpecF Ppc San History Props HistF Examples.
Local Open Scope Z_scope.

(** check_upage (tests/jtutil.c:24-30); [~p & mask] is computed on 32 bits, the
    upper bits of [~p] do not matter since [mask] is below 2^31. *)
Definition check_upage (g : geo) (j : journal) (p : Z) : bool :=
  let mask := Z.shiftl 1 (j_ppc j) - 1 in
  negb (Z.land (Z.lnot p) mask =? 0) &&
  (p <? w32 (Z.shiftl (g_nblk g) (g_lppb g))).

(** jt_check (tests/jtutil.c:32-64) *)
Definition jt_check (g : geo) (j : journal) : bool :=
  check_upage g j (j_head j) && check_upage g j (j_tail j) && check_upage g j (j_tsync j) &&
  (if Z.shiftr (Z.lxor (j_head j) (j_tsync j)) (g_lppb g) =? 0
   then j_tsync j <=? j_head j else true) &&
  (w32 (j_tail j - j_tsync j) <=? w32 (j_head j - j_tsync j)) &&
  (if negb (j_root j =? PAGE_NONE) then
     let raw_size := w32 (j_head j - j_tail j) in
     let root_offset := w32 (j_root j - j_tail j) in
     check_upage g j (j_root j) && (root_offset <? raw_size)
   else true).

Section check.
Context (g : geo) (c : Z) (Hg : geo_ok g c) (weak : Z -> bool).
Notation "'lem' x" := (x g c Hg) (at level 9, x at level 8, only parsing).
Notation PB := (PB g).
Notation PC := (PC c).
Notation NB := (NB g).
Notation TT := (TT g).
Notation ph := (ph g).
Notation user := (user c).

Lemma check_upage_ph j v : j_ppc j = c -> user v -> check_upage g j (ph v) = true.
Proof.
  intros Ec Hu. unfold check_upage. rewrite Ec. apply andb_true_intro. split.
  - rewrite (lem mask_grp). unfold Z.lnot. pose proof (PC_ge _ _ Hg) as Hp.
    apply negb_true_iff, Z.eqb_neq. intros E.
    apply Hu. rewrite <-(lem ph_slot v).
    pose proof (Z.div_mod (Z.pred (- ph v)) PC ltac:(lia)) as E2. rewrite E in E2.
    rewrite <-(Z.mod_unique_pos (ph v) PC (- (Z.pred (- ph v) / PC) - 1) (PC - 1)); [done|lia|lia].
  - pose proof (lem num_pages_TT) as E. unfold num_pages in E. rewrite E.
    apply Z.ltb_lt. apply (lem ph_range).
Qed.

(** Offsets of positions in a window shorter than the chip keep their order. *)
Lemma off_mono a u v : 0 <= a -> a <= u <= v -> v - a < TT -> w32 (ph u - ph a) <= w32 (ph v - ph a) /\
  (u < v -> w32 (ph u - ph a) < w32 (ph v - ph a)).
Proof.
  intros Ha Hu Hv. pose proof (lem TT_pos) as HT. pose proof (lem TT_le) as HT2. unfold Geom.ph.
  assert (Hoff : forall x, a <= x -> x - a < TT ->
    (x mod TT - a mod TT = x - a) \/ (x mod TT - a mod TT = x - a - TT)).
  { intros x H1 H2. pose proof (Z.div_mod x TT ltac:(lia)). pose proof (Z.div_mod a TT ltac:(lia)).
    pose proof (Z.mod_pos_bound x TT HT). pose proof (Z.mod_pos_bound a TT HT).
    assert (x / TT = a / TT \/ x / TT = a / TT + 1) as [E|E]; [|left|right]; nia. }
  assert (Hlow : forall x, a <= x -> x - a < TT -> x mod TT - a mod TT = x - a -> x - a < TT - a mod TT).
  { intros x H1 H2 H3. pose proof (Z.mod_pos_bound x TT HT). lia. }
  assert (Hhigh : forall x, a <= x -> x - a < TT -> x mod TT - a mod TT = x - a - TT -> TT - a mod TT <= x - a).
  { intros x H1 H2 H3. pose proof (Z.mod_pos_bound x TT HT). lia. }
  pose proof (Z.mod_pos_bound a TT HT).
  assert (W : forall x, a <= x -> x - a < TT -> w32 (x mod TT - a mod TT) =
    if decide (x mod TT - a mod TT = x - a) then x - a else x - a - TT + 4294967296).
  { intros x H1 H2. unfold w32. destruct (decide _) as [E|E].
    - rewrite E. apply Z.mod_small. lia.
    - destruct (Hoff x H1 H2) as [?|E2]; [done|]. rewrite E2.
      replace (x - a - TT) with (x - a - TT + 4294967296 + (-1) * 4294967296) at 1 by lia.
      rewrite Z.mod_add by lia. apply Z.mod_small. lia. }
  rewrite !W by lia.
  destruct (decide _) as [E1|E1], (decide _) as [E2|E2]; try lia.
  exfalso. destruct (Hoff u) as [?|E3]; [lia|lia|done|].
  pose proof (Hlow v ltac:(lia) ltac:(lia) E2). pose proof (Hhigh u ltac:(lia) ltac:(lia) E3). lia.
Qed.

Lemma JInv_check s hv tv sv K : JInv g c s hv tv sv K -> jt_check g (js_j s) = true.
Proof.
  intros Hj. destruct Hj. unfold jt_check. pose proof (lem PB_pos) as HPB. pose proof (lem NB_ge) as HNB.
  assert (Hw : hv - sv < TT).
  { unfold Geom.TT. pose proof (lem v_decomp hv). pose proof (lem v_decomp sv).
    pose proof (lem off_range hv). pose proof (lem off_range sv). nia. }
  rewrite ji_head, ji_tail, ji_tsync, !check_upage_ph by auto. cbn [andb].
  replace (Z.shiftr (Z.lxor (ph hv) (ph sv)) (g_lppb g) =? 0) with (ph hv / PB =? ph sv / PB)
    by (symmetry; apply (lem align_eq_blk)).
  assert (E1 : (if ph hv / PB =? ph sv / PB then ph sv <=? ph hv else true) = true).
  { destruct (Z.eqb_spec (ph hv / PB) (ph sv / PB)) as [E|]; [|done]. apply Z.leb_le.
    pose proof (lem v_decomp (ph hv)) as A. pose proof (lem v_decomp (ph sv)) as B.
    rewrite (lem ph_off) in A, B.
    rewrite !(lem ph_blk) in E.
    assert (Eb : hv / PB = sv / PB).
    { apply (lem win_blk (hv / PB)); [lia| |done]. pose proof (lem blk_le sv hv ltac:(lia)). lia. }
    pose proof (lem v_decomp hv). pose proof (lem v_decomp sv). rewrite !(lem ph_blk) in A, B. rewrite Eb in *. lia. }
  rewrite E1. cbn [andb].
  destruct (off_mono sv tv hv) as [E2 _]; [lia|lia|lia|].
  apply Z.leb_le in E2. rewrite E2. cbn [andb].
  destruct (Z.eqb_spec (j_root (js_j s)) PAGE_NONE) as [|Hr]; cbn [negb]; [done|].
  destruct ji_root as [|[[d m] HK]]; [done|].
  destruct (ji_K _ _ _ HK) as (v & [] & _). rewrite kd_p.
  rewrite check_upage_ph by auto. cbn [andb].
  apply Z.ltb_lt. apply off_mono; lia.
Qed.
End check.

Section claims.
Context (g : geo) (weak : Z -> bool) (Hsup : supported g) (Hfew : few_weak g weak).
Let c := choose_ppc (g_lps g) (g_lppb g).
Let Hg : geo_ok2 g c := supported_geo g Hsup.

(** C45: whatever was called and however often power was lost, the journal's
    pointers pass the checks of tests/jtutil.c. *)
Theorem C45_journal_pointers s : reachable g weak s -> jt_check g (js_j (m_js s)) = true.
Proof.
  intros Hr. destruct (reach_MX g weak Hsup Hfew _ Hr) as (S & Sd & _ & hv & tv & sv & K & D & HI).
  pose proof (mi_j _ _ _ _ _ _ _ _ _ _ _ HI) as [_ Hj _ _]. by eapply (JInv_check g c Hg).
Qed.

(** The same when programs fail in the middle of blocks, for the histories of C20. *)
Theorem C45_journal_pointers_recovery n0 fuel gcr junk h :
  fresh_chip g weak n0 -> enough_fuelF g fuel -> Forall (valid_hop g) h ->
  tame fuel gcr junk false h (snd (restart gcr junk n0)) ->
  jt_check g (js_j (m_js (snd (run fuel gcr junk h (snd (restart gcr junk n0)))))) = true.
Proof.
  intros Hf Hfu Hv HT. destruct (run_mainF g weak Hsup Hfew n0 fuel gcr junk h Hf Hfu Hv HT) as (st & S & Sd & H & _ & HI & _).
  destruct (if_mx _ _ _ _ _ _ _ HI) as (_ & hv & tv & sv & K & D & HM).
  pose proof (mi_j _ _ _ _ _ _ _ _ _ _ _ HM) as [_ Hj _ _]. apply (JInv_check g c Hg) in Hj. exact Hj.
Qed.
End claims.

(** A state the theorem speaks about, whose root is an enqueued page; and two
    journals that differ from it in one field and do not pass. *)
Example ex_C45 : reachable exg ex_weak s4 /\
  negb (j_root (js_j (m_js s4)) =? PAGE_NONE) && jt_check exg (js_j (m_js s4)) = true /\
  jt_check exg (set_root (j_head (js_j (m_js s4))) (js_j (m_js s4))) = false /\
  jt_check exg (set_tail (j_head (js_j (m_js s4)) + 1) (js_j (m_js s4))) = false.
Proof. split; [exact ex_reach4|]. by vm_compute. Qed.
