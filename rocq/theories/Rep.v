(** How a set of kept pages represents a map from sectors to page contents, and
    how the metadata built by map.c changes it. *)
From Verif Require Import Base Bytes BytesLemmas Wp Nand Journal MapModel Tree.
Local Open Scope Z_scope.

(** ** Metadata accessors *)
Lemma shiftl2 l : Z.shiftl l 2 = 4 * l.
Proof. rewrite Z.shiftl_mul_pow2 by lia. lia. Qed.

Lemma get_id_set_id m x : blen m = META_SIZE -> meta_get_id (meta_set_id m x) = w32 x.
Proof. unfold META_SIZE. intros. apply get32_put32; lia. Qed.
Lemma get_id_set_alt m l x : blen m = META_SIZE -> 0 <= l < 32 ->
  meta_get_id (meta_set_alt m l x) = meta_get_id m.
Proof. unfold META_SIZE. intros. unfold meta_get_id, meta_set_alt. rewrite shiftl2.
  apply get32_put32_ne; lia. Qed.
Lemma get_alt_set_id m l x : blen m = META_SIZE -> 0 <= l < 32 ->
  meta_get_alt (meta_set_id m x) l = meta_get_alt m l.
Proof. unfold META_SIZE. intros. unfold meta_get_alt, meta_set_id. rewrite shiftl2.
  apply get32_put32_ne; lia. Qed.
Lemma get_alt_set_alt m l x : blen m = META_SIZE -> 0 <= l < 32 ->
  meta_get_alt (meta_set_alt m l x) l = w32 x.
Proof. unfold META_SIZE. intros. unfold meta_get_alt, meta_set_alt. rewrite shiftl2.
  apply get32_put32; lia. Qed.
Lemma get_alt_set_alt_ne m l l' x : blen m = META_SIZE -> 0 <= l < 32 -> 0 <= l' < 32 -> l <> l' ->
  meta_get_alt (meta_set_alt m l' x) l = meta_get_alt m l.
Proof. unfold META_SIZE. intros. unfold meta_get_alt, meta_set_alt. rewrite !shiftl2.
  apply get32_put32_ne; lia. Qed.
Lemma blen_set_id m x : blen m = META_SIZE -> blen (meta_set_id m x) = META_SIZE.
Proof. unfold META_SIZE. intros H. unfold meta_set_id. by rewrite blen_put32 by lia. Qed.
Lemma blen_set_alt m l x : blen m = META_SIZE -> 0 <= l < 32 -> blen (meta_set_alt m l x) = META_SIZE.
Proof. unfold META_SIZE. intros H Hl. unfold meta_set_alt. rewrite shiftl2. by rewrite blen_put32 by lia. Qed.

Definition malt (m : bytes) (j : nat) : Z := meta_get_alt m (lvl j).

(** [meta_set_alt] at the level of bit [j], seen by bit. *)
Lemma malt_set m j x i : blen m = META_SIZE -> (j < 32)%nat -> (i < 32)%nat ->
  malt (meta_set_alt m (lvl j) x) i = if decide (i = j) then w32 x else malt m i.
Proof.
  intros Hm Hj Hi. unfold malt, lvl. destruct (decide (i = j)) as [->|Hne].
  - apply get_alt_set_alt; [done|lia].
  - apply get_alt_set_alt_ne; auto; lia.
Qed.
Lemma blen_set_lvl m j x : blen m = META_SIZE -> (j < 32)%nat ->
  blen (meta_set_alt m (lvl j) x) = META_SIZE.
Proof. intros. apply blen_set_alt; unfold lvl; [done|lia]. Qed.
Lemma id_set_lvl m j x : blen m = META_SIZE -> (j < 32)%nat ->
  meta_get_id (meta_set_alt m (lvl j) x) = meta_get_id m.
Proof. intros. apply get_id_set_alt; unfold lvl; [done|lia]. Qed.

Lemma lvl_depth k : RADIX_DEPTH - Z.of_nat (S k) = lvl k.
Proof. unfold RADIX_DEPTH, lvl. lia. Qed.

Lemma d_bit_test t id k : (k < 32)%nat ->
  negb (Z.land (Z.lxor t id) (d_bit (lvl k)) =? 0) = negb (Bool.eqb (sbit k t) (sbit k id)).
Proof.
  intros Hk. f_equal.
  assert (E : d_bit (lvl k) = 2 ^ Z.of_nat k).
  { unfold d_bit, RADIX_DEPTH, lvl. rewrite Z.shiftl_1_l. f_equal. lia. }
  rewrite E.
  assert (Hb : Z.testbit (Z.lxor t id) (Z.of_nat k) = xorb (sbit k t) (sbit k id)).
  { by rewrite Z.lxor_spec. }
  destruct (Z.eqb_spec (Z.land (Z.lxor t id) (2 ^ Z.of_nat k)) 0) as [E0|E0].
  - assert (H : Z.testbit (Z.land (Z.lxor t id) (2 ^ Z.of_nat k)) (Z.of_nat k) = false)
      by (rewrite E0; apply Z.bits_0).
    rewrite Z.land_spec, Z.pow2_bits_true, andb_true_r, Hb in H by lia.
    destruct (sbit k t), (sbit k id); done.
  - destruct (Bool.eqb (sbit k t) (sbit k id)) eqn:Eb; [|done].
    apply eqb_prop in Eb. exfalso. apply E0. apply Z.bits_inj'. intros i Hi.
    rewrite Z.land_spec, Z.bits_0. rewrite Z.pow2_bits_eqb by lia.
    destruct (Z.eqb_spec (Z.of_nat k) i) as [<-|]; [|apply andb_false_r].
    by rewrite Hb, Eb, xorb_nilpotent.
Qed.

(** ** fill_none *)
Lemma fill_none_spec k nm : (k <= 32)%nat -> blen nm = META_SIZE ->
  blen (fill_none k nm) = META_SIZE /\
  meta_get_id (fill_none k nm) = meta_get_id nm /\
  forall j, (j < 32)%nat ->
    malt (fill_none k nm) j = if decide (j < k)%nat then PAGE_NONE else malt nm j.
Proof.
  revert nm. induction k as [|k IH]; intros nm Hk Hl.
  { cbn [fill_none]. split; [done|]. split; [done|]. intros j Hj. rewrite decide_False by lia. done. }
  cbn [fill_none]. rewrite lvl_depth.
  destruct (IH (meta_set_alt nm (lvl k) PAGE_NONE)) as (H1 & H2 & H3);
    [lia|by apply blen_set_lvl|].
  split_and!; auto.
  - rewrite H2. by apply id_set_lvl.
  - intros j Hj. rewrite H3 by done. destruct (decide (j < k)%nat).
    + by rewrite decide_True by lia.
    + rewrite malt_set by (auto; lia). destruct (decide (j = k)).
      * rewrite decide_True by lia. done.
      * by rewrite decide_False by lia.
Qed.

(** ** Kept pages *)
Definition kr (K : kmap) : Prop := forall p d m, K !! p = Some (d, m) ->
  0 <= p < PAGE_NONE /\ blen m = META_SIZE.

Lemma kr_none K : kr K -> K !! PAGE_NONE = None.
Proof.
  intros H. destruct (K !! PAGE_NONE) as [[d m]|] eqn:E; [|done].
  apply H in E. unfold PAGE_NONE in *. lia.
Qed.
Lemma kr_range K p : kr K -> is_Some (K !! p) -> 0 <= p < PAGE_NONE.
Proof. intros H [[d m] E]. apply H in E as [? _]. done. Qed.

(** ** trace_path on kept pages *)
Definition reads (K : kmap) (x : js) : Prop :=
  forall p d m, K !! p = Some (d, m) -> read_meta p x = (OK m, x).

Lemma trace_loop_spec K s t k p nm :
  kr K -> reads K (m_js s) -> (k <= 32)%nat -> blen nm = META_SIZE ->
  wf K k p -> is_Some (K !! p) -> id_ok (kid K p) -> same k t (kid K p) ->
  exists nm',
    trace_loop k t p (km K p) nm s = (OK (lk K k p t, nm'), s) /\
    blen nm' = META_SIZE /\ meta_get_id nm' = meta_get_id nm /\
    (forall j, (j < k)%nat -> malt nm' j = pa K k p t j) /\
    (forall j, (k <= j < 32)%nat -> malt nm' j = malt nm j).
Proof.
  intros Hkr Hrd. revert p nm.
  induction k as [|k IH]; intros p nm Hk Hnm Hwf Hp Hid Hs.
  { exists nm. split_and!; auto. lia. }
  cbn [trace_loop lk pa wf] in *. rewrite lvl_depth. fold (kid K p).
  assert (Hne : (kid K p =? SECTOR_NONE) = false).
  { apply Z.eqb_neq. unfold id_ok in Hid. lia. }
  rewrite Hne. rewrite d_bit_test by lia.
  pose proof (kr_range K p Hkr Hp) as Hpr.
  destruct Hwf as [Hw Halt].
  destruct (Bool.eqb (sbit k t) (sbit k (kid K p))) eqn:Eb; cbn [negb].
  - apply eqb_prop in Eb. fold (kalt K p (lvl k)).
    destruct (IH p (meta_set_alt nm (lvl k) (kalt K p (lvl k)))) as (nm' & E & H1 & H2 & H3 & H4);
      auto; try lia; [by apply blen_set_lvl|by apply same_step|].
    exists nm'. split_and!; auto.
    + rewrite H2. by apply id_set_lvl.
    + intros j Hj. destruct (decide (j = k)) as [->|].
      * rewrite H4 by lia. rewrite malt_set, decide_True by (auto; lia).
        apply w32_small. destruct Halt as [->|(Hq & _)]; [unfold PAGE_NONE; lia|].
        pose proof (kr_range K _ Hkr Hq). unfold PAGE_NONE in *. lia.
      * apply H3. lia.
    + intros j Hj. rewrite H4 by lia. by rewrite malt_set, decide_False by (auto; lia).
  - apply eqb_false_iff in Eb. fold (kalt K p (lvl k)).
    assert (Hpw : w32 p = p) by (apply w32_small; unfold PAGE_NONE in *; lia).
    destruct (Z.eqb_spec (kalt K p (lvl k)) PAGE_NONE) as [E2|Hqn].
    + destruct (fill_none_spec k (meta_set_alt nm (lvl k) p)) as (H1 & H2 & H3);
        [lia|by apply blen_set_lvl|].
      eexists. split; [reflexivity|]. split_and!; auto.
      * rewrite H2. by apply id_set_lvl.
      * intros j Hj. rewrite H3 by lia. destruct (decide (j = k)) as [->|].
        -- rewrite decide_False by lia. rewrite malt_set, decide_True by (auto; lia). done.
        -- by rewrite decide_True by lia.
      * intros j Hj. rewrite H3 by lia. rewrite decide_False by lia.
        by rewrite malt_set, decide_False by (auto; lia).
    + destruct Halt as [|(Hq & Hidq & Hsq & Hbq & Hwq)]; [done|].
      pose proof Hq as [[dq mq] Eq].
      assert (Hkm : km K (kalt K p (lvl k)) = mq) by (unfold km; by rewrite Eq).
      destruct (IH (kalt K p (lvl k)) (meta_set_alt nm (lvl k) p)) as (nm' & E & H1 & H2 & H3 & H4);
        auto; try lia; [by apply blen_set_lvl|by eapply other_side|].
      exists nm'. split_and!; auto.
      * unfold bind, jn, zoom. rewrite (Hrd _ _ _ Eq).
        rewrite Hkm in E. destruct s; exact E.
      * rewrite H2. by apply id_set_lvl.
      * intros j Hj. destruct (decide (j = k)) as [->|].
        -- rewrite H4 by lia. by rewrite malt_set, decide_True by (auto; lia).
        -- apply H3. lia.
      * intros j Hj. rewrite H4 by lia. by rewrite malt_set, decide_False by (auto; lia).
Qed.

(** Page currently holding sector [t] in the tree rooted at [root]. *)
Definition findp (K : kmap) (root t : Z) : option Z :=
  if root =? PAGE_NONE then None
  else if kid K root =? SECTOR_NONE then None
  else lk K 32 root t.

(** ** The representation relation *)
Record repr (K : kmap) (root : Z) (S : gmap Z bytes) : Prop := {
  r_kr : kr K;
  r_root : root = PAGE_NONE \/
           (is_Some (K !! root) /\
            (kid K root = SECTOR_NONE \/ (id_ok (kid K root) /\ wf K 32 root)));
  r_spec : forall t, S !! t = if decide (id_ok t) then findp K root t ≫= kdata K else None
}.

#[global] Instance id_ok_dec x : Decision (id_ok x).
Proof. unfold id_ok. apply _. Defined.

Lemma findp_Some K root S t p : repr K root S -> id_ok t -> findp K root t = Some p ->
  kid K p = t /\ is_Some (K !! p) /\ S !! t = kdata K p.
Proof.
  intros [Hkr Hroot Hspec] Ht Hf.
  assert (HS : S !! t = kdata K p) by (rewrite Hspec, decide_True, Hf by done; done).
  unfold findp in Hf. destruct (Z.eqb_spec root PAGE_NONE); [done|].
  destruct (Z.eqb_spec (kid K root) SECTOR_NONE); [done|].
  destruct Hroot as [|[Hr [|[Hid Hwf]]]]; [done|done|].
  destruct (lk_Some K 32 root t p) as (H1 & H2 & _); auto.
  apply same_32; by apply id_ok_32.
Qed.

Lemma findp_None K root S t : repr K root S -> findp K root t = None -> S !! t = None.
Proof. intros [_ _ Hs] Hf. rewrite Hs. destruct (decide (id_ok t)); [|done]. by rewrite Hf. Qed.

Lemma findp_iff K root S t : repr K root S -> id_ok t ->
  is_Some (findp K root t) <-> is_Some (S !! t).
Proof.
  intros H Ht. destruct (findp K root t) as [p|] eqn:E.
  - destruct (findp_Some _ _ _ _ _ H Ht E) as (_ & [[d m] Hp] & ->).
    unfold kdata. rewrite Hp. cbn. split; eauto.
  - pose proof (findp_None _ _ _ _ H E) as HN. rewrite HN. split; by intros [? ?].
Qed.

Lemma findp_spec_id K root S t p : repr K root S -> 0 <= t < 2 ^ 32 -> findp K root t = Some p -> id_ok t.
Proof.
  intros [Hkr Hroot Hspec] Ht Hf.
  unfold findp in Hf. destruct (Z.eqb_spec root PAGE_NONE); [done|].
  destruct (Z.eqb_spec (kid K root) SECTOR_NONE); [done|].
  destruct Hroot as [|[Hr [|[Hid Hwf]]]]; [done|done|].
  destruct (lk_Some K 32 root t p) as (H1 & _ & H2); auto; [|by rewrite H1 in H2].
  apply same_32; [done|]. by apply id_ok_32.
Qed.

(** Metadata that leads to everything in the tree except [t]. *)
Record is_path (K : kmap) (root t : Z) (m : bytes) : Prop := {
  p_len : blen m = META_SIZE;
  p_id : meta_get_id m = t;
  p_wf : wfv K 32 t (malt m);
  p_lk : forall x self, 0 <= x < 2 ^ 32 ->
    lkv K 32 t (malt m) x self = if decide (x = t) then self else findp K root x;
  p_pa : forall j, (j < 32)%nat -> malt m j = PAGE_NONE \/
    (root <> PAGE_NONE /\ kid K root <> SECTOR_NONE /\ malt m j = pa K 32 root t j)
}.

Lemma trace_loop_S k target p meta nm :
  trace_loop (S k) target p meta nm =
    let depth := RADIX_DEPTH - Z.of_nat (S k) in
    let id := meta_get_id meta in
    if id =? SECTOR_NONE then ret (None, fill_none (S k) nm)
    else if negb (Z.land (Z.lxor target id) (d_bit depth) =? 0) then
      let nm := meta_set_alt nm depth p in
      let p' := meta_get_alt meta depth in
      if p' =? PAGE_NONE then ret (None, fill_none k nm)
      else
        let! meta' := jn (read_meta p') in
        trace_loop k target p' meta' nm
    else
      trace_loop k target p meta (meta_set_alt nm depth (meta_get_alt meta depth)).
Proof. reflexivity. Qed.

Lemma trace_path_spec K S s t nm :
  repr K (j_root (js_j (m_js s))) S -> reads K (m_js s) ->
  0 <= t < 2 ^ 32 -> blen nm = META_SIZE ->
  exists nm', trace_path t nm s = (OK (findp K (j_root (js_j (m_js s))) t, nm'), s) /\
    is_path K (j_root (js_j (m_js s))) t nm'.
Proof.
  intros Hrep Hrd Ht Hnm.
  set (root := j_root (js_j (m_js s))).
  unfold trace_path. unfold bind at 1. unfold get_root, jn, zoom, getj, gets.
  fold root. replace (put_js (m_js s) s) with s by by destruct s.
  destruct Hrep as [Hkr Hroot Hspec]. fold root in Hroot, Hspec.
  assert (Hnm' : blen (meta_set_id nm t) = META_SIZE) by by apply blen_set_id.
  assert (Hid' : meta_get_id (meta_set_id nm t) = t).
  { rewrite get_id_set_id by done. apply w32_small. lia. }
  assert (Hempty : forall m, blen m = META_SIZE -> meta_get_id m = t ->
    (forall j, (j < 32)%nat -> malt m j = PAGE_NONE) ->
    (forall x, findp K root x = None) -> is_path K root t m).
  { intros m H1 H2 H3 H4. destruct (lone K 32 t (malt m) H3) as [Hw Hl].
    split; auto. intros x self Hx. rewrite Hl by (by apply same_32). by rewrite H4. }
  unfold findp at 1. fold root.
  destruct (Z.eqb_spec root PAGE_NONE) as [E|Hne].
  { destruct (fill_none_spec 32 (meta_set_id nm t)) as (H1 & H2 & H3); [lia|done|].
    eexists. split; [reflexivity|]. apply Hempty; [done|by rewrite H2| |].
    - intros j Hj. rewrite H3 by done. by rewrite decide_True.
    - intros x. unfold findp. by rewrite E. }
  destruct Hroot as [|[[[d m] Er] Hroot]]; [done|].
  unfold bind. rewrite (Hrd _ _ _ Er). replace (put_js (m_js s) s) with s by by destruct s.
  assert (Hkm : km K root = m) by (unfold km; by rewrite Er).
  destruct (Z.eqb_spec (kid K root) SECTOR_NONE) as [E|Hne2].
  { assert (Em : (meta_get_id m =? SECTOR_NONE) = true).
    { apply Z.eqb_eq. rewrite <-Hkm. exact E. }
    rewrite trace_loop_S. cbv zeta. rewrite Em.
    destruct (fill_none_spec 32 (meta_set_id nm t)) as (H1 & H2 & H3); [lia|done|].
    eexists. split; [reflexivity|]. apply Hempty; [done|by rewrite H2| |].
    - intros j Hj. rewrite H3 by done. by rewrite decide_True.
    - intros x. unfold findp. rewrite E. by destruct (root =? PAGE_NONE). }
  destruct Hroot as [|[Hid Hwf]]; [done|].
  assert (Hs : same 32 t (kid K root)) by (apply same_32; [done|by apply id_ok_32]).
  destruct (trace_loop_spec K s t 32 root (meta_set_id nm t)) as (nm' & E & H1 & H2 & H3 & _); eauto.
  rewrite Hkm in E. exists nm'. split; [exact E|].
  destruct (path_v K 32 root t (malt nm')) as [Hw Hl]; auto.
  all: try (by apply kr_none).
  split; auto; [congruence|].
  intros x self Hx. rewrite Hl by (by apply same_32).
  unfold findp.
  destruct (Z.eqb_spec root PAGE_NONE); [done|].
  by destruct (Z.eqb_spec (kid K root) SECTOR_NONE).
Qed.

(** ** Changes to the represented map *)
Local Opaque lk lkv wf wfv pa meta_get_id meta_get_alt.
Lemma kr_insert K n d m : kr K -> 0 <= n < PAGE_NONE -> blen m = META_SIZE -> kr (<[n:=(d,m)]> K).
Proof.
  intros H Hn Hm p d' m' E. destruct (decide (n = p)) as [<-|Hne].
  - rewrite lookup_insert in E. by inversion E; subst.
  - rewrite lookup_insert_ne in E by done. by apply (H p d').
Qed.

Lemma kdata_insert K n d m : kdata (<[n:=(d,m)]> K) n = Some d.
Proof. unfold kdata. by rewrite lookup_insert. Qed.
Lemma kdata_insert_ne K n v p : n <> p -> kdata (<[n:=v]> K) p = kdata K p.
Proof. intros. unfold kdata. by rewrite lookup_insert_ne. Qed.

(** A fresh root given by a virtual node. *)
Lemma repr_new_root K n d m (S' : gmap Z bytes) f :
  kr K -> (forall x p, 0 <= x < 2 ^ 32 -> f x = Some p -> is_Some (K !! p)) ->
  K !! n = None -> 0 <= n < PAGE_NONE -> blen m = META_SIZE -> id_ok (meta_get_id m) ->
  wfv K 32 (meta_get_id m) (malt m) ->
  (forall x self, 0 <= x < 2 ^ 32 ->
     lkv K 32 (meta_get_id m) (malt m) x self = if decide (x = meta_get_id m) then self else f x) ->
  (forall x, ~ id_ok x -> S' !! x = None) ->
  S' !! (meta_get_id m) = Some d ->
  (forall x, id_ok x -> x <> meta_get_id m -> S' !! x = f x ≫= kdata K) ->
  repr (<[n:=(d,m)]> K) n S'.
Proof.
  intros Hkr HfK Hn Hnr Hm Hid Hwf Hlk H1 H2 H3.
  destruct (store_v K n d m 32 (malt m)) as [Hw Hl]; auto.
  split.
  - by apply kr_insert.
  - right. rewrite lookup_insert, kid_insert. split; [eauto|]. by right.
  - intros t. destruct (decide (id_ok t)) as [Ht|]; [|by apply H1].
    unfold findp. destruct (Z.eqb_spec n PAGE_NONE); [lia|].
    rewrite kid_insert. destruct (Z.eqb_spec (meta_get_id m) SECTOR_NONE); [unfold id_ok in Hid; lia|].
    rewrite Hl by (apply same_32; by apply id_ok_32).
    rewrite Hlk by (by apply id_ok_32).
    destruct (decide (t = meta_get_id m)) as [->|Hne].
    + cbn. by rewrite kdata_insert.
    + rewrite H3 by done. destruct (f t) as [p|] eqn:E; [|done]. cbn.
      rewrite kdata_insert_ne; [done|]. intros ->.
      destruct (HfK t p) as [? HH]; auto; [by apply id_ok_32|]. congruence.
Qed.

Lemma findp_K K root S x p : repr K root S -> 0 <= x < 2 ^ 32 -> findp K root x = Some p -> is_Some (K !! p).
Proof. intros H Hx Hf. eapply findp_Some; eauto. by eapply findp_spec_id. Qed.

Lemma repr_out K root S x : repr K root S -> ~ id_ok x -> S !! x = None.
Proof. intros [_ _ H] Hx. rewrite H. by rewrite decide_False. Qed.

Lemma repr_insert K root S t n d m :
  repr K root S -> is_path K root t m -> id_ok t -> K !! n = None -> 0 <= n < PAGE_NONE ->
  repr (<[n:=(d,m)]> K) n (<[t:=d]> S).
Proof.
  intros Hrep [Hlen Hid Hwf Hlk Hpa] Ht Hn Hnr.
  rewrite <-Hid in *.
  apply (repr_new_root K n d m _ (findp K root)); auto.
  - apply Hrep.
  - intros x p. by eapply findp_K.
  - intros x Hx. rewrite lookup_insert_ne by congruence. by eapply repr_out.
  - apply lookup_insert.
  - intros x Hx Hne. rewrite lookup_insert_ne by congruence.
    destruct Hrep as [_ _ Hs]. rewrite Hs. by rewrite decide_True.
Qed.

Lemma repr_reloc K root S t n d m src :
  repr K root S -> is_path K root t m -> id_ok t -> K !! n = None -> 0 <= n < PAGE_NONE ->
  findp K root t = Some src -> kdata K src = Some d ->
  repr (<[n:=(d,m)]> K) n S.
Proof.
  intros Hrep Hp Ht Hn Hnr Hf Hd.
  rewrite <-(insert_id S t d).
  - by eapply repr_insert.
  - destruct (findp_Some _ _ _ _ _ Hrep Ht Hf) as (_ & _ & ->). done.
Qed.

Lemma repr_copy_root K root S n d m :
  repr K root S -> K !! root = Some (d, m) -> K !! n = None -> 0 <= n < PAGE_NONE ->
  repr (<[n:=(d,m)]> K) n S.
Proof.
  intros Hrep Hr Hn Hnr.
  assert (Hkm : km K root = m) by (unfold km; by rewrite Hr).
  assert (Hkid : kid K root = meta_get_id m) by (unfold kid; by rewrite Hkm).
  assert (Hm : blen m = META_SIZE) by (destruct Hrep as [H _ _]; by destruct (H _ _ _ Hr)).
  assert (Hrn : root <> PAGE_NONE).
  { intros ->. destruct Hrep as [H _ _]. rewrite kr_none in Hr; done. }
  pose proof Hrep as [Hkr Hroot Hspec].
  destruct Hroot as [|[_ [Hf|[Hid Hwf]]]]; [done| |].
  - split; [by apply kr_insert| |].
    + right. rewrite lookup_insert, kid_insert. split; [eauto|]. left. congruence.
    + intros t. rewrite Hspec. unfold findp. rewrite kid_insert, <-Hkid, Hf, Z.eqb_refl.
      by destruct (root =? PAGE_NONE), (n =? PAGE_NONE).
  - destruct (node_v K 32 root Hwf) as [Hv Hl].
    assert (Hext : forall j, (j < 32)%nat -> kalt K root (lvl j) = malt m j).
    { intros. unfold kalt, malt. by rewrite Hkm. }
    assert (Hfp : forall x, findp K root x = lk K 32 root x).
    { intros. unfold findp. destruct (Z.eqb_spec root PAGE_NONE); [done|].
      destruct (Z.eqb_spec (kid K root) SECTOR_NONE); [unfold id_ok in Hid; lia|done]. }
    refine (repr_new_root K n d m S (findp K root) Hkr _ Hn Hnr Hm _ _ _ _ _ _).
    + intros x p. by eapply findp_K.
    + congruence.
    + rewrite <-Hkid. eapply wfv_ext; [|exact Hv]. auto.
    + intros x self Hx. rewrite <-Hkid. rewrite (lkv_ext _ _ _ _ (fun j => kalt K root (lvl j)))
        by (intros; symmetry; auto).
      destruct (decide (x = kid K root)) as [->|Hne]; [by rewrite lkv_self|].
      rewrite (lkv_ne _ _ _ _ _ _ (Some root)); auto.
      * by rewrite Hl, Hfp.
      * apply same_32; [done|by apply id_ok_32].
    + intros x Hx. by eapply repr_out.
    + rewrite Hspec, decide_True by congruence. rewrite Hfp, <-Hkid, lk_self. cbn.
      unfold kdata. by rewrite Hr.
    + intros x Hx Hne. by rewrite Hspec, decide_True.
Qed.

Lemma repr_none_empty K S : repr K PAGE_NONE S -> S = ∅.
Proof.
  intros [_ _ H]. apply map_eq. intros t. rewrite H, lookup_empty. unfold findp.
  rewrite Z.eqb_refl. by destruct (decide _).
Qed.

Lemma get_id_ffs : meta_get_id (ffs META_SIZE) = SECTOR_NONE.
Proof. reflexivity. Qed.

Lemma repr_filler K n d : kr K -> 0 <= n < PAGE_NONE ->
  repr (<[n:=(d, ffs META_SIZE)]> K) n ∅.
Proof.
  intros Hkr Hn. split.
  - by apply kr_insert.
  - right. rewrite lookup_insert, kid_insert. split; [eauto|]. by left.
  - intros t. rewrite lookup_empty. unfold findp. rewrite kid_insert, get_id_ffs, Z.eqb_refl.
    destruct (decide _); [|done]. by destruct (n =? PAGE_NONE).
Qed.

Lemma repr_clear : repr ∅ PAGE_NONE ∅.
Proof.
  split; [done|by left|]. intros t. rewrite lookup_empty. unfold findp.
  rewrite Z.eqb_refl. by destruct (decide _).
Qed.

(** Forgetting a page that is not current for any sector. *)
Lemma repr_delete_page K root S p :
  repr K root S -> (forall t, id_ok t -> findp K root t <> Some p) ->
  repr (delete p K) (if root =? p then PAGE_NONE else root) S.
Proof.
  intros Hrep Hd. pose proof Hrep as [Hkr Hroot Hspec].
  assert (Hkr' : kr (delete p K)).
  { intros p' d m E. apply lookup_delete_Some in E as [_ E]. by apply (Hkr p' d). }
  destruct (Z.eqb_spec root p) as [->|Hne].
  - (* the root itself goes: it can only be a filler *)
    assert (HS : S = ∅).
    { destruct Hroot as [->|[Hr [Hf|[Hid Hwf]]]]; [by eapply repr_none_empty| |].
      - apply map_eq. intros t. rewrite Hspec, lookup_empty. unfold findp.
        rewrite Hf, Z.eqb_refl. destruct (decide _); [|done]. by destruct (p =? PAGE_NONE).
      - exfalso. apply (Hd (kid K p) Hid). unfold findp.
        pose proof (kr_range K p Hkr Hr).
        destruct (Z.eqb_spec p PAGE_NONE); [lia|].
        destruct (Z.eqb_spec (kid K p) SECTOR_NONE); [unfold id_ok in Hid; lia|].
        apply lk_self. }
    subst S. split; [done|by left|]. intros t. rewrite lookup_empty. unfold findp.
    rewrite Z.eqb_refl. by destruct (decide _).
  - assert (Hkid : kid (delete p K) root = kid K root).
    { unfold kid, km. by rewrite lookup_delete_ne. }
    destruct Hroot as [->|[Hr [Hf|[Hid Hwf]]]].
    + rewrite (repr_none_empty _ _ Hrep). split; [done|by left|].
      intros t. rewrite lookup_empty. unfold findp. rewrite Z.eqb_refl. by destruct (decide _).
    + split; [done| |].
      * right. rewrite Hkid, lookup_delete_ne by done. auto.
      * intros t. rewrite Hspec. unfold findp. rewrite Hkid, Hf, Z.eqb_refl.
        by destruct (decide _), (root =? PAGE_NONE).
    + assert (Hrn : root <> PAGE_NONE) by (intros Ex; pose proof (kr_range K _ Hkr Hr); lia).
      assert (Hfp : forall x, findp K root x = lk K 32 root x).
      { intros. unfold findp. destruct (Z.eqb_spec root PAGE_NONE); [done|].
        destruct (Z.eqb_spec (kid K root) SECTOR_NONE); [unfold id_ok in Hid; lia|done]. }
      destruct (frame K (delete p K) 32 root) as (Hw' & Hl' & _); auto.
      { intros t q Hs Hl. destruct (decide (p = q)) as [<-|]; [|by rewrite lookup_delete_ne].
        destruct (lk_Some K 32 root t p) as (H1 & _ & H2); auto.
        exfalso. apply (Hd (kid K p) H2). rewrite Hfp. congruence. }
      split; [done| |].
      * right. rewrite Hkid, lookup_delete_ne by done. auto.
      * intros t. rewrite Hspec. destruct (decide (id_ok t)) as [Ht|]; [|done].
        unfold findp. rewrite Hkid.
        destruct (Z.eqb_spec root PAGE_NONE); [done|].
        destruct (Z.eqb_spec (kid K root) SECTOR_NONE); [done|].
        rewrite Hl' by (apply same_32; by apply id_ok_32).
        destruct (lk K 32 root t) as [q|] eqn:E; [|done]. cbn.
        unfold kdata. rewrite lookup_delete_ne; [done|]. intros <-.
        apply (Hd t Ht). by rewrite Hfp.
Qed.

(** ** Deletion *)
Lemma find_cousin_spec k m : (k <= 32)%nat ->
  match find_cousin k m with
  | None => forall j, (32 - k <= j < 32)%nat -> malt m j = PAGE_NONE
  | Some (level, alt) =>
    exists c, (32 - k <= c < 32)%nat /\ level = lvl c /\ alt = malt m c /\ alt <> PAGE_NONE /\
      forall j, (32 - k <= j < c)%nat -> malt m j = PAGE_NONE
  end.
Proof.
  induction k as [|k IH]; intros Hk; cbn [find_cousin]; [lia|].
  assert (El : Z.of_nat k = lvl (31 - k)) by (unfold lvl; lia).
  rewrite El. change (meta_get_alt m (lvl (31 - k))) with (malt m (31 - k)).
  destruct (Z.eqb_spec (malt m (31 - k)) PAGE_NONE) as [E|Hne]; cbn [negb].
  - specialize (IH ltac:(lia)). destruct (find_cousin k m) as [[l a]|].
    + destruct IH as (c & Hc & -> & -> & Hn & Hlow).
      exists c. split_and!; auto; try lia. intros j Hj.
      destruct (decide (j = 31 - k)%nat) as [->|]; [done|]. apply Hlow. lia.
    + intros j Hj. destruct (decide (j = 31 - k)%nat) as [->|]; [done|]. apply IH. lia.
  - exists (31 - k)%nat. split_and!; auto; try lia.
Qed.

Lemma copy_alts_spec k am m : (k <= 32)%nat -> blen m = META_SIZE ->
  (forall j, (j < k)%nat -> 0 <= malt am j < 2 ^ 32) ->
  blen (copy_alts k am m) = META_SIZE /\
  meta_get_id (copy_alts k am m) = meta_get_id m /\
  forall j, (j < 32)%nat ->
    malt (copy_alts k am m) j = if decide (j < k)%nat then malt am j else malt m j.
Proof.
  revert m. induction k as [|k IH]; intros m Hk Hl Hr.
  { cbn [copy_alts]. split; [done|]. split; [done|]. intros j Hj. rewrite decide_False by lia. done. }
  cbn [copy_alts]. rewrite lvl_depth.
  destruct (IH (meta_set_alt m (lvl k) (meta_get_alt am (lvl k)))) as (H1 & H2 & H3);
    [lia|by apply blen_set_lvl|intros; apply Hr; lia|].
  split_and!; auto.
  - rewrite H2. by apply id_set_lvl.
  - intros j Hj. rewrite H3 by done. destruct (decide (j < k)%nat).
    + by rewrite decide_True by lia.
    + rewrite malt_set by (auto; lia). destruct (decide (j = k)) as [->|].
      * rewrite decide_True by lia. apply w32_small. by apply Hr; lia.
      * by rewrite decide_False by lia.
Qed.

(** The metadata try_delete builds (map.c:445-457). *)
Definition del_meta (m am : bytes) (level : Z) : bytes :=
  let meta := meta_set_id m (meta_get_id am) in
  let meta := meta_set_alt meta level PAGE_NONE in
  let meta := copy_alts (Z.to_nat (RADIX_DEPTH - 1 - level)) am meta in
  meta_set_alt meta level PAGE_NONE.

Lemma wf_alt_range K k p j : kr K -> wf K k p -> (j < k)%nat -> 0 <= kalt K p (lvl j) < 2 ^ 32.
Proof.
  intros Hkr. induction k as [|k IH]; cbn [wf]; intros Hw Hj; [lia|].
  destruct Hw as [Hw Halt]. destruct (decide (j = k)) as [->|]; [|apply IH; auto; lia].
  destruct Halt as [->|(Hq & _)]; [unfold PAGE_NONE; lia|].
  pose proof (kr_range K _ Hkr Hq). unfold PAGE_NONE in *. lia.
Qed.

Lemma wfv_alt K k t a c : wfv K k t a -> (c < k)%nat -> a c <> PAGE_NONE ->
  is_Some (K !! a c) /\ id_ok (kid K (a c)) /\ wf K c (a c).
Proof.
  induction k as [|k IH]; cbn [wfv]; intros Hw Hc Hn; [lia|].
  destruct Hw as [Hw Halt]. destruct (decide (c = k)) as [->|]; [|apply IH; auto; lia].
  destruct Halt as [|(?&?&?&?&?)]; [done|]. auto.
Qed.

Lemma repr_delete_wfv K root S t m level q :
  repr K root S -> is_path K root t m -> id_ok t ->
  find_cousin 32 m = Some (level, q) ->
  forall dq mq, K !! q = Some (dq, mq) ->
  exists c, (c < 32)%nat /\ level = lvl c /\ q = malt m c /\ q <> PAGE_NONE /\
    wfv K 32 (kid K q) (malt (del_meta m mq level)) /\
    forall j, (j < 32)%nat -> malt (del_meta m mq level) j =
      if decide (j = c) then PAGE_NONE else if decide (j < c)%nat then kalt K q (lvl j) else malt m j.
Proof.
  intros Hrep [Hlen Hid Hwf Hlk Hpa] Ht Hfc dq mq Eq.
  pose proof (find_cousin_spec 32 m ltac:(lia)) as Hc. rewrite Hfc in Hc.
  destruct Hc as (c & Hc & -> & Hq & Hqn & Hlow).
  pose proof (r_kr _ _ _ Hrep) as Hkr.
  subst q. set (q := malt m c) in *.
  destruct (wfv_alt K 32 t (malt m) c Hwf ltac:(lia) Hqn) as (Hqs & Hqi & Hqw). fold q in Hqs, Hqi, Hqw.
  assert (Hkm : km K q = mq) by (unfold km; by rewrite Eq).
  assert (Hkid : kid K q = meta_get_id mq) by (unfold kid; by rewrite Hkm).
  assert (Hid1 : blen (meta_set_id m (meta_get_id mq)) = META_SIZE) by by apply blen_set_id.
  set (m1 := meta_set_id m (meta_get_id mq)) in *.
  assert (Hm1 : forall j, (j < 32)%nat -> malt m1 j = malt m j).
  { intros. unfold malt, m1. apply get_alt_set_id; [done|]. unfold lvl. lia. }
  assert (Hm1i : meta_get_id m1 = kid K q).
  { unfold m1. rewrite get_id_set_id by done. rewrite <-Hkid. apply w32_small.
    apply id_ok_32 in Hqi. lia. }
  set (m2 := meta_set_alt m1 (lvl c) PAGE_NONE).
  assert (Hl2 : blen m2 = META_SIZE) by (apply blen_set_lvl; [done|lia]).
  assert (Enat : Z.to_nat (RADIX_DEPTH - 1 - lvl c) = c) by (unfold RADIX_DEPTH, lvl; lia).
  destruct (copy_alts_spec c mq m2) as (H1 & H2 & H3); [lia|done| |].
  { intros j Hj. unfold malt. rewrite <-Hkm. by apply (wf_alt_range K c q j). }
  set (m3 := copy_alts c mq m2) in *.
  assert (Edm : del_meta m mq (lvl c) = meta_set_alt m3 (lvl c) PAGE_NONE).
  { unfold del_meta. rewrite Enat. done. }
  set (m4 := meta_set_alt m3 (lvl c) PAGE_NONE) in *.
  assert (Hl4 : blen m4 = META_SIZE) by (apply blen_set_lvl; [done|lia]).
  assert (Hi4 : meta_get_id m4 = kid K q).
  { unfold m4. rewrite id_set_lvl by (auto; lia). rewrite H2. unfold m2.
    rewrite id_set_lvl by (auto; lia). done. }
  assert (Ha4 : forall j, (j < 32)%nat -> malt m4 j =
    if decide (j = c) then PAGE_NONE else if decide (j < c)%nat then kalt K q (lvl j) else malt m j).
  { intros j Hj. unfold m4. rewrite malt_set by (auto; lia).
    destruct (decide (j = c)) as [|Hne]; [reflexivity|].
    rewrite H3 by done. destruct (decide (j < c)%nat).
    - unfold malt, kalt. by rewrite Hkm.
    - unfold m2. rewrite malt_set by (auto; lia). rewrite decide_False by done. by apply Hm1. }
  destruct (del_v K 32 t (malt m) c (malt m4)) as ((_ & _ & Hsm & Hsb) & Hw4 & Hlk4); auto.
  { lia. } { intros; apply Hlow; lia. }
  { rewrite Ha4 by lia. by rewrite decide_True. }
  { intros j Hj. rewrite Ha4 by lia. rewrite decide_False, decide_True by lia. done. }
  { intros j Hj. rewrite Ha4 by lia. rewrite !decide_False by lia. done. }
  fold q in Hw4. exists c. rewrite Edm. split; [lia|]. split_and!; auto.
Qed.

Lemma repr_delete K root S t m level q :
  repr K root S -> is_path K root t m -> id_ok t ->
  find_cousin 32 m = Some (level, q) ->
  exists dq mq, K !! q = Some (dq, mq) /\ blen (del_meta m mq level) = META_SIZE /\
    forall n, K !! n = None -> 0 <= n < PAGE_NONE ->
      repr (<[n:=(dq, del_meta m mq level)]> K) n (delete t S).
Proof.
  intros Hrep [Hlen Hid Hwf Hlk Hpa] Ht Hfc.
  pose proof (find_cousin_spec 32 m ltac:(lia)) as Hc. rewrite Hfc in Hc.
  destruct Hc as (c & Hc & -> & Hq & Hqn & Hlow).
  pose proof (r_kr _ _ _ Hrep) as Hkr.
  subst q. set (q := malt m c) in *.
  destruct (wfv_alt K 32 t (malt m) c Hwf ltac:(lia) Hqn) as (Hqs & Hqi & Hqw). fold q in Hqs, Hqi, Hqw.
  destruct Hqs as [[dq mq] Eq].
  assert (Hkm : km K q = mq) by (unfold km; by rewrite Eq).
  assert (Hkid : kid K q = meta_get_id mq) by (unfold kid; by rewrite Hkm).
  exists dq, mq. split; [done|].
  assert (Hid1 : blen (meta_set_id m (meta_get_id mq)) = META_SIZE) by by apply blen_set_id.
  set (m1 := meta_set_id m (meta_get_id mq)) in *.
  assert (Hm1 : forall j, (j < 32)%nat -> malt m1 j = malt m j).
  { intros. unfold malt, m1. apply get_alt_set_id; [done|]. unfold lvl. lia. }
  assert (Hm1i : meta_get_id m1 = kid K q).
  { unfold m1. rewrite get_id_set_id by done. rewrite <-Hkid. apply w32_small.
    apply id_ok_32 in Hqi. lia. }
  set (m2 := meta_set_alt m1 (lvl c) PAGE_NONE).
  assert (Hl2 : blen m2 = META_SIZE) by (apply blen_set_lvl; [done|lia]).
  assert (Enat : Z.to_nat (RADIX_DEPTH - 1 - lvl c) = c) by (unfold RADIX_DEPTH, lvl; lia).
  destruct (copy_alts_spec c mq m2) as (H1 & H2 & H3); [lia|done| |].
  { intros j Hj. unfold malt. rewrite <-Hkm. by apply (wf_alt_range K c q j). }
  set (m3 := copy_alts c mq m2) in *.
  assert (Edm : del_meta m mq (lvl c) = meta_set_alt m3 (lvl c) PAGE_NONE).
  { unfold del_meta. rewrite Enat. done. }
  set (m4 := meta_set_alt m3 (lvl c) PAGE_NONE) in *.
  assert (Hl4 : blen m4 = META_SIZE) by (apply blen_set_lvl; [done|lia]).
  assert (Hi4 : meta_get_id m4 = kid K q).
  { unfold m4. rewrite id_set_lvl by (auto; lia). rewrite H2. unfold m2.
    rewrite id_set_lvl by (auto; lia). done. }
  assert (Ha4 : forall j, (j < 32)%nat -> malt m4 j =
    if decide (j = c) then PAGE_NONE else if decide (j < c)%nat then kalt K q (lvl j) else malt m j).
  { intros j Hj. unfold m4. rewrite malt_set by (auto; lia).
    destruct (decide (j = c)) as [|Hne]; [reflexivity|].
    rewrite H3 by done. destruct (decide (j < c)%nat).
    - unfold malt, kalt. by rewrite Hkm.
    - unfold m2. rewrite malt_set by (auto; lia). rewrite decide_False by done. by apply Hm1. }
  rewrite Edm. split; [done|]. intros n Hn Hnr.
  destruct (del_v K 32 t (malt m) c (malt m4)) as ((_ & _ & Hsm & Hsb) & Hw4 & Hlk4); auto.
  { lia. } { intros; apply Hlow; lia. }
  { rewrite Ha4 by lia. by rewrite decide_True. }
  { intros j Hj. rewrite Ha4 by lia. rewrite decide_False, decide_True by lia. done. }
  { intros j Hj. rewrite Ha4 by lia. rewrite !decide_False by lia. done. }
  fold q in Hw4, Hlk4, Hsm, Hsb.
  assert (Hqt : kid K q <> t) by congruence.
  assert (Hfpq : findp K root (kid K q) = Some q).
  { rewrite <-Hi4. pose proof (Hlk (kid K q) None) as E. rewrite decide_False in E by done.
    rewrite Hi4, <-E by (by apply id_ok_32).
    (* along the virtual node, the id of q leads to q *)
    clear -Hwf Hc Hqn Hsm Hsb q. revert Hwf. assert (Hck : (c < 32)%nat) by lia. clear Hc.
    generalize 32%nat Hck. intros k. induction k as [|k IH]; intros Hck' Hwf; [lia|].
    cbn [wfv lkv] in *. destruct Hwf as [Hw Halt].
    destruct (decide (k = c)) as [->|Hkc].
    - assert (Eb : Bool.eqb (sbit c (kid K q)) (sbit c t) = false) by (apply eqb_false_iff; done).
      rewrite Eb. fold q. destruct (Z.eqb_spec q PAGE_NONE); [done|]. apply lk_self.
    - assert (Eb : sbit k (kid K q) = sbit k t) by (apply Hsm; lia).
      rewrite Eb, Bool.eqb_reflx. apply IH; [lia|done]. }
  pose proof Hrep as [_ _ Hspec].
  refine (repr_new_root K n dq m4 _ (fun x => if decide (x = t) then None else findp K root x) Hkr _ Hn Hnr Hl4 _ _ _ _ _ _).
  - intros x p Hx. destruct (decide (x = t)); [done|]. by eapply findp_K.
  - congruence.
  - congruence.
  - intros x self Hx. rewrite Hi4. rewrite Hlk4 by (apply same_32; [done|by apply id_ok_32]).
    destruct (decide (x = kid K q)); [done|]. destruct (decide (x = t)); [done|].
    rewrite Hlk by done. by rewrite decide_False.
  - intros x Hx. destruct (decide (x = t)) as [->|]; [done|].
    rewrite lookup_delete_ne by done. by eapply repr_out.
  - rewrite Hi4. rewrite lookup_delete_ne by done. rewrite Hspec, decide_True by done.
    rewrite Hfpq. cbn. unfold kdata. by rewrite Eq.
  - intros x Hx Hne. destruct (decide (x = t)) as [->|].
    + by rewrite lookup_delete.
    + rewrite lookup_delete_ne by done. by rewrite Hspec, decide_True.
Qed.

(** When the path has no cousin, [t] is the only sector. *)
Lemma repr_delete_last K root S t m :
  repr K root S -> is_path K root t m -> id_ok t ->
  find_cousin 32 m = None -> delete t S = ∅.
Proof.
  intros Hrep [Hlen Hid Hwf Hlk Hpa] Ht Hfc.
  pose proof (find_cousin_spec 32 m ltac:(lia)) as Hc. rewrite Hfc in Hc.
  destruct (lone K 32 t (malt m)) as [_ Hl]; [intros; apply Hc; lia|].
  apply map_eq. intros x. rewrite lookup_empty.
  destruct (decide (x = t)) as [->|Hne]; [by rewrite lookup_delete|].
  rewrite lookup_delete_ne by done.
  destruct (decide (id_ok x)) as [Hx|]; [|by eapply repr_out].
  eapply findp_None; eauto.
  pose proof (Hlk x None ltac:(by apply id_ok_32)) as E. rewrite decide_False in E by done.
  rewrite <-E. rewrite Hl by (apply same_32; by apply id_ok_32). by rewrite decide_False.
Qed.

(** ** Size *)
Lemma repr_size K root S : repr K root S -> Z.of_nat (size S) < 2 ^ 32.
Proof.
  intros Hrep.
  assert (Hsub : dom S ⊆ (list_to_set (seqZ 0 SECTOR_NONE) : gset Z)).
  { intros x Hx. apply elem_of_list_to_set, elem_of_seqZ.
    apply elem_of_dom in Hx. destruct (decide (id_ok x)) as [H|H]; [unfold id_ok in H; lia|].
    rewrite (repr_out _ _ _ _ Hrep H) in Hx. by destruct Hx. }
  apply subseteq_size in Hsub. rewrite size_dom in Hsub.
  rewrite size_list_to_set in Hsub by apply NoDup_seqZ.
  rewrite seqZ_length in Hsub. unfold SECTOR_NONE in Hsub. lia.
Qed.
