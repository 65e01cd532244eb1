(** Space: garbage collection keeps up with the writes, so the journal never fills up.
    Nothing here models code; the model is Journal.v and MapModel.v. *)
From stdpp Require Import gmap fin_maps.
From Verif Require Import Pres Base Bytes BytesLemmas Wp Nand Journal MapModel Api Geom Tree Rep Age Inv Hdr StepDI StepNand StepJ StepA StepR StepS StepG Resume MapStep MapOps Spec Ppc History Props Misc JSpec JChain JProps JThms JFull Cnt Bb Ckpt Loc Nojunk.
Local Open Scope Z_scope.

Section space.
Context (g : geo) (c : Z) (Hg : geo_ok g c) (weak : Z -> bool) (Hdense : dense g weak) {Ag : Aging}.
(** [Q]: what holds of the chip whenever nothing is waiting for a checkpoint; [nj]: whether
    unreadable pages are known to lie in bad blocks only. *)
Context (fb : Z -> bool) (e0 E1 r Mx X : Z) (Q : nand -> Prop) (nj : Prop).
Notation PB := (PB g).
Notation PC := (PC c).
Notation NB := (NB g).
Notation TT := (TT g).
Notation GP := (GP g c).
Notation ph := (ph g).
Notation user := (user c).
Notation nextv := (nextv c).
Notation badv := (badv g).
Notation nok := (nok g weak).
Notation JInv := (JInv g c).
Notation JI := (JI g c weak).
Notation DI := (DI g c).
Notation dskrep := (dskrep g).
Notation MI := (MI g c weak).
Notation app_post := (app_post2 g c weak).
Notation contents := (gmap Z bytes).
Notation rootof s := (j_root (js_j (m_js s))).
Notation dirtyof s := (j_dirty (js_j (m_js s))).
Notation BBI := (BBI g c weak fb e0 E1).
Notation J2 := (J2 g).
Notation upb := (upbk g c).
Notation mcap := (mcap g c r).
Local Opaque lk lkv wf wfv pa meta_get_id meta_get_alt.
Ltac pose_geo :=
  pose proof (PC_ge _ _ Hg) as HPC4; pose proof (PC_le _ _ Hg) as HPC256;
  pose proof (PB_pos _ _ Hg) as HPB4; pose proof (PB_ge _ _ Hg) as HPBC;
  pose proof (NB_ge _ _ Hg) as HNB8; pose proof (TT_le _ _ Hg) as HTT31;
  pose proof (TT_pos _ _ Hg) as HTTpos; pose proof (GP_ge _ _ Hg) as HGP1;
  pose proof (PB_def _ _ Hg) as HPBdef.
Notation "'lem' x" := (x g c Hg) (at level 9, x at level 8, only parsing).

Let R := r + 1.
Let W := cnt weak 0 NB.
Context (He0 : e0 <= cnt fb 0 NB) (HE1 : W <= E1) (He0p : 0 <= e0) (HE1N : E1 < NB) (Hr : 1 <= r <= 255).
Context (HMx : mcap e0 <= Mx).
Context (H1 : R * (Mx + 1) + X + 1 <= R * X) (H2 : 3 <= X) (H3 : X + PC - 2 < (NB - 2 - W) * upb).

(** ** Positions *)
Definition usr (v : Z) : bool := negb (v mod PC =? PC - 1).
Lemma usr_user v : usr v = true <-> user v.
Proof. unfold usr, Geom.user. destruct (Z.eqb_spec (v mod PC) (PC - 1)); cbn; split; congruence. Qed.
Lemma usr_step v : user v -> cnt usr v (nextv v) = 1.
Proof.
  intros Hu. pose_geo. pose proof (proj2 (usr_user v) Hu) as E.
  destruct (lem nextv_cases v Hu) as [(F1&E1'&F2&F3)|(F1&E1'&F2&F3)]; rewrite E1' in *.
  - rewrite cnt_one, E. done.
  - rewrite cnt_step, E by lia. replace (v + 2) with (v + 1 + 1) by lia. rewrite cnt_one.
    assert (usr (v + 1) = false) as ->; [|done]. unfold usr.
    destruct (divmod_add PC v 1) as [_ Em]; [lia|lia|]. rewrite Em, F1. replace (PC - 2 + 1) with (PC - 1) by lia. by rewrite Z.eqb_refl.
Qed.
(** User pages in an interval that starts at a user page. *)
Lemma cnt_usr_ups a b : user a -> user b -> a <= b -> cnt usr a b = ups c b - ups c a.
Proof.
  intros Ha Hb Hle. remember (Z.to_nat (b - a)) as n eqn:En.
  assert (Hn : b - a <= Z.of_nat n) by lia. clear En. revert a Ha Hle Hn.
  induction n as [|n IH]; intros a Ha Hle Hn.
  { replace a with b by lia. rewrite cnt_empty by lia. lia. }
  destruct (Z.eq_dec a b) as [->|Hne]; [rewrite cnt_empty by lia; lia|].
  pose proof (lem nextv_next b a Hb Ha ltac:(lia)). pose proof (nextv_gt c a).
  rewrite (cnt_split usr a (nextv a) b), (usr_step a), IH, (ups_next g c Hg) by (first [done|lia|by apply (lem nextv_user)]). lia.
Qed.
Lemma usr_block b : cnt usr (b * PB) ((b + 1) * PB) = upb.
Proof.
  pose_geo. rewrite cnt_usr_ups by (first [apply (lem blk_start_user)|nia]). unfold ups, upbk.
  change (2 ^ (g_lppb g - c)) with GP. change (2 ^ c) with PC. rewrite HPBdef.
  replace ((b + 1) * (PC * GP)) with ((b + 1) * GP * PC) by lia. replace (b * (PC * GP)) with (b * GP * PC) by lia.
  rewrite !Z.div_mul by lia. lia.
Qed.

(** [sk]: blocks the head skipped, [good]: positions that hold a page, [live]: the
    current pages of the sectors. *)
Definition good (sk : Z -> bool) (v : Z) : bool := usr v && negb (sk (v / PB)).
Definition live (K : kmap) (root : Z) (v : Z) : bool :=
  bool_decide (id_ok (kid K (ph v)) /\ findp K root (kid K (ph v)) = Some (ph v)).
Lemma live_true K root v : live K root v = true <-> id_ok (kid K (ph v)) /\ findp K root (kid K (ph v)) = Some (ph v).
Proof. unfold live. apply bool_decide_eq_true. Qed.

Lemma live_at K root S s hv tv sv v : JInv s hv tv sv K -> repr K root S -> tv <= v < hv -> live K root v = true ->
  user v /\ badv (js_n s) (v / PB) = false.
Proof.
  intros Hj Hrep Hv Hl. apply live_true in Hl as [Hid Hf].
  destruct (findp_Some _ _ _ _ _ Hrep Hid Hf) as (_ & [[d m] HK] & _).
  destruct (ji_K _ _ _ _ _ _ _ Hj _ _ _ HK) as (w & [] & _).
  assert (Ho : sv <= tv) by apply Hj.
  assert (w = v) as ->; [|done]. apply (lem win_page (hv / PB)); [| |done]; eapply (win_hv g c Hg); eauto; lia.
Qed.
Lemma live_good K root S s hv tv sv sk v : JInv s hv tv sv K -> repr K root S ->
  (forall b, sk b = true -> badv (js_n s) b = true) -> tv <= v < hv -> live K root v = true -> good sk v = true.
Proof.
  intros Hj Hrep Hsk Hv Hl. destruct (live_at _ _ _ _ _ _ _ _ Hj Hrep Hv Hl) as [Hu Hb].
  unfold good. rewrite (proj2 (usr_user v) Hu). destruct (sk (v / PB)) eqn:E; [|done]. apply Hsk in E. congruence.
Qed.
Lemma live_size K root S s hv tv sv w : JInv s hv tv sv K -> repr K root S -> w <= hv ->
  cnt (live K root) tv w <= Z.of_nat (size S).
Proof.
  intros Hj Hrep Hw. apply (cnt_inj _ _ _ (fun v => kid K (ph v))).
  - intros v Hv Hl. apply live_true in Hl as [Hid Hf]. apply (findp_iff _ _ _ _ Hrep Hid). by eexists.
  - intros u v Hu Hv Hlu Hlv E. apply live_true in Hlu as [_ Hu2]. apply live_true in Hlv as [_ Hv2].
    rewrite E in Hu2. assert (Ep : ph u = ph v) by congruence.
    assert (Ho : sv <= tv) by apply Hj.
    apply (lem win_page (hv / PB)); [| |done]; eapply (win_hv g c Hg); eauto; lia.
Qed.

(** ** The invariant *)
Let F := R * Mx + X.
(** Right after a checkpoint. *)
Record ck1 (s : ms) (hv tv : Z) (K : kmap) (D : dsk) : Prop := {
  c1_0 : 1 <= cv D;
  c1_cv : hv = cv D + 1;
  c1_td : tdv D = tv;
  c1_K : Kd D = K;
  c1_m : exists d, K !! ph (cv D - 1) = Some (d, rmd D);
  c1_root : rootof s = ph (cv D - 1);
  c1_h : ckh g weak fb e0 E1 (m_js s)
}.
Context (HQ : forall s S hv tv K D sk, MI s S S hv tv tv K D -> ck1 s hv tv K D -> BBI (m_js s) -> (nj -> J2 (m_js s)) ->
  (forall b, sk b = true -> b < hv / PB /\ badv (chip s) b = true) -> (tv mod PB <> 0 -> sk (tv / PB) = false) ->
  (S = ∅ -> cnt (good sk) tv hv <= 1) -> Z.of_nat (size S) <= Mx ->
  pot R (good sk) (live K (rootof s)) tv hv (R * X) -> Q (chip s)).
Record SPx (s : ms) (S Sd : contents) (hv tv sv : Z) (K : kmap) (D : dsk) (sk : Z -> bool) (y : Z) : Prop := {
  sp_m : MI s S Sd hv tv sv K D;
  sp_c : m_count s = Z.of_nat (size S);
  sp_sz : Z.of_nat (size S) <= Mx;
  sp_r : m_gcr s = r;
  sp_bb : BBI (m_js s);
  sp_y : y <= R * X;
  sp_sk : forall b, sk b = true -> b < hv / PB /\ badv (chip s) b = true;
  sp_tv : tv mod PB <> 0 -> sk (tv / PB) = false;
  sp_e : S = ∅ -> cnt (good sk) tv hv <= 1;
  sp_pot : pot R (good sk) (live K (rootof s)) tv hv (Z.max y F);
  sp_syn : cnt (good sk) sv hv <= X + hv mod PC;
  sp_q : dirtyof s = false -> Q (chip s);
  sp_j : nj -> J2 (m_js s)
}.
Definition SP (s : ms) (S : contents) (y : Z) : Prop := exists Sd hv tv sv K D sk, SPx s S Sd hv tv sv K D sk y.

Lemma SPx_J s S Sd hv tv sv K D sk y : SPx s S Sd hv tv sv K D sk y -> JInv (m_js s) hv tv sv K.
Proof. intros H. apply (sp_m _ _ _ _ _ _ _ _ _ _ H). Qed.
Lemma SPx_rep s S Sd hv tv sv K D sk y : SPx s S Sd hv tv sv K D sk y -> repr K (rootof s) S.
Proof. intros H. apply (sp_m _ _ _ _ _ _ _ _ _ _ H). Qed.
Lemma SPx_mono s S Sd hv tv sv K D sk y y' : y <= y' <= R * X -> SPx s S Sd hv tv sv K D sk y -> SPx s S Sd hv tv sv K D sk y'.
Proof. intros Hy []. split; auto; [lia|]. eapply pot_mono; [|exact sp_pot0]. lia. Qed.
Lemma SP_mono s S y y' : y <= y' <= R * X -> SP s S y -> SP s S y'.
Proof. intros Hy (Sd & hv & tv & sv & K & D & sk & H). exists Sd, hv, tv, sv, K, D, sk. by eapply SPx_mono. Qed.
Lemma F_le : F <= R * X - R - 1.
Proof. unfold F. lia. Qed.
Lemma Mx_X : Mx < X.
Proof. assert (2 <= R) by (unfold R; lia). nia. Qed.
Lemma sp_N s S Sd hv tv sv K D sk y : SPx s S Sd hv tv sv K D sk y -> cnt (good sk) tv hv <= X.
Proof.
  intros H. assert (2 <= R) by (unfold R; lia). pose proof (sp_sz _ _ _ _ _ _ _ _ _ _ H).
  assert (0 <= F) by (unfold F; nia).
  assert (Hy0 : 0 <= Z.max y F) by lia.
  pose proof (pot_N R ltac:(lia) _ _ _ _ _ Hy0 (sp_pot _ _ _ _ _ _ _ _ _ _ H)) as Hp.
  pose proof (sp_y _ _ _ _ _ _ _ _ _ _ H). pose proof F_le. nia.
Qed.
Lemma few_pot sk K root s S hv tv sv k : JInv s hv tv sv K -> repr K root S ->
  (forall b, sk b = true -> badv (js_n s) b = true) -> cnt (good sk) tv hv <= k ->
  pot R (good sk) (live K root) tv hv ((R + 1) * k).
Proof.
  intros Hj Hrep Hsk Hk. eapply pot_mono; [|apply pot_few; [unfold R; lia|apply Hj|]].
  - assert (2 <= R) by (unfold R; lia). nia.
  - intros v Hv. eapply live_good; eauto.
Qed.

(** ** The journal is not full *)
Lemma full_blocks s hv tv sv K : n_geo (js_n s) = g -> JInv s hv tv sv K -> nf s -> hv / PB = sv / PB + NB - 1.
Proof.
  intros En Hj Hf. unfold nf in Hf. cbv zeta in Hf. rewrite En in Hf.
  rewrite (ji_ppc _ _ _ _ _ _ _ Hj), (ji_head _ _ _ _ _ _ _ Hj), (ji_tsync _ _ _ _ _ _ _ Hj) in Hf.
  pose proof (ji_order _ _ _ _ _ _ _ Hj) as Ho. pose proof (ji_full _ _ _ _ _ _ _ Hj) as Hfu.
  pose proof (NB_ge _ _ Hg) as HNB.
  pose proof (blk_le _ _ Hg sv hv ltac:(lia)) as Hbl.
  assert (Hmod : sv / PB mod NB = (hv / PB + 1) mod NB -> hv / PB = sv / PB + NB - 1).
  { intros E. symmetry in E.
    pose proof (Z.div_mod (hv / PB + 1) (NB) ltac:(lia)). pose proof (Z.div_mod (sv / PB) (NB) ltac:(lia)).
    assert (0 < (hv / PB + 1) / NB - sv / PB / NB < 2) by nia. nia. }
  destruct Hf as [Hf|[Ha1 Ha2]].
  - rewrite !(shiftr_blk _ _ Hg), !(ph_blk _ _ Hg), (next_block_ph _ _ Hg) in Hf. by apply Hmod.
  - rewrite (next_upage_ph _ _ Hg) in Ha1, Ha2 by (try apply Hj; lia).
    rewrite !(align_eq_blk _ _ Hg), !(ph_blk _ _ Hg) in Ha1, Ha2.
    apply Z.eqb_eq in Ha1. apply Z.eqb_neq in Ha2.
    destruct (nextv_blk _ _ Hg hv) as [[E _]|(E & _)]; [apply Hj| |]; rewrite E in *; [done|]. by apply Hmod.
Qed.
Lemma not_full s sk hv tv sv K D : JI s hv tv sv K D -> (forall b, sk b = true -> badv (js_n s) b = true) ->
  cnt (good sk) sv hv <= X + PC - 2 -> ~ nf s.
Proof.
  intros [Hn Hj _ _] Hsk Hc Hf. pose_geo.
  pose proof (full_blocks s hv tv sv K (nk_geo _ _ _ Hn) Hj Hf) as E.
  assert (Hb : (NB - 2 - W) * upb <= cnt (good sk) sv hv); [|lia].
  transitivity (cnt (good sk) ((sv / PB + 1) * PB) ((hv / PB) * PB)).
  - unfold good. rewrite (cnt_blocks usr sk PB upb) by (first [lia|intros; apply usr_block]).
    assert (cnt sk (sv / PB + 1) (hv / PB) <= W).
    { unfold W. etrans; [|apply (cnt_window weak NB (sv / PB + 1) (hv / PB)); lia]. apply cnt_le. intros b _ Hb.
      apply (nk_bad _ _ _ Hn), Hsk. done. }
    pose proof (upbk_pos g c Hg). nia.
  - apply cnt_sub; [|apply (lem blk_ge_start); lia]. pose proof (lem blk_lt_start sv (sv / PB + 1) ltac:(lia)). lia.
Qed.

(** ** Calls that leave the head alone *)
Definition bsj (s s' : js) : Prop := js_n s' = js_n s /\ j_ppc (js_j s') = j_ppc (js_j s) /\ j_head (js_j s') = j_head (js_j s) /\
  j_recov (js_j s') = j_recov (js_j s) /\ j_enum (js_j s') = j_enum (js_j s) /\ j_bbl (js_j s') = j_bbl (js_j s) /\
  j_bbc (js_j s') = j_bbc (js_j s).
Lemma bsj_BBI s s' : bsj s s' -> BBI s -> BBI s'.
Proof.
  intros (E1'&E2&E3&E4&E5&E6&E7) [[] Hb]. split; [split; rewrite ?E1', ?E2, ?E3, ?E4, ?E5, ?E6; auto|].
  unfold bbr, hb in *. rewrite E3, E7. done.
Qed.
Lemma deq_bsj s : bsj s (snd (journal_dequeue s)).
Proof.
  unfold journal_dequeue, bind, getg, getj, gets, modj, modify. destruct (j_head _ =? _); [done|].
  cbn. destruct (negb _); cbn; destruct (_ <? _); done.
Qed.
Lemma bufput_bsj o b s : bsj s (snd (buf_put o b s)).
Proof. unfold buf_put. cbv zeta. destruct (_ && _); done. Qed.
Lemma clear_bsj s : bsj s (snd (journal_clear s)).
Proof.
  unfold journal_clear, hdr_clear_user, bind, getg, getj, gets, modj, modify.
  match goal with |- context [buf_put ?o ?b ?s1] => pose proof (bufput_bsj o b s1) as H end. exact H.
Qed.

(** ** Appending *)
Definition skn (sk : Z -> bool) (hv hv' : Z) (b : Z) : bool := sk b || ((hv / PB <=? b) && (b <? hv' / PB)).
Lemma skn_low sk hv hv' v : hv' = hv \/ (hv mod PB = 0 /\ hv' mod PB = 0) -> v < hv -> good (skn sk hv hv') v = good sk v.
Proof.
  intros Hal Hv. unfold good, skn. do 2 f_equal. destruct Hal as [->|[Ha _]].
  - destruct (Z.leb_spec (hv / PB) (v / PB)); destruct (Z.ltb_spec (v / PB) (hv / PB)); cbn; try lia; apply orb_false_r.
  - pose_geo. assert (Hlt : v / PB < hv / PB).
    { pose proof (lem blk_le v hv ltac:(lia)). pose proof (lem v_decomp v). pose proof (lem v_decomp hv). pose proof (lem off_range v).
      destruct (Z.eq_dec (v / PB) (hv / PB)) as [E|]; [|lia]. rewrite E in *. lia. }
    destruct (Z.leb_spec (hv / PB) (v / PB)); [lia|]. cbn. apply orb_false_r.
Qed.
Lemma skn_gap sk hv hv' : hv <= hv' -> hv' = hv \/ (hv mod PB = 0 /\ hv' mod PB = 0) -> cnt (good (skn sk hv hv')) hv hv' = 0.
Proof.
  intros Hle Hal. apply cnt_zero. intros v Hv. destruct Hal as [->|[Ha Ha']]; [lia|].
  unfold good, skn. pose_geo. pose proof (lem blk_le hv v ltac:(lia)).
  assert (v / PB < hv' / PB).
  { pose proof (lem blk_le v hv' ltac:(lia)). pose proof (lem v_decomp v). pose proof (lem v_decomp hv'). pose proof (lem off_range v).
    destruct (Z.eq_dec (v / PB) (hv' / PB)) as [E|]; [|lia]. rewrite E in *. lia. }
  replace (hv / PB <=? v / PB) with true by (symmetry; apply Z.leb_le; lia).
  replace (v / PB <? hv' / PB) with true by (symmetry; apply Z.ltb_lt; lia). cbn. rewrite orb_true_r. apply andb_false_r.
Qed.
Lemma skn_sub sk hv hv' a : hv <= hv' -> hv' = hv \/ (hv mod PB = 0 /\ hv' mod PB = 0) -> a <= hv ->
  cnt (good (skn sk hv hv')) a hv' = cnt (good sk) a hv.
Proof.
  intros Hle Hal Ha. rewrite (cnt_split _ a hv hv'), skn_gap by (done || lia).
  rewrite (cnt_ext _ (good sk)); [lia|]. intros v Hv. apply skn_low; [done|lia].
Qed.

Lemma append_SP s S Sd hv tv sv K D sk y (app : MJ unit) (P : bytes -> Prop) (ecc : Prop) m (S' : bytes -> contents) :
  SPx s S Sd hv tv sv K D sk y -> blen m = META_SIZE ->
  (forall d, P d -> cookie (m_js s) = szc (S' d)) ->
  (forall d n, P d -> K !! n = None -> 0 <= n < PAGE_NONE -> repr (<[n:=(d,m)]> K) n (S' d)) ->
  (aging -> forall d v', P d -> hv <= v' -> K !! ph v' = None -> aged ph tv (<[ph v':=(d,m)]> K) (ph v') v') ->
  wp app (m_js s) (app_post hv tv sv K D (m_js s) P ecc m) ->
  fl nf app -> (forall x, bmono (js_n x) (js_n (snd (app x)))) -> wp app (m_js s) (bq g c weak fb e0 E1 false) -> wp app (m_js s) (cq g weak fb e0 E1) ->
  (J2 (m_js s) -> wp app (m_js s) (fin g)) ->
  (forall d n x p, P d -> K !! n = None -> 0 <= n < PAGE_NONE -> id_ok x ->
     findp (<[n:=(d,m)]> K) n x = Some p -> p <> n -> findp K (rootof s) x = Some p) ->
  wp (jn app) s (fun o s' => m_gcr s' = r /\ m_count s' = m_count s /\
    match o with
    | OK _ => exists d hv' sv' D' Sd' sk', P d /\ hv <= hv' /\ K !! ph hv' = None /\ rootof s' = ph hv' /\
        MI s' (S' d) Sd' (nextv hv') tv sv' (<[ph hv':=(d,m)]> K) D' /\ (BBI (m_js s') /\ (nj -> J2 (m_js s'))) /\
        (forall b, sk' b = true -> b < nextv hv' / PB /\ badv (chip s') b = true) /\
        (tv mod PB <> 0 -> sk' (tv / PB) = false) /\
        grow (good sk) (live K (rootof s)) (good sk') (live (<[ph hv':=(d,m)]> K) (ph hv')) tv hv (nextv hv') /\
        ((sv' = sv /\ hv mod PC < nextv hv' mod PC /\ dirtyof s' = true) \/ (sv' = tv /\ nextv hv' mod PC = 0 /\ dirtyof s' = false /\ Sd' = S' d /\
           ck1 s' (nextv hv') tv (<[ph hv':=(d,m)]> K) D'))
    | ER e => (e = E_ECC /\ ecc) /\ dirtyof s' = true /\ exists hv' sk', SPx s' S Sd hv' tv sv K D sk' y
    | ST _ => True
    end).
Proof.
  intros HS Hm Hck Hnew Hnag Happ Hfl Hbm Hbq Hcq Hjq Hloc. pose_geo.
  assert (Hsk0 := sp_sk _ _ _ _ _ _ _ _ _ _ HS). assert (Htv0 := sp_tv _ _ _ _ _ _ _ _ _ _ HS).
  assert (Hr0 := sp_r _ _ _ _ _ _ _ _ _ _ HS).
  pose proof (sp_m _ _ _ _ _ _ _ _ _ _ HS) as [HJ Hrep Hdsk Hcl Hgc Hag].
  unfold jn. apply wp_zoom. specialize (Hbm (m_js s)). specialize (Hfl (m_js s)).
  unfold wp in *. destruct (app (m_js s)) as [o j'] eqn:Eapp. cbn [fst snd] in *. cbn [m_gcr m_count put_js m_js].
  split; [done|]. split; [done|].
  pose proof HJ as [Hn Hj HDI Hc]. pose proof (ji_order _ _ _ _ _ _ _ Hj) as Hord.
  assert (Hcvh : cv D < hv) by apply HDI.
  assert (Htv1 : forall hv', hv' = hv \/ (hv mod PB = 0 /\ hv' mod PB = 0) -> tv mod PB <> 0 -> skn sk hv hv' (tv / PB) = false).
  { intros hv' Hal Ht. unfold skn. rewrite (Htv0 Ht). cbn.
    destruct (Z.leb_spec (hv / PB) (tv / PB)) as [Hle|]; [|done]. cbn. apply Z.ltb_ge.
    pose proof (lem blk_le tv hv ltac:(lia)) as Hle2. assert (E : tv / PB = hv / PB) by lia.
    destruct Hal as [->|[Ha _]]; [lia|]. exfalso.
    pose proof (lem v_decomp tv). pose proof (lem v_decomp hv). pose proof (lem off_range tv). rewrite E in *. lia. }
  assert (Hsk1 : forall n' hv' hv'' sv' D', bmono (js_n (m_js s)) n' -> DI n' hv'' sv' D' -> hv <= hv' <= hv'' ->
     hv' = hv \/ ((hv mod PB = 0 /\ hv' mod PB = 0) /\ D' = D) ->
     forall b, skn sk hv hv' b = true -> b < hv'' / PB /\ badv n' b = true).
  { intros n' hv' hv'' sv' D' Hb HDI' Hle Hal b. unfold skn. intros Hb1. apply orb_prop in Hb1 as [Hb1|Hb1].
    - destruct (Hsk0 _ Hb1) as [Hlt Hbb]. split; [pose proof (lem blk_le hv hv'' ltac:(lia)); lia|]. eapply bmono_v; [exact Hb|exact Hbb].
    - apply andb_prop in Hb1 as [Hb1 Hb2]. apply Z.leb_le in Hb1. apply Z.ltb_lt in Hb2.
      pose proof (lem blk_le hv' hv'' ltac:(lia)). split; [lia|]. destruct Hal as [->|[[Ha Ha'] ->]]; [lia|].
      eapply (gap_bad g c Hg n' hv hv' hv''); eauto; lia. }
  destruct o as [[]|e|x]; [| |done].
  - destruct Happ as (hv' & d & HP & Hdl & Hle & HK & Hal & (Er & Eck & Hcase) & Hgap).
    assert (Hu' : user hv').
    { destruct Hal as [->|[_ Ha]]; [apply Hj|]. unfold Geom.user. rewrite (lem off_0_slot) by done. lia. }
    pose proof (nextv_gt c hv') as Hgt.
    destruct Hbq as [Hbq _].
    assert (Hjn : nj -> J2 j') by (intros Hnj; exact (Hjq (sp_j _ _ _ _ _ _ _ _ _ _ HS Hnj))).
    (* what both cases share *)
    assert (Hgrow : forall sk', sk' = skn sk hv hv' ->
       forall sv' D' Sd', MI (put_js j' s) (S' d) Sd' (nextv hv') tv sv' (<[ph hv':=(d,m)]> K) D' ->
       (forall b, sk' b = true -> badv (js_n j') b = true) ->
       grow (good sk) (live K (rootof s)) (good sk') (live (<[ph hv':=(d,m)]> K) (ph hv')) tv hv (nextv hv')).
    { intros sk' -> sv' D' Sd' HM' Hsk'. pose proof (mi_j _ _ _ _ _ _ _ _ _ _ _ HM') as [_ Hj' _ _]. cbn [m_js put_js] in Hj'.
      pose proof (ji_order _ _ _ _ _ _ _ Hj') as Hord'.
      split.
      - lia.
      - intros v Hv. by apply skn_low.
      - rewrite (cnt_split _ hv hv' (nextv hv')), skn_gap by (done || lia).
        rewrite (cnt_ext _ usr); [by rewrite usr_step|]. intros v Hv. unfold good, skn.
        assert (Hlow : sk (v / PB) = false).
        { destruct (sk (v / PB)) eqn:E; [|done]. destruct (Hsk0 _ E). pose proof (lem blk_le hv v ltac:(lia)). lia. }
        rewrite Hlow. cbn. pose proof (lem blk_le hv' v ltac:(lia)).
        replace (v / PB <? hv' / PB) with false by (symmetry; apply Z.ltb_ge; lia). rewrite andb_false_r. cbn. apply andb_true_r.
      - intros v Hv Hl. apply live_true in Hl as [Hid Hf].
        assert (Hne : ph v <> ph hv').
        { intros E. assert (v = hv'); [|lia].
          apply (lem win_page (nextv hv' / PB)); [| |done]; eapply (win_hv g c Hg); eauto; lia. }
        assert (Ek : kid (<[ph hv':=(d, m)]> K) (ph v) = kid K (ph v)).
        { unfold kid, km. by rewrite lookup_insert_ne. }
        rewrite Ek in Hid, Hf. apply live_true. split; [done|]. eapply Hloc; eauto. apply (ph_pn g c Hg).
      - intros v Hv. eapply (live_good _ _ (S' d) j' (nextv hv') tv sv'); eauto.
        pose proof (mi_rep _ _ _ _ _ _ _ _ _ _ _ HM') as Hrep'. cbn [m_js put_js] in Hrep'. by rewrite Er in Hrep'. }
    destruct Hcase as [(Hdi & Hs & HJ')|(Hdi & Hs & HJ')].
    + assert (HM' : MI (put_js j' s) (S' d) Sd (nextv hv') tv sv (<[ph hv':=(d,m)]> K) D).
      { split; cbn [m_js m_gcr put_js]; auto.
        * rewrite Er. apply Hnew; auto. apply (ph_pn g c Hg).
        * intros. congruence.
        * rewrite Er. apply age_new; [lia|]. intros Hg0. by apply Hnag. }
      assert (Hsk' : forall b, skn sk hv hv' b = true -> b < nextv hv' / PB /\ badv (js_n j') b = true).
      { eapply Hsk1; [exact Hbm|apply HJ'|lia|]. destruct Hal as [?|?]; [by left|by right]. }
      exists d, hv', sv, D, Sd, (skn sk hv hv'). cbn [m_js put_js chip].
      split_and!; auto.
      * eapply Hgrow; eauto. intros b Hb. by apply Hsk'.
      * left. split; [done|]. split; [|done]. eapply (nextv_slot g c Hg); eauto. apply Hj.
    +       assert (HM' : MI (put_js j' s) (S' d) (S' d) (nextv hv') tv tv (<[ph hv':=(d,m)]> K) (Dsk (hv' + 1) tv (cookie (m_js s)) m (<[ph hv' := (d, m)]> K))).
      { split; cbn [m_js m_gcr put_js]; [exact HJ'| | | | |]; auto.
        * rewrite Er. apply Hnew; auto. apply (ph_pn g c Hg).
        * right. cbn [cv ckd rmd Kd]. replace (hv' + 1 - 1) with hv' by lia.
          split; [lia|]. split; [by apply Hck|]. left. split; [exists d; apply lookup_insert|].
          split; [apply Hnew; auto; apply (ph_pn g c Hg)|]. intros Hg0. cbn [tdv]. by apply Hnag.
        * rewrite Er. apply age_new; [lia|]. intros Hg0. by apply Hnag. }
      assert (Hsk' : forall b, skn sk hv hv' b = true -> b < nextv hv' / PB /\ badv (js_n j') b = true).
      { intros b. unfold skn. intros Hb1. apply orb_prop in Hb1 as [Hb1|Hb1].
        - destruct (Hsk0 _ Hb1) as [Hlt Hbb]. split; [pose proof (lem blk_le hv (nextv hv') ltac:(lia)); lia|]. eapply bmono_v; [exact Hbm|exact Hbb].
        - apply andb_prop in Hb1 as [Hb1 Hb2]. apply Z.leb_le in Hb1. apply Z.ltb_lt in Hb2.
          pose proof (lem blk_le hv' (nextv hv') ltac:(lia)). split; [lia|]. destruct Hal as [->|[Ha Ha']]; [lia|].
          apply Hgap. split; [|lia].
          pose proof (lem blk_le (cv D) hv ltac:(lia)). pose proof (lem v_decomp (cv D)). pose proof (lem v_decomp hv).
          pose proof (lem off_range (cv D)).
          destruct (Z.eq_dec (cv D / PB) (hv / PB)) as [E|]; [|lia]. rewrite E in *. lia. }
      exists d, hv', tv, (Dsk (hv' + 1) tv (cookie (m_js s)) m (<[ph hv' := (d, m)]> K)), (S' d), (skn sk hv hv'). cbn [m_js put_js chip].
      split; [done|]. split; [done|]. split; [done|]. split; [done|]. split; [exact HM'|]. split; [by split|]. split; [exact Hsk'|].
      split; [by apply Htv1|]. split; [eapply Hgrow; eauto; intros b Hb; by apply Hsk'|].
      right. destruct (lem nextv_cases hv' Hu') as [(F1&_&_&_)|(_&F2&_&F3)]; [lia|].
      split; [done|]. split; [done|]. split; [done|]. split; [done|].
      split; cbn [cv tdv Kd rmd m_js put_js]; replace (hv' + 1 - 1) with hv' by lia; auto; [lia|lia|].
      exists d. apply lookup_insert.
  - destruct Happ as (He & Hjr & hv' & Hle & HJ' & Hal).
    assert (Hsk' : forall b, skn sk hv hv' b = true -> b < hv' / PB /\ badv (js_n j') b = true).
    { eapply Hsk1; [exact Hbm|apply HJ'|lia|]. destruct Hal as [?|?]; [by left|by right]. }
    assert (Hcs : cnt (good (skn sk hv hv')) sv hv' <= X + hv mod PC).
    { rewrite skn_sub by (done || lia). apply HS. }
    assert (Hcp : hv mod PC < PC - 1).
    { pose proof (lem slot_range hv). assert (Hu : user hv) by apply Hj. unfold Geom.user in Hu. lia. }
    assert (Hne : e <> E_JOURNAL_FULL).
    { intros ->. eapply (not_full j' (skn sk hv hv')); [exact HJ'|intros b Hb; by apply Hsk'|lia|]. by eapply Hfl. }
    destruct He as [?|[-> Hecc]]; [done|]. assert (Hdt : j_dirty (js_j j') = true) by (by apply Hcq). split; [done|]. split; [done|]. exists hv', (skn sk hv hv').
    assert (Hjn : nj -> J2 j').
    { intros Hnj. destruct (Hjq (sp_j _ _ _ _ _ _ _ _ _ _ HS Hnj)) as [?|?]; done. }
    assert (HM' : MI (put_js j' s) S Sd hv' tv sv K D).
    { split; cbn [m_js m_gcr put_js]; [done| |done| |done|].
      + by rewrite (jr_root _ _ Hjr).
      + intros Hd0. apply Hcl. destruct (dirtyof s) eqn:E; [|done].
        rewrite (jr_dirty _ _ Hjr) in Hd0; [done|exact E].
      + rewrite (jr_root _ _ Hjr). by eapply age_mono. }
    cbn in Hbq. destruct (decide _) as [?|_] in Hbq; [done|]. destruct Hbq as [Hbq _].
    split; cbn [m_js m_gcr m_count put_js chip]; auto; try apply HS.
    + intros E. rewrite skn_sub by (done || lia). by apply HS.
    + rewrite (jr_root _ _ Hjr). intros w Hw Hc1. unfold val.
      assert (Hlg : forall v, tv <= v < hv' -> live K (rootof s) v = true -> good (skn sk hv hv') v = true).
      { intros v Hv. eapply (live_good _ _ S j' hv' tv sv); [apply HJ'|done|intros b Hb; by apply Hsk'|done]. }
      destruct (Z.le_gt_cases w hv) as [Hwh|Hwh].
      * rewrite skn_sub by (done || lia). rewrite (cnt_ext (good _) (good sk) tv w) by (intros; apply skn_low; [done|lia]).
        apply (sp_pot _ _ _ _ _ _ _ _ _ _ HS w); [lia|].
        rewrite <-(cnt_ext (good (skn sk hv hv')) (good sk) tv w) by (intros; apply skn_low; [done|lia]). done.
      * assert (Hg0 : forall a b, hv <= a -> b <= hv' -> cnt (good (skn sk hv hv')) a b = 0).
        { intros a b Ha Hb. pose proof (cnt_nonneg (good (skn sk hv hv')) a b).
          pose proof (cnt_sub (good (skn sk hv hv')) a b hv hv' Ha Hb) as Hs. rewrite skn_gap in Hs by done. lia. }
        rewrite (Hg0 w hv') by lia. rewrite (cnt_split (good _) tv hv w), (Hg0 hv w) by lia.
        rewrite (cnt_ext (good _) (good sk) tv hv) by (intros; apply skn_low; [done|lia]).
        rewrite (cnt_split (live _ _) tv hv w) by lia.
        assert (cnt (live K (rootof s)) hv w <= 0).
        { rewrite <-(Hg0 hv w) by lia. apply cnt_le. intros v Hv. apply Hlg. lia. }
        assert (Hc2 : 1 <= cnt (good sk) tv hv).
        { rewrite (cnt_split (good _) tv hv w), (Hg0 hv w) in Hc1 by lia.
          rewrite <-(cnt_ext (good (skn sk hv hv')) (good sk) tv hv) by (intros; apply skn_low; [done|lia]). lia. }
        pose proof (sp_pot _ _ _ _ _ _ _ _ _ _ HS hv ltac:(lia) Hc2) as Hp. unfold val in Hp. rewrite (cnt_empty _ hv hv) in Hp by lia.
        assert (2 <= R) by (unfold R; lia). nia.
    + destruct Hal as [->|[Ha Ha']]; [done|]. rewrite (lem off_0_slot hv) in Hcs by done. rewrite (lem off_0_slot hv') by done. done.
    + intros E. congruence.
Qed.

(** ** Peek, garbage collection, dequeue *)
Lemma good_step sk v : user v -> good sk v = true -> cnt (good sk) v (nextv v) = 1.
Proof.
  intros Hu Hgv. pose proof (usr_step v Hu) as Hu1. rewrite <-Hu1. apply cnt_ext. intros w Hw.
  unfold good in *. destruct (usr w) eqn:E; [|done]. cbn. apply andb_prop in Hgv as [Hgu Hgs].
  assert (E2 : w = v); [|by rewrite E2, Hgs].
  pose_geo. destruct (lem nextv_cases v Hu) as [(F1&E1'&F2&F3)|(F1&E1'&F2&F3)]; rewrite E1' in *; [lia|].
  destruct (Z.eq_dec w v) as [|Hne]; [done|]. assert (w = v + 1) as -> by lia. exfalso.
  unfold usr in E. destruct (divmod_add PC v 1) as [_ Em]; [lia|lia|]. rewrite Em, F1 in E.
  replace (PC - 2 + 1) with (PC - 1) in E by lia. by rewrite Z.eqb_refl in E.
Qed.

Lemma peek_SP s S Sd hv tv sv K D sk y : SPx s S Sd hv tv sv K D sk y ->
  exists s' tv', jn journal_peek s = (OK (if tv =? hv then PAGE_NONE else ph tv'), s') /\ tv <= tv' <= hv /\
    SPx s' S Sd hv tv' sv K D sk y /\ (tv' < hv -> good sk tv' = true) /\ (nj -> tv' < hv -> badv (chip s') (tv' / PB) = false).
Proof.
  intros HS. pose proof (sp_m _ _ _ _ _ _ _ _ _ _ HS) as [HJ Hrep Hd Hcl Hgc Hag].
  destruct (peek_spec' g c Hg weak Hdense _ _ _ _ _ _ HJ) as (tv' & Hle & Hu & Hcase & Hgd & E & HJ').
  unfold jn, zoom. rewrite E. eexists _, tv'. split; [reflexivity|]. split; [done|].
  assert (Hsk : tv' < hv \/ tv' mod PB <> 0 -> sk (tv' / PB) = false).
  { intros Ht. destruct (Z.eq_dec (tv' mod PB) 0) as [E0|E0].
    - destruct Ht as [Ht|?]; [|done]. specialize (Hgd Ht E0). destruct (sk (tv' / PB)) eqn:Es; [|done].
      apply (sp_sk _ _ _ _ _ _ _ _ _ _ HS) in Es as [_ Es]. unfold chip in Es. congruence.
    - destruct Hcase as [->|?]; [|done]. by apply HS. }
  assert (HTi : nj -> tv' mod PB <> 0 -> badv (js_n (m_js s)) (tv' / PB) = false).
  { intros Hnj E0. destruct Hcase as [->|?]; [|done]. pose proof (proj2 (sp_j _ _ _ _ _ _ _ _ _ _ HS Hnj)) as Ht.
    apply (TB_TI g c Hg tv) in Ht; [by apply Ht|apply HJ]. }
  split; [|split].
  - pose proof HS as []. split; cbn [m_js m_gcr m_count put_js chip]; auto.
    + split; cbn [m_js m_gcr put_js]; [done|done|done|done|done|].
      eapply (age_tail g c Hg _ hv tv tv' sv K K); [apply HJ'|exact Hrep|lia|by eapply (JI_full g c Hg)|by right|done|exact Hag].
    + eapply bsj_BBI; [|exact sp_bb0]. done.
    + intros E0. pose proof (cnt_sub (good sk) tv' hv tv hv ltac:(lia) ltac:(lia)). specialize (sp_e0 E0). lia.
    + eapply pot_tail; [unfold R; lia|exact Hle|]. exact sp_pot0.
    + intros Hnj. split; [apply (sp_j0 Hnj)|]. apply (TB_TI g c Hg tv'); [done|]. exact (HTi Hnj).
  - intros Ht. unfold good. rewrite (proj2 (usr_user tv') Hu), Hsk by lia. done.
  - intros Hnj Ht. unfold chip. cbn [m_js put_js js_n]. destruct (Z.eq_dec (tv' mod PB) 0) as [E0|E0]; [by apply Hgd|by apply HTi].
Qed.

Lemma live_del K root S p hv tv sv s v : JInv s hv tv sv K -> repr K root S ->
  (forall t, id_ok t -> findp K root t <> Some p) -> 
  live (delete p K) (if root =? p then PAGE_NONE else root) v = true -> live K root v = true.
Proof.
  intros Hj Hrep Hf Hl. apply live_true in Hl as [Hid Hl].
  pose proof (repr_delete_page _ _ _ _ Hrep Hf) as Hr'.
  destruct (findp_Some _ _ _ _ _ Hr' Hid Hl) as (_ & Hsm & _).
  assert (Hne : ph v <> p). { intros <-. rewrite lookup_delete in Hsm. by destruct Hsm. }
  assert (Ek : kid (delete p K) (ph v) = kid K (ph v)).
  { unfold kid, km. by rewrite lookup_delete_ne. }
  rewrite Ek in Hid, Hl. apply live_true. split; [done|]. eapply loc_deq; eauto.
Qed.

(** Nothing is left in an empty journal. *)
Lemma empty_K s hv sv K p : JInv s hv hv sv K -> K !! p = None.
Proof.
  intros Hj. destruct (K !! p) as [[d m]|] eqn:E; [|done].
  destruct (ji_K _ _ _ _ _ _ _ Hj _ _ _ E) as (v & [] & _). lia.
Qed.
Lemma empty_S s S hv sv K root : JInv s hv hv sv K -> repr K root S -> S = ∅.
Proof.
  intros Hj Hrep. destruct (r_root _ _ _ Hrep) as [->|[[x Hx] _]]; [by eapply repr_none_empty|].
  by rewrite (empty_K _ _ _ _ _ Hj) in Hx.
Qed.

Definition dead (s : ms) (K : kmap) (p : Z) : Prop := forall t, id_ok t -> findp K (rootof s) t <> Some p.

Lemma deq_J2 s s' tv hv sv K : user tv -> JInv (m_js s') hv (nextv tv) sv K -> chip s' = chip s -> J2 (m_js s) ->
  badv (chip s) (tv / PB) = false -> J2 (m_js s').
Proof.
  intros Hu Hj En [HN _] Hb. unfold chip in *. split; [by rewrite En|]. apply (TB_TI g c Hg (nextv tv)); [apply Hj|].
  intros Ha. destruct (lem nextv_blk tv Hu) as [[-> _]|(_ & Eb & _)]; [by rewrite En|done].
Qed.
Lemma dequeue_dead s S Sd hv tv sv K D sk y : SPx s S Sd hv tv sv K D sk y -> (tv < hv -> good sk tv = true) ->
  (nj -> tv < hv -> badv (chip s) (tv / PB) = false) -> dead s K (ph tv) -> exists s', jn journal_dequeue s = (OK tt, s') /\ SP s' S (y - 1).
Proof.
  intros HS Hgd Hgb Hf. pose proof (sp_m _ _ _ _ _ _ _ _ _ _ HS) as HM. pose proof (SPx_J _ _ _ _ _ _ _ _ _ _ HS) as Hj.
  pose proof (ji_order _ _ _ _ _ _ _ Hj) as Hord. pose proof F_le.
  assert (HF0 : 0 <= F). { unfold F. pose proof (sp_sz _ _ _ _ _ _ _ _ _ _ HS). assert (2 <= R) by (unfold R; lia). nia. }
  destruct (Z.eq_dec tv hv) as [->|Hne].
  - exists s. unfold jn, zoom. erewrite (dequeue_empty g c weak) by apply HM. rewrite put_js_id. split; [done|].
    exists Sd, hv, hv, sv, K, D, sk. pose proof HS as []. split; auto; [lia|].
    eapply pot_mono; [|eapply (few_pot _ _ _ _ _ _ _ _ 0); [exact Hj|apply HM|intros b Hb; by apply sp_sk0|rewrite cnt_empty; lia]]. lia.
  - destruct (dequeue_MI' g c Hg weak _ _ _ _ _ _ _ _ HM Hne Hf) as (s' & E & E1' & E2 & E3 & E4 & E5 & sv' & D' & HM' & Hsv).
    exists s'. split; [done|]. exists Sd, hv, (nextv tv), sv', (delete (ph tv) K), D', sk.
    assert (Htu : user tv) by apply Hj. pose proof (nextv_gt c tv).
    assert (Hgt : good sk tv = true) by (apply Hgd; lia).
    pose proof (good_step sk tv Htu Hgt) as Hst.
    assert (Hnt : nextv tv <= hv). { apply (lem nextv_next); [apply Hj|done|lia]. }
    assert (Hsp : cnt (good sk) tv hv = 1 + cnt (good sk) (nextv tv) hv) by (rewrite (cnt_split _ tv (nextv tv) hv); lia).
    pose proof (sp_N _ _ _ _ _ _ _ _ _ _ HS) as HN. pose proof (lem slot_range hv).
    pose proof HS as []. split; auto; rewrite ?E1', ?E2, ?E3; auto.
    + eapply bsj_BBI; [|exact sp_bb0]. pose proof (deq_bsj (m_js s)) as Hb. unfold jn, zoom in E.
      destruct (journal_dequeue (m_js s)) as [o x]. injection E as -> <-. exact Hb.
    + lia.
    + intros Ha. destruct (lem nextv_blk tv Htu) as [[Eb _]|(_ & Eb & _)]; [|done]. rewrite Eb.
      unfold good in Hgt. apply andb_prop in Hgt as [_ Hgt]. by apply negb_true_iff in Hgt.
    + intros E0. specialize (sp_e0 E0). lia.
    + eapply pot_lf; [unfold R; lia| |].
      * intros v Hv. rewrite E5. eapply live_del; [exact Hj|apply HM|exact Hf].
      * eapply pot_mono; [|eapply pot_deq; [unfold R; lia| |exact Hst|exact sp_pot0]]; lia.
    + destruct (dirtyof s); rewrite Hsv; [done|]. lia.
    + rewrite E4. exact sp_q0.
    + intros Hnj. eapply (deq_J2 s s'); [exact Htu|apply HM'|exact E1'|by apply sp_j0|apply Hgb; [done|lia]].
Qed.

Lemma ck_SP s S Sd hv tv sv K D sk y k : SPx s S Sd hv tv sv K D sk y ->
  exists s', ck_set_count k s = (OK tt, s') /\ SPx s' S Sd hv tv sv K D sk y /\ cookie (m_js s') = w32_bytes k /\
    m_count s' = m_count s /\ rootof s' = rootof s.
Proof.
  intros HS. destruct (ck_spec g c Hg weak _ _ _ _ _ _ _ _ k (sp_m _ _ _ _ _ _ _ _ _ _ HS)) as (s' & E & HM & E1' & E2 & E3 & E4 & E5 & E6).
  exists s'. split; [done|]. split; [|done]. pose proof HS as []. split; rewrite ?E2, ?E3, ?E4, ?E5, ?E6; auto.
  - eapply bsj_BBI; [|exact sp_bb0]. unfold ck_set_count, cookie_put, jn, zoom in E.
    pose proof (bufput_bsj HEADER_SIZE (w32_bytes k) (m_js s)) as Hb.
    destruct (buf_put HEADER_SIZE (w32_bytes k) (m_js s)) as [o x]. injection E as -> <-. exact Hb.
  - intros Hnj. destruct (sp_j0 Hnj) as [Ha Hb]. unfold chip in E6. split; [by rewrite E6|]. unfold TI in *. rewrite E6.
    assert (Et : j_tail (js_j (m_js s')) = j_tail (js_j (m_js s))).
    { transitivity (ph tv); [apply HM|symmetry; apply sp_m0]. }
    by rewrite Et.
Qed.

Lemma jcopy_bq x p m : BBI x -> wp (journal_copy p m) x (bq g c weak fb e0 E1 false).
Proof. intros H. by apply (copy_bb g c Hg weak fb e0 E1 He0 HE1). Qed.
Lemma enq_bq x d m : BBI x -> wp (journal_enqueue d m) x (bq g c weak fb e0 E1 false).
Proof. intros H. by apply (enqueue_bb g c Hg weak fb e0 E1 He0 HE1). Qed.
Lemma jcopy_cq x p m : BBI x -> wp (journal_copy p m) x (cq g weak fb e0 E1).
Proof. intros H. by apply (copy_ck g c Hg weak fb e0 E1 He0 HE1 He0p HE1N). Qed.
Lemma enq_cq x d m : BBI x -> wp (journal_enqueue d m) x (cq g weak fb e0 E1).
Proof. intros H. by apply (enqueue_ck g c Hg weak fb e0 E1 He0 HE1 He0p HE1N). Qed.

Lemma raw_gc_SP s S Sd hv tv sv K D sk y : SPx s S Sd hv tv sv K D sk y -> (tv < hv -> good sk tv = true) ->
  (nj -> tv < hv -> badv (chip s) (tv / PB) = false) ->
  wp (raw_gc (ph tv)) s (fun o s' =>
    match o with
    | OK _ => exists s'', jn journal_dequeue s' = (OK tt, s'') /\ SP s'' S (y - 1)
    | ER e => (e = E_ECC /\ ~ nj) /\ SP s' S y
    | ST _ => True
    end).
Proof.
  intros HS Hgd Hgb. pose_geo. unfold raw_gc. pose proof (sp_m _ _ _ _ _ _ _ _ _ _ HS) as HM.
  pose proof (SPx_J _ _ _ _ _ _ _ _ _ _ HS) as Hj. pose proof (ji_order _ _ _ _ _ _ _ Hj) as Hord.
  assert (Htu : user tv) by apply HM.
  destruct (read_meta_any' g c Hg weak (m_js s) hv tv sv K D tv) as [(m & Em & Hm)|[Em Hjk]]; [apply HM|done| |].
  2:{ apply wp_bind. unfold jn. apply wp_zoom. unfold wp. rewrite Em. cbn. rewrite put_js_id.
      split; [|by exists Sd, hv, tv, sv, K, D, sk]. split; [done|]. intros Hnj. destruct Hjk as (Hgr & o & Hjk).
      destruct (Z.eq_dec tv hv) as [->|Hne]; [done|]. specialize (Hgb Hnj ltac:(lia)).
      apply (proj1 (sp_j _ _ _ _ _ _ _ _ _ _ HS Hnj)) in Hjk. rewrite (lem ph_blk), (proj2 (proj2 (lem cpv_facts tv))) in Hjk.
      unfold Inv.badv, chip in Hgb. congruence. }
  assert (Hread : forall t, id_ok t -> findp K (rootof s) t = Some (ph tv) -> t = meta_get_id m /\ exists d, K !! ph tv = Some (d, m)).
  { intros t Ht Ef. destruct (findp_Some _ _ _ _ _ (mi_rep _ _ _ _ _ _ _ _ _ _ _ HM) Ht Ef) as (E1' & [[d m'] E2] & _).
    pose proof (MI_reads g c Hg weak _ _ _ _ _ _ _ _ HM _ _ _ E2) as E3. rewrite Em in E3. injection E3 as <-.
    split; [|by exists d]. rewrite <-E1'. unfold kid, km. by rewrite E2. }
  eapply wp_bind_ok. { unfold jn, zoom. rewrite Em. rewrite put_js_id. reflexivity. }
  assert (Hstay : dead s K (ph tv) -> exists s'', jn journal_dequeue s = (OK tt, s'') /\ SP s'' S (y - 1)).
  { intros Hf. eapply dequeue_dead; eauto. }
  destruct (Z.eqb_spec (meta_get_id m) SECTOR_NONE) as [En|Hne].
  { apply wp_ret. apply Hstay. intros t Ht Ef.
    destruct (Hread _ Ht Ef) as [Et _]. rewrite Et, En in Ht. unfold id_ok, SECTOR_NONE in Ht. lia. }
  pose proof (get_id_range m) as Hidr.
  assert (Hid : id_ok (meta_get_id m)). { unfold id_ok. unfold SECTOR_NONE in *. lia. }
  destruct (trace_MI g c Hg weak _ _ _ _ _ _ _ _ (meta_get_id m) m HM ltac:(lia) Hm) as (nm & Et & Hp).
  eapply wp_bind_ok; [exact Et|]. cbn beta iota.
  destruct (findp K (rootof s) (meta_get_id m)) as [cur|] eqn:Ef; cbn beta iota.
  2:{ apply wp_ret. apply Hstay. intros t Ht E.
      destruct (Hread _ Ht E) as [-> _]. congruence. }
  destruct (Z.eqb_spec cur (ph tv)) as [->|Hcur]; cbn [negb].
  2:{ apply wp_ret. apply Hstay. intros t Ht E.
      destruct (Hread _ Ht E) as [-> _]. congruence. }
  clear Hstay.
  eapply wp_bind_ok; [reflexivity|].
  destruct (ck_SP _ _ _ _ _ _ _ _ _ _ (m_count s) HS) as (s1 & E1' & HS1 & Eck & Ec1 & Er1).
  eapply wp_bind_ok; [exact E1'|].
  destruct (Hread _ Hid Ef) as [_ [d HK]].
  pose proof (sp_m _ _ _ _ _ _ _ _ _ _ HS1) as HM1.
  assert (Hlt : tv < hv). { apply (K_at g c Hg _ _ _ _ _ _ _ _ Hj HK). eapply (win_hv g c Hg); [exact Hj|lia]. }
  specialize (Hgd Hlt).
  assert (Hkt : kid K (ph tv) = meta_get_id m). { unfold kid, km. by rewrite HK. }
  assert (Hlive : live K (rootof s1) tv = true). { apply live_true. rewrite Hkt, Er1. done. }
  eapply wp_mono.
  - eapply (append_SP s1 S Sd hv tv sv K D sk y (journal_copy (ph tv) nm) (fun x => x = d) False nm (fun _ => S)).
    + exact HS1.
    + apply Hp.
    + intros _ _. rewrite Eck, (sp_c _ _ _ _ _ _ _ _ _ _ HS). done.
    + intros x n -> Hn Hnr. eapply repr_reloc; [apply HM|exact Hp|exact Hid|exact Hn|exact Hnr|exact Ef|].
      unfold kdata. by rewrite HK.
    + eapply age_path; [apply HM|exact Hp].
    + eapply (copy_spec2 g c Hg weak Hdense); [apply HM1|exact HK|apply Hp].
    + apply f_jcopy.
    + apply bm_jcopy.
    + apply jcopy_bq, HS1.
    + apply jcopy_cq, HS1.
    + eapply (copy_J2 g c Hg weak), HM1.
    + intros d' n x p _ Hn Hnr Hx Hfx Hpn. rewrite Er1. eapply loc_path; [apply HM|exact Hp|exact Hid|exact Hn|exact Hnr|exact Hx|exact Hfx|exact Hpn].
  - intros o s2 (Eg & Ec & Ho). destruct o as [[]|e|x]; [| |done].
    2:{ destruct Ho as ([_ []] & _). }
    destruct Ho as (d' & hv' & sv' & D' & Sd' & sk' & -> & Hle & HKn & Er & HM' & [HBB HJ2] & Hsk' & Htv' & Hgr & Hsv).
    set (K' := <[ph hv':=(d, nm)]> K) in *.
    pose proof (mi_j _ _ _ _ _ _ _ _ _ _ _ HM') as [_ Hj' _ _]. pose proof (mi_rep _ _ _ _ _ _ _ _ _ _ _ HM') as Hrep'.
    assert (Hf' : forall t, id_ok t -> findp K' (rootof s2) t <> Some (ph tv)).
    { intros t Ht E. destruct (findp_Some _ _ _ _ _ Hrep' Ht E) as (E2 & _ & _).
      assert (Hne2 : ph hv' <> ph tv) by (intros E3; rewrite E3 in HKn; congruence).
      assert (E4 : kid K' (ph tv) = meta_get_id m).
      { unfold K', kid, km. rewrite lookup_insert_ne by done. by rewrite HK. }
      rewrite E4 in E2. subst t.
      pose proof (findp_root _ _ _ Hrep') as E5. rewrite Er in E5, E.
      assert (E6 : kid K' (ph hv') = meta_get_id m).
      { unfold K', kid, km. rewrite lookup_insert. cbn. apply Hp. }
      rewrite E6 in E5. rewrite E5 in E; [congruence|pose proof (ph_pn g c Hg hv'); lia|done]. }
    pose proof (nextv_gt c hv'). pose proof (nextv_gt c tv).
    destruct (dequeue_MI' g c Hg weak _ _ _ _ _ _ _ _ HM' ltac:(lia) Hf') as (s3 & E3 & Ea & Eb & Ec3 & Ed & Ee & sv3 & D3 & HM3 & Hsv3).
    exists s3. split; [done|]. exists Sd', (nextv hv'), (nextv tv), sv3, (delete (ph tv) K'), D3, sk'.
    pose proof (good_step sk tv Htu Hgd) as Hst.
    assert (Hnt : nextv tv <= hv). { apply (lem nextv_next); [apply Hj|done|lia]. }
    assert (HN' : cnt (good sk') (nextv tv) (nextv hv') = cnt (good sk) tv hv).
    { rewrite (grow_N _ _ _ _ _ _ _ (nextv tv) Hgr Hnt), (cnt_split (good sk) tv (nextv tv) hv) by lia. lia. }
    pose proof (sp_N _ _ _ _ _ _ _ _ _ _ HS) as HN. pose proof (lem slot_range (nextv hv')).
    pose proof (live_size _ _ _ _ _ _ _ hv Hj (SPx_rep _ _ _ _ _ _ _ _ _ _ HS) ltac:(lia)) as HL.
    pose proof (sp_sz _ _ _ _ _ _ _ _ _ _ HS) as HSz. pose proof (sp_y _ _ _ _ _ _ _ _ _ _ HS) as Hy.
    assert (HR2 : 2 <= R) by (unfold R; lia).
    split; rewrite ?Ea, ?Eb, ?Ec3, ?Ec, ?Ec1; auto.
    + apply HS.
    + eapply bsj_BBI; [|exact HBB]. pose proof (deq_bsj (m_js s2)) as Hb. unfold jn, zoom in E3.
      destruct (journal_dequeue (m_js s2)) as [o x]. injection E3 as -> <-. exact Hb.
    + lia.
    + intros Ha. destruct (lem nextv_blk tv Htu) as [[Ebk _]|(_ & Ebk & _)]; [|done]. rewrite Ebk.
      assert (Hgt' : good sk' tv = true) by (rewrite (gr_gd _ _ _ _ _ _ _ Hgr tv Hlt); done).
      unfold good in Hgt'. apply andb_prop in Hgt' as [_ Hgt']. by apply negb_true_iff in Hgt'.
    + intros ->. exfalso. assert (Hs : is_Some (findp K (rootof s) (meta_get_id m))) by (rewrite Ef; by eexists).
      apply (findp_iff _ _ _ _ (SPx_rep _ _ _ _ _ _ _ _ _ _ HS) Hid) in Hs. rewrite lookup_empty in Hs. by destruct Hs.
    + eapply pot_lf; [lia| |].
      * intros v Hv. rewrite Ee. eapply live_del; [exact Hj'|exact Hrep'|exact Hf'].
      * rewrite Er. eapply pot_mono; [|eapply (pot_reloc R HR2); [exact Hgr| |exact Hst|exact Hlive| |exact (sp_pot _ _ _ _ _ _ _ _ _ _ HS1)]].
        -- rewrite HN', Er1. unfold F. nia.
        -- lia.
        -- destruct (live K' (ph hv') tv) eqn:E; [|done]. exfalso. apply live_true in E as [Hi E]. rewrite <-Er in E. by eapply Hf'.
    + destruct Hsv as [(-> & Hsl & Hdi)|(-> & Hsl & Hdi & _)]; rewrite Hdi in Hsv3; rewrite Hsv3.
      * rewrite (grow_N _ _ _ _ _ _ _ sv Hgr) by lia. pose proof (sp_syn _ _ _ _ _ _ _ _ _ _ HS). lia.
      * lia.
    + rewrite Ed. intros Hdf. destruct Hsv as [(_ & _ & Hdi)|(-> & Hsl & Hdi & -> & Hck1)]; [congruence|].
      eapply (HQ s2 S (nextv hv') tv K' D' sk'); auto.
      * intros ->. exfalso. assert (Hs : is_Some (findp K (rootof s) (meta_get_id m))) by (rewrite Ef; by eexists).
        apply (findp_iff _ _ _ _ (SPx_rep _ _ _ _ _ _ _ _ _ _ HS) Hid) in Hs. rewrite lookup_empty in Hs. by destruct Hs.
      * rewrite Er. eapply pot_mono; [|eapply (pot_copy R HR2); [exact Hgr|exact Hlt|exact Hlive| |exact (sp_pot _ _ _ _ _ _ _ _ _ _ HS1)]].
        -- rewrite Er1. pose proof F_le. unfold F in *. nia.
        -- destruct (live K' (ph hv') tv) eqn:E; [|done]. exfalso. apply live_true in E as [Hi E]. rewrite <-Er in E. by eapply Hf'.
    + intros Hnj. eapply (deq_J2 s2 s3); [exact Htu|apply HM3|exact Ea|by apply HJ2|].
      assert (HK2 : K' !! ph tv = Some (d, m)).
      { unfold K'. rewrite lookup_insert_ne; [done|]. intros E9. rewrite E9 in HKn. congruence. }
      destruct (ji_K _ _ _ _ _ _ _ Hj' _ _ _ HK2) as (w & [] & _). pose proof (ji_order _ _ _ _ _ _ _ Hj').
      assert (w = tv) as ->; [|done]. apply (lem win_page (nextv hv' / PB)); [| |done]; eapply (win_hv g c Hg); eauto; lia.
Qed.

Lemma norec e fuel s : e <> E_RECOVER -> try_recover fuel e s = (ER e, s).
Proof. intros H. unfold try_recover. by rewrite decide_True. Qed.

Definition gpost (S : contents) (y y' : Z) {A} (o : out A) (s' : ms) : Prop :=
  match o with
  | OK _ => SP s' S y'
  | ER e => (e = E_ECC /\ ~ nj) /\ SP s' S y
  | ST _ => True
  end.

Lemma F_nonneg s S y : SP s S y -> 0 <= F.
Proof. intros (Sd & hv & tv & sv & K & D & sk & HS). unfold F. pose proof (sp_sz _ _ _ _ _ _ _ _ _ _ HS). assert (2 <= R) by (unfold R; lia). nia. Qed.
(** A journal with at most one page. *)
Lemma SP_few s S Sd hv tv sv K D sk y y' : SPx s S Sd hv tv sv K D sk y -> cnt (good sk) tv hv <= 1 -> R * X - R <= y' <= R * X ->
  SPx s S Sd hv tv sv K D sk y'.
Proof.
  intros HS Hn Hy. pose proof HS as []. split; auto; [lia|].
  eapply pot_mono; [|eapply (few_pot _ _ _ _ _ _ _ _ 1); [by eapply SPx_J|by eapply SPx_rep|intros b Hb; by apply sp_sk0|done]].
  assert (2 <= R) by (unfold R; lia). nia.
Qed.
Lemma gc_loop_SP n fuel s S y : SP s S y -> wp (map_gc_loop (Datatypes.S n) fuel) s (gpost S y (y - 1)).
Proof.
  intros (Sd & hv & tv & sv & K & D & sk & HS). cbn [map_gc_loop].
  destruct (peek_SP _ _ _ _ _ _ _ _ _ _ HS) as (s1 & tv1 & E1' & Hle & HS1 & Hgd & Hgb).
  eapply wp_bind_ok; [exact E1'|]. clear E1'.
  destruct (Z.eqb_spec tv hv) as [->|Hne].
  { rewrite Z.eqb_refl. apply wp_ret. exists Sd, hv, tv1, sv, K, D, sk.
    assert (tv1 = hv) as -> by lia. pose proof HS1 as []. split; auto; [lia|].
    assert (0 <= F) by (eapply F_nonneg; by exists Sd, hv, hv, sv, K, D, sk).
    eapply pot_mono; [|eapply (few_pot _ _ _ _ _ _ _ _ 0); [by eapply SPx_J|by eapply SPx_rep|intros b Hb; by apply sp_sk0|rewrite cnt_empty; lia]]. lia. }
  destruct (Z.eqb_spec (ph tv1) PAGE_NONE) as [E|_]; [pose proof (ph_pn g c Hg tv1); lia|].
  apply wp_bind, wp_attempt.
  eapply wp_mono; [apply (raw_gc_SP _ _ _ _ _ _ _ _ _ _ HS1 Hgd Hgb)|].
  intros o s2 Ho. destruct o as [[]|e|x]; [| |done].
  - destruct Ho as (s3 & E3 & HS3). unfold wp. rewrite E3. done.
  - destruct Ho as ([-> Hnj] & HS2). apply wp_bind. unfold wp. rewrite norec by done. done.
Qed.
Lemma map_gc_SP fuel s S y : (1 <= fuel)%nat -> SP s S y -> 
  wp (map_gc fuel) s (fun o s' => match o with OK _ => SP s' S (y - 1) \/ (S = ∅ /\ s' = s) | ER e => (e = E_ECC /\ ~ nj) /\ SP s' S y | ST _ => True end).
Proof.
  intros Hf HS. unfold map_gc. apply wp_bind, wp_gets.
  destruct (Z.eqb_spec (m_count s) 0) as [E|E].
  - apply wp_ret. right. split; [|done]. destruct HS as (Sd & hv & tv & sv & K & D & sk & HS).
    rewrite (sp_c _ _ _ _ _ _ _ _ _ _ HS) in E. by apply size0.
  - destruct fuel as [|n]; [lia|]. eapply wp_mono; [by apply gc_loop_SP|].
    intros o s' Ho. destruct o; [by left|done|done].
Qed.
Lemma repeat_gc_SP i fuel : (1 <= fuel)%nat -> forall s S y, SP s S y ->
  wp (repeat_gc i fuel) s (fun o s' => match o with OK _ => SP s' S (y - Z.of_nat i) \/ (S = ∅ /\ SP s' S y) | ER e => (e = E_ECC /\ ~ nj) /\ SP s' S y | ST _ => True end).
Proof.
  intros Hf. induction i as [|i IH]; intros s S y HS; cbn [repeat_gc].
  { apply wp_ret. left. by replace (y - Z.of_nat 0) with y by lia. }
  assert (Hm : forall z k s', 0 <= k -> z + k = y -> SP s' S z -> SP s' S y).
  { intros z k s' Hk Hz (Sd & hv & tv & sv & K & D & sk & HS'). exists Sd, hv, tv, sv, K, D, sk.
    eapply SPx_mono; [|exact HS']. destruct HS as (?&?&?&?&?&?&?&[]). lia. }
  apply wp_bind. eapply wp_mono; [by apply map_gc_SP|]. intros o s2 Ho. destruct o as [[]|e|x]; [|done|done].
  destruct Ho as [Ho|[-> ->]].
  - eapply wp_mono; [by apply IH|]. intros o s3 Hx3. destruct o as [[]|e|x]; [|destruct Hx3 as [He3 Hx3]; split; [done|]|done].
    + destruct Hx3 as [Hx3|[-> Hx3]]; [left; by replace (y - Z.of_nat (Datatypes.S i)) with (y - 1 - Z.of_nat i) by lia|].
      right. split; [done|]. eapply (Hm _ 1); [lia| |exact Hx3]. lia.
    + eapply (Hm _ 1); [lia| |exact Hx3]. lia.
  - eapply wp_mono; [by apply IH|]. intros o s3 Hx3. destruct o as [[]|e|x]; [|done|done]. right. split; [done|].
    destruct Hx3 as [Hx3|[_ Hx3]]; [|done]. eapply (Hm _ (Z.of_nat i)); [lia| |exact Hx3]. lia.
Qed.

Lemma auto_gc_SP fuel s S : (1 <= fuel)%nat -> SP s S (R * X) -> wp (auto_gc fuel) s (gpost S (R * X) (R * X - R)).
Proof.
  intros Hf HSP. pose proof HSP as (Sd & hv & tv & sv & K & D & sk & HS). unfold auto_gc. apply wp_bind, wp_gets.
  assert (HR2 : 2 <= R) by (unfold R; lia). pose proof F_le as HF. pose proof Mx_X as HMX.
  destruct (Z.ltb_spec (journal_size (n_geo (js_n (m_js s))) (js_j (m_js s))) (map_capacity s)) as [Hs|Hs].
  - apply wp_ret. exists Sd, hv, tv, sv, K, D, sk. pose proof HS as []. split; auto; [lia|].
    pose proof (map_capacity_bb g c Hg weak fb e0 E1 HE1 He0p HE1N r Hr s sp_bb0 sp_r0) as Hcap.
    pose proof (SPx_J _ _ _ _ _ _ _ _ _ _ HS) as Hj. pose proof (ji_order _ _ _ _ _ _ _ Hj) as Hord.
    pose proof (mi_j _ _ _ _ _ _ _ _ _ _ _ sp_m0) as [Hn _ _ _].
    rewrite (nk_geo _ _ _ Hn), (jsize_JInv g c Hg _ _ _ _ _ Hj) in Hs.
    assert (HN : cnt (good sk) tv hv <= Mx).
    { etrans; [apply (cnt_sub _ tv hv sv hv); lia|].
      etrans; [apply (cnt_le _ usr)|].
      - intros v _ Hv. unfold good in Hv. by apply andb_prop in Hv as [? _].
      - rewrite cnt_usr_ups by (first [apply Hj|lia]). unfold ups. lia. }
    pose proof (cnt_nonneg (good sk) tv hv).
    eapply pot_mono; [|eapply (few_pot _ _ _ _ _ _ _ _ Mx); [exact Hj|by eapply SPx_rep|intros b Hb; by apply sp_sk0|exact HN]].
    unfold F. nia.
  - apply wp_bind, wp_gets. eapply wp_mono; [by apply repeat_gc_SP|]. intros o s2 Ho.
    destruct o as [[]|e|x]; [|done|done]. cbn.
    destruct Ho as [Ho|[-> (Sd2 & hv2 & tv2 & sv2 & K2 & D2 & sk2 & HS2)]].
    + rewrite (sp_r _ _ _ _ _ _ _ _ _ _ HS) in Ho. replace (R * X - R) with (R * X - Z.of_nat (Datatypes.S (Z.to_nat r))); [done|]. unfold R. lia.
    + exists Sd2, hv2, tv2, sv2, K2, D2, sk2. eapply SP_few; [exact HS2|by apply HS2|lia].
Qed.

(** After an append that belongs to a write or a trim. *)
Lemma app_done s s' S Sd hv tv sv K D sk K' S' Sd' hv' sv' D' sk' : SPx s S Sd hv tv sv K D sk (R * X - R) ->
  MI s' S' Sd' hv' tv sv' K' D' -> m_count s' = Z.of_nat (size S') -> Z.of_nat (size S') <= Mx -> S' <> ∅ -> m_gcr s' = r -> BBI (m_js s') /\ (nj -> J2 (m_js s')) ->
  (forall b, sk' b = true -> b < hv' / PB /\ badv (chip s') b = true) -> (tv mod PB <> 0 -> sk' (tv / PB) = false) ->
  grow (good sk) (live K (rootof s)) (good sk') (live K' (rootof s')) tv hv hv' ->
  ((sv' = sv /\ hv mod PC < hv' mod PC /\ dirtyof s' = true) \/ (sv' = tv /\ hv' mod PC = 0 /\ dirtyof s' = false /\ Sd' = S' /\ ck1 s' hv' tv K' D')) ->
  SP s' S' (R * X).
Proof.
  intros HS HM' Hc Hsz HE Hgr [HB HJ2] Hsk Htv Hgw Hsv. exists Sd', hv', tv, sv', K', D', sk'.
  pose proof (SPx_J _ _ _ _ _ _ _ _ _ _ HS) as Hj. pose proof (ji_order _ _ _ _ _ _ _ Hj) as Hord.
  assert (HR2 : 2 <= R) by (unfold R; lia). pose proof F_le as HF.
  pose proof (sp_N _ _ _ _ _ _ _ _ _ _ HS) as HN.
  pose proof (live_size _ _ _ _ _ _ _ hv Hj (SPx_rep _ _ _ _ _ _ _ _ _ _ HS) ltac:(lia)) as HL.
  pose proof (sp_sz _ _ _ _ _ _ _ _ _ _ HS) as HSz.
  assert (Hpot : pot R (good sk') (live K' (rootof s')) tv hv' (R * X)).
  { eapply pot_mono; [|eapply (pot_app R HR2); [exact Hgw|exact (sp_pot _ _ _ _ _ _ _ _ _ _ HS)]]. nia. }
  split; auto; try lia; [done| | |].
  - eapply pot_mono; [|exact Hpot]. lia.
  - destruct Hsv as [(-> & Hsl & _)|(-> & Hsl & _)].
    + rewrite (grow_N _ _ _ _ _ _ _ sv Hgw) by lia. pose proof (sp_syn _ _ _ _ _ _ _ _ _ _ HS). lia.
    + assert (Hy0 : 0 <= R * X) by nia. pose proof (pot_N R ltac:(lia) _ _ _ _ _ Hy0 Hpot). nia.
  - intros Hdf. destruct Hsv as [(_ & _ & Hdi)|(-> & _ & _ & -> & Hck1)]; [congruence|].
    eapply (HQ s' S' hv' tv K' D' sk'); auto. done.
Qed.
Lemma ck1_count k s hv tv K D : ck1 s hv tv K D -> ck1 (set_count k s) hv tv K D.
Proof. by intros []. Qed.
Lemma SPx_count s S Sd hv tv sv K D sk y : SPx s S Sd hv tv sv K D sk y -> SPx (set_count (m_count s) s) S Sd hv tv sv K D sk y.
Proof. by destruct s. Qed.

Definition spost (np : Prop) (S : contents) {A} (o : out A) (s' : ms) : Prop :=
  match o with
  | OK _ => exists S', SP s' S' (R * X)
  | ER e => (e <> E_JOURNAL_FULL /\ (e = E_MAP_FULL -> mcap E1 <= Z.of_nat (size S)) /\ (e = E_ECC -> nj -> np)) /\ exists S', SP s' S' (R * X)
  | ST _ => True
  end.

(** ** Clear *)
Lemma clear_SP s S Sd hv tv sv K D sk y : SPx s S Sd hv tv sv K D sk y ->
  exists s', jn journal_clear (set_count 0 s) = (OK tt, s') /\ SP s' ∅ (R * X).
Proof.
  intros HS. pose proof (sp_m _ _ _ _ _ _ _ _ _ _ HS) as [HJ Hrep Hd Hcl Hgc Hag].
  destruct (clear_spec g c Hg weak _ _ _ _ _ _ HJ) as (x & E & HJ' & Er & En & Edd).
  unfold jn, zoom. cbn [m_js set_count]. pose proof (clear_bsj (m_js s)) as Hb. rewrite E in Hb |- *. eexists. split; [reflexivity|].
  exists Sd, hv, hv, sv, ∅, D, sk. assert (HR2 : 2 <= R) by (unfold R; lia). pose proof F_le as HF.
  pose proof (F_nonneg s S y ltac:(by exists Sd, hv, tv, sv, K, D, sk)) as HF0.
  pose proof (sp_N _ _ _ _ _ _ _ _ _ _ HS). pose proof (sp_sz _ _ _ _ _ _ _ _ _ _ HS) as Hsz.
  assert (Hrep' : repr ∅ (rootof (put_js x (set_count 0 s))) ∅).
  { cbn [m_js put_js]. rewrite Er. apply repr_clear. }
  pose proof HS as []. split; cbn [m_js m_gcr m_count put_js set_count]; auto.
  - split; cbn [m_js m_gcr put_js set_count]; [done|done|done| |done|].
    + intros. congruence.
    + rewrite Er. apply age_none.
  - rewrite map_size_empty. lia.
  - by eapply bsj_BBI.
  - lia.
  - intros b Hb'. unfold chip. cbn [m_js put_js]. rewrite En. by apply sp_sk0.
  - intros Ha. destruct (sk (hv / PB)) eqn:Es; [|done]. destruct (sp_sk0 _ Es). lia.
  - intros _. rewrite cnt_empty; lia.
  - eapply pot_mono; [|eapply (few_pot _ _ _ _ _ _ _ _ 0); [apply HJ'|exact Hrep'|intros b Hb'; rewrite En; by apply sp_sk0|rewrite cnt_empty; lia]]. lia.
  - intros. congruence.
  - intros Hnj. split; [rewrite En; apply (sp_j0 Hnj)|]. apply (TB_TI g c Hg hv); [apply HJ'|].
    intros Ha. rewrite En. destruct (ji_free _ _ _ _ _ _ _ (JI_j _ _ _ _ _ _ _ _ _ HJ)) as [Hb0 _]; [done|exact Hb0].
Qed.

(** ** Writing *)
Definition appS (app : bytes -> MJ unit) (P : bytes -> Prop) (ecc : Prop) : Prop := forall nm, blen nm = META_SIZE ->
  (forall hv tv sv K D x, JI x hv tv sv K D -> wp (app nm) x (app_post hv tv sv K D x P ecc nm)) /\
  fl nf (app nm) /\ (forall x, bmono (js_n x) (js_n (snd (app nm x)))) /\
  (forall x, BBI x -> wp (app nm) x (bq g c weak fb e0 E1 false)) /\ (forall x, BBI x -> wp (app nm) x (cq g weak fb e0 E1)) /\
  (forall hv tv sv K D x, JI x hv tv sv K D -> J2 x -> wp (app nm) x (fin g)).
Definition wspost (np : Prop) (S : contents) (dst : Z) {A} (o : out A) (s' : ms) : Prop :=
  match o with
  | OK _ => exists S', SP s' S' (R * X)
  | ER e => ((e = E_ECC /\ (nj -> np)) \/ (e = E_MAP_FULL /\ S !! dst = None /\ mcap E1 <= Z.of_nat (size S))) /\ SP s' S (R * X)
  | ST _ => True
  end.
Lemma wspost_s np S dst A (o : out A) s' : wspost np S dst o s' -> spost np S o s'.
Proof.
  destruct o as [a|e|x]; cbn; [done| |done]. intros [He HS]. split; [|by eexists].
  destruct He as [[-> ?]|(-> & _ & ?)]; done.
Qed.
Lemma cap_bb s : BBI (m_js s) -> m_gcr s = r -> mcap E1 <= map_capacity s <= Mx.
Proof.
  intros HB Er. pose proof (map_capacity_bb g c Hg weak fb e0 E1 HE1 He0p HE1N r Hr s HB Er). lia.
Qed.
Lemma write_SP n fuel s S dst app P ecc : (1 <= fuel)%nat -> SP s S (R * X) -> id_ok dst -> appS app P ecc ->
  wp (write_loop (Datatypes.S n) fuel dst app) s (wspost ecc S dst).
Proof.
  intros Hf HSP Hid Happ. cbn [write_loop]. apply wp_bind, wp_gets.
  apply wp_bind. unfold prepare_write. apply wp_bind.
  assert (Hc0 : m_count s = Z.of_nat (size S)) by (destruct HSP as (?&?&?&?&?&?&?&[]); done).
  assert (HR2 : 2 <= R) by (unfold R; lia).
  eapply wp_mono; [by apply auto_gc_SP|]. intros o s1 Ho. destruct o as [[]|e|x]; [| |done].
  2:{ destruct Ho as [[-> Hnj] HS1]. split; [by left|done]. }
  destruct Ho as (Sd & hv & tv & sv & K & D & sk & HS1).
  pose proof (sp_m _ _ _ _ _ _ _ _ _ _ HS1) as HM1. pose proof (sp_c _ _ _ _ _ _ _ _ _ _ HS1) as Hc1.
  pose proof (cap_bb s1 (sp_bb _ _ _ _ _ _ _ _ _ _ HS1) (sp_r _ _ _ _ _ _ _ _ _ _ HS1)) as Hcap.
  pose proof (sp_sz _ _ _ _ _ _ _ _ _ _ HS1) as Hsz1.
  assert (Hul : blen uninit_meta = META_SIZE) by done.
  assert (0 <= dst < 2 ^ 32) as Hdr by (unfold id_ok, SECTOR_NONE in Hid; lia).
  destruct (trace_MI g c Hg weak _ _ _ _ _ _ _ _ dst uninit_meta HM1 Hdr Hul) as (nm & Et & Hp).
  eapply wp_bind_ok; [exact Et|]. cbn [fst snd].
  pose proof (mi_rep _ _ _ _ _ _ _ _ _ _ _ HM1) as Hrep.
  destruct (Happ nm ltac:(apply Hp)) as (Ha1 & Ha2 & Ha3 & Ha4 & Ha5 & Ha6).
  assert (Hmid : forall k, (forall d : bytes, k = Z.of_nat (size (<[dst:=d]> S)) /\ Z.of_nat (size (<[dst:=d]> S)) <= Mx) ->
    wp (let! cnt := gets m_count in ck_set_count cnt;;; ret nm) (set_count k s1)
      (fun o s' => match o with
       | OK a => wp (let! r := attempt (jn (app a)) in
           match r with
           | inr _ => ret tt
           | inl my_err => modify (set_count (m_count s));;; try_recover fuel my_err;;; write_loop n fuel dst app
           end) s' (wspost ecc S dst)
       | ER e => wspost ecc S dst (ER e : out unit) s'
       | ST x => wspost ecc S dst (ST x : out unit) s'
       end)).
  { intros k Hk. apply wp_bind, wp_gets. cbn [m_count set_count].
    (* the counter plays no part in the append *)
    destruct (ck_SP _ _ _ _ _ _ _ _ _ _ k HS1) as (s3 & E3 & HS3 & Eck & Ec3 & Er3).
    assert (E3' : ck_set_count k (set_count k s1) = (OK tt, set_count k s3)).
    { revert E3. unfold ck_set_count, jn, zoom. cbn [m_js set_count]. destruct (cookie_put (w32_bytes k) (m_js s1)) as [o x].
      intros [= -> <-]. done. }
    eapply wp_bind_ok; [exact E3'|]. apply wp_ret, wp_bind, wp_attempt.
    assert (Hjn : forall Q0 : out unit -> ms -> Prop, wp (jn (app nm)) s3 (fun o s' => Q0 o (set_count k s')) -> wp (jn (app nm)) (set_count k s3) Q0).
    { intros Q0. unfold wp, jn, zoom. cbn [m_js set_count]. by destruct (app nm (m_js s3)). }
    apply Hjn. eapply wp_mono.
    - eapply (append_SP s3 S Sd hv tv sv K D sk (R * X - R) (app nm) P ecc nm (fun d => <[dst:=d]> S)); [exact HS3| | | | | | | | | | |].
      + apply Hp.
      + intros d _. rewrite Eck. unfold szc. f_equal. apply Hk.
      + intros d n0 _ HKn Hnr. eapply repr_insert; eauto.
      + eapply age_path; [apply HM1|exact Hp].
      + apply Ha1. apply HS3.
      + exact Ha2.
      + exact Ha3.
      + apply Ha4, HS3.
      + apply Ha5, HS3.
      + eapply Ha6, HS3.
      + intros d n0 x p _ Hn Hnr Hx Hfx Hpn. rewrite Er3. eapply loc_path; [exact Hrep|exact Hp|exact Hid|exact Hn|exact Hnr|exact Hx|exact Hfx|exact Hpn].
    - intros o s4 (Eg4 & Ec4 & Ho). destruct o as [[]|e|x]; [| |done].
      + destruct Ho as (d & hv' & sv' & D' & Sd' & sk' & HP & Hle & HKn & Er & HM' & [HBB HJ2] & Hsk' & Htv' & Hgr & Hsv).
        destruct (Hk d) as [Hk1 Hk2].
        apply wp_ret. exists (<[dst:=d]> S).
        eapply (app_done s3 (set_count k s4)); [exact HS3| | |exact Hk2|apply insert_non_empty| | | |exact Htv'| |].
        * apply MI_count. exact HM'.
        * exact Hk1.
        * exact Eg4.
        * by split.
        * exact Hsk'.
        * cbn [m_js set_count]. rewrite Er. exact Hgr.
        * destruct Hsv as [?|(?&?&?&?&?)]; [by left|]. right. split_and!; auto. by apply ck1_count.
      + destruct Ho as ([-> Hecc] & _ & hv' & sk' & HS4).
        apply wp_bind, wp_modify, wp_bind. unfold wp. rewrite norec by done. cbn [fst snd]. split; [by left|].
        exists Sd, hv', tv, sv, K, D, sk'.
        assert (E4 : set_count (m_count s) (set_count k s4) = s4).
        { assert (E4 : m_count s = m_count s4) by (rewrite Ec4, Ec3, Hc1; exact Hc0). rewrite E4. clear. by destruct s4. }
        rewrite E4. eapply SPx_mono; [|exact HS4]. lia. }
  destruct (findp K (rootof s1) dst) as [cur|] eqn:Ef.
  - eapply wp_bind_ok; [reflexivity|].
    assert (E : set_count (Z.of_nat (size S)) s1 = s1) by (rewrite <-Hc1; by destruct s1).
    rewrite <-E. apply Hmid.
    intros d. destruct (proj1 (findp_iff _ _ _ _ Hrep Hid)) as [d0 Hd0]; [by eexists|].
    erewrite map_size_insert_Some by done. done.
  - pose proof (findp_None _ _ _ _ Hrep Ef) as HSn. pose proof (capacity_lt s1).
    apply wp_bind, wp_bind, wp_gets. destruct (Z.leb_spec (map_capacity s1) (m_count s1)) as [Hfull|Hfull].
    + apply wp_fail. split; [right; split; [done|split; [done|lia]]|].
      exists Sd, hv, tv, sv, K, D, sk. eapply SPx_mono; [|exact HS1]. lia.
    + apply wp_modify. apply Hmid. intros d. 
      rewrite map_size_insert_None by done. rewrite w32_small by lia. lia.
Qed.

Lemma map_write_SP fuel s S t d : (1 <= fuel)%nat -> SP s S (R * X) -> id_ok t -> blen d = page_size g ->
  wp (map_write fuel t d) s (wspost False S t).
Proof.
  intros Hf HM Hid Hd. unfold map_write. destruct fuel as [|n]; [lia|].
  eapply (write_SP _ _ _ _ _ _ (fun x => x = d) False); auto.
  intros nm Hnm. split_and!.
  - intros hv tv sv K D x HJ. by apply (enqueue_data_spec2 g c Hg weak Hdense).
  - apply f_enqueue.
  - apply bm_enqueue.
  - intros x Hx. by apply enq_bq.
  - intros x Hx. by apply enq_cq.
  - intros hv tv sv K D x HJ. by eapply (enqueue_J2 g c Hg weak).
Qed.
Lemma map_copy_page_SP fuel s S p t : (1 <= fuel)%nat -> SP s S (R * X) -> id_ok t -> 0 <= p < TT ->
  wp (map_copy_page fuel p t) s (wspost True S t).
Proof.
  intros Hf HM Hid Hd. unfold map_copy_page. destruct fuel as [|n]; [lia|].
  eapply (write_SP _ _ _ _ _ _ (fun x => blen x = page_size g) True); auto.
  intros nm Hnm. split_and!.
  - intros hv tv sv K D x HJ. eapply wp_mono; [by apply (copy_any_spec2 g c Hg weak Hdense p)|].
    intros o x' Ho. unfold StepA.app_post2, StepA.app_post in *. destruct o as [[]|e|y]; [|done|].
    + destruct Ho as (hv' & d & _ & Hdl & H). by exists hv', d.
    + destruct Ho as (-> & Ho). split; [done|]. destruct Ho as [?|(hv' & d & _ & Hdl & H)]; [by left|right; by exists hv', d].
  - apply f_jcopy.
  - apply bm_jcopy.
  - intros x Hx. by apply jcopy_bq.
  - intros x Hx. by apply jcopy_cq.
  - intros hv tv sv K D x HJ. by eapply (copy_J2 g c Hg weak).
Qed.

(** ** Trimming *)
Lemma trim_SP n fuel s S t : (1 <= fuel)%nat -> SP s S (R * X) -> 0 <= t < 2 ^ 32 ->
  wp (trim_loop (Datatypes.S n) fuel t) s (spost False S).
Proof.
  intros Hf HSP Ht. cbn [trim_loop]. apply wp_bind.
  assert (HR2 : 2 <= R) by (unfold R; lia).
  eapply wp_mono; [by apply auto_gc_SP|]. intros o s1 Ho. destruct o as [[]|e|x]; [| |done].
  2:{ destruct Ho as [[-> Hnj] HS1]. split; [|by exists S]. split_and!; [done|done|]. intros _ Hx. by apply Hnj. }
  destruct Ho as (Sd & hv & tv & sv & K & D & sk & HS1).
  pose proof (sp_m _ _ _ _ _ _ _ _ _ _ HS1) as HM1. pose proof (sp_c _ _ _ _ _ _ _ _ _ _ HS1) as Hc1.
  pose proof (sp_sz _ _ _ _ _ _ _ _ _ _ HS1) as Hsz1.
  pose proof (sp_r _ _ _ _ _ _ _ _ _ _ HS1) as Hr1.
  apply wp_bind, wp_attempt. unfold try_delete.
  assert (Hul : blen uninit_meta = META_SIZE) by done.
  destruct (trace_MI g c Hg weak _ _ _ _ _ _ _ _ t uninit_meta HM1 Ht Hul) as (nm & Et & Hp).
  eapply wp_bind_ok; [exact Et|]. cbn beta iota.
  pose proof (mi_rep _ _ _ _ _ _ _ _ _ _ _ HM1) as Hrep.
  destruct (findp K (rootof s1) t) as [cur|] eqn:Ef; cbn beta iota.
  2:{ apply wp_ret. apply wp_ret. exists S. exists Sd, hv, tv, sv, K, D, sk. eapply SPx_mono; [|exact HS1]. lia. }
  pose proof (findp_spec_id _ _ _ _ _ Hrep Ht Ef) as Hid.
  destruct (proj1 (findp_iff _ _ _ _ Hrep Hid)) as [d0 Hd0]; [by eexists|].
  assert (Hsz : size (delete t S) = pred (size S)) by (by eapply map_size_delete_Some).
  assert (Hpos : size S <> 0%nat).
  { intros E. apply map_size_empty_iff in E. subst S. by rewrite lookup_empty in Hd0. }
  pose proof (repr_size _ _ _ Hrep) as Hsz2.
  destruct (find_cousin 32 nm) as [[level q]|] eqn:Efc.
  - destruct (repr_delete _ _ _ _ _ _ _ Hrep Hp Hid Efc) as (dq & mq & HK & Hdl & Hins).
    pose proof (MI_reads g c Hg weak _ _ _ _ _ _ _ _ HM1 _ _ _ HK) as Erd.
    eapply wp_bind_ok. { unfold jn, zoom. rewrite Erd, put_js_id. reflexivity. }
    fold (del_meta nm mq level).
    eapply wp_bind_ok; [reflexivity|].
    destruct (ck_SP _ _ _ _ _ _ _ _ _ _ (w32 (m_count s1 - 1)) HS1) as (s3 & E3 & HS3 & Eck & Ec3 & Er3).
    eapply wp_bind_ok; [exact E3|]. apply wp_bind.
    assert (Hw : w32 (m_count s1 - 1) = Z.of_nat (size (delete t S))).
    { rewrite Hc1, Hsz, w32_small by lia. lia. }
    eapply wp_mono.
    + eapply (append_SP s3 S Sd hv tv sv K D sk (R * X - R) (journal_copy q (del_meta nm mq level)) (fun x => x = dq) False (del_meta nm mq level) (fun _ => delete t S)); [exact HS3|exact Hdl| | | | | | | | | |].
      * intros _ _. by rewrite Eck, Hw.
      * intros x n0 ->. apply Hins.
      * intros H0 d' v' -> Hv' HKn. destruct (age_use _ _ _ _ _ (mi_age _ _ _ _ _ _ _ _ _ _ _ HM1) H0) as (v & Hv & Hr0).
        eapply (aged_delete ph tv K (rootof s1) S t nm level q v); [exact Hrep|exact Hp|exact Hid|exact Efc|exact Hr0|exact HK|exact HKn|lia].
      * eapply (copy_spec2 g c Hg weak Hdense); [apply HS3|exact HK|done].
      * apply f_jcopy.
      * apply bm_jcopy.
      * apply jcopy_bq, HS3.
      * apply jcopy_cq, HS3.
      * eapply (copy_J2 g c Hg weak), HS3.
      * intros d' n0 x p -> HKn Hnr Hx Hfx Hpn. rewrite Er3.
        eapply loc_del; [exact Hrep|exact Hp|exact Hid|exact Efc|exact HK|exact HKn|exact Hnr|exact Hx|exact Hfx|exact Hpn].
    + intros o s4 (Eg4 & Ec4 & Ho). destruct o as [[]|e|x]; [| |done].
      * destruct Ho as (d & hv' & sv' & D' & Sd' & sk' & -> & Hle & HKn & Er & HM' & [HBB HJ2] & Hsk' & Htv' & Hgr & Hsv).
        apply wp_modify. apply wp_ret. exists (delete t S).
        eapply (app_done s3 (set_count _ s4)); [exact HS3| | | | | | | |exact Htv'| |].
        -- apply MI_count. exact HM'.
        -- cbn [m_count set_count]. by rewrite Ec4, Ec3.
        -- lia.
        -- pose proof (ph_pn g c Hg hv') as Hpn.
           pose proof (mi_rep _ _ _ _ _ _ _ _ _ _ _ HM') as Hrp. rewrite Er in Hrp.
           eapply root_ne; [exact Hrp|exact Hpn|]. eapply (del_id K (rootof s1) S t nm level q dq mq); [exact Hrep|exact Hp|exact Hid|exact Efc|exact HK].
        -- exact Eg4.
        -- by split.
        -- exact Hsk'.
        -- cbn [m_js set_count]. rewrite Er. exact Hgr.
        -- destruct Hsv as [?|(?&?&?&?&?)]; [by left|]. right. split_and!; auto. by apply ck1_count.
      * destruct Ho as ([_ []] & _).
  - apply wp_bind, wp_modify. destruct (clear_SP _ _ _ _ _ _ _ _ _ _ HS1) as (s' & E & HS').
    unfold wp at 1. rewrite E. cbn [fst snd]. apply wp_ret. by exists ∅.
Qed.
Lemma map_trim_SP fuel s S t : (1 <= fuel)%nat -> SP s S (R * X) -> 0 <= t < 2 ^ 32 ->
  wp (map_trim fuel t) s (spost False S).
Proof. intros Hf HSP Ht. unfold map_trim. destruct fuel as [|n]; [lia|]. by eapply trim_SP. Qed.

(** ** Sync *)
Lemma pad_SP s S Sd hv sv K D sk : SPx s S Sd hv hv sv K D sk (R * X) ->
  wp pad_queue s (fun o s' => match o with OK _ => SP s' S (R * X) | ER e => (e = E_ECC /\ ~ nj) /\ SP s' S (R * X) | ST _ => True end).
Proof.
  intros HS. pose proof (sp_m _ _ _ _ _ _ _ _ _ _ HS) as HM. pose proof (SPx_J _ _ _ _ _ _ _ _ _ _ HS) as Hj.
  assert (HR2 : 2 <= R) by (unfold R; lia).
  pose proof (mi_rep _ _ _ _ _ _ _ _ _ _ _ HM) as Hrep.
  assert (HE : S = ∅) by (eapply empty_S; eauto).
  assert (Hroot : rootof s = PAGE_NONE).
  { destruct (r_root _ _ _ Hrep) as [?|[[x Hx] _]]; [done|]. by rewrite (empty_K _ _ _ _ _ Hj) in Hx. }
  unfold pad_queue, get_root.
  eapply wp_bind_ok. { unfold jn, zoom, getj, gets. rewrite put_js_id. reflexivity. }
  eapply wp_bind_ok; [reflexivity|].
  destruct (ck_SP _ _ _ _ _ _ _ _ _ _ (m_count s) HS) as (s1 & E1' & HS1 & Eck & Ec1 & Er1).
  eapply wp_bind_ok; [exact E1'|]. rewrite Hroot, Z.eqb_refl.
  eapply wp_mono.
  - eapply (append_SP s1 S Sd hv hv sv K D sk (R * X) (journal_enqueue None None) (fun x => x = ffs (page_size g)) False (ffs META_SIZE) (fun _ => S)); [exact HS1| | | | | | | | | | |].
    + apply blen_ffs. unfold META_SIZE. lia.
    + intros _ _. rewrite Eck, (sp_c _ _ _ _ _ _ _ _ _ _ HS). done.
    + intros d n _ HKn Hnr. rewrite HE. apply repr_filler; [apply Hrep|done].
    + intros _ d' v' _ _ _. apply aged_filler, get_id_ffs.
    + apply (enqueue_none_spec2 g c Hg weak Hdense). apply HS1.
    + apply f_enqueue.
    + apply bm_enqueue.
    + apply enq_bq, HS1.
    + apply enq_cq, HS1.
    + eapply (enqueue_J2 g c Hg weak), HS1.
    + intros d n x p _ HKn Hnr Hx Hfx Hpn. exfalso. unfold findp in Hfx.
      destruct (n =? PAGE_NONE); [done|]. rewrite kid_insert, get_id_ffs, Z.eqb_refl in Hfx. done.
  - intros o s4 (Eg4 & Ec4 & Ho). destruct o as [[]|e|x]; [| |done].
    + destruct Ho as (d & hv' & sv' & D' & Sd' & sk' & _ & Hle & HKn & Er & HM' & [HBB HJ2] & Hsk' & Htv' & Hgr & Hsv).
      exists Sd', (nextv hv'), hv, sv', (<[ph hv':=(d, ffs META_SIZE)]> K), D', sk'.
      pose proof (ji_order _ _ _ _ _ _ _ Hj) as Hord. pose proof F_le as HF.
      assert (HN : cnt (good sk') hv (nextv hv') = 1).
      { rewrite (grow_N _ _ _ _ _ _ _ hv Hgr) by lia. rewrite cnt_empty; lia. }
      split; auto.
      * rewrite Ec4, Ec1. apply HS.
      * apply HS.
      * lia.
      * lia.
      * eapply pot_mono; [|eapply (few_pot _ _ _ _ _ _ _ _ 1); [apply HM'|apply HM'|intros b Hb; by apply Hsk'|lia]]. assert (R + 1 <= R * X) by nia. lia.
      * destruct Hsv as [(-> & Hsl & _)|(-> & Hsl & _)].
        -- rewrite (grow_N _ _ _ _ _ _ _ sv Hgr) by lia. pose proof (sp_syn _ _ _ _ _ _ _ _ _ _ HS). lia.
        -- lia.
      * intros Hdf. destruct Hsv as [(_ & _ & Hdi)|(-> & _ & _ & -> & Hck1)]; [congruence|].
        eapply (HQ s4 S (nextv hv') hv _ D' sk'); [exact HM'|exact Hck1|exact HBB|exact HJ2|exact Hsk'|exact Htv'|intros _; lia|apply HS|].
        eapply pot_mono; [|eapply (few_pot _ _ _ _ _ _ _ _ 1); [apply HM'|apply HM'|intros b Hb; by apply Hsk'|lia]]. nia.
    + destruct Ho as ([_ []] & _).
Qed.

Lemma sync_SP n : forall fuel s S, SP s S (R * X) -> wp (sync_loop n fuel) s (gpost S (R * X) (R * X)).
Proof.
  induction n as [|n IH]; intros fuel s S HSP; [done|].
  pose proof HSP as (Sd & hv & tv & sv & K & D & sk & HS).
  cbn [sync_loop].
  eapply wp_bind_ok. { unfold jn, zoom, getj, gets. rewrite put_js_id. reflexivity. }
  destruct (dirtyof s) eqn:Edd; [|by apply wp_ret].
  destruct (peek_SP _ _ _ _ _ _ _ _ _ _ HS) as (s1 & tv1 & E1' & Hle & HS1 & Hgd & Hgb).
  eapply wp_bind_ok; [exact E1'|]. clear E1'.
  apply wp_bind, wp_attempt.
  assert (Hbad : forall e s2, e = E_ECC /\ ~ nj -> SP s2 S (R * X) ->
    wp (try_recover fuel e;;; sync_loop n fuel) s2 (gpost S (R * X) (R * X))).
  { intros e s2 [-> Hnj] HS2. apply wp_bind. unfold wp. rewrite norec by done. done. }
  destruct (Z.eqb_spec tv hv) as [->|Hne].
  - rewrite Z.eqb_refl. assert (tv1 = hv) as -> by lia.
    eapply wp_mono; [by eapply pad_SP|]. intros o s2 Ho. destruct o as [[]|e|x]; [|destruct Ho; by apply Hbad|done].
    by apply IH.
  - destruct (Z.eqb_spec (ph tv1) PAGE_NONE) as [E|_]; [pose proof (ph_pn g c Hg tv1); lia|].
    apply wp_bind. eapply wp_mono; [apply (raw_gc_SP _ _ _ _ _ _ _ _ _ _ HS1 Hgd Hgb)|].
    intros o s2 Ho. destruct o as [[]|e|x]; [|destruct Ho; by apply Hbad|done].
    destruct Ho as (s3 & E3 & HS3). unfold wp at 1. rewrite E3. cbn [fst snd]. apply IH.
    eapply SP_mono; [|exact HS3]. lia.
Qed.

(** ** One call *)
Definition copies (o : op) : Prop := match o with OCopySector _ _ | OCopyPage _ _ => True | _ => False end.
Lemma exec_SP fuel o s S : (1 <= fuel)%nat -> SP s S (R * X) -> valid_op g o -> wp (exec fuel o) s (spost (copies o) S).
Proof.
  intros Hf HSP Hv. pose proof HSP as (Sd & hv & tv & sv & K & D & sk & HS).
  assert (HM : MX g c weak s S Sd). { split; [apply HS|]. exists hv, tv, sv, K, D. apply HS. }
  assert (Hret : forall np (m : MM unit) s0, wp m s0 (spost np S) -> wp (m;;; ret RUnit) s0 (spost np S)).
  { intros np m s0 Hm. apply wp_bind. eapply wp_mono; [exact Hm|]. intros o' s' Ho. destruct o' as [[]|e|x]; [by apply wp_ret|done|done]. }
  assert (Hw : forall np t (m : MM unit) s0, wp m s0 (wspost np S t) -> wp m s0 (spost np S)).
  { intros np t m s0 Hm. eapply wp_mono; [exact Hm|]. intros o' s' Ho. by eapply wspost_s. }
  destruct o as [t d|t|a b|p b| | | |t|t| ]; cbn [exec valid_op copies] in *.
  - destruct Hv as [Ht Hd]. eapply Hret, Hw, map_write_SP; [done|exact HSP|exact Ht|by rewrite (ps_eq g c Hg)].
  - by eapply Hret, map_trim_SP.
  - destruct Hv as [Ha Hb]. apply Hret. unfold map_copy_sector. apply wp_bind.
    unfold attempt. unfold wp at 1.
    destruct (find_spec g c Hg weak _ _ _ _ HM Ha) as [[HSn E]|(d & v & HSn & E & _)]; rewrite E; cbn [fst snd].
    + rewrite decide_True by done. eapply wp_mono; [eapply map_trim_SP; [done|exact HSP|unfold wsector in Hb; lia]|].
      intros o s' Ho. destruct o as [[]|e|x]; [done| |done]. destruct Ho as [(?&?&?) ?]. done.
    + eapply Hw, map_copy_page_SP; [done|exact HSP|exact Hb|apply (lem ph_range)].
  - destruct Hv as [Ha Hb]. eapply Hret, Hw, map_copy_page_SP; [done|exact HSP|exact Hb|exact Ha].
  - apply Hret. unfold map_clear. apply wp_bind, wp_gets. destruct (_ =? _).
    + apply wp_ret. by exists S.
    + apply wp_bind, wp_modify. destruct (clear_SP _ _ _ _ _ _ _ _ _ _ HS) as (s' & E & HS').
      unfold wp. rewrite E. by exists ∅.
  - apply Hret. eapply wp_mono; [by apply map_gc_SP|]. intros o s' Ho. destruct o as [[]|e|x]; [|destruct Ho as [[-> Hnj] Ho]; split; [|by exists S]; split_and!; [done|done|intros _ Hx; by apply Hnj]|done].
    exists S. destruct Ho as [Ho|[_ ->]]; [|done]. eapply SP_mono; [|exact Ho]. lia.
  - apply Hret. unfold map_sync. eapply wp_mono; [by apply sync_SP|]. intros o s' Ho. destruct o as [[]|e|x]; [by exists S|destruct Ho as [[-> Hnj] Ho]; split; [|by exists S]; split_and!; [done|done|intros _ Hx; by apply Hnj]|done].
  - eapply wp_bind_ok; [by eapply (read_map_spec g c Hg weak)|]. apply wp_ret. by exists S.
  - apply wp_bind. unfold wp at 1.
    destruct (find_spec g c Hg weak _ _ _ _ HM Hv) as [[HSn E]|(d & v & HSn & E & _)]; rewrite E; cbn [fst snd].
    + split; [done|]. by exists S.
    + apply wp_ret. by exists S.
  - apply wp_bind, wp_gets, wp_ret. by exists S.
Qed.

Lemma run_SP fuel gcr junk ops : (1 <= fuel)%nat -> Forall (valid_op g) ops -> forall s S rs s', SP s S (R * X) ->
  run fuel gcr junk (map HOp ops) s = (rs, s') -> Forall (fun o => match o with ST _ => False | _ => True end) rs ->
  ER E_JOURNAL_FULL ∉ rs /\ exists S', SP s' S' (R * X).
Proof.
  intros Hf. induction 1 as [|o ops Ho Hops IH]; intros s S rs s' HS E Hrs; cbn [run map] in E.
  { injection E as <- <-. split; [apply not_elem_of_nil|by exists S]. }
  pose proof (exec_SP fuel o s S Hf HS Ho) as He. unfold wp in He.
  destruct (exec fuel o s) as [a s1]. cbn [fst snd] in He. destruct a as [a|e|x]; cbn in He.
  - destruct He as [S1 HS1]. destruct (run fuel gcr junk (map HOp ops) s1) as [rs1 s2] eqn:E2. injection E as <- <-.
    apply Forall_cons in Hrs as [_ Hrs]. destruct (IH _ _ _ _ HS1 E2 Hrs) as [Hn HS2]. split; [|done].
    apply not_elem_of_cons. split; [done|done].
  - destruct He as [[He _] [S1 HS1]]. destruct (run fuel gcr junk (map HOp ops) s1) as [rs1 s2] eqn:E2. injection E as <- <-.
    apply Forall_cons in Hrs as [_ Hrs]. destruct (IH _ _ _ _ HS1 E2 Hrs) as [Hn HS2]. split; [|done].
    apply not_elem_of_cons. split; [congruence|done].
  - exfalso. assert (exists l, rs = ST x :: l) as [l ->].
    { destruct x; try (injection E as <- <-; by eexists). destruct (run fuel gcr junk _ _) as [rs1 s2]. injection E as <- <-. by eexists. }
    by apply Forall_cons in Hrs as [Hrs _].
Qed.

(** ** The start *)
Lemma resume_err s e s' : journal_resume s = (ER e, s') -> n_geo (js_n s') = g -> 
  j_ppc (js_j s') = c -> j_bbc (js_j s') = 0 /\ j_bbl (js_j s') = Z.shiftr NB 6 /\ j_head (js_j s') = 0 /\
    j_recov (js_j s') = false /\ j_enum (js_j s') = false.
Proof.
  unfold journal_resume, bind, attempt. destruct (journal_resume_body s) as [[[]|e'|x] s1]; cbn; intros [= <- <-].
  cbn [js_n js_j]. intros -> Hc. done.
Qed.
End space.

Lemma start_SP g c (Hg : geo_ok g c) weak {Ag : Aging} fb e0 E1 r Mx X (Q : nand -> Prop) (nj : Prop) gcr junk n :
  dense g weak -> r = gcr_of gcr -> choose_ppc (g_lps g) (g_lppb g) = c -> fresh g weak n -> (forall b, n_bad n b = fb b) -> 
  e0 <= NB g / 64 <= E1 -> 0 <= Mx -> 3 <= X -> r + 2 <= (r + 1) * X -> Q n -> (nj -> NJ g n) ->
  exists S, SP g c weak fb e0 E1 r Mx X Q nj (snd (restart gcr junk n)) S ((r + 1) * X).
Proof.
  intros Hdn -> Hc Hf Hfb He HM HX HRX HQn HNJ. destruct (fresh_D g c Hg weak n Hf) as [Hn (hv & sv & HD)].
  pose proof (PC_ge _ _ Hg) as HPC.
  unfold restart, map_resume, map_init.
  set (s0 := Ms _ _ _).
  assert (Ec : j_ppc (js_j (m_js s0)) = c). { cbn. by rewrite (nk_geo _ _ _ Hn). }
  destruct (resume_none g c Hg weak (m_js s0) hv sv (Dsk (-1) 0 [] [] ∅)) as (x & E & Ex & HJ & Er & Edd & HK); auto.
  unfold bind, attempt, jn, zoom. rewrite E.
  assert (Egx : n_geo (js_n x) = g) by (rewrite Ex; apply (nk_geo _ _ _ Hn)).
  destruct (resume_err g c _ _ _ E Egx) as (E1' & E2 & E3 & E4 & E5). { apply HJ. }
  match goal with |- context [snd ?z] => change (snd z) with (set_count 0 (put_js x s0)) end.
  exists ∅, ∅, 0, 0, 0, ∅, (Dsk (-1) 0 [] [] ∅), (fun _ => false).
  assert (Hrep : repr ∅ (j_root (js_j x)) ∅) by (rewrite Er; apply repr_clear).
  assert (Hcn : forall f, cnt f 0 0 = 0) by (intros; by apply cnt_empty).
  pose proof (gcr_of_range gcr) as Hgr.
  split; cbn [m_js m_gcr m_count put_js set_count chip]; try done.
  - split; cbn [m_js m_gcr put_js set_count]; [done|done|by left|done|done|rewrite Er; apply age_none].
  - split; [split|].
    + destruct Hf as (Hf1 & Hf2 & Hf3 & Hf4). change n with (js_n (m_js s0)) in Hf3. split; rewrite ?Ex.
      * done.
      * apply (nk_orc _ _ _ Hn).
      * done.
      * intros b Hb. cbn. by rewrite Hfb.
    + apply HJ.
    + rewrite E3. pose proof (TT_pos _ _ Hg). lia.
    + rewrite E3. unfold user. rewrite Z.mod_0_l; lia.
    + done.
    + done.
    + rewrite E2, Z.shiftr_div_pow2 by lia. change (2 ^ 6) with 64. done.
    + unfold bbr, hb. rewrite E1', E3. rewrite Z.div_0_l by (pose proof (PB_pos _ _ Hg); lia). rewrite !Hcn. lia.
  - intros w Hw Hc1. assert (w = 0) as -> by lia. rewrite Hcn in Hc1. lia.
  - rewrite Hcn, Z.mod_0_l by lia. lia.
  - intros _. unfold chip. cbn [m_js put_js set_count]. rewrite Ex. exact HQn.
  - intros Hnj. split; [rewrite Ex; by apply HNJ|]. apply (TB_TI g c Hg 0); [apply HJ|]. intros Ha. rewrite Z.mod_0_l in Ha; [done|]. pose proof (PB_pos _ _ Hg); lia.
Qed.
