(** Appends outside recovery on a chip on which programs may fail in the middle
    of a block: either the append does the same as on the chip without these
    failures, or a recovery starts. *)
From stdpp Require Import gmap fin_maps.
From Verif Require Import Base Bytes BytesLemmas Wp Nand Journal MapModel Geom Tree Rep Inv Hdr StepDI StepNand StepJ StepA StepR San Top Bm Rec Rec2 Rec3 Rec4 Rec5 Rec6.
Local Open Scope Z_scope.

Section rec7.
Context (g : geo) (c : Z) (Hg : geo_ok2 g c) (weak : Z -> bool) (Hdense : dense g weak).
Notation PB := (PB g).
Notation PC := (PC c).
Notation NB := (NB g).
Notation TT := (TT g).
Notation ph := (ph g).
Notation user := (user c).
Notation nextv := (nextv c).
Notation cpv := (cpv c).
Notation cellv := (cellv g).
Notation badv := (badv g).
Notation cell_ep := (cell_ep g).
Notation blk_ep := (blk_ep g c).
Notation epo := (epo g).
Notation moff := (moff c).
Notation fcp := (fcp g c).
Notation kmeta := (kmeta g c).
Notation kd_ok := (kd_ok g c).
Notation DI := (DI g c).
Notation nok := (nok g weak).
Notation JInv := (JInv g c).
Notation JI := (JI g c weak).
Notation nokF := (nokF g weak).
Notation peF := (peF g weak).
Notation rmet := (rmet g c).
Notation RI := (RI g c weak).
Notation RReady := (RReady g c weak).

Ltac pose_geo :=
  pose proof (PC_ge4 _ (go2_c _ _ Hg)) as HPC4; pose proof (PC_le _ _ Hg) as HPC256;
  pose proof (PB_pos _ _ Hg) as HPB4; pose proof (PB_ge _ _ Hg) as HPBC;
  pose proof (NB_ge _ _ Hg) as HNB8; pose proof (TT_le _ _ Hg) as HTT31;
  pose proof (TT_pos _ _ Hg) as HTTpos.
Notation "'lem' x" := (x g c Hg) (at level 9, x at level 8, only parsing).
Notation "'lemw' x" := (x g c Hg weak) (at level 9, x at level 8, only parsing).

Notation Rst := (Rst g c weak).
Notation Ready := (Ready g c weak).

(** Same as without mid-block failures, or [F]. *)
Definition dich {St A} (sf : St -> St) (m : M St A) (s : St) (F : out A -> St -> Prop) : Prop := ag sf m s \/ wp m s F.

Lemma dich_mono {St A} (sf : St -> St) (m : M St A) s (F F' : out A -> St -> Prop) :
  dich sf m s F -> (forall o s', F o s' -> F' o s') -> dich sf m s F'.
Proof. intros [?|H] Hi; [by left|right]. by eapply wp_mono. Qed.
Lemma dich_ag {St A} (sf : St -> St) (m : M St A) s F : ag sf m s -> dich sf m s F.
Proof. by left. Qed.
Lemma dich_bind {St A B} (sf : St -> St) (m : M St A) (f : A -> M St B) s F :
  ag sf m s -> (forall a s', m s = (OK a, s') -> dich sf (f a) s' F) -> dich sf (bind m f) s F.
Proof.
  unfold dich, ag, wp, bind. intros -> H. destruct (m s) as [[a|e|x] s'] eqn:E; cbn; auto.
Qed.
Lemma dich_bind_ok {St A B} (sf : St -> St) (m : M St A) (f : A -> M St B) s a s' F :
  m s = (OK a, s') -> ag sf m s -> dich sf (f a) s' F -> dich sf (bind m f) s F.
Proof. intros E Ha H. apply dich_bind; [done|]. intros a' s1 E'. rewrite E in E'. by injection E' as <- <-. Qed.
(** The first part may start a recovery. *)
Lemma dich_bind2 {St A B} (sf : St -> St) (m : M St A) (f : A -> M St B) s (F : out A -> St -> Prop) (F' : out B -> St -> Prop) :
  dich sf m s F ->
  (forall a s', m s = (OK a, s') -> ag sf m s -> dich sf (f a) s' F') ->
  (wp m s F -> wp (bind m f) s F') -> dich sf (bind m f) s F'.
Proof. intros [Ha|Hw] H1 H2; [|right; auto]. apply dich_bind; auto. Qed.

Lemma ext_nokF n n' : nokF n -> ext n n' -> nok (san n') -> nokF n'.
Proof. intros Hn (H1 & H2 & _) Hk. apply san_nokF; [done|]. rewrite H1. apply Hn. Qed.

(** A program fails in mid-block or does the same on both chips. *)
Definition progsD (prog : M nand unit) (n : nand) (hv : Z) : Prop :=
  ext n (snd (prog n)) /\
  (ag san prog n \/
   exists n' x, prog n = (ER E_BAD_BLOCK, n') /\ peF n n' hv x /\ weak ((hv / PB) mod NB) = true /\ hv mod PB <> 0).

Lemma progsD_data n hv d : nokF n -> goodfree g n hv -> blen d = page_size g -> progsD (nand_prog (ph hv) d) n hv.
Proof.
  intros Hn [Hgood Hfree] Hl. destruct (prog_cases (ph hv) d n) as [He [Ha|(Hp & Ht & f & Hf)]]; (split; [done|]); [by left|right].
  pose proof (lemw progF n hv d Hn Hgood Hfree Hl) as Hw. unfold wp in Hw.
  assert (Ho : fst (nand_prog (ph hv) d n) = ER E_BAD_BLOCK).
  { unfold nand_prog in *. rewrite (nf_geo _ _ _ Hn), (lem ph_ok) in *. cbn [negb] in *.
    destruct (n_bad n _); [exfalso; cbn in Ht; lia|]. destruct (negb (tail_free _ _ _)) eqn:E1; [exfalso; cbn in Ht; lia|].
    destruct (negb (blen _ =? _)) eqn:E2; [exfalso; cbn in Ht; lia|]. by rewrite Hf. }
  destruct (nand_prog (ph hv) d n) as [o n']. cbn [fst snd] in *. subst o.
  destruct Hw as (x & Hpe & _ & Hw). exists n', x. split_and!; auto.
  rewrite (nf_geo _ _ _ Hn) in Hp. fold PB in Hp. by rewrite (lem ph_off) in Hp.
Qed.
Lemma progsD_none n hv : progsD (ret tt) n hv.
Proof. split; [apply ext_refl|by left]. Qed.
Lemma progsD_copy n hv p : nokF n -> goodfree g n hv -> 0 <= p < TT -> progsD (nand_copy p (ph hv)) n hv.
Proof.
  intros Hn Hgf Hp. pose proof (page_size_pos g c Hg).
  unfold progsD, nand_copy, bind, gets, ag. change (n_geo (san n)) with (n_geo n). rewrite (nf_geo _ _ _ Hn).
  rewrite <-(ph_small g p) by done.
  rewrite !(read_spec g c Hg) by (auto; try lia; apply Hn).
  change (cellv (san n) p) with (cellv n p).
  destruct (cell_bytes g (cellv n p)) as [d|] eqn:Ed; cbn [fst snd].
  - assert (Hl : blen d = page_size g) by (eapply cell_lenF; [done|exact Hn|exact Ed]).
    rewrite slice_all by done. apply (progsD_data n hv d); auto.
  - split; [apply ext_refl|by left].
Qed.

(** What happens when a program fails in mid-block. *)
Definition fpost (root : Z) (tv sv : Z) (K : kmap) {A} (o : out A) (s' : js) : Prop :=
  match o with
  | OK _ => False
  | ER e => leak e \/ (e = E_RECOVER /\ exists rv, ph rv = root /\ Rst s' tv sv rv K)
  | ST x => x = Crash
  end.

Record rvok (s : js) (hv tv sv : Z) (K : kmap) (rv : Z) : Prop := {
  rk_u : user rv; rk_root : j_root (js_j s) = ph rv; rk_next : nextv rv = hv; rk_ord : tv <= rv < hv;
  rk_blk : rv / PB = hv / PB; rk_K : is_Some (K !! ph rv)
}.

Lemma push_dich s0 n' hv tv sv K D rv x meta :
  JInv s0 hv tv sv K -> DI (js_n s0) hv sv D -> goodfree g (js_n s0) hv ->
  (hv mod PB <> 0 -> rvok s0 hv tv sv K rv /\ j_badmeta (js_j s0) = false) ->
  peF (js_n s0) n' hv x -> blen (metaof meta) = META_SIZE ->
  dich sanj (push_meta meta) (put_n n' s0) (fun o s' => hv mod PB <> 0 /\ fpost (j_root (js_j s0)) tv sv K o s').
Proof.
  intros Hj HD [Hgood Hfree] Hrv [Hnok Hbad Hhv Hcell] Hml. pose_geo. set (m := metaof meta) in *.
  assert (Hu : user hv) by apply HD. assert (H0 : 0 <= hv) by apply HD.
  pose proof (lem slot_range hv) as Hsl.
  pose proof (moff_fit g c Hg hv Hu) as [Hf1 Hf2].
  assert (Hb1 : (hv + 1) / PB = hv / PB).
  { apply (lem grp_blk). destruct (divmod_add PC hv 1) as [E _]; [lia| |done].
    unfold Geom.user in Hu. lia. }
  assert (Ho1 : hv mod PB + 1 < PB).
  { pose proof (lem v_decomp hv). pose proof (lem blk_lt_start (hv + 1) (hv / PB + 1) ltac:(lia)). lia. }
  assert (Hph1 : ph (hv + 1) = ph hv + 1).
  { apply (lem ph_add). pose proof (lem off_range hv). lia. }
  pose proof (lem ph_range hv) as Hphr. pose proof (lem ph_range (hv + 1)) as Hphr1.
  assert (Hgf1 : goodfree g n' (hv + 1)).
  { split; [by rewrite Hbad, Hb1|]. intros u Hu1 Hu2. rewrite Hcell by lia. apply Hfree; lia. }
  assert (Hbuf : blen (j_buf (js_j s0)) = page_size g) by apply Hj.
  unfold push_meta.
  apply dich_bind; [apply ag_gets; done|]. intros a s1 [= <- <-].
  apply dich_bind; [apply ag_gets; done|]. intros a s1 [= <- <-].
  cbn [js_n js_j put_n].
  rewrite (nf_geo _ _ _ Hnok), (ji_ppc _ _ _ _ _ _ _ Hj), (ji_head _ _ _ _ _ _ _ Hj).
  rewrite (moff_hdr g c Hg) by done. fold (metaof meta). fold m.
  eapply dich_bind_ok.
  { apply buf_put_ok; cbn [js_j put_n]; rewrite ?Hbuf, ?Hml.
    - unfold HEADER_SIZE, COOKIE_SIZE in Hf1. lia.
    - lia. }
  { apply agj, San.kj_buf_put. }
  cbn [js_n js_j put_n].
  set (buf1 := splice (moff hv) m (j_buf (js_j s0))).
  assert (Hbl1 : blen buf1 = page_size g).
  { unfold buf1. rewrite blen_splice; auto; rewrite ?Hml, ?Hbuf; [|lia].
    unfold HEADER_SIZE, COOKIE_SIZE in Hf1. lia. }
  assert (Hso : forall v, v / PC = hv / PC -> v < hv -> user v ->
    slice (moff v) META_SIZE buf1 = slice (moff v) META_SIZE (j_buf (js_j s0))).
  { intros v Hv1 Hv2 Hv3. unfold buf1. pose proof (moff_fit g c Hg v Hv3) as [Hg1 Hg2].
    unfold HEADER_SIZE, COOKIE_SIZE, META_SIZE in Hf1, Hg1.
    pose proof (moff_disj c v hv (slot_ne g c Hg _ _ Hv1 ltac:(lia))) as Hdj.
    apply slice_splice_disj; rewrite ?Hml, ?Hbuf; unfold META_SIZE in *; lia. }
  destruct (negb (is_aligned (w32 (ph hv + 2)) c)) eqn:Eal.
  { left. by apply ag_modify. }
  set (j1 := set_buf buf1 (js_j s0)).
  assert (Hps : 16 <= page_size g) by (unfold HEADER_SIZE, COOKIE_SIZE, META_SIZE in *; lia).
  assert (Hnal : (hv + 2) mod PC = 0).
  { apply negb_false_iff in Eal. rewrite w32_small in Eal by lia. rewrite (lem aligned_grp) in Eal.
    rewrite <-Zplus_mod_idemp_l, (lem ph_slot), Zplus_mod_idemp_l in Eal. by apply Z.eqb_eq. }
  assert (Hoff : hv mod PB <> 0).
  { intros E. apply (lem off_0_slot) in E. destruct (divmod_add PC hv 2) as [_ E']; lia. }
  assert (Hoff1 : (hv + 1) mod PB <> 0).
  { pose proof (lem v_decomp hv). pose proof (lem v_decomp (hv + 1)). rewrite Hb1 in *. pose proof (lem off_range hv). lia. }
  unfold dich, ag, wp.
  change (sanj (Js n' j1)) with (Js (san n') j1).
  rewrite !put_hdr_ok by (change (16 <= blen buf1); lia). cbn [js_n js_j].
  change (j_buf j1) with buf1.
  set (buf2 := mk_cp buf1 (j_epoch (js_j s0)) (j_tail (js_j s0)) (j_bbc (js_j s0)) (j_bbl (js_j s0))).
  assert (Hbl2 : blen buf2 = page_size g).
  { unfold buf2. rewrite blen_mk_cp by lia. done. }
  assert (Hs2 : forall off l, 16 <= off -> slice off l buf2 = slice off l buf1).
  { intros. unfold buf2. apply slice_mk_cp; lia. }
  set (j2 := set_buf buf2 j1).
  match goal with |- ?k (Js (san n') j2) = _ \/ _ => change (dich sanj k (Js n' j2) (fun o s' => hv mod PB <> 0 /\ fpost (j_root (js_j s0)) tv sv K o s')) end.
  apply dich_bind; [apply ag_gets; done|]. intros a s1 [= <- <-].
  change (j_buf j2) with buf2.
  rewrite w32_small by lia. rewrite <-Hph1.
  destruct (progsD_data n' (hv + 1) buf2 Hnok Hgf1 Hbl2) as [He [Ha|(n2 & x2 & En2 & Hpe & Hwk & _)]].
  - apply dich_bind.
    { apply ag_attempt. unfold io. apply (ag_zoom sanj san); [done|done|exact Ha]. }
    intros r s1 Er. pose proof (prog_spec g c Hg weak (san n') (hv + 1) buf2 (nokF_san _ _ _ Hnok)) as Hp.
    assert (Hp' := Hp (proj1 Hgf1) (proj2 Hgf1) Hbl2). clear Hp.
    unfold wp in Hp'. unfold ag in Ha. rewrite Ha in Hp'. cbn [fst snd] in Hp'.
    unfold attempt, io, zoom in Er. cbn [js_n] in Er.
    destruct (nand_prog (ph (hv + 1)) buf2 n') as [[[]|e|y] n2]; cbn [fst snd] in Hp'; [| |done].
    + injection Er as <- <-. left. apply agj.
      apply San.kj_bind; [apply nomid_l|apply nomid_r|apply San.kj_modj|intros ?].
      apply San.kj_bind; [apply nomid_l|apply nomid_r|apply San.kj_modj|intros ?].
      apply San.kj_bind; [apply nomid_l|apply nomid_r|apply San.kj_getj|intros ?].
      apply San.kj_bind; [apply nomid_l|apply nomid_r|destruct (_ =? _); [apply San.kj_modj|apply San.kj_ret]|intros ?].
      apply San.kj_bind; [apply nomid_l|apply nomid_r|apply San.kj_getj|intros ?].
      apply San.kj_bind; [apply nomid_l|apply nomid_r| |intros ?].
      { match goal with |- San.keepj _ (if ?b then _ else _) => destruct b end; [|apply San.kj_ret].
        apply San.k_finish_recovery; [apply nomid_l|apply nomid_r|apply San.kn_mark]. }
      apply San.kj_bind; [apply nomid_l|apply nomid_r|apply San.kj_getj|intros ?].
      match goal with |- San.keepj _ (if ?b then _ else _) => destruct b end; [apply San.kj_modj|apply San.kj_ret].
    + exfalso. destruct Hp' as (? & _ & _ & ? & _). done.
  - right. apply wp_bind. apply wp_attempt. unfold io. apply wp_zoom. unfold wp at 1. cbn [js_n]. rewrite En2. cbn [fst snd put_n js_j].
    destruct (Hrv Hoff) as [[] Hbm]. rewrite Hb1 in Hwk.
    eapply wp_mono.
    { eapply (break_spec g c Hg weak s0) with (buf := buf2) (rv := rv) (hv := hv) (tv := tv) (sv := sv) (K := K) (D := D); cbn [js_n js_j]; auto.
      - apply Hpe.
      - intros b. rewrite (pf_bad _ _ _ _ _ _ Hpe). apply Hbad.
      - intros u Hu1 Hu2. rewrite (pf_cell _ _ _ _ _ _ Hpe) by lia. apply Hcell; lia.
      - intros v Hv1 Hv2 Hv3. rewrite Hs2; [by apply Hso|]. pose proof (moff_fit g c Hg v Hv3). unfold HEADER_SIZE, COOKIE_SIZE in *. lia. }
    intros o s' Ho. split; [done|]. destruct o as [[]|e|y]; [done| |done]. destruct Ho as [?|[-> ?]]; [by left|right]. split; [done|]. exists rv. done.
Qed.

Lemma recover_ne e s : e <> E_BAD_BLOCK -> recover_from e s = (ER e, s).
Proof. intros He. unfold recover_from, bind, getg, getj, gets. by rewrite decide_True. Qed.

Lemma recover_al_ag s hv tv sv K : n_geo (js_n s) = g -> JInv s hv tv sv K -> hv mod PB = 0 -> ag sanj (recover_from E_BAD_BLOCK) s.
Proof.
  intros Hgeo Hj Ha. unfold recover_from.
  apply ag_bind; [by apply ag_gets|]. intros a s1 [= <- <-].
  apply ag_bind; [by apply ag_gets|]. intros a s1 [= <- <-].
  rewrite decide_False by (intros E; by apply E).
  apply ag_bind; [by apply ag_modify|]. intros a s1 [= <- <-].
  apply ag_bind; [apply agj, San.k_skip_block; [apply nomid_l|apply nomid_r]|]. intros [] s1 E1.
  pose proof (sv_le_hb _ _ Hg _ _ _ _ _ Hj) as Hsb.
  match type of E1 with skip_block ?s0 = _ => 
    pose proof (skip_block_spec g c Hg s0 hv sv) as Hsk end.
  unfold wp in Hsk. rewrite E1 in Hsk. cbn [fst snd js_n js_j] in Hsk.
  destruct Hsk as (En & Hr & _); try (by apply Hj); [done| |].
  { split; [done|]. apply Hj. }
  apply ag_bind; [by apply ag_gets|]. intros a s2 [= <- <-].
  rewrite (jr_recov _ _ Hr). change (j_recov (set_bbc _ _)) with (j_recov (js_j s)). rewrite (ji_recov _ _ _ _ _ _ _ Hj).
  rewrite (ji_head _ _ _ _ _ _ _ Hj), Hgeo, (lem aligned_blk), (lem ph_off), Ha. cbn [Z.eqb].
  apply agj, San.kj_io, San.kn_mark.
Qed.

Lemma prepare_un s hv tv sv K : n_geo (js_n s) = g -> JInv s hv tv sv K -> 0 <= hv -> hv mod PB <> 0 ->
  prepare_head s = (ER E_JOURNAL_FULL, s) \/
  prepare_head s = (OK tt, Js (js_n s) (set_dirty true (js_j s))).
Proof.
  intros Hgeo Hj H0 Ha. unfold prepare_head, bind, getg, getj, gets, modj, modify. rewrite Hgeo.
  rewrite (ji_head _ _ _ _ _ _ _ Hj), (lem aligned_blk), (lem ph_off), (proj2 (Z.eqb_neq _ _) Ha). cbn [negb].
  destruct (_ && _); [by left|by right].
Qed.

(** ** The retry loop *)
Lemma append_al i prog P ecc meta tv sv K D :
  blen (metaof meta) = META_SIZE ->
  (forall s hv, Ready s hv tv sv K D -> progs g weak (prog (ph hv)) P ecc (js_n s) hv) ->
  (forall n hv, nokF n -> goodfree g n hv -> progsD (prog (ph hv)) n hv) ->
  forall s hv, JI (sanj s) hv tv sv K D -> nokF (js_n s) -> hv mod PB = 0 ->
  ag sanj (append_loop i prog meta) s.
Proof.
  intros Hml Hprog HpD. induction i as [|i IH]; intros s hv HJ Hn Ha; cbn [append_loop]; [apply ag_fail|].
  pose_geo.
  assert (Hpa : ag sanj prepare_head s) by (apply agj, San.k_prepare_head; [apply nomid_l|apply nomid_r|apply San.kn_erase]).
  pose proof (proj1 (San.k_prepare_head nomid nomid_l nomid_r (San.kn_erase nomid) s)) as He1.
  pose proof (wp_ag _ _ _ _ Hpa (lemw prepare_head_spec Hdense _ _ _ _ _ _ HJ)) as Hps.
  unfold wp in Hps.
  assert (Hrec : forall s1 hv1, JI (sanj s1) hv1 tv sv K D -> nokF (js_n s1) -> hv1 mod PB = 0 -> j_dirty (js_j s1) = true ->
     weak ((hv1 / PB) mod NB) = true ->
     ag sanj (recover_from E_BAD_BLOCK;;; append_loop i prog meta) s1).
  { intros s1 hv1 HJ1 Hn1 Ha1 Hd1 Hw1.
    assert (Hra : ag sanj (recover_from E_BAD_BLOCK) s1).
    { eapply recover_al_ag; [apply Hn1|apply JInv_san, HJ1|done]. }
    apply ag_bind; [done|]. intros [] s2 E2.
    pose proof (wp_ag _ _ _ _ Hra (lemw recover_aligned_spec Hdense _ _ _ _ _ _ HJ1 Ha1 Hd1 Hw1)) as Hr.
    unfold wp in Hr. rewrite E2 in Hr. cbn [fst snd] in Hr. destruct Hr as (HJ2 & _).
    pose proof (lem blk_start (hv1 / PB + 1)) as [F1 F2].
    eapply IH; [exact HJ2| |done]. eapply ext_nokF; [exact Hn1| |apply HJ2].
    pose proof (proj1 (San.k_recover_from mid mid_l mid_r San.kn_prog (San.kn_erase mid) (San.kn_mark mid) E_BAD_BLOCK s1)) as He2.
    by rewrite E2 in He2. }
  destruct (prepare_head s) as [o1 s1] eqn:E1. cbn [fst snd] in *.
  assert (Hi : ag sanj (prepare_head;;; let! h := getj j_head in io (prog h)) s /\
    (forall o2 s2, (prepare_head;;; let! h := getj j_head in io (prog h)) s = (o2, s2) ->
      match o2 with
      | OK _ => exists s1 hv1 n2 x, s2 = put_n n2 s1 /\ JInv s1 hv1 tv sv K /\ DI (js_n s1) hv1 sv D /\ hv1 mod PB = 0 /\
          goodfree g (js_n s1) hv1 /\ peF (js_n s1) n2 hv1 x
      | ER e => e = E_BAD_BLOCK -> exists hv1, JI (sanj s2) hv1 tv sv K D /\ nokF (js_n s2) /\ hv1 mod PB = 0 /\ j_dirty (js_j s2) = true /\ weak ((hv1 / PB) mod NB) = true
      | ST _ => True
      end)).
  { split.
    - apply ag_bind; [done|]. intros [] s1' E1'. rewrite E1 in E1'. injection E1' as -> <-.
      destruct Hps as (hv1 & Hle & HR & Hr1 & Hal & Haw).
      apply ag_bind; [by apply ag_gets|]. intros a s2 [= <- <-].
      pose proof HR as [HJ1 Hd1 Hgood Hfree Hnx].
      assert (Hn1 : nokF (js_n s1)) by (eapply ext_nokF; [exact Hn|exact He1|apply HJ1]).
      pose proof (ji_head _ _ _ _ _ _ _ (JI_j _ _ _ _ _ _ _ _ _ HJ1)) as Eh. cbn in Eh. rewrite Eh.
      unfold io. apply (ag_zoom sanj san); [done|done|].
      destruct (HpD (js_n s1) hv1 Hn1 ltac:(by split)) as [_ [?|(n2 & x & _ & _ & _ & Hx)]]; [done|].
      exfalso. destruct Hal as [->|[_ ?]]; congruence.
    - intros o2 s2 E2. unfold bind at 1 in E2. rewrite E1 in E2. destruct o1 as [[]|e|x].
      + destruct Hps as (hv1 & Hle & HR & Hr1 & Hal & Haw).
        assert (Ha1 : hv1 mod PB = 0) by (destruct Hal as [->|[_ ?]]; congruence).
        pose proof HR as [HJ1 Hd1 Hgood Hfree Hnx].
        assert (Hn1 : nokF (js_n s1)) by (eapply ext_nokF; [exact Hn|exact He1|apply HJ1]).
        pose proof (ji_head _ _ _ _ _ _ _ (JI_j _ _ _ _ _ _ _ _ _ HJ1)) as Eh. cbn in Eh.
        unfold bind, getj, gets in E2. rewrite Eh in E2. unfold io, zoom in E2.
        pose proof (Hprog _ _ HR) as Hpr. unfold progs, wp in Hpr. cbn [js_n sanj] in Hpr.
        destruct (HpD (js_n s1) hv1 Hn1 ltac:(by split)) as [Hex [Hag|(n2 & x & _ & _ & _ & Hx)]]; [|done].
        unfold ag in Hag. rewrite Hag in Hpr. cbn [fst snd] in Hpr.
        destruct (prog (ph hv1) (js_n s1)) as [o n2]. cbn [fst snd] in *. injection E2 as <- <-.
        destruct o as [[]|e|x]; [| |done].
        * destruct Hpr as (x & d & Hpe & _). exists s1, hv1, n2, x. split_and!; auto.
          { apply JInv_san, HJ1. } { apply DI_san, HJ1. } { by split. }
          destruct Hpe. split; auto. by eapply ext_nokF.
        * intros ->. exists hv1. destruct Hpr as [(_ & _ & Hw & x & Hpe)|(? & _)]; [|done].
          pose proof HJ1 as [Hn1' Hj1 HD1 Hc1].
          pose proof (aligned_cb _ _ Hg _ _ _ _ HD1 Ha1) as Hcb.
          pose proof (ji_full _ _ _ _ _ _ _ Hj1) as Hfull. pose proof (sv_le_hb _ _ Hg _ _ _ _ _ Hj1) as Hsb.
          split; [|split_and!; auto; eapply ext_nokF; [exact Hn1|done|apply Hpe]].
          change (sanj (put_n n2 s1)) with (put_n (san n2) (sanj s1)).
          apply JI_dirty; cbn [js_n js_j put_n]; auto; [apply Hpe| |].
          -- eapply (JInv_move g c Hg (sanj s1)); [exact Hj1| | | | | | | | |]; auto; try lia; try apply Hj1.
             ++ apply jrest_refl.
             ++ intros. apply Hpe.
             ++ intros u Hub. apply (pe_cell _ _ _ _ _ _ Hpe); [lia|]. intros ->. lia.
          -- eapply (lem DI_head_gt); eauto.
             ++ intros. apply Hpe.
             ++ intros u Hub. apply (pe_cell _ _ _ _ _ _ Hpe); [lia|]. intros ->. lia.
             ++ intros Hb. split; [done|]. right. unfold Inv.blk_ep.
                destruct (lem fcp_facts (hv1 / PB)) as (F1 & F2 & F3).
                rewrite (pe_cell _ _ _ _ _ _ Hpe); [done|lia|]. intros E. rewrite E in F3. lia.
      + injection E2 as <- <-. intros ->. destruct Hps as ((hv1 & Hle & HJ1 & Hbb & _) & Hr1 & He).
        destruct (Hbb eq_refl) as (_ & Ha1 & Hd & Hw). exists hv1. split_and!; auto.
        * eapply ext_nokF; [exact Hn|exact He1|apply HJ1].
        * apply Hw. pose proof (lem blk_le hv hv1 Hle). lia.
      + by injection E2 as <- <-. }
  destruct Hi as [Hia Hiq].
  apply ag_bind; [by apply ag_attempt|]. intros r s2 Er. unfold attempt in Er.
  destruct ((prepare_head;;; let! h := getj j_head in io (prog h)) s) as [o2 s2'] eqn:E2.
  specialize (Hiq _ _ eq_refl). destruct o2 as [[]|e|x]; [| |done].
  - injection Er as <- <-. destruct Hiq as (s1' & hv1 & n2 & x & -> & Hj1 & HD1 & Ha1 & Hgf & Hpe).
    destruct (push_dich s1' n2 hv1 tv sv K D 0 x meta) as [Hd|Hd]; auto; [done|].
    exfalso. by apply Hd.
  - injection Er as <- <-. destruct (decide (e = E_BAD_BLOCK)) as [->|Hne].
    + destruct Hiq as (hv1 & ? & ? & ? & ? & ?); [done|]. by eapply Hrec.
    + apply ag_bind; [unfold ag; by rewrite !recover_ne|]. intros a s3. rewrite recover_ne by done. done.
Qed.
Record topI (j : journal) : Prop := { tp_it : IT g j; tp_root : j_root j <> PAGE_NONE; tp_bm : j_badmeta j = false }.

Lemma append_dich i prog P ecc meta tv sv K D s hv :
  blen (metaof meta) = META_SIZE ->
  (forall s hv, Ready s hv tv sv K D -> progs g weak (prog (ph hv)) P ecc (js_n s) hv) ->
  (forall n hv, nokF n -> goodfree g n hv -> progsD (prog (ph hv)) n hv) ->
  JI (sanj s) hv tv sv K D -> nokF (js_n s) -> topI (js_j s) ->
  dich sanj (append_loop i prog meta) s (fpost (j_root (js_j s)) tv sv K).
Proof.
  intros Hml Hprog HpD HJ Hn [HIT Hroot Hbm].
  destruct (decide (hv mod PB = 0)) as [Ha|Ha].
  { left. by eapply append_al. }
  destruct i as [|i]; [left; apply ag_fail|]. cbn [append_loop]. pose_geo.
  pose proof (proj1 (JInv_san _ _ _ _ _ _ _) (JI_j _ _ _ _ _ _ _ _ _ HJ)) as Hj.
  pose proof (proj1 (DI_san _ _ _ _ _ _) (JI_d _ _ _ _ _ _ _ _ _ HJ)) as HD.
  assert (H0 : 0 <= hv) by apply HD.
  destruct (lem IT_rv _ _ _ _ _ Hj HIT Hroot Ha H0) as (rv & R1 & R2 & R3 & R4 & R5 & R6).
  assert (Hpa : ag sanj prepare_head s) by (apply agj, San.k_prepare_head; [apply nomid_l|apply nomid_r|apply San.kn_erase]).
  destruct (prepare_un s hv tv sv K (nf_geo _ _ _ Hn) Hj H0 Ha) as [E1|E1].
  { left. apply ag_bind.
    - apply ag_attempt. apply ag_bind; [done|]. intros a s1. by rewrite E1.
    - intros r s1. unfold attempt, bind at 1. rewrite E1. intros [= <- <-].
      apply ag_bind; [unfold ag; by rewrite !recover_ne|]. intros a s3. by rewrite recover_ne. }
  set (s1 := Js (js_n s) (set_dirty true (js_j s))) in *.
  assert (HR : Ready (sanj s1) hv tv sv K D).
  { pose proof (wp_ag _ _ _ _ Hpa (lemw prepare_head_spec Hdense _ _ _ _ _ _ HJ)) as Hps.
    unfold wp in Hps. rewrite E1 in Hps. cbn [fst snd] in Hps. destruct Hps as (hv1 & _ & HR & _ & [->|[? _]] & _); done. }
  pose proof HR as [HJ1 Hd1 Hgood Hfree Hnx].
  pose proof (proj1 (JInv_san _ _ _ _ _ _ _) (JI_j _ _ _ _ _ _ _ _ _ HJ1)) as Hj1.
  pose proof (proj1 (DI_san _ _ _ _ _ _) (JI_d _ _ _ _ _ _ _ _ _ HJ1)) as HD1.
  assert (Hgf : goodfree g (js_n s1) hv) by by split.
  pose proof (Hprog _ _ HR) as Hpr. unfold progs, wp in Hpr. cbn [js_n sanj] in Hpr.
  destruct (HpD (js_n s1) hv Hn Hgf) as [Hex [Hag|(n2 & x & En2 & Hpe & Hwk & _)]].
  - unfold ag in Hag. rewrite Hag in Hpr. cbn [fst snd] in Hpr.
    apply dich_bind.
    + apply ag_attempt. apply ag_bind; [done|]. intros [] s1'. rewrite E1. intros [= <-].
      apply ag_bind; [by apply ag_gets|]. intros a s2 [= <- <-].
      change (ag sanj (io (prog (j_head (js_j s)))) s1). rewrite (ji_head _ _ _ _ _ _ _ Hj). unfold io. by apply (ag_zoom sanj san).
    + intros r s2. unfold attempt, bind at 1. rewrite E1. unfold bind, getj, gets. change (j_head (js_j s1)) with (j_head (js_j s)). rewrite (ji_head _ _ _ _ _ _ _ Hj).
      unfold io, zoom. change (js_n s1) with (js_n s) in *. destruct (prog (ph hv) (js_n s)) as [[[]|e|y] n2] eqn:E2; cbn [fst snd] in *.
      * intros [= <- <-]. destruct Hpr as (x & d & Hpe & _).
        eapply dich_mono; [eapply (push_dich s1 n2 hv tv sv K D rv x); auto|].
        { intros _. split; [by split|done]. }
        { destruct Hpe. split; auto. by eapply ext_nokF. }
        cbn beta. intros o s' [_ Ho]. exact Ho.
      * intros [= <- <-]. destruct Hpr as [(_ & ? & _)|(-> & _ & _)]; [done|].
        left. apply ag_bind; [unfold ag; by rewrite !recover_ne|]. intros a s3. by rewrite recover_ne.
      * done.
  - right. apply wp_bind. apply wp_attempt. apply wp_bind. unfold wp at 1. rewrite E1. cbn [fst snd].
    apply wp_bind. unfold getj at 1. apply wp_gets. change (j_head (js_j s1)) with (j_head (js_j s)). rewrite (ji_head _ _ _ _ _ _ _ Hj).
    unfold io. apply wp_zoom. unfold wp at 1. rewrite En2. cbn [fst snd].
    apply wp_bind. eapply wp_mono.
    { eapply (break_spec g c Hg weak s1) with (buf := j_buf (js_j s1)) (rv := rv) (hv := hv) (tv := tv) (sv := sv) (K := K) (D := D); cbn [js_n js_j]; auto.
      - apply Hpe.
      - apply Hpe.
      - intros u Hu1 Hu2. apply (pf_cell _ _ _ _ _ _ Hpe); lia.
      - apply Hj. }
    intros o s' Ho. destruct o as [[]|e|y]; [done| |done]. destruct Ho as [?|[-> ?]]; [by left|right]. split; [done|]. exists rv. done.
Qed.

Lemma enqueue_data_dich d m tv sv K D s hv :
  JI (sanj s) hv tv sv K D -> nokF (js_n s) -> topI (js_j s) -> blen d = page_size g -> blen m = META_SIZE ->
  dich sanj (journal_enqueue (Some d) (Some m)) s (fpost (j_root (js_j s)) tv sv K).
Proof.
  intros HJ Hn Ht Hd Hm. unfold journal_enqueue.
  eapply (append_dich _ _ (fun x => x = d) False (Some m)); eauto.
  - intros. by eapply (progs_data g c Hg).
  - intros. by apply progsD_data.
Qed.
Lemma enqueue_none_dich tv sv K D s hv :
  JI (sanj s) hv tv sv K D -> nokF (js_n s) -> topI (js_j s) ->
  dich sanj (journal_enqueue None None) s (fpost (j_root (js_j s)) tv sv K).
Proof.
  intros HJ Hn Ht. unfold journal_enqueue.
  eapply (append_dich _ _ (fun x => x = ffs (page_size g)) False None); eauto.
  - intros. by eapply (progs_none g c Hg).
  - intros. by apply progsD_none.
Qed.
Lemma copy_dich p m tv sv K D s hv :
  JI (sanj s) hv tv sv K D -> nokF (js_n s) -> topI (js_j s) -> 0 <= p < TT -> blen m = META_SIZE ->
  dich sanj (journal_copy p m) s (fpost (j_root (js_j s)) tv sv K).
Proof.
  intros HJ Hn Ht Hp Hm. unfold journal_copy.
  eapply (append_dich _ _ (fun _ => True) True (Some m)); eauto.
  - intros s' hv' HR. eapply wp_mono; [by eapply (progs_copy g c Hg)|]. intros o n' Ho. destruct o as [[]|e|x].
    + destruct Ho as (x & d' & H4 & H5 & H6 & H7). exists x, d'. by split_and!.
    + destruct Ho as [Ho|(H1 & H2 & H3)]; [by left|by right].
    + done.
  - intros. by apply progsD_copy.
Qed.
End rec7.
