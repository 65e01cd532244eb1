(** C47, C48: the journal is a persistent queue. *)
From stdpp Require Import gmap.
From Verif Require Import Base Bytes BytesLemmas Wp Nand Journal MapModel Geom Tree Rep Inv Hdr StepDI StepNand StepJ StepA StepR Resume MapStep Spec Ppc History Pres Misc JSpec JChain.
Local Open Scope Z_scope.

Section jpos.
Context (g : geo) (c : Z) (Hg : geo_ok g c) (weak : Z -> bool).
Notation PB := (PB g).
Notation NB := (NB g).
Notation ph := (ph g).
Notation badv := (badv g).
Notation DI := (DI g c).
Notation JInv := (JInv g c).
Notation "'lem' x" := (x g c Hg) (at level 9, x at level 8, only parsing).
(** Positions of known pages. *)
Lemma K_at s hv tv sv K w d m : JInv s hv tv sv K -> K !! ph w = Some (d, m) -> hv / PB - NB < w / PB <= hv / PB ->
  tv <= w < hv /\ badv (js_n s) (w / PB) = false.
Proof.
  intros Hj Hp Hw. destruct (ji_K _ _ _ _ _ _ _ Hj _ _ _ Hp) as (v & [] & _).
  assert (v = w) as ->; [|done]. apply (lem win_page (hv / PB)); auto.
  pose proof (ji_full _ _ _ _ _ _ _ Hj). pose proof (ji_order _ _ _ _ _ _ _ Hj).
  split; [pose proof (lem blk_le sv v ltac:(lia)); lia|apply (lem blk_le); lia].
Qed.
Lemma win_hv s hv tv sv K w : JInv s hv tv sv K -> sv <= w <= hv -> hv / PB - NB < w / PB <= hv / PB.
Proof.
  intros Hj Hw. pose proof (ji_full _ _ _ _ _ _ _ Hj).
  split; [pose proof (lem blk_le sv w ltac:(lia)); lia|apply (lem blk_le); lia].
Qed.
Lemma gap_bad n hv hv0 hv' sv D : DI n hv' sv D -> cv D < hv -> hv mod PB = 0 -> hv0 / PB <= hv' / PB ->
  forall b, hv / PB <= b < hv0 / PB -> badv n b = true.
Proof.
  intros HD Hc Ha Hle b Hb. apply (d_gap _ _ _ _ _ _ HD). split; [|lia].
  pose proof (lem blk_le (cv D) hv ltac:(lia)). pose proof (lem v_decomp (cv D)). pose proof (lem v_decomp hv).
  pose proof (lem off_range (cv D)).
  destruct (Z.eq_dec (cv D / PB) (hv / PB)) as [E|]; [|lia]. rewrite E in *. lia.
Qed.

End jpos.

Section jprops.
Context (g : geo) (c : Z) (Hg : geo_ok2 g c) (weak : Z -> bool) (Hdense : dense g weak).
Notation PB := (PB g).
Notation PC := (PC c).
Notation NB := (NB g).
Notation TT := (TT g).
Notation ph := (ph g).
Notation user := (user c).
Notation nextv := (nextv c).
Notation badv := (badv g).
Notation DI := (DI g c).
Notation nok := (nok g weak).
Notation JInv := (JInv g c).
Notation JI := (JI g c weak).
Notation crashed := (crashed g c weak).
Notation app_post := (app_post g c weak).
Notation chain := (chain g c).
Notation "'lem' x" := (x g c Hg) (at level 9, x at level 8, only parsing).
Notation K_at := (K_at g c Hg).
Notation win_hv := (win_hv g c Hg).
Notation gap_bad := (gap_bad g c Hg).
Ltac pose_geo :=
  pose proof (PC_ge4 _ (go2_c _ _ Hg)) as HPC4; pose proof (PB_pos _ _ Hg) as HPB4; pose proof (PB_ge _ _ Hg) as HPBC;
  pose proof (NB_ge _ _ Hg) as HNB8; pose proof (TT_le _ _ Hg) as HTT31; pose proof (TT_pos _ _ Hg) as HTTpos.

(** ** Invariants *)
Definition dckof (D : dsk) : bytes := if cv D <? 0 then replicate 4 255 else ckd D.

(** What the chip holds. *)
Definition DQ (n : nand) (D : dsk) (l : list entry) (k : bytes) : Prop :=
  k = dckof D /\ exists rv R, user rv /\ (0 <= cv D -> tdv D <= rv) /\
    chain (badv n) (Kd D) (cv D + 1) rv R /\ core R = core l.

Definition rootI (s : js) (hv tv : Z) (K : kmap) (Q : list entry) : Prop :=
  forall x, last Q = Some (Some x) ->
    exists u, tv <= u < hv /\ user u /\ j_root (js_j s) = ph u /\ K !! ph u = Some x /\
      forall w y, user w -> u < w < hv -> K !! ph w <> Some y.

Definition QIx (s : js) (st : jst) hv tv sv K D : Prop :=
  JI s hv tv sv K D /\ chain (badv (js_n s)) K hv tv (q st) /\ DQ (js_n s) D (dq st) (dck st) /\
  cookie s = ck st /\ synced st = negb (j_dirty (js_j s)) /\ rootI s hv tv K (q st).
Definition QI (s : js) (st : jst) : Prop := exists hv tv sv K D, QIx s st hv tv sv K D.
Definition CQ (n : nand) (st : jst) : Prop := exists D, crashed n D /\ DQ n D (dq st) (dck st).

Lemma bmono_v n n' b : bmono n n' -> badv n b = true -> badv n' b = true.
Proof. intros H. apply H. Qed.
Lemma DQ_mono n n' D l k : bmono n n' -> DQ n D l k -> DQ n' D l k.
Proof.
  intros H (E & rv & R & H1 & H2 & H3 & H4). split; [done|]. exists rv, R. split_and!; auto.
  eapply chain_mono; [exact H3|done|]. intros b. by apply bmono_v.
Qed.

Lemma cv_user n hv sv D : DI n hv sv D -> user (cv D + 1) /\ cv D + 1 <= hv /\
  ((cv D + 1) mod PB <> 0 -> badv n ((cv D + 1) / PB) = false).
Proof.
  intros HD. pose_geo. pose proof HD as [].
  assert (Hu : (cv D + 1) mod PC = 0).
  { destruct (divmod_wrap PC (cv D) 1) as [_ E]; [lia|lia|]. done. }
  split; [unfold Geom.user; lia|]. split; [lia|]. intros Hne.
  destruct (Z.eq_dec (cv D) (-1)) as [E|Hc]; [rewrite E in Hne; by rewrite Z.mod_0_l in Hne by lia|].
  destruct (d_cp ltac:(lia)) as [Hb _].
  assert (E : (cv D + 1) / PB = cv D / PB); [|by rewrite E].
  pose proof (Z.mod_pos_bound (cv D) PB ltac:(lia)).
  destruct (Z.eq_dec (cv D mod PB) (PB - 1)) as [E1|E1].
  - destruct (divmod_wrap PB (cv D) 1) as [_ E2]; [lia|lia|]. congruence.
  - apply (divmod_add PB); lia.
Qed.

(** The head skipped bad blocks. *)
Lemma chain_skip bad K lim hv hv' Q : hv <= hv' -> hv = hv' \/ (hv mod PB = 0 /\ hv' mod PB = 0) ->
  (hv < hv' -> forall b, hv / PB <= b < hv' / PB -> bad b = true) -> hv' <= lim ->
  chain bad K lim hv' Q -> chain bad K lim hv Q.
Proof.
  intros Hle Hal Hb Hl H. pose_geo.
  destruct Hal as [->|[Ha Ha']]; [done|].
  assert (Hn : exists k : nat, hv' / PB - hv / PB <= Z.of_nat k) by (exists (Z.to_nat (hv' / PB - hv / PB)); lia).
  destruct Hn as [k Hk]. revert hv Hle Ha Hb Hk. induction k as [|k IH]; intros hv Hle Ha Hb Hk.
  { assert (hv = hv') as ->; [|done]. pose proof (lem blk_le hv hv' Hle).
    pose proof (lem v_decomp hv). pose proof (lem v_decomp hv'). assert (hv / PB = hv' / PB) as E by lia. rewrite E in *. lia. }
  destruct (Z.eq_dec hv hv') as [->|Hne]; [done|].
  pose proof (lem blk_start (hv / PB + 1)) as [E1 E2]. pose proof (next_blk_gt g c Hg hv).
  assert (Hlt : hv / PB < hv' / PB).
  { pose proof (lem blk_le hv hv' Hle). pose proof (lem v_decomp hv). pose proof (lem v_decomp hv').
    destruct (Z.eq_dec (hv / PB) (hv' / PB)) as [E|]; [|lia]. rewrite E in *. lia. }
  assert (Hle2 : (hv / PB + 1) * PB <= hv') by (apply (lem blk_ge_start); lia).
  apply ch_bad; auto; [lia|apply Hb; lia|]. apply IH; auto; [|rewrite E1; lia].
  intros _ b. rewrite E1. intros Hr. apply Hb; lia.
Qed.

(** ** Appending *)
Definition apost (st : jst) (e : entry) (ecc : Prop) (o : out unit) (s' : js) : Prop :=
  match o with
  | OK _ => exists st', appended st e st' /\ QI s' st'
  | ER x => (x = E_JOURNAL_FULL \/ (x = E_ECC /\ ecc)) /\ exists st', unchanged st st' /\ QI s' st'
  | ST x => x = Crash /\ (CQ (js_n s') st \/ exists st', appended st e st' /\ CQ (js_n s') st')
  end.

Lemma append_QI s st hv tv sv K D (app : MJ unit) (P : bytes -> Prop) (ecc : Prop) m e :
  QIx s st hv tv sv K D -> keepj bmono app ->
  (forall d x, P d -> e = Some x -> x = (d, m)) ->
  wp app s (app_post hv tv sv K D s P ecc m) ->
  wp app s (apost st e ecc).
Proof.
  intros (HJ & HC & HD & Hck & Hsy & Hrt) Hkeep HP Happ. pose_geo.
  pose proof (Hkeep s) as Hbm. unfold wp in *. destruct (app s) as [o s']. cbn [fst snd] in *.
  pose proof HJ as [Hn Hj HDI Hc]. pose proof (ji_order _ _ _ _ _ _ _ Hj) as Hord.
  assert (Hgd : hv mod PB <> 0 -> badv (js_n s) (hv / PB) = false) by (intros H; by apply (ji_free _ _ _ _ _ _ _ Hj)).
  assert (Hcvh : cv D < hv) by apply HDI.
  (* the chain after a successful append *)
  assert (Hnew : forall n' hv' sv' D' d, bmono (js_n s) n' -> P d -> hv <= hv' -> hv' = hv \/ (hv mod PB = 0 /\ hv' mod PB = 0) ->
    K !! ph hv' = None -> user hv' -> DI n' (nextv hv') sv' D' -> (hv' = hv \/ D' = D) ->
    chain (badv n') (<[ph hv' := (d, m)]> K) (nextv hv') tv (q st ++ [e])).
  { intros n' hv' sv' D' d Hb Hd Hle Hal HK Hu' HD' HDD.
    pose proof (nextv_gt c hv').
    eapply (chain_app g c Hg (badv (js_n s))); [exact HC|lia|apply Hj|done| | |lia|].
    - intros p x Hp. rewrite lookup_insert_ne; [done|]. congruence.
    - intros b. by apply bmono_v.
    - apply chain_skip with (hv' := hv'); auto; [naive_solver| |lia|].
      + intros Hlt b Hbr. destruct HDD as [->| ->]; [lia|]. destruct Hal as [->|[Ha _]]; [lia|].
        eapply (gap_bad n' hv hv' (nextv hv')); eauto. apply (lem blk_le). lia.
      + apply ch_page; [lia|done| |apply ch_nil; lia]. intros x Hx. rewrite lookup_insert. f_equal. symmetry. by eapply HP. }
  destruct o as [[]|x|x]; cbn in Happ |- *.
  - destruct Happ as (hv' & d & HPd & Hdl & Hle & HKf & Hal & Er & Eck & Hcase).
    assert (Hroot : forall Q' s'', j_root (js_j s'') = ph hv' -> user hv' -> rootI s'' (nextv hv') tv (<[ph hv' := (d, m)]> K) (Q' ++ [e])).
    { intros Q' s'' Er' Hu' x Hl. rewrite last_snoc in Hl. injection Hl as ->. exists hv'.
      pose proof (nextv_gt c hv').
      split; [lia|]. split; [done|]. split; [done|]. split; [rewrite lookup_insert; f_equal; symmetry; by eapply HP|].
      intros w y Hw Hr. exfalso. pose proof (lem nextv_next w hv'). naive_solver lia. }
    assert (Hu' : user hv').
    { destruct Hal as [->|[_ Ha]]; [apply Hj|]. unfold Geom.user. rewrite (lem off_0_slot) by done. lia. }
    destruct Hcase as [(Hdi & Hs & HJ')|(Hdi & Hs & HJ')].
    + exists (Jst (q st ++ [e]) (ck st) false (dq st) (dck st)). split; [done|].
      exists (nextv hv'), tv, sv, (<[ph hv' := (d, m)]> K), D. split; [exact HJ'|]. cbn [q dq dck ck synced].
      split; [eapply Hnew; eauto; apply HJ'|]. split; [by eapply DQ_mono|]. split; [congruence|]. split; [by rewrite Hdi|]. by apply Hroot.
    + assert (Ehv : hv' = hv).
      { destruct Hal as [|[_ Ha]]; [done|]. rewrite (lem off_0_slot) in Hs by done. lia. }
      assert (HC' : chain (badv (js_n s')) (<[ph hv' := (d, m)]> K) (nextv hv') tv (q st ++ [e])) by (eapply (Hnew _ _ tv (Dsk (hv' + 1) tv (cookie s) m (<[ph hv' := (d, m)]> K))); eauto; apply HJ').
      exists (Jst (q st ++ [e]) (ck st) true (q st ++ [e]) (ck st)). split; [done|].
      exists (nextv hv'), tv, tv, (<[ph hv' := (d, m)]> K), (Dsk (hv' + 1) tv (cookie s) m (<[ph hv' := (d, m)]> K)). split; [exact HJ'|].
      cbn [q dq dck ck synced]. split; [done|]. split; [|split; [congruence|split; [by rewrite Hdi|by apply Hroot]]].
      assert (En : nextv hv' = hv' + 1 + 1).
      { destruct (lem nextv_cases hv' Hu') as [(F1&E&F2&F3)|(F1&E&F2&F3)]; lia. }
      split; [unfold dckof; cbn [cv ckd]; replace (hv' + 1 <? 0) with false by (symmetry; apply Z.ltb_ge; lia); congruence|].
      exists tv, (q st ++ [e]). cbn [cv tdv Kd]. rewrite <-En. split_and!; auto; [apply Hj|lia].
  - destruct Happ as (He & Hr & hv' & Hle & HJ' & Hal). split; [done|].
    exists (Jst (q st) (ck st) (negb (j_dirty (js_j s'))) (dq st) (dck st)). split.
    { split_and!; auto. cbn [synced]. rewrite Hsy. intros Hd. destruct (j_dirty (js_j s)) eqn:E; [|done].
      by rewrite (jr_dirty _ _ Hr E) in Hd. }
    pose proof HJ' as [Hn' Hj' HD' Hc'].
    assert (Hskb : hv < hv' -> forall b, hv / PB <= b < hv' / PB -> badv (js_n s') b = true).
    { intros Hlt b Hbr. destruct Hal as [->|[Ha _]]; [lia|].
      eapply (gap_bad (js_n s') hv hv' hv'); eauto. done. }
    exists hv', tv, sv, K, D. split; [exact HJ'|]. cbn [q dq dck ck synced]. split.
    { rewrite <-(app_nil_r (q st)).
      eapply (chain_app g c Hg (badv (js_n s))); [exact HC|lia|apply Hj|done|done| |lia|].
      - intros b. by apply bmono_v.
      - apply chain_skip with (hv' := hv'); auto; [naive_solver|lia|apply ch_nil; lia]. }
    split; [by eapply DQ_mono|]. split; [rewrite <-Hck; unfold cookie; by rewrite (jr_buf _ _ Hr)|]. split; [done|].
    intros x0 Hl. destruct (Hrt x0 Hl) as (u & H1 & H2 & H3 & H4 & H5). exists u. split_and!; auto; try lia.
    { by rewrite (jr_root _ _ Hr). }
    intros w [d' m'] Hw Hwr HK. destruct (Z.lt_ge_cases w hv) as [Hlt|Hge]; [by eapply H5; eauto; lia|].
    destruct (ji_K _ _ _ _ _ _ _ Hj _ _ _ HK) as (v & [] & _).
    assert (v = w); [|lia]. apply (lem win_page (hv' / PB)); [| |done].
    + eapply win_hv; [exact Hj'|lia].
    + eapply win_hv; [exact Hj'|lia].
  - destruct Happ as [-> [Hcr|(hv' & d & HPd & Hdl & Hle & HKf & Hal & Hcr)]]; split; auto.
    + left. exists D. split; [done|]. by eapply DQ_mono.
    + right. exists (Jst (q st ++ [e]) (ck st) true (q st ++ [e]) (ck st)). split; [done|].
      eexists. split; [exact Hcr|]. cbn [q dq dck ck synced].
      destruct Hcr as [Hn' (hx & sx & HDx)].
      pose proof (d_cvs _ _ _ _ _ _ HDx) as Hs. cbn [cv] in Hs.
      assert (Hs2 : hv' mod PC = PC - 2).
      { replace hv' with (hv' + 1 + (-1)) by lia. destruct (divmod_add PC (hv' + 1) (-1)) as [_ E]; lia. }
      assert (Ehv : hv' = hv).
      { destruct Hal as [|[_ Ha]]; [done|]. rewrite (lem off_0_slot) in Hs2 by done. lia. }
      subst hv'. assert (Hu : user hv) by apply Hj.
      assert (En : nextv hv = hv + 1 + 1).
      { destruct (lem nextv_cases hv Hu) as [(F1&E&F2&F3)|(F1&E&F2&F3)]; lia. }
      split; [unfold dckof; cbn [cv ckd]; replace (hv + 1 <? 0) with false by (symmetry; apply Z.ltb_ge; lia); congruence|].
      exists tv, (q st ++ [e]). cbn [cv tdv Kd]. rewrite <-En. split_and!; auto; [apply Hj|lia|].
      pose proof (nextv_gt c hv).
      eapply (chain_app g c Hg (badv (js_n s))); [exact HC|lia|done|done| | |lia|].
      * intros p x Hp. rewrite lookup_insert_ne; [done|]. congruence.
      * intros b. by apply bmono_v.
      * apply ch_page; [lia|done| |apply ch_nil; lia]. intros x Hx. rewrite lookup_insert. f_equal. symmetry. by eapply HP.
Qed.

(** ** Power-up *)
Lemma chain_blank bad K lim v Q : chain bad K lim v Q -> user v ->
  (forall u, user u -> v <= u < lim -> K !! ph u = None) -> blank Q.
Proof.
  intros H. induction H as [v Hv|v e Q Hv Huv He H IH|v Q Hv Ha Hb H IH]; intros Hu HK.
  - apply blank_nil.
  - constructor.
    + destruct e as [x|]; [|done]. specialize (He x eq_refl). by rewrite HK in He.
    + apply IH; [by apply (lem nextv_user)|]. intros u Hu' Hr. apply HK; auto. pose proof (nextv_gt c v). lia.
  - apply IH; [apply (lem blk_start_user)|]. intros u Hu' Hr. apply HK; auto. pose proof (next_blk_gt g c Hg v). lia.
Qed.

Lemma cv_prev n hv sv D : DI n hv sv D -> 0 <= cv D ->
  user (cv D - 1) /\ badv n ((cv D - 1) / PB) = false.
Proof.
  intros HD Hcv. pose_geo. pose proof HD as [].
  assert (E : (cv D - 1) mod PC = PC - 2).
  { replace (cv D - 1) with (cv D + (-1)) by lia. destruct (divmod_add PC (cv D) (-1)) as [_ E]; lia. }
  split; [unfold Geom.user; lia|].
  destruct (d_cp Hcv) as [Hb _]. replace ((cv D - 1) / PB) with (cv D / PB); [done|].
  assert (Hne : cv D mod PB <> 0) by (intros H; rewrite (lem off_0_slot) in d_cvs by done; lia).
  pose proof (Z.mod_pos_bound (cv D) PB ltac:(lia)).
  replace (cv D - 1) with (cv D + (-1)) by lia. symmetry. apply (divmod_add PB); lia.
Qed.

Lemma restart_none n D l k : choose_ppc (g_lps g) (g_lppb g) = c -> crashed n D -> DQ n D l k -> cv D = -1 ->
  core l = [] /\ QI (snd (jrestart n)) (Jst [] k true l k).
Proof.
  intros Hppc [Hn (hv & sv & HD)] HQ Hcv. unfold jrestart. pose_geo.
  set (s0 := Js n (journal_init (n_geo n))).
  assert (Ec : j_ppc (js_j s0) = c). { cbn. by rewrite (nk_geo _ _ _ Hn). }
  pose proof HQ as (Ek & rv & R & Hur & Htd & HR & Hcore).
  destruct (resume_none' g c Hg weak s0 hv sv D) as (x & E & Ex & HJ & Er & Edd & HK & Ebf); auto.
  rewrite E. cbn [snd]. split.
  { rewrite <-Hcore. rewrite <-(app_nil_r R), core_pre; [done|].
    eapply chain_blank; [exact HR|done|]. intros u _ _. by rewrite HK, lookup_empty. }
  exists 0, 0, 0, ∅, D. split; [exact HJ|]. cbn [q dq dck ck synced].
  split; [apply ch_nil; lia|]. split; [by rewrite Ex|].
  split.
  { rewrite Ek. unfold dckof, cookie. rewrite Hcv, Ebf. change (-1 <? 0) with true. cbn match.
    unfold ffs, slice.
    pose proof (go_fit _ _ Hg) as Hfit. change (2 ^ c) with PC in Hfit. unfold HEADER_SIZE, COOKIE_SIZE, META_SIZE in *.
    rewrite drop_replicate, take_replicate. f_equal. lia. }
  split; [by rewrite Edd|done].
Qed.

Lemma restart_QI n st : choose_ppc (g_lps g) (g_lppb g) = c -> CQ n st ->
  exists st', cycled st st' /\ QI (snd (jrestart n)) st'.
Proof.
  intros Hppc (D & Hcr & HQ).
  assert (Hcv1 : -1 <= cv D) by (destruct Hcr as [_ (hv & sv & [])]; done).
  destruct (Z.eq_dec (cv D) (-1)) as [Hcv|Hcv].
  - destruct (restart_none n D _ _ Hppc Hcr HQ Hcv) as [H1 H2]. eexists. split; [|exact H2]. split; [by rewrite H1|done].
  - destruct Hcr as [Hn (hv & sv & HD)]. unfold jrestart. pose_geo.
    set (s0 := Js n (journal_init (n_geo n))).
    assert (Ec : j_ppc (js_j s0) = c). { cbn. by rewrite (nk_geo _ _ _ Hn). }
    assert (Eb : blen (j_buf (js_j s0)) = page_size g).
    { cbn. rewrite (nk_geo _ _ _ Hn). apply blen_ffs. pose proof (page_size_pos g c Hg). lia. }
    pose proof HQ as (Ek & rv & R & Hur & Htd & HR & Hcore).
    destruct (resume_some' g c Hg weak Hdense (go2_c _ _ Hg) s0 hv sv D) as (x & hv' & tv' & d0 & E & Ex & (HJ & HK) & Er & Edd & Eck & T1 & T2 & T3 & T4 & _); auto; [lia|].
    rewrite E. cbn [snd]. set (K' := <[ph (cv D - 1) := (d0, rmd D)]> (Kd D)) in *.
    assert (HK2 : forall p y, Kd D !! p = Some y -> K' !! p = Some y) by (intros p y Hp; by eapply lookup_weaken).
    pose proof HJ as [Hn' Hj' HD' Hc'].
    pose proof (ji_tu _ _ _ _ _ _ _ Hj') as Htu.
    assert (H1 : exists Q1, chain (badv n) (Kd D) (cv D + 1) tv' Q1 /\ core Q1 = core R).
    { destruct (Z.le_gt_cases tv' rv) as [Hl|Hl].
      - destruct (chain_left g c Hg _ _ _ tv' rv R Hl Htu Hur HR) as (a & Ha & Hca).
        exists (a ++ R). split; [done|]. by apply core_pre.
      - destruct (chain_drop g c Hg _ _ _ _ _ tv' HR) as (b & a & Q0 & Hb & Ha & -> & Hc0 & _); auto; [lia| |].
        { intros u Hu Hr. destruct (Kd D !! ph u) as [[d m]|] eqn:Eq; [|done]. exfalso.
          destruct (d_K _ _ _ _ _ _ HD _ _ _ Eq) as (_ & v & [] & _).
          destruct (d_td _ _ _ _ _ _ HD ltac:(lia)) as (_ & _ & D3 & D4).
          assert (u = v); [|lia]. specialize (Htd ltac:(lia)).
          apply (lem win_page (cv D / PB)); [..|done].
          - pose proof (lem blk_le (tdv D) u ltac:(lia)). pose proof (lem blk_le u (cv D) ltac:(lia)). lia.
          - pose proof (lem blk_le (tdv D) v ltac:(lia)). pose proof (lem blk_le v (cv D) ltac:(lia)). lia. }
        exists (a ++ Q0). split; [done|]. by rewrite !core_pre. }
    destruct H1 as (Q1 & HQ1 & Hcore1).
    destruct (cv_user _ _ _ _ HD') as (Hu1 & Hle1 & Hgd1). cbn [Dk cv] in Hu1, Hle1, Hgd1. rewrite Ex in Hgd1. cbn [js_n s0] in Hgd1.
    destruct (chain_all_blank g c Hg (badv n) K' (cv D + 1) hv') as (Q2 & Hb2 & HQ2); [lia|done|apply Hj'|].
    exists (Jst (Q1 ++ Q2) (dck st) true (dq st) (dck st)). split.
    { split; [|done]. cbn [q]. rewrite core_post by done. congruence. }
    assert (HQ12 : chain (badv n) K' hv' tv' (Q1 ++ Q2)).
    { eapply (chain_app g c Hg (badv n)); [exact HQ1|lia|done|done|done|done|lia|done]. }
    exists hv', tv', tv', K', (Dk D K'). split; [exact HJ|]. cbn [q dq dck ck synced]. rewrite Ex. cbn [js_n s0].
    split; [done|]. split.
    { split; [done|]. exists rv, R. cbn [Dk cv tdv Kd]. split_and!; auto. eapply chain_mono; [exact HR|done|done]. }
    split.
    { rewrite Eck, Ek. unfold dckof. by rewrite (proj2 (Z.ltb_ge (cv D) 0)) by lia. }
    split; [by rewrite Edd|].
    intros y Hl.
    assert (E2 : Q2 = []).
    { destruct (rev Q2) as [|e r] eqn:Er2; [by rewrite <-(rev_involutive Q2), Er2|].
      assert (Eq : Q2 = rev r ++ [e]) by (by rewrite <-(rev_involutive Q2), Er2).
      rewrite Eq, app_assoc, last_snoc in Hl. injection Hl as ->.
      rewrite Eq in Hb2. apply blank_app_inv in Hb2 as [_ Hb2]. by inversion Hb2. }
    rewrite E2, app_nil_r in Hl.
    destruct (chain_last g c Hg (badv n) K' (cv D + 1) tv' Q1 (Some y)) as (w & W1 & W2 & W3 & W4); auto.
    { eapply chain_mono; [exact HQ1|done|done]. }
    destruct (cv_prev _ _ _ _ HD ltac:(lia)) as [Hp1 Hp2].
    assert (Hwcv : w <> cv D).
    { intros ->. unfold Geom.user in W2. pose proof (d_cvs _ _ _ _ _ _ HD). lia. }
    assert (w = cv D - 1) as ->.
    { destruct (Z.eq_dec w (cv D - 1)) as [|Hne]; [done|]. exfalso.
      rewrite (W4 (cv D - 1)) in Hp2; [done|done|lia]. }
    exists (cv D - 1). split_and!; auto; [lia|lia|].
    intros w [d m] Hw Hwr HKw.
    destruct (d_K _ _ _ _ _ _ HD' _ _ _ HKw) as (_ & v & [] & _). cbn [Dk cv] in kd_v.
    assert (v = w); [|lia]. apply (lem win_page (hv' / PB)); [| |done].
    + eapply win_hv; [exact Hj'|lia].
    + eapply win_hv; [exact Hj'|lia].
Qed.

(** ** Peek *)
Lemma peek_QI s st hv tv sv K D : QIx s st hv tv sv K D ->
  exists tv' b Q0 s1, q st = b ++ Q0 /\ blank b /\ tv <= tv' <= hv /\
    journal_peek s = (OK (if tv =? hv then PAGE_NONE else ph tv'), s1) /\
    QIx s1 (with_q Q0 st) hv tv' sv K D /\ js_n s1 = js_n s /\
    (tv' < hv -> exists e l, Q0 = e :: l /\ (forall x, e = Some x -> K !! ph tv' = Some x) /\
      chain (badv (js_n s)) K hv (nextv tv') l).
Proof.
  intros (HJ & HC & HD & Hck & Hsy & Hrt). pose_geo.
  destruct (peek_spec' g c Hg weak Hdense s hv tv sv K D HJ) as (tv' & H1 & H2 & H3 & H4 & H5 & HJ').
  set (s1 := Js (js_n s) (set_tail (ph tv') (js_j s))) in *.
  pose proof HJ' as [Hn' Hj' HDI' Hc'].
  assert (HKn : forall u, user u -> tv <= u < tv' -> K !! ph u = None).
  { intros u Hu Hr. destruct (K !! ph u) as [[d m]|] eqn:E; [|done]. exfalso.
    pose proof (ji_order _ _ _ _ _ _ _ (JI_j _ _ _ _ _ _ _ _ _ HJ)) as Ho.
    destruct (K_at s1 hv tv' sv K u d m Hj' E) as [Hr2 _]; [|lia]. eapply win_hv; [exact Hj'|lia]. }
  assert (Hch : exists b Q0, blank b /\ q st = b ++ Q0 /\ chain (badv (js_n s)) K hv tv' Q0).
  { destruct H3 as [->|Ha]; [exists [], (q st); split_and!; auto using blank_nil|].
    destruct (chain_drop g c Hg _ _ _ _ _ tv' HC) as (b & a & Q0 & Hb & Hba & E & Hc0 & Hnil); auto; [lia|].
    rewrite Hnil in Hc0 by (intros; done). exists b, Q0. auto. }
  destruct Hch as (b & Q0 & Hb & Eq & Hc0).
  exists tv', b, Q0, s1. split; [done|]. split; [done|]. split; [done|]. split; [done|].
  assert (Hlast : forall x, last Q0 = Some (Some x) -> last (q st) = Some (Some x)).
  { intros x Hl. rewrite Eq, last_app, Hl. done. }
  split; [|split; [done|]].
  - split; [exact HJ'|]. cbn [q dq dck ck synced with_q]. split; [done|]. split; [done|]. split; [done|]. split; [done|].
    intros x Hl. destruct (Hrt x (Hlast x Hl)) as (u & U1 & U2 & U3 & U4 & U5). exists u.
    destruct x as [d m]. pose proof (ji_order _ _ _ _ _ _ _ (JI_j _ _ _ _ _ _ _ _ _ HJ)) as Ho.
    destruct (K_at s1 hv tv' sv K u d m Hj' U4) as [Hr2 _]; [eapply win_hv; [exact Hj'|lia]|].
    split_and!; auto; lia.
  - intros Hlt. destruct Hc0 as [v Hv|v e Q Hv Huv He Hc0|v Q Hv Ha Hbad Hc0]; [lia|by exists e, Q|].
    rewrite H4 in Hbad; done.
Qed.

(** ** Reading *)
Lemma fetch_known s hv tv sv K D v d m : JI s hv tv sv K D -> K !! ph v = Some (d, m) ->
  jfetch (ph v) s = (OK (JPage (inr m) (inr d)), s).
Proof.
  intros [Hn Hj _ _] HK.
  pose proof (read_meta_spec g c Hg s hv tv sv K (nk_geo _ _ _ Hn) Hj _ _ _ HK) as E1.
  destruct (K_cell g c Hg s hv tv sv K _ _ _ Hj HK) as (H1 & H2 & H3 & _).
  unfold jfetch, bind, attempt, getg, gets. rewrite E1. unfold io, zoom.
  rewrite (nk_geo _ _ _ Hn). pose proof (page_size_pos g c Hg).
  rewrite (read_spec g c Hg) by (auto; try apply Hn; lia). unfold cellv. rewrite H2.
  rewrite slice_all by done. by destruct s.
Qed.
Lemma fetch_any s hv tv sv K D v : JI s hv tv sv K D -> user v ->
  exists x y, jfetch (ph v) s = (OK (JPage x y), s).
Proof.
  intros HJ Hu. pose proof HJ as [Hn Hj _ _].
  unfold jfetch, bind, attempt, getg, gets.
  assert (E1 : exists x, match read_meta (ph v) s with (OK a, s') => (OK (inr a), s') | (ER e, s') => (OK (inl e), s') | (ST x, s') => (ST x, s') end = (OK x, s)).
  { destruct (read_meta_any g c Hg weak s hv tv sv K D v HJ Hu) as [(m & E & _)|[E _]]; rewrite E; eauto. }
  destruct E1 as [x E1]. rewrite E1. unfold io, zoom. rewrite (nk_geo _ _ _ Hn). pose proof (page_size_pos g c Hg).
  rewrite (read_spec g c Hg) by (auto; try apply Hn; lia).
  destruct (cell_bytes g (cellv g (js_n s) v)); destruct s; eauto.
Qed.

(** ** The calls *)
Definition jpost (st : jst) (o : jop) (r : out jresp) (s' : js) : Prop :=
  match r with
  | ST x => x = Crash /\ exists st1, (st1 = st \/ exists r, jcall g st o (OK r) st1) /\ CQ (js_n s') st1
  | _ => exists st', jcall g st o r st' /\ QI s' st'
  end.

Lemma ps_pow : page_size g = 2 ^ g_lps g.
Proof. unfold page_size. rewrite Z.shiftl_mul_pow2, Z.mul_1_l; [done|]. apply Hg. Qed.

Lemma ph_not_none v : (ph v =? PAGE_NONE) = false.
Proof. apply Z.eqb_neq. pose proof (lem ph_range v). pose proof (lem TT_le). unfold PAGE_NONE. lia. Qed.

Lemma jp_enq s st d m : QI s st -> valid_jop g (JEnq d m) -> wp (jexec (JEnq d m)) s (jpost st (JEnq d m)).
Proof.
  intros (hv & tv & sv & K & D & HQ) [Hd Hm]. cbn [jexec]. apply wp_bind.
  eapply wp_mono; [eapply (append_QI s st hv tv sv K D _ (fun x => x = d) False m (Some (d, m)))|].
  - done.
  - apply bm_enqueue.
  - intros d' x -> [= ->]. done.
  - apply (enqueue_data_spec g c Hg weak Hdense); [apply HQ|by rewrite ps_pow|done].
  - intros o s' Ho. destruct o as [[]|e|x]; cbn in Ho |- *.
    + destruct Ho as (st' & H1 & H2). exists st'. split; [by constructor|done].
    + destruct Ho as ([->|[_ []]] & st' & H1 & H2). exists st'. split; [by constructor|done].
    + destruct Ho as (-> & [H|(st' & H1 & H2)]); split; auto; [exists st; auto|].
      exists st'. split; [|done]. right. eexists. by constructor.
Qed.

Lemma jp_pad s st : QI s st -> wp (jexec JPad) s (jpost st JPad).
Proof.
  intros (hv & tv & sv & K & D & HQ). cbn [jexec]. apply wp_bind.
  assert (E : ffs (page_size g) = replicate (Z.to_nat (2 ^ g_lps g)) 255) by (by rewrite ps_pow).
  eapply wp_mono; [eapply (append_QI s st hv tv sv K D _ (fun x => x = ffs (page_size g)) False (ffs META_SIZE)
    (Some (replicate (Z.to_nat (2 ^ g_lps g)) 255, replicate 132 255)))|].
  - done.
  - apply bm_enqueue.
  - intros d' x -> [= <-]. by rewrite E.
  - apply (enqueue_none_spec g c Hg weak Hdense). apply HQ.
  - intros o s' Ho. destruct o as [[]|e|x]; cbn in Ho |- *.
    + destruct Ho as (st' & H1 & H2). exists st'. split; [by constructor|done].
    + destruct Ho as ([->|[_ []]] & st' & H1 & H2). exists st'. split; [by constructor|done].
    + destruct Ho as (-> & [H|(st' & H1 & H2)]); split; auto; [exists st; auto|].
      exists st'. split; [|done]. right. eexists. by constructor.
Qed.

Lemma QIx_end s st hv sv K D : QIx s st hv hv sv K D -> q st = [].
Proof. intros (_ & HC & _). by apply (chain_end g c _ _ _ _ _ HC). Qed.

Lemma CQ_with n l st : CQ n (with_q l st) -> CQ n st.
Proof. done. Qed.

Lemma jp_copy s st m : QI s st -> valid_jop g (JCopy m) -> wp (jexec (JCopy m)) s (jpost st (JCopy m)).
Proof.
  intros (hv & tv & sv & K & D & HQ) Hm. cbn [jexec]. pose_geo.
  destruct (peek_QI s st hv tv sv K D HQ) as (tv' & b & Q0 & s1 & Eq & Hb & Htv & E & HQ1 & En & Hhd).
  eapply wp_bind_ok; [exact E|].
  destruct (Z.eqb_spec tv hv) as [Et|Et].
  { change (PAGE_NONE =? PAGE_NONE) with true. cbn match. apply wp_ret. cbn [jpost].
    assert (tv' = hv) as -> by lia. pose proof (QIx_end _ _ _ _ _ _ HQ1) as E0. cbn [q with_q] in E0. subst Q0.
    rewrite app_nil_r in Eq. exists (with_q [] st). split; [constructor; by rewrite Eq|].
    by exists hv, hv, sv, K, D. }
  rewrite ph_not_none. apply wp_bind.
  destruct (Z.eq_dec tv' hv) as [->|Hne].
  { pose proof (QIx_end _ _ _ _ _ _ HQ1) as E0. cbn [q with_q] in E0. subst Q0. rewrite app_nil_r in Eq.
    eapply wp_mono; [eapply (append_QI s1 (with_q [] st) hv hv sv K D _ (fun _ => True) True m None)|].
    - done.
    - apply bm_jcopy.
    - done.
    - apply (copy_any_spec g c Hg weak Hdense); [apply HQ1|apply (lem ph_range)|done].
    - intros o s' Ho. destruct o as [[]|e|x]; cbn in Ho |- *.
      + destruct Ho as (st' & H1 & H2). exists st'. split; [|done]. apply jc_copy_phantom; [by rewrite Eq|done].
      + destruct Ho as (He & st' & H1 & H2). exists st'. split; [|done].
        eapply (jc_copy_fail g st b []); [by rewrite app_nil_r|done|done|naive_solver].
      + destruct Ho as (-> & [H|(st' & H1 & H2)]); split; auto; [exists st; auto|].
        exists st'. split; [|done]. right. exists JDone. apply jc_copy_phantom; [by rewrite Eq|done]. }
  destruct Hhd as (e & l & -> & He & Hl); [lia|].
  destruct e as [[d m0]|].
  - specialize (He _ eq_refl).
    eapply wp_mono; [eapply (append_QI s1 (with_q (Some (d, m0) :: l) st) hv tv' sv K D _ (fun x => x = d) False m (Some (d, m)))|].
    + done.
    + apply bm_jcopy.
    + intros d' x -> [= ->]. done.
    + eapply (copy_spec g c Hg weak Hdense); [apply HQ1|exact He|done].
    + intros o s' Ho. destruct o as [[]|x|x]; cbn in Ho |- *.
      * destruct Ho as (st' & H1 & H2). exists st'. split; [|done]. by eapply (jc_copy g st b (Some (d, m0)) l).
      * destruct Ho as ([->|[_ []]] & st' & H1 & H2). exists st'. split; [|done].
        eapply (jc_copy_fail g st b _ m); [exact Eq|done|done|by left].
      * destruct Ho as (-> & [H|(st' & H1 & H2)]); split; auto; [exists st; auto|].
        exists st'. split; [|done]. right. exists JDone. by eapply (jc_copy g st b (Some (d, m0)) l).
  - eapply wp_mono; [eapply (append_QI s1 (with_q (None :: l) st) hv tv' sv K D _ (fun _ => True) True m None)|].
    + done.
    + apply bm_jcopy.
    + done.
    + apply (copy_any_spec g c Hg weak Hdense); [apply HQ1|apply (lem ph_range)|done].
    + intros o s' Ho. destruct o as [[]|x|x]; cbn in Ho |- *.
      * destruct Ho as (st' & H1 & H2). exists st'. split; [|done]. by eapply (jc_copy g st b None l).
      * destruct Ho as (Hx & st' & H1 & H2). exists st'. split; [|done].
        eapply (jc_copy_fail g st b _ m); [exact Eq|done|done|naive_solver].
      * destruct Ho as (-> & [H|(st' & H1 & H2)]); split; auto; [exists st; auto|].
        exists st'. split; [|done]. right. exists JDone. by eapply (jc_copy g st b None l).
Qed.

Lemma dequeue_QI s st hv tv sv K D e l : QIx s (with_q (e :: l) st) hv tv sv K D -> tv < hv ->
  (forall x, e = Some x -> K !! ph tv = Some x) -> chain (badv (js_n s)) K hv (nextv tv) l ->
  exists s', journal_dequeue s = (OK tt, s') /\ QI s' (popped l st).
Proof.
  intros (HJ & HC & HD & Hck & Hsy & Hrt) Hlt He Hl. pose_geo. cbn [with_q q ck synced dq dck] in *.
  destruct (dequeue_spec g c Hg weak s hv tv sv K D HJ ltac:(lia)) as (s' & sv' & D' & E & HJ' & Er & Ed & Eb & En & Hcase).
  exists s'. split; [done|]. exists hv, (nextv tv), sv', (delete (ph tv) K), D'.
  pose proof HJ as [Hn Hj HDI Hc]. pose proof HJ' as [_ Hj' HDI' _].
  pose proof (ji_order _ _ _ _ _ _ _ Hj) as Ho. pose proof (nextv_gt c tv) as Hgt.
  pose proof (ji_tu _ _ _ _ _ _ _ Hj) as Htu. pose proof (lem nextv_user _ Htu) as Hnu.
  assert (Hinj : forall u, tv < u <= hv -> ph u <> ph tv).
  { intros u Hu Hp. assert (u = tv); [|lia]. apply (lem win_page (hv / PB)); [| |done]; eapply win_hv; [exact Hj|lia|exact Hj|lia]. }
  assert (Hl' : chain (badv (js_n s)) (delete (ph tv) K) hv (nextv tv) l).
  { eapply (chain_delete g c Hg); [exact Hl|]. intros u Hu Hr. apply Hinj. lia. }
  split; [exact HJ'|]. unfold popped. cbn [q dq dck ck synced]. rewrite En.
  split; [done|]. split.
  { rewrite Hsy. destruct (j_dirty (js_j s)) eqn:Edd; cbn [negb].
    - destruct Hcase as [-> _]. done.
    - destruct Hcase as [-> ->]. destruct (Hc Edd) as [HKd _]. destruct HD as (Hk & _).
      split; [done|].
      destruct (cv_user _ _ _ _ HDI) as (Hu1 & Hle1 & Hgd1).
      destruct (chain_prefix g c Hg _ _ _ (cv D + 1) _ _ Hl' Hle1 Hu1 Hgd1) as (Q1 & Q2 & E12 & HQ1 & HQ2).
      exists (nextv tv), Q1. cbn [Ddel cv tdv Kd]. rewrite HKd. split; [done|]. split.
      { intros Hcv. destruct (d_td _ _ _ _ _ _ HDI Hcv) as (_ & _ & ? & _). lia. }
      split; [done|]. rewrite E12. symmetry. apply core_post.
      assert (HKn : forall u, user u -> nextv tv <= u < hv -> cv D < u -> delete (ph tv) K !! ph u = None).
      { intros u Hu Hr Hcu. destruct (delete (ph tv) K !! ph u) as [[d m]|] eqn:Eq; [|done]. exfalso.
        destruct (d_K _ _ _ _ _ _ HDI' (ph u) d m) as (_ & v & [] & _); [cbn [Ddel Kd]; by rewrite HKd|].
        cbn [Ddel cv] in kd_v. assert (v = u); [|lia].
        apply (lem win_page (hv / PB)); [| |done]; eapply win_hv; [exact Hj'|lia|exact Hj'|lia]. }
      destruct (Z.le_gt_cases (nextv tv) (cv D + 1)) as [Hle|Hgt2].
      + eapply chain_blank; [exact (HQ2 Hle)|done|]. intros u Hu Hr. apply HKn; auto; lia.
      + assert (Q1 = []) by (eapply (chain_end g c); [exact HQ1|lia]). subst Q1. cbn in E12. subst Q2.
        eapply chain_blank; [exact Hl'|done|]. intros u Hu Hr. apply HKn; auto; lia. }
  split; [unfold cookie; by rewrite Eb|]. split; [by rewrite Ed|].
  intros x Hlx.
  assert (Hlx' : last (e :: l) = Some (Some x)) by (destruct l; [done|by rewrite last_cons_cons]).
  destruct (Hrt x Hlx') as (u & U1 & U2 & U3 & U4 & U5).
  assert (Hut : u <> tv).
  { intros ->. destruct (chain_last g c Hg _ _ _ _ _ _ Hl Hnu Hlx) as (w & W1 & W2 & W3 & _).
    eapply (U5 w x); [done|lia|by apply W3]. }
  assert (Hnext : nextv tv <= u) by (apply (lem nextv_next); auto; lia).
  exists u. split; [lia|]. split; [done|]. split.
  { rewrite Er, U3. rewrite (proj2 (Z.eqb_neq _ _)); [done|]. apply Hinj. lia. }
  split; [rewrite lookup_delete_ne; [done|]; apply not_eq_sym, Hinj; lia|].
  intros w y Hw Hr Hk. apply lookup_delete_Some in Hk as [_ Hk]. by eapply U5.
Qed.

Lemma jp_pop s st : QI s st -> wp (jexec JPop) s (jpost st JPop).
Proof.
  intros (hv & tv & sv & K & D & HQ). cbn [jexec]. pose_geo.
  destruct (peek_QI s st hv tv sv K D HQ) as (tv' & b & Q0 & s1 & Eq & Hb & Htv & E & HQ1 & En & Hhd).
  eapply wp_bind_ok; [exact E|].
  destruct (Z.eqb_spec tv hv) as [Et|Et].
  { change (PAGE_NONE =? PAGE_NONE) with true. cbn match. apply wp_ret. cbn [jpost].
    assert (tv' = hv) as -> by lia. pose proof (QIx_end _ _ _ _ _ _ HQ1) as E0. cbn [q with_q] in E0. subst Q0.
    rewrite app_nil_r in Eq. exists (with_q [] st). split; [constructor; by rewrite Eq|].
    by exists hv, hv, sv, K, D. }
  rewrite ph_not_none. pose proof (proj1 HQ1) as HJ1.
  assert (Htu : user tv') by apply HJ1.
  destruct (Z.eq_dec tv' hv) as [->|Hne].
  { pose proof (QIx_end _ _ _ _ _ _ HQ1) as E0. cbn [q with_q] in E0. subst Q0. rewrite app_nil_r in Eq.
    destruct (fetch_any s1 hv hv sv K D hv HJ1 Htu) as (x & y & Ef).
    eapply wp_bind_ok; [exact Ef|]. eapply wp_bind_ok; [exact (dequeue_empty g c weak _ _ _ _ _ HJ1)|]. apply wp_ret. cbn [jpost].
    exists (with_q [] st). split; [apply jc_pop_phantom; by rewrite Eq|]. by exists hv, hv, sv, K, D. }
  destruct Hhd as (e & l & -> & He & Hl); [lia|]. rewrite <-En in Hl.
  destruct (dequeue_QI s1 st hv tv' sv K D e l HQ1 ltac:(lia) He Hl) as (s' & Ed & HQ').
  destruct e as [[d m]|].
  - eapply wp_bind_ok; [exact (fetch_known s1 hv tv' sv K D tv' d m HJ1 (He _ eq_refl))|]. eapply wp_bind_ok; [exact Ed|]. apply wp_ret. cbn [jpost].
    exists (popped l st). split; [by eapply jc_pop|done].
  - destruct (fetch_any s1 hv tv' sv K D tv' HJ1 Htu) as (x & y & Ef).
    eapply wp_bind_ok; [exact Ef|]. eapply wp_bind_ok; [exact Ed|]. apply wp_ret. cbn [jpost].
    exists (popped l st). split; [by eapply jc_pop_none|done].
Qed.

Lemma jp_root s st : QI s st -> wp (jexec JRoot) s (jpost st JRoot).
Proof.
  intros HQ. pose proof HQ as (hv & tv & sv & K & D & HJ & HC & HD & Hck & Hsy & Hrt).
  unfold wp. cbn [jexec]. unfold bind, getj, gets.
  assert (Hfet : j_root (js_j s) = PAGE_NONE \/ exists r, jfetch (j_root (js_j s)) s = (OK r, s) /\
    (j_root (js_j s) =? PAGE_NONE) = false /\ q st <> []).
  { destruct (ji_root _ _ _ _ _ _ _ (JI_j _ _ _ _ _ _ _ _ _ HJ)) as [E1|[[d m] Hr]]; [by left|right].
    destruct (ji_K _ _ _ _ _ _ _ (JI_j _ _ _ _ _ _ _ _ _ HJ) _ _ _ Hr) as (v & [] & _).
    rewrite kd_p in Hr. rewrite kd_p, (fetch_known s hv tv sv K D v d m HJ Hr), ph_not_none. eexists. split_and!; auto.
    intros Hq. rewrite (chain_none g c Hg _ _ _ _ _ HC Hq) in kd_b; [done|apply HJ|done|done]. }
  destruct (last (q st)) as [[[d m]|]|] eqn:Hl.
  - destruct (Hrt _ Hl) as (u & U1 & U2 & U3 & U4 & U5). rewrite U3, ph_not_none.
    rewrite (fetch_known s hv tv sv K D u d m HJ U4). cbn [fst snd jpost]. exists st. split; [by constructor|done].
  - destruct Hfet as [Er|(r & Ef & Er & _)]; rewrite Er.
    + change (PAGE_NONE =? PAGE_NONE) with true. cbn [ret fst snd jpost]. exists st. split; [by constructor|done].
    + rewrite Ef. cbn [fst snd jpost]. exists st. split; [by constructor|done].
  - apply last_None in Hl. destruct Hfet as [Er|(r & Ef & Er & Hne)]; [|done]. rewrite Er.
    change (PAGE_NONE =? PAGE_NONE) with true. cbn [ret fst snd jpost]. exists st. split; [by constructor|done].
Qed.

Lemma jp_other s st o : QI s st -> valid_jop g o ->
  match o with JClear | JSetCookie _ | JGetCookie | JIsClean | JSize => True | _ => False end ->
  wp (jexec o) s (jpost st o).
Proof.
  intros HQ Hv Ho. pose proof HQ as (hv & tv & sv & K & D & HJ & HC & HD & Hck & Hsy & Hrt). unfold wp.
  pose proof HJ as [Hn Hj HDI Hc]. pose_geo.
  destruct o; try done; cbn [jexec].
  - destruct (clear_spec' g c Hg weak s hv tv sv K D HJ) as (s' & E & HJ' & Er & En & Ed & Ec).
    unfold bind. rewrite E. cbn [ret fst snd jpost]. eexists. split; [constructor|].
    exists hv, hv, sv, ∅, D. split; [exact HJ'|]. cbn [q dq dck ck synced]. rewrite En, Ed.
    split; [apply ch_nil; lia|]. split_and!; auto; [congruence|]. by intros x Hx.
  - destruct (cookie_put_spec g c Hg weak s hv tv sv K D b HJ Hv) as (s' & E & HJ' & Ec & Er & Ed & En).
    unfold bind. rewrite E. cbn [ret fst snd jpost]. eexists. split; [constructor|].
    exists hv, tv, sv, K, D. split; [exact HJ'|]. cbn [q dq dck ck synced]. rewrite En, Ed.
    split_and!; auto. intros x Hx. rewrite Er. by apply Hrt.
  - unfold bind, buf_get. rewrite (ji_buf _ _ _ _ _ _ _ Hj).
    pose proof (go_fit _ _ Hg) as Hfit. change (2 ^ c) with PC in Hfit.
    replace (0 <=? HEADER_SIZE) with true by done.
    rewrite (proj2 (Z.leb_le _ _)) by (unfold HEADER_SIZE, COOKIE_SIZE, META_SIZE in *; lia).
    cbn [andb ret fst snd jpost]. fold (cookie s). rewrite Hck. exists st. split; [constructor|done].
  - unfold bind, getj, gets. cbn [ret fst snd jpost]. rewrite <-Hsy. exists st. split; [constructor|done].
  - unfold bind, getg, getj, gets. cbn [ret fst snd jpost]. exists st. split; [|done]. constructor.
    rewrite (nk_geo _ _ _ Hn), (jsize_JInv g c Hg _ _ _ _ _ Hj).
    pose proof (ji_order _ _ _ _ _ _ _ Hj) as Hord.
    pose proof (chain_length g c Hg _ _ _ _ _ HC (ji_hu _ _ _ _ _ _ _ Hj) ltac:(lia)) as Hlen.
    pose proof (ups_mono g c Hg sv tv ltac:(lia)) as Hup. unfold ups in *. lia.
Qed.

Lemma jexec_spec s st o : QI s st -> valid_jop g o -> wp (jexec o) s (jpost st o).
Proof.
  intros HQ Hv. destruct o; try by apply jp_other.
  - by apply jp_enq.
  - by apply jp_pad.
  - by apply jp_copy.
  - by apply jp_pop.
  - by apply jp_root.
Qed.

Lemma QI_CQ s st : QI s st -> CQ (js_n s) st.
Proof.
  intros (hv & tv & sv & K & D & [Hn Hj HDI Hc] & HC & HD & _). exists D. split; [|done]. split; [done|]. by exists hv, sv.
Qed.

Lemma jrun_spec h : choose_ppc (g_lps g) (g_lppb g) = c -> Forall (valid_jhop g) h -> forall s st, QI s st ->
  let '(rs, s') := jrun h s in exists st', jhist g st h rs st' /\ QI s' st'.
Proof.
  intros Hppc. induction 1 as [|x h Hx Hh IH]; intros s st HQ; cbn [jrun].
  { exists st. split; [constructor|done]. }
  destruct x as [o|].
  - pose proof (jexec_spec s st o HQ Hx) as Hw. unfold wp in Hw. destruct (jexec o s) as [r s1]. cbn [fst snd] in Hw.
    destruct r as [a|e|y]; cbn [jpost] in Hw.
    + destruct Hw as (st1 & H1 & H2). specialize (IH _ _ H2). destruct (jrun h s1) as [rs s'].
      destruct IH as (st' & H3 & H4). exists st'. split; [|done]. by eapply jh_call.
    + destruct Hw as (st1 & H1 & H2). specialize (IH _ _ H2). destruct (jrun h s1) as [rs s'].
      destruct IH as (st' & H3 & H4). exists st'. split; [|done]. by eapply jh_call.
    + destruct Hw as (-> & st1 & H1 & H2). destruct (restart_QI _ _ Hppc H2) as (st2 & H3 & H4).
      specialize (IH _ _ H4). destruct (jrun h _) as [rs s'].
      destruct IH as (st' & H5 & H6). exists st'. split; [|done]. by eapply jh_crash.
  - destruct (restart_QI _ _ Hppc (QI_CQ _ _ HQ)) as (st2 & H3 & H4).
    specialize (IH _ _ H4). destruct (jrun h _) as [rs s'].
    destruct IH as (st' & H5 & H6). exists st'. split; [|done]. by eapply jh_reset.
Qed.
End jprops.
