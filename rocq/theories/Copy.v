(** dhara_map_copy_page against dhara_map_write: as long as the source page is
    neither erased nor programmed during the call, copying it is the same as
    writing what it contains (any state, any failures, power loss included). *)
From stdpp Require Import base.
From Verif Require Import Base Bytes Nand Journal MapModel Api Spec.
From Verif Require Pres.
Local Open Scope Z_scope.

(** Page [p] was neither erased nor programmed. *)
Definition page_kept (p : Z) (n n' : nand) : Prop :=
  n_erases n' (p / 2 ^ g_lppb (n_geo n)) = n_erases n (p / 2 ^ g_lppb (n_geo n)) /\ n_cell n' p = n_cell n p.

Section copy.
Context (p : Z) (g : geo) (Hl : 0 <= g_lppb g).

Definition R (n n' : nand) : Prop := n_geo n = g ->
  n_geo n' = g /\ n_erases n (p / 2 ^ g_lppb g) <= n_erases n' (p / 2 ^ g_lppb g) /\
  (n_erases n' (p / 2 ^ g_lppb g) = n_erases n (p / 2 ^ g_lppb g) ->
     (n_cell n p <> Free -> n_cell n' p = n_cell n p) /\ (n_cell n' p = Free -> n_cell n p = Free)).
Lemma Rrefl n : R n n. Proof. intros H. split_and!; [done|lia|]. done. Qed.
Lemma Rtrans a b d : R a b -> R b d -> R a d.
Proof.
  intros H1 H2 E. destruct (H1 E) as (E1 & L1 & C1). destruct (H2 E1) as (E2 & L2 & C2).
  split_and!; [done|lia|]. intros Hs. destruct C1 as [C1 D1]; [lia|]. destruct C2 as [C2 D2]; [lia|].
  split; [|auto]. intros Hne. specialize (C1 Hne). rewrite <-C1. apply C2. by rewrite C1.
Qed.

Lemma tail_free_head c q : 0 <= q -> tail_free g c q = true -> c q = Free.
Proof.
  intros Hq. unfold tail_free. set (k := Z.to_nat _).
  assert (Hk : (0 < k)%nat).
  { unfold k. unfold ppb. rewrite Z.shiftl_1_l.
    replace (2 ^ g_lppb g - 1) with (Z.ones (g_lppb g)) by (rewrite Z.ones_equiv; lia).
    rewrite Z.land_ones by done. pose proof (Z.mod_pos_bound q (2 ^ g_lppb g) ltac:(apply Z.pow_pos_nonneg; lia)). lia. }
  destruct k as [|k]; [lia|]. cbn [seq forallb]. rewrite Z.add_0_r. destruct (c q); cbn; done.
Qed.

Lemma Rprog q d : Pres.keepn R (nand_prog q d).
Proof.
  intros n. unfold nand_prog. destruct (page_ok (n_geo n) q) eqn:Hok; [|apply Rrefl]. cbn [negb].
  destruct (n_bad _ _); [apply Rrefl|]. destruct (tail_free _ _ _) eqn:Ht; [|apply Rrefl].
  destruct (_ =? _); [|apply Rrefl]. cbn [negb].
  intros E. rewrite E in *.
  assert (Hq : 0 <= q) by (unfold page_ok in Hok; lia).
  pose proof (tail_free_head _ _ Hq Ht) as HF.
  assert (Hput : forall x m, n_cell m = n_cell n -> n_geo m = g -> n_erases m = n_erases n -> 
    n_geo (set_cells (upd (n_cell m) q x) m) = g /\
    n_erases n (p / 2 ^ g_lppb g) <= n_erases (set_cells (upd (n_cell m) q x) m) (p / 2 ^ g_lppb g) /\
    (n_erases (set_cells (upd (n_cell m) q x) m) (p / 2 ^ g_lppb g) = n_erases n (p / 2 ^ g_lppb g) ->
     (n_cell n p <> Free -> n_cell (set_cells (upd (n_cell m) q x) m) p = n_cell n p) /\
     (n_cell (set_cells (upd (n_cell m) q x) m) p = Free -> n_cell n p = Free))).
  { intros x m E1 E2 E3. cbn. rewrite E1, E3. split_and!; [done|lia|]. intros _. unfold upd.
    destruct (Z.eqb_spec p q) as [->|]; [|done]. rewrite HF. done. }
  destruct (n_orc _ _ _) as [|f|f]; cbn [fst snd].
  - by apply Hput.
  - destruct (f q); by apply Hput.
  - destruct (f q); [by apply Hput| |by apply Hput]. by apply (Rrefl (bump_tick n)).
Qed.
Lemma Rmark b : Pres.keepn R (nand_mark_bad b).
Proof.
  intros n. unfold nand_mark_bad. destruct (block_ok _ _); [|apply Rrefl]. cbn [negb].
  destruct (n_orc _ _ _) as [|f|f]; [| |destruct (f 0)]; intros E; (split_and!; [exact E|cbn; lia|done]).
Qed.
Lemma Rerase b : Pres.keepn R (nand_erase b).
Proof.
  intros n. unfold nand_erase. destruct (block_ok _ _); [|apply Rrefl]. cbn [negb].
  destruct (n_bad _ _); [apply Rrefl|].
  assert (H : forall f, R n (set_cells (erase_cells (n_geo (bump_erase b (bump_tick n))) b f (n_cell (bump_erase b (bump_tick n)))) (bump_erase b (bump_tick n)))).
  { intros f E. cbn. unfold upd. split_and!; [exact E|destruct (Z.eqb_spec (p / 2 ^ g_lppb g) b) as [->|]; lia|].
    intros Hs. unfold erase_cells. rewrite E.
    assert (Hb : blk_of g p = p / 2 ^ g_lppb g) by (unfold blk_of; by rewrite Z.shiftr_div_pow2).
    rewrite Hb. destruct (Z.eqb_spec (p / 2 ^ g_lppb g) b) as [->|]; [lia|]. done. }
  destruct (n_orc _ _ _) as [|f|f]; apply H.
Qed.

(** ** Calls that differ in how they get the data *)
Context (c0 : cell) (d0 d : bytes) (Hp : page_ok g p = true) (Hc0 : cell_bytes g c0 = Some d0)
  (Hd : slice 0 (page_size g) d0 = d) (Hps : 0 <= page_size g).
Definition good (n : nand) : Prop := n_geo n = g /\ n_cell n p = c0.
Definition keptp (n n' : nand) : Prop :=
  n_erases n' (p / 2 ^ g_lppb g) = n_erases n (p / 2 ^ g_lppb g) /\ n_cell n' p = n_cell n p.
Lemma kept_split a b e : n_geo a = g -> R a b -> R b e -> keptp a e -> keptp a b /\ keptp b e.
Proof.
  intros E H1 H2 [K1 K2]. destruct (H1 E) as (E1 & L1 & C1). destruct (H2 E1) as (E2 & L2 & C2).
  destruct C1 as [C1 D1]; [lia|]. destruct C2 as [C2 D2]; [lia|].
  assert (Hc : n_cell b p = n_cell a p).
  { destruct (n_cell a p) as [| |] eqn:Ea; [|apply C1; done|apply C1; done]. apply D2. by rewrite K2. }
  unfold keptp. rewrite K2, Hc. split; (split; [lia|done]).
Qed.
Lemma good_kept a b : R a b -> good a -> keptp a b -> good b.
Proof. intros H [E1 E2] [_ K]. split; [by destruct (H E1)|congruence]. Qed.

Section eqv.
Context {St : Type} (pr : St -> nand).
Definition eqv {A} (m1 m2 : M St A) : Prop :=
  forall s, good (pr s) -> R (pr s) (pr (snd (m1 s))) /\ (keptp (pr s) (pr (snd (m1 s))) -> m1 s = m2 s).
Lemma eqv_bind {A B} (m1 m2 : M St A) (f1 f2 : A -> M St B) :
  (forall a s, R (pr s) (pr (snd (f1 a s)))) ->
  eqv m1 m2 -> (forall a, eqv (f1 a) (f2 a)) -> eqv (bind m1 f1) (bind m2 f2).
Proof.
  intros Hk Hm Hf s Hs. specialize (Hm s Hs). unfold bind.
  destruct (m1 s) as [[a|e|x] s1] eqn:E1; cbn [fst snd] in *.
  - destruct Hm as [HR Hm]. pose proof (Hk a s1) as HR2. split; [by eapply Rtrans|].
    intros K. destruct (kept_split _ _ _ (proj1 Hs) HR HR2 K) as [K1 K2].
    rewrite <-(Hm K1). apply Hf; [|done]. by eapply good_kept.
  - destruct Hm as [HR Hm]. split; [done|]. intros K. by rewrite <-(Hm K).
  - destruct Hm as [HR Hm]. split; [done|]. intros K. by rewrite <-(Hm K).
Qed.
Lemma eqv_refl {A} (m : M St A) : (forall s, R (pr s) (pr (snd (m s)))) -> eqv m m.
Proof. intros H s Hs. split; [apply H|done]. Qed.
Lemma eqv_attempt {A} (m1 m2 : M St A) : eqv m1 m2 -> eqv (attempt m1) (attempt m2).
Proof.
  intros H s Hs. specialize (H s Hs). unfold attempt. destruct (m1 s) as [[a|e|x] s1]; cbn [fst snd] in *;
    destruct H as [HR H]; (split; [done|]); intros K; by rewrite <-(H K).
Qed.
End eqv.

Lemma eqv_prog h : eqv (fun n => n) (nand_copy p h) (nand_prog h d).
Proof.
  intros n [E Hc]. unfold nand_copy, bind, gets. cbn [fst snd].
  unfold nand_read. rewrite E, Hp, Hc, Hc0. cbn [negb].
  replace ((0 <=? 0) && (0 <=? page_size g) && (0 + page_size g <=? page_size g)) with true.
  2:{ symmetry. rewrite !andb_true_iff, !Z.leb_le. lia. }
  cbn [negb]. rewrite Hd. split; [apply Rprog|done].
Qed.
Lemma eqv_io {A} (m1 m2 : M nand A) : eqv (fun n => n) m1 m2 -> eqv js_n (io m1) (io m2).
Proof.
  intros H s Hs. specialize (H (js_n s) Hs). unfold io, zoom. destruct (m1 (js_n s)) as [r n1]. cbn [fst snd] in *.
  destruct H as [HR H]. split; [done|]. intros K. by rewrite <-(H K).
Qed.
Notation kj := (Pres.keepj R).
Notation km := (Pres.keepm R).

Lemma eqv_append i meta : eqv js_n (append_loop i (fun h => nand_copy p h) meta) (append_loop i (fun h => nand_prog h d) meta).
Proof.
  pose proof Rrefl as H1. pose proof Rtrans as H2. pose proof Rprog as H3. pose proof Rerase as H4. pose proof Rmark as H5.
  assert (Hcp : forall h, Pres.keepn R (nand_copy p h)) by (intros h; by apply Pres.k_copy).
  induction i as [|i IH]; cbn [append_loop]; [apply eqv_refl; intros s; apply Rrefl|].
  apply eqv_bind.
  - intros [e|[]].
    + apply Pres.kj_bind; [done|by apply Pres.k_recover_from|intros _; by apply Pres.k_append_loop].
    + by apply Pres.k_push_meta.
  - apply eqv_attempt. apply eqv_bind.
    + intros a. apply Pres.kj_bind; [apply Rtrans|apply Pres.kj_getj, Rrefl|]. intros h. apply Pres.kj_io.
      apply Pres.k_copy; auto.
    + apply eqv_refl. apply Pres.k_prepare_head; auto.
    + intros _. apply eqv_bind.
      * intros h. apply Pres.kj_io. apply Pres.k_copy; auto.
      * apply eqv_refl. apply Pres.kj_getj, Rrefl.
      * intros h. apply eqv_io, eqv_prog.
  - intros [e|[]].
    + apply eqv_bind.
      * intros _. apply Pres.k_append_loop; auto.
      * apply eqv_refl. apply Pres.k_recover_from; auto.
      * done.
    + apply eqv_refl. apply Pres.k_push_meta; auto.
Qed.

Lemma eqv_jn {A} (m1 m2 : MJ A) : eqv js_n m1 m2 -> eqv chip (jn m1) (jn m2).
Proof.
  intros H s Hs. specialize (H (m_js s) Hs). unfold jn, zoom. destruct (m1 (m_js s)) as [r n1]. cbn [fst snd] in *.
  destruct H as [HR H]. split; [done|]. intros K. by rewrite <-(H K).
Qed.
Lemma eqv_write_loop fuel t n : eqv chip (write_loop n fuel t (fun meta => journal_copy p meta))
  (write_loop n fuel t (fun meta => journal_enqueue (Some d) (Some meta))).
Proof.
  pose proof Rrefl as H1. pose proof Rtrans as H2. pose proof Rprog as H3. pose proof Rerase as H4. pose proof Rmark as H5.
  assert (Hj : forall m, kj (journal_copy p m)) by (intros m; by apply Pres.k_jcopy).
  induction n as [|n IH]; cbn [write_loop]; [apply eqv_refl; intros s; apply Rrefl|].
  assert (Hrest : forall oc (r : err + unit), km (match r with
     | inr _ => ret tt
     | inl my_err => modify (set_count oc);;; try_recover fuel my_err;;; write_loop n fuel t (fun meta => journal_copy p meta)
     end)).
  { intros oc [e|[]]; [|by apply Pres.km_ret].
    apply Pres.km_bind; [done|by apply Pres.km_count'|intros _].
    apply Pres.km_bind; [done|by apply Pres.k_try_recover|intros _]. by apply Pres.k_write_loop. }
  apply eqv_bind.
  - intros oc. apply Pres.km_bind; [done|by apply Pres.k_prepare_write|]. intros meta.
    apply Pres.km_bind; [done| |apply Hrest]. by apply Pres.km_attempt, Pres.km_jn.
  - by apply eqv_refl, Pres.km_gets.
  - intros oc. apply eqv_bind.
    + intros meta. apply Pres.km_bind; [done| |apply Hrest]. by apply Pres.km_attempt, Pres.km_jn.
    + apply eqv_refl. by apply Pres.k_prepare_write.
    + intros meta. apply eqv_bind.
      * apply Hrest.
      * apply eqv_attempt, eqv_jn. apply eqv_append.
      * intros [e|[]]; [|by apply eqv_refl, Pres.km_ret].
        apply eqv_bind.
        -- intros _. apply Pres.km_bind; [done|by apply Pres.k_try_recover|intros _]. by apply Pres.k_write_loop.
        -- by apply eqv_refl, Pres.km_count'.
        -- intros _. apply eqv_bind.
           ++ intros _. by apply Pres.k_write_loop.
           ++ apply eqv_refl. by apply Pres.k_try_recover.
           ++ intros _. exact IH.
Qed.
End copy.

(** C19.  In any state whatsoever: a copy of a page that is neither erased nor
    programmed meanwhile is the same as a write of its contents. *)
Theorem C19_copy_is_write s fuel p t d r s' :
  0 <= g_lppb (n_geo (chip s)) ->
  nand_read p 0 (page_size (n_geo (chip s))) (chip s) = (OK d, chip s) ->
  map_copy_page fuel p t s = (r, s') -> page_kept p (chip s) (chip s') ->
  map_write fuel t d s = (r, s').
Proof.
  intros Hl Hr E Hk. set (g := n_geo (chip s)) in *. unfold nand_read in Hr. fold g in Hr.
  destruct (page_ok g p) eqn:Hp; [|done]. cbn [negb] in Hr.
  destruct ((0 <=? 0) && (0 <=? page_size g) && (0 + page_size g <=? page_size g)) eqn:Hps; [|done].
  cbn [negb] in Hr. destruct (cell_bytes g (n_cell (chip s) p)) as [d0|] eqn:Hc; [|done].
  injection Hr as Hd. rewrite !andb_true_iff, !Z.leb_le in Hps.
  pose proof (eqv_write_loop p g Hl _ d0 d Hp Hc Hd ltac:(lia) fuel t fuel s) as [_ H]; [by split|].
  unfold map_copy_page in E. rewrite E in H. cbn [snd] in H. symmetry. apply H. exact Hk.
Qed.
