(** dhara_map_resume on a map object in any state: everything kept in memory is
    rebuilt from the chip (C44). *)
From stdpp Require Import base.
From Verif Require Import Base Bytes Nand Journal MapModel Api Spec.
From Verif Require Pres.
Local Open Scope Z_scope.

Definition rel := journal -> journal -> Prop.
(** Two runs of [m], from the same chip and related journals. *)
Definition lock {A} (E P Q : rel) (m : MJ A) : Prop := forall s1 s2, js_n s1 = js_n s2 -> P (js_j s1) (js_j s2) ->
  match m s1, m s2 with
  | (OK a, t1), (OK b, t2) => a = b /\ js_n t1 = js_n t2 /\ Q (js_j t1) (js_j t2)
  | (ER e, t1), (ER e', t2) => e = e' /\ js_n t1 = js_n t2 /\ E (js_j t1) (js_j t2)
  | (ST x, t1), (ST y, t2) => x = y /\ js_n t1 = js_n t2
  | _, _ => False
  end.
Lemma lk_bind {A B} E P Q (R : rel) (m : MJ A) (f : A -> MJ B) :
  lock E P Q m -> (forall a, lock E Q R (f a)) -> lock E P R (bind m f).
Proof.
  intros Hm Hf s1 s2 En Hp. specialize (Hm s1 s2 En Hp). unfold bind.
  destruct (m s1) as [[a|e|x] t1], (m s2) as [[a'|e'|x'] t2]; try done.
  destruct Hm as (<- & En' & Hq). exact (Hf a t1 t2 En' Hq).
Qed.
Lemma lk_attempt_bind {A B} E' E P Q (R : rel) (m : MJ A) (f : err + A -> MJ B) :
  lock E' P Q m -> (forall e, lock E E' R (f (inl e))) -> (forall a, lock E Q R (f (inr a))) -> lock E P R (bind (attempt m) f).
Proof.
  intros Hm Hl Hr s1 s2 En Hp. specialize (Hm s1 s2 En Hp). unfold bind, attempt.
  destruct (m s1) as [[a|e|x] t1], (m s2) as [[a'|e'|x'] t2]; try done.
  - destruct Hm as (<- & En' & Hq). exact (Hr a t1 t2 En' Hq).
  - destruct Hm as (<- & En' & Hq). exact (Hl e t1 t2 En' Hq).
Qed.
Lemma lk_ret {A} E P (a : A) : lock E P P (ret a). Proof. intros s1 s2 En Hp. done. Qed.
Lemma lk_fail {A} (E P Q : rel) e : (forall a b, P a b -> E a b) -> lock (A:=A) E P Q (fail e).
Proof. intros H s1 s2 En Hp. cbn. auto. Qed.
Lemma lk_halt {A} (E P Q : rel) e : lock (A:=A) E P Q (halt e). Proof. intros s1 s2 En Hp. done. Qed.
Lemma lk_getj {A} (E P : rel) (f : journal -> A) : (forall a b, P a b -> f a = f b) -> lock E P P (getj f).
Proof. intros H s1 s2 En Hp. cbn. auto. Qed.
Lemma lk_getg E P : lock E P P getg. Proof. intros s1 s2 En Hp. cbn. by rewrite En. Qed.
Lemma lk_modj (E P Q : rel) f : (forall a b, P a b -> Q (f a) (f b)) -> lock E P Q (modj f).
Proof. intros H s1 s2 En Hp. cbn. auto. Qed.
Lemma lk_io {A} (E P : rel) (m : M nand A) : (forall a b, P a b -> E a b) -> lock E P P (io m).
Proof. intros H s1 s2 En Hp. unfold io, zoom. rewrite En. destruct (m (js_n s2)) as [[a|e|x] n]; cbn; auto. Qed.
Lemma lk_conseq {A} (E E' P P' Q Q' : rel) (m : MJ A) : (forall a b, P a b -> P' a b) ->
  (forall a b, Q' a b -> Q a b) -> (forall a b, E' a b -> E a b) -> lock E' P' Q' m -> lock E P Q m.
Proof.
  intros H1 H2 H3 Hm s1 s2 En Hp. specialize (Hm s1 s2 En (H1 _ _ Hp)).
  destruct (m s1) as [[a|e|x] t1], (m s2) as [[a'|e'|x'] t2]; naive_solver.
Qed.

Lemma lk_assoc {A B C} E P (R : rel) (m : MJ A) (f : A -> MJ B) (h : B -> MJ C) :
  lock E P R (bind m (fun a => bind (f a) h)) -> lock E P R (bind (bind m f) h).
Proof.
  intros H s1 s2 En Hp. specialize (H s1 s2 En Hp). revert H. unfold bind.
  destruct (m s1) as [[a|e|x] t1], (m s2) as [[a'|e'|x'] t2]; done.
Qed.
Lemma lk_ret_bind {A B} E P (R : rel) (a : A) (h : A -> MJ B) : lock E P R (h a) -> lock E P R (bind (ret a) h).
Proof. intros H s1 s2 En Hp. exact (H s1 s2 En Hp). Qed.

(** The fields known to agree. *)
Definition Eppc : rel := fun a b => j_ppc a = j_ppc b.
Definition Ebuf : rel := fun a b => Eppc a b /\ j_buf a = j_buf b.
Definition Eep : rel := fun a b => Ebuf a b /\ j_epoch a = j_epoch b.
Definition Eroot : rel := fun a b => Eep a b /\ j_root a = j_root b.
Definition Etail : rel := fun a b => Eroot a b /\ j_tail a = j_tail b /\ j_bbc a = j_bbc b /\ j_bbl a = j_bbl b.
Definition Ehead : rel := fun a b => Etail a b /\ j_head a = j_head b.
Ltac eu := intros; unfold Ehead, Etail, Eroot, Eep, Ebuf, Eppc in *; cbn; intuition congruence.

Section scan.
Context (K : rel) (K1 : forall a b, K a b -> Eppc a b) (K2 : forall a b d, K a b -> K (set_buf d a) (set_buf d b)).
Definition KB : rel := fun a b => K a b /\ j_buf a = j_buf b.
Lemma KB_K a b : KB a b -> K a b. Proof. by intros [? ?]. Qed.
Lemma lk_read_page p : lock K K KB (read_page_buf p).
Proof.
  unfold read_page_buf. eapply lk_bind; [apply lk_getg|]. intros g.
  eapply lk_bind; [by apply lk_io|]. intros d. apply lk_modj. intros a b H. split; [by apply K2|done].
Qed.
Lemma lk_find_checkblock_loop i : forall b, lock K K KB (find_checkblock_loop i b).
Proof.
  induction i as [|i IH]; intros b; cbn [find_checkblock_loop]; [by apply lk_fail|].
  eapply lk_bind; [apply lk_getg|]. intros g. destruct (b <? g_nblk g); [|by apply lk_fail].
  eapply lk_bind; [apply lk_getj, K1|]. intros c.
  eapply lk_bind; [by apply lk_io|]. intros bad. set (p := Z.lor _ _). clearbody p.
  destruct bad; [apply lk_ret_bind, IH|]. apply lk_assoc.
  eapply lk_attempt_bind; [apply lk_read_page|intros e; apply lk_ret_bind, IH|]. intros _.
  apply lk_assoc. eapply lk_bind; [apply lk_getj; by intros ?? []|]. intros bf. apply lk_ret_bind.
  destruct (hdr_has_magic bf); [apply lk_ret|].
  eapply lk_conseq; [apply KB_K| | |apply IH]; done.
Qed.
Lemma lk_find_checkblock b : lock K K KB (find_checkblock b).
Proof. apply lk_find_checkblock_loop. Qed.
End scan.

Lemma lk_fcb b : lock Eep Eep Eep (find_checkblock b).
Proof. eapply (lk_conseq _ Eep _ Eep _ (KB Eep)); [done|by intros ?? []|done|]. apply lk_find_checkblock; eu. Qed.
Lemma lk_fcb_cur b : lock Eep Eep Eep (find_checkblock_cur b).
Proof.
  unfold find_checkblock_cur. eapply lk_attempt_bind; [apply lk_fcb|intros; apply lk_ret|]. intros x.
  eapply lk_bind; [apply lk_getj; eu|]. intros bf. eapply lk_bind; [apply lk_getj; eu|]. intros e. apply lk_ret.
Qed.
Lemma lk_last_loop n : forall f l h, lock Eep Eep Eep (find_last_checkblock_loop n f l h).
Proof.
  induction n as [|n IH]; intros f l h; cbn [find_last_checkblock_loop]; [apply lk_halt|].
  destruct (l <=? h); [|apply lk_ret]. eapply lk_bind; [apply lk_fcb_cur|]. intros [x|].
  - eapply lk_bind; [apply lk_getg|]. intros g. destruct (_ <=? _); [apply lk_ret|].
    eapply lk_bind; [apply lk_fcb_cur|]. intros [y|]; [apply IH|apply lk_ret].
  - destruct (_ =? 0); [apply lk_ret|apply IH].
Qed.
Lemma lk_last f : lock Eep Eep Eep (find_last_checkblock f).
Proof. unfold find_last_checkblock. eapply lk_bind; [apply lk_getg|]. intros g. apply lk_last_loop. Qed.
Lemma lk_cp_free p : lock Eep Eep Eep (cp_free p).
Proof.
  unfold cp_free. eapply lk_bind; [apply lk_getj; eu|]. intros c. generalize (Z.to_nat (Z.shiftl 1 c)). intros n.
  revert p. induction n as [|n IH]; intros p; cbn [cp_free_loop]; [apply lk_ret|].
  eapply lk_bind; [by apply lk_io|]. intros [|]; [apply IH|apply lk_ret].
Qed.
Lemma lk_group b : lock Eep Eep Eep (find_last_group b).
Proof.
  unfold find_last_group. eapply lk_bind; [apply lk_getg|]. intros g. eapply lk_bind; [apply lk_getj; eu|]. intros c.
  generalize (Z.shiftl 1 (g_lppb g - c)) at 2 3 as ng. intros ng. generalize (S (Z.to_nat (Z.shiftl 1 (g_lppb g - c)))) as n.
  generalize 0 as lo. generalize (ng - 1) as hi. intros hi lo n.
  revert lo hi. induction n as [|n IH]; intros lo hi; cbn [find_last_group_loop]; [apply lk_halt|].
  eapply lk_bind; [apply lk_getg|]. intros g'. eapply lk_bind; [apply lk_getj; eu|]. intros c'.
  destruct (lo <=? hi); [|apply lk_ret]. eapply lk_bind; [apply lk_cp_free|]. intros [|]; [apply IH|].
  eapply (lk_bind _ _ Eep); [destruct (_ <=? _); [apply lk_ret|apply lk_cp_free]|]. intros [|]; [apply lk_ret|apply IH].
Qed.
Lemma lk_root st : lock Eppc Eep Eroot (find_root st).
Proof.
  unfold find_root. eapply lk_bind; [apply lk_getg|]. intros g. eapply lk_bind; [apply lk_getj; eu|]. intros c.
  generalize (Z.shiftr st (g_lppb g)) as b. generalize (Z.to_nat (Z.shiftr (Z.land st (Z.shiftl 1 (g_lppb g) - 1)) c)) as i.
  intros i b. induction i as [|i IH]; cbn [find_root_loop].
  all: eapply lk_bind; [apply lk_getg|]; intros g'; (eapply lk_bind; [apply lk_getj; eu|]); intros c';
    (eapply lk_attempt_bind; [apply (lk_read_page Eep); eu| |]); intros x.
  - apply lk_ret_bind. apply lk_fail. eu.
  - apply lk_assoc. eapply lk_bind; [apply lk_getj; by intros ?? []|]. intros bf.
    apply lk_assoc. eapply lk_bind; [apply lk_getj; unfold KB; eu|]. intros e. apply lk_ret_bind.
    destruct (_ && _); [apply lk_modj; unfold KB; eu|apply lk_fail; unfold KB; eu].
  - apply lk_ret_bind. apply IH.
  - apply lk_assoc. eapply lk_bind; [apply lk_getj; by intros ?? []|]. intros bf.
    apply lk_assoc. eapply lk_bind; [apply lk_getj; unfold KB; eu|]. intros e. apply lk_ret_bind.
    destruct (_ && _); [apply lk_modj; unfold KB; eu|]. eapply lk_conseq; [apply KB_K|done|done|apply IH].
Qed.
Lemma lk_trail k : forall p, lock Eppc Ehead Ehead (trailing_free k p).
Proof.
  induction k as [|k IH]; intros p; cbn [trailing_free]; [apply lk_ret|].
  eapply lk_bind; [apply lk_io; eu|]. intros [|]; [|apply lk_ret]. eapply lk_bind; [apply IH|]. intros n. apply lk_ret.
Qed.
Lemma lk_roll : lock Eppc Ehead Ehead roll_stats.
Proof. apply lk_modj. eu. Qed.
Lemma lk_head_loop n : lock Eppc Ehead Ehead (find_head_loop n).
Proof.
  induction n as [|n IH]; cbn [find_head_loop]; [apply lk_halt|].
  eapply lk_bind; [apply lk_getg|]. intros g. eapply lk_bind; [apply lk_getj; eu|]. intros c.
  eapply lk_bind; [apply lk_getj; eu|]. intros hd.
  eapply lk_bind; [apply lk_trail|]. intros k. destruct (1 <? k); [apply lk_modj; eu|].
  eapply (lk_bind _ _ Ehead); [apply lk_modj; eu|]. intros _.
  eapply lk_bind; [apply lk_getj; eu|]. intros hd2.
  eapply (lk_bind _ _ Ehead).
  { destruct (_ <=? _); [|apply lk_ret]. eapply (lk_bind _ _ Ehead); [apply lk_modj; eu|]. intros _. apply lk_roll. }
  intros _. eapply lk_bind; [apply lk_getj; eu|]. intros hd3. destruct (is_aligned _ _); [|apply IH].
  eapply lk_bind; [apply lk_getj; eu|]. intros tl. destruct (align_eq _ _ _); [apply lk_modj; eu|apply lk_ret].
Qed.
Lemma lk_head st : lock Eppc Etail Ehead (find_head st).
Proof.
  unfold find_head. eapply lk_bind; [apply lk_getg|]. intros g. eapply lk_bind; [apply lk_getj; eu|]. intros c.
  eapply (lk_bind _ _ Ehead); [apply lk_modj; eu|]. intros _.
  eapply lk_bind; [apply lk_getj; eu|]. intros hd.
  eapply (lk_bind _ _ Ehead); [destruct (_ =? 0); [apply lk_roll|apply lk_ret]|]. intros _. apply lk_head_loop.
Qed.
Lemma lk_clear_user : lock Eppc Etail Etail hdr_clear_user.
Proof.
  unfold hdr_clear_user. eapply lk_bind; [apply lk_getg|]. intros g s1 s2 En Hp. unfold buf_put.
  assert (E : j_buf (js_j s1) = j_buf (js_j s2)) by eu. rewrite E. destruct (_ && _); [|done].
  split; [done|]. split; [done|]. cbn. eu.
Qed.
Lemma lk_resume_body : lock Eppc Eppc eq journal_resume_body.
Proof.
  unfold journal_resume_body. eapply lk_bind; [apply (lk_find_checkblock Eppc); eu|]. intros first.
  eapply lk_bind; [apply lk_getj; by intros ?? []|]. intros bf.
  eapply (lk_bind _ _ Eep); [apply lk_modj; unfold KB; eu|]. intros _.
  eapply lk_bind; [apply (lk_conseq Eppc Eep Eep Eep Eep Eep); [done|done|eu|apply lk_last]|]. intros last.
  eapply lk_bind; [apply (lk_conseq Eppc Eep Eep Eep Eep Eep); [done|done|eu|apply lk_group]|]. intros grp.
  eapply lk_bind; [apply lk_root|]. intros _.
  eapply lk_bind; [apply lk_getj; eu|]. intros bf2.
  eapply (lk_bind _ _ (fun a b => Eroot a b /\ j_tail a = j_tail b)); [apply lk_modj; eu|]. intros _.
  eapply (lk_bind _ _ (fun a b => Eroot a b /\ j_tail a = j_tail b /\ j_bbc a = j_bbc b)); [apply lk_modj; eu|]. intros _.
  eapply (lk_bind _ _ Etail); [apply lk_modj; eu|]. intros _.
  eapply lk_bind; [apply lk_clear_user|]. intros _.
  eapply lk_bind; [apply lk_head|]. intros _.
  set (Ef := fun a b => Ehead a b /\ j_dirty a = j_dirty b /\ j_badmeta a = j_badmeta b /\ j_recov a = j_recov b /\ j_enum a = j_enum b).
  eapply (lk_bind _ _ Ef); [apply lk_modj; unfold Ef; eu|]. intros _.
  eapply lk_bind; [apply lk_getj; unfold Ef; eu|]. intros tl.
  eapply (lk_bind _ _ (fun a b => Ef a b /\ j_tsync a = j_tsync b)); [apply lk_modj; unfold Ef; eu|]. intros _.
  unfold clear_recovery. apply lk_modj. intros [] []. unfold Ef, Ehead, Etail, Eroot, Eep, Ebuf, Eppc. cbn. intros H.
  decompose [and] H. by subst.
Qed.
Lemma lk_resume : lock eq Eppc eq journal_resume.
Proof.
  unfold journal_resume. eapply lk_attempt_bind; [apply lk_resume_body| |intros; apply lk_ret].
  intros e. eapply (lk_bind _ _ eq); [|intros _; by apply lk_fail].
  unfold reset_journal. eapply lk_bind; [apply lk_getg|]. intros g. apply lk_modj.
  intros a b H. unfold reset_journal_j. by rewrite H.
Qed.

(** C44.  Whatever state the map object is in (in mid-recovery, after errors, or
    arbitrary memory contents, provided the checkpoint period is the one set by
    dhara_map_init), dhara_map_resume does what it does after dhara_map_init. *)
Theorem C44_resume_any_state s gcr junk :
  let '(r, s1) := map_resume s in
  let '(r', s2) := restart gcr junk (chip s) in
  j_ppc (js_j (m_js s)) = choose_ppc (g_lps (n_geo (chip s))) (g_lppb (n_geo (chip s))) ->
  r = r' /\ chip s1 = chip s /\
  ((forall x, r <> ST x) -> m_js s1 = m_js s2 /\ m_count s1 = m_count s2 /\ m_gcr s1 = m_gcr s).
Proof.
  pose proof (Pres.k_map_resume eq (fun _ => eq_refl) (fun a b d => @eq_trans _ a b d) s) as Hc1.
  destruct (map_resume s) as [r s1] eqn:E1. destruct (restart gcr junk (chip s)) as [r' s2] eqn:E2.
  intros Hp. cbn [snd] in Hc1.
  pose proof (lk_resume (m_js s) (Js (chip s) (journal_init (n_geo (chip s)))) eq_refl Hp) as H.
  unfold restart, map_resume, map_init, bind, attempt, jn, zoom in E1, E2. cbn [m_js] in E2.
  destruct (journal_resume (m_js s)) as [[x|e|x] t1], (journal_resume (Js _ _)) as [[x'|e'|x'] t2]; try done.
  - destruct H as (-> & En & Ej). assert (t1 = t2) by (destruct t1, t2; cbn in *; by subst). subst t2.
    unfold ck_get_count, jn, zoom, bind in E1, E2. cbn [m_js put_js] in E1, E2. destruct (buf_get HEADER_SIZE COOKIE_SIZE t1) as [[bb|e|x] t3] eqn:Eb.
    + cbn in E1, E2. injection E1 as <- <-. injection E2 as <- <-. done.
    + cbn in E1, E2. injection E1 as <- <-. injection E2 as <- <-. split; [done|]. split; [done|]. intros _. cbn.
      unfold buf_get in Eb. by destruct (_ && _).
    + cbn in E1, E2. injection E1 as <- <-. injection E2 as <- <-. split; [done|]. split; [done|]. intros Hn. by destruct (Hn x).
  - destruct H as (-> & En & Ej). assert (t1 = t2) by (destruct t1, t2; cbn in *; by subst). subst t2.
    cbn in E1, E2. injection E1 as <- <-. injection E2 as <- <-. done.
  - destruct H as (-> & En). injection E1 as <- <-. injection E2 as <- <-. split; [done|]. split; [done|]. intros Hn. by destruct (Hn x').
Qed.
