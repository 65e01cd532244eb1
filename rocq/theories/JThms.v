(** C47, C48: theorems about a journal used on its own. *)
From stdpp Require Import gmap.
From Verif Require Import Base Bytes Nand Journal Geom Inv StepJ Spec Ppc History JSpec JChain JProps.
Local Open Scope Z_scope.

(** ** Readable consequences of a history *)

(** Calls that leave the queue alone, or change it by a page of known contents. *)
Definition plain (x : jhop) : Prop := match x with JO (JCopy _) | JReset => False | _ => True end.

(** [fifo l h rs]: with the pages [l] in the queue, the pops of [h] return pages in
    the order they were enqueued; nothing is said about a pop when none is left. *)
Fixpoint fifo (g : geo) (l : list (bytes * bytes)) (h : list jhop) (rs : list (out jresp)) : Prop :=
  match h, rs with
  | [], [] => True
  | JO (JEnq d m) :: h, OK _ :: rs => fifo g (l ++ [(d, m)]) h rs
  | JO JPad :: h, OK _ :: rs => fifo g (l ++ [(replicate (Z.to_nat (2 ^ g_lps g)) 255, replicate 132 255)]) h rs
  | JO JPop :: h, r :: rs =>
    match l with
    | (d, m) :: l => r = OK (JPage (inr m) (inr d)) /\ fifo g l h rs
    | [] => fifo g [] h rs
    end
  | JO JClear :: h, _ :: rs => fifo g [] h rs
  | _ :: h, _ :: rs => fifo g l h rs
  | _, _ => False
  end.

Lemma map_some_blank (l : list (bytes * bytes)) b r : map Some l = b ++ r -> blank b -> b = [].
Proof.
  intros E Hb. destruct b as [|e b]; [done|]. inversion Hb; subst. by destruct l.
Qed.
Lemma map_some_blank_nil (l : list (bytes * bytes)) : blank (map Some l) -> l = [].
Proof. intros Hb. destruct l; [done|]. by inversion Hb. Qed.

Lemma jhist_fifo g st h rs st' : jhist g st h rs st' -> forall l, Forall plain h ->
  Forall (fun r => r <> ST Crash) rs -> q st = map Some l -> fifo g l h rs.
Proof.
  induction 1 as [st|st o r st1 h rs st' Hr Hc Hh IH|st o st1 st2 h rs st' Hc Hcy Hh IH|st st1 h rs st' Hcy Hh IH];
    intros l Hp Hrs Hq.
  - done.
  - inversion Hp as [|? ? Hp1 Hp2]; subst. inversion Hrs as [|? ? Hrs1 Hrs2]; subst.
    destruct Hc as [d m st2 Ha|st2 Ha|o st2 Ho Hu|b e l0 m st2 E Hb Ha|b l0 m x st2 E Hb Hu Hx|m Hb|m st2 Hb Ha
      |b d m l0 E Hb|b l0 x y E Hb|Hb|x y Hb|d m E|r0 E|E| |b| | |n Hn]; cbn [fifo].
    + apply IH; auto. destruct Ha as [-> _]. by rewrite Hq, map_app.
    + apply IH; auto. destruct Ha as [-> _]. by rewrite Hq, map_app.
    + destruct Hu as [Eq _]. destruct o; try done; cbn [fifo]; apply IH; auto; congruence.
    + done.
    + done.
    + done.
    + done.
    + rewrite Hq in E. pose proof (map_some_blank _ _ _ E Hb) as ->. destruct l as [|[d' m'] l]; [done|].
      injection E as -> -> E. split; [done|]. apply IH; auto.
    + rewrite Hq in E. pose proof (map_some_blank _ _ _ E Hb) as ->. by destruct l as [|[d' m'] l].
    + rewrite Hq in Hb. apply map_some_blank_nil in Hb as ->. by apply IH.
    + rewrite Hq in Hb. apply map_some_blank_nil in Hb as ->. by apply IH.
    + by apply IH.
    + by apply IH.
    + by apply IH.
    + by apply IH.
    + by apply IH.
    + by apply IH.
    + by apply IH.
    + by apply IH.
  - inversion Hrs as [|? ? Hrs1 Hrs2]; subst. done.
  - inversion Hp; subst. done.
Qed.

(** What a power loss cannot take away. *)
Lemma core_app_pre b l : blank b -> core (b ++ l) = core l. Proof. apply core_pre. Qed.
Definition safe (st : jst) : Prop := synced st = true -> core (dq st) = core (q st).

Lemma app_safe st e st' : appended st e st' -> safe st'.
Proof. intros (H1 & H2 & H3) Hs. rewrite Hs in H3. by destruct H3 as [-> _]. Qed.
Lemma jcall_safe g st o r st' : jcall g st o r st' -> safe st -> safe st'.
Proof.
  intros Hc Hs.
  destruct Hc as [d m st2 Ha|st2 Ha|o st2 Ho Hu|b e l0 m st2 E Hb Ha|b l0 m x st2 E Hb Hu Hx|m Hb|m st2 Hb Ha
    |b d m l0 E Hb|b l0 x y E Hb|Hb|x y Hb|d m E|r0 E|E| |b| | |n Hn]; try done.
  - by eapply app_safe.
  - by eapply app_safe.
  - destruct Hu as (E1 & E2 & E3 & E4 & E5). intros Hs'. rewrite E1, E3. auto.
  - by eapply app_safe.
  - destruct Hu as (E1 & E2 & E3 & E4 & E5). intros Hs'. rewrite E1, E3. cbn [with_q q dq synced] in *.
    rewrite (Hs (E5 Hs')), E. by apply core_pre.
  - intros Hs'. cbn [with_q q dq synced] in *. rewrite (Hs Hs'), <-(app_nil_r (q st)). by apply core_pre.
  - by eapply app_safe.
  - intros Hs'. cbn [popped q dq synced] in *. by rewrite Hs'.
  - intros Hs'. cbn [popped q dq synced] in *. by rewrite Hs'.
  - intros Hs'. cbn [with_q q dq synced] in *. rewrite (Hs Hs'), <-(app_nil_r (q st)). by apply core_pre.
  - intros Hs'. cbn [with_q q dq synced] in *. rewrite (Hs Hs'), <-(app_nil_r (q st)). by apply core_pre.
Qed.
Lemma cycled_safe st st' : cycled st st' -> safe st'.
Proof. intros (H1 & H2 & H3 & H4 & H5) _. by rewrite H1, H4. Qed.
Lemma jhist_safe g st h rs st' : jhist g st h rs st' -> safe st -> safe st'.
Proof.
  induction 1; intros Hs; auto.
  - apply IHjhist. by eapply jcall_safe.
  - apply IHjhist. by eapply cycled_safe.
  - apply IHjhist. by eapply cycled_safe.
Qed.

Lemma jhist_app g st h1 h2 rs st' : jhist g st (h1 ++ h2) rs st' ->
  exists rs1 rs2 st1, rs = rs1 ++ rs2 /\ length rs1 = length h1 /\ jhist g st h1 rs1 st1 /\ jhist g st1 h2 rs2 st'.
Proof.
  revert st rs. induction h1 as [|x h1 IH]; intros st rs H.
  { exists [], rs, st. split_and!; auto. constructor. }
  cbn in H. inversion H; subst.
  - destruct (IH _ _ ltac:(eassumption)) as (rs1 & rs2 & st2 & -> & E & Ha1 & Ha2).
    exists (r :: rs1), rs2, st2. split_and!; cbn; auto. by eapply jh_call.
  - destruct (IH _ _ ltac:(eassumption)) as (rs1 & rs2 & st3 & -> & E & Ha1 & Ha2).
    exists (ST Crash :: rs1), rs2, st3. split_and!; cbn; auto. by eapply jh_crash.
  - destruct (IH _ _ ltac:(eassumption)) as (rs1 & rs2 & st2 & -> & E & Ha1 & Ha2).
    exists (OK JDone :: rs1), rs2, st2. split_and!; cbn; auto. by eapply jh_reset.
Qed.

(** The pages of specified contents, and how a pop returns them. *)
Definition known (l : list entry) : list (bytes * bytes) := omap id l.
Definition shown (x : bytes * bytes) : out jresp := OK (JPage (inr (snd x)) (inr (fst x))).

Lemma known_app a b : known (a ++ b) = known a ++ known b.
Proof. apply omap_app. Qed.
Lemma known_blank b : blank b -> known b = [].
Proof. induction 1 as [|e b -> Hb IH]; [done|]. cbn. exact IH. Qed.
Lemma known_strip l : known (strip l) = known l.
Proof. induction l as [|[x|] l IH]; [done..|]. cbn. exact IH. Qed.
Lemma known_rev l : known (rev l) = rev (known l).
Proof.
  induction l as [|[x|] l IH]; [done|..]; cbn [rev]; rewrite known_app, IH; cbn; [done|apply app_nil_r].
Qed.
Lemma known_core l : known (core l) = known l.
Proof. unfold core. by rewrite known_rev, known_strip, known_rev, known_strip, rev_involutive. Qed.

Lemma pops_known g k : forall st rs st', jhist g st (replicate k (JO JPop)) rs st' ->
  Forall (fun r => r <> ST Crash) rs -> OK JEmpty ∈ rs -> sublist (map shown (known (q st))) rs.
Proof.
  induction k as [|k IH]; intros st rs st' H Hrs He; cbn in H; inversion H; subst.
  { by apply elem_of_nil in He. }
  - inversion Hrs as [|? ? Hr1 Hr2]; subst.
    clear H. match goal with H0 : jcall _ _ _ _ _ |- _ => rename H0 into Hjc end.
    match goal with H0 : jhist _ _ _ _ _ |- _ => rename H0 into Hh end.
    inversion Hjc; subst; try done.
    + match goal with E : q st = _ |- _ => rewrite E end. rewrite known_app, known_blank by done. cbn.
      apply sublist_skip. eapply (IH _ _ _ Hh); auto. apply elem_of_cons in He as [He|He]; done.
    + match goal with E : q st = _ |- _ => rewrite E end. rewrite known_app, known_blank by done. cbn.
      apply sublist_cons. eapply (IH _ _ _ Hh); auto. apply elem_of_cons in He as [He|He]; done.
    + rewrite known_blank by done. apply sublist_nil_l.
    + rewrite known_blank by done. apply sublist_nil_l.
  - by inversion Hrs.
Qed.

Section thms.
Context (g : geo) (weak : Z -> bool) (Hsup : supported g) (Hfew : few_weak g weak).
Let c := choose_ppc (g_lps g) (g_lppb g).
Let Hg : geo_ok2 g c := supported_geo g Hsup.

Lemma fresh_QI n : fresh g weak n -> QI g c weak (snd (jrestart n)) jempty.
Proof.
  intros Hf. eapply (restart_none g c Hg weak); [done|by apply (fresh_D g c Hg weak)| |done].
  split; [done|].
  exists 0, []. split; [|split; [done|split; [|done]]].
  - unfold user. rewrite Z.mod_0_l; pose proof (PC_ge _ _ Hg); lia.
  - apply ch_nil. cbn. lia.
Qed.

(** C47: every history of calls on a journal, including power losses at any
    operation of the chip, does what [jhist] says; in particular no call performs an
    invalid access. *)
Theorem C47_journal_queue n h rs s' :
  fresh g weak n -> Forall (valid_jhop g) h -> jrun h (snd (jrestart n)) = (rs, s') ->
  exists st', jhist g jempty h rs st'.
Proof.
  intros Hf Hv E.
  pose proof (jrun_spec g c Hg weak Hfew h eq_refl Hv _ _ (fresh_QI n Hf)) as H3.
  rewrite E in H3. destruct H3 as (st' & H3 & _). by exists st'.
Qed.

(** Pages come out in the order they went in. *)
Theorem C47_fifo n h rs s' :
  fresh g weak n -> Forall (valid_jhop g) h -> Forall plain h ->
  jrun h (snd (jrestart n)) = (rs, s') -> Forall (fun r => r <> ST Crash) rs -> fifo g [] h rs.
Proof.
  intros Hf Hv Hp E Hrs. destruct (C47_journal_queue n h rs s' Hf Hv E) as (st' & H).
  by eapply jhist_fifo.
Qed.

(** C48: if the journal reports that it is clean, then after a power cycle the same
    pages come out, in the same order; pages of unspecified contents may come out
    between them. *)
Theorem C48_clean_is_persistent n h k rs0 rs1 s' :
  fresh g weak n -> Forall (valid_jhop g) h ->
  jrun (h ++ [JO JIsClean; JReset] ++ replicate k (JO JPop)) (snd (jrestart n)) =
    (rs0 ++ [OK (JBool true); OK JDone] ++ rs1, s') ->
  length rs0 = length h -> Forall (fun r => r <> ST Crash) rs1 -> OK JEmpty ∈ rs1 ->
  exists st, jhist g jempty h rs0 st /\ sublist (map shown (known (q st))) rs1.
Proof.
  intros Hf Hv E Hl Hrs He.
  assert (Hv' : Forall (valid_jhop g) (h ++ [JO JIsClean; JReset] ++ replicate k (JO JPop))).
  { apply Forall_app. split; [exact Hv|]. apply Forall_app. split.
    - constructor; [exact I|]. constructor; [exact I|]. constructor.
    - apply Forall_replicate. exact I. }
  destruct (C47_journal_queue n _ _ s' Hf Hv' E) as (st' & H). clear E Hv'.
  destruct (jhist_app _ _ _ _ _ _ H) as (ra & rb & st & E1 & E2 & H1 & H2).
  apply app_inj_1 in E1 as [-> E1]; [|congruence]. subst rb. exists st. split; [done|].
  cbn in H2. inversion H2; subst. match goal with Hc : jcall _ _ JIsClean _ _ |- _ => inversion Hc; subst; try done end.
  match goal with Hh : jhist _ _ (JReset :: _) _ _ |- _ => inversion Hh; subst end.
  match goal with Hh : jhist _ _ (replicate _ _) _ _ |- _ => pose proof (pops_known _ _ _ _ _ Hh Hrs He) as Hp end.
  match goal with H0 : cycled _ _ |- _ => rename H0 into Hcy; destruct Hcy as (Hcy & _) end.
  pose proof (jhist_safe _ _ _ _ _ H1 ltac:(by intros _)) as Hs.
  rewrite <-known_core. rewrite <-Hs by done. rewrite <-Hcy, known_core. done.
Qed.
End thms.
