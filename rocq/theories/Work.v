(** C51: every call performs a bounded number of chip operations. *)
From stdpp Require Import gmap.
From Verif Require Import Base Bytes BytesLemmas Wp Nand Journal MapModel Api Geom Tree Rep Age Inv StepDI StepNand StepJ StepA StepR MapStep MapOps Spec Ppc History Props Pres.
Local Open Scope Z_scope.

(** Erase, program and mark-bad operations attempted so far. *)
Definition ticks (n : nand) : Z := Z.of_nat (n_tick n).
(** No operation fails (power may still be lost). *)
Definition no_fail (n : nand) : Prop := forall t o f, n_orc n t o <> EvFail f.

Section tb.
(** [ff]: fault-free. *)
Context (ff : bool).
Definition Q (s : js) : Prop := ff = true -> no_fail (js_n s) /\ j_recov (js_j s) = false /\ j_enum (js_j s) = false.
Definition eok (e : err) : Prop := ff = true -> e <> E_BAD_BLOCK /\ e <> E_RECOVER.

(** [tb a b m]: [m] performs at most [a] operations if it succeeds, at most [b]
    otherwise. *)
Definition tb {A} (a b : Z) (m : MJ A) : Prop := forall s, Q s ->
  let '(r, s') := m s in Q s' /\
  match r with
  | OK _ => ticks (js_n s') <= ticks (js_n s) + a
  | ER e => ticks (js_n s') <= ticks (js_n s) + b /\ eok e
  | ST _ => ticks (js_n s') <= ticks (js_n s) + b
  end.

Lemma tb_le {A} a b a' b' (m : MJ A) : tb a b m -> a <= a' -> b <= b' -> tb a' b' m.
Proof. intros H Ha Hb s HQ. specialize (H s HQ). destruct (m s) as [[x|e|x] s']; (split; [tauto|]); destruct H as [_ H]; [lia|split; [lia|tauto]|lia]. Qed.
Lemma tb_ret {A} (a : A) : tb 0 0 (ret a). Proof. intros s HQ. cbn. split; [done|lia]. Qed.
Lemma tb_fail {A} e a : eok e -> tb (A:=A) a 0 (fail e). Proof. intros He s HQ. cbn. split; [done|]. split; [lia|done]. Qed.
Lemma tb_halt {A} e : tb (A:=A) 0 0 (halt e). Proof. intros s HQ. cbn. split; [done|lia]. Qed.
Lemma tb_getj {A} (f : journal -> A) : tb 0 0 (getj f). Proof. intros s HQ. cbn. split; [done|lia]. Qed.
Lemma tb_getjQ {A B} a b (f : journal -> A) (k : A -> MJ B) : (forall s, Q s -> tb a b (k (f (js_j s)))) -> tb a b (bind (getj f) k).
Proof. intros H s HQ. by apply H. Qed.
Lemma tb_getg : tb 0 0 getg. Proof. intros s HQ. cbn. split; [done|lia]. Qed.
Lemma tb_modj f : (ff = true -> forall j, j_recov j = false -> j_enum j = false -> j_recov (f j) = false /\ j_enum (f j) = false) -> tb 0 0 (modj f).
Proof. intros H s HQ. cbn. split; [|lia]. intros Hf. destruct (HQ Hf) as (H1 & H2 & H3). split; [done|]. by apply H. Qed.
Lemma tb_bufput o b : tb 0 0 (buf_put o b). Proof. intros s HQ. unfold buf_put. cbv zeta. destruct (_ && _); cbn; (split; [done|lia]). Qed.
Lemma tb_bufget o b : tb 0 0 (buf_get o b). Proof. intros s HQ. unfold buf_get. cbv zeta. destruct (_ && _); cbn; (split; [done|lia]). Qed.
Lemma tb_bind {A B} a b c d (m : MJ A) (f : A -> MJ B) : tb a b m -> (forall x, tb (c - a) (d - a) (f x)) -> b <= d ->
  tb c d (bind m f).
Proof.
  intros Hm Hf Hbd s HQ. specialize (Hm s HQ). unfold bind. destruct (m s) as [[x|e|x] s']; destruct Hm as [HQ' Hm].
  - specialize (Hf x s' HQ'). destruct (f x s') as [[y|e|y] s2]; (split; [tauto|]); destruct Hf as [_ Hf]; [lia|split; [lia|tauto]|lia].
  - split; [done|]. split; [lia|tauto].
  - split; [done|]. lia.
Qed.
Lemma tb_catch {A B} a b c d (m : MJ A) (f : err + A -> MJ B) : tb a b m ->
  (forall x, tb (c - a) (d - a) (f (inr x))) -> (forall e, eok e -> tb (c - b) (d - b) (f (inl e))) -> b <= d ->
  tb c d (let! r := attempt m in f r).
Proof.
  intros Hm H1 H2 Hbd s HQ. specialize (Hm s HQ). unfold bind, attempt. destruct (m s) as [[x|e|x] s']; destruct Hm as [HQ' Hm].
  - specialize (H1 x s' HQ'). destruct (f (inr x) s') as [[y|e|y] s2]; (split; [tauto|]); destruct H1 as [_ Hf]; [lia|split; [lia|tauto]|lia].
  - specialize (H2 e (proj2 Hm) s' HQ'). destruct (f (inl e) s') as [[y|e2|y] s2]; (split; [tauto|]); destruct H2 as [_ Hf]; [lia|split; [lia|tauto]|lia].
  - split; [done|]. lia.
Qed.

(** Chip operations. *)
Definition nb {A} (k : Z) (m : M nand A) : Prop := forall n, (ff = true -> no_fail n) ->
  let '(r, n') := m n in n_orc n' = n_orc n /\ ticks n' <= ticks n + k /\ match r with ER e => eok e | _ => True end.
Lemma tb_io {A} k (m : M nand A) : nb k m -> tb k k (io m).
Proof.
  intros H s HQ. unfold io, zoom. specialize (H (js_n s)). destruct (m (js_n s)) as [r n'].
  destruct H as (H1 & H2 & H3); [intros Hf; by apply HQ|].
  split; [|by destruct r]. intros Hf. destruct (HQ Hf) as (H4 & H5). split; [|done]. cbn. intros t o f. rewrite H1. apply H4.
Qed.
Lemma eok_other e : e <> E_BAD_BLOCK -> e <> E_RECOVER -> eok e. Proof. by intros H1 H2 _. Qed.
Lemma nb_isbad b : nb 0 (nand_is_bad b).
Proof. intros n _. unfold nand_is_bad. destruct (block_ok _ _); split_and!; auto; lia. Qed.
Lemma nb_isfree p : nb 0 (nand_is_free p).
Proof. intros n _. unfold nand_is_free. destruct (page_ok _ _); split_and!; auto; lia. Qed.
Lemma nb_read p o l : nb 0 (nand_read p o l).
Proof.
  intros n _. unfold nand_read. cbv zeta. destruct (negb (page_ok _ _)); [split_and!; auto; lia|]. destruct (negb _); [split_and!; auto; lia|].
  destruct (cell_bytes _ _); split_and!; auto; try lia. by apply eok_other.
Qed.
Lemma tk n : ticks (bump_tick n) = ticks n + 1. Proof. unfold ticks. cbn. lia. Qed.
Lemma nb_mark b : nb 1 (nand_mark_bad b).
Proof.
  intros n _. unfold nand_mark_bad. cbv zeta. destruct (negb _); [split_and!; auto; lia|].
  destruct (n_orc n (n_tick n) (OpMark b)) as [|f|f]; [split_and!; auto; apply Z.eq_le_incl, tk..|].
  destruct (f 0); split_and!; auto; apply Z.eq_le_incl, tk.
Qed.
Lemma bad_eok n t o f : (ff = true -> no_fail n) -> n_orc n t o = EvFail f -> eok E_BAD_BLOCK.
Proof. intros H E Hf. by destruct (H Hf _ _ _ E). Qed.
Lemma nb_erase b : nb 1 (nand_erase b).
Proof.
  intros n Hn. unfold nand_erase. cbv zeta. destruct (negb _); [split_and!; auto; lia|]. destruct (n_bad n b); [split_and!; auto; lia|].
  destruct (n_orc n (n_tick n) (OpErase b)) as [|f|f] eqn:E; split_and!; auto; try apply Z.eq_le_incl, tk. by eapply bad_eok.
Qed.
Lemma nb_prog p d : nb 1 (nand_prog p d).
Proof.
  intros n Hn. unfold nand_prog. cbv zeta.
  destruct (negb (page_ok _ _)); [split_and!; auto; lia|]. destruct (n_bad n (blk_of (n_geo n) p)); [split_and!; auto; lia|].
  destruct (negb (tail_free _ _ _)); [split_and!; auto; lia|]. destruct (negb (_ =? _)); [split_and!; auto; lia|].
  destruct (n_orc n (n_tick n) (OpProg p)) as [|f|f] eqn:E; try destruct (f p); split_and!; auto; try apply Z.eq_le_incl, tk; by eapply bad_eok.
Qed.
Lemma nb_ret : nb 0 (ret tt). Proof. intros n _. cbn. split_and!; auto; lia. Qed.
Lemma nb_le {A} k k' (m : M nand A) : nb k m -> k <= k' -> nb k' m.
Proof. intros H Hk n Hn. specialize (H n Hn). destruct (m n) as [r n']. split_and!; [tauto|lia|tauto]. Qed.
Lemma nb_copy p q : nb 1 (nand_copy p q).
Proof.
  intros n Hn. unfold nand_copy, bind, gets. pose proof (nb_read p 0 (page_size (n_geo n)) n Hn) as H.
  destruct (nand_read _ _ _ n) as [[d|e|x] n1]; destruct H as (H1 & H2 & H3).
  - pose proof (nb_prog q d n1) as H. destruct (nand_prog q d n1) as [r n2].
    destruct H as (H4 & H5 & H6); [intros Hf t o f; rewrite H1; by apply Hn|]. split_and!; [congruence|lia|done].
  - split_and!; [done|lia|done].
  - split_and!; [done|lia|done].
Qed.

Create HintDb tdb.
#[local] Hint Resolve tb_ret tb_halt tb_getj tb_getg tb_bufput tb_bufget nb_isbad nb_isfree nb_read nb_mark nb_erase nb_prog nb_copy : tdb.
#[local] Hint Extern 1 (tb _ _ (modj _)) => apply tb_modj; intros _ j Hj1 Hj2; solve [by split] : tdb.
#[local] Hint Extern 1 (tb _ _ (fail _)) => apply (tb_fail _ 0), eok_other; done : tdb.
#[local] Hint Extern 1 (tb _ _ (io _)) => eapply tb_io : tdb.
Ltac tbt := repeat (cbn beta; first
  [ solve [eapply tb_le; [solve [eauto with tdb]|lia|lia]]
  | eapply tb_bind; [solve [eauto with tdb]|intros ?|lia]
  | match goal with |- tb _ _ (match ?x with _ => _ end) => destruct x end ]).

Lemma t_roll : tb 0 0 roll_stats. Proof. unfold roll_stats. tbt. Qed.
#[local] Hint Resolve t_roll : tdb.
Lemma t_hclear : tb 0 0 hdr_clear_user. Proof. unfold hdr_clear_user. tbt. Qed.
#[local] Hint Resolve t_hclear : tdb.
Lemma t_skip : tb 0 0 skip_block. Proof. unfold skip_block. tbt. Qed.
#[local] Hint Resolve t_skip : tdb.
Lemma t_prepl i : tb 1 1 (prepare_head_loop i).
Proof.
  induction i as [|i IH]; cbn [prepare_head_loop]; [tbt|]. do 2 (eapply tb_bind; [solve [eauto with tdb]|intros ?|lia]).
  cbv zeta. eapply tb_bind; [solve [eauto with tdb]|intros bad|lia]. destruct bad.
  - do 2 (eapply tb_bind; [solve [eauto with tdb]|intros ?|lia]). eapply tb_le; [exact IH|lia|lia].
  - tbt.
Qed.
#[local] Hint Resolve t_prepl : tdb.
Lemma t_prep : tb 1 1 prepare_head.
Proof. unfold prepare_head. do 2 (eapply tb_bind; [solve [eauto with tdb]|intros ?|lia]). cbv zeta. tbt. Qed.
#[local] Hint Resolve t_prep : tdb.
Lemma t_restart h : tb 1 1 (restart_recovery h).
Proof.
  unfold restart_recovery. do 2 (eapply tb_bind; [solve [eauto with tdb]|intros ?|lia]).
  eapply (tb_bind 1 1); [|intros ?|lia]; [|tbt]. destruct (_ || _); tbt.
Qed.
#[local] Hint Resolve t_restart : tdb.
Lemma t_dump i : tb (3 * Z.of_nat i) (3 * Z.of_nat i) (dump_meta_loop i).
Proof.
  induction i as [|i IH]; cbn [dump_meta_loop]; [tbt|]. eapply (tb_catch 2 2).
  - eapply tb_bind; [apply t_prep|intros ?|lia]. eapply tb_bind; [apply tb_getj|intros j|lia].
    eapply tb_le; [apply tb_io, nb_prog|lia|lia].
  - intros x. do 3 (eapply tb_bind; [solve [eauto with tdb]|intros ?|lia]).
    eapply (tb_bind 0 0); [destruct (_ =? 0); tbt|intros ?|lia]. tbt.
  - intros e He. destruct (decide _).
    + do 3 (eapply tb_bind; [solve [eauto with tdb]|intros ?|lia]). eapply tb_bind; [apply tb_io, nb_mark|intros ?|lia].
      eapply tb_bind; [apply t_skip|intros ?|lia]. eapply tb_le; [exact IH|lia|lia].
    + eapply tb_le; [by apply (tb_fail _ (-1000))|lia|lia].
  - lia.
Qed.
#[local] Hint Resolve t_dump : tdb.
(** Operations of a recovery from a failed program operation. *)
Definition rc0 : Z := if ff then 0 else 1.
Definition rc1 : Z := if ff then 0 else 24.
Lemma t_recover e : eok e -> tb rc0 rc1 (recover_from e).
Proof.
  intros He. unfold recover_from, rc0, rc1. do 2 (eapply tb_bind; [solve [eauto with tdb]|intros ?|destruct ff; lia]).
  destruct (decide (e <> E_BAD_BLOCK)) as [Hn|Hn]; [eapply tb_le; [by apply (tb_fail _ (-1000))|destruct ff; lia|destruct ff; lia]|].
  unfold eok in He. destruct ff eqn:Eff. { destruct (He eq_refl). done. }
  assert (Hrec : eok E_RECOVER) by (unfold eok; rewrite Eff; done).
  do 3 (eapply tb_bind; [solve [eauto with tdb]|intros ?|lia]). destruct x3.
  - eapply tb_bind; [apply t_restart|intros ?|lia]. eapply tb_le; [by apply (tb_fail _ (-1000))|lia|lia].
  - destruct (is_aligned _ _); [eapply tb_le; [apply tb_io, nb_mark|lia|lia]|].
    do 2 (eapply tb_bind; [solve [eauto with tdb]|intros ?|lia]).
    eapply (tb_bind 24 24); [|intros ?|lia].
    { destruct (negb _); [apply (t_dump 8)|eapply tb_le; [apply tb_ret|lia|lia]]. }
    eapply tb_bind; [apply tb_modj; rewrite Eff; done|intros ?|lia]. eapply tb_le; [by apply (tb_fail _ (-1000))|lia|lia].
Qed.
Lemma t_finish : ff = false -> tb 2 2 finish_recovery.
Proof.
  intros Hff. unfold finish_recovery. do 2 (eapply tb_bind; [solve [eauto with tdb]|intros ?|lia]).
  eapply tb_bind; [apply tb_io, nb_mark|intros ?|lia].
  eapply (tb_bind 1 1); [destruct (j_badmeta _)|intros ?|lia]; [|tbt|].
  - eapply tb_le; [apply tb_io, nb_mark|lia|lia].
  - eapply tb_le; [apply tb_modj; congruence|lia|lia].
Qed.
(** Operations of writing the metadata of an appended page. *)
Definition pm0 : Z := if ff then 1 else 3.
Definition pm1 : Z := if ff then 1 else 25.
Lemma t_push m : tb pm0 pm1 (push_meta m).
Proof.
  assert (H : 1 <= pm0 /\ rc0 <= pm0 - 1 /\ 1 <= pm1 /\ rc1 <= pm1 - 1 /\ pm0 <= pm1) by (unfold pm0, pm1, rc0, rc1; destruct ff; lia).
  unfold push_meta. do 2 (eapply tb_bind; [solve [eauto with tdb]|intros ?|lia]). cbv zeta.
  eapply tb_bind; [solve [eauto with tdb]|intros ?|lia]. destruct (negb _); [tbt|].
  unfold hdr_put_magic, hdr_set_epoch, hdr_set_tail, hdr_set_bb_current, hdr_set_bb_last.
  do 6 (eapply tb_bind; [solve [eauto with tdb]|intros ?|lia]).
  eapply (tb_catch 1 1); [apply tb_io, nb_prog|intros ?|intros e He|lia].
  - do 3 (eapply tb_bind; [solve [eauto with tdb]|intros ?|lia]).
    eapply (tb_bind 0 0); [destruct (_ =? 0); tbt|intros ?|lia].
    apply tb_getjQ. intros s HQ.
    eapply (tb_bind (pm0 - 1) (pm0 - 1)); [|intros ?|lia].
    { destruct (j_enum (js_j s)) eqn:E; [|tbt]. destruct ff eqn:Eff.
      { unfold Q in HQ. destruct (HQ Eff) as (_ & _ & H3). congruence. }
      unfold pm0. rewrite Eff. eapply tb_le; [by apply t_finish|lia|lia]. }
    tbt.
  - eapply tb_le; [by apply t_recover|lia|lia].
Qed.
(** Operations of one append. *)
Definition ap0 (i : nat) : Z := if ff then 3 else 3 * Z.of_nat i + 2.
Definition ap1 (i : nat) : Z := if ff then 3 else 3 * Z.of_nat i + 24.
Lemma t_append prog m : (forall h, nb 1 (prog h)) -> forall i, tb (ap0 i) (ap1 i) (append_loop i prog m).
Proof.
  intros Hp. induction i as [|i IH]; cbn [append_loop].
  { eapply tb_le; [apply (tb_fail _ 0); by apply eok_other|unfold ap0; destruct ff; lia|unfold ap1; destruct ff; lia]. }
  eapply (tb_catch 2 2).
  - eapply tb_bind; [apply t_prep|intros ?|lia]. eapply tb_bind; [apply tb_getj|intros ?|lia]. eapply tb_le; [apply tb_io, Hp|lia|lia].
  - intros x. eapply tb_le; [apply t_push|unfold pm0, ap0; destruct ff; lia|unfold pm1, ap1; destruct ff; lia].
  - intros e He. destruct ff eqn:Eff.
    + unfold eok in He. destruct (He Eff) as [He1 He2].
      assert (Hf : forall s, bind (recover_from e) (fun _ => append_loop i prog m) s = (ER e, s)).
      { intros s. unfold recover_from, bind, getg, getj, gets, fail. destruct (decide _); [done|tauto]. }
      intros s HQ. rewrite Hf. split; [done|]. split; [unfold ap1; rewrite Eff; lia|exact He].
    + eapply tb_bind; [by apply t_recover|intros ?|].
      * eapply tb_le; [exact IH|unfold ap0, rc0; rewrite Eff; lia|unfold ap1, rc0; rewrite Eff; lia].
      * unfold ap1, rc1. rewrite Eff. lia.
  - unfold ap1; destruct ff; lia.
Qed.
(** The bound of one append. *)
Definition ops_append : Z := if ff then 3 else 48.
Lemma t_enqueue d m : tb ops_append ops_append (journal_enqueue d m).
Proof.
  unfold journal_enqueue. eapply tb_le; [apply (t_append _ _) with (i := 8%nat)|..]; [|unfold ap0, ops_append; destruct ff; lia|unfold ap1, ops_append; destruct ff; lia].
  intros h. destruct d; [apply nb_prog|]. apply nb_le with 0; [apply nb_ret|lia].
Qed.
Lemma t_copy p m : tb ops_append ops_append (journal_copy p m).
Proof.
  unfold journal_copy. eapply tb_le; [apply (t_append _ _) with (i := 8%nat)|..]; [|unfold ap0, ops_append; destruct ff; lia|unfold ap1, ops_append; destruct ff; lia].
  intros h. apply nb_copy.
Qed.
End tb.

Section work.
Context (g : geo) (c : Z) (Hg : geo_ok g c) (weak : Z -> bool) (Hdense : dense g weak) (ff : bool).
Notation PC := (PC c).
Notation MX := (MX g c weak).
Notation MI := (MI g c weak).
Notation k := (ops_append ff).
Notation "'lem' x" := (x g c Hg weak Hdense) (at level 9, x at level 8, only parsing).
Notation contents := (gmap Z bytes).

(** The map's operations, with any number of calls. *)
Definition nofl (s : ms) : Prop := ff = true -> no_fail (chip s).
Definition tm {A} (b : Z) (m : MM A) : Prop := forall s, Q ff (m_js s) ->
  Q ff (m_js (snd (m s))) /\ ticks (chip (snd (m s))) <= ticks (chip s) + b.
Lemma k_pos : 0 <= k. Proof. unfold ops_append. destruct ff; lia. Qed.
Lemma tm_ret {A} (a : A) : tm 0 (ret a). Proof. intros s HQ. cbn. split; [done|lia]. Qed.
Lemma tm_fail {A} e : tm (A:=A) 0 (fail e). Proof. intros s HQ. cbn. split; [done|lia]. Qed.
Lemma tm_halt {A} e : tm (A:=A) 0 (halt e). Proof. intros s HQ. cbn. split; [done|lia]. Qed.
Lemma tm_gets {A} (f : ms -> A) : tm 0 (gets f). Proof. intros s HQ. cbn. split; [done|lia]. Qed.
Lemma tm_modify f : (forall s, m_js (f s) = m_js s) -> tm 0 (modify f).
Proof. intros H s HQ. unfold chip. cbn. rewrite H. split; [done|lia]. Qed.
Lemma tm_bind {A B} a b (m : MM A) (f : A -> MM B) : tm a m -> (forall x, tm (b - a) (f x)) -> a <= b -> tm b (bind m f).
Proof.
  intros Hm Hf Hab s HQ. specialize (Hm s HQ). unfold bind. destruct (m s) as [[x|e|x] s']; cbn [fst snd] in *; [|split; [tauto|lia]..].
  destruct Hm as [HQ' Hm]. destruct (Hf x s' HQ') as [H1 H2]. split; [done|lia].
Qed.
Lemma tm_jn {A} a (m : MJ A) : tb ff a a m -> tm a (jn m).
Proof.
  intros H s HQ. specialize (H (m_js s) HQ). unfold jn, zoom, chip. destruct (m (m_js s)) as [r x]. cbn.
  destruct H as [HQ' H]. split; [done|]. destruct r; lia.
Qed.
Lemma tm_le {A} a b (m : MM A) : tm a m -> a <= b -> tm b m.
Proof. intros H Hab s HQ. destruct (H s HQ). split; [done|lia]. Qed.
Lemma t_readmeta p : tb ff 0 0 (read_meta p).
Proof.
  unfold read_meta. eapply (tb_bind ff 0 0); [apply tb_getj|intros j|lia]. cbv zeta.
  destruct (align_eq _ _ _); [apply tb_bufget|]. destruct (_ && _); apply tb_io, nb_read.
Qed.
Create HintDb tmd.
#[local] Hint Resolve tm_ret tm_fail tm_halt tm_gets : tmd.
#[local] Hint Extern 1 (tm _ (modify _)) => apply tm_modify; done : tmd.
#[local] Hint Extern 1 (tm _ (jn (read_meta _))) => apply tm_jn, t_readmeta : tmd.
#[local] Hint Extern 1 (tm _ (jn (getj _))) => apply (tm_jn 0), tb_getj : tmd.
#[local] Hint Extern 1 (tm _ (jn (cookie_put _))) => apply (tm_jn 0), tb_bufput : tmd.
#[local] Hint Extern 1 (tm _ (jn (journal_copy _ _))) => apply tm_jn, t_copy : tmd.
#[local] Hint Extern 1 (tm _ (jn (journal_enqueue _ _))) => apply tm_jn, t_enqueue : tmd.
Ltac tmt := repeat (cbn beta; cbv zeta; first
  [ solve [eapply tm_le; [solve [eauto with tmd]|lia]]
  | eapply tm_bind; [solve [eauto with tmd]|intros ?|lia]
  | match goal with |- tm _ (match ?x with _ => _ end) => destruct x end ]).
Lemma tm_trace_loop d : forall t p m nm, tm 0 (trace_loop d t p m nm).
Proof. induction d as [|d IH]; intros; cbn [trace_loop]; tmt; (eapply tm_le; [apply IH|lia]). Qed.
#[local] Hint Resolve tm_trace_loop : tmd.
Lemma tm_trace t nm : tm 0 (trace_path t nm). Proof. unfold trace_path, get_root. tmt. Qed.
#[local] Hint Resolve tm_trace : tmd.
Lemma tm_ck x : tm 0 (ck_set_count x). Proof. unfold ck_set_count. tmt. Qed.
#[local] Hint Resolve tm_ck : tmd.
Lemma tm_rawgc p : tm k (raw_gc p). Proof. pose proof k_pos. unfold raw_gc. tmt. Qed.
Lemma tm_pad : tm k pad_queue. Proof. pose proof k_pos. unfold pad_queue, get_root. tmt. Qed.
Lemma t_jclear : tb ff 0 0 journal_clear.
Proof.
  unfold journal_clear. eapply (tb_bind ff 0 0); [apply tb_modj|intros ?|lia].
  - by intros _ j H1 H2.
  - apply t_hclear.
Qed.
#[local] Hint Extern 1 (tm _ (jn journal_clear)) => apply tm_jn, t_jclear : tmd.
Lemma tm_delete t : tm k (try_delete t). Proof. pose proof k_pos. unfold try_delete. tmt. Qed.
Lemma tm_clear : tm 0 map_clear. Proof. unfold map_clear. tmt. Qed.
Lemma tm_find t : tm 0 (map_find t). Proof. unfold map_find. tmt. Qed.

Lemma MI_Q s S Sd hv tv sv K D : MI s S Sd hv tv sv K D -> nofl s -> Q ff (m_js s).
Proof. intros HM Hn Hf. pose proof (mi_j _ _ _ _ _ _ _ _ _ _ _ HM) as [_ Hj _ _]. split; [by apply Hn|]. split; apply Hj. Qed.
Lemma MX_Q s S Sd : MX s S Sd -> nofl s -> Q ff (m_js s).
Proof. intros (_ & hv & tv & sv & K & D & HM). by eapply MI_Q. Qed.
Lemma Q_nofl s : Q ff (m_js s) -> nofl s. Proof. intros H Hf. by apply H. Qed.

(** [tpo s b s']: at most [b] operations from [s] to [s']. *)
Definition tpo (s : ms) (b : Z) (s' : ms) : Prop := nofl s' /\ ticks (chip s') <= ticks (chip s) + b.
Lemma tm_wp {A} b (m : MM A) s : tm b m -> Q ff (m_js s) -> wp m s (fun _ s' => tpo s b s').
Proof. intros H HQ. destruct (H s HQ) as [H1 H2]. split; [by apply Q_nofl|done]. Qed.

Lemma gc_loop_ticks n fuel s S Sd : MX s S Sd -> nofl s ->
  wp (map_gc_loop (Datatypes.S n) fuel) s (fun _ s' => tpo s k s').
Proof.
  intros [Hc (hv & tv & sv & K & D & HM)] Hn. cbn [map_gc_loop]. pose proof k_pos.
  destruct (lem peek_MI _ _ _ _ _ _ _ _ HM) as (s1 & tv1 & E1 & Hle & HM1 & Ec1 & Eg1 & En1 & Ed1).
  eapply wp_bind_ok; [exact E1|]. clear E1.
  assert (Hn1 : nofl s1) by (unfold nofl; by rewrite En1).
  destruct (tv =? hv).
  { rewrite Z.eqb_refl. apply wp_ret. split; [done|]. rewrite En1. lia. }
  destruct (Z.eqb_spec (ph g tv1) PAGE_NONE) as [E|_].
  { apply wp_ret. split; [done|]. rewrite En1. lia. }
  apply wp_bind, wp_attempt.
  eapply wp_mono; [apply wp_conj; [apply (lem raw_gc_spec _ _ _ _ _ _ _ _ HM1); congruence|eapply tm_wp; [apply tm_rawgc|by eapply MI_Q]]|].
  intros o s2 [(Eg2 & Ec2 & Ho) [Hn2 Ht2]]. rewrite En1 in Ht2. destruct o as [[]|e|x].
  - destruct Ho as (hv2 & sv2 & K2 & D2 & Sd2 & HM2 & HS2 & Hle2 & Hf & _).
    destruct (dequeue_any g c Hg weak _ _ _ _ _ _ _ _ HM2 Hf) as (s3 & E3 & En3 & _).
    unfold wp. rewrite E3. cbn [fst snd]. split; [unfold nofl; by rewrite En3|]. by rewrite En3.
  - destruct Ho as (He & _). apply wp_bind. unfold wp. rewrite (try_recover_fail _ _ _ _ He). by split.
  - by split.
Qed.

Lemma map_gc_ticks fuel s S Sd : MX s S Sd -> nofl s -> (1 <= fuel)%nat -> wp (map_gc fuel) s (fun _ s' => tpo s k s').
Proof.
  intros HM Hn Hf. pose proof k_pos. unfold map_gc. apply wp_bind, wp_gets. destruct (m_count s =? 0).
  - apply wp_ret. split; [done|lia].
  - destruct fuel as [|n]; [lia|]. by eapply gc_loop_ticks.
Qed.
Lemma repeat_gc_ticks i fuel : (1 <= fuel)%nat -> forall s S Sd, MX s S Sd -> nofl s ->
  wp (repeat_gc i fuel) s (fun _ s' => tpo s (Z.of_nat i * k) s').
Proof.
  intros Hf. pose proof k_pos. induction i as [|i IH]; intros s S Sd HM Hn; cbn [repeat_gc].
  - apply wp_ret. split; [done|lia].
  - apply wp_bind. eapply wp_mono; [apply wp_conj; [by eapply (lem map_gc_spec)|by eapply map_gc_ticks]|].
    intros o s2 [[Eg2 Ho] [Hn2 Ht2]]. destruct o as [[]|e|x].
    + destruct Ho as (Sd2 & HS2 & HM2). eapply wp_mono; [by eapply IH|]. intros o s3 [Hn3 Ht3]. split; [done|]. lia.
    + split; [done|]. lia.
    + split; [done|]. lia.
Qed.
Lemma auto_gc_ticks fuel s S Sd : (1 <= fuel)%nat -> MX s S Sd -> nofl s -> 0 <= m_gcr s ->
  wp (auto_gc fuel) s (fun _ s' => tpo s ((m_gcr s + 1) * k) s').
Proof.
  intros Hf HM Hn Hgc. pose proof k_pos. unfold auto_gc. apply wp_bind, wp_gets. destruct (_ <? _).
  - apply wp_ret. split; [done|]. nia.
  - apply wp_bind, wp_gets. eapply wp_mono; [by eapply repeat_gc_ticks|]. intros o s' [H1 H2]. split; [done|].
    rewrite Nat2Z.inj_succ, Z2Nat.id in H2 by lia. unfold Z.succ in H2. lia.
Qed.

Lemma MX_gcr s S Sd : MX s S Sd -> 0 <= m_gcr s.
Proof. intros (_ & hv & tv & sv & K & D & HM). pose proof (mi_gcr _ _ _ _ _ _ _ _ _ _ _ HM). lia. Qed.

Lemma write_ticks n fuel s S Sd dst app P ecc : (forall m, tb ff k k (app m)) ->
  MX s S Sd -> nofl s -> 0 <= dst < 2 ^ 32 -> (1 <= fuel)%nat -> (forall hv tv sv K D, appok g c weak app P ecc hv tv sv K D) ->
  wp (write_loop (Datatypes.S n) fuel dst app) s (fun _ s' => tpo s ((m_gcr s + 2) * k) s').
Proof.
  intros Hat HM0 Hn Hdr Hfu Happ. pose proof (MX_gcr _ _ _ HM0) as Hgc. pose proof k_pos as Hk. cbn [write_loop]. apply wp_bind, wp_gets.
  apply wp_bind. unfold prepare_write. apply wp_bind.
  eapply wp_mono; [apply wp_conj; [by eapply (lem auto_gc_spec)|by eapply auto_gc_ticks]|].
  intros o s1 [[Eg1 Ho] [Hn1 Ht1]]. destruct o as [[]|e|x]; [|split; [done|nia]..].
  destruct Ho as (Sd1 & HS1 & Hc1 & hv & tv & sv & K & D & HM1).
  assert (Hul : blen uninit_meta = META_SIZE) by done.
  destruct (trace_MI g c Hg weak _ _ _ _ _ _ _ _ dst uninit_meta HM1 Hdr Hul) as (nm & Et & Hp).
  eapply wp_bind_ok; [exact Et|]. cbn [fst snd].
  assert (Hmid : forall s2, m_js s2 = m_js s1 -> m_gcr s2 = m_gcr s1 ->
    wp (let! cnt := gets m_count in ck_set_count cnt;;; ret nm) s2
      (fun o s' => match o with
       | OK a => wp (let! r := attempt (jn (app a)) in
           match r with
           | inr _ => ret tt
           | inl my_err => modify (set_count (m_count s));;; try_recover fuel my_err;;; write_loop n fuel dst app
           end) s' (fun _ s' => tpo s ((m_gcr s + 2) * k) s')
       | ER e => tpo s ((m_gcr s + 2) * k) s'
       | ST x => tpo s ((m_gcr s + 2) * k) s'
       end)).
  { intros s2 Ej2 Eg2.
    assert (HM2 : MI s2 S Sd1 hv tv sv K D).
    { destruct HM1 as [? ? ? ? ? ?]. split; rewrite ?Ej2, ?Eg2; auto. }
    apply wp_bind, wp_gets.
    destruct (ck_spec g c Hg weak _ _ _ _ _ _ _ _ (m_count s2) HM2) as (s3 & E3 & HM3 & _ & _ & _ & _ & _ & En3).
    assert (Hc3 : chip s3 = chip s1) by (rewrite En3; unfold chip; by rewrite Ej2).
    eapply wp_bind_ok; [exact E3|]. apply wp_ret, wp_bind, wp_attempt.
    assert (Ha : wp (jn (app nm)) s3 (fun o s' => app_post g c weak hv tv sv K D (m_js s3) P ecc nm o (m_js s'))).
    { apply wp_zoom. apply (Happ hv tv sv K D); [apply HM3|apply Hp]. }
    eapply wp_mono; [apply wp_conj; [exact Ha|eapply (tm_wp k); [apply tm_jn, Hat|]]|].
    { eapply MI_Q; [exact HM3|]. unfold nofl. by rewrite Hc3. }
    intros o s4 [Ho [Hn4 Ht4]]. rewrite Hc3 in Ht4. destruct o as [[]|e|x].
    - apply wp_ret. split; [done|]. nia.
    - destruct Ho as (He & _). apply wp_bind, wp_modify, wp_bind. unfold wp, try_recover.
      rewrite decide_True by (destruct He as [-> | [-> _]]; done). cbn [fst snd fail]. split; [exact Hn4|].
      change (chip (set_count (m_count s) s4)) with (chip s4). nia.
    - split; [done|]. nia. }
  destruct (findp K _ dst) as [cur|].
  - eapply wp_bind_ok; [reflexivity|]. by apply Hmid.
  - apply wp_bind, wp_bind, wp_gets. destruct (map_capacity s1 <=? m_count s1).
    + apply wp_fail. split; [done|]. nia.
    + apply wp_modify. by apply Hmid.
Qed.

Lemma trim_ticks fuel s S Sd t : (1 <= fuel)%nat -> MX s S Sd -> nofl s -> 0 <= t < 2 ^ 32 ->
  wp (map_trim fuel t) s (fun _ s' => tpo s ((m_gcr s + 2) * k) s').
Proof.
  intros Hf HM Hn Ht. pose proof (MX_gcr _ _ _ HM) as Hgc. pose proof k_pos. unfold map_trim. destruct fuel as [|n]; [lia|]. cbn [trim_loop].
  apply wp_bind. eapply wp_mono; [apply wp_conj; [by eapply (lem auto_gc_spec)|by eapply auto_gc_ticks]|].
  intros o s1 [[Eg1 Ho] [Hn1 Ht1]]. destruct o as [[]|e|x]; [|split; [done|nia]..].
  destruct Ho as (Sd1 & HS1 & HM1). apply wp_bind, wp_attempt.
  eapply wp_mono; [apply wp_conj; [by eapply (lem try_delete_spec)|eapply tm_wp; [apply tm_delete|by eapply MX_Q]]|].
  intros o s2 [[Eg2 Ho] [Hn2 Ht2]]. destruct o as [[]|e|x].
  - apply wp_ret. split; [done|]. nia.
  - destruct Ho as (He & _). apply wp_bind. unfold wp. rewrite (try_recover_fail _ _ _ _ He). split; [done|]. cbn [snd fail]. nia.
  - split; [done|]. nia.
Qed.

Lemma sync_ticks n : forall fuel s S Sd hv tv sv K D, MI s S Sd hv tv sv K D ->
  m_count s = Z.of_nat (size S) -> smeas g c hv tv sv < Z.of_nat n -> nofl s ->
  wp (sync_loop n fuel) s (fun _ s' => tpo s (if j_dirty (js_j (m_js s)) then (PC - 1 - hv mod PC) * k else 0) s').
Proof.
  pose proof k_pos as Hk.
  induction n as [|n IH]; intros fuel s S Sd hv tv sv K D HM Hc Hm Hn.
  { pose proof (smeas_ge g c Hg weak _ _ _ _ _ _ _ _ HM). lia. }
  cbn [sync_loop].
  eapply wp_bind_ok. { unfold jn, zoom, getj, gets. rewrite put_js_id. reflexivity. }
  destruct (j_dirty (js_j (m_js s))) eqn:Edd.
  2:{ apply wp_ret. split; [done|lia]. }
  assert (Hu : hv mod PC < PC - 1).
  { assert (user c hv) as Hu by apply HM. unfold user in Hu. pose proof (slot_range g c Hg hv). lia. }
  destruct (lem peek_MI _ _ _ _ _ _ _ _ HM) as (s1 & tv1 & E1 & Hle & HM1 & Ec1 & Eg1 & En1 & Ed1).
  eapply wp_bind_ok; [exact E1|]. clear E1.
  assert (Hn1 : nofl s1) by (unfold nofl; by rewrite En1).
  assert (Hnext : forall s2 Sd2 a, m_count s2 = m_count s -> tpo s a s2 -> 0 <= a <= (PC - 1 - hv mod PC) * k ->
     (exists hv' tv' sv' K' D', MI s2 S Sd2 hv' tv' sv' K' D' /\
        (j_dirty (js_j (m_js s2)) = true -> smeas g c hv' tv' sv' < smeas g c hv tv sv /\ a + (PC - 1 - hv' mod PC) * k <= (PC - 1 - hv mod PC) * k)) ->
     wp (sync_loop n fuel) s2 (fun _ s' => tpo s ((PC - 1 - hv mod PC) * k) s')).
  { intros s2 Sd2 a Ec2 [Hn2 Ht2] Ha (hv2 & tv2 & sv2 & K2 & D2 & HM2 & Hms).
    destruct (j_dirty (js_j (m_js s2))) eqn:Ed2.
    - destruct (Hms eq_refl) as [Hms1 Hms2].
      eapply wp_mono; [eapply (IH fuel _ _ _ _ _ _ _ _ HM2); [congruence|lia|done]|].
      rewrite Ed2. intros o s3 [H3 H3']. split; [done|]. lia.
    - destruct n as [|n'].
      + pose proof (smeas_ge g c Hg weak _ _ _ _ _ _ _ _ HM). lia.
      + cbn [sync_loop].
        eapply wp_bind_ok. { unfold jn, zoom, getj, gets. rewrite put_js_id. reflexivity. }
        rewrite Ed2. apply wp_ret. split; [done|]. lia. }
  apply wp_bind, wp_attempt.
  assert (Hk1 : k <= (PC - 1 - hv mod PC) * k) by nia.
  assert (Hbad : forall e s2, jerr (chip s2) e -> tpo s k s2 ->
     wp (try_recover fuel e;;; sync_loop n fuel) s2 (fun _ s' => tpo s ((PC - 1 - hv mod PC) * k) s')).
  { intros e s2 He [H2 H3]. apply wp_bind. unfold wp. rewrite (try_recover_fail _ _ _ _ He). cbn [fst snd]. split; [done|]. lia. }
  destruct (Z.eqb_spec tv hv) as [Ethv|Hne].
  - rewrite Z.eqb_refl.
    eapply wp_mono; [apply wp_conj; [apply (lem pad_queue_spec _ _ _ _ _ _ _ _ HM1); congruence|eapply tm_wp; [apply tm_pad|by eapply MI_Q]]|].
    intros o s2 [(Eg2 & Ec2 & Ho) [Hn2 Ht2]]. rewrite En1 in Ht2. destruct o as [[]|e|x].
    + destruct Ho as (hv2 & sv2 & K2 & D2 & Sd2 & HM2 & HS2 & Hle2 & Hp).
      apply (Hnext s2 Sd2 k); [congruence|by split|lia|].
      exists hv2, tv1, sv2, K2, D2. split; [done|]. intros Hd. destruct (Hp Hd) as [-> Hlt]. split; [unfold smeas; lia|]. nia.
    + destruct Ho as (He & _). apply Hbad; [done|by split].
    + split; [done|]. lia.
  - destruct (Z.eqb_spec (ph g tv1) PAGE_NONE) as [E|_]; [pose proof (ph_pn g c Hg tv1); lia|].
    apply wp_bind.
    eapply wp_mono; [apply wp_conj; [apply (lem raw_gc_spec _ _ _ _ _ _ _ _ HM1); congruence|eapply tm_wp; [apply tm_rawgc|by eapply MI_Q]]|].
    intros o s2 [(Eg2 & Ec2 & Ho) [Hn2 Ht2]]. rewrite En1 in Ht2. destruct o as [[]|e|x].
    + destruct Ho as (hv2 & sv2 & K2 & D2 & Sd2 & HM2 & HS2 & Hle2 & Hf & Hp).
      destruct (dequeue_any g c Hg weak _ _ _ _ _ _ _ _ HM2 Hf) as (s3 & E3 & En3 & Eg3 & Ec3 & Ed3 & tv3 & sv3 & K3 & D3 & HM3 & Hs3 & Ht3 & Ht3').
      unfold wp at 1. rewrite E3. cbn [fst snd].
      assert (Hn3 : nofl s3) by (unfold nofl; by rewrite En3).
      destruct (decide (j_dirty (js_j (m_js s2)) = true /\ hv2 mod PC = hv mod PC)) as [[Hd2 Hsame]|Hdiff].
      * destruct (Hp Hd2) as (-> & _ & Hs). specialize (Hs Hsame). subst s2.
        apply (Hnext s3 Sd2 0); [congruence|split; [done|rewrite En3, En1; lia]|nia|].
        exists hv2, tv3, sv3, K3, D3. split; [done|]. intros Hd. rewrite (Hs3 Hd2).
        assert (tv < tv3). { destruct (Z.eq_dec tv1 tv) as [->|]; [|lia]. apply Ht3'. lia. }
        split; [unfold smeas; lia|]. rewrite Hsame. lia.
      * apply (Hnext s3 Sd2 k); [congruence|split; [done|rewrite En3; lia]|lia|].
        exists hv2, tv3, sv3, K3, D3. split; [done|]. intros Hd. rewrite Ed3 in Hd.
        destruct (Hp Hd) as (-> & Hlt & _). rewrite (Hs3 Hd).
        assert (tv < tv3). { destruct (Z.eq_dec tv1 tv) as [->|]; [|lia]. apply Ht3'. lia. }
        assert (hv mod PC < hv2 mod PC). { destruct (Z.eq_dec (hv2 mod PC) (hv mod PC)); [|lia]. destruct Hdiff. by split. }
        split; [unfold smeas; lia|]. nia.
    + destruct Ho as (He & _). apply Hbad; [done|by split].
    + split; [done|]. lia.
Qed.
End work.

(** ** C51 *)

(** The counter counts the chip operations: as long as it does not change, no
    block has been erased or marked bad, and no page programmed. *)
Lemma tick_counts fuel o s r s' : exec fuel o s = (r, s') ->
  (n_tick (chip s) <= n_tick (chip s'))%nat /\ (n_tick (chip s') = n_tick (chip s) -> chip s' = chip s).
Proof.
  set (R := fun a b => (n_tick a <= n_tick b)%nat /\ (n_tick b = n_tick a -> b = a)).
  assert (Rr : forall n, R n n) by (by intros n; split).
  assert (Rt : forall a b d, R a b -> R b d -> R a d).
  { intros a b d [H1 H2] [H3 H4]. split; [lia|]. intros E. rewrite H4 by lia. apply H2. lia. }
  assert (Rs : forall a b, n_tick b = S (n_tick a) -> R a b) by (intros a b E; split; lia).
  intros E. pose proof (k_exec R Rr Rt) as H. specialize (fun A B C => H A B C fuel o s). rewrite E in H. apply H.
  - intros p d n. unfold nand_prog. cbv zeta. destruct (negb (page_ok _ _)); [apply Rr|]. destruct (n_bad n _); [apply Rr|].
    destruct (negb (tail_free _ _ _)); [apply Rr|]. destruct (negb (_ =? _)); [apply Rr|].
    destruct (n_orc n _ _) as [|f|f]; try destruct (f p); by apply Rs.
  - intros b n. unfold nand_erase. cbv zeta. destruct (negb _); [apply Rr|]. destruct (n_bad n _); [apply Rr|].
    destruct (n_orc n _ _) as [|f|f]; by apply Rs.
  - intros b n. unfold nand_mark_bad. cbv zeta. destruct (negb _); [apply Rr|].
    destruct (n_orc n _ _) as [|f|f]; try destruct (f 0); by apply Rs.
Qed.

(** Allowed number of operations of a call: [per] for each page appended to the
    journal. *)
Definition budget (per gcr c : Z) (o : op) : Z :=
  match o with
  | OWrite _ _ | OTrim _ | OCopySector _ _ | OCopyPage _ _ => (gcr + 2) * per
  | OGc => per
  | OSync => (2 ^ c - 1) * per
  | OClear | ORead _ | OFind _ | OSize => 0
  end.

Section c51small.
Context (g : geo) (weak : Z -> bool) (Hsup : supported_small g) (Hfew : few_weak g weak).
Let c := choose_ppc (g_lps g) (g_lppb g).
Let Hg : geo_ok g c := supported_small_geo g Hsup.

Lemma fuel_enough1 fuel : enough_fuel g fuel -> enough g c fuel.
Proof.
  unfold enough_fuel, enough. pose proof (PC_le _ _ Hg).
  change (TT g) with (g_nblk g * 2 ^ g_lppb g). lia.
Qed.
Lemma fuel_pos1 fuel : enough_fuel g fuel -> (1 <= fuel)%nat.
Proof. unfold enough_fuel. pose proof (TT_pos _ _ Hg). change (TT g) with (g_nblk g * 2 ^ g_lppb g) in *. lia. Qed.

Lemma exec_ticks ff fuel o s S Sd r s' : enough_fuel g fuel -> MX g c weak s S Sd -> nofl ff s -> valid_op g o ->
  exec fuel o s = (r, s') -> ticks (chip s') <= ticks (chip s) + budget (ops_append ff) (m_gcr s) c o.
Proof.
  intros Hf HM Hn Hv E. pose proof (fuel_pos1 _ Hf) as Hf1.
  assert (HQ : Q ff (m_js s)) by (by eapply MX_Q).
  assert (Hfin : forall A (m : MM A) (f : A -> resp) b, wp m s (fun _ s' => tpo ff s b s') ->
    bind m (fun x => ret (f x)) s = (r, s') -> ticks (chip s') <= ticks (chip s) + b).
  { intros A m f b H E'. unfold wp in H. unfold bind in E'. destruct (m s) as [[x|e|x] s2]; cbn in *; inversion E'; subst; apply H. }
  assert (Hsame : chip s' = chip s -> ticks (chip s') <= ticks (chip s) + 0) by (intros ->; lia).
  destruct o as [t d|t|a b|p b| | | |t|t|]; cbn [exec budget valid_op] in *.
  - eapply (Hfin _ (map_write fuel t d)); [|exact E]. destruct fuel as [|n]; [lia|]. destruct Hv as [Hv1 Hv2].
    eapply (write_ticks g c Hg weak Hfew); [intros m; apply t_enqueue|exact HM|done|unfold wsector in Hv1; lia|done|].
    intros hv tv sv K D x nm HJ Hnm. apply (enqueue_data_spec g c Hg weak Hfew); [done|by rewrite (ps_eq g c Hg)|done].
  - eapply (Hfin _ (map_trim fuel t)); [|exact E]. by eapply (trim_ticks g c Hg weak Hfew).
  - eapply (Hfin _ (map_copy_sector fuel a b)); [|exact E]. destruct Hv as [Ha Hb]. unfold map_copy_sector.
    apply wp_bind. unfold attempt, wp at 1.
    destruct (find_spec g c Hg weak _ _ _ _ HM Ha) as [[HS Ef]|(d & v & HS & Ef & _)]; rewrite Ef; cbn [fst snd].
    + rewrite decide_True by done. eapply (trim_ticks g c Hg weak Hfew); [done|exact HM|done|unfold wsector in Hb; lia].
    + destruct fuel as [|n]; [lia|]. eapply (write_ticks g c Hg weak Hfew); [intros m; apply t_copy|exact HM|done|unfold wsector in Hb; lia|done|].
      intros hv tv sv K D x nm HJ Hnm. apply (copy_any_spec g c Hg weak Hfew); [done|apply (ph_range g c Hg)|done].
  - eapply (Hfin _ (map_copy_page fuel p b)); [|exact E]. destruct Hv as [Ha Hb]. destruct fuel as [|n]; [lia|].
    eapply (write_ticks g c Hg weak Hfew); [intros m; apply t_copy|exact HM|done|unfold wsector in Hb; lia|done|].
    intros hv tv sv K D x nm HJ Hnm. apply (copy_any_spec g c Hg weak Hfew); [done|exact Ha|done].
  - eapply (Hfin _ map_clear); [|exact E]. eapply tm_wp; [apply tm_clear|done].
  - eapply (Hfin _ (map_gc fuel)); [|exact E]. by eapply (map_gc_ticks g c Hg weak Hfew).
  - eapply (Hfin _ (map_sync fuel)); [|exact E]. unfold map_sync.
    pose proof (fuel_enough1 _ Hf) as Hen.
    destruct HM as [Hc (hv & tv & sv & K & D & HM)].
    pose proof (k_pos ff). pose proof (slot_range g c Hg hv).
    eapply wp_mono; [eapply (sync_ticks g c Hg weak Hfew); [exact HM|done| |done]|].
    + pose proof (mi_j _ _ _ _ _ _ _ _ _ _ _ HM) as [_ Hj _ _]. destruct Hj.
      pose proof (PC_ge _ _ Hg). pose proof (PB_pos _ _ Hg).
      unfold enough in Hen. unfold smeas. fold c in Hen.
      pose proof (v_decomp g c Hg sv). pose proof (off_range g c Hg sv). unfold Geom.TT in Hen.
      rewrite Z.mul_add_distr_r. lia.
    + intros o s2 [H1 H2]. split; [done|]. change (2 ^ c) with (PC c). destruct (j_dirty _); nia.
  - apply Hsame. pose proof (k_map_read eq (fun _ => eq_refl) (fun a b d => @eq_trans _ a b d) t s) as Hk.
    unfold bind in E. destruct (map_read t s) as [[x|e|x] s2]; inversion E; subst; by rewrite Hk.
  - apply Hsame. pose proof (k_map_find eq (fun _ => eq_refl) (fun a b d => @eq_trans _ a b d) t s) as Hk.
    unfold bind in E. destruct (map_find t s) as [[x|e|x] s2]; inversion E; subst; by rewrite Hk.
  - apply Hsame. by inversion E.
Qed.

End c51small.

Section c51.
Context (g : geo) (weak : Z -> bool) (Hsup : supported g) (Hfew : few_weak g weak).
Let c := choose_ppc (g_lps g) (g_lppb g).
Notation exec_ticks := (exec_ticks g weak (supported_is_small g Hsup) Hfew).

(** C51.  Every call performs a bounded number of erase, program and mark-bad
    operations, whatever fails and whenever power is lost: a write, trim or copy
    at most 48 for each of the [gc_ratio + 2] pages it may append, a garbage
    collection step at most 48, a synchronisation at most 48 for each page up
    to the next checkpoint; the other calls perform none. *)
Theorem C51_bounded_work s fuel o r s' : reachable g weak s -> enough_fuel g fuel -> valid_op g o ->
  exec fuel o s = (r, s') -> ticks (chip s') - ticks (chip s) <= budget 48 (m_gcr s) c o.
Proof.
  intros Hr Hf Hv E. destruct (reach_MX g weak Hsup Hfew s Hr) as (S & Sd & HM).
  pose proof (exec_ticks false fuel o s S Sd r s' Hf HM ltac:(intros H; discriminate H) Hv E) as H. unfold ops_append in H. fold c in H. lia.
Qed.
(** If no operation fails: 3 instead of 48. *)
Theorem C51_fault_free s fuel o r s' : reachable g weak s -> enough_fuel g fuel -> valid_op g o ->
  no_fail (chip s) ->
  exec fuel o s = (r, s') -> ticks (chip s') - ticks (chip s) <= budget 3 (m_gcr s) c o.
Proof.
  intros Hr Hf Hv Hn E. destruct (reach_MX g weak Hsup Hfew s Hr) as (S & Sd & HM).
  pose proof (exec_ticks true fuel o s S Sd r s' Hf HM ltac:(intros _; exact Hn) Hv E) as H. unfold ops_append in H. fold c in H. lia.
Qed.
End c51.

(** C51, journal: in any state whatsoever and whatever fails, an append performs
    at most 48 operations, at most 26 if it succeeds. *)
Theorem C51_append s m r s' : (exists d, journal_enqueue d m s = (r, s')) \/ (exists p m', journal_copy p m' s = (r, s')) ->
  ticks (js_n s') - ticks (js_n s) <= 48 /\ (r = OK tt -> ticks (js_n s') - ticks (js_n s) <= 26).
Proof.
  assert (Hff : forall x, Q false x) by (intros x H; discriminate H).
  assert (Hgo : forall mm : MJ unit, tb false (ap0 false 8) (ap1 false 8) mm -> mm s = (r, s') ->
    ticks (js_n s') - ticks (js_n s) <= 48 /\ (r = OK tt -> ticks (js_n s') - ticks (js_n s) <= 26)).
  { intros mm H E. specialize (H s (Hff s)). rewrite E in H. destruct H as [_ H]. unfold ap0, ap1 in H.
    destruct r; (split; [|intros Hr; try discriminate Hr]); lia. }
  intros [[d E]|(p & m' & E)]; (eapply Hgo; [|exact E]); apply t_append; intros h; [destruct d; [apply nb_prog|]|apply nb_copy].
  apply nb_le with 0; [apply nb_ret|lia].
Qed.
