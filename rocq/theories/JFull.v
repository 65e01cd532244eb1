(** C49: "journal full" is reported only when the journal is full.
    C50: enqueuing makes a journal clean again and again. *)
From stdpp Require Import gmap.
From Verif Require Import Base Bytes BytesLemmas Wp Nand Journal MapModel Api Geom Tree Inv StepDI StepNand StepJ StepA StepR MapStep MapOps Spec Ppc History Props Misc JSpec JChain JProps JThms.
Local Open Scope Z_scope.

(** The head is in the block before that of the last synced tail. *)
Definition nf (s : js) : Prop :=
  let g := n_geo (js_n s) in let j := js_j s in
  Z.shiftr (j_tsync j) (g_lppb g) = next_block g (Z.shiftr (j_head j) (g_lppb g)) \/
  (let next := next_upage g (j_ppc j) (j_head j) in
   align_eq next (j_tsync j) (g_lppb g) = true /\ align_eq next (j_head j) (g_lppb g) = false).

Section fl.
Context {S : Type} (N : S -> Prop).
Definition fl {A} (m : M S A) : Prop := forall s s', m s = (ER E_JOURNAL_FULL, s') -> N s'.
Lemma fl_ret {A} (a : A) : fl (ret a). Proof. by intros s s' [=]. Qed.
Lemma fl_fail {A} e : e <> E_JOURNAL_FULL -> fl (A:=A) (fail e).
Proof. intros He s s' E. unfold fail in E. congruence. Qed.
Lemma fl_halt {A} x : fl (A:=A) (halt x). Proof. by intros s s' [=]. Qed.
Lemma fl_gets {A} (f : S -> A) : fl (gets f). Proof. by intros s s' [=]. Qed.
Lemma fl_modify f : fl (modify f). Proof. by intros s s' [=]. Qed.
Lemma fl_bind {A B} (m : M S A) (f : A -> M S B) : fl m -> (forall a, fl (f a)) -> fl (bind m f).
Proof.
  intros Hm Hf s s' E. unfold bind in E. destruct (m s) as [o s1] eqn:Em.
  destruct o as [a|e|x]; [by eapply Hf|injection E as -> ->; by eapply Hm|done].
Qed.
Lemma fl_attempt {A} (m : M S A) : fl (attempt m).
Proof. intros s s' E. unfold attempt in E. destruct (m s) as [o s1]. by destruct o. Qed.
(** An error is handled, or passed on by [f] in a state in which it still holds. *)
Lemma fl_catch {A B} (m : M S A) (f : err + A -> M S B) : fl m -> (forall a, fl (f (inr a))) ->
  (forall e, e <> E_JOURNAL_FULL -> fl (f (inl e))) ->
  (forall s s', N s -> f (inl E_JOURNAL_FULL) s = (ER E_JOURNAL_FULL, s') -> N s') -> fl (let! r := attempt m in f r).
Proof.
  intros Hm H1 H2 H3 s s' E. unfold bind, attempt in E. destruct (m s) as [o s1] eqn:Em.
  destruct o as [a|e|x]; [by eapply H1| |done].
  destruct (decide (e = E_JOURNAL_FULL)) as [->|He]; [|by eapply H2]. eapply H3; [|exact E]. by eapply Hm.
Qed.
End fl.

(** ** The journal *)
Notation flj := (fl nf).
Lemma fl_io {A} (m : M nand A) : (forall n n', m n <> (ER E_JOURNAL_FULL, n')) -> flj (io m).
Proof. intros H s s' E. unfold io, zoom in E. destruct (m (js_n s)) as [o n'] eqn:Em. injection E as -> <-. by apply H in Em. Qed.
Lemma n_read p o l : forall n n', nand_read p o l n <> (ER E_JOURNAL_FULL, n').
Proof. intros n n'. unfold nand_read. cbv zeta. destruct (negb (page_ok _ _)); [done|]. destruct (negb _); [done|]. by destruct (cell_bytes _ _). Qed.
Lemma n_isbad b : forall n n', nand_is_bad b n <> (ER E_JOURNAL_FULL, n').
Proof. intros n n'. unfold nand_is_bad. by destruct (block_ok _ _). Qed.
Lemma n_isfree b : forall n n', nand_is_free b n <> (ER E_JOURNAL_FULL, n').
Proof. intros n n'. unfold nand_is_free. by destruct (page_ok _ _). Qed.
Lemma n_mark b : forall n n', nand_mark_bad b n <> (ER E_JOURNAL_FULL, n').
Proof.
  intros n n'. unfold nand_mark_bad. cbv zeta. destruct (negb _); [done|].
  destruct (n_orc n (n_tick n) (OpMark b)) as [|f|f]; [done|done|]. by destruct (f 0).
Qed.
Lemma n_erase b : forall n n', nand_erase b n <> (ER E_JOURNAL_FULL, n').
Proof.
  intros n n'. unfold nand_erase. cbv zeta. destruct (negb _); [done|]. destruct (n_bad n b); [done|].
  by destruct (n_orc n (n_tick n) (OpErase b)).
Qed.
Lemma n_prog p d : forall n n', nand_prog p d n <> (ER E_JOURNAL_FULL, n').
Proof.
  intros n n'. unfold nand_prog. cbv zeta.
  destruct (negb (page_ok _ _)); [done|]. destruct (n_bad n (blk_of (n_geo n) p)); [done|].
  destruct (negb (tail_free _ _ _)); [done|]. destruct (negb (_ =? _)); [done|].
  by destruct (n_orc n (n_tick n) (OpProg p)) as [|f|f].
Qed.
Lemma n_copy a b : forall n n', nand_copy a b n <> (ER E_JOURNAL_FULL, n').
Proof.
  intros n n' E. unfold nand_copy, bind, gets in E.
  destruct (nand_read a 0 (page_size (n_geo n)) n) as [[d|e|x] n1] eqn:Er.
  - by apply n_prog in E.
  - injection E as -> ->. by apply n_read in Er.
  - done.
Qed.
Lemma fl_bufput o b : flj (buf_put o b).
Proof. intros s s' E. unfold buf_put in E. cbv zeta in E. by destruct (_ && _). Qed.
Lemma fl_bufget o b : flj (buf_get o b).
Proof. intros s s' E. unfold buf_get in E. cbv zeta in E. by destruct (_ && _). Qed.

Create HintDb fdb.
#[local] Hint Resolve fl_ret fl_halt fl_gets fl_modify fl_attempt fl_bufput fl_bufget n_read n_isbad n_isfree n_mark n_erase n_prog n_copy : fdb.
#[local] Hint Extern 1 (fl _ (getj _)) => apply fl_gets : fdb.
#[local] Hint Extern 1 (fl _ getg) => apply fl_gets : fdb.
#[local] Hint Extern 1 (fl _ (modj _)) => apply fl_modify : fdb.
#[local] Hint Extern 1 (fl _ (fail _)) => apply fl_fail; done : fdb.
#[local] Hint Extern 1 (fl _ (io _)) => apply fl_io : fdb.
Ltac flt := repeat (cbn beta; first
  [ solve [auto with fdb]
  | apply fl_bind; [|intros ?]
  | match goal with |- fl _ (match ?x with _ => _ end) => destruct x end ]).

Lemma f_skip : flj skip_block.
Proof.
  intros s s' E. unfold skip_block, bind, getg, getj, gets in E.
  destruct (Z.eqb_spec (Z.shiftr (j_tsync (js_j s)) (g_lppb (n_geo (js_n s))))
    (next_block (n_geo (js_n s)) (Z.shiftr (j_head (js_j s)) (g_lppb (n_geo (js_n s)))))) as [Eq|_].
  - injection E as <-. by left.
  - unfold modj, modify in E. destruct (_ =? 0) in E; [|done]. unfold roll_stats, modj, modify in E. done.
Qed.
#[local] Hint Resolve f_skip : fdb.
Lemma f_prep_loop i : flj (prepare_head_loop i).
Proof. induction i; cbn [prepare_head_loop]; flt. Qed.
#[local] Hint Resolve f_prep_loop : fdb.
Lemma f_prep : flj prepare_head.
Proof.
  assert (Hrest : forall a : bool, flj (modj (set_dirty true);;; if a then ret tt else prepare_head_loop MAX_RETRIES)) by (intros a; flt).
  intros s s' E. unfold prepare_head in E. unfold bind at 1, getg, gets in E. unfold bind at 1, getj, gets in E. cbv zeta in E.
  destruct (align_eq (next_upage _ _ _) (j_tsync _) _) eqn:E1; destruct (align_eq (next_upage _ _ _) (j_head _) _) eqn:E2; cbn [andb negb] in E.
  2:{ injection E as <-. right. by cbv zeta. }
  all: by eapply Hrest.
Qed.
#[local] Hint Resolve f_prep : fdb.
Lemma f_restart h : flj (restart_recovery h). Proof. unfold restart_recovery. flt. Qed.
#[local] Hint Resolve f_restart : fdb.
Lemma f_hclear : flj hdr_clear_user. Proof. unfold hdr_clear_user. flt. Qed.
Lemma f_roll : flj roll_stats. Proof. unfold roll_stats. flt. Qed.
#[local] Hint Resolve f_hclear f_roll : fdb.
Lemma f_dump i : flj (dump_meta_loop i).
Proof.
  induction i; cbn [dump_meta_loop]; [flt|]. apply fl_catch.
  - flt.
  - intros a. flt.
  - intros e He. destruct (decide (e = E_BAD_BLOCK)); [flt|]. by apply fl_fail.
  - intros s s' Hs. rewrite decide_False by done. by intros [= <-].
Qed.
#[local] Hint Resolve f_dump : fdb.
Lemma f_recover e : e <> E_JOURNAL_FULL -> flj (recover_from e).
Proof.
  intros He. unfold recover_from. apply fl_bind; [flt|intros g]. apply fl_bind; [flt|intros h].
  destruct (decide _); [by apply fl_fail|]. unfold dump_meta. flt.
Qed.
Lemma recover_full s : recover_from E_JOURNAL_FULL s = (ER E_JOURNAL_FULL, s).
Proof. unfold recover_from, bind, getg, getj, gets. by rewrite decide_True. Qed.
Lemma f_finish : flj finish_recovery. Proof. unfold finish_recovery, clear_recovery. flt. Qed.
#[local] Hint Resolve f_finish : fdb.
Lemma f_push m : flj (push_meta m).
Proof.
  unfold push_meta, hdr_put_magic, hdr_set_epoch, hdr_set_tail, hdr_set_bb_current, hdr_set_bb_last.
  do 2 (apply fl_bind; [flt|intros ?]). cbv zeta. apply fl_bind; [flt|intros ?].
  destruct (negb _); [flt|]. do 6 (apply fl_bind; [flt|intros ?]). apply fl_catch.
  - flt.
  - intros r. flt.
  - intros e He. by apply f_recover.
  - intros s s' Hs. rewrite recover_full. by intros [= <-].
Qed.
#[local] Hint Resolve f_push : fdb.
Lemma f_append i prog m : (forall h n n', prog h n <> (ER E_JOURNAL_FULL, n')) -> flj (append_loop i prog m).
Proof.
  intros Hp. induction i; cbn [append_loop]; [flt|]. apply fl_catch.
  - apply fl_bind; [flt|intros ?]. apply fl_bind; [flt|intros ?]. by apply fl_io.
  - intros a. flt.
  - intros e He. apply fl_bind; [by apply f_recover|intros ?; flt].
  - intros s s' Hs. unfold bind. rewrite recover_full. by intros [= <-].
Qed.
Lemma f_enqueue d m : flj (journal_enqueue d m).
Proof. unfold journal_enqueue. apply f_append. intros h n n'. destruct d; [apply n_prog|done]. Qed.
Lemma f_jcopy p m : flj (journal_copy p m).
Proof. unfold journal_copy. apply f_append. intros h n n'. apply n_copy. Qed.
#[local] Hint Resolve f_enqueue f_jcopy : fdb.
Lemma f_readmeta p : flj (read_meta p). Proof. unfold read_meta. flt. Qed.
Lemma f_peekl i : forall b, flj (peek_loop i b). Proof. induction i; intros b; cbn [peek_loop]; flt. Qed.
#[local] Hint Resolve f_readmeta f_peekl : fdb.
Lemma f_peek : flj journal_peek. Proof. unfold journal_peek. flt. Qed.
Lemma f_deq : flj journal_dequeue. Proof. unfold journal_dequeue. flt. Qed.
Lemma f_clear : flj journal_clear. Proof. unfold journal_clear. flt. Qed.
Lemma f_next : flj next_recoverable. Proof. unfold next_recoverable. flt. Qed.
Lemma f_cookie b : flj (cookie_put b). Proof. unfold cookie_put. flt. Qed.
#[local] Hint Resolve f_peek f_deq f_clear f_next f_cookie : fdb.

(** ** The map *)
Definition nfm (s : ms) : Prop := nf (m_js s).
Notation flm := (fl nfm).
Lemma fl_jn {A} (m : MJ A) : flj m -> flm (jn m).
Proof. intros H s s' E. unfold jn, zoom in E. destruct (m (m_js s)) as [o x] eqn:Em. injection E as -> <-. by apply H in Em. Qed.
#[local] Hint Extern 1 (fl _ (jn _)) => apply fl_jn : fdb.
#[local] Hint Extern 1 (fl _ (ck_set_count _)) => apply fl_jn : fdb.
#[local] Hint Extern 1 (fl _ get_root) => apply fl_jn : fdb.
Lemma f_trace k : forall t p m nm, flm (trace_loop k t p m nm).
Proof. induction k; intros; cbn [trace_loop]; flt. Qed.
#[local] Hint Resolve f_trace : fdb.
Lemma f_path t nm : flm (trace_path t nm). Proof. unfold trace_path. flt. Qed.
#[local] Hint Resolve f_path : fdb.
Lemma f_find t : flm (map_find t). Proof. unfold map_find. flt. Qed.
#[local] Hint Resolve f_find : fdb.
Lemma f_gc1 p : flm (raw_gc p). Proof. unfold raw_gc. flt. Qed.
Lemma f_pad : flm pad_queue. Proof. unfold pad_queue. flt. Qed.
#[local] Hint Resolve f_gc1 f_pad : fdb.
Lemma f_tryl f : forall n, flm (try_recover_loop f n).
Proof.
  induction f; intros n; cbn [try_recover_loop]; [flt|]. apply fl_bind; [flt|intros r].
  destruct r; [|flt]. apply fl_bind; [flt|intros p]. apply fl_catch.
  - flt.
  - intros a. flt.
  - intros e He. destruct (decide _); [by apply fl_fail|]. flt.
  - intros s s' Hs. rewrite decide_True by done. by intros [= <-].
Qed.
#[local] Hint Resolve f_tryl : fdb.
Lemma f_try f e : e <> E_JOURNAL_FULL -> flm (try_recover f e).
Proof. intros He. unfold try_recover. destruct (decide _); [by apply fl_fail|flt]. Qed.
Lemma try_full f s : try_recover f E_JOURNAL_FULL s = (ER E_JOURNAL_FULL, s).
Proof. unfold try_recover. by rewrite decide_True. Qed.
Lemma f_gcl n f : flm (map_gc_loop n f).
Proof.
  induction n; cbn [map_gc_loop]; [flt|]. apply fl_bind; [flt|intros t]. destruct (_ =? _); [flt|]. apply fl_catch.
  - flt.
  - intros a. flt.
  - intros e He. apply fl_bind; [by apply f_try|intros ?; flt].
  - intros s s' Hs. unfold bind. rewrite try_full. by intros [= <-].
Qed.
#[local] Hint Resolve f_gcl : fdb.
Lemma f_gc f : flm (map_gc f). Proof. unfold map_gc. flt. Qed.
#[local] Hint Resolve f_gc : fdb.
Lemma f_rep i f : flm (repeat_gc i f). Proof. induction i; cbn [repeat_gc]; flt. Qed.
#[local] Hint Resolve f_rep : fdb.
Lemma f_auto f : flm (auto_gc f). Proof. unfold auto_gc. flt. Qed.
#[local] Hint Resolve f_auto : fdb.
Lemma f_pw f d : flm (prepare_write f d). Proof. unfold prepare_write. flt. Qed.
#[local] Hint Resolve f_pw : fdb.
Lemma f_wl n f d ap : (forall m, flj (ap m)) -> flm (write_loop n f d ap).
Proof.
  intros Ha. induction n; cbn [write_loop]; [flt|]. apply fl_bind; [flt|intros oc]. apply fl_bind; [flt|intros m]. apply fl_catch.
  - by apply fl_jn.
  - intros a. flt.
  - intros e He. apply fl_bind; [flt|intros ?]. apply fl_bind; [by apply f_try|intros ?; flt].
  - intros s s' Hs. unfold bind, modify. rewrite try_full. by intros [= <-].
Qed.
Lemma f_write f t d : flm (map_write f t d). Proof. apply f_wl. intros m. apply f_enqueue. Qed.
Lemma f_cp f p t : flm (map_copy_page f p t). Proof. apply f_wl. intros m. apply f_jcopy. Qed.
Lemma f_del t : flm (try_delete t). Proof. unfold try_delete. flt. Qed.
#[local] Hint Resolve f_write f_cp f_del : fdb.
Lemma f_triml n f t : flm (trim_loop n f t).
Proof.
  induction n; cbn [trim_loop]; [flt|]. apply fl_bind; [flt|intros w]. apply fl_catch.
  - flt.
  - intros a. flt.
  - intros e He. apply fl_bind; [by apply f_try|intros ?; flt].
  - intros s s' Hs. unfold bind. rewrite try_full. by intros [= <-].
Qed.
Lemma f_trim f t : flm (map_trim f t). Proof. apply f_triml. Qed.
#[local] Hint Resolve f_trim : fdb.
Lemma f_cs f a b : flm (map_copy_sector f a b).
Proof.
  unfold map_copy_sector. apply fl_catch.
  - flt.
  - intros p. flt.
  - intros e He. destruct (decide _); [flt|by apply fl_fail].
  - intros s s' Hs. rewrite decide_False by done. by intros [= <-].
Qed.
Lemma f_syncl n f : flm (sync_loop n f).
Proof.
  induction n; cbn [sync_loop]; [flt|]. apply fl_bind; [flt|intros d]. destruct d; [|flt]. apply fl_bind; [flt|intros p]. apply fl_catch.
  - flt.
  - intros a. flt.
  - intros e He. apply fl_bind; [by apply f_try|intros ?; flt].
  - intros s s' Hs. unfold bind. rewrite try_full. by intros [= <-].
Qed.
Lemma f_sync f : flm (map_sync f). Proof. apply f_syncl. Qed.
Lemma f_mclear : flm map_clear. Proof. unfold map_clear. flt. Qed.
Lemma f_read t : flm (map_read t).
Proof.
  unfold map_read. apply fl_bind; [flt|intros g]. apply fl_catch.
  - flt.
  - intros p. flt.
  - intros e He. destruct (decide _); [flt|by apply fl_fail].
  - intros s s' Hs. rewrite decide_False by done. by intros [= <-].
Qed.
#[local] Hint Resolve f_cs f_sync f_mclear f_read : fdb.
Lemma f_exec f o : flm (exec f o). Proof. destruct o; cbn [exec]; flt. Qed.
Lemma f_fetch p : flj (jfetch p). Proof. unfold jfetch. flt. Qed.
#[local] Hint Resolve f_fetch : fdb.
Lemma f_jexec o : flj (jexec o). Proof. destruct o; cbn [jexec]; flt. Qed.

(** ** Counting *)
Section count.
Context (g : geo) (weak : Z -> bool) (Hsup : supported g) (Hfew : few_weak g weak).
Let c := choose_ppc (g_lps g) (g_lppb g).
Let Hg : geo_ok2 g c := supported_geo g Hsup.

(** User pages in a block. *)
Definition upb : Z := 2 ^ (g_lppb g - c) * (2 ^ c - 1).

Lemma ups_mul b : ups c (b * PB g) = b * upb.
Proof.
  unfold ups, upb. fold (GP g c) (PC c). rewrite (PB_def _ _ Hg). pose proof (PC_ge _ _ Hg).
  replace (b * (PC c * GP g c)) with (b * GP g c * PC c) by lia. rewrite Z.div_mul by lia. lia.
Qed.
Lemma nf_blocks s hv tv sv K : n_geo (js_n s) = g -> JInv g c s hv tv sv K -> nf s -> hv / PB g = sv / PB g + NB g - 1.
Proof.
  intros En Hj Hf. unfold nf in Hf. cbv zeta in Hf. rewrite En in Hf.
  rewrite (ji_ppc _ _ _ _ _ _ _ Hj), (ji_head _ _ _ _ _ _ _ Hj), (ji_tsync _ _ _ _ _ _ _ Hj) in Hf.
  pose proof (ji_order _ _ _ _ _ _ _ Hj) as Ho. pose proof (ji_full _ _ _ _ _ _ _ Hj) as Hfu.
  pose proof (NB_ge _ _ Hg) as HNB.
  pose proof (blk_le _ _ Hg sv hv ltac:(lia)) as Hbl.
  assert (Hmod : sv / PB g mod NB g = (hv / PB g + 1) mod NB g -> hv / PB g = sv / PB g + NB g - 1).
  { intros E. symmetry in E.
    pose proof (Z.div_mod (hv / PB g + 1) (NB g) ltac:(lia)). pose proof (Z.div_mod (sv / PB g) (NB g) ltac:(lia)).
    assert (0 < (hv / PB g + 1) / NB g - sv / PB g / NB g < 2) by nia. nia. }
  destruct Hf as [Hf|[H1 H2]].
  - rewrite !(shiftr_blk _ _ Hg), !(ph_blk _ _ Hg), (next_block_ph _ _ Hg) in Hf. by apply Hmod.
  - rewrite (next_upage_ph _ _ Hg) in H1, H2 by (try apply Hj; lia).
    rewrite !(align_eq_blk _ _ Hg), !(ph_blk _ _ Hg) in H1, H2.
    apply Z.eqb_eq in H1. apply Z.eqb_neq in H2.
    destruct (nextv_blk _ _ Hg hv) as [[E _]|(E & _)]; [apply Hj| |]; rewrite E in *; [done|]. by apply Hmod.
Qed.
Lemma nf_size s hv tv sv K : n_geo (js_n s) = g -> JInv g c s hv tv sv K -> nf s ->
  (g_nblk g - 2) * upb < journal_size g (js_j s).
Proof.
  intros En Hj Hf. pose proof (nf_blocks _ _ _ _ _ En Hj Hf) as E.
  rewrite (jsize_JInv g c Hg _ _ _ _ _ Hj). fold (NB g).
  pose proof (PB_pos _ _ Hg). pose proof (PC_ge _ _ Hg).
  assert (H1 : ups c (hv / PB g * PB g) <= ups c hv).
  { apply (ups_mono g c Hg). pose proof (Z.div_mod hv (PB g) ltac:(lia)). pose proof (Z.mod_pos_bound hv (PB g) ltac:(lia)). lia. }
  assert (H2 : ups c (nextv c sv) <= ups c ((sv / PB g + 1) * PB g)).
  { apply (ups_mono g c Hg). apply (nextv_next _ _ Hg); [apply (blk_start_user _ _ Hg)|apply Hj|].
    pose proof (Z.div_mod sv (PB g) ltac:(lia)). pose proof (Z.mod_pos_bound sv (PB g) ltac:(lia)). lia. }
  rewrite (ups_next g c Hg) in H2 by apply Hj. rewrite ups_mul in H1, H2. unfold ups in *. nia.
Qed.

Lemma jrun_app h1 h2 : Forall (valid_jhop g) h1 -> forall s st, QI g c weak s st ->
  let '(rs1, s1) := jrun h1 s in let '(rs2, s2) := jrun h2 s1 in
  length rs1 = length h1 /\ jrun (h1 ++ h2) s = (rs1 ++ rs2, s2).
Proof.
  induction 1 as [|x h1 Hx Hh IH]; intros s st HQ; cbn [jrun app].
  { by destruct (jrun h2 s). }
  destruct x as [o|].
  - pose proof (jexec_spec g c Hg weak Hfew s st o HQ Hx) as Hw. unfold wp in Hw. destruct (jexec o s) as [r s1]. cbn [fst snd] in Hw.
    destruct r as [a|e|y]; cbn [jpost] in Hw.
    + destruct Hw as (st1 & H1 & H2). specialize (IH _ _ H2). destruct (jrun h1 s1) as [rs s']. destruct (jrun h2 s') as [rs2 s2].
      destruct IH as [IH1 ->]. split; [cbn; congruence|done].
    + destruct Hw as (st1 & H1 & H2). specialize (IH _ _ H2). destruct (jrun h1 s1) as [rs s']. destruct (jrun h2 s') as [rs2 s2].
      destruct IH as [IH1 ->]. split; [cbn; congruence|done].
    + destruct Hw as (-> & st1 & H1 & H2). destruct (restart_QI g c Hg weak Hfew _ _ eq_refl H2) as (st2 & H3 & H4).
      specialize (IH _ _ H4). destruct (jrun h1 _) as [rs s']. destruct (jrun h2 s') as [rs2 s2].
      destruct IH as [IH1 ->]. split; [cbn; congruence|done].
  - destruct (restart_QI g c Hg weak Hfew _ _ eq_refl (QI_CQ g c weak _ _ HQ)) as (st2 & H3 & H4).
    specialize (IH _ _ H4). destruct (jrun h1 _) as [rs s']. destruct (jrun h2 s') as [rs2 s2].
    destruct IH as [IH1 ->]. split; [cbn; congruence|done].
Qed.
Lemma jrun_split n h1 h2 rs1 rs2 s' : fresh g weak n -> Forall (valid_jhop g) h1 -> length rs1 = length h1 ->
  jrun (h1 ++ h2) (snd (jrestart n)) = (rs1 ++ rs2, s') ->
  exists s1 st, QI g c weak s1 st /\ jrun h2 s1 = (rs2, s').
Proof.
  intros Hf Hv Hl E. pose proof (fresh_QI g weak Hsup n Hf) as HQ. fold c in HQ.
  pose proof (jrun_app h1 h2 Hv _ _ HQ) as Ha. pose proof (jrun_spec g c Hg weak Hfew h1 eq_refl Hv _ _ HQ) as Hs.
  destruct (jrun h1 _) as [ra s1]. destruct (jrun h2 s1) as [rb s2] eqn:E2. destruct Hs as (st & _ & HQ1).
  destruct Ha as [El Ea]. rewrite Ea in E. injection E as E <-. apply app_inj_1 in E as [-> <-]; [|congruence].
  by exists s1, st.
Qed.

(** C49: if a call on a journal fails because the journal is full, then more pages
    are in it than fit in all but two blocks. *)
Theorem C49_full_journal n h o rs0 k s' :
  fresh g weak n -> Forall (valid_jhop g) h -> valid_jop g o ->
  jrun (h ++ [JO o; JO JSize]) (snd (jrestart n)) = (rs0 ++ [ER E_JOURNAL_FULL; OK (JNum k)], s') ->
  length rs0 = length h ->
  (g_nblk g - 2) * upb < k.
Proof.
  intros Hf Hv Ho E Hl. destruct (jrun_split _ _ _ _ _ _ Hf Hv Hl E) as (s1 & st & HQ & E1). clear E Hl.
  cbn [jrun] in E1. destruct (jexec o s1) as [r s2] eqn:Eo.
  pose proof (f_jexec o s1 s2) as Hnf. pose proof (jexec_spec g c Hg weak Hfew s1 st o HQ Ho) as Hw. unfold wp in Hw. rewrite Eo in Hw.
  assert (r = ER E_JOURNAL_FULL) as ->.
  { destruct r as [a|e|[]]; cbn in E1; try (injection E1 as E1 _; congruence). }
  cbn [fst snd jpost] in Hw. specialize (Hnf Eo). destruct Hw as (st1 & _ & hv & tv & sv & K & D & [Hn Hj _ _] & _).
  cbn in E1. injection E1 as <- _. rewrite (nk_geo _ _ _ Hn).
  eapply nf_size; [apply (nk_geo _ _ _ Hn)|exact Hj|done].
Qed.

(** The same for every call on a map. *)
Theorem C49_full_map s fuel o s' :
  reachable g weak s -> enough_fuel g fuel -> valid_op g o ->
  exec fuel o s = (ER E_JOURNAL_FULL, s') ->
  (g_nblk g - 2) * upb < journal_size g (js_j (m_js s')).
Proof.
  intros Hr Hfu Hv E. pose proof (f_exec fuel o s s' E) as Hnf.
  destruct (reach_MX g weak Hsup Hfew _ Hr) as (S & Sd & HM). fold c in HM.
  pose proof (exec_spec g c Hg weak Hfew fuel o s S Sd (fuel_enough g Hsup _ Hfu) HM Hv) as H.
  unfold wp in H. rewrite E in H. cbn [fst snd] in H. destruct H as (S' & Sd' & _ & H & _).
  destruct H as (_ & hv & tv & sv & K & D & H).
  pose proof (mi_j _ _ _ _ _ _ _ _ _ _ _ H) as [Hn Hj _ _].
  eapply nf_size; [apply (nk_geo _ _ _ Hn)|exact Hj|exact Hnf].
Qed.

(** *** C50 *)

(** After a successful append the journal is clean, or its head has moved on within
    its checkpoint group. *)
Lemma enq_progress s st d m s' : QI g c weak s st -> valid_jop g (JEnq d m) ->
  jexec (JEnq d m) s = (OK JDone, s') -> j_dirty (js_j s') = true ->
  0 <= j_head (js_j s) mod PC c /\ j_head (js_j s') mod PC c = j_head (js_j s) mod PC c + 1 /\ j_head (js_j s') mod PC c < PC c - 1.
Proof.
  intros (hv & tv & sv & K & D & HJ & _) [Hd Hm] E Hdi. cbn [jexec] in E.
  assert (Hw : wp (journal_enqueue (Some d) (Some m)) s (app_post g c weak hv tv sv K D s (fun x => x = d) False m)).
  { apply (enqueue_data_spec g c Hg weak Hfew); [done|by rewrite (ps_pow g c Hg)|done]. }
  unfold wp in Hw. unfold bind in E. destruct (journal_enqueue _ _ s) as [[[]|e|x] s1]; [|done..]. cbn in E. injection E as <-.
  cbn [fst snd app_post] in Hw. destruct Hw as (hv' & d' & _ & _ & Hle & _ & Hal & _ & _ & Hcase).
  destruct Hcase as [(_ & Hs & HJ')|(H & _)]; [|congruence].
  pose proof (JI_j _ _ _ _ _ _ _ _ _ HJ) as Hj. pose proof (JI_j _ _ _ _ _ _ _ _ _ HJ') as Hj'.
  rewrite (ji_head _ _ _ _ _ _ _ Hj), (ji_head _ _ _ _ _ _ _ Hj'), !(ph_slot _ _ Hg).
  assert (Hu : user c hv').
  { destruct Hal as [->|[_ Ha]]; [apply Hj|]. unfold user. rewrite (off_0_slot _ _ Hg) by done. pose proof (PC_ge _ _ Hg). lia. }
  assert (Em : hv' mod PC c = hv mod PC c).
  { destruct Hal as [->|[Ha Ha']]; [done|]. by rewrite !(off_0_slot _ _ Hg). }
  destruct (nextv_cases _ _ Hg hv' Hu) as [(F1&E&F2&F3)|(F1&_)]; [|done].
  pose proof (slot_range _ _ Hg hv). rewrite F3, Em. lia.
Qed.

Lemma jrun_ok_cons o h s rs s' : jrun (JO o :: h) s = (rs, s') -> Forall (fun r => exists x, r = OK x) rs ->
  exists a s1 rs', jexec o s = (OK a, s1) /\ jrun h s1 = (rs', s') /\ rs = OK a :: rs'.
Proof.
  intros E Hok. cbn [jrun] in E. destruct (jexec o s) as [r s1]. destruct r as [a|e|x].
  - destruct (jrun h s1) as [rs' s2] eqn:Eh. injection E as <- <-. by exists a, s1, rs'.
  - destruct (jrun h s1) as [rs' s2]. injection E as <- <-. exfalso. inversion Hok as [|? ? [x Hx]]. done.
  - exfalso. assert (exists l, rs = ST x :: l) as [l ->].
    { destruct x; try (injection E as <- <-; by eexists). destruct (jrun h _) as [rs' s2]. injection E as <- <-. by eexists. }
    inversion Hok as [|? ? [y Hy]]. done.
Qed.

(** A run of enqueues, each followed by dhara_journal_is_clean. *)
Definition pairs (l : list (bytes * bytes)) : list jhop :=
  concat (map (fun x => [JO (JEnq (fst x) (snd x)); JO JIsClean]) l).
Lemma pairs_progress l : forall s st rs s', QI g c weak s st ->
  Forall (fun x => blen (fst x) = 2 ^ g_lps g /\ blen (snd x) = 132) l ->
  jrun (pairs l) s = (rs, s') -> Forall (fun r => exists x, r = OK x) rs -> OK (JBool true) ∈ rs \/
  0 <= j_head (js_j s) mod PC c /\ Z.of_nat (length l) + j_head (js_j s) mod PC c < PC c - 1.
Proof.
  induction l as [|[d m] l IH]; intros s st rs s' HQ Hv E Hok.
  - right. destruct HQ as (hv & tv & sv & K & D & [_ Hj _ _] & _). rewrite (ji_head _ _ _ _ _ _ _ Hj), (ph_slot _ _ Hg).
    pose proof (slot_range _ _ Hg hv). pose proof (ji_hu _ _ _ _ _ _ _ Hj) as Hu. unfold user in Hu. cbn. lia.
  - inversion Hv as [|? ? Hv1 Hv2]; subst. cbn [pairs map concat app fst snd] in E. fold (pairs l) in E.
    apply jrun_ok_cons in E as (a & s1 & rs1 & E1 & E2 & ->); [|done].
    apply Forall_cons in Hok as [_ Hok].
    apply jrun_ok_cons in E2 as (b & s2 & rs2 & E2 & E3 & ->); [|done].
    apply Forall_cons in Hok as [_ Hok].
    cbn in E2. injection E2 as <- <-.
    pose proof (jexec_spec g c Hg weak Hfew s st (JEnq d m) HQ Hv1) as Hw. unfold wp in Hw. rewrite E1 in Hw.
    cbn [fst snd jpost] in Hw. destruct Hw as (st1 & Hjc & HQ1).
    assert (a = JDone) as -> by (inversion Hjc; done).
    destruct (j_dirty (js_j s1)) eqn:Ed.
    2:{ left. apply elem_of_cons. right. apply elem_of_cons. by left. }
    destruct (enq_progress s st d m s1 HQ Hv1 E1 Ed) as (H1 & H2 & H3).
    destruct (IH s1 st1 rs2 s' HQ1 Hv2 E3 Hok) as [Hin|[H4 H5]].
    { left. apply elem_of_cons. right. apply elem_of_cons. by right. }
    right. cbn [length]. lia.
Qed.

(** C50: of as many enqueues in a row as a checkpoint group has pages (other than
    the checkpoint page), at least one leaves the journal clean. *)
Theorem C50_enqueue_cleans n h l rs0 rs1 s' :
  fresh g weak n -> Forall (valid_jhop g) h ->
  Forall (fun x => blen (fst x) = 2 ^ g_lps g /\ blen (snd x) = 132) l ->
  Z.of_nat (length l) = 2 ^ c - 1 ->
  jrun (h ++ pairs l) (snd (jrestart n)) = (rs0 ++ rs1, s') -> length rs0 = length h ->
  Forall (fun r => exists x, r = OK x) rs1 -> OK (JBool true) ∈ rs1.
Proof.
  intros Hf Hv Hl Hlen E El Hok. destruct (jrun_split _ _ _ _ _ _ Hf Hv El E) as (s1 & st & HQ & E1).
  destruct (pairs_progress l s1 st rs1 s' HQ Hl E1 Hok) as [Hin|Hb]; [done|].
  exfalso. unfold PC in *. lia.
Qed.
End count.
