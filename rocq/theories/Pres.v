(** Relations between the chip before and after a call, for every call and every
    chip: no invariant is needed. *)
From Verif Require Import Base Bytes Nand Journal MapModel Api.
Local Open Scope Z_scope.

Section pres.
Context (R : nand -> nand -> Prop).
Hypothesis Rrefl : forall n, R n n.
Hypothesis Rtrans : forall a b d, R a b -> R b d -> R a d.

Definition keepn {A} (m : M nand A) : Prop := forall n, R n (snd (m n)).
Definition keepj {A} (m : MJ A) : Prop := forall s, R (js_n s) (js_n (snd (m s))).
Definition keepm {A} (m : MM A) : Prop := forall s, R (chip s) (chip (snd (m s))).

Lemma kj_ret {A} (a : A) : keepj (ret a). Proof. intros s. apply Rrefl. Qed.
Lemma kj_fail {A} e : keepj (A:=A) (fail e). Proof. intros s. apply Rrefl. Qed.
Lemma kj_halt {A} e : keepj (A:=A) (halt e). Proof. intros s. apply Rrefl. Qed.
Lemma kj_gets {A} (f : js -> A) : keepj (gets f). Proof. intros s. apply Rrefl. Qed.
Lemma kj_getj {A} (f : journal -> A) : keepj (getj f). Proof. intros s. apply Rrefl. Qed.
Lemma kj_getg : keepj getg. Proof. intros s. apply Rrefl. Qed.
Lemma kj_modj f : keepj (modj f). Proof. intros s. apply Rrefl. Qed.
Lemma kj_buf_put o b : keepj (buf_put o b).
Proof. intros s. unfold buf_put. destruct (_ && _); apply Rrefl. Qed.
Lemma kj_buf_get o b : keepj (buf_get o b).
Proof. intros s. unfold buf_get. destruct (_ && _); apply Rrefl. Qed.
Lemma kj_bind {A B} (m : MJ A) (f : A -> MJ B) : keepj m -> (forall a, keepj (f a)) -> keepj (bind m f).
Proof.
  intros Hm Hf s. unfold bind. specialize (Hm s). destruct (m s) as [[a|e|x] s']; cbn in *; auto.
  eapply Rtrans; [exact Hm|apply Hf].
Qed.
Lemma kj_attempt {A} (m : MJ A) : keepj m -> keepj (attempt m).
Proof. intros Hm s. unfold attempt. specialize (Hm s). destruct (m s) as [[a|e|x] s']; cbn in *; auto. Qed.
Lemma kj_io {A} (m : M nand A) : keepn m -> keepj (io m).
Proof. intros Hm s. unfold io, zoom. specialize (Hm (js_n s)). destruct (m (js_n s)); cbn in *; auto. Qed.

Lemma kn_read p o l : keepn (nand_read p o l).
Proof. intros n. unfold nand_read. repeat destruct (negb _); try apply Rrefl. destruct (cell_bytes _ _); apply Rrefl. Qed.
Lemma kn_is_bad b : keepn (nand_is_bad b).
Proof. intros n. unfold nand_is_bad. destruct (block_ok _ _); apply Rrefl. Qed.
Lemma kn_is_free b : keepn (nand_is_free b).
Proof. intros n. unfold nand_is_free. destruct (page_ok _ _); apply Rrefl. Qed.

Create HintDb kp.
Hint Resolve kj_ret kj_fail kj_halt kj_gets kj_getj kj_getg kj_modj kj_buf_put kj_buf_get kn_read kn_is_bad kn_is_free : kp.
Ltac kp := repeat (cbn beta; first
  [ solve [auto with kp]
  | apply kj_bind; [|intros ?]
  | apply kj_attempt
  | apply kj_io
  | match goal with |- keepj (match ?x with _ => _ end) => destruct x end ]).

Lemma k_roll_stats : keepj roll_stats. Proof. unfold roll_stats. kp. Qed.
Lemma k_clear_recovery : keepj clear_recovery. Proof. unfold clear_recovery. kp. Qed.
Lemma k_reset_journal : keepj reset_journal. Proof. unfold reset_journal. kp. Qed.
Lemma k_read_page_buf p : keepj (read_page_buf p). Proof. unfold read_page_buf. kp. Qed.
Lemma k_hdr_clear_user : keepj hdr_clear_user. Proof. unfold hdr_clear_user. kp. Qed.
Hint Resolve k_roll_stats k_clear_recovery k_reset_journal k_read_page_buf k_hdr_clear_user : kp.
Lemma k_find_checkblock b : keepj (find_checkblock b).
Proof. unfold find_checkblock. generalize MAX_RETRIES. intros i. revert b. induction i; intros b; cbn [find_checkblock_loop]; kp. Qed.
Hint Resolve k_find_checkblock : kp.
Lemma k_find_checkblock_cur b : keepj (find_checkblock_cur b).
Proof. unfold find_checkblock_cur. kp. Qed.
Hint Resolve k_find_checkblock_cur : kp.
Lemma k_find_last_checkblock_loop i : forall f l h, keepj (find_last_checkblock_loop i f l h).
Proof. induction i; intros f l h; cbn [find_last_checkblock_loop]; kp. Qed.
Hint Resolve k_find_last_checkblock_loop : kp.
Lemma k_find_last_checkblock f : keepj (find_last_checkblock f).
Proof. unfold find_last_checkblock. kp. Qed.
Lemma k_cp_free_loop n : forall p, keepj (cp_free_loop n p).
Proof. induction n; intros p; cbn [cp_free_loop]; kp. Qed.
Hint Resolve k_find_last_checkblock k_cp_free_loop : kp.
Lemma k_cp_free p : keepj (cp_free p). Proof. unfold cp_free. kp. Qed.
Hint Resolve k_cp_free : kp.
Lemma k_find_last_group_loop n : forall b g l h, keepj (find_last_group_loop n b g l h).
Proof. induction n; intros b g l h; cbn [find_last_group_loop]; kp. Qed.
Hint Resolve k_find_last_group_loop : kp.
Lemma k_find_last_group p : keepj (find_last_group p). Proof. unfold find_last_group. kp. Qed.
Lemma k_find_root_loop n : forall b, keepj (find_root_loop n b).
Proof. induction n; intros b; cbn [find_root_loop]; kp. Qed.
Hint Resolve k_find_last_group k_find_root_loop : kp.
Lemma k_find_root p : keepj (find_root p). Proof. unfold find_root. kp. Qed.
Lemma k_trailing_free n : forall b, keepj (trailing_free n b).
Proof. induction n; intros b; cbn [trailing_free]; kp. Qed.
Hint Resolve k_find_root k_trailing_free : kp.
Lemma k_find_head_loop n : keepj (find_head_loop n).
Proof. induction n; cbn [find_head_loop]; kp. Qed.
Hint Resolve k_find_head_loop : kp.
Lemma k_find_head p : keepj (find_head p). Proof. unfold find_head. kp. Qed.
Hint Resolve k_find_head : kp.
Lemma k_resume_body : keepj journal_resume_body.
Proof. unfold journal_resume_body. kp. Qed.
Hint Resolve k_resume_body : kp.
Lemma k_resume : keepj journal_resume.
Proof. unfold journal_resume. kp. Qed.
Lemma k_read_meta p : keepj (read_meta p). Proof. unfold read_meta. kp. Qed.
Lemma k_peek_loop n : forall b, keepj (peek_loop n b).
Proof. induction n; intros b; cbn [peek_loop]; kp. Qed.
Hint Resolve k_resume k_read_meta k_peek_loop : kp.
Lemma k_peek : keepj journal_peek. Proof. unfold journal_peek. kp. Qed.
Lemma k_dequeue : keepj journal_dequeue. Proof. unfold journal_dequeue. kp. Qed.
Lemma k_clear : keepj journal_clear. Proof. unfold journal_clear. kp. Qed.
Lemma k_skip_block : keepj skip_block. Proof. unfold skip_block. kp. Qed.
Lemma k_next_recoverable : keepj next_recoverable. Proof. unfold next_recoverable. kp. Qed.
Lemma k_cookie_put b : keepj (cookie_put b). Proof. unfold cookie_put. kp. Qed.
Hint Resolve k_peek k_dequeue k_clear k_skip_block k_next_recoverable k_cookie_put : kp.

Lemma km_ret {A} (a : A) : keepm (ret a). Proof. intros s. apply Rrefl. Qed.
Lemma km_fail {A} e : keepm (A:=A) (fail e). Proof. intros s. apply Rrefl. Qed.
Lemma km_halt {A} e : keepm (A:=A) (halt e). Proof. intros s. apply Rrefl. Qed.
Lemma km_gets {A} (f : ms -> A) : keepm (gets f). Proof. intros s. apply Rrefl. Qed.
Lemma km_bind {A B} (m : MM A) (f : A -> MM B) : keepm m -> (forall a, keepm (f a)) -> keepm (bind m f).
Proof.
  intros Hm Hf s. unfold bind. specialize (Hm s). destruct (m s) as [[a|e|x] s']; cbn in *; auto.
  eapply Rtrans; [exact Hm|apply Hf].
Qed.
Lemma km_attempt {A} (m : MM A) : keepm m -> keepm (attempt m).
Proof. intros Hm s. unfold attempt. specialize (Hm s). destruct (m s) as [[a|e|x] s']; cbn in *; auto. Qed.
Lemma km_jn {A} (m : MJ A) : keepj m -> keepm (jn m).
Proof. intros Hm s. unfold jn, zoom. specialize (Hm (m_js s)). destruct (m (m_js s)); cbn in *; auto. Qed.
Lemma km_count f : keepm (modify (fun s => set_count (f s) s)). Proof. intros s. apply Rrefl. Qed.
Lemma km_count' k : keepm (modify (set_count k)). Proof. intros s. apply Rrefl. Qed.
Hint Resolve km_ret km_fail km_halt km_gets km_count km_count' : kp.
Ltac km := repeat (cbn beta; first
  [ solve [auto with kp]
  | apply km_bind; [|intros ?]
  | apply km_attempt
  | apply km_jn
  | apply kj_bind; [|intros ?]
  | apply kj_io
  | match goal with |- keepm (match ?x with _ => _ end) => destruct x end ]).

Lemma k_map_resume : keepm map_resume. Proof. unfold map_resume, ck_get_count. km. Qed.
Lemma k_trace_loop k : forall t p m nm, keepm (trace_loop k t p m nm).
Proof. induction k; intros; cbn [trace_loop]; km. Qed.
Hint Resolve k_trace_loop : kp.
Lemma k_trace_path t nm : keepm (trace_path t nm). Proof. unfold trace_path, get_root. km. Qed.
Hint Resolve k_trace_path : kp.
Lemma k_map_find t : keepm (map_find t). Proof. unfold map_find. km. Qed.
Hint Resolve k_map_find : kp.
Lemma k_map_read t : keepm (map_read t). Proof. unfold map_read. km. Qed.
Lemma k_map_clear : keepm map_clear. Proof. unfold map_clear. km. Qed.

(** Calls that modify the chip. *)
Section modifying.
Hypothesis Rprog : forall p d, keepn (nand_prog p d).
Hypothesis Rerase : forall b, keepn (nand_erase b).
Hypothesis Rmark : forall b, keepn (nand_mark_bad b).
Hint Resolve Rprog Rerase Rmark : kp.

Lemma k_copy a b : keepn (nand_copy a b).
Proof.
  intros n. unfold nand_copy, bind, gets. pose proof (kn_read a 0 (page_size (n_geo n)) n) as H.
  destruct (nand_read a 0 (page_size (n_geo n)) n) as [[d|e|x] n']; cbn in *; auto.
  eapply Rtrans; [exact H|apply Rprog].
Qed.
Hint Resolve k_copy : kp.
Lemma k_prepare_head_loop i : keepj (prepare_head_loop i).
Proof. induction i; cbn [prepare_head_loop]; kp. Qed.
Hint Resolve k_prepare_head_loop : kp.
Lemma k_prepare_head : keepj prepare_head. Proof. unfold prepare_head. kp. Qed.
Hint Resolve k_prepare_head : kp.
Lemma k_restart_recovery h : keepj (restart_recovery h). Proof. unfold restart_recovery. kp. Qed.
Lemma k_dump_meta_loop i : keepj (dump_meta_loop i).
Proof. induction i; cbn [dump_meta_loop]; kp. Qed.
Hint Resolve k_restart_recovery k_dump_meta_loop : kp.
Lemma k_recover_from e : keepj (recover_from e). Proof. unfold recover_from, dump_meta. kp. Qed.
Lemma k_finish_recovery : keepj finish_recovery. Proof. unfold finish_recovery. kp. Qed.
Hint Resolve k_recover_from k_finish_recovery : kp.
Lemma k_push_meta m : keepj (push_meta m).
Proof. unfold push_meta, hdr_put_magic, hdr_set_epoch, hdr_set_tail, hdr_set_bb_current, hdr_set_bb_last. kp. Qed.
Hint Resolve k_push_meta : kp.
Lemma k_append_loop i prog m : (forall h, keepn (prog h)) -> keepj (append_loop i prog m).
Proof. intros Hp. induction i; cbn [append_loop]; kp. Qed.
Lemma k_enqueue d m : keepj (journal_enqueue d m).
Proof. unfold journal_enqueue. apply k_append_loop. intros h. destruct d; [apply Rprog|intros n; apply Rrefl]. Qed.
Lemma k_jcopy p m : keepj (journal_copy p m).
Proof. unfold journal_copy. apply k_append_loop. intros h. apply k_copy. Qed.
Hint Resolve k_enqueue k_jcopy : kp.
Lemma k_ck k : keepm (ck_set_count k). Proof. unfold ck_set_count. km. Qed.
Hint Resolve k_ck : kp.
Lemma k_raw_gc p : keepm (raw_gc p). Proof. unfold raw_gc. km. Qed.
Lemma k_pad_queue : keepm pad_queue. Proof. unfold pad_queue, get_root. km. Qed.
Hint Resolve k_raw_gc k_pad_queue : kp.
Lemma k_try_recover_loop f : forall n, keepm (try_recover_loop f n).
Proof. induction f; intros n; cbn [try_recover_loop]; km. Qed.
Hint Resolve k_try_recover_loop : kp.
Lemma k_try_recover f e : keepm (try_recover f e). Proof. unfold try_recover. km. Qed.
Hint Resolve k_try_recover : kp.
Lemma k_map_gc_loop n f : keepm (map_gc_loop n f). Proof. induction n; cbn [map_gc_loop]; km. Qed.
Hint Resolve k_map_gc_loop : kp.
Lemma k_map_gc f : keepm (map_gc f). Proof. unfold map_gc. km. Qed.
Hint Resolve k_map_gc : kp.
Lemma k_repeat_gc i f : keepm (repeat_gc i f). Proof. induction i; cbn [repeat_gc]; km. Qed.
Hint Resolve k_repeat_gc : kp.
Lemma k_auto_gc f : keepm (auto_gc f). Proof. unfold auto_gc. km. Qed.
Hint Resolve k_auto_gc : kp.
Lemma k_prepare_write f d : keepm (prepare_write f d). Proof. unfold prepare_write. km. Qed.
Hint Resolve k_prepare_write : kp.
Lemma k_write_loop n f d app : (forall m, keepj (app m)) -> keepm (write_loop n f d app).
Proof. intros Ha. induction n; cbn [write_loop]; km. Qed.
Lemma k_map_write f t d : keepm (map_write f t d).
Proof. unfold map_write. apply k_write_loop. intros. apply k_enqueue. Qed.
Lemma k_map_copy_page f t d : keepm (map_copy_page f t d).
Proof. unfold map_copy_page. apply k_write_loop. intros. apply k_jcopy. Qed.
Lemma k_try_delete t : keepm (try_delete t). Proof. unfold try_delete. km. Qed.
Hint Resolve k_try_delete k_map_copy_page k_map_write k_map_clear k_map_read : kp.
Lemma k_trim_loop n f t : keepm (trim_loop n f t). Proof. induction n; cbn [trim_loop]; km. Qed.
Hint Resolve k_trim_loop : kp.
Lemma k_map_trim f t : keepm (map_trim f t). Proof. unfold map_trim. km. Qed.
Hint Resolve k_map_trim : kp.
Lemma k_copy_sector f a b : keepm (map_copy_sector f a b). Proof. unfold map_copy_sector. km. Qed.
Lemma k_sync_loop n f : keepm (sync_loop n f). Proof. induction n; cbn [sync_loop]; km. Qed.
Hint Resolve k_copy_sector k_sync_loop : kp.
Lemma k_map_sync f : keepm (map_sync f). Proof. unfold map_sync. km. Qed.
Hint Resolve k_map_sync : kp.
Lemma k_exec f o : keepm (exec f o). Proof. destruct o; cbn [exec]; km. Qed.

Lemma k_restart gcr junk n : R n (chip (snd (restart gcr junk n))).
Proof. apply (k_map_resume (map_init n gcr junk)). Qed.

Lemma k_run f gcr junk h : forall s, R (chip s) (chip (snd (run f gcr junk h s))).
Proof.
  induction h as [|[o|g' j'] h IH]; intros s; cbn [run].
  - apply Rrefl.
  - pose proof (k_exec f o s) as He. destruct (exec f o s) as [r s1]. cbn [snd] in He.
    destruct r as [a|e|[]].
    + specialize (IH s1). destruct (run f gcr junk h s1). cbn in *. eauto.
    + specialize (IH s1). destruct (run f gcr junk h s1). cbn in *. eauto.
    + pose proof (k_restart gcr junk (chip s1)) as Hr.
      specialize (IH (snd (restart gcr junk (chip s1)))). destruct (run f gcr junk h _). cbn [snd] in *. eauto.
    + exact He.
    + exact He.
  - pose proof (k_restart g' j' (chip s)) as Hr.
    specialize (IH (snd (restart g' j' (chip s)))). destruct (run f gcr junk h _). cbn [snd] in *. eauto.
Qed.
End modifying.
End pres.

(** dhara_map_init and dhara_map_resume do not modify the chip. *)
Lemma restart_chip gcr junk n : chip (snd (restart gcr junk n)) = n.
Proof.
  symmetry. apply (k_map_resume eq (fun _ => eq_refl) (fun a b d => @eq_trans _ a b d) (map_init n gcr junk)).
Qed.
Lemma read_chip t s : chip (snd (map_read t s)) = chip s.
Proof. symmetry. apply (k_map_read eq (fun _ => eq_refl) (fun a b d => @eq_trans _ a b d)). Qed.
Lemma find_chip t s : chip (snd (map_find t s)) = chip s.
Proof. symmetry. apply (k_map_find eq (fun _ => eq_refl) (fun a b d => @eq_trans _ a b d)). Qed.
Lemma clear_chip s : chip (snd (map_clear s)) = chip s.
Proof. symmetry. apply (k_map_clear eq (fun _ => eq_refl) (fun a b d => @eq_trans _ a b d)). Qed.

(** Bad marks are never removed. *)
Definition bmono (n n' : nand) : Prop := forall b, n_bad n b = true -> n_bad n' b = true.
Lemma bm_refl n : bmono n n. Proof. by intros b. Qed.
Lemma bm_trans a b d : bmono a b -> bmono b d -> bmono a d. Proof. unfold bmono. auto. Qed.
Lemma bm_prog p d : keepn bmono (nand_prog p d).
Proof.
  intros n. unfold nand_prog. cbv zeta.
  destruct (negb (page_ok _ _)); [apply bm_refl|]. destruct (n_bad n (blk_of (n_geo n) p)); [apply bm_refl|].
  destruct (negb (tail_free _ _ _)); [apply bm_refl|]. destruct (negb (_ =? _)); [apply bm_refl|].
  destruct (n_orc n (n_tick n) (OpProg p)) as [|f|f]; cbn; [by intros k|destruct (f p); by intros k..].
Qed.
Lemma bm_erase b : keepn bmono (nand_erase b).
Proof.
  intros n. unfold nand_erase. repeat destruct (negb _); try apply bm_refl. destruct (n_bad n b); [apply bm_refl|].
  destruct (n_orc n (n_tick n) (OpErase b)); by intros k.
Qed.
Lemma bm_mark b : keepn bmono (nand_mark_bad b).
Proof.
  intros n. unfold nand_mark_bad. destruct (negb _); [apply bm_refl|].
  assert (H : bmono n (set_bads (upd (n_bad (bump_tick n)) b true) (bump_tick n))).
  { intros k Hk. cbn. unfold upd. by destruct (k =? b). }
  destruct (n_orc n (n_tick n) (OpMark b)) as [|f|f]; cbn; auto. destruct (f 0); cbn; auto; by intros k.
Qed.
Lemma bm_enqueue d m : keepj bmono (journal_enqueue d m).
Proof. apply k_enqueue; auto using bm_refl, bm_prog, bm_erase, bm_mark. exact bm_trans. Qed.
Lemma bm_jcopy p m : keepj bmono (journal_copy p m).
Proof. apply k_jcopy; auto using bm_refl, bm_prog, bm_erase, bm_mark. exact bm_trans. Qed.

