(** The flag for an unusable block of saved metadata is only up during recovery,
    for every call. *)
From Verif Require Import Base Bytes Nand Journal MapModel Api.
Local Open Scope Z_scope.

Definition BM (j : journal) : Prop := j_recov j = true \/ j_badmeta j = false.

Definition keepj {A} (m : MJ A) : Prop := forall s, BM (js_j s) -> BM (js_j (snd (m s))).
Definition keepm {A} (m : MM A) : Prop := forall s, BM (js_j (m_js s)) -> BM (js_j (m_js (snd (m s)))).

Lemma kj_ret {A} (a : A) : keepj (ret a). Proof. by intros s. Qed.
Lemma kj_fail {A} e : keepj (A:=A) (fail e). Proof. by intros s. Qed.
Lemma kj_halt {A} e : keepj (A:=A) (halt e). Proof. by intros s. Qed.
Lemma kj_getj {A} (f : journal -> A) : keepj (getj f). Proof. by intros s. Qed.
Lemma kj_getg : keepj getg. Proof. by intros s. Qed.
Lemma kj_modj f : (forall j, BM j -> BM (f j)) -> keepj (modj f). Proof. intros H s HB. by apply H. Qed.
Lemma kj_buf_put o b : keepj (buf_put o b).
Proof. intros s H. unfold buf_put. by destruct (_ && _). Qed.
Lemma kj_buf_get o b : keepj (buf_get o b).
Proof. intros s H. unfold buf_get. by destruct (_ && _). Qed.
Lemma kj_bind {A B} (m : MJ A) (f : A -> MJ B) : keepj m -> (forall a, keepj (f a)) -> keepj (bind m f).
Proof.
  intros Hm Hf s H. specialize (Hm s H). unfold bind. destruct (m s) as [[a|e|x] s']; [|done|done].
  by apply Hf.
Qed.
Lemma kj_attempt {A} (m : MJ A) : keepj m -> keepj (attempt m).
Proof. intros Hm s H. specialize (Hm s H). unfold attempt. by destruct (m s) as [[a|e|x] s']. Qed.
Lemma kj_io {A} (m : M nand A) : keepj (io m).
Proof. intros s H. unfold io, zoom. by destruct (m (js_n s)). Qed.

Create HintDb kp.
#[local] Hint Resolve kj_ret kj_fail kj_halt kj_getj kj_getg kj_buf_put kj_buf_get kj_io : kp.
#[local] Hint Extern 3 (keepj (modj _)) => (apply kj_modj; intros ? ?; first [assumption | left; reflexivity | right; reflexivity]) : kp.
Ltac kp := repeat (cbn beta; first
  [ solve [auto with kp]
  | apply kj_bind; [|intros ?]
  | apply kj_attempt
  | match goal with |- keepj (match ?x with _ => _ end) => destruct x end ]).

Lemma k_roll_stats : keepj roll_stats. Proof. unfold roll_stats. kp. Qed.
Lemma k_clear_recovery : keepj clear_recovery. Proof. unfold clear_recovery. kp. Qed.
Lemma k_reset_journal : keepj reset_journal. Proof. unfold reset_journal. kp. Qed.
Lemma k_hdr_clear_user : keepj hdr_clear_user. Proof. unfold hdr_clear_user. kp. Qed.
#[local] Hint Resolve k_roll_stats k_clear_recovery k_reset_journal k_hdr_clear_user : kp.
Lemma k_read_meta p : keepj (read_meta p). Proof. unfold read_meta. kp. Qed.
Lemma k_peek_loop n : forall b, keepj (peek_loop n b).
Proof. induction n; intros b; cbn [peek_loop]; kp. Qed.
#[local] Hint Resolve k_read_meta k_peek_loop : kp.
Lemma k_peek : keepj journal_peek. Proof. unfold journal_peek. kp. Qed.
Lemma k_dequeue : keepj journal_dequeue. Proof. unfold journal_dequeue. kp. Qed.
Lemma k_clear : keepj journal_clear. Proof. unfold journal_clear. kp. Qed.
Lemma k_skip_block : keepj skip_block. Proof. unfold skip_block. kp. Qed.
Lemma k_next_recoverable : keepj next_recoverable. Proof. unfold next_recoverable. kp. Qed.
Lemma k_cookie_put b : keepj (cookie_put b). Proof. unfold cookie_put. kp. Qed.
#[local] Hint Resolve k_peek k_dequeue k_clear k_skip_block k_next_recoverable k_cookie_put : kp.
Lemma k_prepare_head_loop i : keepj (prepare_head_loop i).
Proof. induction i; cbn [prepare_head_loop]; kp. Qed.
#[local] Hint Resolve k_prepare_head_loop : kp.
Lemma k_prepare_head : keepj prepare_head. Proof. unfold prepare_head. kp. Qed.
#[local] Hint Resolve k_prepare_head : kp.
Lemma k_restart_recovery h s : j_recov (js_j s) = true -> BM (js_j (snd (restart_recovery h s))).
Proof.
  intros H. unfold restart_recovery, bind, getg, getj, gets.
  destruct (_ || _).
  - unfold io, zoom. destruct (nand_mark_bad _ _) as [[a|e|x] n']; cbn; by left.
  - cbn. by left.
Qed.
Lemma k_dump_meta_loop i : keepj (dump_meta_loop i).
Proof. induction i; cbn [dump_meta_loop]; kp. Qed.
#[local] Hint Resolve k_dump_meta_loop : kp.
Lemma k_recover_from e : keepj (recover_from e).
Proof.
  unfold recover_from, dump_meta. apply kj_bind; [kp|intros g]. apply kj_bind; [kp|intros h].
  destruct (decide _); [kp|]. apply kj_bind; [kp|intros _]. apply kj_bind; [kp|intros _].
  intros s HB. unfold bind at 1, getj at 1, gets at 1. destruct (j_recov (js_j s)) eqn:E.
  - unfold bind. pose proof (k_restart_recovery h s E) as H.
    by destruct (restart_recovery h s) as [[a|e'|x] s'].
  - revert s HB E. assert (forall A (m : MJ A), keepj m -> forall s, BM (js_j s) -> j_recov (js_j s) = false -> BM (js_j (snd (m s)))) as H by eauto.
    apply H. kp.
Qed.
Lemma k_finish_recovery : keepj finish_recovery. Proof. unfold finish_recovery. kp. Qed.
#[local] Hint Resolve k_recover_from k_finish_recovery : kp.
Lemma k_push_meta m : keepj (push_meta m).
Proof. unfold push_meta, hdr_put_magic, hdr_set_epoch, hdr_set_tail, hdr_set_bb_current, hdr_set_bb_last. kp. Qed.
#[local] Hint Resolve k_push_meta : kp.
Lemma k_append_loop i prog m : keepj (append_loop i prog m).
Proof. induction i; cbn [append_loop]; kp. Qed.
Lemma k_enqueue d m : keepj (journal_enqueue d m).
Proof. unfold journal_enqueue. apply k_append_loop. Qed.
Lemma k_jcopy p m : keepj (journal_copy p m).
Proof. unfold journal_copy. apply k_append_loop. Qed.
#[local] Hint Resolve k_enqueue k_jcopy : kp.

Lemma km_ret {A} (a : A) : keepm (ret a). Proof. by intros s. Qed.
Lemma km_fail {A} e : keepm (A:=A) (fail e). Proof. by intros s. Qed.
Lemma km_halt {A} e : keepm (A:=A) (halt e). Proof. by intros s. Qed.
Lemma km_gets {A} (f : ms -> A) : keepm (gets f). Proof. by intros s. Qed.
Lemma km_bind {A B} (m : MM A) (f : A -> MM B) : keepm m -> (forall a, keepm (f a)) -> keepm (bind m f).
Proof.
  intros Hm Hf s H. specialize (Hm s H). unfold bind. destruct (m s) as [[a|e|x] s']; [|done|done].
  by apply Hf.
Qed.
Lemma km_attempt {A} (m : MM A) : keepm m -> keepm (attempt m).
Proof. intros Hm s H. specialize (Hm s H). unfold attempt. by destruct (m s) as [[a|e|x] s']. Qed.
Lemma km_jn {A} (m : MJ A) : keepj m -> keepm (jn m).
Proof. intros Hm s H. specialize (Hm (m_js s) H). unfold jn, zoom. by destruct (m (m_js s)) as [o s']. Qed.
Lemma km_count f : keepm (modify (fun s => set_count (f s) s)). Proof. by intros s. Qed.
Lemma km_count' k : keepm (modify (set_count k)). Proof. by intros s. Qed.
#[local] Hint Resolve km_ret km_fail km_halt km_gets km_count km_count' : kp.
Ltac km := repeat (cbn beta; first
  [ solve [auto with kp]
  | apply km_bind; [|intros ?]
  | apply km_attempt
  | apply km_jn
  | apply kj_bind; [|intros ?]
  | match goal with |- keepm (match ?x with _ => _ end) => destruct x end ]).
Lemma k_trace_loop k : forall t p m nm, keepm (trace_loop k t p m nm).
Proof. induction k; intros; cbn [trace_loop]; km. Qed.
#[local] Hint Resolve k_trace_loop : kp.
Lemma k_trace_path t nm : keepm (trace_path t nm). Proof. unfold trace_path, get_root. km. Qed.
#[local] Hint Resolve k_trace_path : kp.
Lemma k_map_find t : keepm (map_find t). Proof. unfold map_find. km. Qed.
#[local] Hint Resolve k_map_find : kp.
Lemma k_map_read t : keepm (map_read t). Proof. unfold map_read. km. Qed.
Lemma k_map_clear : keepm map_clear. Proof. unfold map_clear. km. Qed.
Lemma k_ck k : keepm (ck_set_count k). Proof. unfold ck_set_count. km. Qed.
#[local] Hint Resolve k_ck : kp.
Lemma k_raw_gc p : keepm (raw_gc p). Proof. unfold raw_gc. km. Qed.
Lemma k_pad_queue : keepm pad_queue. Proof. unfold pad_queue, get_root. km. Qed.
#[local] Hint Resolve k_raw_gc k_pad_queue : kp.
Lemma k_try_recover_loop f : forall n, keepm (try_recover_loop f n).
Proof. induction f; intros n; cbn [try_recover_loop]; km. Qed.
#[local] Hint Resolve k_try_recover_loop : kp.
Lemma k_try_recover f e : keepm (try_recover f e). Proof. unfold try_recover. km. Qed.
#[local] Hint Resolve k_try_recover : kp.
Lemma k_map_gc_loop n f : keepm (map_gc_loop n f). Proof. induction n; cbn [map_gc_loop]; km. Qed.
#[local] Hint Resolve k_map_gc_loop : kp.
Lemma k_map_gc f : keepm (map_gc f). Proof. unfold map_gc. km. Qed.
#[local] Hint Resolve k_map_gc : kp.
Lemma k_repeat_gc i f : keepm (repeat_gc i f). Proof. induction i; cbn [repeat_gc]; km. Qed.
#[local] Hint Resolve k_repeat_gc : kp.
Lemma k_auto_gc f : keepm (auto_gc f). Proof. unfold auto_gc. km. Qed.
#[local] Hint Resolve k_auto_gc : kp.
Lemma k_prepare_write f d : keepm (prepare_write f d). Proof. unfold prepare_write. km. Qed.
#[local] Hint Resolve k_prepare_write : kp.
Lemma k_write_loop n f d app : (forall m, keepj (app m)) -> keepm (write_loop n f d app).
Proof. intros Ha. induction n; cbn [write_loop]; km. Qed.
Lemma k_map_write f t d : keepm (map_write f t d).
Proof. unfold map_write. apply k_write_loop. intros. apply k_enqueue. Qed.
Lemma k_map_copy_page f t d : keepm (map_copy_page f t d).
Proof. unfold map_copy_page. apply k_write_loop. intros. apply k_jcopy. Qed.
Lemma k_try_delete t : keepm (try_delete t). Proof. unfold try_delete. km. Qed.
#[local] Hint Resolve k_try_delete k_map_copy_page k_map_write k_map_clear k_map_read : kp.
Lemma k_trim_loop n f t : keepm (trim_loop n f t). Proof. induction n; cbn [trim_loop]; km. Qed.
#[local] Hint Resolve k_trim_loop : kp.
Lemma k_map_trim f t : keepm (map_trim f t). Proof. unfold map_trim. km. Qed.
#[local] Hint Resolve k_map_trim : kp.
Lemma k_copy_sector f a b : keepm (map_copy_sector f a b). Proof. unfold map_copy_sector. km. Qed.
Lemma k_sync_loop n f : keepm (sync_loop n f). Proof. induction n; cbn [sync_loop]; km. Qed.
#[local] Hint Resolve k_copy_sector k_sync_loop : kp.
Lemma k_map_sync f : keepm (map_sync f). Proof. unfold map_sync. km. Qed.
#[local] Hint Resolve k_map_sync : kp.
Lemma k_exec f o : keepm (exec f o). Proof. destruct o; cbn [exec]; km. Qed.

(** It is down after power-up. *)
Lemma k_read_page_buf p : keepj (read_page_buf p). Proof. unfold read_page_buf. kp. Qed.
#[local] Hint Resolve k_read_page_buf : kp.
Lemma k_find_checkblock b : keepj (find_checkblock b).
Proof. unfold find_checkblock. generalize MAX_RETRIES. intros i. revert b. induction i; intros b; cbn [find_checkblock_loop]; kp. Qed.
#[local] Hint Resolve k_find_checkblock : kp.
Lemma k_find_checkblock_cur b : keepj (find_checkblock_cur b).
Proof. unfold find_checkblock_cur. kp. Qed.
#[local] Hint Resolve k_find_checkblock_cur : kp.
Lemma k_find_last_checkblock_loop i : forall f l h, keepj (find_last_checkblock_loop i f l h).
Proof. induction i; intros f l h; cbn [find_last_checkblock_loop]; kp. Qed.
#[local] Hint Resolve k_find_last_checkblock_loop : kp.
Lemma k_find_last_checkblock f : keepj (find_last_checkblock f).
Proof. unfold find_last_checkblock. kp. Qed.
Lemma k_cp_free_loop n : forall p, keepj (cp_free_loop n p).
Proof. induction n; intros p; cbn [cp_free_loop]; kp. Qed.
#[local] Hint Resolve k_find_last_checkblock k_cp_free_loop : kp.
Lemma k_cp_free p : keepj (cp_free p). Proof. unfold cp_free. kp. Qed.
#[local] Hint Resolve k_cp_free : kp.
Lemma k_find_last_group_loop n : forall b g l h, keepj (find_last_group_loop n b g l h).
Proof. induction n; intros b g l h; cbn [find_last_group_loop]; kp. Qed.
#[local] Hint Resolve k_find_last_group_loop : kp.
Lemma k_find_last_group p : keepj (find_last_group p). Proof. unfold find_last_group. kp. Qed.
Lemma k_find_root_loop n : forall b, keepj (find_root_loop n b).
Proof. induction n; intros b; cbn [find_root_loop]; kp. Qed.
#[local] Hint Resolve k_find_last_group k_find_root_loop : kp.
Lemma k_find_root p : keepj (find_root p). Proof. unfold find_root. kp. Qed.
Lemma k_trailing_free n : forall b, keepj (trailing_free n b).
Proof. induction n; intros b; cbn [trailing_free]; kp. Qed.
#[local] Hint Resolve k_find_root k_trailing_free : kp.
Lemma k_find_head_loop n : keepj (find_head_loop n).
Proof. induction n; cbn [find_head_loop]; kp. Qed.
#[local] Hint Resolve k_find_head_loop : kp.
Lemma k_find_head p : keepj (find_head p). Proof. unfold find_head. kp. Qed.
#[local] Hint Resolve k_find_head : kp.
Lemma k_resume_body : keepj journal_resume_body.
Proof. unfold journal_resume_body. kp. Qed.
#[local] Hint Resolve k_resume_body : kp.
Lemma k_resume : keepj journal_resume.
Proof. unfold journal_resume. kp. Qed.
#[local] Hint Resolve k_resume : kp.
Lemma k_map_resume : keepm map_resume. Proof. unfold map_resume, ck_get_count. km. Qed.
Lemma BM_restart gcr junk n : BM (js_j (m_js (snd (restart gcr junk n)))).
Proof. unfold restart. apply k_map_resume. by right. Qed.
