(** Program failures in the middle of a block: comparison of every call with the
    same call on a chip on which those failures do not occur. *)
From Verif Require Import Base Bytes Nand Journal MapModel Api.
Local Open Scope Z_scope.

(** The chip without the failures of programs that are not at the start of a
    block. *)
Definition sano (pb : Z) (o : nat -> nop -> event) (t : nat) (x : nop) : event :=
  match x with
  | OpProg p => if p mod pb =? 0 then o t x
                else match o t x with EvFail _ => EvOk | e => e end
  | _ => o t x
  end.
Definition san (n : nand) : nand :=
  Nand (n_geo n) (n_cell n) (n_bad n) (sano (2 ^ g_lppb (n_geo n)) (n_orc n)) (n_tick n) (n_erases n).
Definition sanj (s : js) : js := Js (san (js_n s)) (js_j s).
Definition sanm (s : ms) : ms := Ms (sanj (m_js s)) (m_gcr s) (m_count s).

(** [m] does the same on the two chips. *)
Definition ag {St A} (sf : St -> St) (m : M St A) (s : St) : Prop :=
  m (sf s) = (fst (m s), sf (snd (m s))).

(** A program failure in the middle of a block occurred between the two states. *)
Definition mid (n n' : nand) : Prop :=
  exists t p f, (n_tick n <= t < n_tick n')%nat /\ n_orc n t (OpProg p) = EvFail f /\
    p mod 2 ^ g_lppb (n_geo n) <> 0.
Definition ext (n n' : nand) : Prop :=
  n_orc n' = n_orc n /\ n_geo n' = n_geo n /\ (n_tick n <= n_tick n')%nat.
Lemma ext_refl n : ext n n. Proof. repeat split; lia. Qed.
Lemma ext_trans a b d : ext a b -> ext b d -> ext a d.
Proof. intros (H1&H2&H3) (H4&H5&H6). repeat split; [congruence|congruence|lia]. Qed.
Lemma mid_l a b d : ext a b -> mid b d -> mid a d.
Proof.
  intros (H1&H2&H3) (t & p & f & Ht & Ho & Hp). exists t, p, f. rewrite H1 in Ho. rewrite H2 in Hp.
  split; [lia|done].
Qed.
Lemma mid_r a b d : mid a b -> ext b d -> mid a d.
Proof.
  intros (t & p & f & Ht & Ho & Hp) (H1&H2&H3). exists t, p, f. split; [lia|done].
Qed.

Section ag.
Context {St : Type} (sf : St -> St).
Lemma ag_ret {A} (a : A) s : ag sf (ret a) s. Proof. done. Qed.
Lemma ag_fail {A} e s : ag sf (fail (A:=A) e) s. Proof. done. Qed.
Lemma ag_halt {A} e s : ag sf (halt (A:=A) e) s. Proof. done. Qed.
Lemma ag_gets {A} (f : St -> A) s : f (sf s) = f s -> ag sf (gets f) s.
Proof. unfold ag, gets. cbn. by intros ->. Qed.
Lemma ag_modify f s : f (sf s) = sf (f s) -> ag sf (modify f) s.
Proof. unfold ag, modify. cbn. by intros ->. Qed.
Lemma ag_bind {A B} (m : M St A) (f : A -> M St B) s :
  ag sf m s -> (forall a s', m s = (OK a, s') -> ag sf (f a) s') -> ag sf (bind m f) s.
Proof.
  unfold ag, bind. intros -> H. destruct (m s) as [[a|e|x] s'] eqn:E; cbn; auto.
Qed.
Lemma ag_attempt {A} (m : M St A) s : ag sf m s -> ag sf (attempt m) s.
Proof. unfold ag, attempt. intros ->. by destruct (m s) as [[a|e|x] s']. Qed.
Lemma ag_zoom {T A} (tf : T -> T) (get : St -> T) put (m : M T A) s :
  get (sf s) = tf (get s) -> (forall t, put (tf t) (sf s) = sf (put t s)) ->
  ag tf m (get s) -> ag sf (zoom get put m) s.
Proof.
  unfold ag, zoom. intros -> H ->. destruct (m (get s)) as [o t]. cbn. by rewrite H.
Qed.
End ag.

Section san.
Context (R : nand -> nand -> Prop).
Hypothesis Rl : forall a b d, ext a b -> R b d -> R a d.
Hypothesis Rr : forall a b d, R a b -> ext b d -> R a d.

Definition keepn {A} (m : M nand A) : Prop := forall n, ext n (snd (m n)) /\ (ag san m n \/ R n (snd (m n))).
Definition keepj {A} (m : MJ A) : Prop :=
  forall s, ext (js_n s) (js_n (snd (m s))) /\ (ag sanj m s \/ R (js_n s) (js_n (snd (m s)))).
Definition keepm {A} (m : MM A) : Prop :=
  forall s, ext (chip s) (chip (snd (m s))) /\ (ag sanm m s \/ R (chip s) (chip (snd (m s)))).
Lemma er n : ext n n. Proof. apply ext_refl. Qed.

Lemma kj_ret {A} (a : A) : keepj (ret a). Proof. intros s. split; [apply er|by left]. Qed.
Lemma kj_fail {A} e : keepj (A:=A) (fail e). Proof. intros s. split; [apply er|by left]. Qed.
Lemma kj_halt {A} e : keepj (A:=A) (halt e). Proof. intros s. split; [apply er|by left]. Qed.
Lemma kj_getj {A} (f : journal -> A) : keepj (getj f). Proof. intros s. split; [apply er|by left]. Qed.
Lemma kj_getg : keepj getg. Proof. intros s. split; [apply er|by left]. Qed.
Lemma kj_modj f : keepj (modj f). Proof. intros s. split; [apply er|by left]. Qed.
Lemma kj_buf_put o b : keepj (buf_put o b).
Proof. intros s. unfold buf_put, ag. cbn. destruct (_ && _); (split; [apply er|by left]). Qed.
Lemma kj_buf_get o b : keepj (buf_get o b).
Proof. intros s. unfold buf_get, ag. cbn. destruct (_ && _); (split; [apply er|by left]). Qed.
Lemma kj_bind {A B} (m : MJ A) (f : A -> MJ B) : keepj m -> (forall a, keepj (f a)) -> keepj (bind m f).
Proof.
  intros Hm Hf s. destruct (Hm s) as [He Ha]. unfold bind.
  destruct (m s) as [[a|e|x] s'] eqn:E; cbn [fst snd] in *.
  - destruct (Hf a s') as [He' Ha']. split; [by eapply ext_trans|].
    destruct Ha as [Ha|Ha]; [|right; by eapply Rr]. destruct Ha' as [Ha'|Ha']; [|right; by eapply Rl].
    left. unfold ag in *. cbn. rewrite Ha, E. cbn. done.
  - split; [done|]. destruct Ha as [Ha|Ha]; [left|by right]. unfold ag in *. by rewrite Ha, E.
  - split; [done|]. destruct Ha as [Ha|Ha]; [left|by right]. unfold ag in *. by rewrite Ha, E.
Qed.
Lemma kj_attempt {A} (m : MJ A) : keepj m -> keepj (attempt m).
Proof.
  intros Hm s. destruct (Hm s) as [He Ha]. split.
  - unfold attempt. destruct (m s) as [[a|e|x] s']; done.
  - destruct Ha as [Ha|Ha]; [left; by apply ag_attempt|right].
    unfold attempt. destruct (m s) as [[a|e|x] s']; done.
Qed.
Lemma kj_io {A} (m : M nand A) : keepn m -> keepj (io m).
Proof.
  intros Hm s. destruct (Hm (js_n s)) as [He Ha]. split.
  - unfold io, zoom. by destruct (m (js_n s)).
  - destruct Ha as [Ha|Ha]; [left; by eapply (ag_zoom sanj san)|right].
    unfold io, zoom. by destruct (m (js_n s)).
Qed.

Lemma kn_read p o l : keepn (nand_read p o l).
Proof.
  intros n. unfold nand_read, ag. cbn. repeat destruct (negb _); try (split; [apply er|by left]).
  destruct (cell_bytes _ _); (split; [apply er|by left]).
Qed.
Lemma kn_is_bad b : keepn (nand_is_bad b).
Proof. intros n. unfold nand_is_bad, ag. cbn. destruct (block_ok _ _); (split; [apply er|by left]). Qed.
Lemma kn_is_free b : keepn (nand_is_free b).
Proof. intros n. unfold nand_is_free, ag. cbn. destruct (page_ok _ _); (split; [apply er|by left]). Qed.

Create HintDb kp.
Hint Resolve kj_ret kj_fail kj_halt kj_getj kj_getg kj_modj kj_buf_put kj_buf_get kn_read kn_is_bad kn_is_free : kp.
Ltac kp := repeat (cbn beta; first
  [ solve [auto with kp]
  | apply kj_bind; [|intros ?]
  | apply kj_attempt
  | apply kj_io
  | match goal with |- keepj (match ?x with _ => _ end) => destruct x end ]).

Lemma k_roll_stats : keepj roll_stats. Proof. unfold roll_stats. kp. Qed.
Lemma k_clear_recovery : keepj clear_recovery. Proof. unfold clear_recovery. kp. Qed.
Lemma k_reset_journal : keepj reset_journal. Proof. unfold reset_journal. kp. Qed.
Lemma k_read_page_buf p : keepj (read_page_buf p). Proof. unfold read_page_buf. kp. Qed.
Lemma k_hdr_clear_user : keepj hdr_clear_user. Proof. unfold hdr_clear_user. kp. Qed.
Hint Resolve k_roll_stats k_clear_recovery k_reset_journal k_read_page_buf k_hdr_clear_user : kp.
Lemma k_find_checkblock b : keepj (find_checkblock b).
Proof. unfold find_checkblock. generalize MAX_RETRIES. intros i. revert b. induction i; intros b; cbn [find_checkblock_loop]; kp. Qed.
Hint Resolve k_find_checkblock : kp.
Lemma k_find_checkblock_cur b : keepj (find_checkblock_cur b).
Proof. unfold find_checkblock_cur. kp. Qed.
Hint Resolve k_find_checkblock_cur : kp.
Lemma k_find_last_checkblock_loop i : forall f l h, keepj (find_last_checkblock_loop i f l h).
Proof. induction i; intros f l h; cbn [find_last_checkblock_loop]; kp. Qed.
Hint Resolve k_find_last_checkblock_loop : kp.
Lemma k_find_last_checkblock f : keepj (find_last_checkblock f).
Proof. unfold find_last_checkblock. kp. Qed.
Lemma k_cp_free_loop n : forall p, keepj (cp_free_loop n p).
Proof. induction n; intros p; cbn [cp_free_loop]; kp. Qed.
Hint Resolve k_find_last_checkblock k_cp_free_loop : kp.
Lemma k_cp_free p : keepj (cp_free p). Proof. unfold cp_free. kp. Qed.
Hint Resolve k_cp_free : kp.
Lemma k_find_last_group_loop n : forall b g l h, keepj (find_last_group_loop n b g l h).
Proof. induction n; intros b g l h; cbn [find_last_group_loop]; kp. Qed.
Hint Resolve k_find_last_group_loop : kp.
Lemma k_find_last_group p : keepj (find_last_group p). Proof. unfold find_last_group. kp. Qed.
Lemma k_find_root_loop n : forall b, keepj (find_root_loop n b).
Proof. induction n; intros b; cbn [find_root_loop]; kp. Qed.
Hint Resolve k_find_last_group k_find_root_loop : kp.
Lemma k_find_root p : keepj (find_root p). Proof. unfold find_root. kp. Qed.
Lemma k_trailing_free n : forall b, keepj (trailing_free n b).
Proof. induction n; intros b; cbn [trailing_free]; kp. Qed.
Hint Resolve k_find_root k_trailing_free : kp.
Lemma k_find_head_loop n : keepj (find_head_loop n).
Proof. induction n; cbn [find_head_loop]; kp. Qed.
Hint Resolve k_find_head_loop : kp.
Lemma k_find_head p : keepj (find_head p). Proof. unfold find_head. kp. Qed.
Hint Resolve k_find_head : kp.
Lemma k_resume_body : keepj journal_resume_body.
Proof. unfold journal_resume_body. kp. Qed.
Hint Resolve k_resume_body : kp.
Lemma k_resume : keepj journal_resume.
Proof. unfold journal_resume. kp. Qed.
Lemma k_read_meta p : keepj (read_meta p). Proof. unfold read_meta. kp. Qed.
Lemma k_peek_loop n : forall b, keepj (peek_loop n b).
Proof. induction n; intros b; cbn [peek_loop]; kp. Qed.
Hint Resolve k_resume k_read_meta k_peek_loop : kp.
Lemma k_peek : keepj journal_peek. Proof. unfold journal_peek. kp. Qed.
Lemma k_dequeue : keepj journal_dequeue. Proof. unfold journal_dequeue. kp. Qed.
Lemma k_clear : keepj journal_clear. Proof. unfold journal_clear. kp. Qed.
Lemma k_skip_block : keepj skip_block. Proof. unfold skip_block. kp. Qed.
Lemma k_next_recoverable : keepj next_recoverable. Proof. unfold next_recoverable. kp. Qed.
Lemma k_cookie_put b : keepj (cookie_put b). Proof. unfold cookie_put. kp. Qed.
Hint Resolve k_peek k_dequeue k_clear k_skip_block k_next_recoverable k_cookie_put : kp.

Lemma km_ret {A} (a : A) : keepm (ret a). Proof. intros s. split; [apply er|by left]. Qed.
Lemma km_fail {A} e : keepm (A:=A) (fail e). Proof. intros s. split; [apply er|by left]. Qed.
Lemma km_halt {A} e : keepm (A:=A) (halt e). Proof. intros s. split; [apply er|by left]. Qed.
Lemma km_gets {A} (f : ms -> A) : (forall s, f (sanm s) = f s) -> keepm (gets f).
Proof. intros H s. split; [apply er|left; by apply ag_gets]. Qed.
Lemma km_bind {A B} (m : MM A) (f : A -> MM B) : keepm m -> (forall a, keepm (f a)) -> keepm (bind m f).
Proof.
  intros Hm Hf s. destruct (Hm s) as [He Ha]. unfold bind.
  destruct (m s) as [[a|e|x] s'] eqn:E; cbn [fst snd] in *.
  - destruct (Hf a s') as [He' Ha']. split; [by eapply ext_trans|].
    destruct Ha as [Ha|Ha]; [|right; by eapply Rr]. destruct Ha' as [Ha'|Ha']; [|right; by eapply Rl].
    left. unfold ag in *. cbn. rewrite Ha, E. cbn. done.
  - split; [done|]. destruct Ha as [Ha|Ha]; [left|by right]. unfold ag in *. by rewrite Ha, E.
  - split; [done|]. destruct Ha as [Ha|Ha]; [left|by right]. unfold ag in *. by rewrite Ha, E.
Qed.
Lemma km_attempt {A} (m : MM A) : keepm m -> keepm (attempt m).
Proof.
  intros Hm s. destruct (Hm s) as [He Ha]. split.
  - unfold attempt. destruct (m s) as [[a|e|x] s']; done.
  - destruct Ha as [Ha|Ha]; [left; by apply ag_attempt|right].
    unfold attempt. destruct (m s) as [[a|e|x] s']; done.
Qed.
Lemma km_jn {A} (m : MJ A) : keepj m -> keepm (jn m).
Proof.
  intros Hm s. destruct (Hm (m_js s)) as [He Ha]. split.
  - unfold jn, zoom, chip. by destruct (m (m_js s)).
  - destruct Ha as [Ha|Ha]; [left; by eapply (ag_zoom sanm sanj)|right].
    unfold jn, zoom, chip. by destruct (m (m_js s)).
Qed.
Lemma km_count f : (forall s, f (sanm s) = f s) -> keepm (modify (fun s => set_count (f s) s)).
Proof. intros H s. split; [apply er|left]. apply ag_modify. by rewrite H. Qed.
Lemma km_count' k : keepm (modify (set_count k)). Proof. intros s. split; [apply er|by left]. Qed.
Hint Resolve km_ret km_fail km_halt km_count' : kp.
Hint Extern 3 (keepm (gets _)) => (apply km_gets; intros; reflexivity) : kp.
Hint Extern 3 (keepm (modify _)) => (apply km_count; intros; reflexivity) : kp.
Ltac km := repeat (cbn beta; first
  [ solve [auto with kp]
  | apply km_bind; [|intros ?]
  | apply km_attempt
  | apply km_jn
  | apply kj_bind; [|intros ?]
  | apply kj_io
  | match goal with |- keepm (match ?x with _ => _ end) => destruct x end ]).

Lemma k_map_resume : keepm map_resume. Proof. unfold map_resume, ck_get_count. km. Qed.
Lemma k_trace_loop k : forall t p m nm, keepm (trace_loop k t p m nm).
Proof. induction k; intros; cbn [trace_loop]; km. Qed.
Hint Resolve k_trace_loop : kp.
Lemma k_trace_path t nm : keepm (trace_path t nm). Proof. unfold trace_path, get_root. km. Qed.
Hint Resolve k_trace_path : kp.
Lemma k_map_find t : keepm (map_find t). Proof. unfold map_find. km. Qed.
Hint Resolve k_map_find : kp.
Lemma k_map_read t : keepm (map_read t). Proof. unfold map_read. km. Qed.
Lemma k_map_clear : keepm map_clear. Proof. unfold map_clear. km. Qed.

(** Calls that modify the chip. *)
Section modifying.
Hypothesis Rprog : forall p d, keepn (nand_prog p d).
Hypothesis Rerase : forall b, keepn (nand_erase b).
Hypothesis Rmark : forall b, keepn (nand_mark_bad b).
Hint Resolve Rprog Rerase Rmark : kp.

Lemma k_copy a b : keepn (nand_copy a b).
Proof.
  intros n. unfold nand_copy, ag, bind, gets. destruct (kn_read a 0 (page_size (n_geo n)) n) as [He Ha].
  change (n_geo (san n)) with (n_geo n).
  assert (Hr : snd (nand_read a 0 (page_size (n_geo n)) n) = n).
  { unfold nand_read. repeat destruct (negb _); try done. by destruct (cell_bytes _ _). }
  assert (Ha' : ag san (nand_read a 0 (page_size (n_geo n))) n).
  { unfold nand_read, ag. cbn. repeat destruct (negb _); try done. by destruct (cell_bytes _ _). }
  unfold ag in Ha'. rewrite Ha'.
  destruct (nand_read a 0 (page_size (n_geo n)) n) as [[d|e|x] n']; cbn [fst snd] in *; subst; auto.
  destruct (Rprog b d n) as [H1 H2]. split; [done|]. destruct H2; auto.
Qed.
Hint Resolve k_copy : kp.
Lemma k_prepare_head_loop i : keepj (prepare_head_loop i).
Proof. induction i; cbn [prepare_head_loop]; kp. Qed.
Hint Resolve k_prepare_head_loop : kp.
Lemma k_prepare_head : keepj prepare_head. Proof. unfold prepare_head. kp. Qed.
Hint Resolve k_prepare_head : kp.
Lemma k_restart_recovery h : keepj (restart_recovery h). Proof. unfold restart_recovery. kp. Qed.
Lemma k_dump_meta_loop i : keepj (dump_meta_loop i).
Proof. induction i; cbn [dump_meta_loop]; kp. Qed.
Hint Resolve k_restart_recovery k_dump_meta_loop : kp.
Lemma k_recover_from e : keepj (recover_from e). Proof. unfold recover_from, dump_meta. kp. Qed.
Lemma k_finish_recovery : keepj finish_recovery. Proof. unfold finish_recovery. kp. Qed.
Hint Resolve k_recover_from k_finish_recovery : kp.
Lemma k_push_meta m : keepj (push_meta m).
Proof. unfold push_meta, hdr_put_magic, hdr_set_epoch, hdr_set_tail, hdr_set_bb_current, hdr_set_bb_last. kp. Qed.
Hint Resolve k_push_meta : kp.
Lemma k_append_loop i prog m : (forall h, keepn (prog h)) -> keepj (append_loop i prog m).
Proof. intros Hp. induction i; cbn [append_loop]; kp. Qed.
Lemma k_enqueue d m : keepj (journal_enqueue d m).
Proof. unfold journal_enqueue. apply k_append_loop. intros h. destruct d; [apply Rprog|intros n; split; [apply er|by left]]. Qed.
Lemma k_jcopy p m : keepj (journal_copy p m).
Proof. unfold journal_copy. apply k_append_loop. intros h. apply k_copy. Qed.
Hint Resolve k_enqueue k_jcopy : kp.
Lemma k_ck k : keepm (ck_set_count k). Proof. unfold ck_set_count. km. Qed.
Hint Resolve k_ck : kp.
Lemma k_raw_gc p : keepm (raw_gc p). Proof. unfold raw_gc. km. Qed.
Lemma k_pad_queue : keepm pad_queue. Proof. unfold pad_queue, get_root. km. Qed.
Hint Resolve k_raw_gc k_pad_queue : kp.
Lemma k_try_recover_loop f : forall n, keepm (try_recover_loop f n).
Proof. induction f; intros n; cbn [try_recover_loop]; km. Qed.
Hint Resolve k_try_recover_loop : kp.
Lemma k_try_recover f e : keepm (try_recover f e). Proof. unfold try_recover. km. Qed.
Hint Resolve k_try_recover : kp.
Lemma k_map_gc_loop n f : keepm (map_gc_loop n f). Proof. induction n; cbn [map_gc_loop]; km. Qed.
Hint Resolve k_map_gc_loop : kp.
Lemma k_map_gc f : keepm (map_gc f). Proof. unfold map_gc. km. Qed.
Hint Resolve k_map_gc : kp.
Lemma k_repeat_gc i f : keepm (repeat_gc i f). Proof. induction i; cbn [repeat_gc]; km. Qed.
Hint Resolve k_repeat_gc : kp.
Lemma k_auto_gc f : keepm (auto_gc f). Proof. unfold auto_gc. km. Qed.
Hint Resolve k_auto_gc : kp.
Lemma k_prepare_write f d : keepm (prepare_write f d). Proof. unfold prepare_write. km. Qed.
Hint Resolve k_prepare_write : kp.
Lemma k_write_loop n f d app : (forall m, keepj (app m)) -> keepm (write_loop n f d app).
Proof. intros Ha. induction n; cbn [write_loop]; km. Qed.
Lemma k_map_write f t d : keepm (map_write f t d).
Proof. unfold map_write. apply k_write_loop. intros. apply k_enqueue. Qed.
Lemma k_map_copy_page f t d : keepm (map_copy_page f t d).
Proof. unfold map_copy_page. apply k_write_loop. intros. apply k_jcopy. Qed.
Lemma k_try_delete t : keepm (try_delete t). Proof. unfold try_delete. km. Qed.
Hint Resolve k_try_delete k_map_copy_page k_map_write k_map_clear k_map_read : kp.
Lemma k_trim_loop n f t : keepm (trim_loop n f t). Proof. induction n; cbn [trim_loop]; km. Qed.
Hint Resolve k_trim_loop : kp.
Lemma k_map_trim f t : keepm (map_trim f t). Proof. unfold map_trim. km. Qed.
Hint Resolve k_map_trim : kp.
Lemma k_copy_sector f a b : keepm (map_copy_sector f a b). Proof. unfold map_copy_sector. km. Qed.
Lemma k_sync_loop n f : keepm (sync_loop n f). Proof. induction n; cbn [sync_loop]; km. Qed.
Hint Resolve k_copy_sector k_sync_loop : kp.
Lemma k_map_sync f : keepm (map_sync f). Proof. unfold map_sync. km. Qed.
Hint Resolve k_map_sync : kp.
Lemma k_exec f o : keepm (exec f o). Proof. destruct o; cbn [exec]; km. Qed.

End modifying.
End san.

(** Operations without programs. *)
Lemma kn_erase R b : keepn R (nand_erase b).
Proof.
  intros n. unfold nand_erase, ag. cbn [n_geo san n_bad n_orc n_tick sano].
  destruct (negb _); [split; [apply er|by left]|]. destruct (n_bad n b); [split; [apply er|by left]|].
  destruct (n_orc n (n_tick n) (OpErase b)); (split; [repeat split; cbn; lia|by left]).
Qed.
Lemma kn_mark R b : keepn R (nand_mark_bad b).
Proof.
  intros n. unfold nand_mark_bad, ag. cbn [n_geo san n_bad n_orc n_tick sano].
  destruct (negb _); [split; [apply er|by left]|].
  destruct (n_orc n (n_tick n) (OpMark b)) as [|f|f]; try (split; [repeat split; cbn; lia|by left]).
  destruct (f 0); (split; [repeat split; cbn; lia|by left]).
Qed.

(** A program either behaves the same on both chips or fails in mid-block. *)
Lemma prog_cases p d n :
  ext n (snd (nand_prog p d n)) /\
  (ag san (nand_prog p d) n \/
   (p mod 2 ^ g_lppb (n_geo n) <> 0 /\ n_tick (snd (nand_prog p d n)) = S (n_tick n) /\
    exists f, n_orc n (n_tick n) (OpProg p) = EvFail f)).
Proof.
  unfold nand_prog, ag. cbn [n_geo san n_cell n_bad n_orc n_tick sano bump_tick].
  repeat (destruct (negb _); [split; [apply er|by left]|]).
  destruct (n_bad n _); [split; [apply er|by left]|].
  repeat (destruct (negb _); [split; [apply er|by left]|]).
  destruct (Z.eqb_spec (p mod 2 ^ g_lppb (n_geo n)) 0) as [E|E].
  - destruct (n_orc n (n_tick n) (OpProg p)) as [|f|f];
      [|destruct (f p)|destruct (f p)]; (split; [repeat split; cbn; lia|by left]).
  - destruct (n_orc n (n_tick n) (OpProg p)) as [|f|f]; cbn [fst snd].
    + split; [repeat split; cbn; lia|by left].
    + split; [destruct (f p); repeat split; cbn; lia|]. right. split; [done|].
      split; [by destruct (f p)|by eexists].
    + destruct (f p); (split; [repeat split; cbn; lia|by left]).
Qed.
Lemma kn_prog p d : keepn mid (nand_prog p d).
Proof.
  intros n. destruct (prog_cases p d n) as [He [Ha|(Hp & Ht & f & Hf)]]; (split; [done|]); [by left|right].
  exists (n_tick n), p, f. split; [lia|]. done.
Qed.

Definition nomid : nand -> nand -> Prop := fun _ _ => False.
Lemma nomid_l a b d : ext a b -> nomid b d -> nomid a d. Proof. done. Qed.
Lemma nomid_r a b d : nomid a b -> ext b d -> nomid a d. Proof. done. Qed.
Lemma agj {A} (m : MJ A) : keepj nomid m -> forall s, ag sanj m s.
Proof. intros H s. by destruct (H s) as [_ [?|[]]]. Qed.
Lemma agm {A} (m : MM A) : keepm nomid m -> forall s, ag sanm m s.
Proof. intros H s. by destruct (H s) as [_ [?|[]]]. Qed.

(** Every call agrees unless a program failed in mid-block. *)
Lemma exec_ag fuel o s : ext (chip s) (chip (snd (exec fuel o s))) /\
  (ag sanm (exec fuel o) s \/ mid (chip s) (chip (snd (exec fuel o s)))).
Proof. apply (k_exec mid mid_l mid_r kn_prog (kn_erase mid) (kn_mark mid) fuel o s). Qed.

Lemma restart_ag gcr junk n : restart gcr junk (san n) = (fst (restart gcr junk n), sanm (snd (restart gcr junk n))).
Proof.
  pose proof (agm map_resume (k_map_resume nomid nomid_l nomid_r) (map_init n gcr junk)) as H. exact H.
Qed.
