(** C63: calls with nothing to do leave the map and the chip alone.

    A state [ms] holds everything: the RAM of the map and journal and the chip with
    all its pages, bad-block marks and the number of operations carried out, so an
    unchanged state means that nothing was programmed, erased or marked. *)
From stdpp Require Import gmap.
From Verif Require Import Base Bytes Nand Journal MapModel Api Geom Tree Rep Age Inv StepJ MapStep MapOps Spec Ppc Props Examples.
Local Open Scope Z_scope.

(** ** Calls that only look, in every state whatsoever *)
Definition pure {S A} (m : M S A) : Prop := forall s, snd (m s) = s.
Lemma pure_ret {S A} (a : A) : pure (S:=S) (ret a). Proof. done. Qed.
Lemma pure_fail {S A} e : pure (S:=S) (A:=A) (fail e). Proof. done. Qed.
Lemma pure_halt {S A} e : pure (S:=S) (A:=A) (halt e). Proof. done. Qed.
Lemma pure_gets {S A} (f : S -> A) : pure (gets f). Proof. done. Qed.
Lemma pure_bind {S A B} (m : M S A) (f : A -> M S B) : pure m -> (forall a, pure (f a)) -> pure (bind m f).
Proof.
  intros Hm Hf s. unfold bind. specialize (Hm s). destruct (m s) as [[a|e|x] s']; cbn in *; subst; auto. apply Hf.
Qed.
Lemma pure_attempt {S A} (m : M S A) : pure m -> pure (attempt m).
Proof. intros Hm s. unfold attempt. specialize (Hm s). by destruct (m s) as [[a|e|x] s']. Qed.
Lemma pure_jn {A} (m : MJ A) : pure m -> pure (jn m).
Proof.
  intros Hm s. unfold jn, zoom. specialize (Hm (m_js s)). destruct (m (m_js s)) as [o t]. cbn in *. subst. by destruct s.
Qed.
Lemma pure_io {A} (m : M nand A) : pure m -> pure (io m).
Proof.
  intros Hm s. unfold io, zoom. specialize (Hm (js_n s)). destruct (m (js_n s)) as [o t]. cbn in *. subst. by destruct s.
Qed.
Lemma pure_nand_read p o l : pure (nand_read p o l).
Proof. intros n. unfold nand_read. destruct (negb _); [done|]. destruct (negb _); [done|]. by destruct (cell_bytes _ _). Qed.
Lemma pure_buf_get o l : pure (buf_get o l).
Proof. intros s. unfold buf_get. by repeat case_match. Qed.
Lemma pure_read_meta p : pure (read_meta p).
Proof.
  unfold read_meta. apply pure_bind; [apply pure_gets|]. intros j. destruct (align_eq _ _ _); [apply pure_buf_get|].
  destruct (_ && _); apply pure_io, pure_nand_read.
Qed.
Lemma pure_trace_loop k : forall t p m nm, pure (trace_loop k t p m nm).
Proof.
  induction k as [|k IH]; intros t p m nm; cbn [trace_loop]; [apply pure_ret|].
  destruct (_ =? _); [apply pure_ret|]. destruct (negb _); [|apply IH].
  destruct (_ =? _); [apply pure_ret|]. apply pure_bind; [apply pure_jn, pure_read_meta|]. intros a. apply IH.
Qed.
Lemma pure_trace t nm : pure (trace_path t nm).
Proof.
  unfold trace_path. apply pure_bind; [apply pure_jn, pure_gets|]. intros p. destruct (_ =? _); [apply pure_ret|].
  apply pure_bind; [apply pure_jn, pure_read_meta|]. intros a. apply pure_trace_loop.
Qed.
Lemma pure_find t : pure (map_find t).
Proof.
  unfold map_find. apply pure_bind; [apply pure_trace|]. intros [[p|] m]; [apply pure_ret|apply pure_fail].
Qed.
Lemma pure_read t : pure (map_read t).
Proof.
  unfold map_read. apply pure_bind; [apply pure_jn, pure_gets|]. intros g. apply pure_bind; [apply pure_attempt, pure_find|].
  intros [e|p]; [destruct (decide _); [apply pure_ret|apply pure_fail]|apply pure_jn, pure_io, pure_nand_read].
Qed.

(** dhara_map_read, dhara_map_find and dhara_map_size never change anything, in any
    state, with any chip contents, whatever they return. *)
Theorem C63_lookups_change_nothing fuel o s :
  match o with ORead _ | OFind _ | OSize => True | _ => False end -> snd (exec fuel o s) = s.
Proof.
  destruct o; try done; intros _; cbn [exec].
  - apply (pure_bind (map_read _)); [apply pure_read|intros a; apply pure_ret].
  - apply (pure_bind (map_find _)); [apply pure_find|intros a; apply pure_ret].
Qed.

(** ** Sync *)
Lemma sync_clean n fuel : forall s s', sync_loop n fuel s = (OK tt, s') -> j_dirty (js_j (m_js s')) = false.
Proof.
  induction n as [|n IH]; intros s s'; cbn [sync_loop]; [done|]. unfold bind at 1.
  destruct (jn (getj j_dirty) s) as [[d|e|x] s1] eqn:E; [|done..].
  unfold jn, zoom, getj, gets in E. cbn in E. injection E as E1 E2.
  destruct d.
  - unfold bind at 1. destruct (jn journal_peek s1) as [[p|e|x] s2]; [|done..].
    unfold bind at 1. match goal with |- context [attempt ?m s2] => destruct (attempt m s2) as [[[e|u]|e|x] s3] end; [| |done..].
    + unfold bind at 1. destruct (try_recover fuel e s3) as [[u|e'|x] s4]; [|done..]. apply IH.
    + apply IH.
  - unfold ret. intros [= <-]. rewrite <-E2. destruct s as [[n0 j0] ? ?]. cbn in *. done.
Qed.
Lemma sync_of_clean fuel s : (1 <= fuel)%nat -> j_dirty (js_j (m_js s)) = false -> map_sync fuel s = (OK tt, s).
Proof.
  intros Hf Hd. unfold map_sync. destruct fuel as [|fuel]; [lia|]. cbn [sync_loop]. unfold bind at 1, jn, zoom, getj, gets.
  cbn. rewrite Hd. destruct s as [[n0 j0] ? ?]. done.
Qed.

(** A sync right after a successful sync succeeds and does nothing. *)
Theorem C63_sync_twice fuel s s' fuel' :
  map_sync fuel s = (OK tt, s') -> (1 <= fuel')%nat -> map_sync fuel' s' = (OK tt, s').
Proof. intros E Hf. apply sync_of_clean; [done|]. by eapply sync_clean. Qed.

(** So does a sync right after power-up, whether or not a journal was found. *)
Lemma resume_clean s o s' : journal_resume s = (o, s') ->
  match o with ST _ => False | _ => True end -> j_dirty (js_j s') = false.
Proof.
  unfold journal_resume. unfold bind at 1. destruct (attempt journal_resume_body s) as [[[e|u]|e|x] s1] eqn:E.
  - unfold bind, reset_journal, getg, gets, modj, modify, fail. intros H _. injection H as <- <-. done.
  - intros H _. injection H as <- <-. unfold attempt in E.
    destruct (journal_resume_body s) as [[[]|e|x] s2] eqn:E2; [|done..]. injection E as _ <-.
    revert E2. unfold journal_resume_body.
    do 12 (unfold bind at 1; match goal with |- context [match ?m with (_, _) => _ end] => destruct m as [[?|?|?] ?] end; [|done..]).
    unfold bind, clear_recovery, modj, modify, getj, gets. cbn. intros [= <-]. done.
  - unfold attempt in E. by destruct (journal_resume_body s) as [[[]|e'|x'] s2].
  - intros H. injection H as <- <-. done.
Qed.
Theorem C63_sync_after_power_up gcr junk n fuel : (1 <= fuel)%nat ->
  (forall x, fst (restart gcr junk n) <> ST x) ->
  map_sync fuel (snd (restart gcr junk n)) = (OK tt, snd (restart gcr junk n)).
Proof.
  intros Hf Hd. apply sync_of_clean; [done|]. revert Hd.
  unfold restart, map_resume, bind, attempt, jn, zoom. cbn [m_js put_js map_init].
  destruct (journal_resume _) as [o s1] eqn:E. pose proof (resume_clean _ _ _ E) as Hc.
  destruct o as [u|e|x]; [|by intros _; apply Hc|intros Hd; by destruct (Hd x)].
  intros _. unfold ck_get_count, jn, zoom.
  pose proof (pure_bind (buf_get HEADER_SIZE COOKIE_SIZE) (fun b => ret (r32 b)) (pure_buf_get _ _) (fun a => pure_ret _) s1) as Hp.
  cbn [m_js put_js]. fold (@bind js _ _ (buf_get HEADER_SIZE COOKIE_SIZE) (fun b => ret (r32 b))) in *. destruct (bind _ _ s1) as [[b|e|x] s2]; cbn in Hp; subst; by apply Hc.
Qed.

(** trace_path itself never reports E_NOT_FOUND. *)
Definition nonf {S A} (m : M S A) : Prop := forall s, fst (m s) <> ER E_NOT_FOUND.
Lemma nonf_bind {S A B} (m : M S A) (f : A -> M S B) : nonf m -> (forall a, nonf (f a)) -> nonf (bind m f).
Proof.
  intros Hm Hf s. unfold bind. specialize (Hm s). destruct (m s) as [[a|e|x] s']; cbn in *; [apply Hf| |done]. congruence.
Qed.
Lemma nonf_jn {A} (m : MJ A) : nonf m -> nonf (jn m).
Proof. intros Hm s. unfold jn, zoom. specialize (Hm (m_js s)). by destruct (m (m_js s)) as [o t]. Qed.
Lemma nonf_read_meta p : nonf (read_meta p).
Proof.
  assert (Hr : forall p o l, nonf (io (nand_read p o l))).
  { intros q o l s. unfold io, zoom, nand_read. destruct (negb _); [done|]. destruct (negb _); [done|]. by destruct (cell_bytes _ _). }
  intros s. unfold read_meta, bind at 1, getj, gets. destruct (align_eq _ _ _); [|destruct (_ && _); apply Hr].
  unfold buf_get. by repeat case_match.
Qed.
Lemma nonf_trace t nm : nonf (trace_path t nm).
Proof.
  assert (Hl : forall k t p m nm, nonf (trace_loop k t p m nm)).
  { clear. induction k as [|k IH]; intros t p m nm; cbn [trace_loop]; [by intros s|].
    destruct (_ =? _); [by intros s|]. destruct (negb _); [|apply IH].
    destruct (_ =? _); [by intros s|]. apply nonf_bind; [apply nonf_jn, nonf_read_meta|]. intros a. apply IH. }
  unfold trace_path. apply nonf_bind; [by intros s|]. intros p. destruct (_ =? _); [by intros s|].
  apply nonf_bind; [apply nonf_jn, nonf_read_meta|]. intros a. apply Hl.
Qed.

(** ** An empty map; trimming what is not there *)
Lemma gc_empty fuel s : MapModel.map_size s = 0 -> map_gc fuel s = (OK tt, s).
Proof. intros E. unfold map_gc, bind, gets. unfold MapModel.map_size in E. by rewrite E. Qed.
Lemma repeat_gc_empty i fuel s : MapModel.map_size s = 0 -> repeat_gc i fuel s = (OK tt, s).
Proof.
  intros E. induction i as [|i IH]; cbn [repeat_gc]; [done|]. unfold bind. by rewrite gc_empty.
Qed.
Lemma auto_gc_empty fuel s : MapModel.map_size s = 0 -> auto_gc fuel s = (OK tt, s).
Proof.
  intros E. unfold auto_gc. unfold bind at 1, gets at 1. destruct (_ <? _); [done|].
  unfold bind, gets. by apply repeat_gc_empty.
Qed.
Lemma auto_gc_small fuel s : journal_size (n_geo (chip s)) (js_j (m_js s)) < map_capacity s -> auto_gc fuel s = (OK tt, s).
Proof.
  intros E. unfold auto_gc. unfold bind at 1, gets at 1. unfold chip in E.
  destruct (Z.ltb_spec (journal_size (n_geo (js_n (m_js s))) (js_j (m_js s))) (map_capacity s)); [done|lia].
Qed.

(** Clearing or collecting the garbage of an empty map, in every state. *)
Theorem C63_empty_clear_gc fuel o s : MapModel.map_size s = 0 ->
  match o with OClear | OGc => True | _ => False end -> exec fuel o s = (OK RUnit, s).
Proof.
  intros E. destruct o; try done; intros _; cbn [exec]; unfold bind at 1.
  - unfold map_clear, bind, gets. unfold MapModel.map_size in E. by rewrite E.
  - by rewrite gc_empty.
Qed.

Section idle.
Context (g : geo) (weak : Z -> bool) (Hsup : supported g) (Hfew : few_weak g weak).

(** Trimming a sector that is not mapped succeeds and changes nothing, unless garbage
    collection is due; on an empty map it never is. *)
Theorem C63_trim_unmapped s fuel t : reachable g weak s -> enough_fuel g fuel -> sector t ->
  mapped s t = false ->
  MapModel.map_size s = 0 \/ journal_size (n_geo (chip s)) (js_j (m_js s)) < map_capacity s ->
  map_trim fuel t s = (OK tt, s).
Proof.
  intros Hr Hf Ht Hm Hgc.
  assert (Hfind : map_find t s = (ER E_NOT_FOUND, s)).
  { destruct (reach_MX g weak Hsup Hfew _ Hr) as (S & Sd & HM).
    destruct (find_spec g _ (supported_geo g Hsup) weak _ _ _ _ HM Ht) as [[_ E]|(d & v & _ & E & _)]; [done|].
    unfold mapped in Hm. by rewrite E in Hm. }
  assert (Hauto : auto_gc fuel s = (OK tt, s)).
  { destruct Hgc; [by apply auto_gc_empty|by apply auto_gc_small]. }
  assert (Hdel : try_delete t s = (OK tt, s)).
  { unfold map_find in Hfind. unfold try_delete. unfold bind at 1 in Hfind. unfold bind at 1.
    pose proof (pure_trace t uninit_meta s) as Hp.
    destruct (trace_path t uninit_meta s) as [[[[p|] m]|e|x] s1] eqn:Et; cbn in Hp, Hfind; subst; try discriminate Hfind; [done|].
    exfalso. pose proof (nonf_trace t uninit_meta s) as Hn. by rewrite Et in Hn; cbn in Hn; injection Hfind as ->. }
  unfold map_trim. destruct fuel as [|fuel]; [exfalso; unfold enough_fuel in Hf; destruct Hsup as (_&_&?&_); pose proof (Z.pow_nonneg 2 (g_lppb g)); nia|].
  cbn [trim_loop]. unfold bind at 1. rewrite Hauto. unfold bind, attempt. by rewrite Hdel.
Qed.
End idle.

Lemma idle_m : mapped s4 99 = false. Proof. by vm_compute. Qed.
Lemma idle_gc : (journal_size (n_geo (chip s4)) (js_j (m_js s4)) <? map_capacity s4) = true.
Proof. by vm_compute. Qed.
Lemma idle_sync : fst (map_sync ex_fuel s4) = OK tt. Proof. by vm_compute. Qed.
(** A history of Examples.v (writes, failures, a power cut): after a sync a second one
    does nothing, looking up a present and an absent sector does nothing, nor does
    trimming the absent one; and the sync itself had something to do. *)
Example idle_C63 :
  map_sync 4000 s4s = (OK tt, s4s) /\ map_trim ex_fuel 99 s4 = (OK tt, s4) /\
  (MapModel.map_size s4 =? 0, mapped s4 7, mapped s4 99, j_dirty (js_j (m_js s4)), j_dirty (js_j (m_js s4s))) =
    (false, true, false, true, false).
Proof.
  split; [|split; [|by vm_compute]].
  - refine (C63_sync_twice ex_fuel s4 s4s 4000 _ _); [|lia]. rewrite <-idle_sync. unfold s4s. apply surjective_pairing.
  - refine (C63_trim_unmapped exg ex_weak ex_supported ex_few_weak s4 ex_fuel 99 ex_reach4 ex_enough _ idle_m (or_intror _)).
    + unfold sector. lia.
    + exact (proj1 (Z.ltb_lt _ _) idle_gc).
Qed.
