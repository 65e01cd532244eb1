(** Where the head stands relative to the root, for every call: after a
    successful append the root is the last page before the head, and this lasts
    until the head moves to the start of a block. *)
From Verif Require Import Base Bytes Wp Nand Journal MapModel Api.
Local Open Scope Z_scope.

Section top.
Context (g : geo) (Hl : 0 <= g_lppb g).

Definition AL (j : journal) : Prop := is_aligned (j_head j) (g_lppb g) = true.
Definition IT (j : journal) : Prop :=
  j_recov j = true \/ j_root j = PAGE_NONE \/ AL j \/
  j_head j = next_upage g (j_ppc j) (j_root j) \/ j_head j = w32 (j_root j + 1).

(** [m] takes states with [P] to states with [Q] on success, to states with [E]
    when it reports an error, and does not change the geometry. *)
Definition tr2 {A} (P Q E : journal -> Prop) (m : MJ A) : Prop := forall s, n_geo (js_n s) = g ->
  n_geo (js_n (snd (m s))) = g /\
  (P (js_j s) -> match fst (m s) with OK _ => Q (js_j (snd (m s))) | ER _ => E (js_j (snd (m s))) | ST _ => True end).
Definition T (_ : journal) : Prop := True.

Lemma t2_mono {A} (P Q E P' Q' E' : journal -> Prop) (m : MJ A) : tr2 P Q E m -> (forall j, P' j -> P j) -> (forall j, Q j -> Q' j) ->
  (forall j, E j -> E' j) -> tr2 P' Q' E' m.
Proof.
  intros H H1 H2 H3 s Eg. destruct (H s Eg) as [H4 H5]. split; [done|]. intros HP. specialize (H5 (H1 _ HP)).
  destruct (fst (m s)); auto.
Qed.
Lemma t2_bind {A B} (P Q E R : journal -> Prop) (m : MJ A) (f : A -> MJ B) : tr2 P Q E m -> (forall a, tr2 Q R E (f a)) -> tr2 P R E (bind m f).
Proof.
  intros Hm Hf s Eg. unfold bind. specialize (Hm s Eg). destruct (m s) as [[a|e|x] s']; cbn in *; [|exact Hm|tauto].
  destruct Hm as [H1 H2]. destruct (Hf a s' H1) as [H3 H4]. split; [done|]. intros HP. apply H4, H2, HP.
Qed.
Lemma t2_pure {A} (P : journal -> Prop) (m : MJ A) : (forall s, snd (m s) = s) -> tr2 P P P m.
Proof. intros H s Eg. rewrite !H. split; [done|]. by destruct (fst (m s)). Qed.
Lemma t2_ret {A} (P E : journal -> Prop) (a : A) : tr2 P P E (ret a). Proof. intros s Eg. done. Qed.
Lemma t2_fail {A} (P Q : journal -> Prop) e : tr2 P Q P (fail (A:=A) e). Proof. intros s Eg. done. Qed.
Lemma t2_halt {A} (P Q E : journal -> Prop) e : tr2 P Q E (halt (A:=A) e). Proof. intros s Eg. done. Qed.
Lemma t2_getj {A} (P E : journal -> Prop) (f : journal -> A) : tr2 P P E (getj f). Proof. intros s Eg. done. Qed.
Lemma t2_getg {A} (P E : journal -> Prop) (f : geo -> MJ A) Q : tr2 P Q E (f g) -> tr2 P Q E (bind getg f).
Proof. intros H s Eg. unfold bind, getg, gets. rewrite Eg. by apply H. Qed.
Lemma t2_modj (P Q E : journal -> Prop) f : (forall j, P j -> Q (f j)) -> tr2 P Q E (modj f).
Proof. intros H s Eg. split; [done|]. intros HP. by apply H. Qed.
Lemma t2_attempt {A} (P Q : journal -> Prop) (m : MJ A) E : tr2 P Q Q m -> tr2 P Q E (attempt m).
Proof. intros H s Eg. destruct (H s Eg) as [H1 H2]. unfold attempt. by destruct (m s) as [[a|e|x] s']. Qed.
Lemma t2_io {A} (P E : journal -> Prop) (m : M nand A) : (forall n, n_geo (snd (m n)) = n_geo n) -> (forall j, P j -> E j) -> tr2 P P E (io m).
Proof.
  intros H HE s Eg. unfold io, zoom. specialize (H (js_n s)). destruct (m (js_n s)) as [o n'] eqn:Em. cbn in *.
  split; [congruence|]. intros HP. destruct o; auto.
Qed.
Lemma t2_buf_put (P E : journal -> Prop) o b : (forall j v, P j -> P (set_buf v j)) -> tr2 P P E (buf_put o b).
Proof.
  intros H s Eg. unfold buf_put. destruct (_ && _); cbn; split; auto.
Qed.
Lemma t2_buf_get (P E : journal -> Prop) o b : tr2 P P E (buf_get o b).
Proof. intros s Eg. unfold buf_get. destruct (_ && _); cbn; split; auto. Qed.

(** ** The chip operations *)
Lemma gn_read p o l n : n_geo (snd (nand_read p o l n)) = n_geo n.
Proof. unfold nand_read. repeat destruct (negb _); try done. by destruct (cell_bytes _ _). Qed.
Lemma gn_is_bad b n : n_geo (snd (nand_is_bad b n)) = n_geo n.
Proof. unfold nand_is_bad. by destruct (block_ok _ _). Qed.
Lemma gn_erase b n : n_geo (snd (nand_erase b n)) = n_geo n.
Proof. unfold nand_erase. destruct (negb _); [done|]. destruct (n_bad n b); [done|]. by destruct (n_orc n _ _). Qed.
Lemma gn_mark b n : n_geo (snd (nand_mark_bad b n)) = n_geo n.
Proof. unfold nand_mark_bad. destruct (negb _); [done|]. destruct (n_orc n _ _) as [|f|f]; try done. by destruct (f 0). Qed.
Lemma gn_prog p d n : n_geo (snd (nand_prog p d n)) = n_geo n.
Proof.
  unfold nand_prog. destruct (negb _); [done|]. destruct (n_bad n _); [done|].
  destruct (negb _); [done|]. destruct (negb _); [done|]. destruct (n_orc n _ _) as [|f|f]; [done| |]; by destruct (f p).
Qed.
Lemma gn_copy a b n : n_geo (snd (nand_copy a b n)) = n_geo n.
Proof.
  unfold nand_copy, bind, gets. pose proof (gn_read a 0 (page_size (n_geo n)) n).
  destruct (nand_read _ _ _ n) as [[d|e|x] n']; cbn in *; [|done|done]. by rewrite gn_prog.
Qed.

(** ** Alignment *)
Lemma al_0 : is_aligned 0 (g_lppb g) = true.
Proof. unfold is_aligned. by rewrite Z.land_0_l. Qed.
Lemma al_shift b : is_aligned (w32 (Z.shiftl b (g_lppb g))) (g_lppb g) = true.
Proof.
  unfold is_aligned. apply Z.eqb_eq. apply Z.bits_inj'. intros i Hi. rewrite Z.bits_0, Z.land_spec.
  destruct (Z.lt_ge_cases i (g_lppb g)) as [Hlt|Hge].
  - assert (E : Z.testbit (w32 (Z.shiftl b (g_lppb g))) i = false); [|by rewrite E].
    unfold w32. change 4294967296 with (2 ^ 32). destruct (Z.lt_ge_cases i 32).
    + rewrite Z.mod_pow2_bits_low by lia. by rewrite Z.shiftl_spec_low by lia.
    + by rewrite Z.mod_pow2_bits_high by lia.
  - assert (E : Z.testbit (Z.shiftl 1 (g_lppb g) - 1) i = false); [|by rewrite E, andb_false_r].
    rewrite Z.shiftl_1_l, Z.sub_1_r, <-Z.ones_equiv. apply Z.ones_spec_high. lia.
Qed.

(** [skip_block] ends at the start of a block, or changes nothing. *)
Lemma t_skip P : tr2 P AL P skip_block.
Proof.
  intros s Eg. unfold skip_block, bind, getg, getj, gets, modj, modify, fail, ret, roll_stats, roll_stats_j. rewrite Eg.
  destruct (_ =? _); [done|]. cbn [fst snd js_n js_j set_head j_head].
  unfold modj, modify. destruct (_ =? 0); cbn; (split; [done|]); intros _; apply al_shift.
Qed.
Definition dirty_free (P : journal -> Prop) : Prop := forall j f, P j -> P (set_dirty f j).
Definition bbc_free (P : journal -> Prop) : Prop := forall j f, P j -> P (set_bbc f j).

Lemma t_prep_loop P i : bbc_free P -> (forall j, AL j -> P j) -> tr2 P P P (prepare_head_loop i).
Proof.
  intros Hb Ha. induction i as [|i IH]; cbn [prepare_head_loop]; [apply t2_fail|].
  apply t2_getg. eapply t2_bind; [apply t2_getj|]. intros h.
  eapply t2_bind; [apply t2_io; [apply gn_is_bad|done]|]. intros [].
  - eapply t2_bind; [apply t2_modj; intros j Hj; by apply Hb|]. intros _.
    eapply t2_bind; [|intros _; exact IH]. eapply t2_mono; [apply (t_skip P)|done|exact Ha|done].
  - apply t2_io; [apply gn_erase|done].
Qed.
Lemma t_prepare P : bbc_free P -> dirty_free P -> (forall j, AL j -> P j) -> tr2 P P P prepare_head.
Proof.
  intros Hb Hd Ha. unfold prepare_head. apply t2_getg. eapply t2_bind; [apply t2_getj|]. intros j.
  destruct (_ && _); [apply t2_fail|].
  eapply t2_bind; [apply t2_modj; intros; by apply Hd|]. intros _.
  destruct (negb _); [apply t2_ret|by apply t_prep_loop].
Qed.

Lemma IT_dirty : dirty_free IT. Proof. intros j f H. exact H. Qed.
Lemma IT_bbc : bbc_free IT. Proof. intros j f H. exact H. Qed.
Lemma AL_dirty : dirty_free AL. Proof. intros j f H. exact H. Qed.
Lemma AL_bbc : bbc_free AL. Proof. intros j f H. exact H. Qed.
Lemma AL_IT j : AL j -> IT j. Proof. unfold IT. auto. Qed.

Lemma t_dump i : tr2 AL T AL (dump_meta_loop i).
Proof.
  induction i as [|i IH]; cbn [dump_meta_loop]; [apply t2_fail|].
  eapply t2_bind with (Q := AL).
  - apply t2_attempt. eapply t2_bind; [apply t_prepare; [apply AL_bbc|apply AL_dirty|done]|]. intros _.
    eapply t2_bind; [apply t2_getj|]. intros j. apply t2_io; [apply gn_prog|done].
  - intros [e|[]].
    + case_decide; [|eapply t2_mono; [apply (t2_fail AL T)|done..]].
      eapply t2_bind; [apply t2_modj; intros j Hj; by apply AL_bbc|]. intros _.
      apply t2_getg. eapply t2_bind; [apply t2_getj|]. intros h.
      eapply t2_bind; [apply t2_io; [apply gn_mark|done]|]. intros _.
      eapply t2_bind; [apply (t_skip AL)|]. intros _. exact IH.
    + intros s Eg. split; [|intros _].
      * unfold bind, getg, getj, gets, modj, modify, hdr_clear_user, buf_put, roll_stats, ret, modj, modify. cbn.
        unfold bind, getg, gets. cbn.
        repeat (destruct (_ =? 0); cbn; repeat (destruct (_ && _); cbn)); try done.
      * match goal with |- context [match fst (?m s) with _ => _ end] => set (mm := m) end.
        assert (Hok : match fst (mm s) with ER _ => False | _ => True end).
        { unfold mm, bind, getg, getj, gets, modj, modify, hdr_clear_user, buf_put, roll_stats, ret, modj, modify. cbn.
          unfold bind, getg, gets. cbn.
          repeat (destruct (_ =? 0); cbn; repeat (destruct (_ && _); cbn)); try done. }
        by destruct (fst (mm s)).
Qed.

Lemma t_recover e : tr2 IT IT IT (recover_from e).
Proof.
  unfold recover_from. apply t2_getg. eapply t2_bind; [apply t2_getj|]. intros h.
  case_decide; [eapply t2_mono; [apply (t2_fail IT IT)|done..]|].
  eapply t2_bind; [apply t2_modj; intros j Hj; by apply IT_bbc|]. intros _.
  eapply t2_bind; [apply (t_skip IT)|]. intros _.
  eapply t2_bind; [apply t2_getj|]. intros [].
  - eapply t2_bind with (Q := AL).
    2:{ intros _. eapply t2_mono; [apply (t2_fail AL IT)|done|done|apply AL_IT]. }
    unfold restart_recovery. apply t2_getg. eapply t2_bind; [apply t2_getj|]. intros j.
    eapply t2_bind with (Q := AL).
    + destruct (_ || _); [apply t2_io; [apply gn_mark|apply AL_IT]|by apply t2_modj].
    + intros _. by apply t2_modj.
  - destruct (is_aligned h (g_lppb g)).
    + eapply t2_mono; [apply (t2_io AL AL); [apply gn_mark|done]|done|apply AL_IT|apply AL_IT].
    + eapply t2_bind with (Q := AL); [apply t2_modj; intros j Hj; exact Hj|]. intros _.
      eapply t2_bind; [apply t2_getj|]. intros c.
      eapply t2_bind with (Q := T).
      * destruct (negb _).
        -- eapply t2_mono; [apply t_dump|done|done|apply AL_IT].
        -- eapply t2_mono; [apply (t2_ret AL IT)|done..].
      * intros _. eapply t2_bind with (Q := fun j => j_recov j = true).
        -- apply t2_modj. done.
        -- intros _. eapply t2_mono; [apply (t2_fail (fun j => j_recov j = true) IT)|done|done|]. intros j Hj. by left.
Qed.
(** A successful [recover_from] ends at the start of a block. *)
Lemma recover_est e : tr2 T AL T (recover_from e).
Proof.
  unfold recover_from. apply t2_getg. eapply t2_bind; [apply t2_getj|]. intros h.
  case_decide; [eapply t2_mono; [apply (t2_fail T AL)|done..]|].
  eapply t2_bind with (Q := T); [by apply t2_modj|]. intros _.
  eapply t2_bind; [eapply t2_mono; [apply (t_skip T)|done..]|]. intros _.
  eapply t2_bind; [apply t2_getj|]. intros [].
  - eapply t2_bind with (Q := T); [|intros _; apply (t2_fail T AL)].
    unfold restart_recovery. apply t2_getg. eapply t2_bind; [apply t2_getj|]. intros j.
    eapply t2_bind with (Q := T); [|intros _; by apply t2_modj].
    destruct (_ || _); [|by apply t2_modj]. eapply t2_mono; [apply t2_io; [apply gn_mark|]|done..]. done.
  - destruct (is_aligned h (g_lppb g)).
    + apply t2_io; [apply gn_mark|done].
    + eapply t2_bind with (Q := AL); [apply t2_modj; intros j Hj; exact Hj|]. intros _.
      eapply t2_bind; [apply t2_getj|]. intros c.
      eapply t2_bind with (Q := T).
      * destruct (negb _); [eapply t2_mono; [apply t_dump|done..]|].
        eapply t2_mono; [apply (t2_ret AL T)|done..].
      * intros _. eapply t2_bind with (Q := T); [by apply t2_modj|]. intros _. apply (t2_fail T AL).
Qed.

Lemma t2_getjx {A B} (P Q E : journal -> Prop) (f : journal -> A) (k : A -> MJ B) :
  (forall x, tr2 (fun j => P j /\ f j = x) Q E (k x)) -> tr2 P Q E (bind (getj f) k).
Proof.
  intros H s Eg. unfold bind, getj, gets. destruct (H (f (js_j s)) s Eg) as [H1 H2]. split; [done|].
  intros HP. by apply H2.
Qed.
Definition IT0 (j : journal) : Prop :=
  j_head j = next_upage g (j_ppc j) (j_root j) \/ j_head j = w32 (j_root j + 1).
Lemma IT0_IT j : IT0 j -> IT j. Proof. unfold IT, IT0. tauto. Qed.

Lemma t_finish (E : journal -> Prop) : (forall j, IT0 j -> E j) -> tr2 IT0 IT0 E finish_recovery.
Proof.
  intros HE. unfold finish_recovery. apply t2_getg. eapply t2_bind; [apply t2_getj|]. intros j.
  eapply t2_bind; [apply t2_io; [apply gn_mark|done]|]. intros _.
  eapply t2_bind with (Q := IT0).
  - destruct (j_badmeta j); [apply t2_io; [apply gn_mark|done]|apply t2_ret].
  - intros _. by apply t2_modj.
Qed.

(** The core of [push_meta], for preservation ([P], [E] := IT) and for
    establishment ([P], [E] := T). *)
Lemma t_push_gen (P E : journal -> Prop) m :
  (forall j v, P j -> P (set_buf v j)) -> (forall e, tr2 P IT E (recover_from e)) -> (forall j, IT0 j -> E j) ->
  tr2 P IT E (push_meta m).
Proof.
  intros Hb Hr HE. unfold push_meta. apply t2_getg. apply t2_getjx. intros j0.
  set (Ph := fun j => P j /\ j_head j = j_head j0).
  assert (HPb : forall o b, tr2 Ph Ph E (buf_put o b)).
  { intros o b. apply t2_buf_put. intros j v [H1 H2]. split; [by apply Hb|done]. }
  eapply t2_bind with (Q := Ph).
  { eapply t2_mono; [apply HPb| |done|done]. intros j [H1 <-]. done. }
  intros _. destruct (negb _).
  - apply t2_modj. intros j _. apply IT0_IT. by right.
  - unfold hdr_put_magic, hdr_set_epoch, hdr_set_tail, hdr_set_bb_current, hdr_set_bb_last.
    do 5 (eapply t2_bind; [apply HPb|]; intros _).
    eapply t2_bind; [apply t2_getj|]. intros buf.
    eapply t2_bind; [apply t2_attempt, t2_io; [apply gn_prog|done]|]. intros [e|[]].
    + eapply t2_mono; [apply Hr| |done|done]. by intros j [H1 _].
    + eapply t2_bind with (Q := fun j => j_head j = j_head j0); [apply t2_modj; by intros j [_ H2]|intros _].
      eapply t2_bind with (Q := IT0); [apply t2_modj; intros j H2; left; cbn; by rewrite H2|]. intros _.
      eapply t2_bind; [apply t2_getj|]. intros h.
      eapply t2_bind with (Q := IT0). { destruct (h =? 0); [by apply t2_modj|apply t2_ret]. }
      intros _. eapply t2_bind; [apply t2_getj|]. intros en.
      eapply t2_bind with (Q := IT0). { destruct en; [by apply t_finish|apply t2_ret]. }
      intros _. eapply t2_bind; [apply t2_getj|]. intros j1.
      destruct (negb _).
      * apply t2_modj. intros j Hj. by apply IT0_IT.
      * eapply t2_mono; [apply (t2_ret IT0 E)|done|apply IT0_IT|done].
Qed.

Lemma t_push m : tr2 IT IT IT (push_meta m).
Proof. apply t_push_gen; [done|apply t_recover|apply IT0_IT]. Qed.
Lemma push_est m : tr2 T IT T (push_meta m).
Proof.
  apply t_push_gen; [done| |done]. intros e. eapply t2_mono; [apply recover_est|done|apply AL_IT|done].
Qed.
Lemma t_append i prog m : (forall h n, n_geo (snd (prog h n)) = n_geo n) -> tr2 IT IT IT (append_loop i prog m).
Proof.
  intros Hp. induction i as [|i IH]; cbn [append_loop]; [apply t2_fail|].
  eapply t2_bind with (Q := IT).
  - apply t2_attempt. eapply t2_bind; [apply t_prepare; [apply IT_bbc|apply IT_dirty|apply AL_IT]|]. intros _.
    eapply t2_bind; [apply t2_getj|]. intros h. apply t2_io; [apply Hp|done].
  - intros [e|[]]; [|apply t_push]. eapply t2_bind; [apply t_recover|]. intros _. exact IH.
Qed.
Lemma append_est i prog m : (forall h n, n_geo (snd (prog h n)) = n_geo n) -> tr2 T IT T (append_loop i prog m).
Proof.
  intros Hp. induction i as [|i IH]; cbn [append_loop]; [eapply t2_mono; [apply (t2_fail T IT)|done..]|].
  eapply t2_bind with (Q := T).
  - apply t2_attempt. eapply t2_bind; [apply (t_prepare T); done|]. intros _.
    eapply t2_bind; [apply t2_getj|]. intros h. apply t2_io; [apply Hp|done].
  - intros [e|[]]; [|apply push_est]. eapply t2_bind with (Q := T); [|intros _; exact IH].
    eapply t2_mono; [apply recover_est|done..].
Qed.
Lemma gprog d h n : n_geo (snd ((match d with Some d => nand_prog h d | None => ret tt end : M nand unit) n)) = n_geo n.
Proof. destruct d; [apply gn_prog|done]. Qed.
Lemma t_enqueue d m : tr2 IT IT IT (journal_enqueue d m).
Proof. apply t_append. intros. apply gprog. Qed.
Lemma t_jcopy p m : tr2 IT IT IT (journal_copy p m).
Proof. apply t_append. intros. apply gn_copy. Qed.
Lemma enqueue_est d m : tr2 T IT T (journal_enqueue d m).
Proof. apply append_est. intros. apply gprog. Qed.
Lemma jcopy_est p m : tr2 T IT T (journal_copy p m).
Proof. apply append_est. intros. apply gn_copy. Qed.

(** The other journal functions *)
Lemma t_read_meta p : tr2 IT IT IT (read_meta p).
Proof.
  unfold read_meta. eapply t2_bind; [apply t2_getj|]. intros j.
  destruct (align_eq _ _ _); [apply t2_buf_get|]. destruct (_ && _); (apply t2_io; [apply gn_read|done]).
Qed.
Lemma t_peek_loop i : forall b, tr2 IT IT IT (peek_loop i b).
Proof.
  induction i as [|i IH]; intros b; cbn [peek_loop]; [apply t2_getj|].
  apply t2_getg. eapply t2_bind; [apply t2_getj|]. intros h.
  eapply t2_bind with (Q := IT).
  { destruct (_ =? _); [apply t2_ret|]. eapply t2_bind; [apply t2_io; [apply gn_is_bad|done]|]. intros x. apply t2_ret. }
  intros [].
  - eapply t2_bind with (Q := IT); [by apply t2_modj|]. intros _.
    eapply t2_bind; [apply t2_getj|]. intros tl.
    eapply t2_bind with (Q := IT).
    { destruct (_ =? _); [apply t2_modj; intros j _; by right; left|apply t2_ret]. }
    intros _. apply t2_ret.
  - apply IH.
Qed.
Lemma t_peek : tr2 IT IT IT journal_peek.
Proof.
  unfold journal_peek. apply t2_getg. eapply t2_bind; [apply t2_getj|]. intros h.
  eapply t2_bind; [apply t2_getj|]. intros tl. destruct (h =? tl); [apply t2_ret|].
  destruct (is_aligned _ _); [apply t_peek_loop|apply t2_ret].
Qed.
Lemma t_dequeue : tr2 IT IT IT journal_dequeue.
Proof.
  unfold journal_dequeue. apply t2_getg. eapply t2_bind; [apply t2_getj|]. intros j.
  destruct (_ =? _); [apply t2_ret|].
  eapply t2_bind with (Q := IT); [by apply t2_modj|]. intros _.
  eapply t2_bind with (Q := IT). { destruct (negb _); [by apply t2_modj|apply t2_ret]. }
  intros _. destruct (_ <? _); [apply t2_modj; intros j1 _; by right; left|apply t2_ret].
Qed.
Lemma t_clear_user : tr2 IT IT IT hdr_clear_user.
Proof. unfold hdr_clear_user. apply t2_getg. by apply t2_buf_put. Qed.
Lemma t_clear : tr2 IT IT IT journal_clear.
Proof.
  unfold journal_clear. eapply t2_bind with (Q := IT); [apply t2_modj; intros j _; by right; left|intros _; apply t_clear_user].
Qed.
Lemma t_next_rec : tr2 IT IT IT next_recoverable.
Proof.
  unfold next_recoverable. apply t2_getg. eapply t2_bind; [apply t2_getj|]. intros j.
  destruct (negb _); [apply t2_ret|]. destruct (j_enum j); [apply t2_ret|].
  eapply t2_bind with (Q := IT). { destruct (_ =? _); by apply t2_modj. }
  intros _. apply t2_ret.
Qed.

(** ** Map functions *)
Definition keepI {A} (m : MM A) : Prop := forall s, n_geo (chip s) = g ->
  n_geo (chip (snd (m s))) = g /\
  (IT (js_j (m_js s)) -> match fst (m s) with ST _ => True | _ => IT (js_j (m_js (snd (m s)))) end).
Lemma km_ret {A} (a : A) : keepI (ret a). Proof. intros s E. done. Qed.
Lemma km_fail {A} e : keepI (A:=A) (fail e). Proof. intros s E. done. Qed.
Lemma km_halt {A} e : keepI (A:=A) (halt e). Proof. intros s E. done. Qed.
Lemma km_gets {A} (f : ms -> A) : keepI (gets f). Proof. intros s E. done. Qed.
Lemma km_count f : keepI (modify (fun s => set_count (f s) s)). Proof. intros s E. done. Qed.
Lemma km_count' k : keepI (modify (set_count k)). Proof. intros s E. done. Qed.
Lemma km_bind {A B} (m : MM A) (f : A -> MM B) : keepI m -> (forall a, keepI (f a)) -> keepI (bind m f).
Proof.
  intros Hm Hf s Eg. unfold bind. specialize (Hm s Eg). destruct (m s) as [[a|e|x] s']; cbn in *; auto.
  destruct Hm as [H1 H2]. destruct (Hf a s' H1) as [H3 H4]. split; [done|]. intros HP. apply H4, H2, HP.
Qed.
Lemma km_attempt {A} (m : MM A) : keepI m -> keepI (attempt m).
Proof. intros Hm s Eg. unfold attempt. specialize (Hm s Eg). by destruct (m s) as [[a|e|x] s']. Qed.
Lemma km_jn {A} (m : MJ A) : tr2 IT IT IT m -> keepI (jn m).
Proof.
  intros Hm s Eg. unfold jn, zoom. specialize (Hm (m_js s) Eg). destruct (m (m_js s)) as [[a|e|x] s']; cbn in *; done.
Qed.
Lemma t_getj' {A} (f : journal -> A) : tr2 IT IT IT (getj f). Proof. apply t2_getj. Qed.
Lemma t_getg' : tr2 IT IT IT getg. Proof. intros s Eg. done. Qed.
Lemma t_cookie b : tr2 IT IT IT (cookie_put b). Proof. unfold cookie_put. by apply t2_buf_put. Qed.
Lemma t_ioread p o l : tr2 IT IT IT (io (nand_read p o l)). Proof. apply t2_io; [apply gn_read|done]. Qed.
Create HintDb kp.
Hint Resolve km_ret km_fail km_halt km_gets km_count km_count' t_getj' t_getg' t_cookie t_ioread t_read_meta t_peek t_dequeue t_clear
  t_next_rec t_enqueue t_jcopy : kp.
Ltac km := repeat (cbn beta; first
  [ solve [auto with kp]
  | apply km_bind; [|intros ?]
  | apply km_attempt
  | apply km_jn
  | match goal with |- keepI (match ?x with _ => _ end) => destruct x end ]).
Lemma k_trace_loop k : forall t p m nm, keepI (trace_loop k t p m nm).
Proof. induction k; intros; cbn [trace_loop]; km. Qed.
Hint Resolve k_trace_loop : kp.
Lemma k_trace_path t nm : keepI (trace_path t nm). Proof. unfold trace_path, get_root. km. Qed.
Hint Resolve k_trace_path : kp.
Lemma k_map_find t : keepI (map_find t). Proof. unfold map_find. km. Qed.
Hint Resolve k_map_find : kp.
Lemma k_map_read t : keepI (map_read t). Proof. unfold map_read. km. Qed.
Lemma k_map_clear : keepI map_clear. Proof. unfold map_clear. km. Qed.

Lemma k_ck k : keepI (ck_set_count k). Proof. unfold ck_set_count. km. Qed.
Hint Resolve k_ck : kp.
Lemma k_raw_gc p : keepI (raw_gc p). Proof. unfold raw_gc. km. Qed.
Lemma k_pad_queue : keepI pad_queue. Proof. unfold pad_queue, get_root. km. Qed.
Hint Resolve k_raw_gc k_pad_queue : kp.
Lemma k_try_recover_loop f : forall n, keepI (try_recover_loop f n).
Proof. induction f; intros n; cbn [try_recover_loop]; km. Qed.
Hint Resolve k_try_recover_loop : kp.
Lemma k_try_recover f e : keepI (try_recover f e). Proof. unfold try_recover. km. Qed.
Hint Resolve k_try_recover : kp.
Lemma k_map_gc_loop n f : keepI (map_gc_loop n f). Proof. induction n; cbn [map_gc_loop]; km. Qed.
Hint Resolve k_map_gc_loop : kp.
Lemma k_map_gc f : keepI (map_gc f). Proof. unfold map_gc. km. Qed.
Hint Resolve k_map_gc : kp.
Lemma k_repeat_gc i f : keepI (repeat_gc i f). Proof. induction i; cbn [repeat_gc]; km. Qed.
Hint Resolve k_repeat_gc : kp.
Lemma k_auto_gc f : keepI (auto_gc f). Proof. unfold auto_gc. km. Qed.
Hint Resolve k_auto_gc : kp.
Lemma k_prepare_write f d : keepI (prepare_write f d). Proof. unfold prepare_write. km. Qed.
Hint Resolve k_prepare_write : kp.
Lemma k_write_loop n f d app : (forall m, tr2 IT IT IT (app m)) -> keepI (write_loop n f d app).
Proof. intros Ha. induction n; cbn [write_loop]; km. Qed.
Lemma k_map_write f t d : keepI (map_write f t d).
Proof. unfold map_write. apply k_write_loop. intros. apply t_enqueue. Qed.
Lemma k_map_copy_page f t d : keepI (map_copy_page f t d).
Proof. unfold map_copy_page. apply k_write_loop. intros. apply t_jcopy. Qed.
Lemma k_try_delete t : keepI (try_delete t). Proof. unfold try_delete. km. Qed.
Hint Resolve k_try_delete k_map_copy_page k_map_write k_map_clear k_map_read : kp.
Lemma k_trim_loop n f t : keepI (trim_loop n f t). Proof. induction n; cbn [trim_loop]; km. Qed.
Hint Resolve k_trim_loop : kp.
Lemma k_map_trim f t : keepI (map_trim f t). Proof. unfold map_trim. km. Qed.
Hint Resolve k_map_trim : kp.
Lemma k_copy_sector f a b : keepI (map_copy_sector f a b). Proof. unfold map_copy_sector. km. Qed.
Lemma k_sync_loop n f : keepI (sync_loop n f). Proof. induction n; cbn [sync_loop]; km. Qed.
Hint Resolve k_copy_sector k_sync_loop : kp.
Lemma k_map_sync f : keepI (map_sync f). Proof. unfold map_sync. km. Qed.
Hint Resolve k_map_sync : kp.
Lemma k_exec f o : keepI (exec f o). Proof. destruct o; cbn [exec]; km. Qed.


(** After a successful write or copy. *)
Lemma geo_of {A} (m : MM A) s : keepI m -> n_geo (chip s) = g -> wp m s (fun _ s' => n_geo (chip s') = g).
Proof. intros H E. exact (proj1 (H s E)). Qed.
Lemma write_est n fuel d app : (forall m, tr2 T IT T (app m)) -> (forall m, tr2 IT IT IT (app m)) -> forall s, n_geo (chip s) = g ->
  wp (write_loop n fuel d app) s (fun o s' => n_geo (chip s') = g /\ (o = OK tt -> IT (js_j (m_js s')))).
Proof.
  intros Ha Ha'. induction n as [|n IH]; intros s Eg; cbn [write_loop]; [done|].
  apply wp_bind, wp_gets. apply wp_bind. eapply wp_mono; [apply geo_of; [apply k_prepare_write|done]|].
  intros [m|e|x] s1 E1; [|done|done]. apply wp_bind, wp_attempt. unfold jn. apply wp_zoom. unfold wp at 1.
  destruct (Ha m (m_js s1) E1) as [E2 H2]. destruct (app m (m_js s1)) as [[[]|e|x] s2]; cbn [fst snd] in *.
  - split; [done|]. intros _. by apply H2.
  - apply wp_bind, wp_modify, wp_bind. eapply wp_mono; [apply geo_of; [apply k_try_recover|done]|].
    intros [[]|e'|x] s3 E3; [by apply IH|done|done].
  - done.
Qed.
Lemma map_write_est fuel t d s : n_geo (chip s) = g ->
  wp (map_write fuel t d) s (fun o s' => n_geo (chip s') = g /\ (o = OK tt -> IT (js_j (m_js s')))).
Proof. apply write_est; intros; [apply enqueue_est|apply t_enqueue]. Qed.
Lemma map_copy_page_est fuel p t s : n_geo (chip s) = g ->
  wp (map_copy_page fuel p t) s (fun o s' => n_geo (chip s') = g /\ (o = OK tt -> IT (js_j (m_js s')))).
Proof. apply write_est; intros; [apply jcopy_est|apply t_jcopy]. Qed.
End top.
