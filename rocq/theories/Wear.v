(** Chips on which every operation succeeds: wear levelling and absence of I/O
    errors.  The reasoning follows the code from any state; it does not need
    the invariants of the map. *)
From stdpp Require Import gmap.
From Verif Require Import Base Bytes BytesLemmas Nand Journal MapModel Api Geom.
Local Open Scope Z_scope.

(** Virtual block [k] is erased when the head enters it. *)
Definition ent (NB E b : Z) : Z := (E + NB - 1 - b) / NB.
Lemma ent_S NB E b : 0 < NB -> 0 <= b < NB -> ent NB (E + 1) b = ent NB E b + (if E mod NB =? b then 1 else 0).
Proof.
  intros H Hb. unfold ent.
  replace (E + 1 + NB - 1 - b) with ((E - b) + 1 * NB) by lia. rewrite Z.div_add by lia.
  replace (E + NB - 1 - b) with ((E - b - 1) + 1 * NB) by lia. rewrite Z.div_add by lia.
  pose proof (Z.div_mod E NB ltac:(lia)) as Ed. pose proof (Z.mod_pos_bound E NB ltac:(lia)).
  destruct (Z.eqb_spec (E mod NB) b) as [E1|E1].
  - assert (F1 : (E - b) / NB = E / NB) by (symmetry; apply Z.div_unique with (r := 0); lia).
    assert (F2 : (E - b - 1) / NB = E / NB - 1) by (symmetry; apply Z.div_unique with (r := NB - 1); lia). lia.
  - destruct (Z.lt_ge_cases b (E mod NB)).
    + assert (F1 : (E - b) / NB = E / NB) by (symmetry; apply Z.div_unique with (r := E mod NB - b); lia).
      assert (F2 : (E - b - 1) / NB = E / NB) by (symmetry; apply Z.div_unique with (r := E mod NB - b - 1); lia). lia.
    + assert (F1 : (E - b) / NB = E / NB - 1) by (symmetry; apply Z.div_unique with (r := E mod NB - b + NB); lia).
      assert (F2 : (E - b - 1) / NB = E / NB - 1) by (symmetry; apply Z.div_unique with (r := E mod NB - b - 1 + NB); lia). lia.
Qed.
(** Entries into two blocks since [E0] differ by at most one. *)
Lemma ent_level NB E0 E a b : 0 < NB -> E0 <= E -> 0 <= a < NB -> 0 <= b < NB ->
  (ent NB E a - ent NB E0 a) - (ent NB E b - ent NB E0 b) <= 1.
Proof.
  intros H HE Ha Hb. unfold ent.
  assert (Hd : forall x, x = NB * (x / NB) + x mod NB /\ 0 <= x mod NB < NB).
  { intros x. split; [apply Z.div_mod; lia|apply Z.mod_pos_bound; lia]. }
  pose proof (Hd (E + NB - 1 - a)). pose proof (Hd (E0 + NB - 1 - a)).
  pose proof (Hd (E + NB - 1 - b)). pose proof (Hd (E0 + NB - 1 - b)). nia.
Qed.

Section wear.
Context (g : geo) (c : Z) (Hg : geo_ok g c) (bad : Z -> bool) (e0 : Z -> Z) (E0 : Z)
  (pl : Prop). (* power may be lost *)
Notation PB := (PB g).
Notation PC := (PC c).
Notation NB := (NB g).
Notation TT := (TT g).
Notation ph := (ph g).
Notation user := (user c).
Notation nextv := (nextv c).
Notation "'lem' x" := (x g c Hg) (at level 9, x at level 8, only parsing).
Ltac pose_geo :=
  pose proof (PC_ge _ _ Hg) as HPC4; pose proof (PC_le _ _ Hg) as HPC256;
  pose proof (PB_pos _ _ Hg) as HPB4; pose proof (PB_ge _ _ Hg) as HPBC;
  pose proof (NB_ge _ _ Hg) as HNB8; pose proof (TT_le _ _ Hg) as HTT31;
  pose proof (TT_pos _ _ Hg) as HTTpos.

(** The chip: no failures, nothing unreadable. *)
Record calm (n : nand) : Prop := {
  cm_geo : n_geo n = g;
  cm_orc : forall t o, n_orc n t o = EvOk \/ (pl /\ exists f, n_orc n t o = EvCrash f);
  cm_read : forall p o, n_cell n p <> Junk o;
  cm_bad : forall b, n_bad n b = bad b
}.
(** Virtual blocks before [E] have been erased. *)
Definition worn (n : nand) (E : Z) : Prop := E0 <= E /\
  forall b, 0 <= b < NB -> bad b = false -> n_erases n b - e0 b = ent NB E b - ent NB E0 b.
Definition level (n : nand) : Prop := exists E, worn n E.
Definition halted (x : stop) (n : nand) : Prop := (x = Crash -> pl) /\ level n.

(** The head is at virtual page [hv]; [E] virtual blocks have been entered. *)
Record at_head (s : js) (hv E : Z) : Prop := {
  ah_calm : calm (js_n s);
  ah_ppc : j_ppc (js_j s) = c;
  ah_recov : j_recov (js_j s) = false;
  ah_enum : j_enum (js_j s) = false;
  ah_hv : 0 <= hv;
  ah_user : user hv;
  ah_head : j_head (js_j s) = ph hv;
  ah_worn : worn (js_n s) E
}.
Definition ready (s : js) : Prop := exists hv, at_head s hv (hv / PB + 1).
Definition I (s : js) : Prop := exists hv,
  at_head s hv (if hv mod PB =? 0 then hv / PB else hv / PB + 1).

Definition okerr (e : err) : Prop :=
  e = E_JOURNAL_FULL \/ e = E_TOO_BAD \/ e = E_NOT_FOUND \/ e = E_MAP_FULL.

Definition tj {A} (P : js -> Prop) (Q : A -> Prop) (R : js -> Prop) (m : MJ A) : Prop :=
  forall s, P s -> match m s with
    | (OK a, s') => Q a /\ R s'
    | (ER e, s') => okerr e /\ I s'
    | (ST x, s') => halted x (js_n s')
    end.
Notation tI Q m := (tj I Q I m).
Notation any := (fun _ => True).

Lemma tj_bind {A B} P R S (Q : A -> Prop) (Q' : B -> Prop) (m : MJ A) (f : A -> MJ B) :
  tj P Q R m -> (forall a, Q a -> tj R Q' S (f a)) -> tj P Q' S (bind m f).
Proof.
  intros Hm Hf s Hs. unfold bind. specialize (Hm s Hs). destruct (m s) as [[a|e|x] s']; auto.
  destruct Hm as [H1 H2]. by apply Hf.
Qed.
Lemma tj_ret {A} P (a : A) (Q : A -> Prop) : Q a -> tj P Q P (ret a).
Proof. intros HQ s Hs. done. Qed.
Lemma tj_fail {A} e (Q : A -> Prop) R : okerr e -> tj I Q R (fail e).
Proof. intros HQ s Hs. done. Qed.
Lemma worn_level n E : worn n E -> level n. Proof. by exists E. Qed.
Lemma level_I s : I s -> level (js_n s).
Proof. intros [hv []]. by eexists. Qed.
Lemma level_ready s : ready s -> level (js_n s).
Proof. intros [hv []]. by eexists. Qed.
Lemma halt_I x s : (x = Crash -> pl) -> I s -> halted x (js_n s).
Proof. intros. split; [done|by apply level_I]. Qed.
Lemma halt_w x n E : (x = Crash -> pl) -> worn n E -> halted x n.
Proof. intros. split; [done|by eapply worn_level]. Qed.
Lemma tj_halt {A} x (Q : A -> Prop) R : (x = Crash -> pl) -> tj I Q R (halt x).
Proof. intros Hx s Hs. by apply halt_I. Qed.
Lemma tj_gets {A} P (f : js -> A) : tj P any P (gets f).
Proof. intros s Hs. done. Qed.
Lemma tj_getj {A} P (f : journal -> A) : tj P any P (getj f).
Proof. intros s Hs. done. Qed.
Lemma tj_getg : tj I (fun g' => g' = g) I getg.
Proof. intros s Hs. cbn. split; [|done]. destruct Hs as [hv []]. by apply ah_calm0. Qed.
Lemma tj_recov : tj I (fun b => b = false) I (getj j_recov).
Proof. intros s Hs. cbn. split; [|done]. destruct Hs as [hv []]. done. Qed.
(** Updates that keep the head. *)
Definition stays (f : journal -> journal) : Prop := forall j,
  j_ppc (f j) = j_ppc j /\ j_recov (f j) = j_recov j /\ j_enum (f j) = j_enum j /\ j_head (f j) = j_head j.
Lemma at_stays f s hv E : stays f -> at_head s hv E -> at_head (Js (js_n s) (f (js_j s))) hv E.
Proof. intros Hf []. destruct (Hf (js_j s)) as (F1 & F2 & F3 & F4). split; cbn; congruence. Qed.
Lemma tI_modj f : stays f -> tI any (modj f).
Proof. intros Hf s [hv Hh]. cbn. split; [done|]. exists hv. by apply at_stays. Qed.
Lemma tR_modj f : stays f -> tj ready any ready (modj f).
Proof. intros Hf s [hv Hh]. cbn. split; [done|]. exists hv. by apply at_stays. Qed.
Lemma tI_buf_put o b : tI any (buf_put o b).
Proof.
  intros s [hv Hh]. unfold buf_put. destruct (_ && _); [|eapply halt_w; [done|apply Hh]].
  split; [done|]. exists hv. apply (at_stays (set_buf _)); [intros ?; by split_and!|done].
Qed.
Lemma tR_buf_put o b : tj ready any ready (buf_put o b).
Proof.
  intros s [hv Hh]. unfold buf_put. destruct (_ && _); [|eapply halt_w; [done|apply Hh]].
  split; [done|]. exists hv. apply (at_stays (set_buf _)); [intros ?; by split_and!|done].
Qed.
Lemma tI_buf_get o b : tI any (buf_get o b).
Proof.
  intros s Hs. unfold buf_get. destruct (_ && _); [done|by apply halt_I].
Qed.
Lemma tI_attempt {A} (Q : A -> Prop) (m : MJ A) : tI Q m ->
  tI (fun r => match r with inr a => Q a | inl e => okerr e end) (attempt m).
Proof. intros Hm s Hs. unfold attempt. specialize (Hm s Hs). destruct (m s) as [[a|e|x] s']; auto. Qed.
Lemma tI_weaken {A} P R (Q Q' : A -> Prop) (m : MJ A) : tj P Q R m -> (forall a, Q a -> Q' a) -> tj P Q' R m.
Proof. intros Hm H s Hs. specialize (Hm s Hs). destruct (m s) as [[a|e|x] s']; naive_solver. Qed.

(** NAND reads. *)
Lemma put_id s : put_n (js_n s) s = s. Proof. by destruct s. Qed.
Lemma tP_io {A} (P : js -> Prop) (Hl : forall s, P s -> level (js_n s)) (Hc : forall s, P s -> calm (js_n s)) (m : M nand A) :
  (forall n, calm n -> exists o, m n = (o, n) /\ match o with ER _ => False | ST x => x = UB | _ => True end) ->
  tj P any P (io m).
Proof.
  intros Hm s Hs. unfold io, zoom. destruct (Hm (js_n s) (Hc _ Hs)) as (o & -> & Ho). rewrite put_id.
  destruct o; [done|done|subst; split; [done|by apply Hl]].
Qed.
Lemma calm_I s : I s -> calm (js_n s). Proof. by intros [hv []]. Qed.
Lemma calm_ready s : ready s -> calm (js_n s). Proof. by intros [hv []]. Qed.
Lemma pure_read p o l n : calm n ->
  exists r, nand_read p o l n = (r, n) /\ match r with ER _ => False | ST x => x = UB | _ => True end.
Proof.
  intros Hn. unfold nand_read. repeat (destruct (negb _); [by eexists|]).
  destruct (n_cell n p) eqn:E; cbn; [by eexists..|]. exfalso. by eapply (cm_read _ Hn p).
Qed.
Lemma tI_read p o l : tI any (io (nand_read p o l)).
Proof. apply tP_io; [apply level_I|apply calm_I|]. intros. by apply pure_read. Qed.
Lemma tI_is_bad b : tI any (io (nand_is_bad b)).
Proof. apply tP_io; [apply level_I|apply calm_I|]. intros. unfold nand_is_bad. destruct (block_ok _ _); by eexists. Qed.
Lemma tI_is_free b : tI any (io (nand_is_free b)).
Proof. apply tP_io; [apply level_I|apply calm_I|]. intros. unfold nand_is_free. destruct (page_ok _ _); by eexists. Qed.

(** Programs: success or undefined behaviour. *)
Lemma prog_cases p d n : calm n ->
  (exists x, (forall o, x <> Junk o) /\ nand_prog p d n = (OK tt, set_cells (upd (n_cell n) p x) (bump_tick n))) \/
  (exists x n', nand_prog p d n = (ST x, n') /\ (x = Crash -> pl) /\ n_erases n' = n_erases n).
Proof.
  intros Hn. unfold nand_prog.
  repeat (match goal with |- context [if ?b then _ else _] => destruct b end; [right; by eexists _, _|]).
  destruct (cm_orc _ Hn (n_tick n) (OpProg p)) as [-> |[Hpl [f ->]]].
  - left. exists (written (n_geo n) d). split; [|done]. unfold written. by destruct (_ && _).
  - right. eexists _, _. split; [done|]. split; [done|]. by destruct (f p).
Qed.
Lemma calm_put p x n : calm n -> (forall o, x <> Junk o) -> calm (set_cells (upd (n_cell n) p x) (bump_tick n)).
Proof.
  intros [] Hx. split; cbn; auto. intros q. unfold upd. by destruct (q =? p).
Qed.
Lemma worn_put p x n E : worn n E -> worn (set_cells (upd (n_cell n) p x) (bump_tick n)) E.
Proof. done. Qed.
Definition progs (m : M nand unit) : Prop := forall n, calm n ->
  (exists n', m n = (OK tt, n') /\ calm n' /\ forall E, worn n E -> worn n' E) \/
  (exists x n', m n = (ST x, n') /\ (x = Crash -> pl) /\ forall E, worn n E -> worn n' E).
Lemma progs_prog p d : progs (nand_prog p d).
Proof.
  intros n Hn. destruct (prog_cases p d n Hn) as [(x & Hx & E)|(x & n' & E & Hx & He)]; [left|right].
  2:{ exists x, n'. split_and!; auto. intros E' [H1 H2]. split; [done|]. by rewrite He. }
  eexists. split; [exact E|]. split; [by apply calm_put|done].
Qed.
Lemma progs_ret : progs (ret tt).
Proof. intros n Hn. left. by exists n. Qed.
Lemma progs_copy a b : progs (nand_copy a b).
Proof.
  intros n Hn. unfold nand_copy, bind, gets.
  destruct (pure_read a 0 (page_size (n_geo n)) n Hn) as (r & -> & Hr). destruct r; [|done|].
  - by apply progs_prog.
  - right. eexists _, n. split; [done|]. split; [by subst|done].
Qed.
Lemma tR_progs m : progs m -> tj ready any ready (io m).
Proof.
  intros Hm s [hv Hh]. unfold io, zoom. destruct (Hm (js_n s) (ah_calm _ _ _ Hh)) as [(n' & E & Hc & Hw)|(x & n' & E & Hx & Hw)]; rewrite E.
  - split; [done|]. exists hv. destruct Hh. split; auto.
  - eapply halt_w; [done|]. apply Hw, Hh.
Qed.

(** ** Journal functions that leave the head alone *)
Create HintDb wr.
Hint Extern 1 (_ = Crash -> pl) => discriminate : wr.
Hint Extern 1 (stays _) => (intros ?; split_and!; reflexivity) : wr.
Hint Extern 1 (okerr _) => (unfold okerr; tauto) : wr.
Hint Resolve tj_fail tj_halt tj_gets tj_getj tI_modj tI_buf_put tI_buf_get tI_read tI_is_bad tI_is_free : wr.
Ltac wr := repeat (cbn beta; first
  [ solve [auto with wr]
  | apply tj_ret; exact Logic.I
  | eapply tj_bind; [eapply tj_getg|intros ? ->]
  | eapply (tj_bind _ I _ any); [solve [auto with wr]|intros ? _]
  | match goal with |- tj _ _ _ (bind (attempt _) _) =>
      eapply tj_bind; [eapply tI_attempt; solve [auto with wr]|intros [?|?] ?] end
  | match goal with |- tj _ _ _ (bind (if ?x then _ else _) _) =>
      eapply (tj_bind _ I _ any); [destruct x; wr|intros ? _] end
  | match goal with |- tj _ _ _ (match ?x with _ => _ end) => destruct x end ]).
Lemma w_read_meta p : tI any (read_meta p). Proof. unfold read_meta. wr. Qed.
Lemma w_peek_loop n : forall b, tI any (peek_loop n b).
Proof. induction n; intros b; cbn [peek_loop]; wr. Qed.
Hint Resolve w_read_meta w_peek_loop : wr.
Lemma w_peek : tI any journal_peek. Proof. unfold journal_peek. wr. Qed.
Lemma w_dequeue : tI any journal_dequeue. Proof. unfold journal_dequeue. wr. Qed.
Lemma w_clear : tI any journal_clear. Proof. unfold journal_clear, hdr_clear_user. wr. Qed.
Lemma w_cookie_put b : tI any (cookie_put b). Proof. unfold cookie_put. wr. Qed.
Hint Resolve w_peek w_dequeue w_clear w_cookie_put : wr.

(** ** Appending *)
Lemma worn_bad n hv : calm n -> bad (hv mod NB) = true -> worn n hv -> worn n (hv + 1).
Proof.
  intros Hc Hb [H1 H2]. pose_geo. split; [lia|]. intros b Hr Hbb. rewrite H2 by done.
  rewrite ent_S by lia. destruct (Z.eqb_spec (hv mod NB) b) as [<-|]; [congruence|lia].
Qed.
Definition aligned_head (s : js) : Prop := exists hv, at_head s hv (hv / PB) /\ hv mod PB = 0.
Lemma aligned_I s : aligned_head s -> I s.
Proof. intros (hv & H & E). exists hv. by rewrite E. Qed.

Lemma skip_bad s hv : at_head s hv (hv / PB) -> hv mod PB = 0 -> bad ((hv / PB) mod NB) = true ->
  match skip_block s with
  | (OK _, s') => aligned_head s'
  | (ER e, s') => okerr e /\ I s'
  | (ST _, s') => False
  end.
Proof.
  intros Hh Ha Hb. pose_geo. pose proof Hh as [Hc Hp Hr He H0 Hu Hhd Hw].
  unfold skip_block, bind, getg, getj, gets. rewrite (cm_geo _ Hc), Hhd.
  rewrite !(lem shiftr_blk), (lem ph_blk), (lem next_block_ph).
  destruct (_ =? _).
  { cbn. split; [unfold okerr; tauto|]. apply aligned_I. by exists hv. }
  unfold modj, modify. cbn [js_j js_n set_head j_head].
  rewrite (lem shiftl_blk). rewrite <-(lem blk_start_ph).
  pose proof (lem ph_range ((hv / PB + 1) * PB)) as Hrg. rewrite w32_small by lia.
  pose proof (lem blk_start (hv / PB + 1)) as [E1 E2].
  assert (Hgoal : forall j', j_ppc j' = c -> j_recov j' = false -> j_enum j' = false ->
    j_head j' = ph ((hv / PB + 1) * PB) -> aligned_head (Js (js_n s) j')).
  { intros j' F1 F2 F3 F4. exists ((hv / PB + 1) * PB). split; [|done].
    split; cbn; auto.
    - pose proof (Z.div_pos hv PB H0 ltac:(lia)). nia.
    - apply (lem blk_start_user).
    - rewrite E1. by apply worn_bad. }
  destruct (_ =? 0); cbn; by apply Hgoal.
Qed.

Lemma worn_erase n hv f : calm n -> block_ok g (hv mod NB) = true -> worn n hv ->
  worn (set_cells (erase_cells g (hv mod NB) f (n_cell (bump_tick n))) (bump_erase (hv mod NB) (bump_tick n))) (hv + 1).
Proof.
  intros Hc Hb [H1 H2]. pose_geo. split; [lia|]. intros b Hr Hbb. specialize (H2 b Hr Hbb).
  rewrite ent_S by lia. cbn [n_erases bump_erase set_cells bump_tick]. unfold upd.
  rewrite (Z.eqb_sym b). destruct (Z.eqb_spec (hv mod NB) b) as [->|]; lia.
Qed.

Lemma w_prepare_loop i : tj aligned_head any ready (prepare_head_loop i).
Proof.
  induction i as [|i IH]; cbn [prepare_head_loop].
  { intros s Hs. cbn. split; [unfold okerr; tauto|]. by apply aligned_I. }
  intros s (hv & Hh & Ha). pose_geo. pose proof Hh as [Hc Hp Hr He H0 Hu Hhd Hw].
  unfold bind at 1. unfold getg, gets. unfold bind at 1. unfold getj, gets.
  rewrite (cm_geo _ Hc), Hhd, (lem shiftr_blk), (lem ph_blk).
  unfold bind at 1. unfold io at 1, zoom. unfold nand_is_bad. rewrite (cm_geo _ Hc).
  destruct (block_ok g ((hv / PB) mod NB)) eqn:Hbo.
  2:{ rewrite put_id. by eapply halt_w. }
  rewrite (cm_bad _ Hc), put_id. destruct (bad ((hv / PB) mod NB)) eqn:Hb.
  - unfold bind at 1. unfold modj, modify. unfold bind at 1.
    set (s1 := Js _ _). assert (H1 : at_head s1 hv (hv / PB)).
    { apply (at_stays (set_bbc _)); [intros ?; by split_and!|done]. }
    pose proof (skip_bad s1 hv H1 Ha Hb) as Hs. destruct (skip_block s1) as [[a|e|x] s2].
    + by apply IH.
    + done.
    + done.
  - unfold io, zoom. unfold nand_erase. rewrite (cm_geo _ Hc), (cm_bad _ Hc), Hb, Hbo. cbn [negb].
    destruct (cm_orc _ Hc (n_tick (js_n s)) (OpErase ((hv / PB) mod NB))) as [-> |[Hpl [f ->]]].
    2:{ cbn [fst snd put_n js_n]. rewrite (cm_geo (bump_erase _ (bump_tick (js_n s)))) by (destruct Hc; by split).
        eapply (halt_w _ _ (hv / PB + 1)); [done|]. by apply worn_erase. }
    rewrite (cm_geo (bump_erase _ (bump_tick (js_n s)))) by (destruct Hc; by split).
    split; [done|]. exists hv. split; cbn [js_j js_n put_n]; auto; [|by apply worn_erase].
    destruct Hc. split; cbn; auto. intros p. unfold erase_cells. destruct (_ =? _); [done|auto].
Qed.

Lemma w_prepare : tj I any ready prepare_head.
Proof.
  intros s [hv Hh]. pose proof Hh as [Hc Hp Hr He H0 Hu Hhd Hw].
  unfold prepare_head. unfold bind at 1. unfold getg, gets. unfold bind at 1. unfold getj, gets.
  destruct (_ && _).
  { cbn. split; [unfold okerr; tauto|]. by exists hv. }
  unfold bind at 1. unfold modj, modify. rewrite (cm_geo _ Hc), Hhd, (lem aligned_blk), (lem ph_off).
  set (s1 := Js _ _). assert (H1 : at_head s1 hv (if hv mod PB =? 0 then hv / PB else hv / PB + 1)).
  { apply (at_stays (set_dirty _)); [intros ?; by split_and!|done]. }
  destruct (Z.eqb_spec (hv mod PB) 0) as [Ha|Ha]; cbn [negb].
  - apply w_prepare_loop. by exists hv.
  - cbn. split; [done|]. by exists hv.
Qed.

Lemma recover_ok e s : okerr e -> recover_from e s = (ER e, s).
Proof.
  intros He. unfold recover_from, bind, getg, getj, gets. rewrite decide_True; [done|].
  unfold okerr in He. naive_solver.
Qed.

Lemma next_worn hv n : user hv -> worn n (hv / PB + 1) ->
  worn n (if nextv hv mod PB =? 0 then nextv hv / PB else nextv hv / PB + 1).
Proof.
  intros Hu Hw. pose_geo. destruct (lem nextv_blk hv Hu) as [[-> ->]|(-> & -> & _)]; [|done].
  pose proof (lem off_range hv). pose proof (nextv_gt c hv). destruct (Z.eqb_spec (hv mod PB + (nextv hv - hv)) 0); [lia|done].
Qed.

Lemma tR_try_prog m : progs m -> tj ready (fun r => r = inr tt) ready (attempt (io m)).
Proof.
  intros Hm s Hs. unfold attempt. pose proof Hs as [hv Hh].
  unfold io, zoom. destruct (Hm (js_n s) (ah_calm _ _ _ Hh)) as [(n' & E & Hc & Hw)|(x & n' & E & Hx & Hw)]; rewrite E.
  - split; [done|]. exists hv. destruct Hh. split; auto.
  - eapply halt_w; [done|]. apply Hw, Hh.
Qed.

(** Moving the head to the next page. *)
Definition moves (s : js) (j' : journal) : Prop :=
  j_ppc j' = j_ppc (js_j s) /\ j_recov j' = j_recov (js_j s) /\ j_enum j' = j_enum (js_j s).
Lemma move_I s hv j' : at_head s hv (hv / PB + 1) -> moves s j' -> j_head j' = ph (nextv hv) -> I (Js (js_n s) j').
Proof.
  intros [Hc Hp Hr He H0 Hu Hhd Hw] (F1 & F2 & F3) F4. exists (nextv hv).
  pose proof (nextv_gt c hv).
  split; cbn; try congruence; [lia|by apply (lem nextv_user)|by apply next_worn].
Qed.

Lemma w_push_meta meta : tj ready any I (push_meta meta).
Proof.
  unfold push_meta. intros s Hs. unfold bind at 1. unfold getg, gets. unfold bind at 1. unfold getj, gets.
  revert s Hs. intros s0 Hs0. pose proof Hs0 as [hv0 Hh0].
  assert (E0' : exists hv, at_head s0 hv (hv / PB + 1) /\ n_geo (js_n s0) = g /\ j_head (js_j s0) = ph hv /\
     j_ppc (js_j s0) = c /\ user hv /\ 0 <= hv).
  { exists hv0. split_and!; apply Hh0. }
  destruct E0' as (hv & Hh & -> & -> & -> & Hu & H0). pose_geo.
  set (rdy := fun s' => at_head s' hv (hv / PB + 1)).
  assert (Hput : forall o b, tj rdy any rdy (buf_put o b)).
  { intros o b s' Hs'. unfold buf_put. destruct (_ && _); [|eapply halt_w; [done|apply Hs']].
    split; [done|]. apply (at_stays (set_buf _)); [intros ?; by split_and!|done]. }
  assert (Hprog : forall p d, tj rdy (fun r => r = inr tt) rdy (attempt (io (nand_prog p d)))).
  { intros p d s' Hs'. unfold attempt, io, zoom. destruct (progs_prog p d (js_n s') (ah_calm _ _ _ Hs')) as [(n' & E & Hc & Hw)|(x & n' & E & Hx & Hw)]; rewrite E.
    - split; [done|]. destruct Hs'. split; auto.
    - eapply halt_w; [done|]. apply Hw, Hs'. }
  pose proof (lem ph_range hv) as Hrg.
  assert (Hal : is_aligned (w32 (ph hv + 2)) c = ((hv + 2) mod PC =? 0)).
  { rewrite w32_small by lia. rewrite (lem aligned_grp).
    rewrite <-Zplus_mod_idemp_l, (lem ph_slot), Zplus_mod_idemp_l. done. }
  rewrite Hal.
  match goal with |- match ?m s0 with _ => _ end => assert (H : tj rdy any I m); [|exact (H s0 Hh)] end.
  eapply tj_bind; [apply Hput|intros _ _].
  destruct (Z.eqb_spec ((hv + 2) mod PC) 0) as [Ez|Ez]; cbn [negb].
  - do 5 (eapply tj_bind; [apply Hput|intros _ _]).
    eapply (tj_bind _ rdy _ any); [intros s' Hs'; done|intros buf _].
    eapply tj_bind; [apply Hprog|intros ? ->].
    intros s1 Hs1. unfold bind, modj, modify, getj, gets. cbn [js_n js_j set_dirty set_root set_head j_head j_ppc j_enum].
    pose proof Hs1 as [Hc Hp Hr He _ _ Hhd Hw]. rewrite Hhd, Hp, (lem next_upage_ph) by done.
    assert (Hgo : forall j', moves s1 j' -> j_head j' = ph (nextv hv) -> I (Js (js_n s1) j')).
    { intros j' ? ?. by eapply move_I. }
    destruct (_ =? 0).
    + unfold roll_stats, modj, modify, roll_stats_j.
      cbn [js_n js_j set_epoch set_bbc set_bbl set_dirty set_root set_head j_head j_ppc j_enum j_recov ret].
      rewrite He. cbn [js_n js_j set_epoch set_bbc set_bbl set_dirty set_root set_head j_head j_ppc j_enum j_recov ret].
      rewrite Hr. cbn. split; [done|]. by apply Hgo.
    + cbn [js_n js_j set_epoch set_bbc set_bbl set_dirty set_root set_head j_head j_ppc j_enum j_recov ret].
      rewrite He. cbn [js_n js_j set_epoch set_bbc set_bbl set_dirty set_root set_head j_head j_ppc j_enum j_recov ret].
      rewrite Hr. cbn. split; [done|]. by apply Hgo.
  - intros s1 Hs1. unfold modj, modify. split; [done|]. eapply move_I; [exact Hs1|by split_and!|].
    cbn [js_n js_j set_root set_head j_head]. rewrite (ah_head _ _ _ Hs1).
    destruct (nextv_cases _ _ Hg hv Hu) as [(Hsl & Enx & Eg & Es)|(Hsl & Enx & Eg & Es)].
    + rewrite Enx. rewrite (lem ph_add).
      * apply w32_small. lia.
      * pose proof (lem off_range hv). pose proof (lem grp_blk _ _ Eg) as Eb.
        pose proof (lem v_decomp hv). pose proof (lem v_decomp (hv + 1)). pose proof (lem off_range (hv + 1)).
        rewrite Enx in Eb. rewrite Eb in *. lia.
    + exfalso. apply Ez. rewrite Enx in Es. done.
Qed.

Lemma w_append i prog meta : (forall h, progs (prog h)) -> tI any (append_loop i prog meta).
Proof.
  intros Hp. destruct i as [|i]; cbn [append_loop].
  { intros s Hs. cbn. split; [unfold okerr; tauto|done]. }
  intros s Hs. unfold bind at 1. unfold attempt. unfold bind at 1.
  pose proof (w_prepare s Hs) as H. destruct (prepare_head s) as [[a|e|x] s1].
  - destruct H as [_ H]. unfold bind at 1. unfold getj, gets.
    pose proof (tR_progs _ (Hp (j_head (js_j s1))) s1 H) as H2.
    pose proof (tR_try_prog _ (Hp (j_head (js_j s1))) s1 H) as H3. unfold attempt in H3.
    destruct (io (prog (j_head (js_j s1))) s1) as [[b|e|x] s2].
    + destruct H2 as [_ H2]. by apply w_push_meta.
    + by destruct H3 as [? _].
    + done.
  - destruct H as [He H]. unfold bind at 1. rewrite recover_ok by done. done.
  - done.
Qed.
Lemma w_enqueue d m : tI any (journal_enqueue d m).
Proof. apply w_append. intros h. destruct d; [apply progs_prog|apply progs_ret]. Qed.
Lemma w_jcopy p m : tI any (journal_copy p m).
Proof. apply w_append. intros h. apply progs_copy. Qed.
Hint Resolve w_enqueue w_jcopy : wr.

(** ** The map *)
Definition tm {A} (Q : A -> Prop) (m : MM A) : Prop := forall s, I (m_js s) ->
  match m s with
  | (OK a, s') => Q a /\ I (m_js s')
  | (ER e, s') => okerr e /\ I (m_js s')
  | (ST x, s') => halted x (chip s')
  end.
Lemma tm_bind {A B} (Q : A -> Prop) (Q' : B -> Prop) (m : MM A) (f : A -> MM B) :
  tm Q m -> (forall a, Q a -> tm Q' (f a)) -> tm Q' (bind m f).
Proof.
  intros Hm Hf s Hs. unfold bind. specialize (Hm s Hs). destruct (m s) as [[a|e|x] s']; auto.
  destruct Hm as [H1 H2]. by apply Hf.
Qed.
Lemma tm_ret {A} (a : A) : tm any (ret a). Proof. intros s Hs. done. Qed.
Lemma tm_fail {A} e (Q : A -> Prop) : okerr e -> tm Q (fail e). Proof. intros He s Hs. done. Qed.
Lemma tm_halt {A} x (Q : A -> Prop) : (x = Crash -> pl) -> tm Q (halt x). Proof. intros Hx s Hs. by apply halt_I. Qed.
Lemma tm_gets {A} (f : ms -> A) : tm any (gets f). Proof. intros s Hs. done. Qed.
Lemma tm_count f : tm any (modify (fun s => set_count (f s) s)). Proof. intros s Hs. done. Qed.
Lemma tm_count' k : tm any (modify (set_count k)). Proof. intros s Hs. done. Qed.
Lemma tm_jn {A} (Q : A -> Prop) (m : MJ A) : tI Q m -> tm Q (jn m).
Proof.
  intros Hm s Hs. unfold jn, zoom. specialize (Hm (m_js s) Hs).
  destruct (m (m_js s)) as [[a|e|x] s']; done.
Qed.
Lemma tm_attempt {A} (m : MM A) : tm any m ->
  tm (fun r => match r with inr a => True | inl e => okerr e end) (attempt m).
Proof. intros Hm s Hs. unfold attempt. specialize (Hm s Hs). destruct (m s) as [[a|e|x] s']; auto. Qed.
Hint Resolve tm_ret tm_fail tm_halt tm_gets tm_count tm_count' : wr.
Hint Extern 5 (tm _ (jn _)) => (apply tm_jn; solve [auto with wr]) : wr.

Lemma tI_getg' : tI any getg. Proof. eapply tI_weaken; [apply tj_getg|done]. Qed.
Hint Resolve tI_getg' : wr.
Ltac wm := repeat (cbn beta; first
  [ solve [auto with wr]
  | eapply (tm_bind any); [solve [auto with wr]|intros ? _]
  | match goal with |- tm _ (bind (attempt _) _) =>
      eapply tm_bind; [eapply tm_attempt; first [solve [auto with wr] | wm]|intros [?|?] ?] end
  | match goal with |- tm _ (bind (match ?x with _ => _ end) _) =>
      eapply (tm_bind any); [destruct x; wm|intros ? _] end
  | match goal with |- tm _ (match ?x with _ => _ end) => destruct x end ]).
Lemma w_trace_loop k : forall t p m nm, tm any (trace_loop k t p m nm).
Proof. induction k; intros; cbn [trace_loop]; wm. Qed.
Hint Resolve w_trace_loop : wr.
Lemma w_trace_path t nm : tm any (trace_path t nm). Proof. unfold trace_path, get_root. wm. Qed.
Hint Resolve w_trace_path : wr.
Lemma w_map_find t : tm any (map_find t). Proof. unfold map_find. wm. Qed.
Hint Resolve w_map_find : wr.
Lemma w_map_read t : tm any (map_read t). Proof. unfold map_read. wm. Qed.
Lemma w_map_clear : tm any map_clear. Proof. unfold map_clear. wm. Qed.
Lemma w_ck k : tm any (ck_set_count k). Proof. unfold ck_set_count. wm. Qed.
Hint Resolve w_ck w_map_read w_map_clear : wr.
Lemma w_raw_gc p : tm any (raw_gc p). Proof. unfold raw_gc. wm. Qed.
Lemma w_pad_queue : tm any pad_queue. Proof. unfold pad_queue, get_root. wm. Qed.
Lemma w_try_recover f e : okerr e -> tm any (try_recover f e).
Proof. intros He. unfold try_recover. rewrite decide_True by (unfold okerr in He; naive_solver). by apply tm_fail. Qed.
Hint Resolve w_raw_gc w_pad_queue w_try_recover : wr.
Lemma w_map_gc_loop n f : tm any (map_gc_loop n f). Proof. induction n; cbn [map_gc_loop]; wm. Qed.
Hint Resolve w_map_gc_loop : wr.
Lemma w_map_gc f : tm any (map_gc f). Proof. unfold map_gc. wm. Qed.
Hint Resolve w_map_gc : wr.
Lemma w_repeat_gc i f : tm any (repeat_gc i f). Proof. induction i; cbn [repeat_gc]; wm. Qed.
Hint Resolve w_repeat_gc : wr.
Lemma w_auto_gc f : tm any (auto_gc f). Proof. unfold auto_gc. wm. Qed.
Hint Resolve w_auto_gc : wr.
Lemma w_prepare_write f d : tm any (prepare_write f d). Proof. unfold prepare_write. wm. Qed.
Hint Resolve w_prepare_write : wr.
Lemma w_write_loop n f d app : (forall m, tI any (app m)) -> tm any (write_loop n f d app).
Proof. intros Ha. induction n; cbn [write_loop]; wm. Qed.
Lemma w_map_write f t d : tm any (map_write f t d).
Proof. unfold map_write. apply w_write_loop. intros. apply w_enqueue. Qed.
Lemma w_map_copy_page f t d : tm any (map_copy_page f t d).
Proof. unfold map_copy_page. apply w_write_loop. intros. apply w_jcopy. Qed.
Lemma w_try_delete t : tm any (try_delete t). Proof. unfold try_delete. wm. Qed.
Hint Resolve w_try_delete w_map_write w_map_copy_page : wr.
Lemma w_trim_loop n f t : tm any (trim_loop n f t). Proof. induction n; cbn [trim_loop]; wm. Qed.
Hint Resolve w_trim_loop : wr.
Lemma w_map_trim f t : tm any (map_trim f t). Proof. unfold map_trim. wm. Qed.
Hint Resolve w_map_trim : wr.
Lemma w_copy_sector f a b : tm any (map_copy_sector f a b). Proof. unfold map_copy_sector. wm. Qed.
Lemma w_sync_loop n f : tm any (sync_loop n f). Proof. induction n; cbn [sync_loop]; wm. Qed.
Hint Resolve w_copy_sector w_sync_loop : wr.
Lemma w_map_sync f : tm any (map_sync f). Proof. unfold map_sync. wm. Qed.
Hint Resolve w_map_sync : wr.
Lemma w_exec f o : tm any (exec f o). Proof. destruct o; cbn [exec]; wm. Qed.

Lemma w_run f gcr junk ops : forall s, I (m_js s) ->
  Forall (fun r => match r with ST _ => False | _ => True end) (fst (run f gcr junk (map HOp ops) s)) ->
  I (m_js (snd (run f gcr junk (map HOp ops) s))).
Proof.
  induction ops as [|o ops IH]; intros s Hs; cbn [map run]; [done|].
  pose proof (w_exec f o s Hs) as He. destruct (exec f o s) as [[a|e|[]] s1].
  - destruct He as [_ He]. specialize (IH s1 He). destruct (run f gcr junk (map HOp ops) s1) as [rs s2]. cbn [fst snd] in *.
    inversion 1; subst. auto.
  - destruct He as [_ He]. specialize (IH s1 He). destruct (run f gcr junk (map HOp ops) s1) as [rs s2]. cbn [fst snd] in *.
    inversion 1; subst. auto.
  - destruct (run _ _ _ _ _) as [rs s2]. cbn [fst snd]. inversion 1; done.
  - cbn [fst snd]. inversion 1; done.
  - cbn [fst snd]. inversion 1; done.
Qed.

Lemma level_diff n a b : level n -> 0 <= a < NB -> 0 <= b < NB -> bad a = false -> bad b = false ->
  (n_erases n a - e0 a) - (n_erases n b - e0 b) <= 1.
Proof.
  intros (E & H1 & H2) Ha Hb Fa Fb. rewrite !H2 by done. pose_geo. apply ent_level; lia.
Qed.
End wear.
