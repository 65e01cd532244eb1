(** The pages of a journal as a chain of positions. *)
From stdpp Require Import gmap.
From Verif Require Import Base Bytes BytesLemmas Nand Journal Geom Tree Inv JSpec.
Local Open Scope Z_scope.

(** ** Unspecified pages *)
Lemma blank_nil : blank []. Proof. by constructor. Qed.
Lemma blank_app a b : blank a -> blank b -> blank (a ++ b).
Proof. intros. by apply Forall_app. Qed.
Lemma blank_app_inv a b : blank (a ++ b) -> blank a /\ blank b.
Proof. apply Forall_app. Qed.
Lemma blank_rev a : blank a -> blank (rev a).
Proof. unfold blank. rewrite !Forall_forall. intros H x Hx. apply H. apply elem_of_list_In, in_rev, elem_of_list_In, Hx. Qed.
Lemma strip_blank a l : blank a -> strip (a ++ l) = strip l.
Proof. induction 1 as [|e a He Ha IH]; [done|]. cbn. by rewrite He. Qed.
Lemma strip_all a : blank a -> strip a = [].
Proof. intros H. rewrite <-(app_nil_r a). by rewrite strip_blank. Qed.
Lemma strip_split l : exists a, blank a /\ l = a ++ strip l.
Proof.
  induction l as [|[x|] l (a & Ha & E)].
  - exists []. split; [constructor|done].
  - exists []. split; [constructor|done].
  - exists (None :: a). split; [by constructor|]. cbn. by rewrite <-E.
Qed.
Lemma strip_app l b : blank b -> strip (l ++ b) = strip l ++ (if strip l then [] else b).
Proof.
  intros Hb. induction l as [|[x|] l IH]; cbn.
  - by apply strip_all.
  - done.
  - exact IH.
Qed.
Lemma core_pre a l : blank a -> core (a ++ l) = core l.
Proof. intros H. unfold core. by rewrite strip_blank. Qed.
Lemma core_post b l : blank b -> core (l ++ b) = core l.
Proof.
  intros H. unfold core. rewrite strip_app by done. destruct (strip l) as [|e r]; [done|].
  rewrite rev_app_distr, strip_blank; [done|by apply blank_rev].
Qed.
Lemma core_ends a b l : blank a -> blank b -> core (a ++ l ++ b) = core l.
Proof. intros. rewrite core_pre, core_post; done. Qed.

Section chain.
Context (g : geo) (c : Z) (Hg : geo_ok g c).
Notation PB := (PB g).
Notation PC := (PC c).
Notation NB := (NB g).
Notation TT := (TT g).
Notation ph := (ph g).
Notation user := (user c).
Notation nextv := (nextv c).
Notation "'lem' x" := (x g c Hg) (at level 9, x at level 8, only parsing).

(** [chain bad K lim v Q]: from position [v] up to [lim] the journal holds the
    pages [Q]; blocks marked bad are left out when they are entered at their
    first page. *)
Inductive chain (bad : Z -> bool) (K : kmap) (lim : Z) : Z -> list entry -> Prop :=
| ch_nil v : lim <= v -> chain bad K lim v []
| ch_page v e Q : v < lim -> user v -> (forall x, e = Some x -> K !! ph v = Some x) ->
    chain bad K lim (nextv v) Q -> chain bad K lim v (e :: Q)
| ch_bad v Q : v < lim -> v mod PB = 0 -> bad (v / PB) = true ->
    chain bad K lim ((v / PB + 1) * PB) Q -> chain bad K lim v Q.

Lemma chain_end bad K lim v Q : chain bad K lim v Q -> lim <= v -> Q = [].
Proof. destruct 1; [done|lia..]. Qed.

Lemma next_blk_gt v : v < (v / PB + 1) * PB.
Proof. apply (lem blk_lt_start). lia. Qed.

Lemma in_blk v w : v mod PB = 0 -> v <= w < (v / PB + 1) * PB -> w / PB = v / PB.
Proof.
  intros Ha [H1 H2]. pose proof (lem blk_le v w H1).
  destruct (Z.le_gt_cases (w / PB) (v / PB)); [lia|].
  pose proof (lem blk_ge_start w (v / PB + 1)) as H4. lia.
Qed.
Lemma in_blk_off v w : v mod PB = 0 -> v < w -> w / PB = v / PB -> w mod PB <> 0.
Proof. intros Ha Hlt E. pose proof (lem v_decomp v). pose proof (lem v_decomp w). rewrite E in *. lia. Qed.

(** The chain continues at its limit. *)
Lemma chain_app bad bad' K K' lim lim' v Q Q2 :
  chain bad K lim v Q -> v <= lim -> user lim -> (lim mod PB <> 0 -> bad (lim / PB) = false) ->
  (forall p x, K !! p = Some x -> K' !! p = Some x) -> (forall b, bad b = true -> bad' b = true) ->
  lim <= lim' -> chain bad' K' lim' lim Q2 -> chain bad' K' lim' v (Q ++ Q2).
Proof.
  intros H Hle Hu Hgd HK Hbad Hll H2. revert Hle. induction H as [v Hv|v e Q Hv Huv He H IH|v Q Hv Ha Hb H IH]; intros Hle.
  - assert (v = lim) as -> by lia. done.
  - cbn. apply ch_page; [lia|done|eauto|]. apply IH. by apply (lem nextv_next).
  - apply ch_bad; [lia|done|auto|]. apply IH.
    destruct (Z.le_gt_cases ((v / PB + 1) * PB) lim) as [|Hlt]; [done|]. exfalso.
    pose proof (in_blk v lim Ha ltac:(lia)) as E.
    assert (Hf : bad (lim / PB) = false) by (apply Hgd; by eapply in_blk_off).
    congruence.
Qed.

Lemma chain_mono bad bad' K K' lim v Q : chain bad K lim v Q ->
  (forall p x, K !! p = Some x -> K' !! p = Some x) -> (forall b, bad b = true -> bad' b = true) ->
  chain bad' K' lim v Q.
Proof. intros H HK Hb. induction H; [by apply ch_nil|apply ch_page; eauto|apply ch_bad; auto]. Qed.

(** Unspecified pages in front. *)
Lemma chain_left bad K lim w u Q : w <= u -> user w -> user u -> chain bad K lim u Q ->
  exists a, blank a /\ chain bad K lim w (a ++ Q).
Proof.
  intros Hle Hw Hu H.
  assert (Hn : exists k : nat, u - w <= Z.of_nat k) by (exists (Z.to_nat (u - w)); lia).
  destruct Hn as [k Hk]. revert w Hw Hle Hk. induction k as [|k IH]; intros w Hw Hle Hk.
  { assert (w = u) as -> by lia. exists []. split; [apply blank_nil|done]. }
  destruct (Z.eq_dec w u) as [->|Hne]; [exists []; split; [apply blank_nil|done]|].
  destruct (Z.le_gt_cases lim w) as [Hl|Hl].
  { rewrite (chain_end _ _ _ _ _ H) by lia. exists []. split; [constructor|by apply ch_nil]. }
  pose proof (nextv_gt c w).
  destruct (IH (nextv w)) as (a & Ha & Hc); [by apply (lem nextv_user)|apply (lem nextv_next); auto; lia|lia|].
  exists (None :: a). split; [by constructor|]. cbn. apply ch_page; auto. done.
Qed.
Lemma chain_all_blank bad K w lim : w <= lim -> user w -> user lim ->
  exists a, blank a /\ chain bad K lim w a.
Proof.
  intros H1 H2 H3. destruct (chain_left bad K lim w lim []) as (a & Ha & H); auto; [apply ch_nil; lia|].
  rewrite app_nil_r in H. by exists a.
Qed.

(** Moving the start forward over unspecified pages. *)
Lemma chain_drop bad K lim v Q w : chain bad K lim v Q -> v <= w -> user w ->
  (forall u, user u -> v <= u < w -> K !! ph u = None) ->
  exists b a Q0, blank b /\ blank a /\ Q = b ++ Q0 /\ chain bad K lim w (a ++ Q0) /\
    ((w mod PB <> 0 -> w < lim -> bad (w / PB) = false) -> a = []).
Proof.
  intros H Hle Hw. revert Hle. induction H as [v Hv|v e Q Hv Huv He H IH|v Q Hv Ha Hb H IH]; intros Hle HK.
  - exists [], [], []. split_and!; auto using blank_nil. apply ch_nil. lia.
  - destruct (Z.eq_dec v w) as [->|Hne].
    { exists [], [], (e :: Q). split_and!; auto using blank_nil. by apply ch_page. }
    pose proof (nextv_gt c v).
    destruct IH as (b & a & Q0 & H1 & H2 & -> & H3 & H4).
    { apply (lem nextv_next); auto. lia. }
    { intros u Hu Hr. apply HK; auto. lia. }
    exists (e :: b), a, Q0. split_and!; auto. constructor; [|done].
    destruct e as [x|]; [|done]. specialize (He x eq_refl). rewrite HK in He; [done|done|lia].
  - destruct (Z.eq_dec v w) as [->|Hne].
    { exists [], [], Q. split_and!; auto using blank_nil. by apply ch_bad. }
    pose proof (next_blk_gt v).
    destruct (Z.le_gt_cases ((v / PB + 1) * PB) w) as [Hl|Hl].
    + apply IH; auto. intros u Hu Hr. apply HK; auto. lia.
    + destruct (chain_left bad K lim w ((v / PB + 1) * PB) Q) as (a & H2 & H3); auto; [lia|apply (lem blk_start_user)|].
      pose proof (in_blk v w Ha ltac:(lia)) as E. pose proof (in_blk_off v w Ha ltac:(lia) E).
      destruct (Z.le_gt_cases lim w) as [Hlw|Hlw].
      * pose proof (chain_end _ _ _ _ _ H3 Hlw) as E3. apply app_eq_nil in E3 as [-> ->].
        exists [], [], []. split_and!; auto using blank_nil.
      * exists [], a, Q. split_and!; auto using blank_nil. intros Hgd. rewrite E in Hgd. rewrite Hgd in Hb; done || lia.
Qed.

(** Deleting a page before the chain. *)
Lemma chain_delete bad K lim v Q p : chain bad K lim v Q ->
  (forall u, user u -> v <= u < lim -> ph u <> p) -> chain bad (delete p K) lim v Q.
Proof.
  intros H. induction H as [v Hv|v e Q Hv Huv He H IH|v Q Hv Ha Hb H IH]; intros Hp.
  - by apply ch_nil.
  - apply ch_page; auto.
    + intros x Hx. rewrite lookup_delete_ne; [auto|]. apply not_eq_sym. apply Hp; [done|lia].
    + apply IH. intros u Hu Hr. apply Hp; auto. pose proof (nextv_gt c v). lia.
  - apply ch_bad; auto. apply IH. intros u Hu Hr. apply Hp; auto. pose proof (next_blk_gt v). lia.
Qed.

(** A shorter limit. *)
Lemma chain_prefix bad K lim lim' v Q : chain bad K lim v Q -> lim' <= lim -> user lim' ->
  (lim' mod PB <> 0 -> bad (lim' / PB) = false) ->
  exists Q1 Q2, Q = Q1 ++ Q2 /\ chain bad K lim' v Q1 /\ (v <= lim' -> chain bad K lim lim' Q2).
Proof.
  intros H Hll Hu Hgd. induction H as [v Hv|v e Q Hv Huv He H IH|v Q Hv Ha Hb H IH].
  - exists [], []. split_and!; auto; [apply ch_nil; lia|]. intros. apply ch_nil. lia.
  - destruct (Z.le_gt_cases lim' v) as [Hl|Hl].
    { exists [], (e :: Q). split_and!; auto; [by apply ch_nil|]. intros. assert (v = lim') as -> by lia. by apply ch_page. }
    destruct IH as (Q1 & Q2 & -> & H1 & H2). exists (e :: Q1), Q2. split_and!; auto; [by apply ch_page|].
    intros _. apply H2. by apply (lem nextv_next).
  - destruct (Z.le_gt_cases lim' v) as [Hl|Hl].
    { exists [], Q. split_and!; auto; [by apply ch_nil|]. intros. assert (v = lim') as -> by lia. by apply ch_bad. }
    destruct IH as (Q1 & Q2 & -> & H1 & H2). exists Q1, Q2. split_and!; auto; [by apply ch_bad|].
    intros _. apply H2. destruct (Z.le_gt_cases ((v / PB + 1) * PB) lim') as [|Hlt]; [done|]. exfalso.
    pose proof (in_blk v lim' Ha ltac:(lia)) as E.
    assert (Hf : bad (lim' / PB) = false) by (apply Hgd; by eapply in_blk_off).
    congruence.
Qed.

(** No pages: all blocks are bad. *)
Lemma chain_none bad K lim v Q : chain bad K lim v Q -> Q = [] -> user v ->
  forall u, user u -> v <= u < lim -> bad (u / PB) = true.
Proof.
  intros H. induction H as [w Hv|w e Q Hv Huv He H IH|w Q Hv Ha Hb H IH]; intros El Hu u Hu2 Hr.
  - lia.
  - done.
  - destruct (Z.le_gt_cases ((w / PB + 1) * PB) u) as [Hl|Hl].
    + apply IH; auto; [apply (lem blk_start_user)|lia].
    + by rewrite (in_blk w u Ha ltac:(lia)).
Qed.

(** The last page. *)
Lemma chain_last bad K lim v Q e : chain bad K lim v Q -> user v -> last Q = Some e ->
  exists w, v <= w < lim /\ user w /\ (forall x, e = Some x -> K !! ph w = Some x) /\
    forall u, user u -> w < u < lim -> bad (u / PB) = true.
Proof.
  intros H. induction H as [v Hv|v e' Q Hv Huv He H IH|v Q Hv Ha Hb H IH]; intros Hu Hl.
  - done.
  - pose proof (nextv_gt c v). destruct Q as [|e2 Q].
    + injection Hl as ->. exists v. split_and!; auto; [lia|]. intros u Hu2 Hr.
      assert (Hn : nextv v <= u) by (apply (lem nextv_next); auto; lia).
      eapply (chain_none _ _ _ _ _ H); [done|by apply (lem nextv_user)|done|lia].
    + destruct IH as (w & H1 & H2 & H3 & H4); [by apply (lem nextv_user)|by rewrite last_cons_cons in Hl|].
      exists w. split_and!; auto; lia.
  - destruct IH as (w & H1 & H2 & H3 & H4); auto; [apply (lem blk_start_user)|].
    exists w. split_and!; auto; [pose proof (next_blk_gt v)|]; lia.
Qed.

(** Number of user pages before a position. *)
Definition ups (v : Z) : Z := v - v / PC.
Lemma ups_next v : user v -> ups (nextv v) = ups v + 1.
Proof.
  intros Hu. pose proof (lem PC_ge). unfold ups. destruct (lem nextv_cases v Hu) as [(F1&E&F2&F3)|(F1&E&F2&F3)]; rewrite E in *; lia.
Qed.
Lemma ups_mono v w : v <= w -> ups v <= ups w.
Proof.
  intros H. pose proof (lem PC_ge) as Hp. unfold ups.
  pose proof (Z.div_mod v PC ltac:(lia)). pose proof (Z.div_mod w PC ltac:(lia)).
  pose proof (Z.mod_pos_bound v PC ltac:(lia)). pose proof (Z.mod_pos_bound w PC ltac:(lia)).
  assert (v / PC <= w / PC) by (apply Z.div_le_mono; lia). nia.
Qed.
Lemma chain_length bad K lim v Q : chain bad K lim v Q -> user lim -> v <= lim ->
  Z.of_nat (length Q) <= ups lim - ups v.
Proof.
  intros H Hul. assert (Hgen : Z.of_nat (length Q) <= Z.max 0 (ups lim - ups v)).
  { induction H as [v Hv|v e Q Hv Huv He H IH|v Q Hv Ha Hb H IH].
    - cbn. lia.
    - cbn [length]. pose proof (ups_next v Huv). pose proof (ups_mono (nextv v) lim).
      assert (nextv v <= lim) by (apply (lem nextv_next); auto). lia.
    - pose proof (next_blk_gt v). pose proof (ups_mono v ((v / PB + 1) * PB)). lia. }
  intros Hle. pose proof (ups_mono v lim Hle). lia.
Qed.
End chain.
