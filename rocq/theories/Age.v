(** Ages of tree pages: every page of the index tree is older than the page
    that points to it (checked by tests/map.c:68-72).  [f] maps positions in
    the (unbounded) sequence of journal pages to page numbers. *)
From stdpp Require Import gmap.
From Verif Require Import Base Bytes BytesLemmas MapModel Tree Rep.
Local Open Scope Z_scope.

(** Whether ages are tracked by the invariant of MapStep.v. *)
Class Aging := aging : Prop.
#[global] Instance with_ages : Aging := True.

Section age.
Context (f : Z -> Z).

(** [old lo K k p v]: the pages of the subtree below [p] (at position [v]) lie at
    positions that decrease along every path and are at least [lo]. *)
Fixpoint old (lo : Z) (K : kmap) (k : nat) (p v : Z) : Prop :=
  match k with
  | O => True
  | S k =>
    old lo K k p v /\
    let q := kalt K p (lvl k) in
    q = PAGE_NONE \/ exists u, lo <= u < v /\ q = f u /\ old lo K k q u
  end.

Definition aged (lo : Z) (K : kmap) (root v : Z) : Prop :=
  kid K root = SECTOR_NONE \/ old lo K 32 root v.

Lemma old_frame lo lo' hi K K' k p v :
  wf K k p -> is_Some (K !! p) -> old lo K k p v -> v <= hi ->
  (forall t q, same k t (kid K p) -> lk K k p t = Some q -> K' !! q = K !! q) ->
  (forall u, lo <= u < hi -> is_Some (K' !! f u) -> lo' <= u) ->
  old lo' K' k p v.
Proof.
  intros Hwf Hp Ho Hv Hag Hlo. revert p v Hwf Hp Ho Hv Hag.
  induction k as [|k IH]; intros p v Hwf Hp Ho Hv Hag; [done|].
  assert (Hpp : K' !! p = K !! p).
  { apply (Hag (kid K p)); [done|]. apply lk_self. }
  assert (Hal : kalt K' p (lvl k) = kalt K p (lvl k)) by (unfold kalt, km; by rewrite Hpp).
  cbn [wf lk old] in *. destruct Hwf as [Hw Halt]. destruct Ho as [Ho Hq].
  split.
  { apply IH; auto. intros t q Hs Hl. apply (Hag t); [by apply same_S|].
    by rewrite (same_bit _ _ _ Hs), Bool.eqb_reflx. }
  rewrite Hal.
  destruct (Z.eqb_spec (kalt K p (lvl k)) PAGE_NONE) as [E|Hne]; [by left|].
  destruct Halt as [|(Hqs & Hidq & Hsq & Hbq & Hwq)]; [done|].
  destruct Hq as [|(u & Hu & Eu & Hou)]; [done|].
  set (q := kalt K p (lvl k)) in *.
  assert (Hag' : forall t q', same k t (kid K q) -> lk K k q t = Some q' -> K' !! q' = K !! q').
  { intros t q' Hs Hl. apply (Hag t).
    - eapply same_trans; [by apply same_S|done].
    - destruct (Bool.eqb (sbit k t) (sbit k (kid K p))) eqn:Eb; [|done].
      apply eqb_prop in Eb. pose proof (same_bit _ _ _ Hs). congruence. }
  right. exists u. split.
  - split; [|lia]. apply Hlo; [lia|]. rewrite <-Eu.
    rewrite (Hag' (kid K q) q); [done|done|]. apply lk_self.
  - split; [done|]. apply IH; auto. lia.
Qed.

Lemma old_insert lo K k p v n x :
  wf K k p -> is_Some (K !! p) -> id_ok (kid K p) -> K !! n = None ->
  old lo K k p v -> old lo (<[n:=x]> K) k p v.
Proof.
  intros Hw Hp Hi Hn Ho. eapply (old_frame lo lo v); eauto; [lia| |intros; lia].
  intros t q Hs Hl.
  destruct (lk_Some K k p t q) as (_ & Hq & _); auto.
  rewrite lookup_insert_ne; [done|]. intros ->. rewrite Hn in Hq. by destruct Hq.
Qed.

(** Alt pointers of a path. *)
Definition older (lo : Z) (K : kmap) (v : Z) (j : nat) (q : Z) : Prop :=
  q = PAGE_NONE \/ exists u, lo <= u < v /\ q = f u /\ old lo K j q u.

Lemma older_mono lo K v v' j q : v <= v' -> older lo K v j q -> older lo K v' j q.
Proof. intros Hv [?|(u & ? & ?)]; [by left|right]. exists u. split; [lia|done]. Qed.

Lemma old_pa lo K k p t v j :
  old lo K k p v -> lo <= v -> p = f v -> (j < k)%nat -> older lo K (v + 1) j (pa K k p t j).
Proof.
  revert p v. induction k as [|k IH]; intros p v Ho Hv Ep Hj; [lia|].
  cbn [old pa] in *. destruct Ho as [Ho Hq].
  destruct (Bool.eqb _ _).
  - destruct (decide (j = k)) as [->|]; [|apply IH; auto; lia].
    destruct Hq as [?|(u & Hu & Eu & Hou)]; [by left|]. right. exists u. split; [lia|done].
  - destruct (decide (j = k)) as [->|]; [right; exists v; split; [lia|done]|].
    destruct (Z.eqb_spec (kalt K p (lvl k)) PAGE_NONE) as [|Hn]; [by left|].
    destruct Hq as [?|(u & Hu & Eu & Hou)]; [done|].
    eapply (older_mono _ _ (u + 1)); [lia|]. apply IH; auto; lia.
Qed.

Lemma old_alt lo K k p v j : old lo K k p v -> (j < k)%nat -> older lo K v j (kalt K p (lvl j)).
Proof.
  revert v. induction k as [|k IH]; intros v Ho Hj; [lia|]. cbn [old] in Ho. destruct Ho as [Ho Hq].
  destruct (decide (j = k)) as [->|]; [done|]. apply IH; [done|lia].
Qed.

(** A new page pointing to older subtrees. *)
Lemma old_new lo K n d m t v k : (k <= 32)%nat -> K !! n = None ->
  wfv K k t (malt m) -> (forall j, (j < k)%nat -> older lo K v j (malt m j)) ->
  old lo (<[n:=(d,m)]> K) k n v.
Proof.
  intros Hk Hn. induction k as [|k IH]; intros Hw Ho; [done|].
  cbn [wfv old] in *. destruct Hw as [Hw Halt]. split; [apply IH; auto; lia|].
  rewrite kalt_insert. change (meta_get_alt m (lvl k)) with (malt m k).
  destruct (Ho k ltac:(lia)) as [?|(u & Hu & Eu & Hou)]; [by left|].
  destruct Halt as [?|(H1 & H2 & H3 & H4 & H5)]; [by left|].
  right. exists u. split; [done|]. split; [done|]. by apply old_insert.
Qed.

Local Opaque old lk lkv wf wfv pa meta_get_id meta_get_alt.
(** Along the path to any sector. *)
Lemma aged_path lo K root t m v n d w :
  is_path K root t m -> K !! n = None -> v < w -> (root <> PAGE_NONE -> root = f v /\ lo <= v /\ aged lo K root v) ->
  aged lo (<[n:=(d,m)]> K) n w.
Proof.
  intros [Hlen Hid Hw Hlk Hpa] Hn Hv Hr. right.
  apply (old_new lo K n d m t); [lia|done|done|].
  intros j Hj. destruct (Hpa j Hj) as [?|(Hr1 & Hr2 & E)]; [by left|].
  destruct (Hr Hr1) as (Ef & Hl & [?|Ho]); [done|].
  rewrite E. eapply older_mono; [|apply old_pa; [exact Ho|done|done|done]]. lia.
Qed.

Lemma aged_copy lo K root n d m v w : K !! root = Some (d, m) -> K !! n = None -> v <= w ->
  (kid K root = SECTOR_NONE \/ (id_ok (kid K root) /\ wf K 32 root)) -> aged lo K root v ->
  aged lo (<[n:=(d,m)]> K) n w.
Proof.
  intros HK Hn Hv Hroot Ha.
  assert (Hkm : km K root = m) by (unfold km; by rewrite HK).
  assert (Hkid : kid K root = meta_get_id m) by (unfold kid; by rewrite Hkm).
  destruct Hroot as [E|[Hid Hw]].
  { left. rewrite kid_insert. congruence. }
  destruct Ha as [E|Ho]; [rewrite E in Hid; unfold id_ok, SECTOR_NONE in Hid; lia|]. right.
  destruct (node_v K 32 root Hw) as [Hwv _].
  assert (Hext : forall j, (j < 32)%nat -> kalt K root (lvl j) = malt m j).
  { intros. unfold kalt, malt. by rewrite Hkm. }
  apply (old_new lo K n d m (kid K root)); [lia|exact Hn|eapply wfv_ext; [exact Hext|exact Hwv]|].
  intros j Hj. rewrite <-Hext by done. eapply older_mono; [exact Hv|]. eapply old_alt; [exact Ho|exact Hj].
Qed.

Lemma aged_filler lo K n d m v : meta_get_id m = SECTOR_NONE -> aged lo (<[n:=(d,m)]> K) n v.
Proof. intros E. left. by rewrite kid_insert. Qed.

Lemma aged_frame lo lo' hi K K' root S v :
  repr K root S -> root <> PAGE_NONE -> aged lo K root v -> v <= hi ->
  K' !! root = K !! root ->
  (forall t q, id_ok t -> findp K root t = Some q -> K' !! q = K !! q) ->
  (forall u, lo <= u < hi -> is_Some (K' !! f u) -> lo' <= u) ->
  aged lo' K' root v.
Proof.
  intros Hrep Hn Ha Hv Hr Hag Hlo.
  assert (Hkid : kid K' root = kid K root) by (unfold kid, km; by rewrite Hr).
  destruct Ha as [E|Ho]; [left; congruence|].
  destruct (r_root _ _ _ Hrep) as [?|[Hs [E|[Hid Hw]]]]; [done|left; congruence|].
  right. apply (old_frame lo lo' hi K K'); [exact Hw|exact Hs|exact Ho|exact Hv| |exact Hlo].
  intros t q Hst Hl. destruct (lk_Some K 32 root t q) as (H1 & _ & H2); auto.
  rewrite H1 in H2. apply (Hag t); [done|]. unfold findp.
  destruct (Z.eqb_spec root PAGE_NONE); [done|].
  destruct (Z.eqb_spec (kid K root) SECTOR_NONE); [unfold id_ok in Hid; lia|done].
Qed.

(** The metadata built by try_delete. *)
Lemma aged_delete lo K root S t m level q v :
  repr K root S -> is_path K root t m -> id_ok t -> find_cousin 32 m = Some (level, q) ->
  (root <> PAGE_NONE -> root = f v /\ lo <= v /\ aged lo K root v) ->
  forall dq mq, K !! q = Some (dq, mq) ->
  forall n d w, K !! n = None -> v < w -> aged lo (<[n:=(d, del_meta m mq level)]> K) n w.
Proof.
  intros Hrep Hp Ht Hfc Hr dq mq Eq n d w Hn Hv.
  destruct (repr_delete_wfv K root S t m level q Hrep Hp Ht Hfc dq mq Eq) as (c & Hc & -> & Hq & Hqn & Hw4 & Ha4).
  right. eapply (old_new lo K n d); [lia|done|exact Hw4|].
  assert (Hold : forall j, (j < 32)%nat -> older lo K w j (malt m j)).
  { intros j Hj. destruct (p_pa _ _ _ _ Hp j Hj) as [?|(Hr1 & Hr2 & E)]; [by left|].
    destruct (Hr Hr1) as (Ef & Hl & [?|Ho]); [done|].
    rewrite E. eapply older_mono; [|apply old_pa; [exact Ho|done|done|done]]. lia. }
  intros j Hj. rewrite Ha4 by done.
  destruct (decide (j = c)); [by left|].
  destruct (decide (j < c)%nat); [|by apply Hold].
  destruct (Hold c ltac:(lia)) as [?|(u & Hu & Eu & Hou)]; [congruence|].
  rewrite <-Hq in Hou. eapply older_mono; [|eapply old_alt; [exact Hou|done]]. lia.
Qed.
End age.
