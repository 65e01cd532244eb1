(** The radix tree formed by page metadata (described in dhara/map.h and
    map.c:112-121), independently of how pages are stored.

    [kmap] gives for every kept page its data and its 132 metadata bytes. *)
From stdpp Require Export gmap.
From Verif Require Import Base Bytes BytesLemmas MapModel.

Notation kmap := (gmap Z (bytes * bytes)).

Definition km (K : kmap) (p : Z) : bytes :=
  match K !! p with Some (_, m) => m | None => [] end.
Definition kid (K : kmap) (p : Z) : Z := meta_get_id (km K p).
Definition kalt (K : kmap) (p l : Z) : Z := meta_get_alt (km K p) l.
Definition kdata (K : kmap) (p : Z) : option bytes := fst <$> K !! p.

(** [a] and [b] agree on all bits from [k] upwards. *)
Definition same (k : nat) (a b : Z) : Prop :=
  forall i, Z.of_nat k <= i -> Z.testbit a i = Z.testbit b i.
Definition sbit (k : nat) (a : Z) : bool := Z.testbit a (Z.of_nat k).
Definition lvl (k : nat) : Z := 31 - Z.of_nat k.

Definition id_ok (x : Z) : Prop := 0 <= x < SECTOR_NONE.

(** The subtree below page [p] when the [k] lowest bits remain to be decided. *)
Fixpoint wf (K : kmap) (k : nat) (p : Z) : Prop :=
  match k with
  | O => True
  | S k =>
    wf K k p /\
    let q := kalt K p (lvl k) in
    q = PAGE_NONE \/
    (is_Some (K !! q) /\ id_ok (kid K q) /\ same (S k) (kid K q) (kid K p) /\
     sbit k (kid K q) <> sbit k (kid K p) /\ wf K k q)
  end.

(** Page holding sector [t] in that subtree. *)
Fixpoint lk (K : kmap) (k : nat) (p t : Z) : option Z :=
  match k with
  | O => Some p
  | S k =>
    if Bool.eqb (sbit k t) (sbit k (kid K p)) then lk K k p t
    else if kalt K p (lvl k) =? PAGE_NONE then None
    else lk K k (kalt K p (lvl k)) t
  end.

(** Alt pointer at bit [j] of the path to [t] (what trace_path builds). *)
Fixpoint pa (K : kmap) (k : nat) (p t : Z) (j : nat) : Z :=
  match k with
  | O => PAGE_NONE
  | S k =>
    if Bool.eqb (sbit k t) (sbit k (kid K p)) then
      if decide (j = k) then kalt K p (lvl k) else pa K k p t j
    else if decide (j = k) then p
    else if kalt K p (lvl k) =? PAGE_NONE then PAGE_NONE
    else pa K k (kalt K p (lvl k)) t j
  end.

(** ** Bit agreement *)
Lemma same_refl k a : same k a a. Proof. done. Qed.
Lemma same_sym k a b : same k a b -> same k b a.
Proof. intros H i Hi. symmetry. by apply H. Qed.
Lemma same_trans k a b c : same k a b -> same k b c -> same k a c.
Proof. intros H1 H2 i Hi. rewrite H1 by done. by apply H2. Qed.
Lemma same_S k a b : same k a b -> same (S k) a b.
Proof. intros H i Hi. apply H. lia. Qed.
Lemma same_step k a b : same (S k) a b -> sbit k a = sbit k b -> same k a b.
Proof.
  intros H Hb i Hi. destruct (Z.eq_dec i (Z.of_nat k)) as [->|]; [exact Hb|].
  apply H. lia.
Qed.
Lemma same_bit k a b : same k a b -> sbit k a = sbit k b.
Proof. intros H. apply H. lia. Qed.
Lemma same_0 a b : same 0 a b -> a = b.
Proof. intros H. apply Z.bits_inj'. intros i Hi. apply H. lia. Qed.
Lemma same_32 a b : 0 <= a < 2 ^ 32 -> 0 <= b < 2 ^ 32 -> same 32 a b.
Proof.
  intros Ha Hb i Hi. rewrite (bits_above a 32 i), (bits_above b 32 i); auto; lia.
Qed.
Lemma id_ok_32 a : id_ok a -> 0 <= a < 2 ^ 32.
Proof. unfold id_ok, SECTOR_NONE. lia. Qed.
Lemma sbit_ne k a b c : sbit k a <> sbit k b -> sbit k a <> sbit k c -> sbit k b = sbit k c.
Proof. destruct (sbit k a), (sbit k b), (sbit k c); congruence. Qed.

(** ** Basic facts *)
Lemma lk_self K k p : lk K k p (kid K p) = Some p.
Proof. induction k as [|k IH]; cbn [lk]; [done|]. by rewrite Bool.eqb_reflx. Qed.

Lemma lk_Some K k p t q :
  wf K k p -> is_Some (K !! p) -> id_ok (kid K p) -> same k t (kid K p) ->
  lk K k p t = Some q ->
  kid K q = t /\ is_Some (K !! q) /\ id_ok (kid K q).
Proof.
  revert p. induction k as [|k IH]; intros p Hwf Hp Hid Hs; cbn [lk wf] in *.
  { intros [= <-]. apply same_0 in Hs. naive_solver. }
  destruct Hwf as [Hw Halt].
  destruct (Bool.eqb (sbit k t) (sbit k (kid K p))) eqn:Eb.
  - apply eqb_prop in Eb. intros H. eapply IH; eauto. by apply same_step.
  - apply eqb_false_iff in Eb.
    destruct (Z.eqb_spec (kalt K p (lvl k)) PAGE_NONE) as [|Hne]; [done|].
    destruct Halt as [|(Hq & Hidq & Hsq & Hbq & Hwq)]; [done|].
    intros H. eapply IH; eauto. apply same_step.
    + eapply same_trans; [exact Hs|]. by apply same_sym.
    + destruct (sbit k t), (sbit k (kid K p)), (sbit k (kid K (kalt K p (lvl k)))); congruence.
Qed.

(** Extensionality: only the pages in the tree matter. *)
Lemma frame K K' k p :
  wf K k p -> is_Some (K !! p) ->
  (forall t q, same k t (kid K p) -> lk K k p t = Some q -> K' !! q = K !! q) ->
  wf K' k p /\ (forall t, same k t (kid K p) -> lk K' k p t = lk K k p t) /\
  (forall t j, same k t (kid K p) -> pa K' k p t j = pa K k p t j).
Proof.
  revert p. induction k as [|k IH]; intros p Hwf Hp Hag; [done|].
  assert (Hpp : K' !! p = K !! p).
  { apply (Hag (kid K p)); [done|]. apply lk_self. }
  assert (Hid : kid K' p = kid K p) by (unfold kid, km; by rewrite Hpp).
  assert (Hal : forall l, kalt K' p l = kalt K p l) by (intros; unfold kalt, km; by rewrite Hpp).
  cbn [wf lk pa] in *. destruct Hwf as [Hw Halt].
  destruct (IH p Hw Hp) as (IHw & IHl & IHp).
  { intros t q Hs Hl. apply (Hag t); [by apply same_S|].
    by rewrite (same_bit _ _ _ Hs), Bool.eqb_reflx. }
  rewrite !Hal, Hid.
  destruct (Z.eqb_spec (kalt K p (lvl k)) PAGE_NONE) as [E|Hne].
  { split; [auto|]. split; intros t; intros;
    destruct (Bool.eqb (sbit k t) (sbit k (kid K p))) eqn:Eb; try done;
    apply eqb_prop in Eb; [apply IHl|rewrite IHp; [done|]]; by apply same_step. }
  destruct Halt as [|(Hq & Hidq & Hsq & Hbq & Hwq)]; [done|].
  set (q := kalt K p (lvl k)) in *.
  destruct (IH q Hwq Hq) as (IHwq & IHlq & IHpq).
  { intros t q' Hs Hl. apply (Hag t).
    - eapply same_trans; [by apply same_S|done].
    - destruct (Bool.eqb (sbit k t) (sbit k (kid K p))) eqn:Eb; [|done].
      apply eqb_prop in Eb. pose proof (same_bit _ _ _ Hs). congruence. }
  assert (Hqq : K' !! q = K !! q).
  { apply (Hag (kid K q)); [done|].
    destruct (Bool.eqb (sbit k (kid K q)) (sbit k (kid K p))) eqn:Eb.
    - apply eqb_prop in Eb. congruence.
    - apply lk_self. }
  assert (Hidq' : kid K' q = kid K q) by (unfold kid, km; by rewrite Hqq).
  assert (Hst : forall t, same (S k) t (kid K p) -> sbit k t <> sbit k (kid K p) ->
                 same k t (kid K q)).
  { intros t Hs Hb. apply same_step.
    - eapply same_trans; [done|]. by apply same_sym.
    - destruct (sbit k t), (sbit k (kid K p)), (sbit k (kid K q)); congruence. }
  split; [|split].
  - split; [done|]. right. rewrite Hqq, Hidq'. auto.
  - intros t Hs. destruct (Bool.eqb (sbit k t) (sbit k (kid K p))) eqn:Eb.
    + apply eqb_prop in Eb. apply IHl. by apply same_step.
    + apply eqb_false_iff in Eb. apply IHlq. by apply Hst.
  - intros t j Hs. destruct (Bool.eqb (sbit k t) (sbit k (kid K p))) eqn:Eb.
    + apply eqb_prop in Eb. rewrite IHp; [done|]. by apply same_step.
    + apply eqb_false_iff in Eb. rewrite IHpq; [done|]. by apply Hst.
Qed.

Lemma frame_insert K k p n v :
  wf K k p -> is_Some (K !! p) -> id_ok (kid K p) -> K !! n = None ->
  wf (<[n:=v]> K) k p /\
  (forall t, same k t (kid K p) -> lk (<[n:=v]> K) k p t = lk K k p t) /\
  (forall t j, same k t (kid K p) -> pa (<[n:=v]> K) k p t j = pa K k p t j).
Proof.
  intros Hw Hp Hi Hn. apply frame; auto. intros t q Hs Hl.
  destruct (lk_Some K k p t q) as (_ & Hq & _); auto.
  rewrite lookup_insert_ne; [done|]. intros ->. rewrite Hn in Hq. by destruct Hq.
Qed.

Lemma km_insert K n d m : km (<[n:=(d,m)]> K) n = m.
Proof. unfold km. by rewrite lookup_insert. Qed.
Lemma kid_insert K n d m : kid (<[n:=(d,m)]> K) n = meta_get_id m.
Proof. unfold kid. by rewrite km_insert. Qed.
Lemma kalt_insert K n d m l : kalt (<[n:=(d,m)]> K) n l = meta_get_alt m l.
Proof. unfold kalt. by rewrite km_insert. Qed.
Lemma km_insert_ne K n p v : n <> p -> km (<[n:=v]> K) p = km K p.
Proof. intros. unfold km. by rewrite lookup_insert_ne. Qed.

(** ** Virtual nodes

    A node given by its id [t] and its alts [a] (indexed by bit) rather than by
    a stored page; [self] is the page that will hold it. *)
Fixpoint wfv (K : kmap) (k : nat) (t : Z) (a : nat -> Z) : Prop :=
  match k with
  | O => True
  | S k =>
    wfv K k t a /\
    (a k = PAGE_NONE \/
     (is_Some (K !! a k) /\ id_ok (kid K (a k)) /\ same (S k) (kid K (a k)) t /\
      sbit k (kid K (a k)) <> sbit k t /\ wf K k (a k)))
  end.
Fixpoint lkv (K : kmap) (k : nat) (t : Z) (a : nat -> Z) (x : Z) (self : option Z) : option Z :=
  match k with
  | O => self
  | S k =>
    if Bool.eqb (sbit k x) (sbit k t) then lkv K k t a x self
    else if a k =? PAGE_NONE then None else lk K k (a k) x
  end.

Lemma other_side k a b c : same (S k) a b -> same (S k) c b ->
  sbit k a <> sbit k b -> sbit k c <> sbit k b -> same k a c.
Proof.
  intros H1 H2 H3 H4. apply same_step.
  - eapply same_trans; [exact H1|]. by apply same_sym.
  - destruct (sbit k a), (sbit k b), (sbit k c); congruence.
Qed.

Lemma wfv_ext K k t a a' : (forall j, (j < k)%nat -> a j = a' j) -> wfv K k t a -> wfv K k t a'.
Proof.
  induction k as [|k IH]; cbn [wfv]; [done|]. intros He [H1 H2]. split.
  - apply IH; auto.
  - by rewrite <-He by lia.
Qed.
Lemma lkv_ext K k t a a' x self :
  (forall j, (j < k)%nat -> a j = a' j) -> lkv K k t a x self = lkv K k t a' x self.
Proof.
  induction k as [|k IH]; cbn [lkv]; [done|]. intros He.
  rewrite IH by auto. by rewrite He by lia.
Qed.
Lemma lkv_self K k t a self : lkv K k t a t self = self.
Proof. induction k as [|k IH]; cbn [lkv]; [done|]. by rewrite Bool.eqb_reflx. Qed.
Lemma lkv_ne K k t a x self self' : same k x t -> x <> t ->
  lkv K k t a x self = lkv K k t a x self'.
Proof.
  induction k as [|k IH]; intros Hs Hne; cbn [lkv].
  - by apply same_0 in Hs.
  - destruct (Bool.eqb (sbit k x) (sbit k t)) eqn:E; [|done].
    apply IH; [|done]. apply same_step; [done|]. by apply eqb_prop in E.
Qed.

(** A virtual node all of whose alts are empty. *)
Lemma lone K k t a : (forall j, (j < k)%nat -> a j = PAGE_NONE) ->
  wfv K k t a /\ forall x self, same k x t ->
    lkv K k t a x self = if decide (x = t) then self else None.
Proof.
  induction k as [|k IH]; intros Ha; cbn [wfv lkv].
  { split; [done|]. intros x self Hs. apply same_0 in Hs. by rewrite decide_True. }
  destruct IH as [Hw Hl]; [intros; apply Ha; lia|].
  rewrite Ha by lia. split; [auto|]. intros x self Hs. rewrite Z.eqb_refl.
  destruct (Bool.eqb (sbit k x) (sbit k t)) eqn:Eb.
  - apply eqb_prop in Eb. apply Hl. by apply same_step.
  - rewrite decide_False; [done|]. intros ->. by rewrite Bool.eqb_reflx in Eb.
Qed.

(** The path to [t] below [p] is a virtual node that contains everything below
    [p] except [t]. *)
Lemma path_v K k p t a :
  p <> PAGE_NONE -> K !! PAGE_NONE = None ->
  is_Some (K !! p) -> id_ok (kid K p) -> wf K k p -> same k t (kid K p) ->
  (forall j, (j < k)%nat -> a j = pa K k p t j) ->
  wfv K k t a /\ forall x self, same k x t ->
    lkv K k t a x self = if decide (x = t) then self else lk K k p x.
Proof.
  intros Hpn HN. revert p Hpn.
  induction k as [|k IH]; intros p Hpn Hp Hidp Hwf Hs Hal.
  { split; [done|]. intros x self Hs'. apply same_0 in Hs'. by rewrite decide_True. }
  cbn [wf lk pa wfv lkv] in *.
  pose proof (Hal k ltac:(lia)) as Hk. rewrite !decide_True in Hk by done.
  assert (Hal' : forall j, (j < k)%nat -> a j =
     if Bool.eqb (sbit k t) (sbit k (kid K p)) then pa K k p t j
     else if kalt K p (lvl k) =? PAGE_NONE then PAGE_NONE else pa K k (kalt K p (lvl k)) t j).
  { intros j Hj. rewrite Hal by lia.
    destruct (Bool.eqb _ _); rewrite decide_False by lia; done. }
  clear Hal. destruct Hwf as [Hw Halt]. rewrite Hk. clear Hk.
  destruct (Bool.eqb (sbit k t) (sbit k (kid K p))) eqn:Eb.
  - apply eqb_prop in Eb.
    destruct (IH p) as [Hwn Hln]; auto; [by apply same_step|].
    split.
    + split; [done|].
      destruct Halt as [|(Hq & Hidq & Hsq & Hbq & Hwq)]; [by left|right].
      split_and!; auto; [|congruence].
      eapply same_trans; [done|]. by apply same_sym.
    + intros x self Hs'. rewrite Eb.
      destruct (Bool.eqb (sbit k x) (sbit k (kid K p))) eqn:Eb'.
      * apply eqb_prop in Eb'. apply Hln. apply same_step; [done|congruence].
      * apply eqb_false_iff in Eb'. by rewrite decide_False by congruence.
  - apply eqb_false_iff in Eb.
    assert (Hright : p = PAGE_NONE \/
      is_Some (K !! p) /\ id_ok (kid K p) /\ same (S k) (kid K p) t /\
      sbit k (kid K p) <> sbit k t /\ wf K k p).
    { right. split_and!; auto. by apply same_sym. }
    assert (Hpe : (p =? PAGE_NONE) = false) by by apply Z.eqb_neq.
    rewrite Hpe.
    assert (Hmain : wfv K k t a /\ forall x self, same k x t -> lkv K k t a x self =
      if decide (x = t) then self else
      if kalt K p (lvl k) =? PAGE_NONE then None else lk K k (kalt K p (lvl k)) x).
    { destruct (Z.eqb_spec (kalt K p (lvl k)) PAGE_NONE) as [E2|Hne].
      - apply lone. done.
      - destruct Halt as [|(Hq & Hidq & Hsq & Hbq & Hwq)]; [done|].
        apply IH; auto. by eapply other_side. }
    destruct Hmain as [Hw1 Hl1]. split; [auto|].
    intros x self Hs'.
    destruct (Bool.eqb (sbit k x) (sbit k t)) eqn:Eb'.
    + apply eqb_prop in Eb'. rewrite Hl1 by (by apply same_step).
      destruct (decide (x = t)); [done|].
      assert (E : Bool.eqb (sbit k x) (sbit k (kid K p)) = false)
        by (apply eqb_false_iff; congruence).
      by rewrite E.
    + apply eqb_false_iff in Eb'. rewrite decide_False by congruence.
      assert (E : Bool.eqb (sbit k x) (sbit k (kid K p)) = true).
      { apply eqb_true_iff. destruct (sbit k x), (sbit k t), (sbit k (kid K p)); congruence. }
      by rewrite E.
Qed.

(** Storing a virtual node in a fresh page. *)
Lemma store_v K n d m k a :
  let K' := <[n:=(d,m)]> K in
  let t := meta_get_id m in
  K !! n = None ->
  (forall j, (j < k)%nat -> meta_get_alt m (lvl j) = a j) ->
  wfv K k t a ->
  wf K' k n /\ forall x, same k x t -> lk K' k n x = lkv K k t a x (Some n).
Proof.
  intros K' t Hn.
  assert (Hidn : kid K' n = t) by apply kid_insert.
  assert (Haln : forall l, kalt K' n l = meta_get_alt m l) by apply kalt_insert.
  induction k as [|k IH]; intros Ha Hwf; [done|].
  cbn [wf lk wfv lkv] in *. destruct Hwf as [Hw Halt].
  destruct IH as [IHw IHl]; auto.
  rewrite Haln, Hidn, Ha by lia. split.
  - split; [done|]. destruct Halt as [|(Hq & Hidq & Hsq & Hbq & Hwq)]; [by left|right].
    assert (Hqn : a k <> n) by (intros E0; rewrite E0, Hn in Hq; by destruct Hq).
    assert (Hkq : kid K' (a k) = kid K (a k)) by (unfold kid, K'; by rewrite km_insert_ne).
    rewrite Hkq. split_and!; auto.
    + unfold K'. by rewrite lookup_insert_ne.
    + by apply frame_insert.
  - intros x Hs. destruct (Bool.eqb (sbit k x) (sbit k t)) eqn:Eb.
    + apply eqb_prop in Eb. apply IHl. by apply same_step.
    + apply eqb_false_iff in Eb.
      destruct (Z.eqb_spec (a k) PAGE_NONE) as [|Hne]; [done|].
      destruct Halt as [|(Hq & Hidq & Hsq & Hbq & Hwq)]; [done|].
      apply frame_insert; auto. by eapply other_side.
Qed.

(** A stored page seen as a virtual node. *)
Lemma node_v K k p : wf K k p ->
  wfv K k (kid K p) (fun j => kalt K p (lvl j)) /\
  forall x, lkv K k (kid K p) (fun j => kalt K p (lvl j)) x (Some p) = lk K k p x.
Proof.
  induction k as [|k IH]; intros Hw; cbn [wf lk wfv lkv] in *; [done|].
  destruct Hw as [Hw Halt]. destruct (IH Hw) as [H1 H2]. split; [auto|].
  intros x. by rewrite H2.
Qed.

(** ** Deletion: the deepest cousin [q], at bit [c], takes over (map.c:411-466) *)
Lemma del_v K k t a c a' :
  let q := a c in
  wfv K k t a -> (c < k)%nat -> q <> PAGE_NONE ->
  (forall j, (j < c)%nat -> a j = PAGE_NONE) ->
  a' c = PAGE_NONE ->
  (forall j, (j < c)%nat -> a' j = kalt K q (lvl j)) ->
  (forall j, (c < j < k)%nat -> a' j = a j) ->
  (is_Some (K !! q) /\ id_ok (kid K q) /\ same (S c) (kid K q) t /\
   sbit c (kid K q) <> sbit c t) /\
  wfv K k (kid K q) a' /\
  forall x self, same k x t ->
    lkv K k (kid K q) a' x self =
    if decide (x = kid K q) then self
    else if decide (x = t) then None else lkv K k t a x None.
Proof.
  intros q Hwf Hck Hqn Hlow Hc Hbel.
  assert (Hq : is_Some (K !! q) /\ id_ok (kid K q) /\ same (S c) (kid K q) t /\
               sbit c (kid K q) <> sbit c t /\ wf K c q).
  { revert Hwf Hck. induction k as [|k IH]; intros Hwf Hck; [lia|].
    cbn [wfv] in Hwf. destruct Hwf as [Hw Halt].
    destruct (decide (k = c)) as [->|]; [|apply IH; [done|lia]].
    by destruct Halt as [|Halt]. }
  destruct Hq as (Hqs & Hqi & Hqsm & Hqb & Hqw). intros Habv.
  split; [auto|].
  revert Hwf Hck Habv. induction k as [|k IH]; intros Hwf Hck Habv; [lia|].
  cbn [wfv lkv] in *. destruct Hwf as [Hw Halt].
  destruct (decide (k = c)) as [->|Hkc].
  - rewrite Hc. destruct (node_v K c q Hqw) as [Hv1 Hv2]. split.
    + split; [|by left]. eapply wfv_ext; [|exact Hv1]. intros. symmetry. auto.
    + intros x self Hs'. rewrite Z.eqb_refl.
      destruct (lone K c t a Hlow) as [_ Hlone].
      destruct (Bool.eqb (sbit c x) (sbit c (kid K q))) eqn:Eb.
      * apply eqb_prop in Eb.
        assert (Hsq : same c x (kid K q)).
        { apply same_step; [|done]. eapply same_trans; [exact Hs'|]. by apply same_sym. }
        rewrite (lkv_ext _ _ _ _ (fun j => kalt K q (lvl j))) by auto.
        destruct (decide (x = kid K q)) as [->|Hne]; [by rewrite lkv_self|].
        rewrite (lkv_ne _ _ _ _ _ _ (Some q)) by done. rewrite Hv2.
        rewrite decide_False by congruence.
        assert (E : Bool.eqb (sbit c x) (sbit c t) = false) by (apply eqb_false_iff; congruence).
        rewrite E. assert (Eq : (a c =? PAGE_NONE) = false) by by apply Z.eqb_neq.
        by rewrite Eq.
      * apply eqb_false_iff in Eb. rewrite decide_False by congruence.
        destruct (decide (x = t)) as [|Hne]; [done|].
        assert (E : Bool.eqb (sbit c x) (sbit c t) = true).
        { apply eqb_true_iff. destruct (sbit c x), (sbit c t), (sbit c (kid K q)); congruence. }
        rewrite E, Hlone, decide_False; auto.
        apply same_step; [done|]. by apply eqb_prop in E.
  - assert (Hbk : sbit k (kid K q) = sbit k t) by (apply Hqsm; lia).
    destruct IH as [IHw IHl]; auto; [lia|intros; apply Habv; lia|].
    rewrite Habv by lia. split.
    + split; [done|]. destruct Halt as [|(Hps & H2 & H3 & H4 & H5)]; [by left|right].
      split_and!; auto; [|congruence].
      eapply same_trans; [exact H3|]. apply same_sym. intros i Hi. apply Hqsm. lia.
    + intros x self Hs'. rewrite Hbk.
      destruct (Bool.eqb (sbit k x) (sbit k t)) eqn:Eb.
      * apply eqb_prop in Eb. apply IHl. by apply same_step.
      * apply eqb_false_iff in Eb.
        rewrite decide_False by congruence. by rewrite decide_False by congruence.
Qed.
