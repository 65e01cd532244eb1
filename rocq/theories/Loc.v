(** Where the tree keeps the pages: storing a page moves no other sector. *)
From stdpp Require Import gmap fin_maps.
From Verif Require Import Base Bytes BytesLemmas Nand Journal MapModel Tree Rep.
Local Open Scope Z_scope.

(** Two page maps with the same metadata. *)
Definition sim (K K' : kmap) : Prop := forall p, snd <$> K !! p = snd <$> K' !! p.
Lemma sim_km K K' p : sim K K' -> km K' p = km K p.
Proof. intros H. specialize (H p). unfold km. destruct (K !! p) as [[]|], (K' !! p) as [[]|]; cbn in H; congruence. Qed.
Lemma sim_kid K K' p : sim K K' -> kid K' p = kid K p.
Proof. intros H. unfold kid. by rewrite (sim_km K K'). Qed.
Lemma sim_kalt K K' p l : sim K K' -> kalt K' p l = kalt K p l.
Proof. intros H. unfold kalt. by rewrite (sim_km K K'). Qed.
Lemma sim_some K K' p : sim K K' -> is_Some (K !! p) -> is_Some (K' !! p).
Proof. intros H [x Hx]. specialize (H p). rewrite Hx in H. destruct (K' !! p); [eauto|done]. Qed.
Lemma sim_none K K' p : sim K K' -> K !! p = None -> K' !! p = None.
Proof. intros H Hx. specialize (H p). rewrite Hx in H. by destruct (K' !! p). Qed.
Lemma sim_sym K K' : sim K K' -> sim K' K.
Proof. intros H p. by rewrite H. Qed.
Lemma sim_insert K K' n d d' m : sim K K' -> sim (<[n:=(d,m)]> K) (<[n:=(d',m)]> K').
Proof. intros H p. destruct (decide (n = p)) as [->|]; [by rewrite !lookup_insert|by rewrite !lookup_insert_ne]. Qed.
Lemma sim_delete K K' n : sim K K' -> sim (delete n K) (delete n K').
Proof. intros H p. destruct (decide (n = p)) as [->|]; [by rewrite !lookup_delete|by rewrite !lookup_delete_ne]. Qed.
Lemma sim_lk K K' k : sim K K' -> forall p t, lk K' k p t = lk K k p t.
Proof. intros H. induction k as [|k IH]; intros p t; cbn [lk]; [done|]. by rewrite (sim_kid K K'), (sim_kalt K K'), !IH. Qed.
Lemma sim_pa K K' k j : sim K K' -> forall p t, pa K' k p t j = pa K k p t j.
Proof. intros H. induction k as [|k IH]; intros p t; cbn [pa]; [done|]. by rewrite (sim_kid K K'), (sim_kalt K K'), !IH. Qed.
Lemma sim_wf K K' k : sim K K' -> forall p, wf K k p -> wf K' k p.
Proof.
  intros H. induction k as [|k IH]; intros p; cbn [wf]; [done|]. rewrite (sim_kalt K K' p), !(sim_kid K K') by done.
  intros [H1 [H2|(H2 & H3 & H4 & H5 & H6)]]; (split; [by apply IH|]); [by left|right]. split_and!; auto. by eapply sim_some.
Qed.
Lemma sim_wfv K K' k t a : sim K K' -> wfv K k t a -> wfv K' k t a.
Proof.
  intros H. induction k as [|k IH]; cbn [wfv]; [done|]. rewrite !(sim_kid K K') by done.
  intros [H1 [H2|(H2 & H3 & H4 & H5 & H6)]]; (split; [by apply IH|]); [by left|right]. split_and!; auto; [by eapply sim_some|by eapply sim_wf].
Qed.
Lemma sim_lkv K K' k t a x self : sim K K' -> lkv K' k t a x self = lkv K k t a x self.
Proof. intros H. induction k as [|k IH]; cbn [lkv]; [done|]. by rewrite IH, (sim_lk K K'). Qed.
Local Opaque lk lkv wf wfv pa meta_get_id meta_get_alt.
Lemma sim_findp K K' root t : sim K K' -> findp K' root t = findp K root t.
Proof. intros H. unfold findp. by rewrite (sim_kid K K'), (sim_lk K K'). Qed.
Lemma sim_kr K K' : sim K K' -> kr K -> kr K'.
Proof.
  intros H Hk p d m E. pose proof (H p) as Hp. rewrite E in Hp. destruct (K !! p) as [[d0 m0]|] eqn:E0; [|done].
  cbn in Hp. injection Hp as <-. by apply (Hk p d0).
Qed.
Lemma sim_path K K' root t m : sim K K' -> is_path K root t m -> is_path K' root t m.
Proof.
  intros H Hp. destruct Hp as [H1 H2 H3 H4 H5]. split.
  - exact H1.
  - exact H2.
  - exact (sim_wfv _ _ _ _ _ H H3).
  - intros x self Hx. rewrite (sim_lkv K K'), (sim_findp K K') by exact H. exact (H4 x self Hx).
  - intros j Hj. rewrite (sim_kid K K'), (sim_pa K K') by exact H. exact (H5 j Hj).
Qed.

(** Page numbers as contents. *)
Definition tag (K : kmap) : kmap := map_imap (fun p dm => Some ([p], snd dm)) K.
Lemma tag_lookup K p : tag K !! p = (fun dm => ([p], snd dm)) <$> K !! p.
Proof. unfold tag. rewrite map_lookup_imap. by destruct (K !! p). Qed.
Lemma tag_sim K : sim K (tag K).
Proof. intros p. rewrite tag_lookup. by destruct (K !! p). Qed.
Definition tagS (K : kmap) (root : Z) (S : gmap Z bytes) : gmap Z bytes :=
  map_imap (fun t _ => (fun p => [p]) <$> findp K root t) S.
Lemma tagS_lookup K root S t : repr K root S -> id_ok t -> tagS K root S !! t = (fun p => [p]) <$> findp K root t.
Proof.
  intros Hr Ht. unfold tagS. rewrite map_lookup_imap. destruct (S !! t) eqn:E; [done|]. cbn.
  destruct (findp K root t) as [p|] eqn:Ef; [|done].
  assert (Hs : is_Some (findp K root t)) by (by eexists). apply (findp_iff K root S t Hr Ht) in Hs. rewrite E in Hs. by destruct Hs.
Qed.
Lemma tag_repr K root S : repr K root S -> repr (tag K) root (tagS K root S).
Proof.
  intros Hr. pose proof (tag_sim K) as Hs. pose proof Hr as [H1 H2 H3]. split.
  - by eapply sim_kr.
  - destruct H2 as [?|[H2 H4]]; [by left|right]. split; [by eapply sim_some|]. rewrite (sim_kid K (tag K)) by done.
    destruct H4 as [?|[? ?]]; [by left|right]. split; [done|]. by eapply sim_wf.
  - intros t. destruct (decide (id_ok t)) as [Ht|Ht].
    + etrans; [exact (tagS_lookup K root S t Hr Ht)|]. rewrite (sim_findp K (tag K)) by done. destruct (findp K root t) as [p|] eqn:E; [|done]. cbn.
      destruct (findp_Some K root S t p Hr Ht E) as (_ & [x Hx] & _). unfold kdata. by rewrite tag_lookup, Hx.
    + unfold tagS. rewrite map_lookup_imap. by rewrite (repr_out K root S t Hr Ht).
Qed.

(** What the map of page numbers says about a tree. *)
Lemma tag_read K K0 root S0 x p : sim K0 K -> repr K0 root S0 -> id_ok x -> findp K root x = Some p ->
  K0 !! p = tag K !! p -> S0 !! x = Some [p].
Proof.
  intros Hs Hr Hx Hf Hp. rewrite (sim_findp K0 K) in Hf by done. destruct (findp_Some _ _ _ _ _ Hr Hx Hf) as (_ & Hi & E). etrans; [exact E|].
  unfold kdata. rewrite Hp, tag_lookup. rewrite Hp, tag_lookup in Hi. by destruct (K !! p); [|destruct Hi].
Qed.
Lemma tag_back K root S x p : repr K root S -> id_ok x -> tagS K root S !! x = Some [p] -> findp K root x = Some p.
Proof. intros Hr Hx. intros E. assert (E1 : (fun p => [p]) <$> findp K root x = Some [p]) by (rewrite <-E; symmetry; exact (tagS_lookup K root S x Hr Hx)). destruct (findp K root x); cbn in E1; congruence. Qed.
Lemma repr_uniq K root S S' : repr K root S -> repr K root S' -> S = S'.
Proof. intros [_ _ H] [_ _ H']. apply map_eq. intros t. by rewrite H, H'. Qed.

Lemma tag_ins K n d m p : p <> n -> <[n:=(d, m)]> (tag K) !! p = tag (<[n:=(d, m)]> K) !! p.
Proof. intros H. rewrite lookup_insert_ne by done. rewrite !tag_lookup. by rewrite lookup_insert_ne. Qed.
Lemma root_find K n d m S x p : repr (<[n:=(d,m)]> K) n S -> 0 <= n < PAGE_NONE -> id_ok (meta_get_id m) ->
  findp (<[n:=(d,m)]> K) n x = Some p -> p <> n -> x <> meta_get_id m.
Proof.
  intros Hr Hn Hid Hf Hne ->. apply Hne. unfold findp in Hf. destruct (Z.eqb_spec n PAGE_NONE); [lia|].
  assert (E : kid (<[n:=(d, m)]> K) n = meta_get_id m) by (unfold kid, km; by rewrite lookup_insert).
  rewrite E in Hf. destruct (Z.eqb_spec (meta_get_id m) SECTOR_NONE); [done|]. rewrite <-E, lk_self in Hf. congruence.
Qed.
Lemma loc_path K root S t n d m x p : repr K root S -> is_path K root t m -> id_ok t -> K !! n = None -> 0 <= n < PAGE_NONE ->
  id_ok x -> findp (<[n:=(d,m)]> K) n x = Some p -> p <> n -> findp K root x = Some p.
Proof.
  intros Hr Hp Ht Hn Hnr Hx Hf Hne. pose proof (tag_sim K) as Hs.
  pose proof (repr_insert _ _ _ t n d m (tag_repr _ _ _ Hr) (sim_path _ _ _ _ _ Hs Hp) Ht (sim_none _ _ _ Hs Hn) Hnr) as Hr'.
  assert (Hxt : x <> t).
  { pose proof (p_id _ _ _ _ Hp) as Ei. rewrite <-Ei. eapply root_find; [|exact Hnr|by rewrite Ei|exact Hf|done].
    eapply repr_insert; eauto. }
  assert (Hs' : sim (<[n:=(d,m)]> (tag K)) (<[n:=(d,m)]> K)) by (apply sim_insert, sim_sym, Hs).
  pose proof (tag_read _ _ _ _ _ _ Hs' Hr' Hx Hf (tag_ins _ _ _ _ _ Hne)) as E.
  assert (E1 : tagS K root S !! x = Some [p]). { etrans; [|exact E]. symmetry. by apply lookup_insert_ne. } by eapply tag_back.
Qed.
Lemma loc_del K root S t m level q dq mq n x p : repr K root S -> is_path K root t m -> id_ok t ->
  find_cousin 32 m = Some (level, q) -> K !! q = Some (dq, mq) -> K !! n = None -> 0 <= n < PAGE_NONE ->
  id_ok x -> findp (<[n:=(dq, del_meta m mq level)]> K) n x = Some p -> p <> n -> findp K root x = Some p.
Proof.
  intros Hr Hp Ht Hc Hq Hn Hnr Hx Hf Hne. pose proof (tag_sim K) as Hs.
  destruct (repr_delete _ _ _ t m level q (tag_repr _ _ _ Hr) (sim_path _ _ _ _ _ Hs Hp) Ht Hc) as (dq' & mq' & E & _ & Hr').
  rewrite tag_lookup, Hq in E. cbn in E. injection E as <- <-. specialize (Hr' n (sim_none _ _ _ Hs Hn) Hnr).
  assert (Hs' : sim (<[n:=([q], del_meta m mq level)]> (tag K)) (<[n:=(dq, del_meta m mq level)]> K)) by (apply sim_insert, sim_sym, Hs).
  assert (E : <[n:=([q], del_meta m mq level)]> (tag K) !! p = tag (<[n:=(dq, del_meta m mq level)]> K) !! p).
  { rewrite lookup_insert_ne by done. rewrite !tag_lookup. by rewrite lookup_insert_ne. }
  pose proof (tag_read _ _ _ _ _ _ Hs' Hr' Hx Hf E) as E1.
  destruct (decide (x = t)) as [->|Hxt]; [by rewrite lookup_delete in E1|].
  assert (E2 : tagS K root S !! x = Some [p]). { etrans; [|exact E1]. symmetry. by apply lookup_delete_ne. } by eapply tag_back.
Qed.
Lemma loc_deq K root S p x q : repr K root S -> (forall t, id_ok t -> findp K root t <> Some p) -> id_ok x ->
  findp (delete p K) (if root =? p then PAGE_NONE else root) x = Some q -> findp K root x = Some q.
Proof.
  intros Hr Hd Hx Hf. pose proof (tag_sim K) as Hs.
  assert (Hd' : forall t, id_ok t -> findp (tag K) root t <> Some p).
  { intros t Ht. rewrite (sim_findp K (tag K)) by done. by apply Hd. }
  pose proof (repr_delete_page _ _ _ p (tag_repr _ _ _ Hr) Hd') as Hr'.
  assert (Hs' : sim (delete p (tag K)) (delete p K)) by (apply sim_delete, sim_sym, Hs).
  destruct (decide (q = p)) as [->|Hqp].
  { pose proof (repr_delete_page _ _ _ p Hr Hd) as Hr2. destruct (findp_Some _ _ _ _ _ Hr2 Hx Hf) as (_ & Hi & _).
    rewrite lookup_delete in Hi. by destruct Hi. }
  assert (E : delete p (tag K) !! q = tag (delete p K) !! q).
  { rewrite lookup_delete_ne by done. rewrite !tag_lookup. by rewrite lookup_delete_ne. }
  pose proof (tag_read _ _ _ _ _ _ Hs' Hr' Hx Hf E) as E1. by eapply tag_back.
Qed.

(** The page that a trim rewrites keeps its own sector. *)
Lemma del_id K root S t m level q dq mq : repr K root S -> is_path K root t m -> id_ok t ->
  find_cousin 32 m = Some (level, q) -> K !! q = Some (dq, mq) -> id_ok (meta_get_id (del_meta m mq level)).
Proof.
  intros Hrep [Hlen Hid Hwf Hlk Hpa] Ht Hfc Eq.
  pose proof (find_cousin_spec 32 m ltac:(lia)) as Hc. rewrite Hfc in Hc.
  destruct Hc as (c & Hc & -> & Hq & Hqn & Hlow).
  pose proof (r_kr _ _ _ Hrep) as Hkr. subst q. set (q := malt m c) in *.
  destruct (wfv_alt K 32 t (malt m) c Hwf ltac:(lia) Hqn) as (Hqs & Hqi & Hqw). fold q in Hqs, Hqi, Hqw.
  assert (Hkm : km K q = mq) by (unfold km; by rewrite Eq).
  assert (Hkid : kid K q = meta_get_id mq) by (unfold kid; by rewrite Hkm).
  assert (Hid1 : blen (meta_set_id m (meta_get_id mq)) = META_SIZE) by by apply blen_set_id.
  set (m1 := meta_set_id m (meta_get_id mq)) in *.
  assert (Hm1i : meta_get_id m1 = kid K q).
  { unfold m1. rewrite get_id_set_id by done. rewrite <-Hkid. apply w32_small.
    apply id_ok_32 in Hqi. lia. }
  set (m2 := meta_set_alt m1 (lvl c) PAGE_NONE).
  assert (Hl2 : blen m2 = META_SIZE) by (apply blen_set_lvl; [done|lia]).
  assert (Enat : Z.to_nat (RADIX_DEPTH - 1 - lvl c) = c) by (unfold RADIX_DEPTH, lvl; lia).
  destruct (copy_alts_spec c mq m2) as (H1 & H2 & H3); [lia|done| |].
  { intros j Hj. unfold malt. rewrite <-Hkm. apply (wf_alt_range K c q j); [exact Hkr|exact Hqw|exact Hj]. }
  set (m3 := copy_alts c mq m2) in *.
  assert (Edm : del_meta m mq (lvl c) = meta_set_alt m3 (lvl c) PAGE_NONE).
  { unfold del_meta. rewrite Enat. done. }
  rewrite Edm, id_set_lvl by (auto; lia). rewrite H2. unfold m2.
  rewrite id_set_lvl by (auto; lia). by rewrite Hm1i.
Qed.
Lemma root_ne K n d m S : repr (<[n:=(d,m)]> K) n S -> 0 <= n < PAGE_NONE -> id_ok (meta_get_id m) -> S <> ∅.
Proof.
  intros Hr Hn Hid ->. assert (E : kid (<[n:=(d, m)]> K) n = meta_get_id m) by (unfold kid, km; by rewrite lookup_insert).
  assert (Hf : findp (<[n:=(d,m)]> K) n (meta_get_id m) = Some n).
  { unfold findp. destruct (Z.eqb_spec n PAGE_NONE); [lia|]. rewrite E. destruct (Z.eqb_spec (meta_get_id m) SECTOR_NONE); [unfold id_ok in Hid; lia|].
    rewrite <-E. apply lk_self. }
  assert (Hs : is_Some (findp (<[n:=(d,m)]> K) n (meta_get_id m))) by (by eexists).
  apply (findp_iff _ _ _ _ Hr Hid) in Hs. rewrite lookup_empty in Hs. by destruct Hs.
Qed.
