(** Pages of the tree that hold the current version of some sector, and how the
    set of such pages changes when pages are appended or forgotten. *)
From stdpp Require Import gmap fin_maps.
From Verif Require Import Base Bytes BytesLemmas Wp Nand Journal MapModel Tree Rep Age.
Local Open Scope Z_scope.

Local Opaque lk lkv wf wfv pa meta_get_id meta_get_alt.

Definition live (K : kmap) (root p : Z) : Prop := exists t, id_ok t /\ findp K root t = Some p.

Lemma findp_new K n d m f :
  K !! n = None -> 0 <= n < PAGE_NONE -> id_ok (meta_get_id m) ->
  wfv K 32 (meta_get_id m) (malt m) ->
  (forall x self, 0 <= x < 2 ^ 32 ->
     lkv K 32 (meta_get_id m) (malt m) x self = if decide (x = meta_get_id m) then self else f x) ->
  forall t, id_ok t -> findp (<[n:=(d,m)]> K) n t = if decide (t = meta_get_id m) then Some n else f t.
Proof.
  intros Hn Hnr Hid Hwf Hlk t Ht.
  destruct (store_v K n d m 32 (malt m)) as [Hw Hl]; auto.
  unfold findp. destruct (Z.eqb_spec n PAGE_NONE); [lia|].
  rewrite kid_insert. destruct (Z.eqb_spec (meta_get_id m) SECTOR_NONE); [unfold id_ok in Hid; lia|].
  rewrite Hl by (apply same_32; by apply id_ok_32).
  by rewrite Hlk by (by apply id_ok_32).
Qed.

Lemma repr_ne K root S : repr K root S -> S <> ∅ ->
  root <> PAGE_NONE /\ is_Some (K !! root) /\ id_ok (kid K root) /\ wf K 32 root.
Proof.
  intros Hr HS. pose proof Hr as [Hkr Hroot Hspec].
  destruct Hroot as [-> |[Hs [Hf|[Hid Hw]]]].
  - exfalso. apply HS. by eapply repr_none_empty.
  - exfalso. apply HS. apply map_eq. intros t. rewrite Hspec, lookup_empty. unfold findp.
    rewrite Hf, Z.eqb_refl. destruct (decide _); [|done]. by destruct (root =? PAGE_NONE).
  - split; [|done]. intros ->. rewrite kr_none in Hs by done. by destruct Hs.
Qed.

Lemma findp_lk K root : root <> PAGE_NONE -> id_ok (kid K root) -> forall x, findp K root x = lk K 32 root x.
Proof.
  intros Hn Hid x. unfold findp. destruct (Z.eqb_spec root PAGE_NONE); [done|].
  destruct (Z.eqb_spec (kid K root) SECTOR_NONE); [unfold id_ok in Hid; lia|done].
Qed.

Lemma live_root K root S : repr K root S -> S <> ∅ -> live K root root.
Proof.
  intros Hr HS. destruct (repr_ne _ _ _ Hr HS) as (Hn & Hs & Hid & Hw).
  exists (kid K root). split; [done|]. rewrite findp_lk by done. apply lk_self.
Qed.

Lemma live_kid K root S p t : repr K root S -> id_ok t -> findp K root t = Some p -> kid K p = t.
Proof. intros Hr Ht Hf. by destruct (findp_Some _ _ _ _ _ Hr Ht Hf). Qed.

(** Relocating the page [src] of sector [t] to [n]. *)
Lemma live_reloc K root S t n d m src p :
  repr K root S -> is_path K root t m -> id_ok t -> K !! n = None -> 0 <= n < PAGE_NONE ->
  findp K root t = Some src -> live (<[n:=(d,m)]> K) n p -> p = n \/ (live K root p /\ p <> src).
Proof.
  intros Hr [Hlen Hid Hwf Hlk _] Ht Hn Hnr Hf (x & Hx & Ex).
  rewrite (findp_new K n d m (findp K root)) in Ex; auto; rewrite ?Hid; auto.
  rewrite Hid in Ex. destruct (decide (x = t)) as [->|Hne]; [left; congruence|].
  right. split; [by exists x|]. intros ->.
  pose proof (live_kid _ _ _ _ _ Hr Ht Hf). pose proof (live_kid _ _ _ _ _ Hr Hx Ex). congruence.
Qed.

(** Copying the root to [n]. *)
Lemma live_copy_root K root S n d m p :
  repr K root S -> S <> ∅ -> K !! root = Some (d, m) -> K !! n = None -> 0 <= n < PAGE_NONE ->
  live (<[n:=(d,m)]> K) n p -> p = n \/ (live K root p /\ p <> root).
Proof.
  intros Hr HS HK Hn Hnr (x & Hx & Ex).
  destruct (repr_ne _ _ _ Hr HS) as (Hrn & Hs & Hid & Hw).
  assert (Hkm : km K root = m) by (unfold km; by rewrite HK).
  assert (Hkid : kid K root = meta_get_id m) by (unfold kid; by rewrite Hkm).
  destruct (node_v K 32 root Hw) as [Hv Hl].
  assert (Hext : forall j, (j < 32)%nat -> kalt K root (lvl j) = malt m j).
  { intros. unfold kalt, malt. by rewrite Hkm. }
  assert (E : findp (<[n:=(d,m)]> K) n x = if decide (x = meta_get_id m) then Some n else findp K root x).
  { apply findp_new; [exact Hn|exact Hnr|by rewrite <-Hkid| | |exact Hx].
    - rewrite <-Hkid. eapply wfv_ext; [exact Hext|exact Hv].
    - intros y self Hy. rewrite <-Hkid. rewrite (lkv_ext _ _ _ _ (fun j => kalt K root (lvl j)))
        by (intros; symmetry; by apply Hext).
      destruct (decide (y = kid K root)) as [->|Hne]; [by rewrite lkv_self|].
      rewrite (lkv_ne _ _ _ _ _ _ (Some root)).
      + rewrite Hl. by rewrite findp_lk.
      + apply same_32; [done|by apply id_ok_32].
      + exact Hne. }
  rewrite E in Ex.
  destruct (decide (x = meta_get_id m)) as [->|Hne]; [left; congruence|].
  right. split; [by exists x|]. intros ->.
  pose proof (live_kid _ _ _ _ _ Hr Hx Ex). congruence.
Qed.

(** Forgetting any set of pages none of which is current. *)
Lemma repr_sub K K' root S : repr K root S -> S <> ∅ -> K' ⊆ K ->
  (forall p, live K root p -> is_Some (K' !! p)) -> repr K' root S.
Proof.
  intros Hr HS Hsub Hlv.
  destruct (repr_ne _ _ _ Hr HS) as (Hrn & Hs & Hid & Hw).
  pose proof Hr as [Hkr Hroot Hspec].
  assert (Heq : forall p, live K root p -> K' !! p = K !! p).
  { intros p Hp. destruct (Hlv p Hp) as [v Hv]. rewrite Hv. symmetry. by eapply lookup_weaken. }
  pose proof (live_root _ _ _ Hr HS) as Hlr.
  assert (Hkid : kid K' root = kid K root) by (unfold kid, km; by rewrite Heq).
  pose proof (findp_lk K root Hrn Hid) as Hfp.
  destruct (frame K K' 32 root) as (Hw' & Hl' & _); auto.
  { intros t q Hst Hl. apply Heq.
    destruct (lk_Some K 32 root t q) as (H1 & _ & H2); auto.
    exists (kid K q). split; [done|]. rewrite Hfp. congruence. }
  split.
  - intros p d m E. apply (Hkr p d). by eapply lookup_weaken.
  - right. split; [by apply Hlv|]. right. by rewrite Hkid.
  - intros t. rewrite Hspec. destruct (decide (id_ok t)) as [Ht|]; [|done].
    unfold findp at 2. rewrite Hkid.
    destruct (Z.eqb_spec root PAGE_NONE); [done|].
    destruct (Z.eqb_spec (kid K root) SECTOR_NONE); [unfold id_ok in Hid; lia|].
    rewrite Hl' by (apply same_32; by apply id_ok_32). rewrite Hfp.
    destruct (lk K 32 root t) as [q|] eqn:E; [|done]. cbn.
    unfold kdata. rewrite Heq; [done|]. exists t. by rewrite Hfp.
Qed.
