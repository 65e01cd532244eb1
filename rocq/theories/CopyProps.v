(** C18, C19 for calls during which garbage collection may run. *)
From stdpp Require Import gmap.
From Verif Require Import Base Bytes BytesLemmas Wp Nand Journal MapModel Api Geom Tree Rep Inv StepDI MapStep MapOps Spec Ppc History Props Copy.
From Verif Require Pres.
Local Open Scope Z_scope.

Section copyprops.
Context (g : geo) (weak : Z -> bool) (Hsup : supported g) (Hfew : few_weak g weak).
Let c := choose_ppc (g_lps g) (g_lppb g).
Let Hg : geo_ok2 g c := supported_geo g Hsup.

Lemma reach_read_len s p d : reachable g weak s -> nand_read p 0 (page_size g) (chip s) = (OK d, chip s) -> blen d = 2 ^ g_lps g.
Proof.
  intros Hr H. destruct (reach_MX g weak Hsup Hfew _ Hr) as (S & Sd & HM).
  destruct HM as (_ & hv & tv & sv & K & D & HM). pose proof (mi_j _ _ _ _ _ _ _ _ _ _ _ HM) as [Hn _ _ _].
  rewrite <-(ps_eq g c Hg). unfold nand_read in H. change (js_n (m_js s)) with (chip s) in Hn. rewrite (nk_geo _ _ _ Hn) in H.
  destruct (page_ok g p); [|done]. cbn [negb] in H. destruct (_ && _); [|done]. cbn [negb] in H.
  destruct (cell_bytes g (n_cell (chip s) p)) as [d0|] eqn:Hc; [|done]. injection H as <-.
  assert (Hd : blen d0 = page_size g).
  { destruct (n_cell (chip s) p) as [|d1|o] eqn:Ec; cbn in Hc; [|injection Hc as <-; by eapply nk_len|].
    2:{ unfold garbage in Hc. destruct o as [d'|]; [|done]. destruct (blen d' =? page_size g) eqn:E2; [|done]. cbn in Hc.
        apply Z.eqb_eq in E2. destruct (negb _); [|done]. by injection Hc as <-. }
    injection Hc as <-. unfold ffs, blen. rewrite replicate_length. pose proof (ps_eq g c Hg). pose proof (Z.pow_nonneg 2 (g_lps g)).
    unfold blen in *. lia. }
  unfold slice. rewrite drop_0. unfold blen in *. rewrite take_length. lia.
Qed.

Theorem C19_copy_page s fuel p t d s' :
  reachable g weak s -> enough_fuel g fuel -> wsector t ->
  nand_read p 0 (page_size g) (chip s) = (OK d, chip s) ->
  map_copy_page fuel p t s = (OK tt, s') -> page_kept p (chip s) (chip s') ->
  reads s' t = OK d /\ mapped s' t = true /\
  (forall u, sector u -> u <> t -> same_sector s s' u) /\
  MapModel.map_size s' = MapModel.map_size s + (if mapped s t then 0 else 1).
Proof.
  intros Hr Hf Ht Hd E Hk.
  assert (Eg : n_geo (chip s) = g).
  { destruct (reach_MX g weak Hsup Hfew _ Hr) as (S & Sd & _ & hv & tv & sv & K & D & HM).
    by pose proof (mi_j _ _ _ _ _ _ _ _ _ _ _ HM) as [[] _ _ _]. }
  eapply (C03_write_one_sector g weak Hsup Hfew s fuel t d s'); auto.
  - by eapply reach_read_len.
  - eapply C19_copy_is_write; [|rewrite Eg; exact Hd|exact E|exact Hk]. rewrite Eg. unfold supported in Hsup. lia.
Qed.

Theorem C18_copy_sector_kept_partial s fuel a b s' :
  reachable g weak s -> enough_fuel g fuel -> sector a -> wsector b ->
  map_copy_sector fuel a b s = (OK tt, s') ->
  (forall p, map_find a s = (OK p, s) -> page_kept p (chip s) (chip s')) ->
  reads s' b = reads s a /\ mapped s' b = mapped s a /\
  forall u, sector u -> u <> b -> same_sector s s' u.
Proof.
  intros Hr Hf Ha Hb E Hk. destruct (mapped s a) eqn:Ema.
  - unfold map_copy_sector, bind, attempt in E. unfold mapped in Ema.
    destruct (map_find a s) as [[p|?|?] s1] eqn:Ef; [|done|done].
    destruct (C10_find g weak Hsup Hfew s a p s1 Hr Ha Ef) as (-> & _ & _ & _ & Hrd).
    specialize (Hk p eq_refl).
    destruct (reach_MX g weak Hsup Hfew _ Hr) as (S & Sd & HM).
    pose proof (shows_read g _ _ a (MX_shows g weak Hsup _ _ _ HM) Ha) as Ed. set (d := read_of g S a) in Ed. rewrite Ed in Hrd |- *.
    destruct (C19_copy_page s fuel p b d s' Hr Hf Hb) as (H1 & H2 & H4 & _); auto.
    pose proof (Pres.kn_read eq (fun _ => eq_refl) p 0 (page_size g) (chip s)) as Hn.
    destruct (nand_read _ _ _ _) as [x n1]. cbn in *. by subst.
  - rewrite <-Ema. apply (C18_copy_sector_partial g weak Hsup Hfew s fuel a b s'); auto. by rewrite Ema.
Qed.

(** Without any condition: a copy that succeeds leaves every other sector alone,
    and the target is mapped afterwards if and only if the source was; if it was
    not, both read as blank. *)
Theorem C18_copy_sector_others_partial s fuel a b s' :
  reachable g weak s -> enough_fuel g fuel -> sector a -> wsector b ->
  map_copy_sector fuel a b s = (OK tt, s') ->
  mapped s' b = mapped s a /\ (mapped s a = false -> reads s' b = reads s a) /\
  forall u, sector u -> u <> b -> same_sector s s' u.
Proof.
  intros Hr Hf Ha Hb E. assert (Hb' : sector b) by (unfold sector; unfold wsector in Hb; lia).
  destruct (call_cases g weak Hsup Hfew s fuel (OCopySector a b) (OK RUnit) s' Hr Hf) as (S & S' & Hs & Hca & Hs').
  { by split. } { cbn [exec]. unfold bind. by rewrite E. } { done. }
  assert (Hother : forall u, sector u -> S' !! u = S !! u -> same_sector s s' u).
  { intros u Hu Eu. destruct Hs as (A1 & A2 & _), Hs' as (B1 & B2 & _).
    unfold same_sector, reads. rewrite A1, B1 by done. split; [unfold read_of; change (list Z) with bytes; by rewrite Eu|].
    specialize (A2 u Hu). specialize (B2 u Hu). rewrite Eu in B2.
    destruct (mapped s u), (mapped s' u); naive_solver. }
  inversion Hca; subst.
  - pose proof (shows_unmapped g s S a Hs Ha ltac:(done)) as Em.
    pose proof (shows_unmapped g s' (delete b S) b Hs' Hb' (lookup_delete _ _)) as Em'.
    rewrite Em, Em'. split; [done|]. split.
    + intros _. rewrite (shows_read _ _ _ _ Hs' Hb'), (shows_read _ _ _ _ Hs Ha).
      rewrite (read_None _ _ _ (lookup_delete _ _)). by rewrite read_None.
    + intros u Hu Hne. apply Hother; [done|]. by rewrite lookup_delete_ne.
  - match goal with HSa : S !! a = Some _ |- _ => pose proof (shows_mapped g s S a _ Hs Ha HSa) as Em end.
    pose proof (shows_mapped g s' _ b _ Hs' Hb' (lookup_insert _ _ _)) as Em'.
    rewrite Em, Em'. split; [done|]. split; [done|].
    intros u Hu Hne. apply Hother; [done|]. by rewrite lookup_insert_ne.
Qed.
End copyprops.
