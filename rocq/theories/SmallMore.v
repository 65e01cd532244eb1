(** C64 (continued): work, journal size and the self-checks of the project's own
    tests on chips with pages of 256 bytes.  Nothing here models code. *)
From stdpp Require Import gmap fin_maps.
From Verif Require Import Base Bytes BytesLemmas Wp Nand Journal MapModel Api Geom Tree Rep Age Inv
  StepJ MapStep MapOps Spec Ppc History Pres Props Misc Wear Quiet Work Check CheckMap Refute RefuteP Small SmallRoom.
Local Open Scope Z_scope.

Section smallmore.
Context (g : geo) (weak : Z -> bool) (Hsup : supported_small g) (Hfew : few_weak g weak).
Let c := choose_ppc (g_lps g) (g_lppb g).
Let Hg : geo_ok g c := supported_small_geo g Hsup.

(** The bounds of C51. *)
Theorem C64_bounded_work s fuel o r s' : reachable_on g weak s -> enough_fuel g fuel -> valid_op g o ->
  exec fuel o s = (r, s') -> ticks (chip s') - ticks (chip s) <= budget 48 (m_gcr s) c o.
Proof.
  intros Hr Hf Hv E. destruct (on_MX g weak Hsup Hfew s Hr) as (S & Sd & HM).
  pose proof (exec_ticks g weak Hsup Hfew false fuel o s S Sd r s' Hf HM ltac:(intros H; discriminate H) Hv E) as H.
  unfold ops_append in H. fold c in H. lia.
Qed.
Theorem C64_bounded_work_fault_free s fuel o r s' : reachable_on g weak s -> enough_fuel g fuel -> valid_op g o ->
  no_fail (chip s) ->
  exec fuel o s = (r, s') -> ticks (chip s') - ticks (chip s) <= budget 3 (m_gcr s) c o.
Proof.
  intros Hr Hf Hv Hn E. destruct (on_MX g weak Hsup Hfew s Hr) as (S & Sd & HM).
  pose proof (exec_ticks g weak Hsup Hfew true fuel o s S Sd r s' Hf HM ltac:(intros _; exact Hn) Hv E) as H.
  unfold ops_append in H. fold c in H. lia.
Qed.

(** The journal size of C26. *)
Theorem C64_journal_size s :
  reachable_on g weak s ->
  let j := js_j (m_js s) in
  let total := g_nblk g * 2 ^ g_lppb g in
  journal_size g j = user_pages total (j_ppc j) (j_tsync j) (Z.to_nat ((j_head j - j_tsync j) mod total)) /\
  0 <= journal_size g j <= g_nblk g * (2 ^ (g_lppb g - j_ppc j) * (2 ^ j_ppc j - 1)).
Proof.
  intros Hr. destruct (on_MX g weak Hsup Hfew s Hr) as (S & Sd & HM).
  exact (jsize_MX g c Hg weak s S Sd HM).
Qed.

(** The checks of the project's tests (C45, C46) never fail. *)
Theorem C64_journal_pointers s : reachable_on g weak s -> jt_check g (js_j (m_js s)) = true.
Proof.
  intros Hr. destruct (on_MX g weak Hsup Hfew s Hr) as (S & Sd & _ & hv & tv & sv & K & D & HI).
  pose proof (mi_j _ _ _ _ _ _ _ _ _ _ _ HI) as [_ Hj _ _]. by eapply (JInv_check g c Hg).
Qed.
Theorem C64_index_tree s : reachable_on g weak s ->
  MapModel.map_size s <> 0 \/ j_root (js_j (m_js s)) = PAGE_NONE ->
  mt_check s = (OK tt, s).
Proof.
  intros Hr Hor. destruct (on_MX g weak Hsup Hfew s Hr) as (S & Sd & HX).
  unfold mt_check, bind. rewrite (MX_check g c Hg weak _ _ _ HX) by exact Hor.
  unfold gets, assertm. by rewrite Z.eqb_refl.
Qed.
End smallmore.

(** A state that meets the hypotheses, with four sectors in its index tree. *)
Example smallmore_C64 : exists s,
  supported_small g62 /\ few_weak g62 (fun _ => false) /\ reachable_on g62 (fun _ => false) s /\
  MapModel.map_size s = 4 /\ no_fail (chip s).
Proof.
  destruct smallroom_C64 as (rs & s & H1 & H2 & H3 & H4 & H5 & H6 & H7 & H8 & H9 & _).
  exists s. split; [exact H1|]. split; [exact H2|]. split.
  { exists n62, 600%nat, 15, 0, ops64, rs. split; [exact H3|]. split; [exact H5|]. split; [exact H6|]. split; [exact H8|exact H9]. }
  assert (E : snd (run 600 15 0 (map HOp ops64) (snd (restart 15 0 n62))) = s).
  { pose proof (f_equal snd H8) as X. exact X. }
  rewrite <- E. clear. 
  split; [vm_compute; reflexivity|].
  intros t o f. assert (Ho : n_orc (chip (snd (run 600 15 0 (map HOp ops64) (snd (restart 15 0 n62)))) ) t o = EvOk). { vm_compute. reflexivity. } rewrite Ho. discriminate.
Qed.
