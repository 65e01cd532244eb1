(** Geometry: bit operations as division, and unwrapped ("virtual") journal
    positions. *)
From Verif Require Import Base Bytes BytesLemmas Nand Journal.
Local Open Scope Z_scope.

(** ** General arithmetic *)
Lemma mod_inj n a b : 0 < n -> a mod n = b mod n -> -n < a - b < n -> a = b.
Proof.
  intros Hn He Hr. pose proof (Z.div_mod a n ltac:(lia)). pose proof (Z.div_mod b n ltac:(lia)).
  assert (n * (a / n - b / n) = a - b) by lia.
  assert (a / n - b / n = 0) by nia. lia.
Qed.

Lemma divmod_add n v k : 0 < n -> 0 <= v mod n + k < n ->
  (v + k) / n = v / n /\ (v + k) mod n = v mod n + k.
Proof.
  intros Hn Hr. pose proof (Z.div_mod v n ltac:(lia)).
  assert (E : v + k = n * (v / n) + (v mod n + k)) by lia.
  split.
  - symmetry. apply Z.div_unique with (r := v mod n + k); [left; exact Hr|lia].
  - symmetry. apply Z.mod_unique with (q := v / n); [left; exact Hr|exact E].
Qed.

Lemma divmod_wrap n v k : 0 < n -> v mod n + k = n ->
  (v + k) / n = v / n + 1 /\ (v + k) mod n = 0.
Proof.
  intros Hn Hr. pose proof (Z.div_mod v n ltac:(lia)).
  assert (E : v + k = n * (v / n + 1) + 0) by lia.
  split.
  - symmetry. apply Z.div_unique with (r := 0); [left; lia|exact E].
  - symmetry. apply Z.mod_unique with (q := v / n + 1); [left; lia|exact E].
Qed.

Lemma mod_mod_mul n k v : 0 < n -> 0 < k -> (v mod (n * k)) mod n = v mod n.
Proof.
  intros. pose proof (Z.div_mod v (n * k) ltac:(nia)) as E.
  replace v with (v mod (n * k) + (k * (v / (n * k))) * n) at 2 by lia.
  by rewrite Z.mod_add by lia.
Qed.
Lemma div_mod_mul n k v : 0 < n -> 0 < k -> (v mod (n * k)) / n = (v / n) mod k.
Proof.
  intros. pose proof (Z.div_mod v (n * k) ltac:(nia)) as E.
  rewrite <-Z.div_div in E by lia.
  pose proof (Z.mod_pos_bound v (n * k) ltac:(nia)).
  pose proof (Z.div_mod (v / n) k ltac:(lia)).
  pose proof (Z.mod_pos_bound (v / n) k ltac:(lia)).
  pose proof (Z.div_mod v n ltac:(lia)).
  pose proof (Z.mod_pos_bound v n ltac:(lia)).
  symmetry. apply Z.div_unique with (r := v mod n); [lia|].
  assert (n * (v/n) = n * (k * (v / n / k)) + n * ((v / n) mod k)) by nia.
  lia.
Qed.

(** ** Bit operations *)
Lemma land_mask p n : 0 <= n -> Z.land p (Z.shiftl 1 n - 1) = p mod 2 ^ n.
Proof. intros.   replace (Z.shiftl 1 n - 1) with (Z.ones n).
  - by apply Z.land_ones.
  - rewrite Z.ones_equiv, Z.shiftl_1_l. lia.
Qed.
Lemma is_aligned_spec p n : 0 <= n -> is_aligned p n = (p mod 2 ^ n =? 0).
Proof. intros. unfold is_aligned. by rewrite land_mask. Qed.
Lemma align_eq_spec a b n : 0 <= n -> align_eq a b n = (a / 2 ^ n =? b / 2 ^ n).
Proof.
  intros Hn. unfold align_eq. rewrite Z.shiftr_lxor, !Z.shiftr_div_pow2 by done.
  destruct (Z.eqb_spec (a / 2 ^ n) (b / 2 ^ n)) as [->|Hne].
  - by rewrite Z.lxor_nilpotent.
  - apply Z.eqb_neq. intros E. apply Hne. by apply Z.lxor_eq.
Qed.
Lemma lor_mask p n : 0 <= n -> Z.lor p (Z.shiftl 1 n - 1) = p / 2 ^ n * 2 ^ n + (2 ^ n - 1).
Proof.
  intros Hn.
  replace (Z.shiftl 1 n - 1) with (Z.ones n)
    by (rewrite Z.ones_equiv, Z.shiftl_1_l; lia).
  assert (E : 2 ^ n - 1 = Z.ones n) by (rewrite Z.ones_equiv; lia). 
  rewrite <-Z.shiftr_div_pow2 by done.
  pose proof (lor_shiftl_add (2 ^ n - 1) (Z.shiftr p n) n Hn) as H.
  assert (0 < 2 ^ n) by (apply Z.pow_pos_nonneg; lia).
  rewrite Z.add_comm, <-H by lia. rewrite E.
  apply Z.bits_inj'. intros i Hi. rewrite !Z.lor_spec.
  destruct (Z.lt_ge_cases i n).
  - rewrite Z.ones_spec_low by lia. by rewrite orb_true_r.
  - rewrite Z.ones_spec_high by lia. rewrite orb_false_r, orb_false_l.
    rewrite Z.shiftl_spec by lia. rewrite Z.shiftr_spec by lia. f_equal. lia.
Qed.
Lemma land_lnot_mask p n : 0 <= n -> Z.land p (Z.lnot (Z.shiftl 1 n - 1)) = p / 2 ^ n * 2 ^ n.
Proof.
  intros Hn.
  replace (Z.shiftl 1 n - 1) with (Z.ones n)
    by (rewrite Z.ones_equiv, Z.shiftl_1_l; lia).
  rewrite <-Z.shiftr_div_pow2, <-Z.shiftl_mul_pow2 by done.
  rewrite <-Z.ldiff_land, Z.ldiff_ones_r by done. done.
Qed.

(** ** Geometry of a valid chip *)
Record geo_ok (g : geo) (c : Z) : Prop := {
  go_c : 1 <= c <= g_lppb g;
  go_b : 2 <= g_lppb g;
  go_c8 : c <= 8;
  go_lps : 0 <= g_lps g;
  go_fit : HEADER_SIZE + COOKIE_SIZE + (2 ^ c - 1) * META_SIZE <= page_size g;
  go_nb : 8 <= g_nblk g;
  go_total : g_nblk g * 2 ^ g_lppb g <= 2 ^ 31
}.

(** The same, with at least four pages per checkpoint group. *)
Record geo_ok2 (g : geo) (c : Z) : Prop := {
  go2_ok :> geo_ok g c;
  go2_c : 2 <= c
}.

Section geom.
Context (g : geo) (c : Z) (Hg : geo_ok g c).

Definition PB : Z := 2 ^ g_lppb g.   (* pages per block *)
Definition PC : Z := 2 ^ c.          (* pages per checkpoint group *)
Definition NB : Z := g_nblk g.       (* blocks *)
Definition TT : Z := NB * PB.        (* pages *)
Definition GP : Z := 2 ^ (g_lppb g - c). (* groups per block *)

Lemma PB_def : PB = PC * GP.
Proof. unfold PB, PC, GP. destruct Hg. rewrite <-Z.pow_add_r by lia. f_equal. lia. Qed.
Lemma PC_ge : 2 <= PC.
Proof. unfold PC. destruct Hg. change 2 with (2 ^ 1). apply Z.pow_le_mono_r; lia. Qed.
Lemma PC_ge4 : 2 <= c -> 4 <= PC.
Proof. unfold PC. intros. change 4 with (2 ^ 2). apply Z.pow_le_mono_r; lia. Qed.
Lemma PC_le : PC <= 256.
Proof. unfold PC. destruct Hg. change 256 with (2 ^ 8). apply Z.pow_le_mono_r; lia. Qed.
Lemma GP_ge : 1 <= GP.
Proof. unfold GP. destruct Hg. assert (0 < 2 ^ (g_lppb g - c)) by (apply Z.pow_pos_nonneg; lia). lia. Qed.
Lemma NB_ge : 8 <= NB. Proof. by destruct Hg. Qed.
Lemma TT_le : TT <= 2147483648. Proof. destruct Hg. unfold TT, NB, PB. lia. Qed.
Lemma PB_ge : PC <= PB. Proof. rewrite PB_def. pose proof PC_ge. pose proof GP_ge. nia. Qed.
Lemma PB_pos : 4 <= PB.
Proof. unfold PB. destruct Hg. change 4 with (2 ^ 2). apply Z.pow_le_mono_r; lia. Qed.
Lemma TT_def : TT = PB * NB. Proof. unfold TT. lia. Qed.
Lemma TT_pos : 0 < TT. Proof. unfold TT. pose proof NB_ge. pose proof PB_pos. nia. Qed.
Lemma TT_ge : 8 * PB <= TT. Proof. unfold TT. pose proof NB_ge. pose proof PB_pos. nia. Qed.
Lemma TT_PC : TT = PC * (GP * NB). Proof. unfold TT. rewrite PB_def. lia. Qed.

Lemma c_nonneg : 0 <= c. Proof. destruct Hg. lia. Qed.
Lemma a_nonneg : 0 <= g_lppb g. Proof. destruct Hg. lia. Qed.

Lemma num_pages_TT : num_pages g = TT.
Proof.
  unfold num_pages. rewrite Z.shiftl_mul_pow2 by apply a_nonneg.
  apply w32_small. pose proof TT_le. pose proof TT_pos. unfold TT, NB, PB in *. lia.
Qed.
Lemma ppb_PB : ppb g = PB.
Proof. unfold ppb. rewrite Z.shiftl_mul_pow2 by apply a_nonneg. unfold PB. lia. Qed.
Lemma blk_of_PB p : blk_of g p = p / PB.
Proof. unfold blk_of. by rewrite Z.shiftr_div_pow2 by apply a_nonneg. Qed.
Lemma shiftr_blk p : Z.shiftr p (g_lppb g) = p / PB.
Proof. by rewrite Z.shiftr_div_pow2 by apply a_nonneg. Qed.
Lemma shiftl_blk b : Z.shiftl b (g_lppb g) = b * PB.
Proof. by rewrite Z.shiftl_mul_pow2 by apply a_nonneg. Qed.
Lemma aligned_blk p : is_aligned p (g_lppb g) = (p mod PB =? 0).
Proof. by rewrite is_aligned_spec by apply a_nonneg. Qed.
Lemma aligned_grp p : is_aligned p c = (p mod PC =? 0).
Proof. by rewrite is_aligned_spec by apply c_nonneg. Qed.
Lemma align_eq_blk p q : align_eq p q (g_lppb g) = (p / PB =? q / PB).
Proof. by rewrite align_eq_spec by apply a_nonneg. Qed.
Lemma align_eq_grp p q : align_eq p q c = (p / PC =? q / PC).
Proof. by rewrite align_eq_spec by apply c_nonneg. Qed.
Lemma shiftl_PC : Z.shiftl 1 c = PC.
Proof. rewrite Z.shiftl_1_l. done. Qed.
Lemma mask_grp p : Z.land p (Z.shiftl 1 c - 1) = p mod PC.
Proof. apply land_mask, c_nonneg. Qed.
Lemma cp_grp p : Z.lor p (Z.shiftl 1 c - 1) = p / PC * PC + (PC - 1).
Proof. apply lor_mask, c_nonneg. Qed.
Lemma page_ok_TT p : page_ok g p = true <-> 0 <= p < TT.
Proof.
  unfold page_ok. rewrite andb_true_iff, Z.leb_le, Z.ltb_lt. unfold TT, NB, PB. lia.
Qed.
Lemma block_ok_NB b : block_ok g b = true <-> 0 <= b < NB.
Proof. unfold block_ok. rewrite andb_true_iff, Z.leb_le, Z.ltb_lt. unfold NB. lia. Qed.

(** Physical page of a virtual position. *)
Definition ph (v : Z) : Z := v mod TT.

Lemma ph_range v : 0 <= ph v < TT.
Proof. apply Z.mod_pos_bound, TT_pos. Qed.
Lemma ph_ok v : page_ok g (ph v) = true.
Proof. apply page_ok_TT, ph_range. Qed.
Lemma ph_blk v : ph v / PB = (v / PB) mod NB.
Proof. unfold ph. rewrite TT_def. apply div_mod_mul; pose proof PB_pos; pose proof NB_ge; lia. Qed.
Lemma ph_off v : ph v mod PB = v mod PB.
Proof. unfold ph. rewrite TT_def. apply mod_mod_mul; pose proof PB_pos; pose proof NB_ge; lia. Qed.
Lemma ph_slot v : ph v mod PC = v mod PC.
Proof. unfold ph. rewrite TT_PC. apply mod_mod_mul; pose proof PC_ge; pose proof GP_ge; pose proof NB_ge; nia. Qed.
Lemma ph_grp v : ph v / PC = (v / PC) mod (GP * NB).
Proof. unfold ph. rewrite TT_PC. apply div_mod_mul; pose proof PC_ge; pose proof GP_ge; pose proof NB_ge; nia. Qed.
Lemma ph_small v : 0 <= v < TT -> ph v = v.
Proof. apply Z.mod_small. Qed.
Lemma ph_ph v : ph (ph v) = ph v.
Proof. unfold ph. apply Z.mod_mod. pose proof TT_pos. lia. Qed.

Lemma slot_of_off v : v mod PC = (v mod PB) mod PC.
Proof. rewrite PB_def. symmetry. apply mod_mod_mul; pose proof PC_ge; pose proof GP_ge; lia. Qed.
Lemma blk_of_grp v : v / PB = v / PC / GP.
Proof. rewrite PB_def. symmetry. apply Z.div_div; pose proof PC_ge; pose proof GP_ge; lia. Qed.
Lemma off_0_slot v : v mod PB = 0 -> v mod PC = 0.
Proof. intros H. rewrite slot_of_off, H. apply Z.mod_0_l. pose proof PC_ge. lia. Qed.
Lemma grp_blk u v : u / PC = v / PC -> u / PB = v / PB.
Proof. intros H. by rewrite !blk_of_grp, H. Qed.

(** Offset within the block in terms of group number and slot. *)
Lemma off_grp v : v mod PB = PC * ((v / PC) mod GP) + v mod PC.
Proof.
  pose proof PC_ge. pose proof GP_ge. pose proof PB_def.
  pose proof (Z.div_mod v PC ltac:(lia)). pose proof (Z.div_mod (v / PC) GP ltac:(lia)).
  pose proof (Z.mod_pos_bound v PC ltac:(lia)). pose proof (Z.mod_pos_bound (v / PC) GP ltac:(lia)).
  symmetry. apply Z.mod_unique with (q := v / PC / GP); [left; nia|]. nia.
Qed.

(** Successor of a user position. *)
Definition nextv (v : Z) : Z := if (v + 2) mod PC =? 0 then v + 2 else v + 1.
Definition user (v : Z) : Prop := v mod PC <> PC - 1.

Lemma slot_range v : 0 <= v mod PC < PC.
Proof. apply Z.mod_pos_bound. pose proof PC_ge. lia. Qed.
Lemma off_range v : 0 <= v mod PB < PB.
Proof. apply Z.mod_pos_bound. pose proof PB_pos. lia. Qed.

Lemma nextv_cases v : user v ->
  (v mod PC < PC - 2 /\ nextv v = v + 1 /\ nextv v / PC = v / PC /\ nextv v mod PC = v mod PC + 1) \/
  (v mod PC = PC - 2 /\ nextv v = v + 2 /\ nextv v / PC = v / PC + 1 /\ nextv v mod PC = 0).
Proof.
  intros Hu. unfold user in Hu. pose proof PC_ge. pose proof (slot_range v).
  unfold nextv. destruct (Z.eq_dec (v mod PC) (PC - 2)) as [E|Hne].
  - right. destruct (divmod_wrap PC v 2) as [H1 H2]; [lia|lia|].
    rewrite H2, Z.eqb_refl. auto.
  - left. destruct (divmod_add PC v 2) as [_ H2]; [lia| |].
    { destruct (Z.eq_dec (v mod PC) (PC - 2)); lia. }
    rewrite H2. destruct (Z.eqb_spec (v mod PC + 2) 0); [lia|].
    destruct (divmod_add PC v 1) as [H3 H4]; [lia|lia|]. repeat split; auto; lia.
Qed.

Lemma nextv_gt v : v < nextv v <= v + 2.
Proof. unfold nextv. destruct (_ =? 0); lia. Qed.
Lemma nextv_user v : user v -> user (nextv v).
Proof.
  intros Hu. unfold user. pose proof PC_ge.
  destruct (nextv_cases v Hu) as [(?&_&_&->)|(_&_&_&->)]; lia.
Qed.
(** No user position lies strictly between [v] and [nextv v]. *)
Lemma nextv_next u v : user u -> user v -> v < u -> nextv v <= u.
Proof.
  intros Hu Hv Hlt.
  destruct (nextv_cases v Hv) as [(?&->&_)|(E&->&_)]; [lia|].
  destruct (Z.eq_dec u (v + 1)) as [->|]; [|lia]. exfalso. apply Hu.
  pose proof PC_ge.
  destruct (divmod_add PC v 1) as [_ ->]; lia.
Qed.

Lemma nextv_blk v : user v ->
  (nextv v / PB = v / PB /\ nextv v mod PB = v mod PB + (nextv v - v)) \/
  (nextv v / PB = v / PB + 1 /\ nextv v mod PB = 0 /\ v mod PB = PB - 2 /\ nextv v = v + 2).
Proof.
  intros Hu. pose proof PC_ge. pose proof PB_ge. pose proof (off_range v).
  destruct (nextv_cases v Hu) as [(F1&E&F2&F3)|(F1&E&F2&F3)]; rewrite E.
  - left. destruct (divmod_add PB v 1) as [-> ->]; [lia| |lia].
    pose proof (off_grp v) as Ho. pose proof (Z.mod_pos_bound (v / PC) GP ltac:(pose proof GP_ge; lia)).
    pose proof PB_def. pose proof GP_ge. nia.
  - destruct (Z.eq_dec (v mod PB) (PB - 2)) as [E2|Hne].
    + right. destruct (divmod_wrap PB v 2) as [-> ->]; [lia|lia|]. auto.
    + left. destruct (divmod_add PB v 2) as [-> ->]; [lia| |lia].
      split; [lia|].
      pose proof (off_grp v) as Ho. pose proof (Z.mod_pos_bound (v / PC) GP ltac:(pose proof GP_ge; lia)).
      pose proof PB_def. pose proof GP_ge.
      assert ((v / PC) mod GP + 1 <> GP) by nia. nia.
Qed.

Lemma next_upage_ph v : 0 <= v -> user v -> next_upage g c (ph v) = ph (nextv v).
Proof.
  intros Hv Hu. unfold next_upage.
  pose proof (ph_range v). pose proof TT_le. pose proof TT_PC.
  pose proof PC_ge. pose proof GP_ge. pose proof NB_ge. pose proof TT_pos.
  rewrite (w32_small (ph v + 1)) by lia. rewrite (w32_small (ph v + 1 + 1)) by lia.
  replace (ph v + 1 + 1) with (ph v + 2) by lia.
  rewrite aligned_grp, num_pages_TT.
  assert (Hs : ph v mod PC = v mod PC) by apply ph_slot.
  assert (Hd : ph v / PC < GP * NB).
  { apply Z.div_lt_upper_bound; lia. }
  pose proof (Z.div_mod (ph v) PC ltac:(lia)) as Edm.
  assert (Hk : forall k, 0 <= k -> ph v + k < TT -> ph (v + k) = ph v + k).
  { intros k Hk0 Hk1. unfold ph. rewrite <-Z.add_mod_idemp_l by lia.
    apply Z.mod_small. fold (ph v). lia. }
  destruct (nextv_cases v Hu) as [(F1&E&_)|(F1&E&_)]; rewrite E.
  - destruct (divmod_add PC (ph v) 2) as [_ F4]; [lia| |].
    { rewrite Hs. unfold user in Hu. pose proof (slot_range v). lia. }
    rewrite F4. destruct (Z.eqb_spec (ph v mod PC + 2) 0); [pose proof (slot_range v); lia|].
    assert (ph v + 1 < TT) by nia.
    destruct (Z.leb_spec TT (ph v + 1)); [lia|]. by rewrite Hk.
  - destruct (divmod_wrap PC (ph v) 2) as [_ F4]; [lia|lia|].
    rewrite F4, Z.eqb_refl.
    assert (ph v + 2 <= TT) by nia.
    destruct (Z.leb_spec TT (ph v + 2)); [|by rewrite Hk by lia].
    unfold ph. rewrite <-Z.add_mod_idemp_l by lia. fold (ph v).
    replace (ph v + 2) with TT by lia. rewrite Z.mod_same; lia.
Qed.

Lemma next_block_ph b : next_block g (b mod NB) = (b + 1) mod NB.
Proof.
  unfold next_block. fold NB. pose proof NB_ge. pose proof (Z.mod_pos_bound b NB ltac:(lia)).
  assert (NB <= 2147483648) by (pose proof TT_le; pose proof PB_pos; unfold TT in *; nia).
  rewrite w32_small by lia.
  destruct (Z.leb_spec NB (b mod NB + 1)).
  - destruct (divmod_wrap NB b 1) as [_ ->]; lia.
  - destruct (divmod_add NB b 1) as [_ ->]; lia.
Qed.

(** Windows of [NB] blocks: physical addresses determine virtual ones. *)
Lemma win_blk h a b : h - NB < a <= h -> h - NB < b <= h -> a mod NB = b mod NB -> a = b.
Proof. intros. apply (mod_inj NB); [pose proof NB_ge; lia|done|lia]. Qed.
Lemma win_page h u v : h - NB < u / PB <= h -> h - NB < v / PB <= h -> ph u = ph v -> u = v.
Proof.
  intros Hu Hv E.
  assert (Eb : u / PB = v / PB).
  { apply (win_blk h); auto. by rewrite <-!ph_blk, E. }
  assert (Eo : u mod PB = v mod PB) by (rewrite <-(ph_off u), <-(ph_off v); by rewrite E).
  pose proof PB_pos.
  rewrite (Z.div_mod u PB), (Z.div_mod v PB) by lia. by rewrite Eb, Eo.
Qed.
Lemma win_grp h u v : h - NB < u / PB <= h -> h - NB < v / PB <= h ->
  ph u / PC = ph v / PC -> u / PC = v / PC.
Proof.
  intros Hu Hv E.
  assert (Eb : u / PB = v / PB).
  { apply (win_blk h); auto. rewrite <-!ph_blk. by apply grp_blk. }
  rewrite !ph_grp in E. rewrite !blk_of_grp in Eb.
  pose proof GP_ge. pose proof NB_ge.
  assert (Em : (u / PC) mod GP = (v / PC) mod GP).
  { rewrite <-(mod_mod_mul GP NB (u / PC)), <-(mod_mod_mul GP NB (v / PC)) by lia. by rewrite E. }
  rewrite (Z.div_mod (u / PC) GP), (Z.div_mod (v / PC) GP) by lia. by rewrite Eb, Em.
Qed.

(** Block starts. *)
Lemma blk_start b : (b * PB) / PB = b /\ (b * PB) mod PB = 0.
Proof. pose proof PB_pos. split; [apply Z.div_mul; lia|apply Z.mod_mul; lia]. Qed.
Lemma blk_start_user b : user (b * PB).
Proof. unfold user. rewrite off_0_slot; [pose proof PC_ge; lia|]. apply blk_start. Qed.
Lemma blk_start_ph b : ph (b * PB) = (b mod NB) * PB.
Proof.
  unfold ph. rewrite TT_def. rewrite (Z.mul_comm PB NB).
  pose proof PB_pos. pose proof NB_ge. by rewrite Z.mul_mod_distr_r by lia.
Qed.
Lemma blk_le u v : u <= v -> u / PB <= v / PB.
Proof. intros. apply Z.div_le_mono; [pose proof PB_pos; lia|done]. Qed.
Lemma blk_lt_start v b : v / PB < b -> v < b * PB.
Proof. intros H. pose proof (off_range v). pose proof (Z.div_mod v PB ltac:(pose proof PB_pos; lia)).
  pose proof PB_pos. nia. Qed.
Lemma blk_ge_start v b : b <= v / PB -> b * PB <= v.
Proof. intros H. pose proof (off_range v). pose proof (Z.div_mod v PB ltac:(pose proof PB_pos; lia)).
  pose proof PB_pos. nia. Qed.
Lemma blk_eq v b o : 0 <= o < PB -> v = b * PB + o -> v / PB = b /\ v mod PB = o.
Proof.
  intros Ho ->. pose proof PB_pos. split.
  - symmetry. apply Z.div_unique with (r := o); lia.
  - symmetry. apply Z.mod_unique with (q := b); lia.
Qed.
Lemma v_decomp v : v = (v / PB) * PB + v mod PB.
Proof. pose proof PB_pos. pose proof (Z.div_mod v PB). lia. Qed.

(** Checkpoint page of the group of [v]. *)
Definition cpv (v : Z) : Z := v / PC * PC + (PC - 1).
Lemma cpv_facts v : cpv v / PC = v / PC /\ cpv v mod PC = PC - 1 /\ cpv v / PB = v / PB.
Proof.
  pose proof PC_ge. unfold cpv.
  assert (E : (v / PC * PC + (PC - 1)) / PC = v / PC).
  { symmetry. apply Z.div_unique with (r := PC - 1); lia. }
  split_and!; [done| |by apply grp_blk].
  symmetry. apply Z.mod_unique with (q := v / PC); lia.
Qed.
Lemma cpv_ge v : v <= cpv v.
Proof. unfold cpv. pose proof (slot_range v). pose proof (Z.div_mod v PC ltac:(pose proof PC_ge; lia)). lia. Qed.
Lemma cpv_gt v : user v -> v < cpv v.
Proof. unfold user, cpv. pose proof (slot_range v). pose proof (Z.div_mod v PC ltac:(pose proof PC_ge; lia)). lia. Qed.
Lemma ph_add v k : 0 <= v mod PB + k < PB -> ph (v + k) = ph v + k.
Proof.
  intros Hk. pose proof PB_pos.
  assert (H1 : ph v / PB = (v / PB) mod NB) by apply ph_blk.
  assert (H2 : ph v mod PB = v mod PB) by apply ph_off.
  destruct (divmod_add PB v k) as [H3 H4]; [lia|lia|].
  pose proof (ph_blk (v + k)) as H5. pose proof (ph_off (v + k)) as H6.
  rewrite H3 in H5. rewrite H4 in H6.
  rewrite (v_decomp (ph (v + k))), (v_decomp (ph v)). rewrite H5, H6, H1, H2. lia.
Qed.
Lemma cpv_ph v : ph (cpv v) = ph v / PC * PC + (PC - 1).
Proof.
  destruct (cpv_facts v) as (H1 & H2 & H3).
  pose proof PC_ge.
  rewrite (Z.div_mod (ph (cpv v)) PC) by lia. rewrite ph_slot, H2.
  rewrite !ph_grp, H1. lia.
Qed.
End geom.
