(** However badly damaged the data, a repair stays small and inside the buffers (C61).
    Nothing here models code; the models are Hamming.v and Bch.v. *)
From stdpp Require Import list.
From Coq Require Import ZArith Lia.
From Verif Require Import EccBits Gf13 Fpoly Bch BchProof.
Local Open Scope F_scope.

Lemma toggle_is_flip i b : byte_list b -> toggle i b = flip i b.
Proof.
  intros Hb. unfold toggle, flip.
  replace (Z.to_nat (Z.shiftr (Z.of_nat i) 3)) with (i / 8)%nat.
  - apply list_alter_ext; [|done]. intros x Hx. unfold t8. change 255%Z with (Z.ones 8). rewrite Z.land_ones by lia.
    change 7%Z with (Z.ones 3). rewrite Z.land_ones by lia. rewrite Z.shiftl_1_l. change (2 ^ 3)%Z with 8%Z.
    rewrite (Nat2Z.inj_mod i 8). change (Z.of_nat 8) with 8%Z. apply Z.mod_small.
    pose proof (pow_byte i) as Hp. rewrite (Nat2Z.inj_mod i 8) in Hp. apply lxor_byte; [|exact Hp].
    eapply Forall_lookup_1; [exact Hb|exact Hx].
  - rewrite Z.shiftr_div_pow2 by lia. change (2 ^ 3)%Z with (Z.of_nat 8). rewrite <-Nat2Z.inj_div. by rewrite Nat2Z.id.
Qed.

Section bound.
Context (o : gf_ops) (Ho : good_ops o).

(** ** Berlekamp-Massey on arbitrary syndromes *)
Section bm.
Context (N : nat) (s : list Z) (Hs : forall n, (n < N)%nat -> exists x, nth n s 0%Z = fv x) (HN : (N <= 8)%nat).

Lemma disc_range C Cf n : rep C Cf -> (n < N)%nat -> forall k i d, (1 <= i)%nat -> (i + k <= n + 1)%nat ->
  exists x, disc_loop o C s n k i (fv d) = fv x.
Proof.
  intros [_ HC] Hn. induction k as [|k IH]; intros i d Hi Hk; cbn [disc_loop]; [by eexists|].
  rewrite HC by lia. destruct (Hs (n - i)%nat ltac:(lia)) as [y ->].
  assert (E : exists x, (if (fv (Cf i) =? 0)%Z || (fv y =? 0)%Z then fv d
                 else Z.lxor (fv d) (op_mul o (fv (Cf i)) (fv y))) = fv x).
  { rewrite !fv_eqb0. destruct (decide (Cf i = f0)) as [E|H1].
    - rewrite bool_decide_eq_true_2 by done. by eexists.
    - rewrite bool_decide_eq_false_2 by done. cbn [orb]. destruct (decide (y = f0)) as [E|H2].
      + rewrite bool_decide_eq_true_2 by done. by eexists.
      + rewrite bool_decide_eq_false_2 by done. rewrite (g_mul o Ho) by done. exists (d + Cf i * y). reflexivity. }
  destruct E as [x ->]. apply IH; lia.
Qed.

Record small (n : nat) (st : bm) (C B : nat -> F) (b : F) (LB : nat) : Prop := {
  sC : rep (bmC st) C;
  sB : rep (bmB st) B;
  sb : bmb st = fv b;
  sb0 : b <> f0;
  sC0 : C 0%nat = f1;
  sCd : deg_le C (bmL st);
  sBd : deg_le B LB;
  sL : (bmL st <= n)%nat;
  sm : (1 <= bmm st)%nat;
  sLB : (LB + bmm st + bmL st <= n + 1)%nat
}.

Lemma step_small n st C B b LB : (n < N)%nat -> small n st C B b LB ->
  exists C' B' b' LB', small (S n) (bm_step o s n st) C' B' b' LB'.
Proof.
  intros Hn []. destruct st as [Cl Bl L m bz]. cbn [bmC bmB bmL bmm bmb] in *. subst bz.
  unfold bm_step. destruct (Hs n Hn) as [d0 Ed0]. rewrite Ed0.
  destruct (disc_range Cl C n sC1 Hn L 1 d0 ltac:(lia) ltac:(lia)) as [d Ed]. rewrite Ed.
  rewrite fv_eqb0. destruct (decide (d = f0)) as [E|Hd].
  - rewrite bool_decide_eq_true_2 by done. exists C, B, b, LB. constructor; cbn [bmC bmB bmL bmm bmb]; try done; lia.
  - rewrite bool_decide_eq_false_2 by done. rewrite (g_div o Ho) by done.
    set (c := d * finv b). assert (Hc : c <> f0) by (apply fmul_neq0; [done|by apply finv_neq0]).
    pose proof (poly_add_spec o Ho Cl Bl C B c m sC1 sB0 Hc) as HR. fold (upd C B c m) in HR.
    assert (HC0' : upd C B c m 0%nat = f1).
    { unfold upd. rewrite decide_False by lia. rewrite sC2. ring. }
    assert (Hdeg : forall L', (L <= L')%nat -> (n + 1 - L <= L')%nat -> deg_le (upd C B c m) L').
    { intros L' H1 H2 i Hi. unfold upd. rewrite sCd0 by lia. destruct (decide _); [|ring]. rewrite sBd0 by lia. ring. }
    destruct (Nat.leb_spec (L * 2) n) as [Hle|Hgt].
    + exists (upd C B c m), C, d, L. constructor; cbn [bmC bmB bmL bmm bmb]; try done; try lia. apply Hdeg; lia.
    + exists (upd C B c m), B, b, LB. constructor; cbn [bmC bmB bmL bmm bmb]; try done; try lia. apply Hdeg; lia.
Qed.
Lemma loop_small k : forall n st, (n + k = N)%nat -> (exists C B b LB, small n st C B b LB) ->
  exists C B b LB, small N (bm_loop o s k n st) C B b LB.
Proof.
  induction k as [|k IH]; intros n st Hk (C & B & b & LB & H); cbn [bm_loop].
  - replace N with n by lia. eauto.
  - apply IH; [lia|]. apply (step_small n st C B b LB); [lia|done].
Qed.
Lemma init_small : small 0 (mkBM one_poly one_poly 0 1 1) onef onef f1 0.
Proof.
  constructor; cbn [bmC bmB bmL bmm bmb]; try lia; try apply one_rep; try done; try apply f1_neq_f0.
  - intros [|i] Hi; [lia|done].
  - intros [|i] Hi; [lia|done].
Qed.
Lemma sigma_small : exists f, rep (berlekamp_massey o s N) f /\ f 0%nat = f1 /\ deg_le f (min N 7).
Proof.
  destruct (loop_small N 0 _ ltac:(lia) ltac:(eauto using init_small)) as (C & B & b & LB & []).
  set (st := bm_loop o s N 0 _) in *.
  exists (fun i => if decide (i < 8)%nat then C i else f0). split_and!.
  - destruct sC1 as [Hl HC]. unfold berlekamp_massey. fold st. split.
    + rewrite app_length, take_length, replicate_length, Hl. done.
    + intros i Hi. destruct (decide (i < 8)%nat) as [Hlt|Hge].
      * rewrite app_nth1 by (rewrite take_length, Hl; lia). rewrite <-HC by done.
        rewrite !nth_lookup, lookup_take by done. done.
      * rewrite nth_lookup, lookup_app_r by (rewrite take_length, Hl; lia).
        destruct (replicate 8 0%Z !! _) as [x|] eqn:E; [|done]. apply lookup_replicate in E as [-> _]. done.
  - rewrite decide_True by lia. done.
  - intros i Hi. destruct (decide (i < 8)%nat); [|done]. apply sCd0. lia.
Qed.
End bm.

(** ** A polynomial of degree at most [n] has at most [n] roots *)
Lemma roots_bound f n rs : f 0%nat = f1 -> deg_le f n -> (n < 16)%nat -> NoDup rs ->
  (forall r, r ∈ rs -> sumn 16 (fun i => f i * fpow r i) = f0) -> (length rs <= n)%nat.
Proof.
  intros H0 Hd Hn Hnd Hr. destruct (le_lt_dec (length rs) n) as [|Hlt]; [done|]. exfalso.
  assert (Hlong : forall y, sumn 16 (fun i => f i * fpow y i) = sumn (S n) (fun i => f i * fpow y i)).
  { intros y. apply sumn_long; [lia|]. intros i Hi. rewrite Hd by lia. ring. }
  destruct (drop n rs) as [|y l] eqn:Ed.
  { apply (f_equal length) in Ed. rewrite drop_length in Ed. cbn in Ed. lia. }
  assert (Hy : y ∈ rs). { rewrite <-(take_drop n rs), Ed. apply elem_of_app. right. apply elem_of_list_here. }
  assert (Hin : y ∈ take n rs).
  { apply (no_other_root f n).
    - done.
    - rewrite take_length. lia.
    - rewrite <-(take_drop n rs) in Hnd. by apply NoDup_app in Hnd as (? & _).
    - intros r Hr'. rewrite <-Hlong. apply Hr. rewrite <-(take_drop n rs). apply elem_of_app. by left.
    - rewrite <-Hlong. by apply Hr. }
  rewrite <-(take_drop n rs), Ed in Hnd. apply NoDup_app in Hnd as (_ & Hnd & _).
  apply (Hnd y Hin). apply elem_of_list_here.
Qed.

(** ** The correction loops on an arbitrary polynomial *)
Definition inva (j : nat) : F := fpow (finv alpha) j.
Lemma inva_neq0 j : inva j <> f0.
Proof. apply fpow_neq0, finv_neq0, alpha_neq. Qed.
Lemma inva_inj i j : (i < ORD)%nat -> (j < ORD)%nat -> inva i = inva j -> i = j.
Proof.
  intros Hi Hj E. apply alpha_inj; [done..|].
  assert (H : forall k, fpow alpha k * inva k = f1).
  { intros k. unfold inva. rewrite <-fpow_mul_l, finv_r, fpow_1_l by apply alpha_neq. done. }
  transitivity (fpow alpha i * (fpow alpha j * inva j)); [rewrite H; ring|]. rewrite <-E.
  transitivity (fpow alpha j * (fpow alpha i * inva i)); [ring|]. rewrite H. ring.
Qed.
Context (sigma : list Z).
Fixpoint hitb (k i j : nat) : list nat :=
  match k with O => [] | S k => hitb k (S i) (S j) ++ (if (poly_eval o sigma (fv (inva j)) =? 0)%Z then [i] else []) end.
Lemma fix_hitb k : forall i j b, byte_list b ->
  fix_loop o sigma k i (fv (inva j)) b = (fv (inva (j + k)), flips (hitb k i j) b).
Proof.
  induction k as [|k IH]; intros i j b Hb; cbn [fix_loop hitb].
  - by rewrite Nat.add_0_r.
  - rewrite (g_divx o Ho) by apply inva_neq0. change (finv alpha * inva j) with (inva (S j)).
    rewrite toggle_is_flip by done. rewrite flips_app.
    rewrite IH; [|destruct (_ =? _)%Z; [by apply flip_bytes|done]].
    rewrite Nat.add_succ_comm. destruct (_ =? _)%Z; reflexivity.
Qed.
Lemma hitb_elem k : forall i j p, p ∈ hitb k i j -> (i <= p < i + k)%nat /\ (poly_eval o sigma (fv (inva (p - i + j))) =? 0)%Z = true.
Proof.
  induction k as [|k IH]; intros i j p; cbn [hitb]; [by rewrite elem_of_nil|].
  rewrite elem_of_app. intros [H|H].
  - apply IH in H as [H1 H2]. split; [lia|]. by replace (p - i + j)%nat with (p - S i + S j)%nat by lia.
  - destruct (_ =? _)%Z eqn:E; [|by apply elem_of_nil in H]. apply elem_of_list_singleton in H as ->.
    split; [lia|]. by replace (i - i + j)%nat with j by lia.
Qed.
Lemma hitb_NoDup k : forall i j, NoDup (hitb k i j).
Proof.
  induction k as [|k IH]; intros i j; cbn [hitb]; [constructor|]. apply NoDup_app. split_and!; [done| |].
  - intros p Hp Hq. apply hitb_elem in Hp as [Hp _]. destruct (_ =? _)%Z; [apply elem_of_list_singleton in Hq; lia|by apply elem_of_nil in Hq].
  - destruct (_ =? _)%Z; [apply NoDup_singleton|constructor].
Qed.
Lemma hitb_few f n a b : rep sigma f -> f 0%nat = f1 -> deg_le f n -> (n < 16)%nat -> (a + b < ORD)%nat ->
  (length (hitb a 0 0) + length (hitb b 0 a) <= n)%nat.
Proof.
  intros Hf H0 Hd Hn Hab.
  set (js := hitb a 0 0 ++ map (Nat.add a) (hitb b 0 a)).
  assert (Hjs : forall j, j ∈ js -> (j < a + b)%nat /\ (poly_eval o sigma (fv (inva j)) =? 0)%Z = true).
  { intros j Hj. unfold js in Hj. apply elem_of_app in Hj as [Hj|Hj].
    - apply hitb_elem in Hj as [H1 H2]. split; [lia|]. by replace (j - 0 + 0)%nat with j in H2 by lia.
    - apply elem_of_list_fmap in Hj as (k & -> & Hk). apply hitb_elem in Hk as [H1 H2]. split; [lia|].
      by replace (k - 0 + a)%nat with (a + k)%nat in H2 by lia. }
  assert (Hnd : NoDup js).
  { unfold js. apply NoDup_app. split_and!; [apply hitb_NoDup| |].
    - intros p Hp Hq. apply hitb_elem in Hp as [Hp _]. apply elem_of_list_fmap in Hq as (k & -> & _). lia.
    - apply NoDup_fmap_2; [|apply hitb_NoDup]. intros x y. lia. }
  assert (Hl : length (map inva js) = (length (hitb a 0 0) + length (hitb b 0 a))%nat).
  { unfold js. by rewrite map_length, app_length, map_length. }
  rewrite <-Hl. apply (roots_bound f); [done..| |].
  - clear Hl. clearbody js. induction Hnd as [|p l Hp _ IH]; [constructor|]. cbn [map]. constructor.
    + intros Hin. apply elem_of_list_fmap in Hin as (q & E & Hq).
      pose proof (Hjs p ltac:(apply elem_of_list_here)) as [? _]. pose proof (Hjs q ltac:(by apply elem_of_list_further)) as [? _].
      apply inva_inj in E; [by subst|lia|lia].
    + apply IH. intros q Hq. apply Hjs. by apply elem_of_list_further.
  - intros r Hr. apply elem_of_list_fmap in Hr as (j & -> & Hj). destruct (Hjs j Hj) as [_ E].
    rewrite (poly_eval_spec o Ho sigma f) in E by (done || apply inva_neq0).
    rewrite fv_eqb0 in E. apply bool_decide_eq_true in E. apply fmul_eq0 in E as [E|E]; [by apply inva_neq0 in E|done].
Qed.
End bound.

(** C61.  Whatever was read back from a chunk and its ECC bytes, a BCH repair flips at most 2t
    bits (and never more than seven), all of them bits of the chunk or bits of the ECC that
    are in use, in both builds of the field arithmetic. *)
Theorem C61_bch_repair_bounded o t def chunk ecc : o = gf_tables \/ o = gf_no_tables -> In (t, def) codes ->
  byte_list chunk -> (length chunk <= 1016)%nat -> byte_list ecc -> length ecc = d_ecc_bytes def ->
  exists is ks, bch_repair o def chunk ecc = (flips is chunk, flips ks ecc) /\
    NoDup is /\ Forall (fun p => (p < nbits chunk)%nat) is /\
    NoDup ks /\ Forall (fun k => (k < d_degree def)%nat) ks /\
    (length is + length ks <= 2 * t)%nat /\ (length is + length ks <= 7)%nat.
Proof.
  intros Hoo Hc Hb Hl He Hel.
  assert (Ho : good_ops o) by (destruct Hoo as [-> | ->]; [apply tables_good|apply no_tables_good]).
  assert (Hp : d_syns def = (2 * t)%nat /\ (d_syns def <= 8)%nat /\ (d_degree def <= 52)%nat).
  { destruct Hc as [E|[E|[E|[E|[]]]]]; apply pair_equal_spec in E as [<- <-]; cbn; lia. }
  destruct Hp as (Hp1 & Hp2 & Hp3).
  unfold bch_repair. set (s := syndromes _ _ _ _ _ _).
  destruct (sigma_small o Ho (d_syns def) s) as (f & Hf & H0 & Hd); [|done|].
  { intros n Hn. unfold s. replace 2%Z with (fv (fpow alpha 1)).
    - rewrite (syndromes_spec o Ho) by done. by eexists.
    - change 2%Z with (fv alpha). apply (f_equal fv). cbn [fpow]. ring. }
  set (sigma := berlekamp_massey o s (d_syns def)) in *.
  change 1%Z with (fv (inva 0)).
  rewrite (fix_hitb o Ho sigma) by done. cbn [Nat.add].
  rewrite (fix_hitb o Ho sigma) by done.
  assert (HO : (8 * length chunk + d_degree def < ORD)%nat) by (pose proof ORD_val; lia).
  pose proof (hitb_few o Ho sigma f _ (8 * length chunk) (d_degree def) Hf H0 Hd ltac:(lia) HO) as Hfew.
  eexists _, _. split; [reflexivity|]. split_and!; try apply hitb_NoDup.
  - apply Forall_forall. intros p Hp. apply hitb_elem in Hp as [Hp _]. unfold nbits. lia.
  - apply Forall_forall. intros p Hp. apply hitb_elem in Hp as [Hp _]. lia.
  - lia.
  - lia.
Qed.

(** Hopeless data: two wrong bits under the one-bit code.  Here the repair spoils a third bit,
    after which the data even passes verification. *)
Definition eb_chunk : list Z := replicate 12 7%Z.
Example ex_C61_hopeless : let e := bch_generate bch_1bit eb_chunk in
  let r := bch_repair gf_tables bch_1bit (flips [0; 94]%nat eb_chunk) e in
  existsb (fun p => bool_decide (r = (flips [p] (flips [0; 94]%nat eb_chunk), e))) (seq 8 8) = true /\
  bch_verify bch_1bit (fst r) (snd r) = 0%Z.
Proof. by vm_compute. Qed.
