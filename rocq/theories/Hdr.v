(** The checkpoint header push_meta builds, as one function of the buffer. *)
From Verif Require Import Base Bytes BytesLemmas Wp Nand Journal.
Local Open Scope Z_scope.

Definition mk_cp (b : bytes) (e t bc bl : Z) : bytes :=
  splice 12 (w32_bytes bl) (splice 8 (w32_bytes bc) (splice 4 (w32_bytes t)
    (splice 3 [w8 e] (splice 0 [68; 104; 97] b)))).

Lemma blen3 x y z : blen [x; y; z] = 3. Proof. done. Qed.
Lemma blen1 x : blen [x] = 1. Proof. done. Qed.

Lemma blen_mk_cp b e t bc bl : 16 <= blen b -> blen (mk_cp b e t bc bl) = blen b.
Proof.
  intros H. unfold mk_cp.
  assert (L1 : blen (splice 0 [68; 104; 97] b) = blen b) by (apply blen_splice; rewrite ?blen3; lia).
  assert (L2 : blen (splice 3 [w8 e] (splice 0 [68; 104; 97] b)) = blen b).
  { rewrite blen_splice; [done|lia|]. rewrite L1, blen1. lia. }
  assert (L3 : blen (splice 4 (w32_bytes t) (splice 3 [w8 e] (splice 0 [68; 104; 97] b))) = blen b).
  { rewrite blen_splice; [done|lia|]. rewrite L2, blen_w32_bytes. lia. }
  assert (L4 : blen (splice 8 (w32_bytes bc) (splice 4 (w32_bytes t) (splice 3 [w8 e] (splice 0 [68; 104; 97] b)))) = blen b).
  { rewrite blen_splice; [done|lia|]. rewrite L3, blen_w32_bytes. lia. }
  rewrite blen_splice; [done|lia|]. rewrite L4, blen_w32_bytes. lia.
Qed.

Lemma bget_mk_cp b e t bc bl i : 16 <= blen b -> 0 <= i ->
  bget (mk_cp b e t bc bl) i =
    if i <? 3 then bget [68; 104; 97] i
    else if i =? 3 then w8 e
    else if i <? 8 then bget (w32_bytes t) (i - 4)
    else if i <? 12 then bget (w32_bytes bc) (i - 8)
    else if i <? 16 then bget (w32_bytes bl) (i - 12)
    else bget b i.
Proof.
  intros H Hi. unfold mk_cp.
  assert (L1 : blen (splice 0 [68; 104; 97] b) = blen b) by (apply blen_splice; rewrite ?blen3; lia).
  assert (L2 : blen (splice 3 [w8 e] (splice 0 [68; 104; 97] b)) = blen b).
  { rewrite blen_splice; [done|lia|]. rewrite L1, blen1. lia. }
  assert (L3 : blen (splice 4 (w32_bytes t) (splice 3 [w8 e] (splice 0 [68; 104; 97] b))) = blen b).
  { rewrite blen_splice; [done|lia|]. rewrite L2, blen_w32_bytes. lia. }
  assert (L4 : blen (splice 8 (w32_bytes bc) (splice 4 (w32_bytes t) (splice 3 [w8 e] (splice 0 [68; 104; 97] b)))) = blen b).
  { rewrite blen_splice; [done|lia|]. rewrite L3, blen_w32_bytes. lia. }
  rewrite bget_splice by (rewrite ?L4, ?blen_w32_bytes; lia).
  rewrite bget_splice by (rewrite ?L3, ?blen_w32_bytes; lia).
  rewrite bget_splice by (rewrite ?L2, ?blen_w32_bytes; lia).
  rewrite bget_splice by (rewrite ?L1, ?blen1; lia).
  rewrite bget_splice by (rewrite ?blen3; lia).
  rewrite !blen_w32_bytes. change (blen [w8 e]) with 1. change (blen [68; 104; 97]) with 3.
  repeat match goal with
  | |- context [?a <=? ?b] => destruct (Z.leb_spec a b); try lia; cbn [andb]
  | |- context [?a <? ?b] => destruct (Z.ltb_spec a b); try lia; cbn [andb]
  | |- context [?a =? ?b] => destruct (Z.eqb_spec a b); try lia; cbn [andb]
  end; try done.
  - subst i. change (bget [w8 e] (3 - 3)) with (w8 (w8 e)). by rewrite w8_small by apply w8_range.
  - f_equal. lia.
Qed.

Lemma slice_mk_cp b e t bc bl off n : 16 <= blen b -> 16 <= off ->
  slice off n (mk_cp b e t bc bl) = slice off n b.
Proof.
  intros H Ho. unfold mk_cp.
  assert (L1 : blen (splice 0 [68; 104; 97] b) = blen b) by (apply blen_splice; rewrite ?blen3; lia).
  assert (L2 : blen (splice 3 [w8 e] (splice 0 [68; 104; 97] b)) = blen b).
  { rewrite blen_splice; [done|lia|]. rewrite L1, blen1. lia. }
  assert (L3 : blen (splice 4 (w32_bytes t) (splice 3 [w8 e] (splice 0 [68; 104; 97] b))) = blen b).
  { rewrite blen_splice; [done|lia|]. rewrite L2, blen_w32_bytes. lia. }
  assert (L4 : blen (splice 8 (w32_bytes bc) (splice 4 (w32_bytes t) (splice 3 [w8 e] (splice 0 [68; 104; 97] b)))) = blen b).
  { rewrite blen_splice; [done|lia|]. rewrite L3, blen_w32_bytes. lia. }
  rewrite slice_splice_after by (rewrite ?L4, ?blen_w32_bytes; lia).
  rewrite slice_splice_after by (rewrite ?L3, ?blen_w32_bytes; lia).
  rewrite slice_splice_after by (rewrite ?L2, ?blen_w32_bytes; lia).
  rewrite slice_splice_after by (rewrite ?L1, ?blen1; lia).
  rewrite slice_splice_after by (rewrite ?blen3; lia). done.
Qed.

Lemma magic_mk_cp b e t bc bl : 16 <= blen b -> hdr_has_magic (mk_cp b e t bc bl) = true.
Proof. intros H. unfold hdr_has_magic. by rewrite !bget_mk_cp by lia. Qed.
Lemma epoch_mk_cp b e t bc bl : 16 <= blen b -> hdr_get_epoch (mk_cp b e t bc bl) = w8 e.
Proof. intros H. unfold hdr_get_epoch. by rewrite !bget_mk_cp by lia. Qed.

Lemma r32_bget d : r32 d = r32 [bget d 0; bget d 1; bget d 2; bget d 3].
Proof. rewrite r32_bytes by apply bget_range. apply r32_eq. Qed.
Lemma get32_bget off b : 0 <= off ->
  get32 off b = r32 [bget b off; bget b (off + 1); bget b (off + 2); bget b (off + 3)].
Proof.
  intros H. rewrite get32_slice by done. rewrite r32_bget.
  rewrite !bget_slice by lia. by rewrite Z.add_0_r.
Qed.
Lemma tail_mk_cp b e t bc bl : 16 <= blen b -> hdr_get_tail (mk_cp b e t bc bl) = w32 t.
Proof.
  intros H. unfold hdr_get_tail. rewrite get32_bget by lia.
  rewrite !bget_mk_cp by lia. rewrite <-r32_w32_bytes. symmetry. apply r32_bget.
Qed.
Lemma bbc_mk_cp b e t bc bl : 16 <= blen b -> hdr_get_bb_current (mk_cp b e t bc bl) = w32 bc.
Proof.
  intros H. unfold hdr_get_bb_current. rewrite get32_bget by lia.
  rewrite !bget_mk_cp by lia. rewrite <-r32_w32_bytes. symmetry. apply r32_bget.
Qed.
Lemma bbl_mk_cp b e t bc bl : 16 <= blen b -> hdr_get_bb_last (mk_cp b e t bc bl) = w32 bl.
Proof.
  intros H. unfold hdr_get_bb_last. rewrite get32_bget by lia.
  rewrite !bget_mk_cp by lia. rewrite <-r32_w32_bytes. symmetry. apply r32_bget.
Qed.

Lemma all_ff_mk_cp b e t bc bl : 16 <= blen b -> all_ff (mk_cp b e t bc bl) = false.
Proof.
  intros H. pose proof (bget_mk_cp b e t bc bl 0 H ltac:(lia)) as E.
  unfold bget in E. change (Z.to_nat 0) with 0%nat in E. cbn [Z.ltb Z.compare nth] in E.
  destruct (mk_cp b e t bc bl) as [|x l]; [done|]. cbn [nth] in E. 
  unfold all_ff. cbn [forallb]. destruct (Z.eqb_spec x 255) as [->|]; [discriminate E|done].
Qed.

(** The buffer writes of push_meta (journal.c:797-801) produce [mk_cp]. *)
Lemma buf_put_ok off src s : 0 <= off -> off + blen src <= blen (j_buf (js_j s)) ->
  buf_put off src s = (OK tt, Js (js_n s) (set_buf (splice off src (j_buf (js_j s))) (js_j s))).
Proof.
  intros H1 H2. unfold buf_put.
  rewrite (proj2 (Z.leb_le _ _) H1), (proj2 (Z.leb_le _ _) H2). done.
Qed.

Lemma put_hdr_ok {A} e t bc bl s (k : MJ A) : 16 <= blen (j_buf (js_j s)) ->
  (hdr_put_magic;;; hdr_set_epoch e;;; hdr_set_tail t;;; hdr_set_bb_current bc;;; hdr_set_bb_last bl;;; k) s
  = k (Js (js_n s) (set_buf (mk_cp (j_buf (js_j s)) e t bc bl) (js_j s))).
Proof.
  intros H. unfold bind, hdr_put_magic, hdr_set_epoch, hdr_set_tail, hdr_set_bb_current, hdr_set_bb_last.
  set (b := j_buf (js_j s)) in *.
  assert (L1 : blen (splice 0 [68; 104; 97] b) = blen b) by (apply blen_splice; rewrite ?blen3; lia).
  assert (L2 : blen (splice 3 [w8 e] (splice 0 [68; 104; 97] b)) = blen b).
  { rewrite blen_splice; [done|lia|]. rewrite L1, blen1. lia. }
  assert (L3 : blen (splice 4 (w32_bytes t) (splice 3 [w8 e] (splice 0 [68; 104; 97] b))) = blen b).
  { rewrite blen_splice; [done|lia|]. rewrite L2, blen_w32_bytes. lia. }
  assert (L4 : blen (splice 8 (w32_bytes bc) (splice 4 (w32_bytes t) (splice 3 [w8 e] (splice 0 [68; 104; 97] b)))) = blen b).
  { rewrite blen_splice; [done|lia|]. rewrite L3, blen_w32_bytes. lia. }
  rewrite buf_put_ok by (fold b; rewrite ?blen3; lia). cbn [js_n js_j set_buf j_buf]. fold b.
  rewrite buf_put_ok; cbn [js_n js_j set_buf j_buf]; fold b; [|lia|rewrite L1, blen1; lia].
  rewrite buf_put_ok; cbn [js_n js_j set_buf j_buf]; fold b; [|lia|rewrite L2, blen_w32_bytes; lia].
  rewrite buf_put_ok; cbn [js_n js_j set_buf j_buf]; fold b; [|lia|rewrite L3, blen_w32_bytes; lia].
  rewrite buf_put_ok; cbn [js_n js_j set_buf j_buf]; fold b; [|lia|rewrite L4, blen_w32_bytes; lia].
  done.
Qed.
