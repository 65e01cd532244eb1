(** Invariants of the journal: what RAM says ([JInv]) and what is recorded on
    the chip ([DI]).  Positions are virtual (unwrapped) page numbers. *)
From stdpp Require Import gmap.
From Verif Require Import Base Bytes BytesLemmas Nand Journal Geom Tree.
Local Open Scope Z_scope.

(** State of the chip as a journal sees it after power-up. *)
Record dsk := Dsk {
  cv : Z;       (* virtual position of the last checkpoint page, or -1 *)
  tdv : Z;      (* tail recorded in it *)
  ckd : bytes;  (* cookie recorded in it *)
  rmd : bytes;  (* metadata of its root page *)
  Kd : kmap     (* pages its tree relies on *)
}.

Section inv.
Context (g : geo) (c : Z) (weak : Z -> bool).
Notation PB := (PB g).
Notation PC := (PC c).
Notation NB := (NB g).
Notation TT := (TT g).
Notation ph := (ph g).
Notation user := (user c).
Notation nextv := (nextv c).
Notation cpv := (cpv c).

(** Faults considered: power loss at any operation, erase failures of weak
    blocks, program failures of the first page of weak blocks. *)
Definition classA (orc : nat -> nop -> event) : Prop :=
  (forall t b f, orc t (OpErase b) = EvFail f -> weak b = true) /\
  (forall t p f, orc t (OpProg p) = EvFail f -> p mod PB = 0 /\ weak (p / PB) = true).

Record nok (n : nand) : Prop := {
  nk_geo : n_geo n = g;
  nk_len : forall p d, n_cell n p = Data d -> blen d = page_size g;
  nk_bad : forall b, n_bad n b = true -> weak b = true;
  nk_orc : classA (n_orc n)
}.

Definition cellv (n : nand) (v : Z) : cell := n_cell n (ph v).
Definition badv (n : nand) (b : Z) : bool := n_bad n (b mod NB).

(** Epoch of the checkpoint stored in a cell, if there is one. *)
Definition cell_ep (x : cell) : option Z :=
  match cell_bytes g x with
  | Some d => if hdr_has_magic d then Some (hdr_get_epoch d) else None
  | None => None
  end.
(** First checkpoint page of a block. *)
Definition fcp (b : Z) : Z := b * PB + (PC - 1).
Definition blk_ep (n : nand) (b : Z) : option Z := cell_ep (cellv n (fcp b)).
Definition epo (b : Z) : Z := (b / NB) mod 256.
Definition moff (v : Z) : Z := HEADER_SIZE + COOKIE_SIZE + (v mod PC) * META_SIZE.

(** Page [p] is readable on the chip with data [d] and metadata [m]. *)
Definition kmeta (n : nand) (v : Z) (m : bytes) : Prop :=
  exists cd, cell_bytes g (cellv n (cpv v)) = Some cd /\ slice (moff v) META_SIZE cd = m.

Record kd_ok (n : nand) (lo hi p : Z) (d m : bytes) (v : Z) : Prop := {
  kd_v : lo <= v < hi;
  kd_u : user v;
  kd_p : p = ph v;
  kd_b : badv n (v / PB) = false;
  kd_d : cell_bytes g (cellv n v) = Some d
}.

Record DI (n : nand) (hv sv : Z) (D : dsk) : Prop := {
  d_hv : 0 <= hv;
  d_hu : user hv;
  d_sv : 0 <= sv;
  d_full : hv / PB < sv / PB + NB;
  d_cv : -1 <= cv D;
  d_cvs : cv D mod PC = PC - 1;
  d_cvh : cv D < hv;
  d_near : hv / PB < cv D / PB + NB;
  d_gap : forall b, cv D / PB < b < hv / PB -> badv n b = true;
  d_first : cv D / PB < hv / PB -> hv mod PB < PC;
  d_ep : forall b, cv D / PB - NB < b <= cv D / PB -> badv n b = false ->
    blk_ep n b = (if decide (b < 0) then None else Some (epo b)) \/
    (blk_ep n b = None /\ b < cv D / PB /\
     forall b', cv D / PB < b' < b + NB -> badv n b' = true);
  d_cp : 0 <= cv D ->
    badv n (cv D / PB) = false /\
    exists d, cellv n (cv D) = Data d /\ hdr_has_magic d = true /\
      hdr_get_epoch d = epo (cv D / PB) /\ hdr_get_tail d = ph (tdv D) /\
      slice HEADER_SIZE COOKIE_SIZE d = ckd D;
  d_nolater : 0 <= cv D -> forall u, cv D < u -> u / PB = cv D / PB -> u mod PC = PC - 1 ->
    cell_ep (cellv n u) <> Some (epo (cv D / PB));
  d_grp : 0 <= cv D -> forall u, u mod PC = 0 -> u / PB = cv D / PB -> u + PC <= hv ->
    cellv n (u + PC - 2) <> Free \/ cellv n (u + PC - 1) <> Free;
  d_free : 0 <= cv D -> hv / PB = cv D / PB ->
    forall v, hv <= v -> v / PB = hv / PB -> cellv n v = Free;
  d_td : 0 <= cv D -> 0 <= tdv D < cv D /\ user (tdv D) /\ tdv D <= sv /\
    cv D / PB < tdv D / PB + NB;
  d_ck : 0 <= cv D -> blen (ckd D) = COOKIE_SIZE;
  d_K : forall p d m, Kd D !! p = Some (d, m) -> 0 <= cv D /\
    exists v, kd_ok n sv (cv D) p d m v /\ blen d = page_size g /\ kmeta n v m;
  d_root : 0 <= cv D -> (exists d, cell_bytes g (cellv n (cv D - 1)) = Some d /\ blen d = page_size g) /\
    kmeta n (cv D - 1) (rmd D)
}.

(** Enough good blocks: any 8 consecutive blocks (cyclically) contain two that
    never fail. *)
Definition dense : Prop := forall b, exists i j, 0 <= i < j /\ j < 8 /\
  weak ((b + i) mod NB) = false /\ weak ((b + j) mod NB) = false.

(** RAM invariant, outside bad-block recovery. *)
Record JInv (s : js) (hv tv sv : Z) (K : kmap) : Prop := {
  ji_ppc : j_ppc (js_j s) = c;
  ji_head : j_head (js_j s) = ph hv;
  ji_tail : j_tail (js_j s) = ph tv;
  ji_tsync : j_tsync (js_j s) = ph sv;
  ji_epoch : j_epoch (js_j s) = epo (hv / PB);
  ji_recov : j_recov (js_j s) = false;
  ji_enum : j_enum (js_j s) = false;
  ji_rmeta : j_rmeta (js_j s) = PAGE_NONE;
  ji_buf : blen (j_buf (js_j s)) = page_size g;
  ji_order : 0 <= sv <= tv /\ tv <= hv;
  ji_full : hv / PB < sv / PB + NB;
  ji_hu : user hv;
  ji_tu : user tv;
  ji_su : user sv;
  ji_root : j_root (js_j s) = PAGE_NONE \/ is_Some (K !! j_root (js_j s));
  ji_free : hv mod PB <> 0 -> badv (js_n s) (hv / PB) = false /\
    forall v, hv <= v -> v / PB = hv / PB -> cellv (js_n s) v = Free;
  ji_K : forall p d m, K !! p = Some (d, m) ->
    exists v, kd_ok (js_n s) tv hv p d m v /\ blen d = page_size g /\
      if decide (v / PC = hv / PC)
      then slice (moff v) META_SIZE (j_buf (js_j s)) = m
      else kmeta (js_n s) v m
}.

(** A clean journal has nothing to lose: the chip's tree is the RAM tree. *)
Definition cleanI (s : js) (K : kmap) (D : dsk) : Prop :=
  j_dirty (js_j s) = false ->
  Kd D = K /\
  (j_root (js_j s) = PAGE_NONE \/
   (0 <= cv D /\ j_root (js_j s) = ph (cv D - 1) /\
    exists d, K !! (j_root (js_j s)) = Some (d, rmd D))).

Record JI (s : js) (hv tv sv : Z) (K : kmap) (D : dsk) : Prop := {
  JI_n : nok (js_n s);
  JI_j : JInv s hv tv sv K;
  JI_d : DI (js_n s) hv sv D;
  JI_c : cleanI s K D
}.
End inv.
