(** Model of ecc/bch.c.  Buffers are lists of byte values, uint16_t and uint64_t
    values are integers; gf13_elem_t arrays are lists. *)
From stdpp Require Import list.
From Coq Require Import ZArith Lia.
From Verif Require Import EccBits Gf13.
Local Open Scope Z_scope.

(** The field functions bch.c is compiled against: with tables or without
    (GF13_NO_TABLES, gf13.h:32-83). *)
Record gf_ops := {
  op_mul : Z -> Z -> Z;
  op_div : Z -> Z -> Z;
  op_mulx : Z -> Z;
  op_divx : Z -> Z
}.
Definition gf_tables : gf_ops :=
  {| op_mul := gf13_mul; op_div := gf13_div; op_mulx := gf13_mulx; op_divx := gf13_divx |}.
Definition gf_no_tables : gf_ops :=
  {| op_mul := nt_mul; op_div := nt_div; op_mulx := nt_mulx; op_divx := nt_divx |}.

(** struct bch_def (bch.h:34-48) *)
Record bch_def := {
  d_syns : nat;
  d_generator : Z;
  d_degree : nat;
  d_ecc_bytes : nat
}.
(** bch.c:23-49 *)
Definition bch_1bit := {| d_syns := 2; d_generator := 0x201b; d_degree := 13; d_ecc_bytes := 2 |}.
Definition bch_2bit := {| d_syns := 4; d_generator := 0x4d5154b; d_degree := 26; d_ecc_bytes := 4 |}.
Definition bch_3bit := {| d_syns := 6; d_generator := 0xbaf5b2bded; d_degree := 39; d_ecc_bytes := 5 |}.
Definition bch_4bit := {| d_syns := 8; d_generator := 0x14523043ab86ab; d_degree := 52; d_ecc_bytes := 7 |}.

Definition t8 (x : Z) : Z := Z.land x 255.
Definition t64 (x : Z) : Z := Z.land x (Z.ones 64).

(** Inner loop of chunk_remainder (bch.c:62-66), [n] iterations. *)
Fixpoint rem_bits (n : nat) (g r : Z) : Z :=
  match n with
  | O => r
  | S n => rem_bits n g (Z.shiftr (if Z.land r 1 =? 0 then r else Z.lxor r g) 1)
  end.
(** chunk_remainder (bch.c:51-70) *)
Fixpoint chunk_remainder_from (g : Z) (chunk : list Z) (r : Z) : Z :=
  match chunk with
  | [] => r
  | c :: chunk => chunk_remainder_from g chunk (rem_bits 8 g (Z.lxor r (Z.lxor c 255)))
  end.
Definition chunk_remainder (def : bch_def) (chunk : list Z) : Z :=
  chunk_remainder_from (d_generator def) chunk 0.

(** pack_poly (bch.c:72-80): the ECC bytes written. *)
Fixpoint pack_bytes (n : nat) (poly : Z) : list Z :=
  match n with O => [] | S n => t8 (Z.lnot poly) :: pack_bytes n (Z.shiftr poly 8) end.
Definition pack_poly (def : bch_def) (poly : Z) : list Z := pack_bytes (d_ecc_bytes def) poly.

(** unpack_poly (bch.c:82-94): the loop runs from the last ECC byte to the first. *)
Fixpoint unpack_bytes (ecc : list Z) : Z :=
  match ecc with [] => 0 | e :: ecc => Z.lor (t64 (Z.shiftl (unpack_bytes ecc) 8)) (Z.lxor e 255) end.
Definition unpack_poly (def : bch_def) (ecc : list Z) : Z :=
  Z.land (unpack_bytes (take (d_ecc_bytes def) ecc)) (Z.shiftl 1 (Z.of_nat (d_degree def)) - 1).

(** bch_generate (bch.c:96-100) *)
Definition bch_generate (def : bch_def) (chunk : list Z) : list Z := pack_poly def (chunk_remainder def chunk).
(** bch_verify (bch.c:102-107) *)
Definition bch_verify (def : bch_def) (chunk ecc : list Z) : Z :=
  if chunk_remainder def chunk =? unpack_poly def ecc then 0 else -1.

Section Ops.
Context (o : gf_ops).

(** MAX_POLY (bch.c:113) *)
Definition MAX_POLY : nat := 16.

(** poly_add (bch.c:115-131), [k] iterations from [i] on.  The shift is never
    negative at the call sites. *)
Fixpoint poly_add_loop (k i : nat) (dst src : list Z) (c : Z) (shift : nat) : list Z :=
  match k with
  | O => dst
  | S k =>
    let p := (i + shift)%nat in
    let v := nth i src 0 in
    let dst := if (MAX_POLY <=? p)%nat then dst else if v =? 0 then dst
               else alter (fun x => Z.lxor x (op_mul o v c)) p dst in
    poly_add_loop k (S i) dst src c shift
  end.
Definition poly_add (dst src : list Z) (c : Z) (shift : nat) : list Z :=
  poly_add_loop MAX_POLY 0 dst src c shift.

(** poly_eval (bch.c:133-149) *)
Fixpoint poly_eval_loop (s : list Z) (x t sum : Z) : Z :=
  match s with
  | [] => sum
  | c :: s => poly_eval_loop s x (op_mul o t x) (if c =? 0 then sum else Z.lxor sum (op_mul o c t))
  end.
Definition poly_eval (s : list Z) (x : Z) : Z := poly_eval_loop s x x 0.

(** The loop body shared by both loops of syndrome (bch.c:169-175, 178-184),
    [n] iterations on the bits of [c]; the state is (y, t). *)
Fixpoint syn_bits (n : nat) (c x : Z) (st : Z * Z) : Z * Z :=
  match n with
  | O => st
  | S n =>
    let '(y, t) := st in
    syn_bits n (Z.shiftr c 1) x (if Z.land c 1 =? 0 then y else Z.lxor y t, op_mul o t x)
  end.
Fixpoint syn_chunk (chunk : list Z) (x : Z) (st : Z * Z) : Z * Z :=
  match chunk with [] => st | c :: chunk => syn_chunk chunk x (syn_bits 8 (Z.lxor c 255) x st) end.
(** syndrome (bch.c:155-187) *)
Definition syndrome (def : bch_def) (chunk : list Z) (remainder x : Z) : Z :=
  fst (syn_bits (d_degree def) remainder x (syn_chunk chunk x (0, 1))).

(** The local variables of berlekamp_massey. *)
Record bm := mkBM { bmC : list Z; bmB : list Z; bmL : nat; bmm : nat; bmb : Z }.
(** The discrepancy loop (bch.c:210-215), [k] iterations from [i] on. *)
Fixpoint disc_loop (C s : list Z) (n k i : nat) (d : Z) : Z :=
  match k with
  | O => d
  | S k =>
    let c := nth i C 0 in
    let v := nth (n - i) s 0 in
    disc_loop C s n k (S i) (if (c =? 0) || (v =? 0) then d else Z.lxor d (op_mul o c v))
  end.
(** Loop body (bch.c:206-233) *)
Definition bm_step (s : list Z) (n : nat) (st : bm) : bm :=
  let '(mkBM C B L m b) := st in
  let d := disc_loop C s n L 1 (nth n s 0) in
  let mult := op_div o d b in
  if d =? 0 then mkBM C B L (S m) b
  else if (L * 2 <=? n)%nat then mkBM (poly_add C B mult m) C (n + 1 - L) 1 d
  else mkBM (poly_add C B mult m) B L (S m) b.
Fixpoint bm_loop (s : list Z) (k n : nat) (st : bm) : bm :=
  match k with O => st | S k => bm_loop s k (S n) (bm_step s n st) end.
Definition one_poly : list Z := 1 :: replicate 15 0.
(** berlekamp_massey (bch.c:189-237).  The final memcpy copies MAX_POLY bytes,
    that is 8 of the 16 coefficients; the others stay 0. *)
Definition berlekamp_massey (s : list Z) (N : nat) : list Z :=
  take 8 (bmC (bm_loop s N 0 (mkBM one_poly one_poly 0 1 1))) ++ replicate 8 0.

(** buf[i >> 3] ^= 1 << (i & 7) *)
Definition toggle (i : nat) (buf : list Z) : list Z :=
  alter (fun x => t8 (Z.lxor x (Z.shiftl 1 (Z.land (Z.of_nat i) 7)))) (Z.to_nat (Z.shiftr (Z.of_nat i) 3)) buf.
(** A correction loop of bch_repair (bch.c:263-267, 270-274), [k] iterations from [i] on. *)
Fixpoint fix_loop (sigma : list Z) (k i : nat) (x : Z) (buf : list Z) : Z * list Z :=
  match k with
  | O => (x, buf)
  | S k => fix_loop sigma k (S i) (op_divx o x) (if poly_eval sigma x =? 0 then toggle i buf else buf)
  end.
(** Syndrome loop (bch.c:250-254), [k] iterations. *)
Fixpoint syndromes (def : bch_def) (chunk : list Z) (remainder : Z) (k : nat) (x : Z) : list Z :=
  match k with
  | O => []
  | S k => syndrome def chunk remainder x :: syndromes def chunk remainder k (op_mulx o x)
  end.
(** bch_repair (bch.c:239-275): the new chunk and ECC. *)
Definition bch_repair (def : bch_def) (chunk ecc : list Z) : list Z * list Z :=
  let remainder := unpack_poly def ecc in
  let syns := syndromes def chunk remainder (d_syns def) 2 in
  let sigma := berlekamp_massey syns (d_syns def) in
  let '(x, chunk) := fix_loop sigma (8 * length chunk) 0 1 chunk in
  let '(_, ecc) := fix_loop sigma (d_degree def) 0 x ecc in
  (chunk, ecc).
End Ops.
