(** Model of dhara/bytes.h. *)
From Verif Require Import Base.

(** dhara_r16 (bytes.h:22-26) *)
Definition r16 (d : bytes) : Z :=
  Z.lor (bget d 0) (Z.shiftl (bget d 1) 8).

(** dhara_w16 (bytes.h:28-32): the two bytes stored; storing to uint8_t
    truncates modulo 256. *)
Definition w16_bytes (v : Z) : bytes := [w8 v; w8 (Z.shiftr v 8)].

(** dhara_r32 (bytes.h:34-40) *)
Definition r32 (d : bytes) : Z :=
  Z.lor (Z.lor (Z.lor (bget d 0) (Z.shiftl (bget d 1) 8))
               (Z.shiftl (bget d 2) 16))
        (Z.shiftl (bget d 3) 24).

(** dhara_w32 (bytes.h:42-48) *)
Definition w32_bytes (v : Z) : bytes :=
  [w8 v; w8 (Z.shiftr v 8); w8 (Z.shiftr v 16); w8 (Z.shiftr v 24)].

(** dhara_w32(buf + off, v), dhara_r32(buf + off). *)
Definition put32 (off v : Z) (b : bytes) : bytes := splice off (w32_bytes v) b.
Definition get32 (off : Z) (b : bytes) : Z := r32 (drop (Z.to_nat off) b).
