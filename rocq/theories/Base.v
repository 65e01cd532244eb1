(** Shared definitions: C integer wrap-around, byte lists, the state/error
    monad in which the C functions are modelled. *)
From stdpp Require Export prelude list.
From Coq Require Export ZArith Lia.
Global Open Scope Z_scope.

(** ** C integers *)

(** uint32_t arithmetic: every result is reduced modulo 2^32
    (dhara_page_t, dhara_block_t, dhara_sector_t: dhara/nand.h:30,33,
    dhara/map.h:25). *)
Definition w32 (x : Z) : Z := x mod 4294967296.
Definition w8 (x : Z) : Z := x mod 256.

(** DHARA_PAGE_NONE (dhara/journal.h:46) and DHARA_SECTOR_NONE
    (dhara/map.h:28). *)
Definition PAGE_NONE : Z := 4294967295.
Definition SECTOR_NONE : Z := 4294967295.

(** ** Error codes: dhara/error.h:20-31 (DHARA_E_NONE is never returned as an
    error and DHARA_E_CORRUPT_MAP, DHARA_E_MAX are never set by the library). *)
Inductive err : Type :=
| E_BAD_BLOCK | E_ECC | E_TOO_BAD | E_RECOVER | E_JOURNAL_FULL
| E_NOT_FOUND | E_MAP_FULL.

Global Instance err_eq_dec : EqDecision err.
Proof. solve_decision. Defined.

(** ** Outcomes

    [OK a]: the C function returned success (value [a]).
    [ER e]: it returned -1 with [*err == e]; execution continues in the caller.
    [ST s]: execution stopped:
      - [Crash]: power was lost during a NAND operation,
      - [UB]: the NAND driver contract (dhara/nand.h, the abort() calls of
        tests/sim.c) or a buffer bound was violated: undefined behaviour,
      - [Fuel]: the loop bound given to the model was exhausted (no such
        outcome exists in C; theorems exclude it explicitly). *)
Inductive stop : Type := Crash | UB | Fuel.
Inductive out (A : Type) : Type :=
| OK (a : A) | ER (e : err) | ST (s : stop).
Global Arguments OK {A} a.
Global Arguments ER {A} e.
Global Arguments ST {A} s.

Definition M (S A : Type) : Type := S -> out A * S.

Definition ret {S A} (a : A) : M S A := fun s => (OK a, s).
Definition fail {S A} (e : err) : M S A := fun s => (ER e, s).
Definition halt {S A} (x : stop) : M S A := fun s => (ST x, s).
Definition bind {S A B} (m : M S A) (f : A -> M S B) : M S B := fun s =>
  match m s with
  | (OK a, s') => f a s'
  | (ER e, s') => (ER e, s')
  | (ST x, s') => (ST x, s')
  end.
(** [attempt m]: run [m] and hand its error code to the caller as a value
    (the C pattern [if (f(..., &my_err) < 0) ... my_err ...]). *)
Definition attempt {S A} (m : M S A) : M S (err + A) := fun s =>
  match m s with
  | (OK a, s') => (OK (inr a), s')
  | (ER e, s') => (OK (inl e), s')
  | (ST x, s') => (ST x, s')
  end.
Definition gets {S A} (f : S -> A) : M S A := fun s => (OK (f s), s).
Definition modify {S} (f : S -> S) : M S unit := fun s => (OK tt, f s).
(** Run a computation on a component of the state. *)
Definition zoom {S T A} (get : S -> T) (put : T -> S -> S) (m : M T A) : M S A :=
  fun s => let '(o, t) := m (get s) in (o, put t s).

Notation "'let!' x ':=' m 'in' k" := (bind m (fun x => k))
  (at level 200, x pattern, m at level 100, k at level 200, right associativity).
Notation "m ';;;' k" := (bind m (fun _ => k)) (at level 199, right associativity).

(** ** Byte buffers *)

Definition bytes : Type := list Z.
(** [n] bytes starting at offset [off]. *)
Definition slice (off n : Z) (b : bytes) : bytes :=
  take (Z.to_nat n) (drop (Z.to_nat off) b).
(** memcpy(b + off, src, length src). *)
Definition splice (off : Z) (src b : bytes) : bytes :=
  take (Z.to_nat off) b ++ src ++ drop (Z.to_nat off + length src) b.
(** b[i], a uint8_t: the model keeps buffers as lists of integers and reduces
    an element modulo 256 when it is read as a number. *)
Definition bget (b : bytes) (i : Z) : Z := w8 (nth (Z.to_nat i) b 0).
(** memset(., 0xff, n) *)
Definition ffs (n : Z) : bytes := replicate (Z.to_nat n) 255.
Definition blen (b : bytes) : Z := Z.of_nat (length b).
