(** Model of the NAND driver interface dhara/nand.h.  The driver is supplied by
    the user of the library; this chip model follows the documented contract,
    with tests/sim.c as reference for what counts as a contract violation
    (there: abort(), here: [UB]). *)
From Verif Require Import Base.

(** struct dhara_nand (nand.h:43-57).  [g_ffnoop] models the README remark that
    programming an all-0xff page may be a no-op, so that is_free() cannot tell
    such a page from an erased one. *)
Record geo := Geo {
  g_lps : Z;        (* log2_page_size *)
  g_lppb : Z;       (* log2_ppb *)
  g_nblk : Z;       (* num_blocks *)
  g_ffnoop : bool
}.

(** Contents of one page: erased, holding data, or spoilt by an interrupted or failed
    operation.  A spoilt page either is unreadable (reads report E_ECC, as README
    "Uncorrectable errors *must* be detected" requires) or, as in tests/sim.c, reads as
    some garbage (see [cell_bytes]). *)
Inductive cell := Free | Data (d : bytes) | Junk (o : option bytes).

(** What an erase/program/mark-bad operation does, decided by the environment.
    [EvOk]: success.  [EvFail f]: the chip reports failure (E_BAD_BLOCK).
    [EvCrash f]: power is lost during the operation.  [f] gives, per page of
    the block, how much of the effect took place. *)
Inductive eff := EDone | ENone | EJunk (o : option bytes).
Inductive event := EvOk | EvFail (f : Z -> eff) | EvCrash (f : Z -> eff).

(** The operations that change the chip. *)
Inductive nop := OpErase (b : Z) | OpProg (p : Z) | OpMark (b : Z).

Record nand := Nand {
  n_geo : geo;
  n_cell : Z -> cell;            (* page contents *)
  n_bad : Z -> bool;             (* bad block marks *)
  n_orc : nat -> nop -> event;   (* environment: operation number, operation *)
  n_tick : nat;                  (* number of modifying operations so far *)
  n_erases : Z -> Z              (* ghost: erases issued per block (stats.erase, sim.c:145) *)
}.

Definition page_size (g : geo) : Z := Z.shiftl 1 (g_lps g).
Definition ppb (g : geo) : Z := Z.shiftl 1 (g_lppb g).
(** num_blocks << log2_ppb as computed in uint32_t (journal.c:129 etc). *)
Definition num_pages (g : geo) : Z := w32 (Z.shiftl (g_nblk g) (g_lppb g)).
Definition blk_of (g : geo) (p : Z) : Z := Z.shiftr p (g_lppb g).

Definition page_ok (g : geo) (p : Z) : bool :=
  (0 <=? p) && (p <? g_nblk g * 2 ^ g_lppb g).
Definition block_ok (g : geo) (b : Z) : bool := (0 <=? b) && (b <? g_nblk g).

Definition upd {A} (f : Z -> A) (k : Z) (v : A) : Z -> A :=
  fun x => if x =? k then v else f x.

Definition set_cells (c : Z -> cell) (n : nand) : nand :=
  Nand (n_geo n) c (n_bad n) (n_orc n) (n_tick n) (n_erases n).
Definition set_bads (b : Z -> bool) (n : nand) : nand :=
  Nand (n_geo n) (n_cell n) b (n_orc n) (n_tick n) (n_erases n).
Definition bump_tick (n : nand) : nand :=
  Nand (n_geo n) (n_cell n) (n_bad n) (n_orc n) (S (n_tick n)) (n_erases n).
Definition bump_erase (b : Z) (n : nand) : nand :=
  Nand (n_geo n) (n_cell n) (n_bad n) (n_orc n) (n_tick n)
       (upd (n_erases n) b (n_erases n b + 1)).

(** dhara_nand_is_bad (nand.h:60, sim.c:101-112) *)
Definition nand_is_bad (b : Z) : M nand bool := fun n =>
  if block_ok (n_geo n) b then (OK (n_bad n b), n) else (ST UB, n).

(** dhara_nand_mark_bad (nand.h:65, sim.c:114-125).  Power may be lost before or after
    the mark is made. *)
Definition nand_mark_bad (b : Z) : M nand unit := fun n =>
  if negb (block_ok (n_geo n) b) then (ST UB, n) else
  let ev := n_orc n (n_tick n) (OpMark b) in
  let n := bump_tick n in
  let marked := set_bads (upd (n_bad n) b true) n in
  match ev with
  | EvCrash f => match f 0 with
                 | EDone => (ST Crash, marked)
                 | _ => (ST Crash, n)
                 end
  | _ => (OK tt, marked)
  end.

(** dhara_nand_erase (nand.h:73, sim.c:127-160).  A failed or interrupted erase
    leaves each page of the block erased, unchanged or spoilt. *)
Definition erase_eff (e : eff) (old : cell) : cell :=
  match e with EDone => Free | ENone => old | EJunk o => Junk o end.
Definition erase_cells (g : geo) (b : Z) (f : Z -> eff) (c : Z -> cell)
  : Z -> cell :=
  fun p => if blk_of g p =? b then erase_eff (f p) (c p) else c p.

Definition nand_erase (b : Z) : M nand unit := fun n =>
  if negb (block_ok (n_geo n) b) then (ST UB, n) else
  if n_bad n b then (ST UB, n) else
  let ev := n_orc n (n_tick n) (OpErase b) in
  let n := bump_erase b (bump_tick n) in
  match ev with
  | EvOk => (OK tt, set_cells (erase_cells (n_geo n) b (fun _ => EDone) (n_cell n)) n)
  | EvFail f => (ER E_BAD_BLOCK,
                 set_cells (erase_cells (n_geo n) b f (n_cell n)) n)
  | EvCrash f => (ST Crash,
                  set_cells (erase_cells (n_geo n) b f (n_cell n)) n)
  end.

(** dhara_nand_prog (nand.h:83, sim.c:162-205).  "Pages will be programmed
    sequentially within a block, and will not be reprogrammed": the page and
    all later pages of its block must be erased. *)
Definition is_freec (c : cell) : bool :=
  match c with Free => true | _ => false end.
Definition tail_free (g : geo) (c : Z -> cell) (p : Z) : bool :=
  forallb (fun i => is_freec (c (p + Z.of_nat i)))
          (seq 0 (Z.to_nat (ppb g - Z.land p (ppb g - 1)))).
Definition all_ff (d : bytes) : bool := forallb (fun x => x =? 255) d.
Definition written (g : geo) (d : bytes) : cell :=
  if g_ffnoop g && all_ff d then Free else Data d.

Definition nand_prog (p : Z) (d : bytes) : M nand unit := fun n =>
  let g := n_geo n in
  if negb (page_ok g p) then (ST UB, n) else
  if n_bad n (blk_of g p) then (ST UB, n) else
  if negb (tail_free g (n_cell n) p) then (ST UB, n) else
  if negb (blen d =? page_size g) then (ST UB, n) else
  let ev := n_orc n (n_tick n) (OpProg p) in
  let n := bump_tick n in
  let put c := set_cells (upd (n_cell n) p c) n in
  match ev with
  | EvOk => (OK tt, put (written g d))
  | EvFail f => (ER E_BAD_BLOCK,
                 match f p with EDone => put (written g d) | EJunk o => put (Junk o) | ENone => put (Junk None) end)
  | EvCrash f => (ST Crash,
                  match f p with
                  | EDone => put (written g d)
                  | ENone => n
                  | EJunk o => put (Junk o)
                  end)
  end.

(** dhara_nand_is_free (nand.h:88, sim.c:207-221) *)
Definition nand_is_free (p : Z) : M nand bool := fun n =>
  if page_ok (n_geo n) p then (OK (is_freec (n_cell n p)), n) else (ST UB, n).

(** What a spoilt page reads as, if anything: a full page that does not happen to start
    with the magic bytes of a checkpoint, "Dha" (hdr_has_magic, journal.c:26-31). *)
Definition garbage (g : geo) (o : option bytes) : option bytes :=
  match o with
  | Some d => if (blen d =? page_size g) &&
                 negb ((bget d 0 =? 68) && (bget d 1 =? 104) && (bget d 2 =? 97))
              then Some d else None
  | None => None
  end.

(** dhara_nand_read (nand.h:94, sim.c:223-251).  Pages in the [Data] or [Free]
    state always read successfully; an erased page reads as 0xff. *)
Definition cell_bytes (g : geo) (c : cell) : option bytes :=
  match c with
  | Free => Some (ffs (page_size g))
  | Data d => Some d
  | Junk o => garbage g o
  end.
Definition nand_read (p off len : Z) : M nand bytes := fun n =>
  let g := n_geo n in
  if negb (page_ok g p) then (ST UB, n) else
  if negb ((0 <=? off) && (0 <=? len) && (off + len <=? page_size g))
  then (ST UB, n) else
  match cell_bytes g (n_cell n p) with
  | Some d => (OK (slice off len d), n)
  | None => (ER E_ECC, n)
  end.

(** dhara_nand_copy (nand.h:101, sim.c:253-264): read, then program. *)
Definition nand_copy (src dst : Z) : M nand unit :=
  let! g := gets n_geo in
  let! d := nand_read src 0 (page_size g) in
  nand_prog dst d.
