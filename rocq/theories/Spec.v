(** Specification of the map interface, independent of how it is implemented.

    A map is a finite function from sector numbers to page contents.  The only
    things used from the model are the names of the calls ([op]), what a call
    returns ([out resp]) and the driver's parameters ([geo]). *)
From stdpp Require Import gmap.
From Verif Require Import Base Nand MapModel Api.
Local Open Scope Z_scope.

Notation contents := (gmap Z bytes).

(** What dhara_map_read stores in the caller's buffer. *)
Definition read_of (g : geo) (S : contents) (t : Z) : bytes :=
  default (replicate (Z.to_nat (2 ^ g_lps g)) 255) (S !! t).

(** Sector numbers are uint32_t; 0xffffffff is DHARA_SECTOR_NONE, which must
    not be written (map.h:27-28). *)
Definition sector (t : Z) : Prop := 0 <= t < 2 ^ 32.
Definition wsector (t : Z) : Prop := 0 <= t < 2 ^ 32 - 1.

(** What the caller must respect. *)
Definition valid_op (g : geo) (o : op) : Prop :=
  match o with
  | OWrite t d => wsector t /\ blen d = 2 ^ g_lps g
  | OTrim t => sector t
  | OCopySector a b => sector a /\ wsector b
  | OCopyPage p b => 0 <= p < g_nblk g * 2 ^ g_lppb g /\ wsector b
  | ORead t | OFind t => sector t
  | OClear | OGc | OSync | OSize => True
  end.
Definition valid_hop (g : geo) (x : hop) : Prop :=
  match x with HOp o => valid_op g o | HReset _ _ => True end.

(** Errors a modifying call may report besides "map full": no space for the
    journal, an unreadable page. *)
Definition io_err (e : err) : Prop := e = E_JOURNAL_FULL \/ e = E_ECC.

(** [call_ok g S o r S']: a call [o] on a map with contents [S] may return [r],
    and the contents are [S'] afterwards. *)
Inductive call_ok (g : geo) (S : contents) : op -> out resp -> contents -> Prop :=
| c_write t d : call_ok g S (OWrite t d) (OK RUnit) (<[t := d]> S)
| c_trim t : call_ok g S (OTrim t) (OK RUnit) (delete t S)
| c_clear : call_ok g S OClear (OK RUnit) ∅
| c_gc : call_ok g S OGc (OK RUnit) S
| c_sync : call_ok g S OSync (OK RUnit) S
| c_read t : call_ok g S (ORead t) (OK (RData (read_of g S t))) S
| c_found t d p : S !! t = Some d -> call_ok g S (OFind t) (OK (RPage p)) S
| c_notfound t : S !! t = None -> call_ok g S (OFind t) (ER E_NOT_FOUND) S
| c_size : call_ok g S OSize (OK (RNum (Z.of_nat (size S)))) S
| c_copy_none a b : S !! a = None ->
    call_ok g S (OCopySector a b) (OK RUnit) (delete b S)
(* Copies of mapped sectors and of raw pages store one page in the target and
   change nothing else; which contents they store is not settled here. *)
| c_copy a b d d' : S !! a = Some d -> blen d' = 2 ^ g_lps g ->
    call_ok g S (OCopySector a b) (OK RUnit) (<[b := d']> S)
| c_copy_page p b d' : blen d' = 2 ^ g_lps g ->
    call_ok g S (OCopyPage p b) (OK RUnit) (<[b := d']> S)
(* Failed calls change nothing. *)
| c_fail o e : io_err e ->
    match o with
    | OWrite _ _ | OTrim _ | OCopySector _ _ | OCopyPage _ _ | OGc | OSync => True
    | OClear | ORead _ | OFind _ | OSize => False
    end -> call_ok g S o (ER e) S
| c_full o t :
    match o with
    | OWrite b _ | OCopySector _ b | OCopyPage _ b => b = t
    | _ => False
    end -> S !! t = None -> call_ok g S o (ER E_MAP_FULL) S.

(** [hist_ok g S H h rs S' H']: [rs] is a legal sequence of results for the
    history [h] from a map with contents [S].

    [H] lists the contents the map had after each completed call since the last
    successful sync or power-up (most recent first, [S] included): if power is
    lost between two calls, the map comes back with one of them; if it is lost
    during a call, with one of them or with the contents after the complete
    effect of that call. *)
Inductive hist_ok (g : geo) : contents -> list contents -> list hop ->
    list (out resp) -> contents -> list contents -> Prop :=
| h_nil S H : hist_ok g S H [] [] S H
| h_call S H o r S1 h rs S' H' :
    (match r with ST _ => False | _ => True end) ->
    call_ok g S o r S1 ->
    hist_ok g S1 (match o, r with OSync, OK _ => [S1] | _, _ => S1 :: H end) h rs S' H' ->
    hist_ok g S H (HOp o :: h) (r :: rs) S' H'
| h_crash S H o S1 h rs S' H' :
    (S1 ∈ H \/ exists r, call_ok g S o (OK r) S1) ->
    hist_ok g S1 [S1] h rs S' H' ->
    hist_ok g S H (HOp o :: h) (ST Crash :: rs) S' H'
| h_reset S H gcr junk S1 h rs S' H' :
    S1 ∈ H ->
    hist_ok g S1 [S1] h rs S' H' ->
    hist_ok g S H (HReset gcr junk :: h) (OK RUnit :: rs) S' H'.

(** ** The environment

    Supported geometry (page size 512 bytes to 64 KiB, at least 4 pages per
    block, at least 8 blocks, at most 2^31 pages). *)
Definition supported (g : geo) : Prop :=
  9 <= g_lps g <= 16 /\ 2 <= g_lppb g /\ 8 <= g_nblk g /\
  g_nblk g * 2 ^ g_lppb g <= 2 ^ 31.

(** The same with 256-byte pages allowed (two pages per checkpoint group). *)
Definition supported_small (g : geo) : Prop :=
  8 <= g_lps g <= 16 /\ 2 <= g_lppb g /\ 8 <= g_nblk g /\
  g_nblk g * 2 ^ g_lppb g <= 2 ^ 31.

(** Failures considered: power may be lost during any modifying operation;
    operations on the blocks in [weak] may fail, at erase time or when their
    first page is programmed; of any 8 consecutive blocks (cyclically) at least
    two are not in [weak]. *)
Definition few_weak (g : geo) (weak : Z -> bool) : Prop :=
  forall b, exists i j, 0 <= i < j /\ j < 8 /\
    weak ((b + i) mod g_nblk g) = false /\ weak ((b + j) mod g_nblk g) = false.
Definition faults_ok (g : geo) (weak : Z -> bool) (orc : nat -> nop -> event) : Prop :=
  (forall t b f, orc t (OpErase b) = EvFail f -> weak b = true) /\
  (forall t p f, orc t (OpProg p) = EvFail f ->
     p mod 2 ^ g_lppb g = 0 /\ weak (p / 2 ^ g_lppb g) = true).

(** No readable page of the chip starts with the checkpoint magic "Dha". *)
Definition no_checkpoint (n : nand) : Prop :=
  forall p d, n_cell n p = Data d ->
    blen d = 2 ^ g_lps (n_geo n) /\ map w8 (take 3 d) <> [68; 104; 97].

(** A chip not used by the journal before: factory-fresh (erased), or holding
    arbitrary other data that does not look like a checkpoint; some blocks may be
    marked bad. *)
Definition fresh (g : geo) (weak : Z -> bool) (n : nand) : Prop :=
  n_geo n = g /\ no_checkpoint n /\
  (forall b, n_bad n b = true -> weak b = true) /\ faults_ok g weak (n_orc n).

(** Loop bound given to the model that is never reached. *)
Definition enough_fuel (g : geo) (fuel : nat) : Prop :=
  g_nblk g * 2 ^ g_lppb g + 256 <= Z.of_nat fuel.

(** ** Observations *)

(** What a caller sees of sector [t]: the result of dhara_map_read, and whether
    dhara_map_find succeeds. *)
Definition reads (s : ms) (t : Z) : out bytes := fst (map_read t s).
Definition mapped (s : ms) (t : Z) : bool :=
  match fst (map_find t s) with OK _ => true | _ => false end.
Definition same_sector (s s' : ms) (t : Z) : Prop :=
  reads s' t = reads s t /\ mapped s' t = mapped s t.

(** [shows g s S]: every sector reads, is mapped and is counted as in [S], and
    looking does not change the state. *)
Definition shows (g : geo) (s : ms) (S : contents) : Prop :=
  (forall t, sector t -> map_read t s = (OK (read_of g S t), s)) /\
  (forall t, sector t -> mapped s t = true <-> is_Some (S !! t)) /\
  MapModel.map_size s = Z.of_nat (size S).

(** States of a map that was started on a fresh chip and used correctly,
    whatever the calls returned and however often power was lost. *)
Definition reachable (g : geo) (weak : Z -> bool) (s : ms) : Prop :=
  exists n0 fuel gcr junk h,
    fresh g weak n0 /\ enough_fuel g fuel /\ Forall (valid_hop g) h /\
    s = snd (run fuel gcr junk h (snd (restart gcr junk n0))).

(** Contents computed from the calls and their return codes alone. *)
Definition replay1 (S : contents) (x : op * out resp) : contents :=
  match x with
  | (OWrite t d, OK _) => <[t := d]> S
  | (OTrim t, OK _) => delete t S
  | (OClear, OK _) => ∅
  | _ => S
  end.
Definition replay (xs : list (op * out resp)) : contents := foldl replay1 ∅ xs.
Definition no_copy (o : op) : Prop :=
  match o with OCopySector _ _ | OCopyPage _ _ => False | _ => True end.
Definition completed (r : out resp) : Prop :=
  match r with ST _ => False | _ => True end.
