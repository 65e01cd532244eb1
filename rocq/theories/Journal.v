(** Model of dhara/journal.c and dhara/journal.h. *)
From Verif Require Import Base Bytes Nand.

(** ** Constants: journal.h:24-41 *)
Definition HEADER_SIZE : Z := 16.
Definition COOKIE_SIZE : Z := 4.
Definition META_SIZE : Z := 132.
Definition MAX_RETRIES : nat := 8.

(** ** struct dhara_journal: journal.h:67-119.
    The [flags] byte (journal.h:49-52) is split into four booleans: [dirty] =
    F_DIRTY, [badmeta] = F_BAD_META, [recov] = F_RECOVERY, [enum] =
    F_ENUM_DONE.  The [nand] pointer is the chip component of the state. *)
Record journal := Journal {
  j_buf : bytes;       (* page_buf *)
  j_ppc : Z;           (* log2_ppc *)
  j_epoch : Z;
  j_dirty : bool; j_badmeta : bool; j_recov : bool; j_enum : bool;
  j_bbc : Z;           (* bb_current *)
  j_bbl : Z;           (* bb_last *)
  j_tsync : Z;         (* tail_sync *)
  j_tail : Z;
  j_head : Z;
  j_root : Z;
  j_rnext : Z;         (* recover_next *)
  j_rroot : Z;         (* recover_root *)
  j_rmeta : Z          (* recover_meta *)
}.

(** Field updates ([j->field = v]). *)
Definition set_buf (v : bytes) (j : journal) : journal :=
  Journal v (j_ppc j) (j_epoch j) (j_dirty j) (j_badmeta j) (j_recov j) (j_enum j) (j_bbc j) (j_bbl j) (j_tsync j) (j_tail j) (j_head j) (j_root j) (j_rnext j) (j_rroot j) (j_rmeta j).
Definition set_ppc (v : Z) (j : journal) : journal :=
  Journal (j_buf j) v (j_epoch j) (j_dirty j) (j_badmeta j) (j_recov j) (j_enum j) (j_bbc j) (j_bbl j) (j_tsync j) (j_tail j) (j_head j) (j_root j) (j_rnext j) (j_rroot j) (j_rmeta j).
Definition set_epoch (v : Z) (j : journal) : journal :=
  Journal (j_buf j) (j_ppc j) v (j_dirty j) (j_badmeta j) (j_recov j) (j_enum j) (j_bbc j) (j_bbl j) (j_tsync j) (j_tail j) (j_head j) (j_root j) (j_rnext j) (j_rroot j) (j_rmeta j).
Definition set_dirty (v : bool) (j : journal) : journal :=
  Journal (j_buf j) (j_ppc j) (j_epoch j) v (j_badmeta j) (j_recov j) (j_enum j) (j_bbc j) (j_bbl j) (j_tsync j) (j_tail j) (j_head j) (j_root j) (j_rnext j) (j_rroot j) (j_rmeta j).
Definition set_badmeta (v : bool) (j : journal) : journal :=
  Journal (j_buf j) (j_ppc j) (j_epoch j) (j_dirty j) v (j_recov j) (j_enum j) (j_bbc j) (j_bbl j) (j_tsync j) (j_tail j) (j_head j) (j_root j) (j_rnext j) (j_rroot j) (j_rmeta j).
Definition set_recov (v : bool) (j : journal) : journal :=
  Journal (j_buf j) (j_ppc j) (j_epoch j) (j_dirty j) (j_badmeta j) v (j_enum j) (j_bbc j) (j_bbl j) (j_tsync j) (j_tail j) (j_head j) (j_root j) (j_rnext j) (j_rroot j) (j_rmeta j).
Definition set_enum (v : bool) (j : journal) : journal :=
  Journal (j_buf j) (j_ppc j) (j_epoch j) (j_dirty j) (j_badmeta j) (j_recov j) v (j_bbc j) (j_bbl j) (j_tsync j) (j_tail j) (j_head j) (j_root j) (j_rnext j) (j_rroot j) (j_rmeta j).
Definition set_bbc (v : Z) (j : journal) : journal :=
  Journal (j_buf j) (j_ppc j) (j_epoch j) (j_dirty j) (j_badmeta j) (j_recov j) (j_enum j) v (j_bbl j) (j_tsync j) (j_tail j) (j_head j) (j_root j) (j_rnext j) (j_rroot j) (j_rmeta j).
Definition set_bbl (v : Z) (j : journal) : journal :=
  Journal (j_buf j) (j_ppc j) (j_epoch j) (j_dirty j) (j_badmeta j) (j_recov j) (j_enum j) (j_bbc j) v (j_tsync j) (j_tail j) (j_head j) (j_root j) (j_rnext j) (j_rroot j) (j_rmeta j).
Definition set_tsync (v : Z) (j : journal) : journal :=
  Journal (j_buf j) (j_ppc j) (j_epoch j) (j_dirty j) (j_badmeta j) (j_recov j) (j_enum j) (j_bbc j) (j_bbl j) v (j_tail j) (j_head j) (j_root j) (j_rnext j) (j_rroot j) (j_rmeta j).
Definition set_tail (v : Z) (j : journal) : journal :=
  Journal (j_buf j) (j_ppc j) (j_epoch j) (j_dirty j) (j_badmeta j) (j_recov j) (j_enum j) (j_bbc j) (j_bbl j) (j_tsync j) v (j_head j) (j_root j) (j_rnext j) (j_rroot j) (j_rmeta j).
Definition set_head (v : Z) (j : journal) : journal :=
  Journal (j_buf j) (j_ppc j) (j_epoch j) (j_dirty j) (j_badmeta j) (j_recov j) (j_enum j) (j_bbc j) (j_bbl j) (j_tsync j) (j_tail j) v (j_root j) (j_rnext j) (j_rroot j) (j_rmeta j).
Definition set_root (v : Z) (j : journal) : journal :=
  Journal (j_buf j) (j_ppc j) (j_epoch j) (j_dirty j) (j_badmeta j) (j_recov j) (j_enum j) (j_bbc j) (j_bbl j) (j_tsync j) (j_tail j) (j_head j) v (j_rnext j) (j_rroot j) (j_rmeta j).
Definition set_rnext (v : Z) (j : journal) : journal :=
  Journal (j_buf j) (j_ppc j) (j_epoch j) (j_dirty j) (j_badmeta j) (j_recov j) (j_enum j) (j_bbc j) (j_bbl j) (j_tsync j) (j_tail j) (j_head j) (j_root j) v (j_rroot j) (j_rmeta j).
Definition set_rroot (v : Z) (j : journal) : journal :=
  Journal (j_buf j) (j_ppc j) (j_epoch j) (j_dirty j) (j_badmeta j) (j_recov j) (j_enum j) (j_bbc j) (j_bbl j) (j_tsync j) (j_tail j) (j_head j) (j_root j) (j_rnext j) v (j_rmeta j).
Definition set_rmeta (v : Z) (j : journal) : journal :=
  Journal (j_buf j) (j_ppc j) (j_epoch j) (j_dirty j) (j_badmeta j) (j_recov j) (j_enum j) (j_bbc j) (j_bbl j) (j_tsync j) (j_tail j) (j_head j) (j_root j) (j_rnext j) (j_rroot j) v.

(** The journal together with the chip it drives. *)
Record js := Js { js_n : nand; js_j : journal }.
Definition put_n (n : nand) (s : js) : js := Js n (js_j s).
Definition MJ := M js.
Definition io {A} (m : M nand A) : MJ A := zoom js_n put_n m.
Definition getj {A} (f : journal -> A) : MJ A := gets (fun s => f (js_j s)).
Definition modj (f : journal -> journal) : MJ unit :=
  modify (fun s => Js (js_n s) (f (js_j s))).
Definition getg : MJ geo := gets (fun s => n_geo (js_n s)).

(** Access to page_buf with a bounds check: out-of-bounds is undefined
    behaviour in C. *)
Definition buf_put (off : Z) (src : bytes) : MJ unit := fun s =>
  let j := js_j s in
  if (0 <=? off) && (off + blen src <=? blen (j_buf j))
  then (OK tt, Js (js_n s) (set_buf (splice off src (j_buf j)) j))
  else (ST UB, s).
Definition buf_get (off len : Z) : MJ bytes := fun s =>
  let j := js_j s in
  if (0 <=? off) && (off + len <=? blen (j_buf j))
  then (OK (slice off len (j_buf j)), s)
  else (ST UB, s).

(** ** Metapage binary format: journal.c:25-93 *)

(** hdr_has_magic (journal.c:26-31): 'D' 'h' 'a' *)
Definition hdr_has_magic (b : bytes) : bool :=
  (bget b 0 =? 68) && (bget b 1 =? 104) && (bget b 2 =? 97).
(** hdr_get_epoch (journal.c:41-44) *)
Definition hdr_get_epoch (b : bytes) : Z := bget b 3.
(** hdr_get_tail (journal.c:51-54) *)
Definition hdr_get_tail (b : bytes) : Z := get32 4 b.
(** hdr_get_bb_current (journal.c:61-64) *)
Definition hdr_get_bb_current (b : bytes) : Z := get32 8 b.
(** hdr_get_bb_last (journal.c:71-74) *)
Definition hdr_get_bb_last (b : bytes) : Z := get32 12 b.

(** hdr_put_magic (journal.c:33-38) *)
Definition hdr_put_magic : MJ unit := buf_put 0 [68; 104; 97].
(** hdr_set_epoch (journal.c:46-49) *)
Definition hdr_set_epoch (e : Z) : MJ unit := buf_put 3 [w8 e].
(** hdr_set_tail (journal.c:56-59) *)
Definition hdr_set_tail (t : Z) : MJ unit := buf_put 4 (w32_bytes t).
(** hdr_set_bb_current (journal.c:66-69) *)
Definition hdr_set_bb_current (c : Z) : MJ unit := buf_put 8 (w32_bytes c).
(** hdr_set_bb_last (journal.c:76-79) *)
Definition hdr_set_bb_last (c : Z) : MJ unit := buf_put 12 (w32_bytes c).
(** hdr_clear_user (journal.c:82-86) *)
Definition hdr_clear_user : MJ unit :=
  let! g := getg in
  buf_put (HEADER_SIZE + COOKIE_SIZE)
          (ffs (page_size g - HEADER_SIZE - COOKIE_SIZE)).
(** hdr_user_offset (journal.c:89-93); the argument is a uint8_t *)
Definition hdr_user_offset (which : Z) : Z :=
  HEADER_SIZE + COOKIE_SIZE + w8 which * META_SIZE.

(** ** Page geometry helpers: journal.c:99-157 *)

(** is_aligned (journal.c:100-103) *)
Definition is_aligned (p n : Z) : bool :=
  Z.land p (Z.shiftl 1 n - 1) =? 0.
(** align_eq (journal.c:106-110) *)
Definition align_eq (a b n : Z) : bool := Z.shiftr (Z.lxor a b) n =? 0.
(** next_block (journal.c:113-120) *)
Definition next_block (g : geo) (blk : Z) : Z :=
  let blk := w32 (blk + 1) in
  if g_nblk g <=? blk then 0 else blk.
(** next_upage (journal.c:122-133) *)
Definition next_upage (g : geo) (log2_ppc p : Z) : Z :=
  let p := w32 (p + 1) in
  let p := if is_aligned (w32 (p + 1)) log2_ppc then w32 (p + 1) else p in
  if num_pages g <=? p then 0 else p.

(** choose_ppc (journal.c:139-157); the loop runs at most [max] times. *)
Fixpoint choose_ppc_loop (fuel : nat) (max_meta total_meta ppc max : Z) : Z :=
  match fuel with
  | O => ppc
  | S fuel =>
    if ppc <? max then
      let total_meta := Z.shiftl total_meta 1 + META_SIZE in
      if max_meta <? total_meta then ppc
      else choose_ppc_loop fuel max_meta total_meta (ppc + 1) max
    else ppc
  end.
Definition choose_ppc (log2_page_size max : Z) : Z :=
  choose_ppc_loop (Z.to_nat max)
    (Z.shiftl 1 log2_page_size - HEADER_SIZE - COOKIE_SIZE) META_SIZE 1 max.

(** ** Journal setup/resume *)

(** clear_recovery (journal.c:164-172) *)
Definition clear_recovery_j (j : journal) : journal :=
  set_badmeta false (set_recov false (set_enum false
    (set_rnext PAGE_NONE (set_rroot PAGE_NONE (set_rmeta PAGE_NONE j))))).
Definition clear_recovery : MJ unit := modj clear_recovery_j.

(** reset_journal (journal.c:175-197) *)
Definition reset_journal_j (g : geo) (j : journal) : journal :=
  Journal (ffs (page_size g)) (j_ppc j) 0 false false false false
          0 (Z.shiftr (g_nblk g) 6) 0 0 0 PAGE_NONE
          PAGE_NONE PAGE_NONE PAGE_NONE.
Definition reset_journal : MJ unit :=
  let! g := getg in modj (reset_journal_j g).

(** roll_stats (journal.c:199-204) *)
Definition roll_stats_j (j : journal) : journal :=
  set_epoch (w8 (j_epoch j + 1)) (set_bbc 0 (set_bbl (j_bbc j) j)).
Definition roll_stats : MJ unit := modj roll_stats_j.

(** dhara_journal_init (journal.c:206-216).  No NAND operation. *)
Definition journal_init (g : geo) : journal :=
  reset_journal_j g
    (Journal [] (choose_ppc (g_lps g) (g_lppb g)) 0 false false false false
             0 0 0 0 0 0 0 0 0).

(** Read a whole page into page_buf.  When the driver reports an error the
    buffer contents are unspecified in C; the model leaves them unchanged (no
    caller looks at the buffer in that case). *)
Definition read_page_buf (p : Z) : MJ unit :=
  let! g := getg in
  let! d := io (nand_read p 0 (page_size g)) in
  modj (set_buf d).

(** find_checkblock (journal.c:222-248); the result is [*where]. *)
Fixpoint find_checkblock_loop (i : nat) (blk : Z) : MJ Z :=
  match i with
  | O => fail E_TOO_BAD
  | S i =>
    let! g := getg in
    if blk <? g_nblk g then
      let! c := getj j_ppc in
      let p := Z.lor (w32 (Z.shiftl blk (g_lppb g))) (Z.shiftl 1 c - 1) in
      let! bad := io (nand_is_bad blk) in
      let! hit :=
        (if bad then ret false else
         let! r := attempt (read_page_buf p) in
         match r with
         | inl _ => ret false
         | inr _ => let! b := getj j_buf in ret (hdr_has_magic b)
         end) in
      if (hit : bool) then ret blk
      else find_checkblock_loop i (w32 (blk + 1))
    else fail E_TOO_BAD
  end.
Definition find_checkblock (blk : Z) : MJ Z :=
  find_checkblock_loop MAX_RETRIES blk.

(** (find_checkblock(...) < 0) || (hdr_get_epoch(page_buf) != epoch), and if
    not, the block found. *)
Definition find_checkblock_cur (blk : Z) : MJ (option Z) :=
  let! r := attempt (find_checkblock blk) in
  match r with
  | inl _ => ret None
  | inr found =>
    let! b := getj j_buf in
    let! e := getj j_epoch in
    ret (if hdr_get_epoch b =? e then Some found else None)
  end.

(** find_last_checkblock (journal.c:250-280) *)
Fixpoint find_last_checkblock_loop (fuel : nat) (first low high : Z) : MJ Z :=
  match fuel with
  | O => halt Fuel
  | S fuel =>
    if low <=? high then
      let mid := Z.shiftr (w32 (low + high)) 1 in
      let! r := find_checkblock_cur mid in
      match r with
      | None => if mid =? 0 then ret first
                else find_last_checkblock_loop fuel first low (mid - 1)
      | Some found =>
        let! g := getg in
        if g_nblk g <=? w32 (found + 1) then ret found else
        let! r2 := find_checkblock_cur (w32 (found + 1)) in
        match r2 with
        | None => ret found
        | Some nf => find_last_checkblock_loop fuel first nf high
        end
      end
    else ret first
  end.
Definition find_last_checkblock (first : Z) : MJ Z :=
  let! g := getg in
  find_last_checkblock_loop (S (Z.to_nat (g_nblk g))) first first
    (w32 (g_nblk g - 1)).

(** cp_free (journal.c:299-309) *)
Fixpoint cp_free_loop (n : nat) (p : Z) : MJ bool :=
  match n with
  | O => ret true
  | S n =>
    let! f := io (nand_is_free p) in
    if (f : bool) then cp_free_loop n (w32 (p + 1)) else ret false
  end.
Definition cp_free (first_user : Z) : MJ bool :=
  let! c := getj j_ppc in
  cp_free_loop (Z.to_nat (Z.shiftl 1 c)) first_user.

(** find_last_group (journal.c:311-340); low/high/mid are ints. *)
Fixpoint find_last_group_loop (fuel : nat) (blk num_groups low high : Z)
  : MJ Z :=
  match fuel with
  | O => halt Fuel
  | S fuel =>
    let! g := getg in
    let! c := getj j_ppc in
    if low <=? high then
      let mid := Z.shiftr (low + high) 1 in
      let p := Z.lor (Z.shiftl mid c) (w32 (Z.shiftl blk (g_lppb g))) in
      let! f := cp_free p in
      if (f : bool) then find_last_group_loop fuel blk num_groups low (mid - 1)
      else
        let! last :=
          (if num_groups <=? mid + 1 then ret true
           else cp_free (w32 (p + Z.shiftl 1 c))) in
        if (last : bool) then ret p
        else find_last_group_loop fuel blk num_groups (mid + 1) high
    else ret (w32 (Z.shiftl blk (g_lppb g)))
  end.
Definition find_last_group (blk : Z) : MJ Z :=
  let! g := getg in
  let! c := getj j_ppc in
  let num_groups := Z.shiftl 1 (g_lppb g - c) in
  find_last_group_loop (S (Z.to_nat num_groups)) blk num_groups 0
    (num_groups - 1).

(** find_root (journal.c:342-366); [i] counts down from the group index. *)
Fixpoint find_root_loop (i : nat) (blk : Z) : MJ unit :=
  let! g := getg in
  let! c := getj j_ppc in
  let p := w32 (w32 (Z.shiftl blk (g_lppb g)) +
                Z.shiftl (Z.of_nat i + 1) c - 1) in
  let! r := attempt (read_page_buf p) in
  let! hit :=
    match r with
    | inl _ => ret false
    | inr _ =>
      let! b := getj j_buf in
      let! e := getj j_epoch in
      ret (hdr_has_magic b && (hdr_get_epoch b =? e))
    end in
  if (hit : bool) then modj (set_root (p - 1))
  else match i with
       | O => fail E_TOO_BAD
       | S i => find_root_loop i blk
       end.
Definition find_root (start : Z) : MJ unit :=
  let! g := getg in
  let! c := getj j_ppc in
  let i := Z.shiftr (Z.land start (Z.shiftl 1 (g_lppb g) - 1)) c in
  find_root_loop (Z.to_nat i) (Z.shiftr start (g_lppb g)).

(** Inner loop of find_head (journal.c:389-391): number of free pages that end
    the checkpoint group starting at [first]. *)
Fixpoint trailing_free (k : nat) (p : Z) : MJ Z :=
  match k with
  | O => ret 0
  | S k =>
    let! f := io (nand_is_free p) in
    if (f : bool) then let! n := trailing_free k (p - 1) in ret (n + 1)
    else ret 0
  end.

(** find_head (journal.c:368-420) *)
Fixpoint find_head_loop (fuel : nat) : MJ unit :=
  match fuel with
  | O => halt Fuel
  | S fuel =>
    let! g := getg in
    let! c := getj j_ppc in
    let! head := getj j_head in
    let ppc := Z.shiftl 1 c in
    let first := Z.land head (Z.lnot (ppc - 1)) in
    let! n := trailing_free (Z.to_nat ppc) (w32 (first + ppc - 1)) in
    if 1 <? n then modj (set_head (w32 (first + ppc - n)))
    else
      modj (set_head (w32 (first + ppc)));;;
      let! head := getj j_head in
      (if num_pages g <=? head
       then modj (set_head 0);;; roll_stats else ret tt);;;
      let! head := getj j_head in
      if is_aligned head (g_lppb g) then
        let! tail := getj j_tail in
        if align_eq head tail (g_lppb g)
        then modj (set_tail (w32 (Z.shiftl
               (next_block g (Z.shiftr tail (g_lppb g))) (g_lppb g))))
        else ret tt
      else find_head_loop fuel
  end.
Definition find_head (start : Z) : MJ unit :=
  let! g := getg in
  let! c := getj j_ppc in
  modj (set_head (next_upage g c start));;;
  let! head := getj j_head in
  (if head =? 0 then roll_stats else ret tt);;;
  find_head_loop (S (Z.to_nat (ppb g))).

(** dhara_journal_resume (journal.c:422-465) *)
Definition journal_resume_body : MJ unit :=
  let! first := find_checkblock 0 in
  let! b := getj j_buf in
  modj (set_epoch (hdr_get_epoch b));;;
  let! last := find_last_checkblock first in
  let! last_group := find_last_group last in
  find_root last_group;;;
  let! b := getj j_buf in
  modj (set_tail (hdr_get_tail b));;;
  modj (set_bbc (hdr_get_bb_current b));;;
  modj (set_bbl (hdr_get_bb_last b));;;
  hdr_clear_user;;;
  find_head last_group;;;
  modj (fun j => set_dirty false (set_badmeta false (set_recov false
                   (set_enum false j))));;;
  let! tail := getj j_tail in
  modj (set_tsync tail);;;
  clear_recovery.
Definition journal_resume : MJ unit :=
  let! r := attempt journal_resume_body in
  match r with
  | inr _ => ret tt
  | inl e => reset_journal;;; fail e
  end.

(** ** Public interface *)

(** dhara_journal_capacity (journal.c:471-481) *)
Definition journal_capacity (g : geo) (j : journal) : Z :=
  let max_bad := if j_bbc j <? j_bbl j then j_bbl j else j_bbc j in
  let good_blocks := w32 (g_nblk g - max_bad - 1) in
  let log2_cpb := g_lppb g - j_ppc j in
  let good_cps := w32 (Z.shiftl good_blocks log2_cpb) in
  w32 (w32 (Z.shiftl good_cps (j_ppc j)) - good_cps).

(** dhara_journal_size (journal.c:483-504) *)
Definition journal_size (g : geo) (j : journal) : Z :=
  let total := num_pages g in
  let wrapped := j_head j <? j_tsync j in
  let np := if wrapped then w32 (j_head j + total) else j_head j in
  let nc0 := Z.shiftr (j_head j) (j_ppc j) in
  let nc := if wrapped then w32 (nc0 + Z.shiftr total (j_ppc j)) else nc0 in
  let np := w32 (np - j_tsync j) in
  let nc := w32 (nc - Z.shiftr (j_tsync j) (j_ppc j)) in
  w32 (np - nc).

(** dhara_journal_read_meta (journal.c:506-532) *)
Definition read_meta (p : Z) : MJ bytes :=
  let! j := getj (fun j => j) in
  let ppc_mask := Z.shiftl 1 (j_ppc j) - 1 in
  let offset := hdr_user_offset (Z.land p ppc_mask) in
  if align_eq p (j_head j) (j_ppc j) then buf_get offset META_SIZE
  else if negb (j_rmeta j =? PAGE_NONE) && align_eq p (j_rroot j) (j_ppc j)
  then io (nand_read (j_rmeta j) offset META_SIZE)
  else io (nand_read (Z.lor p ppc_mask) offset META_SIZE).

(** dhara_journal_peek (journal.c:534-559) *)
Fixpoint peek_loop (i : nat) (blk : Z) : MJ Z :=
  match i with
  | O => getj j_tail
  | S i =>
    let! g := getg in
    let! head := getj j_head in
    let! stop :=
      (if blk =? Z.shiftr head (g_lppb g) then ret true
       else let! bad := io (nand_is_bad blk) in ret (negb bad)) in
    if (stop : bool) then
      modj (set_tail (w32 (Z.shiftl blk (g_lppb g))));;;
      let! tail := getj j_tail in
      (if tail =? head then modj (set_root PAGE_NONE) else ret tt);;;
      ret tail
    else peek_loop i (next_block g blk)
  end.
Definition journal_peek : MJ Z :=
  let! g := getg in
  let! head := getj j_head in
  let! tail := getj j_tail in
  if head =? tail then ret PAGE_NONE
  else if is_aligned tail (g_lppb g)
  then peek_loop MAX_RETRIES (Z.shiftr tail (g_lppb g))
  else ret tail.

(** wrap (journal.c:561-564) *)
Definition wrap (a b : Z) : Z := if b <=? a then a - b else a.

(** dhara_journal_dequeue (journal.c:566-587) *)
Definition journal_dequeue : MJ unit :=
  let! g := getg in
  let! j := getj (fun j => j) in
  if j_head j =? j_tail j then ret tt else
  let t := next_upage g (j_ppc j) (j_tail j) in
  modj (set_tail t);;;
  (if negb (j_dirty j || j_recov j) then modj (set_tsync t) else ret tt);;;
  let chip_size := num_pages g in
  let raw_size := wrap (w32 (j_head j + chip_size - t)) chip_size in
  let root_offset := wrap (w32 (j_head j + chip_size - j_root j)) chip_size in
  if raw_size <? root_offset then modj (set_root PAGE_NONE) else ret tt.

(** dhara_journal_clear (journal.c:589-596) *)
Definition journal_clear : MJ unit :=
  modj (fun j => set_dirty true (set_root PAGE_NONE (set_tail (j_head j) j)));;;
  hdr_clear_user.

(** skip_block (journal.c:598-614) *)
Definition skip_block : MJ unit :=
  let! g := getg in
  let! j := getj (fun j => j) in
  let next := next_block g (Z.shiftr (j_head j) (g_lppb g)) in
  if Z.shiftr (j_tsync j) (g_lppb g) =? next then fail E_JOURNAL_FULL
  else
    modj (set_head (w32 (Z.shiftl next (g_lppb g))));;;
    let! head := getj j_head in
    if head =? 0 then roll_stats else ret tt.

(** prepare_head (journal.c:617-648) *)
Fixpoint prepare_head_loop (i : nat) : MJ unit :=
  match i with
  | O => fail E_TOO_BAD
  | S i =>
    let! g := getg in
    let! head := getj j_head in
    let blk := Z.shiftr head (g_lppb g) in
    let! bad := io (nand_is_bad blk) in
    if (bad : bool) then
      modj (fun j => set_bbc (w32 (j_bbc j + 1)) j);;;
      skip_block;;;
      prepare_head_loop i
    else io (nand_erase blk)
  end.
Definition prepare_head : MJ unit :=
  let! g := getg in
  let! j := getj (fun j => j) in
  let next := next_upage g (j_ppc j) (j_head j) in
  if align_eq next (j_tsync j) (g_lppb g) &&
     negb (align_eq next (j_head j) (g_lppb g))
  then fail E_JOURNAL_FULL
  else
    modj (set_dirty true);;;
    if negb (is_aligned (j_head j) (g_lppb g)) then ret tt
    else prepare_head_loop MAX_RETRIES.

(** x & ~((1 << log2_ppb) - 1) on a uint32_t *)
Definition block_base (g : geo) (p : Z) : Z :=
  Z.land p (Z.lnot (Z.shiftl 1 (g_lppb g) - 1)).

(** restart_recovery (journal.c:650-672) *)
Definition restart_recovery (old_head : Z) : MJ unit :=
  let! g := getg in
  let! j := getj (fun j => j) in
  (if (j_rmeta j =? PAGE_NONE) ||
      negb (align_eq (j_rmeta j) old_head (g_lppb g))
   then io (nand_mark_bad (Z.shiftr old_head (g_lppb g)))
   else modj (set_badmeta true));;;
  modj (fun j => set_root (j_rroot j)
                   (set_rnext (block_base g (j_rroot j)) (set_enum false j))).

(** dump_meta (journal.c:674-711) *)
Fixpoint dump_meta_loop (i : nat) : MJ unit :=
  match i with
  | O => fail E_TOO_BAD
  | S i =>
    let! r := attempt (
      prepare_head;;;
      let! j := getj (fun j => j) in
      io (nand_prog (j_head j) (j_buf j))) in
    match r with
    | inr _ =>
      let! g := getg in
      modj (fun j => set_head (next_upage g (j_ppc j) (j_head j))
                       (set_rmeta (j_head j) j));;;
      let! head := getj j_head in
      (if head =? 0 then roll_stats else ret tt);;;
      hdr_clear_user
    | inl my_err =>
      if decide (my_err = E_BAD_BLOCK) then
        modj (fun j => set_bbc (w32 (j_bbc j + 1)) j);;;
        let! g := getg in
        let! head := getj j_head in
        io (nand_mark_bad (Z.shiftr head (g_lppb g)));;;
        skip_block;;;
        dump_meta_loop i
      else fail my_err
    end
  end.
Definition dump_meta : MJ unit := dump_meta_loop MAX_RETRIES.

(** recover_from (journal.c:713-754): [ret tt] stands for returning 0, errors
    for returning -1. *)
Definition recover_from (write_err : err) : MJ unit :=
  let! g := getg in
  let! old_head := getj j_head in
  if decide (write_err <> E_BAD_BLOCK) then fail write_err else
  modj (fun j => set_bbc (w32 (j_bbc j + 1)) j);;;
  skip_block;;;
  let! recovering := getj j_recov in
  if (recovering : bool) then restart_recovery old_head;;; fail E_RECOVER
  else if is_aligned old_head (g_lppb g)
  then io (nand_mark_bad (Z.shiftr old_head (g_lppb g)))
  else
    modj (fun j => set_rnext (block_base g (j_root j)) (set_rroot (j_root j) j));;;
    let! c := getj j_ppc in
    (if negb (is_aligned old_head c) then dump_meta else ret tt);;;
    modj (set_recov true);;;
    fail E_RECOVER.

(** finish_recovery (journal.c:756-773) *)
Definition finish_recovery : MJ unit :=
  let! g := getg in
  let! j := getj (fun j => j) in
  io (nand_mark_bad (Z.shiftr (j_rroot j) (g_lppb g)));;;
  (if j_badmeta j
   then io (nand_mark_bad (Z.shiftr (j_rmeta j) (g_lppb g))) else ret tt);;;
  clear_recovery.

(** push_meta (journal.c:775-825) *)
Definition push_meta (meta : option bytes) : MJ unit :=
  let! g := getg in
  let! j := getj (fun j => j) in
  let old_head := j_head j in
  let offset := hdr_user_offset (Z.land (j_head j) (Z.shiftl 1 (j_ppc j) - 1)) in
  buf_put offset (match meta with Some m => m | None => ffs META_SIZE end);;;
  if negb (is_aligned (w32 (j_head j + 2)) (j_ppc j)) then
    modj (fun j => set_head (w32 (j_head j + 1)) (set_root (j_head j) j))
  else
    hdr_put_magic;;;
    hdr_set_epoch (j_epoch j);;;
    hdr_set_tail (j_tail j);;;
    hdr_set_bb_current (j_bbc j);;;
    hdr_set_bb_last (j_bbl j);;;
    let! buf := getj j_buf in
    let! r := attempt (io (nand_prog (w32 (old_head + 1)) buf)) in
    match r with
    | inl my_err => recover_from my_err
    | inr _ =>
      modj (set_dirty false);;;
      modj (fun j => set_head (next_upage g (j_ppc j) (j_head j))
                       (set_root old_head j));;;
      let! head := getj j_head in
      (if head =? 0 then roll_stats else ret tt);;;
      let! enum_done := getj j_enum in
      (if (enum_done : bool) then finish_recovery else ret tt);;;
      let! j := getj (fun j => j) in
      if negb (j_recov j) then modj (set_tsync (j_tail j)) else ret tt
    end.

(** dhara_journal_enqueue (journal.c:827-846) and dhara_journal_copy
    (journal.c:848-866) share their retry loop; [prog] is the operation that
    puts data on the head page. *)
Fixpoint append_loop (i : nat) (prog : Z -> M nand unit) (meta : option bytes)
  : MJ unit :=
  match i with
  | O => fail E_TOO_BAD
  | S i =>
    let! r := attempt (prepare_head;;; let! h := getj j_head in io (prog h)) in
    match r with
    | inr _ => push_meta meta
    | inl my_err => recover_from my_err;;; append_loop i prog meta
    end
  end.
Definition journal_enqueue (data : option bytes) (meta : option bytes) : MJ unit :=
  append_loop MAX_RETRIES
    (fun h => match data with Some d => nand_prog h d | None => ret tt end) meta.
Definition journal_copy (p : Z) (meta : bytes) : MJ unit :=
  append_loop MAX_RETRIES (fun h => nand_copy p h) (Some meta).

(** dhara_journal_next_recoverable (journal.c:868-884) *)
Definition next_recoverable : MJ Z :=
  let! g := getg in
  let! j := getj (fun j => j) in
  if negb (j_recov j) then ret PAGE_NONE else
  if j_enum j then ret PAGE_NONE else
  (if j_rnext j =? j_rroot j then modj (set_enum true)
   else modj (set_rnext (next_upage g (j_ppc j) (j_rnext j))));;;
  ret (j_rnext j).

(** dhara_journal_cookie (journal.h:154-157): writes to the cookie. *)
Definition cookie_put (b : bytes) : MJ unit := buf_put HEADER_SIZE b.
