(** Model of dhara/map.c and dhara/map.h. *)
From Verif Require Import Base Bytes Nand Journal.

(** DHARA_RADIX_DEPTH (map.c:21) *)
Definition RADIX_DEPTH : Z := 32.

(** d_bit (map.c:23-26) *)
Definition d_bit (depth : Z) : Z := Z.shiftl 1 (RADIX_DEPTH - depth - 1).

(** ** Metadata/cookie layout: map.c:32-65 *)

(** meta_get_id (map.c:47-50) *)
Definition meta_get_id (m : bytes) : Z := get32 0 m.
(** meta_set_id (map.c:52-55) *)
Definition meta_set_id (m : bytes) (id : Z) : bytes := put32 0 id m.
(** meta_get_alt (map.c:57-60) *)
Definition meta_get_alt (m : bytes) (level : Z) : Z :=
  get32 (4 + Z.shiftl level 2) m.
(** meta_set_alt (map.c:62-65) *)
Definition meta_set_alt (m : bytes) (level alt : Z) : bytes :=
  put32 (4 + Z.shiftl level 2) alt m.

(** ** struct dhara_map: map.h:30-35 *)
Record ms := Ms { m_js : js; m_gcr : Z; m_count : Z }.
Definition put_js (x : js) (s : ms) : ms := Ms x (m_gcr s) (m_count s).
Definition set_count (c : Z) (s : ms) : ms := Ms (m_js s) (m_gcr s) c.
Definition MM := M ms.
Definition jn {A} (m : MJ A) : MM A := zoom m_js put_js m.
Definition get_root : MM Z := jn (getj j_root).

(** ck_set_count (map.c:32-35) on the journal's cookie *)
Definition ck_set_count (c : Z) : MM unit := jn (cookie_put (w32_bytes c)).
(** ck_get_count (map.c:37-40) on the journal's cookie *)
Definition ck_get_count : MM Z :=
  jn (let! b := buf_get HEADER_SIZE COOKIE_SIZE in ret (r32 b)).

(** dhara_map_init (map.c:71-79).  [m->count] is not initialised by
    dhara_map_init in C (only by resume); the model starts it at an arbitrary
    value given by the caller. *)
Definition map_init (n : nand) (gc_ratio junk : Z) : ms :=
  Ms (Js n (journal_init (n_geo n)))
     (if w8 gc_ratio =? 0 then 1 else w8 gc_ratio) junk.

(** dhara_map_resume (map.c:81-90) *)
Definition map_resume : MM unit :=
  let! r := attempt (jn journal_resume) in
  match r with
  | inl e => modify (set_count 0);;; fail e
  | inr _ => let! c := ck_get_count in modify (set_count c)
  end.

(** dhara_map_clear (map.c:92-98) *)
Definition map_clear : MM unit :=
  let! c := gets m_count in
  if negb (c =? 0) then modify (set_count 0);;; jn journal_clear else ret tt.

(** dhara_map_capacity (map.c:100-111); gc_ratio + 1 is at least 1. *)
Definition map_capacity (s : ms) : Z :=
  let g := n_geo (js_n (m_js s)) in
  let cap := journal_capacity g (js_j (m_js s)) in
  let reserve := cap / (m_gcr s + 1) in
  let margin := w32 (Z.shiftl (Z.of_nat MAX_RETRIES) (g_lppb g)) in
  if cap <=? w32 (reserve + margin) then 0 else w32 (cap - reserve - margin).

(** dhara_map_size (map.h:57-60) *)
Definition map_size (s : ms) : Z := m_count s.

(** ** trace_path: map.c:122-180

    [new_meta] is always supplied here (when C passes NULL the caller ignores
    the result).  E_NOT_FOUND is returned as the value [None] together with the
    constructed path, since its callers use the path in that case; other errors
    are raised.  The loop runs over [k] = RADIX_DEPTH - depth. *)

(** Contents of the uninitialised [uint8_t meta[DHARA_META_SIZE]]. *)
Definition uninit_meta : bytes := replicate 132 165.

(** not_found: (map.c:172-176) fill the remaining levels *)
Fixpoint fill_none (k : nat) (nm : bytes) : bytes :=
  match k with
  | O => nm
  | S k' => fill_none k' (meta_set_alt nm (RADIX_DEPTH - Z.of_nat k) PAGE_NONE)
  end.

Fixpoint trace_loop (k : nat) (target p : Z) (meta nm : bytes)
  : MM (option Z * bytes) :=
  match k with
  | O => ret (Some p, nm)
  | S k' =>
    let depth := RADIX_DEPTH - Z.of_nat k in
    let id := meta_get_id meta in
    if id =? SECTOR_NONE then ret (None, fill_none k nm)
    else if negb (Z.land (Z.lxor target id) (d_bit depth) =? 0) then
      let nm := meta_set_alt nm depth p in
      let p' := meta_get_alt meta depth in
      if p' =? PAGE_NONE then ret (None, fill_none k' nm)
      else
        let! meta' := jn (read_meta p') in
        trace_loop k' target p' meta' nm
    else
      trace_loop k' target p meta (meta_set_alt nm depth (meta_get_alt meta depth))
  end.

Definition trace_path (target : Z) (nm : bytes) : MM (option Z * bytes) :=
  let! p := get_root in
  let nm := meta_set_id nm target in
  if p =? PAGE_NONE then ret (None, fill_none 32 nm)
  else
    let! meta := jn (read_meta p) in
    trace_loop 32 target p meta nm.

(** dhara_map_find (map.c:182-186) *)
Definition map_find (target : Z) : MM Z :=
  let! r := trace_path target uninit_meta in
  match fst r with
  | Some p => ret p
  | None => fail E_NOT_FOUND
  end.

(** dhara_map_read (map.c:188-206) *)
Definition map_read (s : Z) : MM bytes :=
  let! g := jn getg in
  let! r := attempt (map_find s) in
  match r with
  | inl e => if decide (e = E_NOT_FOUND) then ret (ffs (page_size g)) else fail e
  | inr p => jn (io (nand_read p 0 (page_size g)))
  end.

(** raw_gc (map.c:212-251) *)
Definition raw_gc (src : Z) : MM unit :=
  let! meta := jn (read_meta src) in
  let target := meta_get_id meta in
  if target =? SECTOR_NONE then ret tt
  else
    let! r := trace_path target meta in
    match r with
    | (None, _) => ret tt
    | (Some current, meta) =>
      if negb (current =? src) then ret tt
      else
        let! c := gets m_count in
        ck_set_count c;;;
        jn (journal_copy src meta)
    end.

(** pad_queue (map.c:253-267) *)
Definition pad_queue : MM unit :=
  let! p := get_root in
  let! c := gets m_count in
  ck_set_count c;;;
  if p =? PAGE_NONE then jn (journal_enqueue None None)
  else
    let! root_meta := jn (read_meta p) in
    jn (journal_copy p root_meta).

(** try_recover (map.c:270-306); [fuel] bounds the while loop. *)
Fixpoint try_recover_loop (fuel restart_count : nat) : MM unit :=
  match fuel with
  | O => halt Fuel
  | S fuel =>
    let! rec := jn (getj j_recov) in
    if (rec : bool) then
      let! p := jn next_recoverable in
      let! r := attempt (if p =? PAGE_NONE then pad_queue else raw_gc p) in
      match r with
      | inr _ => try_recover_loop fuel restart_count
      | inl my_err =>
        if decide (my_err <> E_RECOVER) then fail my_err
        else if (MAX_RETRIES <=? restart_count)%nat then fail E_TOO_BAD
        else try_recover_loop fuel (S restart_count)
      end
    else ret tt
  end.
Definition try_recover (fuel : nat) (cause : err) : MM unit :=
  if decide (cause <> E_RECOVER) then fail cause
  else try_recover_loop fuel 0.

(** dhara_map_gc (map.c:508-530); [fuel] bounds the for(;;) loop and the
    recovery loop inside it. *)
Fixpoint map_gc_loop (n fuel : nat) : MM unit :=
  match n with
  | O => halt Fuel
  | S n =>
    let! tail := jn journal_peek in
    if tail =? PAGE_NONE then ret tt
    else
      let! r := attempt (raw_gc tail) in
      match r with
      | inr _ => jn journal_dequeue
      | inl my_err => try_recover fuel my_err;;; map_gc_loop n fuel
      end
  end.
Definition map_gc (fuel : nat) : MM unit :=
  let! c := gets m_count in
  if c =? 0 then ret tt else map_gc_loop fuel fuel.

(** auto_gc (map.c:308-320): the loop runs gc_ratio + 1 times. *)
Fixpoint repeat_gc (i fuel : nat) : MM unit :=
  match i with
  | O => ret tt
  | S i => map_gc fuel;;; repeat_gc i fuel
  end.
Definition auto_gc (fuel : nat) : MM unit :=
  let! small := gets (fun s =>
    journal_size (n_geo (js_n (m_js s))) (js_j (m_js s)) <? map_capacity s) in
  if (small : bool) then ret tt
  else
    let! r := gets m_gcr in
    repeat_gc (S (Z.to_nat r)) fuel.

(** prepare_write (map.c:322-346); returns the metadata built. *)
Definition prepare_write (fuel : nat) (dst : Z) : MM bytes :=
  auto_gc fuel;;;
  let! r := trace_path dst uninit_meta in
  (match fst r with
   | Some _ => ret tt
   | None =>
     let! full := gets (fun s => map_capacity s <=? m_count s) in
     if (full : bool) then fail E_MAP_FULL
     else modify (fun s => set_count (w32 (m_count s + 1)) s)
   end);;;
  let! c := gets m_count in
  ck_set_count c;;;
  ret (snd r).

(** The common loop of dhara_map_write (map.c:348-369) and dhara_map_copy_page
    (map.c:371-392); [app] appends to the journal. *)
Fixpoint write_loop (n fuel : nat) (dst : Z) (app : bytes -> MJ unit) : MM unit :=
  match n with
  | O => halt Fuel
  | S n =>
    let! old_count := gets m_count in
    let! meta := prepare_write fuel dst in
    let! r := attempt (jn (app meta)) in
    match r with
    | inr _ => ret tt
    | inl my_err =>
      modify (set_count old_count);;;
      try_recover fuel my_err;;;
      write_loop n fuel dst app
    end
  end.

(** dhara_map_write (map.c:348-369) *)
Definition map_write (fuel : nat) (dst : Z) (data : bytes) : MM unit :=
  write_loop fuel fuel dst (fun meta => journal_enqueue (Some data) (Some meta)).

(** dhara_map_copy_page (map.c:371-392) *)
Definition map_copy_page (fuel : nat) (src dst : Z) : MM unit :=
  write_loop fuel fuel dst (fun meta => journal_copy src meta).

(** try_delete (map.c:411-466) *)

(** The while loop of map.c:432-437: highest level below [k] with an alt
    pointer. *)
Fixpoint find_cousin (k : nat) (meta : bytes) : option (Z * Z) :=
  match k with
  | O => None
  | S k' =>
    let level := Z.of_nat k' in
    let alt_page := meta_get_alt meta level in
    if negb (alt_page =? PAGE_NONE) then Some (level, alt_page)
    else find_cousin k' meta
  end.
(** The for loop of map.c:455-456: copy the alt pointers above [level]; [k]
    levels remain. *)
Fixpoint copy_alts (k : nat) (alt_meta meta : bytes) : bytes :=
  match k with
  | O => meta
  | S k' =>
    let i := RADIX_DEPTH - Z.of_nat k in
    copy_alts k' alt_meta (meta_set_alt meta i (meta_get_alt alt_meta i))
  end.

Definition try_delete (s : Z) : MM unit :=
  let! r := trace_path s uninit_meta in
  match r with
  | (None, _) => ret tt
  | (Some _, meta) =>
    match find_cousin 32 meta with
    | None => modify (set_count 0);;; jn journal_clear
    | Some (level, alt_page) =>
      let! alt_meta := jn (read_meta alt_page) in
      let meta := meta_set_id meta (meta_get_id alt_meta) in
      let meta := meta_set_alt meta level PAGE_NONE in
      let meta := copy_alts (Z.to_nat (RADIX_DEPTH - 1 - level)) alt_meta meta in
      let meta := meta_set_alt meta level PAGE_NONE in
      let! c := gets m_count in
      ck_set_count (w32 (c - 1));;;
      jn (journal_copy alt_page meta);;;
      modify (fun s => set_count (w32 (m_count s - 1)) s)
    end
  end.

(** dhara_map_trim (map.c:468-484) *)
Fixpoint trim_loop (n fuel : nat) (s : Z) : MM unit :=
  match n with
  | O => halt Fuel
  | S n =>
    auto_gc fuel;;;
    let! r := attempt (try_delete s) in
    match r with
    | inr _ => ret tt
    | inl my_err => try_recover fuel my_err;;; trim_loop n fuel s
    end
  end.
Definition map_trim (fuel : nat) (s : Z) : MM unit := trim_loop fuel fuel s.

(** dhara_map_copy_sector (map.c:394-409) *)
Definition map_copy_sector (fuel : nat) (src dst : Z) : MM unit :=
  let! r := attempt (map_find src) in
  match r with
  | inl e => if decide (e = E_NOT_FOUND) then map_trim fuel dst else fail e
  | inr p => map_copy_page fuel p dst
  end.

(** dhara_map_sync (map.c:486-506) *)
Fixpoint sync_loop (n fuel : nat) : MM unit :=
  match n with
  | O => halt Fuel
  | S n =>
    let! dirty := jn (getj j_dirty) in
    if (dirty : bool) then
      let! p := jn journal_peek in
      let! r := attempt (
        if p =? PAGE_NONE then pad_queue
        else raw_gc p;;; jn journal_dequeue) in
      match r with
      | inr _ => sync_loop n fuel
      | inl my_err => try_recover fuel my_err;;; sync_loop n fuel
      end
    else ret tt
  end.
Definition map_sync (fuel : nat) : MM unit := sync_loop fuel fuel.
