(** The journal (dhara/journal.h) used on its own, as tests/journal.c and
    tests/jfill.c do: histories of calls, and what they must do.

    The specification ([jcall], [jhist]) only mentions the calls, their results
    and lists of pages. *)
From Verif Require Import Base Bytes Nand Journal.
Local Open Scope Z_scope.

(** ** Calls *)
Inductive jop :=
| JEnq (d m : bytes)   (* dhara_journal_enqueue with data and metadata, journal.h:204 *)
| JPad                 (* dhara_journal_enqueue with NULL, NULL (map.c:399) *)
| JCopy (m : bytes)    (* dhara_journal_peek, and dhara_journal_copy of that page *)
| JPop                 (* dhara_journal_peek, reading that page, dhara_journal_dequeue *)
| JRoot                (* dhara_journal_root, reading that page *)
| JClear               (* dhara_journal_clear, journal.h:189 *)
| JSetCookie (b : bytes) (* writing through dhara_journal_cookie, journal.h:154 *)
| JGetCookie           (* reading through dhara_journal_cookie *)
| JIsClean             (* dhara_journal_is_clean, journal.h:231 *)
| JSize.               (* dhara_journal_size, journal.h:151 *)

Inductive jresp :=
| JDone | JEmpty
| JPage (meta data : err + bytes)   (* what dhara_journal_read_meta and dhara_nand_read return *)
| JBytes (b : bytes) | JBool (b : bool) | JNum (n : Z).

(** Reading a page as tests/jtutil.c:173-199 does: the metadata by
    dhara_journal_read_meta, the data by dhara_nand_read. *)
Definition jfetch (p : Z) : MJ jresp :=
  let! m := attempt (read_meta p) in
  let! g := getg in
  let! d := attempt (io (nand_read p 0 (page_size g))) in
  ret (JPage m d).

Definition jexec (o : jop) : MJ jresp :=
  match o with
  | JEnq d m => journal_enqueue (Some d) (Some m);;; ret JDone
  | JPad => journal_enqueue None None;;; ret JDone
  | JCopy m =>
    let! p := journal_peek in
    if p =? PAGE_NONE then ret JEmpty else journal_copy p m;;; ret JDone
  | JPop =>
    let! p := journal_peek in
    if p =? PAGE_NONE then ret JEmpty
    else let! x := jfetch p in journal_dequeue;;; ret x
  | JRoot =>
    let! p := getj j_root in
    if p =? PAGE_NONE then ret JEmpty else jfetch p
  | JClear => journal_clear;;; ret JDone
  | JSetCookie b => cookie_put b;;; ret JDone
  | JGetCookie => let! b := buf_get HEADER_SIZE COOKIE_SIZE in ret (JBytes b)
  | JIsClean => let! d := getj j_dirty in ret (JBool (negb d))
  | JSize => let! g := getg in let! n := getj (journal_size g) in ret (JNum n)
  end.

(** Power cycle: dhara_journal_init and dhara_journal_resume; if resuming fails
    the journal is empty and the caller goes on (journal.h:139). *)
Definition jrestart (n : nand) : out unit * js := journal_resume (Js n (journal_init (n_geo n))).

Inductive jhop := JO (o : jop) | JReset.

Fixpoint jrun (h : list jhop) (s : js) : list (out jresp) * js :=
  match h with
  | [] => ([], s)
  | JReset :: h =>
    let '(rs, s') := jrun h (snd (jrestart (js_n s))) in (OK JDone :: rs, s')
  | JO o :: h =>
    let '(r, s1) := jexec o s in
    match r with
    | OK _ | ER _ => let '(rs, s') := jrun h s1 in (r :: rs, s')
    | ST Crash =>
      let '(rs, s') := jrun h (snd (jrestart (js_n s1))) in (r :: rs, s')
    | ST _ => ([r], s1)
    end
  end.

(** What the caller must respect. *)
Definition valid_jop (g : geo) (o : jop) : Prop :=
  match o with
  | JEnq d m => blen d = 2 ^ g_lps g /\ blen m = 132
  | JCopy m => blen m = 132
  | JSetCookie b => blen b = 4
  | _ => True
  end.
Definition valid_jhop (g : geo) (x : jhop) : Prop :=
  match x with JO o => valid_jop g o | JReset => True end.

(** ** Specification *)

(** A page of the queue: its data and metadata, or [None] if its contents are not
    specified (pages left behind by a power loss). *)
Notation entry := (option (bytes * bytes)).

(** State of a journal: the pages in the queue, oldest first; the cookie; whether
    everything enqueued is persistent ("clean"); and the queue and the cookie that
    a power loss brings back. *)
Record jst := Jst { q : list entry; ck : bytes; synced : bool; dq : list entry; dck : bytes }.

Definition blank (l : list entry) : Prop := Forall (fun e => e = None) l.
(** Without the unspecified pages at both ends. *)
Fixpoint strip (l : list entry) : list entry :=
  match l with None :: l => strip l | _ => l end.
Definition core (l : list entry) : list entry := rev (strip (rev (strip l))).

(** A page was appended; the journal may have written a checkpoint. *)
Definition appended (st : jst) (e : entry) (st' : jst) : Prop :=
  q st' = q st ++ [e] /\ ck st' = ck st /\
  if synced st' then dq st' = q st' /\ dck st' = ck st'
  else dq st' = dq st /\ dck st' = dck st.
(** A call failed; the journal may be dirty now. *)
Definition unchanged (st st' : jst) : Prop :=
  q st' = q st /\ ck st' = ck st /\ dq st' = dq st /\ dck st' = dck st /\
  (synced st' = true -> synced st = true).
Definition with_q (l : list entry) (st : jst) : jst := Jst l (ck st) (synced st) (dq st) (dck st).
(** The queue is [l] after a removal.  After a removal from a clean journal a power
    loss brings back [l] (the removed page may be back in front of it, but its
    contents are no longer specified: its block may be reused at once); otherwise
    the removed page is kept until the next checkpoint (journal.h:181-183). *)
Definition popped (l : list entry) (st : jst) : jst :=
  Jst l (ck st) (synced st) (if synced st then l else dq st) (dck st).

(** [jcall g st o r st']: a call [o] in state [st] may return [r], leading to
    [st'].  Unspecified pages at the old end may vanish at a peek. *)
Inductive jcall (g : geo) (st : jst) : jop -> out jresp -> jst -> Prop :=
| jc_enq d m st' : appended st (Some (d, m)) st' -> jcall g st (JEnq d m) (OK JDone) st'
| jc_pad st' : appended st (Some (replicate (Z.to_nat (2 ^ g_lps g)) 255, replicate 132 255)) st' ->
    jcall g st JPad (OK JDone) st'
| jc_full o st' : match o with JEnq _ _ | JPad => True | _ => False end ->
    unchanged st st' -> jcall g st o (ER E_JOURNAL_FULL) st'
| jc_copy b e l m st' : q st = b ++ e :: l -> blank b ->
    appended (with_q (e :: l) st) (match e with Some (d, _) => Some (d, m) | None => None end) st' ->
    jcall g st (JCopy m) (OK JDone) st'
| jc_copy_fail b l m x st' : q st = b ++ l -> blank b ->
    unchanged (with_q l st) st' ->
    x = E_JOURNAL_FULL \/ (x = E_ECC /\ match l with Some _ :: _ => False | _ => True end) ->
    jcall g st (JCopy m) (ER x) st'
| jc_copy_empty m : blank (q st) -> jcall g st (JCopy m) (OK JEmpty) (with_q [] st)
(* A page of no particular contents may be offered although nothing is left: see
   [jx_phantom]. *)
| jc_copy_phantom m st' : blank (q st) -> appended (with_q [] st) None st' ->
    jcall g st (JCopy m) (OK JDone) st'
| jc_pop b d m l : q st = b ++ Some (d, m) :: l -> blank b ->
    jcall g st JPop (OK (JPage (inr m) (inr d))) (popped l st)
| jc_pop_none b l x y : q st = b ++ None :: l -> blank b ->
    jcall g st JPop (OK (JPage x y)) (popped l st)
| jc_pop_empty : blank (q st) -> jcall g st JPop (OK JEmpty) (with_q [] st)
| jc_pop_phantom x y : blank (q st) -> jcall g st JPop (OK (JPage x y)) (with_q [] st)
| jc_root d m : last (q st) = Some (Some (d, m)) ->
    jcall g st JRoot (OK (JPage (inr m) (inr d))) st
| jc_root_none r : last (q st) = Some None -> jcall g st JRoot (OK r) st
| jc_root_empty : q st = [] -> jcall g st JRoot (OK JEmpty) st
| jc_clear : jcall g st JClear (OK JDone) (Jst [] (ck st) false (dq st) (dck st))
| jc_setck b : jcall g st (JSetCookie b) (OK JDone) (Jst (q st) b (synced st) (dq st) (dck st))
| jc_getck : jcall g st JGetCookie (OK (JBytes (ck st))) st
| jc_clean : jcall g st JIsClean (OK (JBool (synced st))) st
| jc_size n : Z.of_nat (length (q st)) <= n -> jcall g st JSize (OK (JNum n)) st.

(** Power loss: the persistent queue and cookie come back; there may be
    unspecified pages at both ends. *)
Definition cycled (st st' : jst) : Prop :=
  core (q st') = core (dq st) /\ ck st' = dck st /\ synced st' = true /\
  dq st' = dq st /\ dck st' = dck st.

Inductive jhist (g : geo) : jst -> list jhop -> list (out jresp) -> jst -> Prop :=
| jh_nil st : jhist g st [] [] st
| jh_call st o r st1 h rs st' :
    match r with ST _ => False | _ => True end -> jcall g st o r st1 ->
    jhist g st1 h rs st' -> jhist g st (JO o :: h) (r :: rs) st'
(* Power lost during a call: before its effect or after it. *)
| jh_crash st o st1 st2 h rs st' :
    (st1 = st \/ exists r, jcall g st o (OK r) st1) -> cycled st1 st2 ->
    jhist g st2 h rs st' -> jhist g st (JO o :: h) (ST Crash :: rs) st'
| jh_reset st st1 h rs st' :
    cycled st st1 -> jhist g st1 h rs st' -> jhist g st (JReset :: h) (OK JDone :: rs) st'.

(** A journal on a chip without checkpoints. *)
Definition jempty : jst := Jst [] (replicate 4 255) true [] (replicate 4 255).
