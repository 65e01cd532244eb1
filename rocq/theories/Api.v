(** Histories of calls to the public map interface (dhara/map.h:38-124), with
    power cycles. *)
From Verif Require Import Base Bytes Nand Journal MapModel.

(** One call of the public interface. *)
Inductive op :=
| OWrite (s : Z) (d : bytes)     (* dhara_map_write, map.h:81 *)
| OTrim (s : Z)                  (* dhara_map_trim, map.h:101 *)
| OCopySector (src dst : Z)      (* dhara_map_copy_sector, map.h:95 *)
| OCopyPage (p dst : Z)          (* dhara_map_copy_page, map.h:88 *)
| OClear                         (* dhara_map_clear, map.h:53 *)
| OGc                            (* dhara_map_gc, map.h:119 *)
| OSync                          (* dhara_map_sync, map.h:109 *)
| ORead (s : Z)                  (* dhara_map_read, map.h:77 *)
| OFind (s : Z)                  (* dhara_map_find, map.h:69 *)
| OSize.                         (* dhara_map_size, map.h:57-60 *)

(** What the caller gets back besides the return code. *)
Inductive resp := RUnit | RData (d : bytes) | RPage (p : Z) | RNum (n : Z).

Definition exec (fuel : nat) (o : op) : MM resp :=
  match o with
  | OWrite s d => map_write fuel s d;;; ret RUnit
  | OTrim s => map_trim fuel s;;; ret RUnit
  | OCopySector a b => map_copy_sector fuel a b;;; ret RUnit
  | OCopyPage p b => map_copy_page fuel p b;;; ret RUnit
  | OClear => map_clear;;; ret RUnit
  | OGc => map_gc fuel;;; ret RUnit
  | OSync => map_sync fuel;;; ret RUnit
  | ORead s => let! d := map_read s in ret (RData d)
  | OFind s => let! p := map_find s in ret (RPage p)
  | OSize => let! n := gets map_size in ret (RNum n)
  end.

(** The chip a map works on. *)
Definition chip (s : ms) : nand := js_n (m_js s).

(** Power cycle: all RAM is lost, the map is initialised and resumed from the
    chip.  As the header says (map.h:41-44), a failing resume leaves an empty
    map; the caller may go on.  [junk] is the uninitialised value of m->count. *)
Definition restart (gcr junk : Z) (n : nand) : out unit * ms :=
  map_resume (map_init n gcr junk).

(** A history step: a call, or a power cycle between two calls (after which the
    caller may pass another gc_ratio to dhara_map_init). *)
Inductive hop := HOp (o : op) | HReset (gcr junk : Z).

(** Run a history; a call during which power is lost is followed by a power
    cycle.  Stops at undefined behaviour (and at exhausted fuel). *)
Fixpoint run (fuel : nat) (gcr junk : Z) (h : list hop) (s : ms)
  : list (out resp) * ms :=
  match h with
  | [] => ([], s)
  | HReset gcr' junk' :: h =>
    let '(rs, s') := run fuel gcr junk h (snd (restart gcr' junk' (chip s))) in
    (OK RUnit :: rs, s')
  | HOp o :: h =>
    let '(r, s1) := exec fuel o s in
    match r with
    | OK _ | ER _ => let '(rs, s') := run fuel gcr junk h s1 in (r :: rs, s')
    | ST Crash =>
      let '(rs, s') := run fuel gcr junk h (snd (restart gcr junk (chip s1))) in
      (r :: rs, s')
    | ST _ => ([r], s1)
    end
  end.
