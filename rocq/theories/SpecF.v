(** Specification for chips on which a page program may fail anywhere in a block
    (property C20).  Like Spec.v this uses only names of the interface and of the
    simulated chip. *)
From stdpp Require Import gmap.
From Verif Require Import Base Nand Journal MapModel Api Spec.
Local Open Scope Z_scope.

(** Erases and programs of the blocks in [weak] may fail at any time, whatever
    the position of the page in the block (compare [faults_ok]). *)
Definition block_faults (g : geo) (weak : Z -> bool) (orc : nat -> nop -> event) : Prop :=
  (forall t b f, orc t (OpErase b) = EvFail f -> weak b = true) /\
  (forall t p f, orc t (OpProg p) = EvFail f -> weak (p / 2 ^ g_lppb g) = true).

Definition fresh_chip (g : geo) (weak : Z -> bool) (n : nand) : Prop :=
  n_geo n = g /\ no_checkpoint n /\
  (forall b, n_bad n b = true -> weak b = true) /\ block_faults g weak (n_orc n).

(** The same map on a chip on which no program of a page that is not the first
    of its block fails. *)
Definition no_mid_orc (pb : Z) (o : nat -> nop -> event) (t : nat) (x : nop) : event :=
  match x with
  | OpProg p => if p mod pb =? 0 then o t x
                else match o t x with EvFail _ => EvOk | e => e end
  | _ => o t x
  end.
Definition no_mid_chip (n : nand) : nand :=
  Nand (n_geo n) (n_cell n) (n_bad n) (no_mid_orc (2 ^ g_lppb (n_geo n)) (n_orc n)) (n_tick n) (n_erases n).
Definition no_mid (s : ms) : ms := Ms (Js (no_mid_chip (js_n (m_js s))) (js_j (m_js s))) (m_gcr s) (m_count s).

(** A call met no such failure: it returns the same and leaves the same state
    behind when they are switched off. *)
Definition unaffected (fuel : nat) (o : op) (s : ms) : Prop :=
  exec fuel o (no_mid s) = (fst (exec fuel o s), no_mid (snd (exec fuel o s))).

(** Between the two states of the chip such a failure was due.  A call during
    which none was due is unaffected ([no_failure_unaffected] in HistF.v). *)
Definition mid_failure (n n' : nand) : Prop :=
  exists t p f, (n_tick n <= t < n_tick n')%nat /\ n_orc n t (OpProg p) = EvFail f /\
    p mod 2 ^ g_lppb (n_geo n) <> 0.

(** Results that tell the caller that a failure was not absorbed, and power loss. *)
Definition gave_up (r : out resp) : Prop :=
  r = ER E_JOURNAL_FULL \/ r = ER E_ECC \/ r = ER E_TOO_BAD \/ r = ST Crash.

(** Calls after which the journal has a page in its head block, or has just
    started a new block. *)
Definition settles (o : op) (r : out resp) : bool :=
  match o, r with
  | OWrite _ _, OK _ | OCopyPage _ _, OK _ => true
  | _, _ => false
  end.

(** [tame ... settled h s]: in the run of history [h] from [s], a call during
    which a program fails in mid-block
    - comes after a successful write or page copy since the last power-up
      ([settled]; otherwise see C43_refuted),
    - meets a map that is not empty (otherwise see C21_refuted), and
    - neither loses power (C22_refuted) nor reports that it gave up
      (C24_refuted, C40_refuted).
    Other calls may do anything. *)
Fixpoint tame (fuel : nat) (gcr junk : Z) (settled : bool) (h : list hop) (s : ms) : Prop :=
  match h with
  | [] => True
  | HReset gcr' junk' :: h => tame fuel gcr junk false h (snd (restart gcr' junk' (chip s)))
  | HOp o :: h =>
    let '(r, s1) := exec fuel o s in
    (unaffected fuel o s \/ (settled = true /\ 0 < MapModel.map_size s /\ ~ gave_up r)) /\
    match r with
    | OK _ | ER _ => tame fuel gcr junk (settled || settles o r) h s1
    | ST Crash => tame fuel gcr junk false h (snd (restart gcr junk (chip s1)))
    | ST _ => True
    end
  end.

(** Loop bound given to the model that is never reached. *)
Definition enough_fuelF (g : geo) (fuel : nat) : Prop :=
  4 * (g_nblk g * 2 ^ g_lppb g) + 256 <= Z.of_nat fuel.
