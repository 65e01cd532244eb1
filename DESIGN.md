# Formal model of dlbeer/dhara in Rocq (Coq 8.16.1)

Build: `cd rocq && coq_makefile -f _CoqProject -o Makefile && make -j4` (about ten
minutes).

## 1. What is modelled

Everything is executable Gallina over `Z`; C unsigned arithmetic is written out as
`mod 2^32` (`w32`).  Each definition cites the C lines it models.

| Files | Code |
|---|---|
| `Base.v`, `Bytes.v` | C integers, buffers, state/error monad; `dhara/bytes.h` |
| `Nand.v` | a chip obeying the driver interface `dhara/nand.h`; `tests/sim.c` is the reference for what violates the contract |
| `Journal.v` | all of `dhara/journal.c` |
| `MapModel.v` | all of `dhara/map.c` and the inline accessors of `map.h` |
| `Api.v` | the calls of `map.h`, histories of calls with power cycles |
| `Misc.v` (part) | `dhara/error.c` |
| `Hamming.v`, `Crc32.v`, `Gf13Tab.v`, `Gf13.v`, `Bch.v` | `ecc/` (all of it; both builds of gf13) |
| `Gentab.v` | `tools/gentab.c` |
| `Gftool.v`, `Gfbch.v` (`Gf2x.v`: polynomials over GF(2)) | `tools/gftool.c` except argument handling, usage text, number formatting and gf_dump |

Not modelled: `tests/` and the parts of `tools/` not listed, the C-level memory layout (buffers are byte lists with explicit bounds: an access
out of bounds is the outcome `UB`; aliasing of caller buffers is ignored).

### The chip
Page cells are `Free`, `Data d` or `Junk o` (spoilt: unreadable, so reads report E_ECC, or
readable garbage as in tests/sim.c, see `garbage`).  Every
erase / program / mark-bad consults an arbitrary *oracle* (operation number,
operation) which answers success, failure (E_BAD_BLOCK) or power loss, with an
arbitrary per-page effect: done, nothing, spoilt.  `g_ffnoop` covers drivers for
which programming an all-0xff page leaves it erased.  Reads of intact pages never fail
and never return wrong data (README: uncorrectable errors must be detected).  Pages of a
failed or interrupted operation either keep old contents, get the new, become unreadable
or read as arbitrary garbage.  The one restriction on garbage is that it does not start with
the magic "Dha" of a checkpoint: a torn page that passes for a checkpoint cannot be told from one,
the code keeps no checksum.

Outcomes: `OK v`; `ER e` (return -1 with error e); `ST Crash` (power lost), `ST UB`
(contract or buffer bound violated), `ST Fuel` (model's loop bound exhausted; C loops
without an obvious bound take fuel, and theorem C27 shows the bound in `enough_fuel` is
never reached).

Simplification: buffer elements are integers reduced modulo 256 when read as numbers
(`bget`), so user data is stored verbatim whatever the list elements.

### Fault classes
* Class A (`faults_ok`): factory-bad blocks, erase failures, failures of the program of
  the first page of a block, and power loss during any operation, at any point.  Of any
  8 consecutive blocks two never fail (`few_weak`; the code gives up after
  DHARA_MAX_RETRIES = 8).  No mid-block program failure, hence no bad-block *recovery*.
* Class B (`block_faults`, `SpecF.v`): programs of weak blocks may fail anywhere in the
  block, so recovery (`recover_from`, `dump_meta`, `finish_recovery`, ...) runs, also
  nested.  `tame` (C20) says which calls may be hit by such a failure; all other calls may
  also lose power.  See C20-C24, C40, C43 for what is false outside these conditions.

Geometry (`supported`): page size 2^9..2^16, at least 4 pages per block, at least 8
blocks, at most 2^31 pages.  256-byte pages are excluded because of C23 and C62 (but see C64); more than 2^31
pages because `journal_size` overflows.

## 2. Statements

`Spec.v` is the specification: contents are finite maps sector -> page; `call_ok` says
what one call may return and do, `hist_ok` extends it to histories with power loss,
`reachable` are the states of a correctly used map started on a chip without journal.
`Props.v` holds the theorems about the map, `Examples.v` concrete instances of their
hypotheses (bad blocks, erase failure, power loss in mid-operation), `Misc.v` codecs,
layout, size and error strings, `Refute.v` the counterexamples.

## 3. How it is proved
* `Tree.v`, `Rep.v`: the radix tree (per-page 32 alternative pointers) and its lookup.
* `Geom.v`: virtual (unwrapped) page numbers, checkpoint groups.
* `Inv.v`: `JInv` (RAM) and `DI` (what the chip records: last checkpoint, epochs of
  blocks, the tree stored).  `StepDI/StepNand`: each NAND operation, successful, failed
  or interrupted, preserves `DI`.  `StepJ/A/R/S/G`: journal functions.  `Resume.v`:
  resume re-establishes `JInv` from `DI` alone.
* `MapStep/MapOps.v`: map functions refine the abstract contents; `History.v`:
  induction over histories.  `Pres.v`: relational preservation of chip properties.
* Recovery (C20): `San.v`: a call not hit by a mid-block failure behaves as on the chip
  with those failures switched off, so the class A invariant carries over; `Top.v`, `Bm.v`:
  facts kept by every function (buffer state, recovery flags).  `Rec.v`-`Rec7.v`: the
  journal while it recovers (which pages of the failed block are still to be copied, where
  their metadata lives, what is already relocated); `RecTree.v`: the tree in which
  relocated pages replace old ones, `RecMap.v`: `try_recover`; `RecOps.v`-`RecOps4.v`:
  every map call with failures at any program; `HistF.v`: histories.
* ECC (`EccBits.v` is the vocabulary: byte lists, `flips`): the Hamming and CRC checks
  are linear over bits, single bits are decided by evaluation (`vm_compute`) and lifted.
  CRC distance 4 up to 91632 bits is one evaluation over all powers of x.  GF(2^13):
  multiplication is bilinear, so associativity etc. reduce to basis triples; the tables
  are compared entry by entry with repeated multiplication by x.  BCH: the generator's
  roots alpha^1..alpha^2t by evaluation; distance by a Vandermonde argument;
  Berlekamp-Massey by its classical loop invariant (`Fpoly.v`, `BchProof.v`).

## 4. Per property
* C01-C13, C16, C27: `run_main`/`exec_spec` (class A).
* C14, C15: arbitrary chips.
* C17, C41: chips whose operations never fail (`Wear.v`: an invariant relating erase
  counts to the position of the head, for arbitrary calls; `Quiet.v`).
* C42: from `exec_spec`; "too many bad blocks" is excluded by `few_weak`.
* C18, C19: `Copy.v`: a relation between the runs of copy and write, kept by every
  function while the source page is neither erased nor programmed; `CopyProps.v`.
  C18 is partial: without such a condition it is false of the code (`C18_claim_false`).
* C20: class B, partial: histories that are `tame` (a call hit by a mid-block failure comes
  after a write since power-up, meets a non-empty map, does not lose power and does not
  give up).  `HistF.v`, example in `ExamplesF.v`.
* C21-C24, C39, C40, C43, C57, C62: false of the code, refuted by concrete runs in `Refute.v`, `RefuteP.v` and
  `RefuteR.v`.
* C44: `Live.v`: two runs of resume from the same chip and different memory, in lockstep.
* C45: `Check.v`: jt_check of tests/jtutil.c as a boolean function, implied by `JInv`.
* C46: `CheckMap.v`: check_recurse/mt_check of tests/map.c; `Age.v` adds to the map invariant
  that pages are older than the pages pointing to them.
* C47, C48: `JSpec.v` runs lists of journal calls and power cycles (`jrun`) and specifies them
  with lists of pages only (`jcall`, `jhist`: the queue, the cookie, clean or not, and what a
  power loss brings back).  `JChain.v`: the journal as a chain of page positions from tail to
  head that leaves out bad blocks; `JProps.v`: an invariant relating chain, checkpoint on the
  chip and specification, kept by every call, by a power loss inside it and by resume;
  `JThms.v`: the theorems (`C47_fifo` and C48 are consequences of `jhist` in terms of results only).
* C49, C50: `JFull.v`.  A small logic (`fl`) shows for every function of journal.c and map.c that
  a "journal full" result leaves the head in the block before that of the last synced tail (`nf`);
  with the invariant this bounds dhara_journal_size.  C50: a successful enqueue that does not make
  the journal clean moves the head to the next page of the same checkpoint group.
* C51: `Work.v`.  A logic of operation counts (`tb`, `tm`) for all functions of journal.c and
  map.c (needs no invariant), combined with the class A specifications, which exclude
  DHARA_E_RECOVER, for the loops of map.c; `tick_counts` shows that the counter counts.
* C52: `Gentab.v`.  The step is linear over GF(2), so eight steps on a byte commute with the
  rest of the register; the table of crc32.c by computation (it is a constant).
* C53: `Gf2x.v` (multiplication, division, congruence of polynomials over GF(2), polynomials are
  non-negative integers), `Gftool.v`.  The loop of is_primitive is iteration of an injective map,
  so the orbit of 1 is a cycle; it has full length iff x has order 2^d-1 (`primitive`, the
  specification).  `C53_degree_1`: the test accepts the polynomial x of degree 1.  log[0] is
  never written (model: `None`); a generator of degree 0 overruns the tables (model: `UB`).
* C54: `Gfbch.v`.  mod_s, eval_poly, minimal, bch_generator.  `vanishes p q i`: q(alpha^i) = 0.
  Degree 16 is outside: the minimal polynomial does not fit gf_elem_t.  parse_poly of gftool is
  that of gentab with 64 bits (`C52_parse` is stated for any width).
* C55, C56: `Room.v` (specification and theorems), `Space.v`.  `Bb.v`: the bad-block counters of
  two successive rounds stay between the blocks marked at the start and the weak blocks, which
  bounds both capacities.  `Cnt.v`: counting; with R = gc_ratio + 1, for every position w between
  tail and head the potential R * (pages after w + live pages before w) + pages before w (pages
  = user pages in blocks not skipped as bad) stays below a bound: a write adds at most R to it,
  each of the R gc steps made before takes one away.  Hence the pages in use stay below the
  bound X, and a full journal would need more blocks than are weak.  `Loc.v`: where current pages
  of sectors lie after an append.  Unsynced power cycles are excluded: see C57.
* C58: `Orderly.v` (specification `orderly` and theorems).  `Ckpt.v`: the dirty flag is up unless
  the last append wrote a checkpoint, whose header records the bad-block counters.  `Space.v`
  carries a predicate Q of the chip, established right after every checkpoint (`ck1`); `Orderly.v`
  takes for Q "restarting this chip gives a state that meets the space invariant with a full
  potential": resume finds the same head and root, and a tail no older than the one recorded.
* C59: `NoEcc.v` (specification `readable` and theorems).  `Nojunk.v`: every append keeps the
  unreadable pages in blocks marked bad and the tail out of the middle of such a block (a failed
  erase or first-page program marks its block before anything else happens); `Space.v` carries this
  as a further clause of the space invariant, so the metadata garbage collection reads is readable.
* C60: `CopyRoom.v` (specification `copy_spare` and theorems), `Move.v`.  `MV` bounds, for every
  call of the map, how many user pages in good blocks the head passes and says that only blocks and
  pages it passes are erased or programmed; one copy with its garbage collection passes at most
  ratio + 2.  The space invariant bounds the pages from the synced tail to the head, so the head
  cannot come round to the block of a page that is still in the journal (`not_erased`); the rest is
  `C18_copy_sector_kept_partial` and, for E_ECC, `C19_copy_is_write` with C59.
* C61: `HamBound.v`: the syndromes on which the location loop succeeds are enumerated (4096, as a
  recursive function whose completeness is an induction) and are those of single data bits.
  `EccBound.v`: invariant of Berlekamp-Massey for arbitrary syndromes, deg C <= L <= number of
  syndromes, then at most deg roots among distinct points.
* C63: `Idle.v`: an unchanged model state (RAM and chip) in every case; the look-ups, sync, clear and
  gc need no invariant.
* C64: `Small.v`: the map operations only need two pages per checkpoint group (`Geom.geo_ok`);
  resuming needs four (`Geom.geo_ok2`, the class `supported`; small pages: `supported_small`).
  The space accounting (`Bb`, `Space`, `Room`) needs two as well: `StepA.app_post2` records that every
  block skipped before a new page is bad, so a checkpoint may share the first group of a block
  (`SmallRoom.v`). Work, journal size and the tests' own checks: `SmallMore.v`. C14 and the first theorem of C17 cover small pages too. A fresh chip resumes without looking for a head (`restart_none`), so the
  simulation of `MapOps`/`History` holds up to the first loss of power.
* C25, C26, C28, C29, C38: all parameters.  
* C30-C37: all chunks (up to 512 bytes for Hamming, 11450 for CRC distance, 1016 for BCH)
  and all error patterns; no bound on contents.

## 5. Trusted base
Coq's kernel (including `vm_compute`), the model's fidelity to the C text as cited, and
the chip model above.  `Print Assumptions` answers "Closed under the global context" for
every theorem in MANIFEST.json (no axioms; std++ is used for lists and finite maps).
A checker listing the whole context (coqchk) also names the seven fields of the standard
library's module type in `Coq.ssr.ssrunder` (loaded through std++); no theorem uses them.

## 6. Findings (violations outside the proved conditions)
* C18: with a high gc_ratio, garbage collection inside `dhara_map_copy_sector` can erase
  the source page after it was looked up; the target then silently reads as blank.
* C21: a program failure while the map is empty starts recovery at page 0xffffffff.
* C22: power loss during recovery can lose synced data (recovery writes a checkpoint
  whose tree does not contain everything yet).
* C23: 256-byte pages: checkpoint failure makes a successful write vanish.
* C24: program failure with a full journal: the failed page is programmed again.
* C25: page sizes from 2^17: metadata offsets exceed the buffer (uint8 log2_ppc limits).
* C39: a checkpoint page torn by power loss in mid-block makes gc/sync fail for ever
  once the tail reaches it.
* C40: program failure in the block holding the tail: gc/sync fail for ever
  (journal.c:771 is a comment without code).
* C43: power cycle inside a partly written checkpoint group, then a program failure in
  the same block: recovery reads the metadata of the synced pages from the wrong page
  and all synced data is lost although every call succeeds.
* C57: pages programmed since the last checkpoint are lost room after a power cut (the head
  moves past them, except in the first group of a block), while the garbage collection done
  since then is undone.  Enough power cuts between checkpoints fill the journal; if a live page
  lies between the tail and the end of its block then, nothing can ever be written again.
* C62: 256-byte pages (two-page checkpoint groups): if power is switched off, after a sync,
  when a block has just been filled, find_head starts one block too late (its first candidate,
  next_upage of the last group, is already in the next block, whose old pages it then walks
  over); the skipped block with its old checkpoint makes the next resume stop there, and
  everything written in between, synced or not, is lost.  No fault is needed.
* Seen while proving C55: a call that fails with "journal full" on a head in a bad block counts
  that block again in bb_current, so the capacity shrinks with every retry (C55 shows that the
  situation does not arise within its conditions).
* Others seen in the model: more than 2^31 pages break `journal_size`; 8 consecutive
  blocks without checkpoint break resume; power cycles break even wear;
  `gf13_mul` with a zero argument is not zero (callers must check).
