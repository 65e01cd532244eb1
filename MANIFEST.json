{
 "claims": [
  {
   "property": "C01",
   "status": "proved",
   "theorems": [
    "C01_reads_latest",
    "C12_history"
   ],
   "note": "fault class A: factory-bad blocks, erase failures, failures of the first page of a block, power loss anywhere; histories with copies are covered by C12_history, which leaves the copied contents open (see C18)"
  },
  {
   "property": "C02",
   "status": "proved",
   "theorems": [
    "C02_unmapped_reads_blank",
    "C02_fresh_all_unmapped",
    "C01_reads_latest"
   ],
   "note": "fault class A: factory-bad blocks, erase failures, failures of the first page of a block, power loss anywhere"
  },
  {
   "property": "C03",
   "status": "proved",
   "theorems": [
    "C03_write_one_sector"
   ],
   "note": "fault class A: factory-bad blocks, erase failures, failures of the first page of a block, power loss anywhere"
  },
  {
   "property": "C04",
   "status": "proved",
   "theorems": [
    "C04_trim_one_sector"
   ],
   "note": "fault class A: factory-bad blocks, erase failures, failures of the first page of a block, power loss anywhere"
  },
  {
   "property": "C05",
   "status": "proved",
   "theorems": [
    "C05_clear_empties"
   ],
   "note": "fault class A: factory-bad blocks, erase failures, failures of the first page of a block, power loss anywhere"
  },
  {
   "property": "C06",
   "status": "proved",
   "theorems": [
    "C06_gc_sync_invisible"
   ],
   "note": "fault class A: factory-bad blocks, erase failures, failures of the first page of a block, power loss anywhere"
  },
  {
   "property": "C07",
   "status": "proved",
   "theorems": [
    "C07_failed_calls_change_nothing"
   ],
   "note": "fault class A: factory-bad blocks, erase failures, failures of the first page of a block, power loss anywhere"
  },
  {
   "property": "C08",
   "status": "proved",
   "theorems": [
    "C08_size_counts_mapped"
   ],
   "note": "fault class A: factory-bad blocks, erase failures, failures of the first page of a block, power loss anywhere"
  },
  {
   "property": "C09",
   "status": "proved",
   "theorems": [
    "C09_full_only_when_full",
    "C09_full_when_full",
    "C09_success_when_room"
   ],
   "note": "fault class A: factory-bad blocks, erase failures, failures of the first page of a block, power loss anywhere"
  },
  {
   "property": "C10",
   "status": "proved",
   "theorems": [
    "C10_find",
    "C10_find_injective"
   ],
   "note": "fault class A: factory-bad blocks, erase failures, failures of the first page of a block, power loss anywhere"
  },
  {
   "property": "C11",
   "status": "proved",
   "theorems": [
    "C11_sync_durable"
   ],
   "note": "fault class A: factory-bad blocks, erase failures, failures of the first page of a block, power loss anywhere"
  },
  {
   "property": "C12",
   "status": "proved",
   "theorems": [
    "C12_history",
    "C12_power_loss_between_calls",
    "C12_power_loss_during_call"
   ],
   "note": "fault class A: factory-bad blocks, erase failures, failures of the first page of a block, power loss anywhere"
  },
  {
   "property": "C13",
   "status": "proved",
   "theorems": [
    "C13_atomic"
   ],
   "note": "fault class A: factory-bad blocks, erase failures, failures of the first page of a block, power loss anywhere"
  },
  {
   "property": "C14",
   "status": "proved",
   "theorems": [
    "C14_resume_without_journal",
    "C14_failed_resume_is_empty"
   ],
   "note": ""
  },
  {
   "property": "C15",
   "status": "proved",
   "theorems": [
    "C15_resume_reads_only"
   ],
   "note": ""
  },
  {
   "property": "C16",
   "status": "proved",
   "theorems": [
    "C16_no_undefined_behaviour"
   ],
   "note": "fault class A: factory-bad blocks, erase failures, failures of the first page of a block, power loss anywhere"
  },
  {
   "property": "C17",
   "status": "proved",
   "theorems": [
    "C17_wear_level",
    "C17_session",
    "C17_power_cycles"
   ],
   "note": "chip operations never fail (factory-bad blocks allowed); from first use, from any reachable state, and with power cycles between calls"
  },
  {
   "property": "C18",
   "status": "partial",
   "theorems": [
    "C18_copy_sector_kept_partial",
    "C18_copy_sector_partial",
    "C18_copy_sector_others_partial",
    "C18_refuted",
    "C18_claim_false"
   ],
   "note": "proved, garbage collection included, unless the call itself erases or programs the page the source was found at (C18_copy_sector_kept_partial), and in particular always when no garbage collection is due (C18_copy_sector_partial); unconditionally, a successful copy leaves all other sectors alone and the target is mapped iff the source was (C18_copy_sector_others_partial); without such a condition the claim about the contents is false of the code (C18_claim_false); C60 proves it without one for chips with room to spare and power loss after a sync only"
  },
  {
   "property": "C19",
   "status": "proved",
   "theorems": [
    "C19_copy_page",
    "C19_copy_is_write",
    "C19_copy_page_partial",
    "C19_any_readable_page_false"
   ],
   "note": "C19_copy_is_write holds in every state, with any failures; C19_copy_page_partial: for pages returned by dhara_map_find no garbage collection due is enough; C19_any_readable_page_false: for stale pages it is not"
  },
  {
   "property": "C20",
   "status": "partial",
   "theorems": [
    "C20_block_failure_partial",
    "C20_reads_latest_partial",
    "C20_power_loss_after_partial"
   ],
   "note": "Programs may fail anywhere in a block, at any number of points, also while earlier failures are being recovered; erases may fail too. Proved for every history in which a call hit by a mid-block program failure (i) comes after a successful write or page copy since power-up, (ii) finds a non-empty map, (iii) does not lose power itself and (iv) does not return JOURNAL_FULL, ECC or TOO_BAD; calls not hit by such a failure may do anything, including lose power. The full statement is false of the code without (i) C43_refuted, (ii) C21_refuted, (iii) C22_refuted, (iv) C24_refuted and C40_refuted, and on 256-byte pages (C23_refuted)."
  },
  {
   "property": "C21",
   "status": "not_applicable",
   "theorems": [
    "C21_refuted",
    "C21_claim_false"
   ],
   "note": "false of the code: refuted by a concrete history"
  },
  {
   "property": "C22",
   "status": "not_applicable",
   "theorems": [
    "C22_refuted"
   ],
   "note": "false of the code: refuted by a concrete history"
  },
  {
   "property": "C23",
   "status": "not_applicable",
   "theorems": [
    "C23_refuted"
   ],
   "note": "false of the code for 256-byte pages: refuted by a concrete history"
  },
  {
   "property": "C24",
   "status": "not_applicable",
   "theorems": [
    "C24_refuted"
   ],
   "note": "false of the code: refuted by a concrete history"
  },
  {
   "property": "C25",
   "status": "proved",
   "theorems": [
    "C25_period_optimal",
    "C25_slots_fit",
    "C25_large_pages_refuted"
   ],
   "note": "slots fit for page sizes 2^8..2^16; for 2^17 and above the page buffer offset no longer fits (refuted)"
  },
  {
   "property": "C26",
   "status": "proved",
   "theorems": [
    "C26_journal_size"
   ],
   "note": ""
  },
  {
   "property": "C27",
   "status": "proved",
   "theorems": [
    "C27_terminates"
   ],
   "note": "fault class A: factory-bad blocks, erase failures, failures of the first page of a block, power loss anywhere"
  },
  {
   "property": "C28",
   "status": "proved",
   "theorems": [
    "C28_w32_little_endian",
    "C28_w16_little_endian",
    "C28_r32_reads_le",
    "C28_r16_reads_le",
    "C28_reads_injective"
   ],
   "note": ""
  },
  {
   "property": "C29",
   "status": "proved",
   "theorems": [
    "C29_header_round_trip",
    "C29_metadata_round_trip",
    "C29_slots_independent"
   ],
   "note": ""
  },
  {
   "property": "C30",
   "status": "proved",
   "theorems": [
    "C30_no_error",
    "C30_single_bit_corrected"
   ],
   "note": "Hamming.v; instance ex_C30"
  },
  {
   "property": "C31",
   "status": "proved",
   "theorems": [
    "C31_double_bit_detected"
   ],
   "note": "Hamming.v; instance ex_C31"
  },
  {
   "property": "C32",
   "status": "proved",
   "theorems": [
    "C32_hamming_erased",
    "C32_crc_erased",
    "C32_bch_erased"
   ],
   "note": "Hamming.v, Crc32.v, BchProof.v"
  },
  {
   "property": "C33",
   "status": "proved",
   "theorems": [
    "C33_table",
    "C33_bit_serial",
    "C33_piecewise"
   ],
   "note": "Crc32.v; instance ex_C33"
  },
  {
   "property": "C34",
   "status": "proved",
   "theorems": [
    "C34_three_bits",
    "C34_burst"
   ],
   "note": "Crc32.v; instance ex_C34"
  },
  {
   "property": "C35",
   "status": "proved",
   "theorems": [
    "C35_mul",
    "C35_mul_no_tables",
    "C35_div",
    "C35_div_no_tables",
    "C35_mulx",
    "C35_divx"
   ],
   "note": "Gf13.v; instance ex_C35"
  },
  {
   "property": "C36",
   "status": "proved",
   "theorems": [
    "C36_generated_verifies",
    "C36_errors_detected",
    "C36_padding_ignored"
   ],
   "note": "BchProof.v; instance ex_C36"
  },
  {
   "property": "C37",
   "status": "proved",
   "theorems": [
    "C37_errors_repaired"
   ],
   "note": "BchProof.v; instance ex_C37"
  },
  {
   "property": "C38",
   "status": "proved",
   "theorems": [
    "C38_strerror_total"
   ],
   "note": ""
  },
  {
   "property": "C39",
   "status": "not_applicable",
   "theorems": [
    "C39_refuted"
   ],
   "note": "false of the code: refuted by a concrete history"
  },
  {
   "property": "C40",
   "status": "not_applicable",
   "theorems": [
    "C40_refuted"
   ],
   "note": "false of the code: refuted by a concrete history"
  },
  {
   "property": "C41",
   "status": "proved",
   "theorems": [
    "C41_no_io_errors"
   ],
   "note": "chip operations never fail, power cycles between calls"
  },
  {
   "property": "C42",
   "status": "proved",
   "theorems": [
    "C42_errors"
   ],
   "note": "class A faults"
  },
  {
   "property": "C43",
   "status": "not_applicable",
   "theorems": [
    "C43_refuted"
   ],
   "note": "False of the code: C43_refuted is a run (no fault before the power cycle, one failing page after it) after which all synced sectors read as blank although every call succeeded."
  },
  {
   "property": "C44",
   "status": "proved",
   "theorems": [
    "C44_resume_any_state",
    "C44_resume_in_use",
    "C44_resume_is_power_cycle"
   ],
   "note": "C44_resume_any_state: any memory contents with the checkpoint period set by dhara_map_init, any chip; the other two: reachable states of class A"
  },
  {
   "property": "C45",
   "status": "proved",
   "theorems": [
    "C45_journal_pointers",
    "C45_journal_pointers_recovery"
   ],
   "note": "the second for the histories of C20 (failures in the middle of blocks)"
  },
  {
   "property": "C46",
   "status": "proved",
   "theorems": [
    "C46_index_tree",
    "C46_index_tree_recovery"
   ],
   "note": "class A; the second theorem for the histories of C20; ex_C46_filler shows the condition is needed"
  },
  {
   "property": "C47",
   "status": "proved",
   "theorems": [
    "C47_journal_queue",
    "C47_fifo"
   ],
   "note": "class A; specification in JSpec.v (jcall, jhist); examples in ExamplesJ.v; jx_phantom shows why a peek on an empty queue may offer a page"
  },
  {
   "property": "C48",
   "status": "proved",
   "theorems": [
    "C48_clean_is_persistent"
   ],
   "note": "class A; example jx_C48"
  },
  {
   "property": "C49",
   "status": "proved",
   "theorems": [
    "C49_full_journal",
    "C49_full_map"
   ],
   "note": "class A; examples jx_C49, jx_upb"
  },
  {
   "property": "C50",
   "status": "proved",
   "theorems": [
    "C50_enqueue_cleans"
   ],
   "note": "class A; example jx_C50"
  },
  {
   "property": "C51",
   "status": "proved",
   "theorems": [
    "C51_bounded_work",
    "C51_fault_free",
    "C51_append",
    "tick_counts"
   ],
   "note": "map calls: class A; journal appends: any state and oracle; examples ex_C51_costs, ex_C51, ex_C51_fault_free"
  },
  {
   "property": "C52",
   "status": "proved",
   "theorems": [
    "C52_table",
    "C52_gentab",
    "C52_parse",
    "C52_refuse",
    "C52_crc32_table"
   ],
   "note": "Gentab.v; example C52_example"
  },
  {
   "property": "C53",
   "status": "proved",
   "theorems": [
    "C53_search",
    "C53_is_primitive",
    "C53_generates",
    "C53_irreducible",
    "C53_tables",
    "C53_gf13",
    "C53_print",
    "C53_degree_1"
   ],
   "note": "Gf2x.v, Gftool.v; example C53_examples.  Degree 1 is refuted (C53_degree_1)."
  },
  {
   "property": "C54",
   "status": "proved",
   "theorems": [
    "C54_generator",
    "C54_eval",
    "C54_minimal",
    "C54_library"
   ],
   "note": "Gfbch.v; example C54_examples.  Degree 16 is excluded: the minimal polynomial is truncated to 16 bits there."
  },
  {
   "property": "C55",
   "status": "proved",
   "theorems": [
    "C55_journal_never_full",
    "C55_next_call"
   ],
   "note": "Room.v (statements), Space.v (invariant: potential function over the live and dead pages between tail and head), Bb.v, Cnt.v, Loc.v; examples r_C55 in ExamplesR.v.  Power cycles are not covered: see DESIGN.md, section 4."
  },
  {
   "property": "C56",
   "status": "proved",
   "theorems": [
    "C56_capacity",
    "C56_always_room"
   ],
   "note": "Room.v; examples r_C56, q_C56 in ExamplesR.v."
  },
  {
   "property": "C57",
   "status": "not_applicable",
   "theorems": [
    "C57_refuted",
    "C57_claim_false"
   ],
   "note": "False of the code: C57_refuted (RefuteR.v) is a run on a chip without any defect on which, after some 130 power cuts (each while a checkpoint in the middle of a block is programmed), a map of capacity four holding two sectors can no longer be written: every write, trim, garbage collection of the live page and sync of a change fails with E_JOURNAL_FULL, after power cycles and even after dhara_map_clear."
  },
  {
   "property": "C58",
   "status": "proved",
   "theorems": [
    "C58_journal_never_full",
    "C58_next_call",
    "C58_capacity",
    "C58_always_room"
   ],
   "note": "Orderly.v, on Space.v and Ckpt.v.  Generalises C55/C56 to orderly power cycles; C57 shows that it fails for power cuts at other times.  Case: ExamplesO.v."
  },
  {
   "property": "C59",
   "status": "proved",
   "theorems": [
    "C59_no_ecc",
    "C59_next_call",
    "C59_history"
   ],
   "note": "NoEcc.v, on Nojunk.v, Space.v and Orderly.v.  C39 and C40 show that it fails with power loss or mid-block program failures.  dhara_map_copy_page of an unreadable page does report E_ECC (the caller names the page); for dhara_map_copy_sector see C60.  Case: ExamplesO.v."
  },
  {
   "property": "C60",
   "status": "proved",
   "theorems": [
    "C60_copy_sector",
    "C60_copy_sector_fails",
    "C60_copy_found_page"
   ],
   "note": "CopyRoom.v, on Move.v (how far the head moves in one call, and which blocks are erased on the way), Space.v and Copy.v.  Strengthens C18 (the cases where garbage collection runs) and C59 (copies).  Case: ExamplesP.v, in which garbage collection moves the source page during the copy."
  },
  {
   "property": "C61",
   "status": "proved",
   "theorems": [
    "C61_hamming_repair_bounded",
    "C61_hamming_success_agrees",
    "C61_bch_repair_bounded"
   ],
   "note": "HamBound.v, EccBound.v.  Invariant of Berlekamp-Massey on arbitrary syndromes (degree of C at most L, L at most the number of syndromes), then the root bound over GF(2^13).  Cases: ex_C61_wrong, ex_C61_short (shorter chunks may return 0 without agreement), ex_C61_hopeless (a wrong repair that then verifies)."
  },
  {
   "property": "C62",
   "status": "not_applicable",
   "theorems": [
    "C62_refuted",
    "C62_claim_false"
   ],
   "note": "False of the code for 256-byte pages: C62_refuted (RefuteP.v) is a run on a fault-free chip, power off only after sync, after which a synced sector reads as before its last write. For pages of 512 bytes and more the claim is C11, proved. Until power is lost small pages work: C64."
  },
  {
   "property": "C63",
   "status": "proved",
   "theorems": [
    "C63_lookups_change_nothing",
    "C63_sync_twice",
    "C63_sync_after_power_up",
    "C63_empty_clear_gc",
    "C63_trim_unmapped"
   ],
   "note": "Idle.v; example idle_C63."
  },
  {
   "property": "C64",
   "status": "proved",
   "theorems": [
    "C64_history",
    "C64_reads_latest",
    "C64_one_call",
    "C64_full_only_when_full",
    "C64_full_when_full",
    "C64_find",
    "C64_no_io_errors",
    "C64_journal_never_full",
    "C64_next_call",
    "C64_capacity",
    "C64_always_room",
    "C64_bounded_work",
    "C64_bounded_work_fault_free",
    "C64_journal_size",
    "C64_journal_pointers",
    "C64_index_tree"
   ],
   "note": "Small.v, SmallRoom.v, SmallMore.v; reachable_on = states before the first loss of power (after it, the claim fails: C62). Geometry: supported_small (Spec.v). Room: same bounds as C55/C56. Examples small_C64, smallroom_C64, smallmore_C64."
  }
 ]
}