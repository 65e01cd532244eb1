{"id": "C01", "title": "Reads return the latest write", "statement": "After any history of write/trim/copy/clear/gc/sync calls, dhara_map_read of a sector returns 0 and exactly the bytes of the most recent successful write (or copy) to that sector, whatever garbage collection, block wrap-around and erase failures happened in between.", "quantifier": "all chip geometries with >=512-byte pages and >=4 pages per block, all histories of API calls, all sectors except the reserved 0xffffffff, all page contents, all factory-bad sets and erase-failure schedules", "why_tests_cant": "A test replays a handful of histories; the claim must hold after every history.", "anchors": ["dhara/map.c: dhara_map_write, dhara_map_read, trace_path, raw_gc, auto_gc", "dhara/journal.c: dhara_journal_enqueue, dhara_journal_copy, push_meta, prepare_head"]}
{"id": "C02", "title": "Unmapped sectors read as blank", "statement": "dhara_map_read of a sector that was never written, or was trimmed or cleared since, returns 0 and a page of 0xff bytes; dhara_map_find of it fails with E_NOT_FOUND.", "quantifier": "all histories, all sectors", "why_tests_cant": "A test replays a handful of histories; the claim must hold after every history.", "anchors": ["dhara/map.c: dhara_map_read, dhara_map_find, trace_path"]}
{"id": "C03", "title": "Write touches only its own sector", "statement": "A successful dhara_map_write(s, data) makes s read back as data and leaves what every other sector reads back as unchanged.", "quantifier": "all reachable map states, all s and data", "why_tests_cant": "Isolation is over all 2^32 other sectors and every tree shape.", "anchors": ["dhara/map.c: dhara_map_write, prepare_write, trace_path"]}
{"id": "C04", "title": "Trim removes exactly one sector", "statement": "A successful dhara_map_trim(s) makes s unmapped and leaves what every other sector reads back as unchanged; trimming an unmapped sector changes nothing.", "quantifier": "all reachable map states, all s", "why_tests_cant": "Deletion rewrites a cousin's path; correctness depends on the shape of the whole 32-level radix tree.", "anchors": ["dhara/map.c: dhara_map_trim, try_delete"]}
{"id": "C05", "title": "Clear empties the map", "statement": "After dhara_map_clear, dhara_map_size is 0 and every sector is unmapped.", "quantifier": "all reachable map states", "why_tests_cant": "A test replays a handful of histories; the claim must hold after every history.", "anchors": ["dhara/map.c: dhara_map_clear", "dhara/journal.c: dhara_journal_clear"]}
{"id": "C06", "title": "Garbage collection and sync are invisible", "statement": "dhara_map_gc and dhara_map_sync, whether they succeed or fail, never change what any sector reads back as, nor dhara_map_size.", "quantifier": "all reachable map states, all tail/head positions including wrap-around", "why_tests_cant": "A live page dropped by one particular tail position is a silent loss a test must hit by luck.", "anchors": ["dhara/map.c: dhara_map_gc, dhara_map_sync, raw_gc, pad_queue", "dhara/journal.c: dhara_journal_peek, dhara_journal_dequeue"]}
{"id": "C07", "title": "Failed calls change nothing", "statement": "A map call that returns -1 (map full, journal full, unreadable page) leaves the contents of every sector and the size unchanged.", "quantifier": "all reachable states, all failing calls, no program failure in the middle of a block", "why_tests_cant": "Error paths are reached only from particular fill levels and bad-block patterns.", "anchors": ["dhara/map.c: dhara_map_write, dhara_map_trim, dhara_map_copy_page"]}
{"id": "C08", "title": "Size counts mapped sectors", "statement": "dhara_map_size always equals the number of distinct sectors currently mapped.", "quantifier": "all histories", "why_tests_cant": "A test replays a handful of histories; the claim must hold after every history.", "anchors": ["dhara/map.c: prepare_write, try_delete, dhara_map_clear", "dhara/map.h: dhara_map_size"]}
{"id": "C09", "title": "Capacity is enforced exactly", "statement": "A write to an unmapped sector succeeds only if dhara_map_size was below dhara_map_capacity, and otherwise fails with E_MAP_FULL; a write to a mapped sector never fails with E_MAP_FULL.", "quantifier": "all reachable states, all sectors", "why_tests_cant": "A test replays a handful of histories; the claim must hold after every history.", "anchors": ["dhara/map.c: prepare_write, dhara_map_capacity"]}
{"id": "C10", "title": "Find returns the page holding the data", "statement": "When dhara_map_find succeeds, the physical page it returns is in range, is a user page (not a checkpoint page), is not on a block marked bad, and reading it through the NAND driver yields the sector's current contents; different sectors give different pages.", "quantifier": "all reachable states, all sectors", "why_tests_cant": "A test replays a handful of histories; the claim must hold after every history.", "anchors": ["dhara/map.c: dhara_map_find, trace_path"]}
{"id": "C11", "title": "Sync makes everything durable", "statement": "After dhara_map_sync returns 0, re-initialising and resuming from the chip alone yields a map in which every sector reads back as it did before, with the same size.", "quantifier": "all histories, all chip geometries, all epochs including the 8-bit epoch counter wrapping", "why_tests_cant": "The resume binary searches depend on block position, epoch and group fill; each combination is a different input.", "anchors": ["dhara/map.c: dhara_map_sync, dhara_map_resume", "dhara/journal.c: dhara_journal_resume, find_checkblock, find_last_checkblock, find_last_group, find_root, find_head"]}
{"id": "C12", "title": "Power loss rolls back to a consistent point", "statement": "If power fails at any moment (including in the middle of a page program or block erase), resuming from the chip yields exactly the contents the map had after some prefix of the completed calls (or including the interrupted one), and that prefix contains every call made before the last successful sync.", "quantifier": "all histories, all crash points, all torn-operation outcomes, repeated crashes, no mid-block program failures", "why_tests_cant": "Crash points are unbounded in number and each must be combined with every history.", "anchors": ["dhara/journal.c: push_meta, prepare_head, dhara_journal_dequeue, dhara_journal_resume", "dhara/map.c: dhara_map_resume"]}
{"id": "C13", "title": "Writes and trims are atomic", "statement": "If power fails during one map call, the map after resume equals a state the map had before the call or the state after the call's full effect, never a mixture.", "quantifier": "all reachable states, all calls, all crash points within the call", "why_tests_cant": "Every NAND operation inside a call is a crash point.", "anchors": ["dhara/map.c: dhara_map_write, dhara_map_trim"]}
{"id": "C14", "title": "Resume on a chip without a journal gives an empty map", "statement": "On a chip holding no checkpoint, dhara_map_resume returns -1, the map is empty with size 0 and is usable.", "quantifier": "all geometries, all non-dhara chip contents, all bad-block patterns", "why_tests_cant": "Foreign contents are arbitrary.", "anchors": ["dhara/map.c: dhara_map_resume", "dhara/journal.c: dhara_journal_resume, reset_journal"]}
{"id": "C15", "title": "Resume does not modify the chip", "statement": "dhara_map_init and dhara_map_resume perform no erase, program or mark-bad operation, so an interrupted resume can be repeated.", "quantifier": "all chip contents, even corrupt ones", "why_tests_cant": "Chip contents are arbitrary.", "anchors": ["dhara/journal.c: dhara_journal_resume"]}
{"id": "C16", "title": "NAND contract is respected", "statement": "The map never programs or erases a block marked bad, never programs a page that is not erased or that precedes an already programmed page of its block, and never passes an out-of-range page, block, offset or buffer position to the driver.", "quantifier": "all histories, all crash/resume sequences, no mid-block program failures", "why_tests_cant": "Contract violations show only for particular head positions and failures.", "anchors": ["dhara/nand.h: dhara_nand_prog", "dhara/journal.c: prepare_head, push_meta, skip_block, find_head"]}
{"id": "C17", "title": "Wear is level", "statement": "On a chip whose operations do not fail, starting from first use and until power is lost (also in the middle of a call), the numbers of erases of any two non-bad blocks differ by at most one at all times; the same holds for the erases since any later moment. Every power cycle can add at most one to the difference.", "quantifier": "all histories, all pairs of blocks", "why_tests_cant": "A counting invariant over unbounded histories.", "anchors": ["README: Perfect wear-levelling", "dhara/journal.c: prepare_head, skip_block"]}
{"id": "C18", "title": "Copy sector duplicates contents", "statement": "A successful dhara_map_copy_sector(src, dst) makes dst read as src read before the call and changes no other sector; if src is unmapped, dst becomes unmapped.", "quantifier": "all reachable states, all src/dst, including calls that trigger automatic garbage collection", "why_tests_cant": "Whether garbage collection recycles the source page first depends on geometry, fill level and gc ratio.", "anchors": ["dhara/map.c: dhara_map_copy_sector, dhara_map_copy_page, auto_gc"]}
{"id": "C19", "title": "Copy page duplicates a raw page", "statement": "A successful dhara_map_copy_page(page, dst) makes dst read as the contents the raw page had before the call and changes no other sector, provided the page is neither erased nor programmed by the call itself (for a page returned by dhara_map_find: provided no garbage collection is due). In any state, failures and power loss included, such a copy does exactly what a write of those contents would do.", "quantifier": "all reachable states, all readable pages, live or stale; equality with a write: all states and fault schedules", "why_tests_cant": "A test replays a handful of histories; the claim must hold after every history.", "anchors": ["dhara/map.c: dhara_map_copy_page", "dhara/journal.c: dhara_journal_copy"]}
{"id": "C20", "title": "Block failure during a write loses nothing", "statement": "If a page program fails in the middle of a block, the journal relocates the failing block's pages and the call completes as if nothing happened: all sectors keep their contents, also when further blocks fail during the relocation.", "quantifier": "all histories, all schedules of program and erase failures", "why_tests_cant": "Failure schedules are unbounded and nested.", "anchors": ["dhara/journal.c: recover_from, restart_recovery, dump_meta, finish_recovery, dhara_journal_next_recoverable", "dhara/map.c: try_recover"]}
{"id": "C21", "title": "Block failure right after emptying the map is survivable", "statement": "If a page program fails in the middle of a block while the map is empty (for example the first write after trimming the last sector), the driver is never asked for an out-of-range page and the write still completes or fails cleanly.", "quantifier": "all geometries and block positions", "why_tests_cant": "The state is reached only by emptying the map and then failing at one particular operation.", "anchors": ["dhara/journal.c: recover_from, dhara_journal_next_recoverable", "dhara/map.c: try_recover, try_delete"]}
{"id": "C22", "title": "Power loss during bad-block recovery", "statement": "If power fails while the journal is relocating a failed block, resume yields a map containing at least everything that was synced before.", "quantifier": "all failure positions, all crash points within recovery", "why_tests_cant": "Needs a block failure and a power failure at matching points.", "anchors": ["dhara/journal.c: dump_meta, push_meta, dhara_journal_resume"]}
{"id": "C23", "title": "Successful writes are never dropped on any supported page size", "statement": "For every page size for which a checkpoint page can hold at least one metadata slot, a dhara_map_write returning 0 has stored the data even if the checkpoint program failed.", "quantifier": "all geometries including 256-byte pages", "why_tests_cant": "Requires a specific geometry and a specific failing operation.", "anchors": ["dhara/journal.c: choose_ppc, push_meta, recover_from"]}
{"id": "C24", "title": "Block failure on a nearly full journal", "statement": "If a program operation fails while the journal has no free block left, later calls still respect the NAND contract (no page is programmed twice without an erase).", "quantifier": "all fill levels, all failure points", "why_tests_cant": "Needs exact fill level plus failure.", "anchors": ["dhara/journal.c: recover_from, skip_block, prepare_head"]}
{"id": "C25", "title": "Checkpoint period is optimal and fits", "statement": "The checkpoint group size chosen at init is the largest power of two (at most the block size) for which all metadata slots of the group fit in one page, and every metadata slot lies inside the page buffer.", "quantifier": "all page sizes and block sizes", "why_tests_cant": "Parameter space; arithmetic claim.", "anchors": ["dhara/journal.c: choose_ppc, hdr_user_offset"]}
{"id": "C26", "title": "Journal size bounds", "statement": "dhara_journal_size never underestimates the number of user pages between the synced tail and the head and never exceeds the total number of user pages on the chip.", "quantifier": "all reachable journal positions including wrap-around", "why_tests_cant": "Modular arithmetic at every position.", "anchors": ["dhara/journal.c: dhara_journal_size, dhara_journal_capacity"]}
{"id": "C27", "title": "Calls terminate", "statement": "Without mid-block program failures, every map call terminates; dhara_map_sync needs no more iterations than the journal has pages plus one checkpoint group.", "quantifier": "all reachable states", "why_tests_cant": "Non-termination cannot be observed by a test.", "anchors": ["dhara/map.c: dhara_map_sync, dhara_map_write, dhara_map_gc"]}
{"id": "C28", "title": "Little-endian codecs round-trip", "statement": "dhara_w16/dhara_w32 followed by dhara_r16/dhara_r32 gives back the value, writes exactly 2/4 bytes least significant first, and the reads are injective on byte strings.", "quantifier": "all 16/32-bit values and all byte strings", "why_tests_cant": "2^32 values.", "anchors": ["dhara/bytes.h: dhara_r16, dhara_w16, dhara_r32, dhara_w32"]}
{"id": "C29", "title": "Checkpoint header and metadata round-trip", "statement": "Header fields (magic, epoch, tail, bad-block counters), cookie and every metadata field (id, 32 alt pointers) written to a page are read back exactly and do not overlap.", "quantifier": "all field values, all slots", "why_tests_cant": "Field values times slot positions.", "anchors": ["dhara/journal.c: hdr_set_tail, hdr_user_offset", "dhara/map.c: meta_set_alt, meta_get_alt, ck_set_count"]}
{"id": "C30", "title": "Hamming ECC corrects any single-bit error", "statement": "For any chunk of at most 512 bytes, after flipping any one bit of chunk or ECC, hamming_syndrome is non-zero and hamming_repair returns 0 with the original chunk.", "quantifier": "all chunks, all bit positions", "why_tests_cant": "2^4096 chunks.", "anchors": ["ecc/hamming.c: hamming_generate, hamming_syndrome, hamming_repair"]}
{"id": "C31", "title": "Hamming ECC detects any double-bit error", "statement": "For any chunk of at most 512 bytes, after flipping any two distinct bits of chunk and ECC, the syndrome is non-zero, hamming_repair returns -1, and it never alters the chunk.", "quantifier": "all chunks, all pairs of positions", "why_tests_cant": "2^4096 chunks times pairs.", "anchors": ["ecc/hamming.c: hamming_repair"]}
{"id": "C32", "title": "Erased data passes ECC checks", "statement": "A fully erased chunk (0xff) with erased ECC bytes passes hamming, BCH and CRC verification.", "quantifier": "all chunk lengths, all four BCH codes", "why_tests_cant": "All lengths.", "anchors": ["ecc/hamming.c", "ecc/bch.c: bch_verify", "ecc/crc32.c: crc32_nand"]}
{"id": "C33", "title": "CRC32 is the bitwise IEEE CRC", "statement": "crc32_nand's table equals the table generated from polynomial 0xedb88320 and the function equals bit-serial division of the inverted data; it can be computed piecewise by carrying the checksum.", "quantifier": "all byte strings, all carry values, all splits", "why_tests_cant": "All inputs.", "anchors": ["ecc/crc32.c: crc32_nand, reduce", "tools/gentab.c: fill_table"]}
{"id": "C34", "title": "CRC32 detects up to three bit errors", "statement": "For a block of up to 11450 bytes, flipping one, two or three bits anywhere in the block or in the stored checksum always makes the recomputed crc32_nand differ from the stored one; any burst of at most 32 bits in a block of any length changes crc32_nand.", "quantifier": "all blocks, all error positions", "why_tests_cant": "10^10 patterns times all contents.", "anchors": ["ecc/crc32.c: crc32_nand", "ecc/crc32.h"]}
{"id": "C35", "title": "GF(2^13) tables implement the field", "statement": "Table-driven multiplication and division agree with polynomial arithmetic modulo x^13+x^4+x^3+x+1 on all non-zero arguments, and with the table-free build of the same functions.", "quantifier": "all pairs of field elements", "why_tests_cant": "2^26 pairs and algebraic laws over triples.", "anchors": ["ecc/gf13.h: gf13_mul, gf13_div", "ecc/gf13.c", "tools/gftool.c: gf_init"]}
{"id": "C36", "title": "BCH verify accepts generated ECC and detects errors", "statement": "For each of the four BCH codes, generated ECC verifies (any chunk length), and flipping between one and 2t bits (t=1..4) of a chunk of up to BCH_MAX_CHUNK_SIZE bytes and of the code's ECC bits makes bch_verify return -1; the unused high bits of the last ECC byte are ignored.", "quantifier": "all chunks up to BCH_MAX_CHUNK_SIZE, all error patterns of weight up to 2t", "why_tests_cant": "Minimum distance claim over 2^8000 words.", "anchors": ["ecc/bch.c: bch_generate, bch_verify"]}
{"id": "C37", "title": "BCH repair corrects up to t errors", "statement": "For each of the four BCH codes, with or without GF13_NO_TABLES, bch_repair restores chunk and ECC exactly after flipping at most t bits of them.", "quantifier": "all chunks up to BCH_MAX_CHUNK_SIZE, all error patterns of weight up to t", "why_tests_cant": "Pattern space is astronomically large.", "anchors": ["ecc/bch.c: bch_repair, berlekamp_massey, syndrome, poly_eval"]}
{"id": "C38", "title": "Error strings are total", "statement": "dhara_strerror returns a distinct fixed message for each error code and \"Unknown error\" for every other integer.", "quantifier": "all integers", "why_tests_cant": "All integers.", "anchors": ["dhara/error.c: dhara_strerror"]}
{"id": "C39", "title": "Power loss never makes garbage collection fail for ever", "statement": "After any power loss, as long as no block fails, later dhara_map_gc and dhara_map_sync calls never report an uncorrectable-read error: pages left unreadable by the power loss are never needed again.", "quantifier": "every power-loss point inside a program of a checkpoint page and every later history", "why_tests_cant": "the failure needs a torn checkpoint page in the middle of a block followed by a full trip of the tail around the chip", "anchors": ["dhara/journal.c: dhara_journal_peek, dhara_journal_dequeue, dhara_journal_read_meta", "dhara/map.c: raw_gc"]}
{"id": "C40", "title": "Block failure never makes garbage collection fail for ever", "statement": "After a page program fails and the call that hit it completes with success, later dhara_map_gc and dhara_map_sync calls never report an uncorrectable-read error for the retired block.", "quantifier": "every history and every failing program operation", "why_tests_cant": "the failure needs the failing block to be the block holding the journal tail (journal.c:771 'Was the tail on this page? Skip it forward' is a comment without code)", "anchors": ["dhara/journal.c: finish_recovery, dhara_journal_next_recoverable, dhara_journal_peek", "dhara/map.c: try_recover, raw_gc"]}
{"id": "C41", "title": "Fault-free chips never report I/O errors", "statement": "On a chip whose operations always succeed (some blocks may be factory-bad, not more than 6 of any 8 consecutive ones), with power cycles between calls, the only errors of map calls are: map full (write and copy only), journal full, and not found (find only).", "quantifier": "every history of calls and power cycles on a fault-free chip", "why_tests_cant": "quantifies over all histories", "anchors": ["dhara/map.c", "dhara/journal.c"]}
{"id": "C42", "title": "Only documented errors", "statement": "As long as two of any eight consecutive blocks never fail, whatever power losses and failures (at erase or at the first page of a block) happened before: clear, read and size never fail; find fails only with not-found and only for an unmapped sector; trim, gc and sync fail only with journal full or an unreadable page; writes and copies moreover with map full, only if the target sector is unmapped. No call reports 'too many bad blocks', 'bad block' or 'recover'.", "quantifier": "every reachable state, every valid call", "why_tests_cant": "quantifies over all histories, failure schedules and power-loss points", "anchors": ["dhara/map.h", "dhara/map.c", "dhara/journal.c: prepare_head, recover_from, dhara_journal_enqueue, dhara_journal_copy"]}
{"id": "C43", "title": "A block failure after a power cycle keeps synced data", "statement": "Data made durable by a successful dhara_map_sync survives a power cycle followed by a page program that fails in the middle of a block, when the call that met the failure reports success.", "quantifier": "every history, every power-cycle point and every failing program operation after it", "why_tests_cant": "the loss needs a power cycle while a checkpoint group is partly written, and a program failure in the same block before the group is completed", "anchors": ["dhara/journal.c: recover_from, dump_meta, dhara_journal_read_meta, dhara_journal_resume, restart_recovery", "dhara/map.c: try_recover"]}
{"id": "C44", "title": "Resume may be called on a map in use", "statement": "dhara_map_resume rebuilds everything from the chip: called on a map object in any state (in use, dirty, after errors, in the middle of bad-block recovery), it returns the same and leaves the same state behind as dhara_map_init followed by dhara_map_resume, except that gc_ratio is kept; it is equivalent to a power cycle.", "quantifier": "all states of the map object (arbitrary memory contents), all chips", "why_tests_cant": "Any stale field that survives resume would have to be caught in the one state where it matters; tests/epoch_roll.c tries a single one.", "anchors": ["dhara/journal.c: dhara_journal_resume, find_head, clear_recovery", "dhara/map.c: dhara_map_resume", "tests/epoch_roll.c"]}
{"id": "C45", "title": "Journal pointers stay consistent", "statement": "Whatever calls were made and however often power was lost, the structural checks the project makes on a live journal (jt_check in tests/jtutil.c) never fail: head, tail, last synced tail and root are user pages of the chip; tsync does not pass head inside one block; tail lies between tsync and head; and a root that is set lies between tail and head.", "quantifier": "every reachable state; also every history of class C20 with mid-block program failures", "why_tests_cant": "the test suite asserts it after each step of a few fixed workloads; it must hold after every history, failure schedule and power-loss point", "anchors": ["tests/jtutil.c: check_upage, jt_check", "dhara/journal.c"]}
{"id": "C46", "title": "The index tree stays well formed", "statement": "Whatever calls were made and however often power was lost, the check the project makes on a live map (mt_check in tests/map.c) never fails when the map is not empty or its journal has no root: every page reachable from the root is a user page between tail and head, strictly older than the page that points to it, its sector number agrees with its place in the tree, its metadata can be read, and the number of reachable pages is dhara_map_size. (In a map emptied and then synced, mt_check counts one filler page.)", "quantifier": "every reachable state; also every history of class C20 with mid-block program failures", "why_tests_cant": "the test suite runs it after each step of one workload; it must hold after every history, failure schedule and power-loss point", "anchors": ["tests/map.c: check_recurse, mt_check", "dhara/map.c: trace_path, raw_gc, pad_queue, try_delete, dhara_map_write"]}
{"id": "C47", "title": "The journal is a first-in first-out queue", "statement": "A journal used on its own (dhara_journal_enqueue, peek + read + dequeue, copy, root, clear, cookie, is_clean, size) behaves like a queue of pages: an enqueue that succeeds adds exactly its data and metadata at the end, one that fails (only with journal-full) changes nothing, peek/dequeue hand out the pages in the order they were enqueued with the data and metadata they were enqueued with, copy appends the oldest page with new metadata, root is the page enqueued last, clear empties the queue, the cookie reads as last set, and size is at least the number of pages. After a power loss the queue, and the cookie, of the last checkpoint are back; pages of unspecified contents may be in front of them and behind them. No call touches a page outside the chip or reprograms a page.", "quantifier": "every history of calls on every supported chip, with power loss at any chip operation and factory/erase/first-page failures of blocks", "why_tests_cant": "the tests enqueue and dequeue a few hundred pages on one geometry; the order must hold for every interleaving, wrap-around, bad block pattern and power-loss point", "anchors": ["dhara/journal.c: dhara_journal_enqueue, dhara_journal_copy, dhara_journal_peek, dhara_journal_dequeue, dhara_journal_clear, dhara_journal_resume, dhara_journal_read_meta", "dhara/journal.h: dhara_journal_root, dhara_journal_cookie, dhara_journal_is_clean, dhara_journal_size"]}
{"id": "C48", "title": "A clean journal survives power loss", "statement": "If dhara_journal_is_clean reports true and power is lost, then after dhara_journal_resume, peeking and dequeuing until the journal is empty returns all pages that were in the queue, in order, with their data and metadata (pages of unspecified contents may appear between them).", "quantifier": "every history of calls including earlier power losses, on every supported chip", "why_tests_cant": "the tests resume at a few chosen points; the guarantee is about every history and power-loss point", "anchors": ["dhara/journal.h: dhara_journal_is_clean", "dhara/journal.c: push_meta, dhara_journal_resume, dhara_journal_dequeue"]}
{"id": "C49", "title": "Journal-full is reported only when the journal is nearly full", "statement": "If a call on a journal or on a map fails with 'journal is full', then dhara_journal_size after it is larger than the number of user pages in all but two of the chip's blocks: space is not lost by wrap-around, bad blocks or power loss.", "quantifier": "every history of calls on every supported chip, with power loss at any chip operation and factory/erase/first-page failures of blocks", "why_tests_cant": "tests fill a journal once on one geometry; a leak of space may need many wrap-arounds, a bad block at a particular place, or a power loss", "anchors": ["dhara/journal.c: skip_block, prepare_head, dhara_journal_size, push_meta, dhara_journal_resume", "dhara/map.c: dhara_map_write, dhara_map_trim, dhara_map_sync, dhara_map_gc"]}
{"id": "C50", "title": "Enqueuing reaches a checkpoint", "statement": "Of as many consecutive successful enqueues as a checkpoint group has user pages, at least one leaves the journal clean (dhara_journal_is_clean reports true after it), so padding (dhara_map_sync) needs at most that many pages.", "quantifier": "every history of calls followed by any run of successful enqueues, on every supported chip", "why_tests_cant": "the position in the checkpoint group after an arbitrary history (including power loss and skipped blocks) is what matters", "anchors": ["dhara/journal.c: push_meta, dhara_journal_enqueue", "dhara/journal.h: dhara_journal_is_clean"]}
{"id": "C51", "title": "Every call does a bounded amount of work", "statement": "A write, trim, sector copy or page copy makes the chip perform at most (gc_ratio + 2) * 48 erase, program and mark-bad operations, dhara_map_gc at most 48, dhara_map_sync at most 48 for each page of a checkpoint group except the checkpoint page; dhara_map_clear, read, find and size perform none. If no operation fails, 48 can be replaced by 3. A single journal enqueue or copy never performs more than 48 operations, in any state and whatever fails.", "quantifier": "every reachable state (any history, power loss, failures of the modelled class), every gc_ratio, every valid call and every pattern of failures during it; for the journal bound every state and every pattern of failures", "why_tests_cant": "a test measures some calls; the worst case depends on the position in the checkpoint group and block, on how much garbage the collector meets and on which operations fail in which order", "anchors": ["dhara/map.c: auto_gc, dhara_map_gc, prepare_write, dhara_map_write, dhara_map_trim, dhara_map_sync, try_recover", "dhara/journal.c: dhara_journal_enqueue, dhara_journal_copy, prepare_head, push_meta, recover_from, dump_meta, finish_recovery"]}
{"id": "C52", "title": "The CRC table generator is right for every polynomial", "statement": "Given any 32-bit polynomial written in hexadecimal (upper or lower case, with or without 0x), gentab prints 256 entries of the form 0x........ which read back as the CRCs of the 256 single bytes, and a CRC computed byte by byte with that table is the bit-serial CRC with that polynomial for every message and every initial register. A text with a character that is neither a hexadecimal digit nor x is refused. For edb88320 the table is the one compiled into the library.", "quantifier": "every polynomial, every spelling, every message, every initial register", "why_tests_cant": "2^32 polynomials and unboundedly many messages and spellings", "anchors": ["tools/gentab.c: fill_table, print_table, parse_poly, main", "ecc/crc32.c: reduce_tab"]}
{"id": "C53", "title": "The field tool finds exactly the primitive polynomials and its tables are right", "statement": "For every degree from 2 to 30 the search of gftool lists exactly the primitive polynomials of that degree over GF(2), each once, in increasing order, and its primitivity test always terminates with the right answer. Every non-zero residue is a power of x modulo a listed polynomial, and the polynomial has no proper factor. For every primitive polynomial of degree 2 to 16 the exponent and logarithm tables it builds are the powers of x and the inverse map; for x^13+x^4+x^3+x+1 they are the tables compiled into the BCH code. The printed reciprocal and exponent list are those of the polynomial. (For degree 1 the test wrongly accepts x.)", "quantifier": "every degree in range, every polynomial, every field element", "why_tests_cant": "the test is a loop of up to 2^30 steps per polynomial and there are 2^30 polynomials; algebraic facts quantify over all factorisations", "anchors": ["tools/gftool.c: is_primitive, poly_search, gf_init, reciprocal, degree, mul_poly, print_poly", "ecc/gf13.c: gf13_exp, gf13_log"]}
{"id": "C54", "title": "The BCH generator tool computes the least generator", "statement": "For every field of degree 2 to 15 built from a primitive polynomial and every n below the field order, asking gftool for a BCH generator either yields a polynomial which has alpha^1..alpha^n among its roots and divides every polynomial that does, or reports overflow, and then every such polynomial has degree above 63. Evaluation of a polynomial at a field element and minimal polynomials are right. The four generators compiled into the library are the ones the tool computes for 2, 4, 6 and 8 syndromes.", "quantifier": "every primitive polynomial of degree 2..15, every n, every competing polynomial", "why_tests_cant": "minimality ranges over all polynomials; every field is a separate instance", "anchors": ["tools/gftool.c: gf_eval_poly, gf_minimal, bch_generator", "ecc/bch.c: bch_1bit, bch_2bit, bch_3bit, bch_4bit"]}
{"id": "C55", "title": "Garbage collection keeps up: the journal never fills", "statement": "Starting from a fresh chip, as long as power stays on and not too many blocks go bad (at most six more than the smaller of nblocks/64 and the blocks marked bad at the start, and at least four good blocks), no call of the map interface ever reports E_JOURNAL_FULL, however many calls have been made and in whatever order. The only errors left are an unreadable page (E_ECC), not found (dhara_map_find only), and E_MAP_FULL for a new sector in a map that holds at least as many sectors as fit with all weak blocks set aside.", "quantifier": "every supported geometry, GC ratio, pattern of weak blocks and of failing operations, and every history of valid calls of any length", "why_tests_cant": "the journal fills up, if at all, after an adversarial sequence of writes, trims, copies and syncs of unbounded length combined with block failures at chosen places", "anchors": ["dhara/map.c: auto_gc, raw_gc, dhara_map_gc, dhara_map_write, dhara_map_copy_page, dhara_map_trim, dhara_map_sync, dhara_map_capacity", "dhara/journal.c: prepare_head, dhara_journal_capacity, dhara_journal_size, dhara_journal_dequeue"]}
{"id": "C56", "title": "The promised capacity is really available", "statement": "Under the conditions of C55, dhara_map_capacity is always between the value computed from the weak blocks and the value computed from the blocks marked bad at the start; and on a chip that never fails every call succeeds, except that dhara_map_find may report not found and that a write or copy of an unmapped sector may report map full when the map already holds at least the lower bound.", "quantifier": "every supported geometry, GC ratio and set of factory-bad blocks within the bound, and every history of valid calls of any length", "why_tests_cant": "unbounded histories; the capacity formula interacts with the bad-block counters of two successive rounds over the chip", "anchors": ["dhara/map.c: dhara_map_capacity, dhara_map_write, auto_gc", "dhara/journal.c: dhara_journal_capacity, roll_stats, skip_block, dhara_journal_init"]}
{"id": "C57", "title": "Losing power again and again does not use up the journal", "statement": "Under the conditions of C55, but with power cuts and power cycles at any time, no call reports E_JOURNAL_FULL; in particular, a map that is not full can still be written after any number of power failures.", "quantifier": "every supported geometry and GC ratio and every history of calls, power cuts and power cycles", "why_tests_cant": "hundreds of power failures at particular moments must be combined", "anchors": ["dhara/journal.c: find_head, prepare_head, dhara_journal_dequeue, push_meta", "dhara/map.c: auto_gc, raw_gc, dhara_map_gc"]}
{"id": "C58", "title": "A device that is always synced before it is switched off never runs out of journal space", "statement": "On a fresh chip with enough good blocks, if power goes away only right after a dhara_map_sync that succeeded (or right after power-up), however often, then no call ever reports E_JOURNAL_FULL; a write or copy is refused as 'map full' only for a new sector when the map holds as many sectors as fit with all weak blocks set aside; the reported capacity stays between the bounds of C56 (the bad-block counters survive the power cycle); and on a chip without failures every other call succeeds.", "quantifier": "every supported geometry, chip, GC ratio and every history of calls with power cycles after successful syncs", "why_tests_cant": "unbounded histories; whether room runs out depends on what resume takes for head, tail and bad-block counters after each of any number of power cycles", "anchors": ["dhara/journal.c: dhara_journal_resume, find_head, find_root, push_meta, dhara_journal_capacity", "dhara/map.c: dhara_map_sync, auto_gc, raw_gc, dhara_map_resume"]}
{"id": "C59", "title": "Unreadable pages left by failing blocks never get in the way", "statement": "On a fresh chip with enough good blocks whose unreadable pages (if any) lie in blocks marked bad, whatever erases and first-page programs fail and however often power is cycled after a successful sync: no dhara_map_write, dhara_map_trim, dhara_map_gc or dhara_map_sync ever reports E_ECC; trims, garbage collection and syncs always succeed, and a write fails only with E_MAP_FULL for a new sector when the map holds as many sectors as fit with all weak blocks set aside.", "quantifier": "every supported geometry, chip, fault schedule (erase failures and first-page program failures, each leaving any pages of the block erased, written or unreadable), GC ratio and history of calls with power cycles after successful syncs", "why_tests_cant": "every schedule of block failures and unbounded histories; garbage collection reads whatever page the tail reaches, so the claim needs an invariant on where unreadable pages can be", "anchors": ["dhara/map.c: raw_gc, dhara_map_gc, dhara_map_sync, dhara_map_write, dhara_map_trim", "dhara/journal.c: dhara_journal_read_meta, dhara_journal_peek, dhara_journal_dequeue, recover_from, prepare_head"]}
{"id": "C60", "title": "With room to spare, copying a sector always duplicates it", "statement": "As long as power goes away only after a successful sync, however many blocks fail within the allowance (at most six more than the blocks set aside, a GC ratio of at most 4, or five more and a ratio of at most the pages per block; six blocks that never fail), dhara_map_copy_sector(a, b) - whatever garbage collection it triggers, including when it moves the source - either succeeds, and then b reads exactly as a did before, is mapped exactly if a was, and no other sector changes; or it fails with E_MAP_FULL because a is mapped, b is new and the map holds as many sectors as fit. It never reports E_ECC or E_JOURNAL_FULL. The same holds for dhara_map_copy_page of the page dhara_map_find has just returned.", "quantifier": "every supported geometry, chip, fault schedule (erase failures and first-page program failures), GC ratio and history of calls with power cycles after successful syncs, and every pair of sectors", "why_tests_cant": "the danger is that the garbage collection inside the call erases the source page before it is copied; excluding it needs a bound on how far the head can move in one call, for every history, fault schedule and geometry", "anchors": ["dhara/map.c: dhara_map_copy_sector, dhara_map_copy_page, auto_gc, prepare_write, raw_gc", "dhara/journal.c: dhara_journal_copy, prepare_head, skip_block, dhara_journal_peek"]}
{"id": "C61", "title": "An ECC repair of hopeless data stays small and in bounds", "statement": "Whatever was read back (any corruption at all): hamming_repair leaves the chunk alone when it returns -1 and otherwise flips at most one bit inside it; when it is given the computed syndrome of a full 512-byte chunk and returns 0, the chunk and the three ECC bytes then agree, or agree once one ECC bit is flipped. bch_repair of a chunk of up to 1016 bytes flips at most 2t bits and never more than seven, all inside the chunk or among the ECC bits the code uses, with and without field tables.", "quantifier": "every chunk, every ECC bytes, every syndrome, all four BCH codes, both builds of the field arithmetic", "why_tests_cant": "the input space is every bit string; the bound rests on the degree of the error-locator polynomial for syndromes that no correctable error produces", "anchors": ["ecc/hamming.c: hamming_repair, hamming_syndrome", "ecc/bch.c: bch_repair, berlekamp_massey, poly_eval", "ecc/bch.h: bch_repair"]}
{"id": "C62", "title": "Sync makes everything durable on 256-byte pages too", "statement": "On a chip that never fails, for every page size the driver accepts (256 bytes included), data stored before a successful dhara_map_sync reads the same after a power cycle.", "quantifier": "every geometry with pages of 256 bytes to 64 KiB and at least four pages per block, every history of calls and power cycles on a chip without any fault", "why_tests_cant": "the project's tests use larger pages; the loss needs the head exactly at a block boundary, in a later round over the chip, and two power cycles", "anchors": ["dhara/journal.c: find_head, next_upage, find_last_checkblock, dhara_journal_resume"]}
{"id": "C63", "title": "Calls with nothing to do leave the chip alone", "statement": "dhara_map_read, dhara_map_find and dhara_map_size never change the map or the chip, whatever they return. A dhara_map_sync directly after a successful one, or directly after power-up, succeeds without touching anything. dhara_map_clear and dhara_map_gc on an empty map do nothing. dhara_map_trim of a sector that is not mapped succeeds and changes nothing when no garbage collection is due (dhara_journal_size below dhara_map_capacity) or the map is empty.", "quantifier": "look-ups, sync, clear, gc: every state of the map and every chip contents; trim: every reachable state", "why_tests_cant": "the claim is about every state and every chip contents, damaged ones included", "anchors": ["dhara/map.c: dhara_map_read, dhara_map_find, dhara_map_sync, dhara_map_clear, dhara_map_gc, dhara_map_trim, auto_gc", "dhara/journal.h: dhara_journal_is_clean", "dhara/journal.c: dhara_journal_resume, dhara_journal_read_meta"]}
{"id": "C64", "title": "Small pages work until power is lost", "statement": "With any page size the library accepts (256 bytes to 64 KiB), from the first use of a chip until power is lost: every call ends, never asks the driver for something undefined, returns a documented result, and the map reads, finds, counts and forgets sectors exactly as the calls that returned success say; failed calls change nothing; a write is refused with MAP_FULL exactly when the sector is unmapped and the capacity is reached; dhara_map_find returns a user page holding what dhara_map_read returns; no call ever reports that the journal is full, the reported capacity stays between the bounds that the marked and the weak blocks give, and on a chip that never fails every call succeeds but for a new sector in a map holding as many as fit; every call does a bounded number of chip operations (the bounds of C51), the journal size is the number of user pages between tail and head (C26), and the pointer and index-tree checks of the project's own tests (C45, C46) never fail.", "quantifier": "every geometry down to 256-byte pages (two pages per checkpoint group), fresh chip, sequence of valid calls, schedule of erase failures and first-page program failures on weak blocks", "why_tests_cant": "sequences of calls and failure schedules are unbounded; the project's tests use larger pages only", "anchors": ["dhara/map.c", "dhara/journal.c: choose_ppc, push_meta, prepare_head, dhara_journal_resume", "dhara/map.c: dhara_map_capacity, auto_gc, raw_gc"]}
