{
 "claims": [
  {
   "property": "C01",
   "status": "proved",
   "theorems": [
    "C01_unflagged_is_sha1"
   ],
   "note": ""
  },
  {
   "property": "C02",
   "status": "proved",
   "theorems": [
    "C02_digest_and_verdict",
    "C02_sum",
    "C02_detection_decidable"
   ],
   "note": ""
  },
  {
   "property": "C03",
   "status": "proved",
   "theorems": [
    "C03_chunking"
   ],
   "note": ""
  },
  {
   "property": "C04",
   "status": "proved",
   "theorems": [
    "C04_observers_pure"
   ],
   "note": ""
  },
  {
   "property": "C05",
   "status": "proved",
   "theorems": [
    "C05_reset_is_new"
   ],
   "note": ""
  },
  {
   "property": "C06",
   "status": "proved",
   "theorems": [
    "C06_no_panic",
    "C06_no_panic_slices"
   ],
   "note": ""
  },
  {
   "property": "C07",
   "status": "proved",
   "theorems": [
    "C07_sum_appends"
   ],
   "note": ""
  },
  {
   "property": "C08",
   "status": "proved",
   "theorems": [
    "C08_checkpoint_digest"
   ],
   "note": ""
  },
  {
   "property": "C09",
   "status": "partial",
   "theorems": [
    "C09_verdict_lost_refuted",
    "C09_verdict_stale_refuted",
    "C09_verdict_preserved_partial"
   ],
   "note": "False as stated: MarshalBinary drops the collision flag and UnmarshalBinary keeps the destination's flag (two refutations with the SHAmbles file). Proved when source and destination have equal flags at the checkpoint."
  },
  {
   "property": "C10",
   "status": "proved",
   "theorems": [
    "C10_unmarshal_accepts",
    "C10_error_leaves_hasher"
   ],
   "note": ""
  },
  {
   "property": "C11",
   "status": "proved",
   "theorems": [
    "C11_marshal_canonical"
   ],
   "note": ""
  },
  {
   "property": "C12",
   "status": "proved",
   "theorems": [
    "C12_hostile_checkpoint"
   ],
   "note": ""
  },
  {
   "property": "C13",
   "status": "proved",
   "theorems": [
    "C13_reencode",
    "C13_marshal_is_canonical"
   ],
   "note": ""
  },
  {
   "property": "C14",
   "status": "partial",
   "theorems": [
    "C14_reported_real_partial"
   ],
   "note": "Proved in full for vectors with test step 65. For test step 58 hasCollided rotates the working variables in the skipped steps (C40), so the reported sibling is the one of the rotated state."
  },
  {
   "property": "C15",
   "status": "partial",
   "theorems": [
    "C15_attack_reported_partial",
    "C15_missed_58"
   ],
   "note": "Proved for vectors with test step 65. For test step 58 C15_missed_58 characterises exactly when the sibling test of that vector fires: only if the middle state has five equal words. A concrete message would need a new SHA-1 near-collision attack."
  },
  {
   "property": "C16",
   "status": "partial",
   "theorems": [
    "C16_both_detected_partial"
   ],
   "note": "Proved for vectors with test step 65; see C15 for 58."
  },
  {
   "property": "C17",
   "status": "proved",
   "theorems": [
    "C17_sticky"
   ],
   "note": ""
  },
  {
   "property": "C18",
   "status": "proved",
   "theorems": [
    "C18_oneshot",
    "C18_oneshot_early_partial"
   ],
   "note": "For the evaluation order of the gc compiler (call before field read). The Go specification leaves the order in 'return d.checkSum(), d.col' open; C18_oneshot_early_partial says what holds for the other order."
  },
  {
   "property": "C19",
   "status": "proved",
   "theorems": [
    "C19_three_times"
   ],
   "note": ""
  },
  {
   "property": "C20",
   "status": "proved",
   "theorems": [
    "C20_amd64_same_as_generic"
   ],
   "note": "For any memory layout with the buffers apart, any register, flag and frame contents at entry and any stack alignment, fresh for each call of the routine."
  },
  {
   "property": "C21",
   "status": "partial",
   "theorems": [
    "C21_agree_partial",
    "C21_no_58_partial"
   ],
   "note": "Proved when the two detection predicates agree on the blocks reached (C21_agree_partial), in particular for every message none of whose blocks satisfies the bit conditions of a vector with test step 58 (C21_no_58_partial). Missing: blocks that do, where the Go code tests a rotated state (C40); a counterexample message would need a SHA-1 near-collision along such a vector."
  },
  {
   "property": "C22",
   "status": "proved",
   "theorems": [
    "C22_package_cgo",
    "C22_mask_is_conditions",
    "C22_mask_c_equals_go"
   ],
   "note": ""
  },
  {
   "property": "C23",
   "status": "proved",
   "theorems": [
    "C23_mask_total"
   ],
   "note": ""
  },
  {
   "property": "C24",
   "status": "proved",
   "theorems": [
    "C24_table_is_manuels"
   ],
   "note": ""
  },
  {
   "property": "C25",
   "status": "proved",
   "theorems": [
    "C25_tables_equal"
   ],
   "note": ""
  },
  {
   "property": "C26",
   "status": "proved",
   "theorems": [
    "C26_amd64_states",
    "C26_arm64_states",
    "C26_generic_states"
   ],
   "note": "For arm64 the state is recovered whenever the routine runs at all (R16 + 64 does not wrap, see C35)."
  },
  {
   "property": "C27",
   "status": "proved",
   "theorems": [
    "C27_conditions_symmetric"
   ],
   "note": ""
  },
  {
   "property": "C28",
   "status": "proved",
   "theorems": [
    "C28_filter",
    "C28_unconditioned_is_sha1"
   ],
   "note": ""
  },
  {
   "property": "C29",
   "status": "proved",
   "theorems": [
    "C29_sizes",
    "C29_whole_blocks"
   ],
   "note": ""
  },
  {
   "property": "C30",
   "status": "proved",
   "theorems": [
    "C30_digest_and_verdict",
    "C30_sum",
    "C30_oneshot",
    "C30_total",
    "C30_observers_pure",
    "C30_reset_is_new",
    "C30_independent"
   ],
   "note": "For builds whose byte order macro is right (C44)."
  },
  {
   "property": "C31",
   "status": "partial",
   "theorems": [
    "C31_any_implementation_partial"
   ],
   "note": "Any mixture of generic, amd64 and arm64 per call, the arm64 calls under the R16 condition of C35; without it the statement is false by C35_arm64_uninitialised_refuted."
  },
  {
   "property": "C32",
   "status": "proved",
   "theorems": [
    "C32_independent"
   ],
   "note": ""
  },
  {
   "property": "C33",
   "status": "proved",
   "theorems": [
    "C33_slices_by_value",
    "C33_buffers_untouched"
   ],
   "note": ""
  },
  {
   "property": "C34",
   "status": "proved",
   "theorems": [
    "C34_padding_injective",
    "C34_code_pads",
    "C34_padding_shape"
   ],
   "note": ""
  },
  {
   "property": "C35",
   "status": "partial",
   "theorems": [
    "C35_arm64_uninitialised_refuted",
    "C35_arm64_skip",
    "C35_arm64_same_as_generic_partial"
   ],
   "note": "False as stated: the routine reads R16, which it never sets; if R16 >= 2^64-64 the block is silently skipped (witness, and C35_arm64_skip for all inputs). Proved for every other value of R16."
  },
  {
   "property": "C36",
   "status": "proved",
   "theorems": [
    "C36_amd64_memory_safe",
    "C36_arm64_memory_safe",
    "C36_amd64_accesses",
    "C36_arm64_accesses",
    "C36_amd64_stores",
    "C36_arm64_stores"
   ],
   "note": "One 64-byte chunk per call, as block() calls the routines; arm64 for any R16. Stated twice: the run does not fault and changes nothing else, and every access of every instruction reached lies in the ranges of Spec_Asm.v."
  },
  {
   "property": "C37",
   "status": "proved",
   "theorems": [
    "C37_recompression_inverts",
    "C37_recompression_any"
   ],
   "note": ""
  },
  {
   "property": "C38",
   "status": "proved",
   "theorems": [
    "C38_session",
    "C38_detection_decidable",
    "C38_detection_off",
    "C38_safe_hash_off",
    "C38_monotone"
   ],
   "note": "Includes that safe hash does not change the verdict (C38_monotone in both directions)."
  },
  {
   "property": "C39",
   "status": "proved",
   "theorems": [
    "C39_verdict_iff",
    "C39_unflagged_is_sha1",
    "C39_detection_decidable"
   ],
   "note": ""
  },
  {
   "property": "C40",
   "status": "partial",
   "theorems": [
    "C40_sibling_test_58_refuted",
    "C40_sibling_test_65_partial",
    "C40_sibling_test_58_exact"
   ],
   "note": "Refuted for test step 58 (witness), proved for 65, and C40_sibling_test_58_exact says what the code computes for 58."
  },
  {
   "property": "C41",
   "status": "proved",
   "theorems": [
    "C41_c_api"
   ],
   "note": ""
  },
  {
   "property": "C42",
   "status": "proved",
   "theorems": [
    "C42_both_members"
   ],
   "note": ""
  },
  {
   "property": "C43",
   "status": "proved",
   "theorems": [
    "C43_callback_inert"
   ],
   "note": "The header's promise that the callback is called is not kept by the code; the property states what the code does."
  },
  {
   "property": "C44",
   "status": "proved",
   "theorems": [
    "C44_byte_order"
   ],
   "note": ""
  },
  {
   "property": "C45",
   "status": "proved",
   "theorems": [
    "C45_fallback_sum",
    "C45_fallback_new"
   ],
   "note": "Block implementations as in C20 and C31 (Generic, Amd64, and Arm64 where R16 permits)."
  },
  {
   "property": "C46",
   "status": "partial",
   "theorems": [
    "C46_block_definitions_partial",
    "C46_gccgo_refuted",
    "C46_no_duplicates",
    "C46_no_duplicates_cgo",
    "C46_bodies",
    "C46_old_constraint_lines"
   ],
   "note": "False for GOARCH amd64 or arm64 with gccgo (tag gc not set) and without noasm: no file declares block (C46_gccgo_refuted, witness linux/amd64 with gccgo). C46_block_definitions_partial gives the exact condition; uniqueness, bodies and agreement of the constraint lines hold for all tag sets."
  },
  {
   "property": "C47",
   "status": "partial",
   "theorems": [
    "C47_same_signatures_partial",
    "C47_declared_once",
    "C47_api_refuted"
   ],
   "note": "False for CalculateDvMask (array by value with cgo, pointer without) and for the constants Size and BlockSize, which exist with cgo only (C47_api_refuted). New and Sum have the same signatures, and every function is declared once (proved)."
  },
  {
   "property": "C48",
   "status": "partial",
   "theorems": [
    "C48_amd64_cpus_partial",
    "C48_arm64_cpus_partial",
    "C48_ssse3_refuted",
    "C48_amd64_needs_partial",
    "C48_arm64_needs_partial",
    "C48_amd64_faults_partial"
   ],
   "note": "False on a CPU that has SSE3, SSE4.1, AVX and SHA but not SSSE3: PSHUFB faults, and hasSHANI does not test for it (C48_ssse3_refuted). No such CPU is known; with SSE4.1 implying SSSE3 the amd64 part is proved. The arm64 part has the premise on R16 of C31/C35. Which extension an instruction needs is taken from the Intel and Arm manuals by mnemonic. C48_amd64_faults_partial says exactly when block faults, so the missing case is the only one; C48_*_needs_partial give the extensions the routines cannot do without."
  },
  {
   "property": "C49",
   "status": "proved",
   "theorems": [
    "C49_byte_order_iff",
    "C49_forced_order",
    "C49_unaligned_access"
   ],
   "note": "truthful, tells and the lists of macros are in Spec_Build.v. C49_byte_order_iff also says that a big-endian machine without any of these macros gets the wrong order."
  },
  {
   "property": "C50",
   "status": "proved",
   "theorems": [
    "C50_plain_compression"
   ],
   "note": ""
  },
  {
   "property": "C51",
   "status": "partial",
   "theorems": [
    "C51_other_test_steps_partial",
    "C51_step5_refuted",
    "C51_default_macros"
   ],
   "note": "False for steps 0 to 9: the states are recorded under DOSTORESTATE00 to DOSTORESTATE09, the recompression is enabled by DOSTORESTATE0 to DOSTORESTATE9 (C51_step5_refuted: the recompression starts from a state that was never recorded). Steps 10 to 79 are proved for every macro set; the default build only uses 58 and 65 (C51_default_macros)."
  },
  {
   "property": "C52",
   "status": "partial",
   "theorems": [
    "C52_detection_off_refuted",
    "C52_panic_refuted",
    "C52_unflagged_partial",
    "C52_any_table_partial",
    "C52_initial_table",
    "C52_program_off_refuted",
    "C52_program_verdict_partial",
    "C52_program_sum_partial",
    "C52_program_plain_partial",
    "C52_program_total_partial",
    "C52_program_calls"
   ],
   "note": "False: SHA1_dvs returns the slice of the package variable; storing a row of type 0 at index 0 switches detection off (C52_detection_off_refuted, witness SHAmbles block), for every program and message (C52_program_off_refuted); storing a bad test step makes block panic (C52_panic_refuted). Proved for every contents: unflagged blocks are hashed with SHA-1, and with a terminator and known test steps the block function is total and hashes safely under some detection predicate. Proved for every program that mixes calls and stores: digests are SHA-1 with some blocks compressed three times, the verdict says whether there are any, a verdict false means plain SHA-1; no panic while the stored rows stay below the terminator and use a stored state."
  },
  {
   "property": "C53",
   "status": "proved",
   "theorems": [
    "C53_collision_is_block_collision",
    "C53_distinct_digests",
    "C53_undetected_collision",
    "C53_c_collision",
    "C53_c_plain_collision"
   ],
   "note": "Merkle-Damgard with the padding of the code, for the Go package (any history, any block implementation) and for the C library under any options. Example for the C library: the SHAmbles files with safe hash off."
  },
  {
   "property": "C54",
   "status": "proved",
   "theorems": [
    "C54_amd64_registers",
    "C54_arm64_registers"
   ],
   "note": "For every machine state. amd64: only the registers that the listing names are modelled; BP is saved by the assembler's frame prologue, which is not modelled."
  },
  {
   "property": "C55",
   "status": "proved",
   "theorems": [
    "C55_amd64_trace",
    "C55_arm64_trace",
    "C55_amd64_accesses",
    "C55_arm64_accesses",
    "C55_amd64_path",
    "C55_arm64_path"
   ],
   "note": "Relational argument over the listings; the instrumentation of the machines (Model_Trace.v) is shown to list every access."
  },
  {
   "property": "C56",
   "status": "proved",
   "theorems": [
    "C56_erasure",
    "C56_c_erasure",
    "C56_go_work",
    "C56_c_work"
   ],
   "note": "The block functions with counters; erasing the counters gives the functions that all other theorems are about (C56_erasure, C56_c_erasure)."
  },
  {
   "property": "C57",
   "status": "partial",
   "theorems": [
    "C57_implements_partial",
    "C57_interface",
    "C57_no_other_methods",
    "C57_declared_once",
    "C57_checkpointing_refuted"
   ],
   "note": "False for checkpointing: with cgo the hasher of package cgo has neither MarshalBinary nor UnmarshalBinary, without cgo it has both (C57_checkpointing_refuted). Proved for hash.Hash and CollisionResistantHash, and for package sha1cd in full."
  },
  {
   "property": "C58",
   "status": "partial",
   "theorems": [
    "C58_dropin_partial",
    "C58_sum_refuted",
    "C58_no_readme_call"
   ],
   "note": "False for Sum: crypto/sha1 returns the array, sha1cd the array and the verdict, in every build (C58_sum_refuted), and neither usage example of README.md compiles (C58_no_readme_call). Proved for New and the constants."
  },
  {
   "property": "C59",
   "status": "partial",
   "theorems": [
    "C59_changed_partial",
    "C59_changed_refuted"
   ],
   "note": "Proved in one direction: a digest that differs comes with verdict true and a block that meets the conditions. The other direction is false: ten letters a, padded, meet the conditions of I(46,2) and hash to their SHA-1 (C59_changed_refuted)."
  },
  {
   "property": "C60",
   "status": "partial",
   "theorems": [
    "C60_amd64_blocks_partial",
    "C60_amd64_empty",
    "C60_amd64_rest_refuted",
    "C60_arm64_blocks_refuted",
    "C60_arm64_first_block",
    "C60_arm64_nothing"
   ],
   "note": "amd64: proved for every whole number of blocks; false with a rest (fault after 64 of 65 bytes, C60_amd64_rest_refuted). arm64: false for two blocks (C60_arm64_blocks_refuted), only the first block is hashed (C60_arm64_first_block). The Go code passes one block at a time (C20, C35)."
  },
  {
   "property": "C61",
   "status": "proved",
   "theorems": [
    "C61_amd64_concurrent",
    "C61_arm64_concurrent",
    "C61_amd64_buffered",
    "C61_arm64_buffered"
   ],
   "note": "One block per call, as block() calls the routines; arm64 under the condition of C35 on R16. C61_*_concurrent: stores are visible at once. C61_*_buffered: every call has a store buffer that it sees itself; its bytes arrive in memory in any order (per address in the order of the stores), which is weaker than x86 and covers the reordering of stores on arm64. Loads are executed in program order; as no byte that one call writes is accessed by another, their order cannot be observed. C61_test_race shows two calls on one hasher losing an update."
  },
  {
   "property": "C62",
   "status": "partial",
   "theorems": [
    "C62_c_update",
    "C62_c_constant",
    "C62_go_constant",
    "C62_go_readings",
    "C62_go_one_refuted",
    "C62_go_one_partial",
    "C62_go_session_partial"
   ],
   "note": "True of the C code (C62_c_update): it reads each byte once and works on its copy from then on. False of the Go code (C62_go_one_refuted, for every implementation of block): a flagged block is read from p three times, so with a byte overwritten in between the digest is that of no string. Proved of the Go code for all inputs: it never panics; each block is read once, and twice more if the first reading is flagged, and the result is that of those readings (C62_go_readings); the verdict of a call is that of the first readings, and an unflagged result is that of one string (C62_go_one_partial); the same for any sequence of Writes followed by CollisionResistantSum: a verdict false means SHA-1 of bytes that were all there at some time (C62_go_session_partial). In the assembly builds the input changes between the calls of the routine, not during one; a byte (Go) or a word (C) is read in one access, as written in the source."
  },
  {
   "property": "C63",
   "status": "proved",
   "theorems": [
    "C63_ubc_check",
    "C63_bits",
    "C63_process",
    "C63_api",
    "C63_narrow"
   ],
   "note": "C63_ubc_check, C63_bits: the bit-condition program and the initialisers. C63_process: one block. C63_api: any list of calls, in the terms of C41. C63_narrow: the widths 33 to 62. Untyped as before: the 64-bit counter, sizes, and the int members of the context, which are only tested against 0."
  },
  {
   "property": "C64",
   "status": "proved",
   "theorems": [
    "C64_buffer",
    "C64_memory",
    "C64_undefined_iff",
    "C64_x86"
   ],
   "note": "C64_buffer: layout. C64_memory: defined and right. C64_undefined_iff: the exact condition for undefined behaviour. C64_x86: one block, any x86 build. Effective types (strict aliasing) are not modelled; under them reading the unsigned char array ctx->buffer of a declared SHA1_CTX as uint32_t is already undefined."
  },
  {
   "property": "C65",
   "status": "partial",
   "theorems": [
    "C65_observers",
    "C65_digests",
    "C65_writer",
    "C65_ends",
    "C65_sum_refuted",
    "C65_marshal_refuted",
    "C65_writes_refuted"
   ],
   "note": "Proved for any number of observers, and for one goroutine of any kind next to observers. False for an observer next to a Write and for two Writes (_refuted theorems). Sequentially consistent memory; block stores at its end."
  },
  {
   "property": "C66",
   "status": "partial",
   "theorems": [
    "C66_observers",
    "C66_digests",
    "C66_writer",
    "C66_safe",
    "C66_ends",
    "C66_sum_refuted",
    "C66_writes_refuted"
   ],
   "note": "The safety claims hold for every interleaving; that the copy avoids the race is refuted. Arrays other than buffer are accessed as a whole, sha1_process stores its results at its end, the memory is sequentially consistent."
  },
  {
   "property": "C67",
   "status": "partial",
   "theorems": [
    "C67_sound",
    "C67_writes",
    "C67_chars",
    "C67_declared",
    "C67_final",
    "C67_session_refuted",
    "C67_padding",
    "C67_mixed"
   ],
   "note": "False as a property of whole sessions: C67_final, C67_session_refuted (SHA1DCFinal). Proved: writes from Go memory are defined and have the values of Model_C.v; exact conditions for arrays of characters and for contexts declared in C; C67_padding: other padding would suffice; C67_mixed: the exact condition for any mixture of effective types on memory that C has not declared."
  },
  {
   "property": "C68",
   "status": "proved",
   "theorems": [
    "C68_adaptive",
    "C68_hex",
    "C68_golden",
    "C68_golden_sha1",
    "C68_marshal",
    "C68_large",
    "C68_detection",
    "C68_fuzz",
    "C68_fuzz_no_58",
    "C68_fixed"
   ],
   "note": "run_test on the store of both packages; TestRectifyCompressionState and the data of the tables only as conformance runs in Examples_Vectors.v and Examples_Tests.v."
  },
  {
   "property": "C69",
   "status": "partial",
   "theorems": [
    "C69_content",
    "C69_collision_refuted",
    "C69_size",
    "C69_allocations",
    "C69_too_small"
   ],
   "note": "C69_collision_refuted: the benchmark of collisions does not measure one from the second iteration on. Allocation is that of arrays of slices; local variables that the compiler may move to the heap are not modelled."
  },
  {
   "property": "C70",
   "status": "proved",
   "theorems": [
    "C70_forgery",
    "C70_continuation"
   ],
   "note": "C70_forgery, C70_continuation: UnmarshalBinary accepts a state built from a digest, and the continuation is that of the message with its padding."
  },
  {
   "property": "C71",
   "status": "proved",
   "theorems": [
    "C71_update",
    "C71_final",
    "C71_moved",
    "C71_callback"
   ],
   "note": "C71_update, C71_final, C71_moved for calls at any addresses, C71_callback for the pointer in the context."
  },
  {
   "property": "C72",
   "status": "proved",
   "theorems": [
    "C72_defined",
    "C72_exact"
   ],
   "note": "ubc_check, the computation of m2 and sha1_compression_W are taken to read all 80 words of m1, which is no less than they do. The five words of an ihv or a state are written and read together."
  },
  {
   "property": "C73",
   "status": "proved",
   "theorems": [
    "C73_erase",
    "C73_exact",
    "C73_chaining",
    "C73_verdicts",
    "C73_conditions",
    "C73_message_refuted",
    "C73_collision_refuted",
    "C73_bounds",
    "C73_reads"
   ],
   "note": "The parts called refuted are the two negative ones of the statement: with witnesses, that the code is not constant-time in the message and that the exclusion of reported collisions is needed. Source level: branches and indices of the Go text, not what the compiler makes of them, nor caches or the time of single instructions. The assembly implementations are the subject of C74."
  },
  {
   "property": "C74",
   "status": "proved",
   "theorems": [
    "C74_amd64_erase",
    "C74_arm64_erase",
    "C74_amd64",
    "C74_arm64",
    "C74_generic",
    "C74_session_erase",
    "C74_amd64_session",
    "C74_arm64_session",
    "C74_builds",
    "C74_flag"
   ],
   "note": "C74_amd64, C74_arm64, with C74_generic for comparison; C74_amd64_session, C74_arm64_session and C74_builds for whole sessions (the sessions of C73); C74_flag. In a session every call of block finds the same sequence of machine states. Not modelled: caches, the time of single instructions, what the compiler makes of the Go side."
  },
  {
   "property": "C75",
   "status": "proved",
   "theorems": [
    "C75_nil",
    "C75_panic",
    "C75_steps",
    "C75_words",
    "C75_model",
    "C75_test"
   ],
   "note": "A pointer is nil or the array pointed to."
  }
 ]
}