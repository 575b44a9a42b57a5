{
"C09": [
"partial",
"False as stated: MarshalBinary drops the collision flag and UnmarshalBinary keeps the destination's flag (two refutations with the SHAmbles file). Proved when source and destination have equal flags at the checkpoint."
],
"C14": [
"partial",
"Proved in full for vectors with test step 65. For test step 58 hasCollided rotates the working variables in the skipped steps (C40), so the reported sibling is the one of the rotated state."
],
"C15": [
"partial",
"Proved for vectors with test step 65. For test step 58 C15_missed_58 characterises exactly when the sibling test of that vector fires: only if the middle state has five equal words. A concrete message would need a new SHA-1 near-collision attack."
],
"C16": [
"partial",
"Proved for vectors with test step 65; see C15 for 58."
],
"C18": [
"proved",
"For the evaluation order of the gc compiler (call before field read). The Go specification leaves the order in 'return d.checkSum(), d.col' open; C18_oneshot_early_partial says what holds for the other order."
],
"C40": [
"partial",
"Refuted for test step 58 (witness), proved for 65, and C40_sibling_test_58_exact says what the code computes for 58."
],
"C20": [
"proved",
"For any memory layout with the buffers apart, any register, flag and frame contents at entry and any stack alignment, fresh for each call of the routine."
],
"C21": [
"partial",
"Proved when the two detection predicates agree on the blocks reached (C21_agree_partial), in particular for every message none of whose blocks satisfies the bit conditions of a vector with test step 58 (C21_no_58_partial). Missing: blocks that do, where the Go code tests a rotated state (C40); a counterexample message would need a SHA-1 near-collision along such a vector."
],
"C26": [
"proved",
"For arm64 the state is recovered whenever the routine runs at all (R16 + 64 does not wrap, see C35)."
],
"C31": [
"partial",
"Any mixture of generic, amd64 and arm64 per call, the arm64 calls under the R16 condition of C35; without it the statement is false by C35_arm64_uninitialised_refuted."
],
"C35": [
"partial",
"False as stated: the routine reads R16, which it never sets; if R16 >= 2^64-64 the block is silently skipped (witness, and C35_arm64_skip for all inputs). Proved for every other value of R16."
],
"C36": [
"proved",
"One 64-byte chunk per call, as block() calls the routines; arm64 for any R16. Stated twice: the run does not fault and changes nothing else, and every access of every instruction reached lies in the ranges of Spec_Asm.v."
],
"C38": [
"proved",
"Includes that safe hash does not change the verdict (C38_monotone in both directions)."
],
"C30": [
"proved",
"For builds whose byte order macro is right (C44)."
],
"C43": [
"proved",
"The header's promise that the callback is called is not kept by the code; the property states what the code does."
],
"C45": [
"proved",
"Block implementations as in C20 and C31 (Generic, Amd64, and Arm64 where R16 permits)."
],
"C46": [
"partial",
"False for GOARCH amd64 or arm64 with gccgo (tag gc not set) and without noasm: no file declares block (C46_gccgo_refuted, witness linux/amd64 with gccgo). C46_block_definitions_partial gives the exact condition; uniqueness, bodies and agreement of the constraint lines hold for all tag sets."
],
"C47": [
"partial",
"False for CalculateDvMask (array by value with cgo, pointer without) and for the constants Size and BlockSize, which exist with cgo only (C47_api_refuted). New and Sum have the same signatures, and every function is declared once (proved)."
],
"C48": [
"partial",
"False on a CPU that has SSE3, SSE4.1, AVX and SHA but not SSSE3: PSHUFB faults, and hasSHANI does not test for it (C48_ssse3_refuted). No such CPU is known; with SSE4.1 implying SSSE3 the amd64 part is proved. The arm64 part has the premise on R16 of C31/C35. Which extension an instruction needs is taken from the Intel and Arm manuals by mnemonic. C48_amd64_faults_partial says exactly when block faults, so the missing case is the only one; C48_*_needs_partial give the extensions the routines cannot do without."
],
"C49": [
"proved",
"truthful, tells and the lists of macros are in Spec_Build.v. C49_byte_order_iff also says that a big-endian machine without any of these macros gets the wrong order."
],
"C50": [
"proved",
""
],
"C51": [
"partial",
"False for steps 0 to 9: the states are recorded under DOSTORESTATE00 to DOSTORESTATE09, the recompression is enabled by DOSTORESTATE0 to DOSTORESTATE9 (C51_step5_refuted: the recompression starts from a state that was never recorded). Steps 10 to 79 are proved for every macro set; the default build only uses 58 and 65 (C51_default_macros)."
],
"C52": [
"partial",
"False: SHA1_dvs returns the slice of the package variable; storing a row of type 0 at index 0 switches detection off (C52_detection_off_refuted, witness SHAmbles block), for every program and message (C52_program_off_refuted); storing a bad test step makes block panic (C52_panic_refuted). Proved for every contents: unflagged blocks are hashed with SHA-1, and with a terminator and known test steps the block function is total and hashes safely under some detection predicate. Proved for every program that mixes calls and stores: digests are SHA-1 with some blocks compressed three times, the verdict says whether there are any, a verdict false means plain SHA-1; no panic while the stored rows stay below the terminator and use a stored state."
],
"C53": [
"proved",
"Merkle-Damgard with the padding of the code, for the Go package (any history, any block implementation) and for the C library under any options. Example for the C library: the SHAmbles files with safe hash off."
],
"C54": [
"proved",
"For every machine state. amd64: only the registers that the listing names are modelled; BP is saved by the assembler's frame prologue, which is not modelled."
],
"C55": [
"proved",
"Relational argument over the listings; the instrumentation of the machines (Model_Trace.v) is shown to list every access."
],
"C56": [
"proved",
"The block functions with counters; erasing the counters gives the functions that all other theorems are about (C56_erasure, C56_c_erasure)."
],
"C57": [
"partial",
"False for checkpointing: with cgo the hasher of package cgo has neither MarshalBinary nor UnmarshalBinary, without cgo it has both (C57_checkpointing_refuted). Proved for hash.Hash and CollisionResistantHash, and for package sha1cd in full."
],
"C58": [
"partial",
"False for Sum: crypto/sha1 returns the array, sha1cd the array and the verdict, in every build (C58_sum_refuted), and neither usage example of README.md compiles (C58_no_readme_call). Proved for New and the constants."
],
"C59": [
"partial",
"Proved in one direction: a digest that differs comes with verdict true and a block that meets the conditions. The other direction is false: ten letters a, padded, meet the conditions of I(46,2) and hash to their SHA-1 (C59_changed_refuted)."
],
"C60": [
"partial",
"amd64: proved for every whole number of blocks; false with a rest (fault after 64 of 65 bytes, C60_amd64_rest_refuted). arm64: false for two blocks (C60_arm64_blocks_refuted), only the first block is hashed (C60_arm64_first_block). The Go code passes one block at a time (C20, C35)."
],
"C61": [
"proved",
"One block per call, as block() calls the routines; arm64 under the condition of C35 on R16. C61_*_concurrent: stores are visible at once. C61_*_buffered: every call has a store buffer that it sees itself; its bytes arrive in memory in any order (per address in the order of the stores), which is weaker than x86 and covers the reordering of stores on arm64. Loads are executed in program order; as no byte that one call writes is accessed by another, their order cannot be observed. C61_test_race shows two calls on one hasher losing an update."
],
"C62": [
"partial",
"True of the C code (C62_c_update): it reads each byte once and works on its copy from then on. False of the Go code (C62_go_one_refuted, for every implementation of block): a flagged block is read from p three times, so with a byte overwritten in between the digest is that of no string. Proved of the Go code for all inputs: it never panics; each block is read once, and twice more if the first reading is flagged, and the result is that of those readings (C62_go_readings); the verdict of a call is that of the first readings, and an unflagged result is that of one string (C62_go_one_partial); the same for any sequence of Writes followed by CollisionResistantSum: a verdict false means SHA-1 of bytes that were all there at some time (C62_go_session_partial). In the assembly builds the input changes between the calls of the routine, not during one; a byte (Go) or a word (C) is read in one access, as written in the source."
],
"C63": [
"proved",
"C63_ubc_check, C63_bits: the bit-condition program and the initialisers. C63_process: one block. C63_api: any list of calls, in the terms of C41. C63_narrow: the widths 33 to 62. Untyped as before: the 64-bit counter, sizes, and the int members of the context, which are only tested against 0."
],
"C64": [
"proved",
"C64_buffer: layout. C64_memory: defined and right. C64_undefined_iff: the exact condition for undefined behaviour. C64_x86: one block, any x86 build. Effective types (strict aliasing) are not modelled; under them reading the unsigned char array ctx->buffer of a declared SHA1_CTX as uint32_t is already undefined."
],
"C65": [
"partial",
"Proved for any number of observers, and for one goroutine of any kind next to observers. False for an observer next to a Write and for two Writes (_refuted theorems). Sequentially consistent memory; block stores at its end."
],
"C66": [
"partial",
"The safety claims hold for every interleaving; that the copy avoids the race is refuted. Arrays other than buffer are accessed as a whole, sha1_process stores its results at its end, the memory is sequentially consistent."
],
"C67": [
"partial",
"False as a property of whole sessions: C67_final, C67_session_refuted (SHA1DCFinal). Proved: writes from Go memory are defined and have the values of Model_C.v; exact conditions for arrays of characters and for contexts declared in C; C67_padding: other padding would suffice; C67_mixed: the exact condition for any mixture of effective types on memory that C has not declared."
],
"C68": [
"proved",
"run_test on the store of both packages; TestRectifyCompressionState and the data of the tables only as conformance runs in Examples_Vectors.v and Examples_Tests.v."
],
"C69": [
"partial",
"C69_collision_refuted: the benchmark of collisions does not measure one from the second iteration on. Allocation is that of arrays of slices; local variables that the compiler may move to the heap are not modelled."
],
"C70": [
"proved",
"C70_forgery, C70_continuation: UnmarshalBinary accepts a state built from a digest, and the continuation is that of the message with its padding."
],
"C71": [
"proved",
"C71_update, C71_final, C71_moved for calls at any addresses, C71_callback for the pointer in the context."
],
"C72": [
"proved",
"ubc_check, the computation of m2 and sha1_compression_W are taken to read all 80 words of m1, which is no less than they do. The five words of an ihv or a state are written and read together."
],
"C73": [
"proved",
"The parts called refuted are the two negative ones of the statement: with witnesses, that the code is not constant-time in the message and that the exclusion of reported collisions is needed. Source level: branches and indices of the Go text, not what the compiler makes of them, nor caches or the time of single instructions. The assembly implementations are the subject of C74."
],
"C74": [
"proved",
"C74_amd64, C74_arm64, with C74_generic for comparison; C74_amd64_session, C74_arm64_session and C74_builds for whole sessions (the sessions of C73); C74_flag. In a session every call of block finds the same sequence of machine states. Not modelled: caches, the time of single instructions, what the compiler makes of the Go side."
],
"C75": [
"proved",
"A pointer is nil or the array pointed to."
]
}