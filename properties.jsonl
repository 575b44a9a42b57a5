{"id": "C01", "title": "An unflagged digest is exactly SHA-1", "statement": "Hash a message m with New, any sequence of Write calls whose concatenation is m, and then CollisionResistantSum or Sum. If no collision is reported, the 20 bytes are the FIPS 180-4 SHA-1 digest of m (for messages whose bit length is below 2^64).", "quantifier": "all byte strings m with 8*|m| < 2^64, all ways of splitting m into Write calls, every block implementation (generic, amd64 assembly, arm64 assembly)", "why_tests_cant": "Golden vectors cover a few dozen short strings; the input space is infinite and padding, ring-buffer scheduling and chunk boundaries interact.", "anchors": ["sha1cd.go: New, Write, Sum, CollisionResistantSum, checkSum", "sha1cdblock_generic.go: blockGeneric"]}
{"id": "C02", "title": "Exact digest and verdict for every input", "statement": "For every input the digest and the verdict equal a small reference: pad as in FIPS 180-4 with the bit length taken mod 2^64, fold the compression function over the blocks, compress a block three times instead of once when the block is detected, and report the OR of the detections.", "quantifier": "all byte strings, all splits, all implementations", "why_tests_cant": "Only four flagged inputs are in the test data; the safe-hash path (three compressions) is otherwise unexecuted.", "anchors": ["sha1cd.go: Write, checkSum", "sha1cdblock_generic.go: blockGeneric", "sha1cdblock_amd64.go: block", "sha1cdblock_arm64.go: block"]}
{"id": "C03", "title": "Chunking independence", "statement": "Two sequences of Write calls with the same concatenation leave hashers that return the same digest, the same verdict and the same MarshalBinary blob.", "quantifier": "all pairs of lists of byte strings with equal concatenation, empty writes included; the block implementation may even differ between the calls", "why_tests_cant": "The number of ways to split grows exponentially with message length; TestSum-style tests try three.", "anchors": ["sha1cd.go: Write"]}
{"id": "C04", "title": "Sum and CollisionResistantSum are pure observers", "statement": "Calling Sum, CollisionResistantSum or MarshalBinary any number of times, between any Writes, changes no later output of that hasher.", "quantifier": "all histories of calls on a hasher and all insertions of observer calls", "why_tests_cant": "Needs a comparison of two arbitrary interleavings, not of one.", "anchors": ["sha1cd.go: Sum, CollisionResistantSum, MarshalBinary"]}
{"id": "C05", "title": "Reset is New", "statement": "After Reset a hasher is observationally identical to New(): all later digests, verdicts, blobs agree, whatever happened before, including a detected collision and stale buffer bytes.", "quantifier": "all histories before the Reset, all histories after it", "why_tests_cant": "Reset does not clear the block buffer, so the claim depends on no later read ever seeing stale bytes.", "anchors": ["sha1cd.go: Reset, New"]}
{"id": "C06", "title": "Write never fails and no call panics", "statement": "From New, through any sequence of Write, Reset, Sum, CollisionResistantSum, MarshalBinary and UnmarshalBinary calls, no call panics (neither the explicit d.nx != 0 and step panics nor an index or slice bound) and every Write returns (len(p), nil).", "quantifier": "all histories with arbitrary byte arguments, arbitrary (also hostile) blobs given to UnmarshalBinary included", "why_tests_cant": "Absence of panics is a statement about all reachable states; buffer index arithmetic depends on the running length mod 64.", "anchors": ["sha1cd.go: Write, checkSum, UnmarshalBinary", "sha1cdblock_generic.go: checkCollision, blockGeneric, hasCollided"]}
{"id": "C07", "title": "Sum appends", "statement": "Sum(in) returns in followed by exactly 20 digest bytes; it never changes a byte of in[:len(in)], only bytes in the spare capacity of in; when the capacity is too small the original array is not touched at all.", "quantifier": "all slices (arbitrary backing array, offset, length, capacity) and all hasher states", "why_tests_cant": "Go slice aliasing through spare capacity is invisible to value-comparing tests.", "anchors": ["sha1cd.go: Sum, CollisionResistantSum"]}
{"id": "C08", "title": "Checkpointing preserves the digest of an unflagged stream", "statement": "Marshal a hasher after prefix p, unmarshal the blob into any other hasher value, then write s: the digest equals that of a hasher that received p and then s directly.", "quantifier": "all p, s, all destination hasher states, all implementations", "why_tests_cant": "TestGoldenMarshal only splits at the middle of short golden strings and only into a fresh hasher.", "anchors": ["sha1cd.go: MarshalBinary, UnmarshalBinary"]}
{"id": "C09", "title": "Checkpointing preserves the collision verdict", "statement": "Marshal a hasher after prefix p, unmarshal the blob into a hasher, write s: CollisionResistantSum reports the same verdict as a hasher that received p and s directly.", "quantifier": "all p, s, all destination hasher states", "why_tests_cant": "The verdict bit is absent from the encoding; a test needs a message with a real collision block in the prefix, and no test checkpoints one.", "anchors": ["sha1cd.go: MarshalBinary, UnmarshalBinary"]}
{"id": "C10", "title": "UnmarshalBinary accepts exactly the well-formed blobs", "statement": "UnmarshalBinary returns an error exactly when the argument is not a 98-byte string beginning with the 6-byte magic; the error distinguishes the two causes; on error the hasher is unchanged.", "quantifier": "all byte strings, all hasher states", "why_tests_cant": "The input space is unbounded; tests never feed a malformed blob.", "anchors": ["sha1cd.go: UnmarshalBinary", "internal/const.go: Magic, MarshaledSize"]}
{"id": "C11", "title": "MarshalBinary is canonical", "statement": "MarshalBinary always succeeds with exactly 98 bytes, and the blob is a function of the bytes written since the last Reset only: no stale buffer content, no dependence on chunking, on observer calls or on the block implementation.", "quantifier": "all histories of calls", "why_tests_cant": "Information leakage from the stale part of the buffer shows up only after particular write patterns.", "anchors": ["sha1cd.go: MarshalBinary"]}
{"id": "C12", "title": "A hostile checkpoint cannot break the hasher", "statement": "After UnmarshalBinary accepts any blob whatsoever, all later calls succeed without panic and the hasher behaves as a hash with initial chaining value, buffered bytes and length read from the blob.", "quantifier": "all 98-byte strings beginning with the magic, all later histories", "why_tests_cant": "2^736 blobs.", "anchors": ["sha1cd.go: UnmarshalBinary, Write, checkSum"]}
{"id": "C13", "title": "Re-encoding a checkpoint", "statement": "Unmarshalling a blob produced by MarshalBinary and marshalling again returns the same blob; for an arbitrary accepted blob the result differs from it at most in the unused buffer bytes, which become zero, and a second round trip changes nothing.", "quantifier": "all accepted blobs and all destination hashers", "why_tests_cant": "Exhaustive checking is impossible; tests compare a single blob per golden vector.", "anchors": ["sha1cd.go: MarshalBinary, UnmarshalBinary"]}
{"id": "C14", "title": "A reported collision is real", "statement": "If CollisionResistantSum reports a collision then some block of the padded stream satisfies the unavoidable bit conditions of one of the 32 published disturbance vectors and has a sibling: a chaining value and a block differing by that vector's message difference that compress to the same value.", "quantifier": "all messages, all splits, all implementations", "why_tests_cant": "A false alarm has probability about 2^-155 per block on random input; no test can meet one.", "anchors": ["sha1cdblock_generic.go: checkCollision, hasCollided", "ubc/ubc.go: CalculateDvMask"]}
{"id": "C15", "title": "Every sibling collision in the tested classes is reported", "statement": "If some block of the padded stream satisfies the bit conditions of a disturbance vector and has a sibling through the middle state at the test step of that vector, CollisionResistantSum reports a collision.", "quantifier": "all messages, all 32 disturbance vectors, all splits, all implementations", "why_tests_cant": "Only messages colliding along II(52,0) are publicly known; the other 31 vectors, 18 of them with the other test step, are never exercised by a positive test.", "anchors": ["sha1cdblock_generic.go: hasCollided, checkCollision, rectifyCompressionState", "ubc/const.go: SHA1_dvs"]}
{"id": "C16", "title": "Both members of a collision pair are detected", "statement": "If a block is detected through a disturbance vector, then its sibling block, processed from its sibling chaining value, is detected as well.", "quantifier": "all pairs of (chaining value, block) related by a disturbance vector", "why_tests_cant": "Needs colliding pairs; one pair per known attack exists.", "anchors": ["sha1cdblock_generic.go: hasCollided", "ubc/ubc.go: CalculateDvMask"]}
{"id": "C17", "title": "The verdict is sticky", "statement": "Once a collision has been detected, every later CollisionResistantSum on that hasher reports one until Reset, whatever is written or unmarshalled in between.", "quantifier": "all histories", "why_tests_cant": "Requires all continuations of a flagged stream.", "anchors": ["sha1cd.go: Write, Reset, UnmarshalBinary, CollisionResistantSum"]}
{"id": "C18", "title": "One-shot Sum agrees with streaming", "statement": "Package-level Sum(data) returns the digest and the verdict of New, Write(data), CollisionResistantSum(nil).", "quantifier": "all byte strings", "why_tests_cant": "The verdict operand is read in the same return statement as the call that may set it; a test would need a message whose padding block collides.", "anchors": ["sha1cd.go: Sum"]}
{"id": "C19", "title": "A detected block is compressed three times", "statement": "A block that is detected contributes three applications of the SHA-1 compression function to the chaining value, an undetected one exactly one; the data after a detected block is processed from that strengthened state.", "quantifier": "all chaining values and blocks, all implementations", "why_tests_cant": "Known positives only exercise a single block position per file.", "anchors": ["sha1cdblock_generic.go: blockGeneric", "sha1cdblock_amd64.go: block", "sha1cdblock_arm64.go: block"]}
{"id": "C20", "title": "amd64 assembly computes the same as the generic code", "statement": "For every state and input the amd64 path (SHA-NI block routine, rectification, collision check, two extra runs) leaves the hasher in the state the generic code would.", "quantifier": "all chaining values, all inputs of any number of blocks, all stack alignments, arbitrary initial contents of registers, scratch arrays and frame", "why_tests_cant": "The assembly is straight-line code over 128-bit registers; fuzzing compares a vanishing part of 2^672 inputs and needs the hardware.", "anchors": ["sha1cdblock_amd64.s: blockAMD64", "sha1cdblock_amd64.go: block"]}
{"id": "C21", "title": "Go and cgo implementations agree", "statement": "For every byte string and split, the Go package and the cgo package return the same digest and verdict.", "quantifier": "all messages, all splits", "why_tests_cant": "FuzzDeviation compares random inputs, which practically never satisfy a disturbance vector.", "anchors": ["sha1cd.go: Sum, CollisionResistantSum", "cgo/sha1.go: Sum, CollisionResistantSum", "cgo/sha1.c: SHA1DCUpdate, SHA1DCFinal, sha1_process"]}
{"id": "C22", "title": "CalculateDvMask computes the published bit conditions", "statement": "Bit d of CalculateDvMask(W) is set exactly when every unavoidable bit condition of disturbance vector d holds in W; the cgo variant returns the same value.", "quantifier": "all 2^2560 values of W", "why_tests_cant": "Tests check a handful of W; each of some 370 conditions is a separate expression with its own shifts.", "anchors": ["ubc/ubc.go: CalculateDvMask", "cgo/ubc_check.go: CalculateDvMask", "cgo/ubc_check.c: ubc_check"]}
{"id": "C23", "title": "CalculateDvMask is total", "statement": "CalculateDvMask(nil) is 0, and for a non-nil argument the result is a 32-bit value that depends only on the words 35 to 64 of W that the conditions mention.", "quantifier": "all pointers", "why_tests_cant": "Independence of the other words is a statement about pairs of inputs.", "anchors": ["ubc/ubc.go: CalculateDvMask"]}
{"id": "C24", "title": "The disturbance vector table is Manuel's", "statement": "For each of the 32 entries, the 80 difference words are the message differences generated from the vector of type I or II with the stated K and b by the SHA-1 expansion and the local-collision pattern; they satisfy the message expansion; the test step lies in the disturbance-free window; MaskB is the bit CalculateDvMask uses for that vector.", "quantifier": "all 32 entries, all 80 words, all messages (xor-ing a block with the first 16 words shifts its whole schedule by the difference)", "why_tests_cant": "2560 constants copied by hand; a single wrong nibble silently disables one attack class.", "anchors": ["ubc/const.go: SHA1_dvs, DvInfo"]}
{"id": "C25", "title": "Go and C tables are the same", "statement": "The table returned by SHA1_dvs and the table in the C library have equal entries in equal order, terminator included.", "quantifier": "all entries and words", "why_tests_cant": "No test reads the C table.", "anchors": ["ubc/const.go", "cgo/ubc_check.c: sha1_dvs"]}
{"id": "C26", "title": "Intermediate states are recovered", "statement": "The assembly stores the working states before steps 56 and 64 (with the fifth word in the form the SHA instructions keep it); after rectification the stored states are the SHA-1 working states before steps 58 and 65, as in the generic code.", "quantifier": "all chaining values and blocks", "why_tests_cant": "The intermediate states are not observable in the public API unless a collision block occurs.", "anchors": ["sha1cdblock_generic.go: rectifyCompressionState", "sha1cdblock_amd64.s: LOADCS", "sha1cdblock_arm64.s"]}
{"id": "C27", "title": "Bit conditions are symmetric under the difference", "statement": "A schedule satisfies the bit conditions of a vector if and only if the schedule xored with the difference of that vector does.", "quantifier": "all W, all 32 vectors", "why_tests_cant": "Symmetry over all schedules.", "anchors": ["ubc/ubc.go: CalculateDvMask", "ubc/const.go"]}
{"id": "C28", "title": "Filtering never changes the verdict of unconditioned blocks", "statement": "A block whose schedule has mask 0 is never flagged and costs no change of the digest; flagging depends only on the chaining value and the block, not on the position, the earlier data or the flag.", "quantifier": "all states and blocks", "why_tests_cant": "Needs equality of behaviour over all histories.", "anchors": ["sha1cdblock_generic.go: checkCollision"]}
{"id": "C29", "title": "Advertised sizes", "statement": "Size() is 20 and BlockSize() is 64, and these are the actual lengths: digests have 20 bytes, and no data is compressed before a multiple of 64 bytes has been written.", "quantifier": "all histories", "why_tests_cant": "Simple constants, but the second half is a statement over all writes.", "anchors": ["sha1cd.go: Size, BlockSize"]}
{"id": "C30", "title": "cgo hasher: chunking independence, pure observers, reset", "statement": "The cgo hasher returns the same digest and verdict for any split of the message, Sum and CollisionResistantSum do not disturb it, Reset makes it New, and Write returns (len, nil); Sum(nil) has 20 bytes.", "quantifier": "all histories of the cgo hasher, little and big endian, aligned and unaligned code paths", "why_tests_cant": "The C buffer arithmetic (left, fill) is exercised by a few splits only.", "anchors": ["cgo/sha1.go", "cgo/sha1.c: SHA1DCInit, SHA1DCUpdate, SHA1DCFinal"]}
{"id": "C31", "title": "Switching implementation midway is unobservable", "statement": "Any interleaving of generic, amd64 and arm64 block processing for the successive Writes of one hasher gives the same digests, verdicts and blobs; in particular a blob written on one architecture resumes on another.", "quantifier": "all histories with an arbitrary implementation per call", "why_tests_cant": "Cross-architecture runs are not in CI.", "anchors": ["sha1cdblock_amd64.go: block, forceGeneric", "sha1cdblock_arm64.go: block", "sha1cdblock_noasm.go: block"]}
{"id": "C32", "title": "Hashers are independent", "statement": "Operations on one hasher never influence another one; any interleaving of operations on several hashers gives each one the outputs it would have alone, also when one was restored from the blob of another.", "quantifier": "all numbers of hashers, all interleavings", "why_tests_cant": "Interleavings are unbounded.", "anchors": ["sha1cd.go: New, Write, Sum"]}
{"id": "C33", "title": "Caller's buffers are neither kept nor modified", "statement": "Write leaves p unchanged and later changes of p by the caller, or use of a buffer returned by Sum or MarshalBinary, do not influence the hasher.", "quantifier": "all heaps, slices and histories with arbitrary mutation of caller memory between calls", "why_tests_cant": "Aliasing bugs show only under specific mutation patterns.", "anchors": ["sha1cd.go: Write, Sum, MarshalBinary, UnmarshalBinary"]}
{"id": "C34", "title": "Padding is injective and the length field wraps", "statement": "Below 2^61 bytes different messages have different padded block sequences; the length field is 8*len mod 2^64 and padding ends on a block boundary for every length.", "quantifier": "all pairs of messages", "why_tests_cant": "Lengths near 2^61 cannot be tested.", "anchors": ["sha1cd.go: checkSum"]}
{"id": "C35", "title": "arm64 assembly computes the same as the generic code", "statement": "For every state and input the arm64 path leaves the hasher in the state the generic code would.", "quantifier": "all chaining values, inputs, and initial register contents (R16 included)", "why_tests_cant": "The early exit test reads a register that was never set; its value is whatever the caller left there.", "anchors": ["sha1cdblock_arm64.s: blockARM64", "sha1cdblock_arm64.go: block"]}
{"id": "C36", "title": "Assembly is memory safe", "statement": "The assembly routines read only the block data, state and constants, write only the state, the m1 and cs arrays and their own frame, never access outside these, and the aligned accesses are aligned for every stack pointer.", "quantifier": "all stack pointers and address layouts, all initial registers, frame contents and inputs of one 64-byte chunk (the only length block() passes)", "why_tests_cant": "Out-of-bounds accesses and misalignment depend on the address layout.", "anchors": ["sha1cdblock_amd64.s", "sha1cdblock_arm64.s"]}
{"id": "C37", "title": "C recompression inverts and replays the compression", "statement": "In the C library, the recompression routine for test step 58 or 65, given the working state at that step and the schedule of a block, returns the input chaining value and the output of compressing from there.", "quantifier": "all states, schedules", "why_tests_cant": "80 unrolled steps with hand-rotated variable names, in both directions, for each test step.", "anchors": ["cgo/sha1.c: SHA1_RECOMPRESS, sha1_recompression_step, sha1_compression_states"]}
{"id": "C38", "title": "C options do what they say", "statement": "With detection off the C library computes plain SHA-1 and reports nothing; with safe hash off the digest is plain SHA-1 whatever is detected; switching off the bit-condition filter can only add detections; the reduced-round option can only add detections.", "quantifier": "all messages and option settings", "why_tests_cant": "The setters are not reachable from Go and untested.", "anchors": ["cgo/sha1.c: SHA1DCSetSafeHash, SHA1DCSetUseUBC, SHA1DCSetUseDetectColl, SHA1DCSetDetectReducedRoundCollision, sha1_process"]}
{"id": "C39", "title": "cgo reports every tested sibling collision and only those", "statement": "The cgo hasher reports a collision if and only if some block of its padded stream satisfies the bit conditions of a vector and has a sibling at the test step.", "quantifier": "all messages, all 32 vectors", "why_tests_cant": "As C14 and C15.", "anchors": ["cgo/sha1.c: sha1_process", "cgo/sha1.go"]}
{"id": "C40", "title": "Recompression in Go inverts and replays the compression", "statement": "The Go sibling test for a vector answers true exactly when the sibling execution through the stored middle state ends in the given chaining value, for both test steps 58 and 65.", "quantifier": "all states, schedules and vectors", "why_tests_cant": "Positive tests exist only for test step 65.", "anchors": ["sha1cdblock_generic.go: hasCollided"]}
{"id": "C41", "title": "C API: defined for every call sequence and any initial memory", "statement": "Starting from a SHA1_CTX with arbitrary contents, SHA1DCInit followed by any sequence of option setters, updates, finals and further inits has defined behaviour and returns what an abstract hasher with the same options returns; options take effect for the blocks processed after the call, SHA1DCInit forgets everything, and an update after SHA1DCFinal continues from the padded stream without its length field.", "quantifier": "all contexts, all call sequences, all data, both byte orders, aligned and unaligned code path", "why_tests_cant": "Tests use one fresh zeroed context with default options and never call after Final.", "anchors": ["cgo/sha1.c: SHA1DCInit, SHA1DCSet*, SHA1DCUpdate, SHA1DCFinal, sha1_process", "cgo/sha1.h: SHA1_CTX"]}
{"id": "C42", "title": "C detects both members of a colliding pair", "statement": "In the C library, if a block satisfies the bit conditions of any of the 32 vectors and has a sibling, then the library flags it whatever the filter and reduced-round options are, and it flags the sibling block from the sibling chaining value.", "quantifier": "all blocks, chaining values, all 32 vectors, all option settings with detection on", "why_tests_cant": "No known file pair uses most of the vectors.", "anchors": ["cgo/sha1.c: sha1_process"]}
{"id": "C43", "title": "The C collision callback has no effect", "statement": "Calls of SHA1DCSetCallback can be removed from any history without changing any other result; the callback the header promises to call on a collision is never invoked.", "quantifier": "all histories of C API calls", "why_tests_cant": "No test sets a callback.", "anchors": ["cgo/sha1.c: SHA1DCSetCallback, sha1_process", "cgo/sha1.h: collision_block_callback"]}
{"id": "C44", "title": "The preprocessor picks the byte order of the machine", "statement": "If the compiler defines __BYTE_ORDER__ and __ORDER_BIG_ENDIAN__ truthfully and no SHA1DC_FORCE_ macro is given, the library is built for the byte order of the machine, whatever other macros are defined; this is the premise of the other C properties.", "quantifier": "all sets of predefined macros, both byte orders", "why_tests_cant": "CI builds on little-endian machines only.", "anchors": ["cgo/sha1.c: lines 31-129"]}
{"id": "C45", "title": "Package cgo without cgo hashes like the Go package", "statement": "With cgo disabled, Sum of package cgo returns the digest and verdict of the Go package on every block implementation, independent of the evaluation order that matters for the Go Sum.", "quantifier": "all messages, generic, amd64 and arm64 block code", "why_tests_cant": "The build tag is not exercised by the tests.", "anchors": ["cgo/fallback_no_cgo.go: Sum, New"]}
{"id": "C46", "title": "Every supported build has exactly one block function", "statement": "In every build, the files the go command selects declare no function twice, a function without a body has its assembly routine in the same build and the other way round, the old and new constraint lines agree, and exactly one function block is declared.", "quantifier": "all sets of build tags", "why_tests_cant": "CI builds a few tag sets; each file's constraint is a separate boolean expression.", "anchors": ["sha1cdblock_amd64.go: build constraint", "sha1cdblock_arm64.go: build constraint", "sha1cdblock_noasm.go: build constraint", "sha1cdblock_amd64.s", "sha1cdblock_arm64.s"]}
{"id": "C47", "title": "Package cgo has the same API with and without cgo", "statement": "Each exported function of package cgo is declared exactly once in every build, with a signature that does not depend on the tag cgo, and the exported constants are the same.", "quantifier": "all sets of build tags", "why_tests_cant": "The tests of package cgo are only compiled with cgo enabled.", "anchors": ["cgo/fallback_no_cgo.go", "cgo/sha1.go", "cgo/ubc_check.go"]}
{"id": "C48", "title": "The assembly code is only run on CPUs that have its instructions", "statement": "On every CPU, whatever extensions it has, the block functions of the amd64 and arm64 builds terminate without an invalid-instruction fault and return what the generic block function returns.", "quantifier": "all CPU feature sets, hashers and inputs", "why_tests_cant": "CI machines have all extensions or none of them.", "anchors": ["sha1cdblock_amd64.go: hasSHANI, block", "sha1cdblock_arm64.go: hasSHA1, block", "sha1cdblock_amd64.s", "sha1cdblock_arm64.s"]}
{"id": "C49", "title": "Preprocessor: byte order and unaligned access, all macro conventions", "statement": "With macros that tell the truth in any of the conventions the code knows and without SHA1DC_FORCE_ macros, the C library is built for the byte order of the machine exactly when the machine is little-endian or some macro tells its order; the SHA1DC_FORCE_ macros decide as documented; unaligned access is enabled exactly on x86 or by force.", "quantifier": "all sets of predefined macros, both byte orders", "why_tests_cant": "CI builds with gcc and clang on x86 and arm64 only.", "anchors": ["cgo/sha1.c: lines 31-129"]}
{"id": "C50", "title": "The compression function without detection is the SHA-1 compression function", "statement": "sha1_compression (compiled under BUILDNOCOLLDETECTSHA1COMPRESSION) maps every chaining value and 16 message words to the FIPS 180-4 result, whatever its local array held.", "quantifier": "all chaining values and message blocks", "why_tests_cant": "Nothing compiles this function.", "anchors": ["cgo/sha1.c: sha1_compression"]}
{"id": "C51", "title": "The C recompression works for every choice of test steps", "statement": "For any set of DOSTORESTATE macros and any step t among them, the state recorded before step t together with any expanded message lets sha1_recompression_step return the chaining value from which that message reaches the state, and the chaining value it leads to.", "quantifier": "all macro sets, steps 0 to 79, chaining values, blocks and expanded messages", "why_tests_cant": "Only steps 58 and 65 are ever enabled.", "anchors": ["cgo/sha1.c: sha1_compression_states, SHA1_RECOMPRESS, sha1_recompression_step", "cgo/ubc_check.h: DOSTORESTATE58, DOSTORESTATE65"]}
{"id": "C52", "title": "Other packages cannot switch detection off", "statement": "No code outside package ubc can change which blocks are flagged or make the block function panic; in particular not by storing into the table that SHA1_dvs returns. Whatever the table holds, blocks that are not flagged are hashed with plain SHA-1.", "quantifier": "all table contents, hashers and inputs", "why_tests_cant": "A test would have to corrupt the global table on purpose.", "anchors": ["ubc/ubc.go: SHA1_dvs", "ubc/const.go: sha1_dvs", "sha1cdblock_generic.go: checkCollision, blockGeneric"]}
{"id": "C53", "title": "A digest collision is a collision of the compression function", "statement": "Two different messages below 2^61 bytes with the same digest (any call histories, any implementation) contain two different inputs (chaining value, block) of the block function with the same output. If neither is reported, their SHA-1 values agree too and the two inputs collide in the SHA-1 compression function, neither is detected, and neither is attacked along a vector with test step 65 (any vector for the C library). The same for every choice of options of the C library.", "quantifier": "all pairs of messages, call histories, implementations, C options", "why_tests_cant": "No collision of the safe hash is known, so there is nothing to test with; the statement is about all collisions that will ever be found.", "anchors": ["sha1cd.go: Write, checkSum", "sha1cdblock_generic.go: blockGeneric, checkCollision", "cgo/sha1.c: SHA1DCUpdate, SHA1DCFinal, sha1_process"]}
{"id": "C54", "title": "The assembly routines keep the reserved registers", "statement": "After blockAMD64 the stack pointer and the vector registers from X11 on (X15 is zero in Go code) are as at entry; after blockARM64 the registers R18 and R23 to R31 (platform register, g, frame pointer, link register) and the vector registers V8 to V15 and from V21 on are as at entry.", "quantifier": "all machine states at entry", "why_tests_cant": "A clobbered g or platform register shows up as a rare crash somewhere else, depending on scheduling and platform.", "anchors": ["sha1cdblock_amd64.s: blockAMD64", "sha1cdblock_arm64.s: blockARM64"]}
{"id": "C55", "title": "The assembly routines run in constant time", "statement": "The sequence of executed instructions and of accessed addresses of the assembly routines does not depend on the chaining value, the block, or the old contents of m1 and cs; the listed accesses are all accesses.", "quantifier": "all machine states, pairs of chaining values and blocks", "why_tests_cant": "Timing tests sample a few inputs and drown in noise.", "anchors": ["sha1cdblock_amd64.s: blockAMD64", "sha1cdblock_arm64.s: blockARM64"]}
{"id": "C56", "title": "The work per block is bounded", "statement": "The block functions of all builds make one pass over the 80 steps per block and exactly two more per detected block. The recompression test runs at most once for every disturbance vector whose bit conditions the block meets, exactly once for each of them when nothing is detected. The C library does the same, with 32 tests when the bit-condition filter is off and none when detection is off; it makes one pass over a flagged block when safe hash is off.", "quantifier": "all chaining values, data, implementations, C options", "why_tests_cant": "A benchmark measures typical inputs; an attacker picks the block that costs most, and repeated work does not change any result.", "anchors": ["sha1cdblock_generic.go: blockGeneric, checkCollision", "sha1cdblock_amd64.go: block", "sha1cdblock_arm64.go: block", "cgo/sha1.c: sha1_process"]}
{"id": "C57", "title": "The hashers implement the interfaces in every build", "statement": "In every build the hasher returned by New of package sha1cd and of package cgo implements hash.Hash, CollisionResistantHash and the checkpointing interfaces of package encoding, with every method declared once.", "quantifier": "all build tag assignments", "why_tests_cant": "A test runs in one build; a type assertion to an interface that another build does not implement fails only there, at run time.", "anchors": ["detection.go: CollisionResistantHash", "sha1cd.go: methods of digest", "cgo/sha1.go: methods of digest", "cgo/fallback_no_cgo.go: New"]}
{"id": "C58", "title": "Package sha1cd has the functions and constants of crypto/sha1", "statement": "README.md: sha1cd is a drop-in replacement for crypto/sha1. In every build package sha1cd declares every function of crypto/sha1 exactly once with the same parameters and results, and the same constants; the functions that the usage examples of README.md call exist with the number of results used there.", "quantifier": "all build tag assignments", "why_tests_cant": "The examples of a README are not compiled, and the tests of a repository call the functions as they are, not as documented.", "anchors": ["README.md: Usage", "sha1cd.go: New, Sum, Size, BlockSize"]}
{"id": "C59", "title": "The digest differs from SHA-1 exactly for inputs with the bit conditions", "statement": "README.md: inputs that contain the unavoidable bit conditions yield a different hash than crypto/sha1, valid inputs the same. For every history of calls the digest differs from SHA-1 if and only if some block of the padded message meets the bit conditions of a disturbance vector; then the verdict is true.", "quantifier": "all programs of calls, messages", "why_tests_cant": "The conditions hold for some blocks by chance and for every attack block; neither direction can be enumerated.", "anchors": ["README.md: Usage", "sha1cdblock_generic.go: checkCollision", "ubc/ubc.go: CalculateDvMask"]}
{"id": "C60", "title": "The assembly routines hash the whole blocks of any slice and ignore the rest", "statement": "For every slice p, blockAMD64 and blockARM64 leave in h the chaining value after all whole 64-byte blocks of p, in m1 and cs the schedule and states of the last one, and do not depend on the bytes that follow the last whole block.", "quantifier": "all lengths of p, contents, chaining values, addresses, registers", "why_tests_cant": "The Go code only ever passes one block, so no test reaches the loop of the amd64 routine or the missing one of the arm64 routine.", "anchors": ["sha1cdblock_amd64.s: loop, done", "sha1cdblock_arm64.s: loop, end", "sha1cdblock_amd64.go: blockAMD64", "sha1cdblock_arm64.go: blockARM64"]}
{"id": "C61", "title": "Calls of the assembly routines at the same time do not disturb each other", "statement": "Any number of goroutines call blockAMD64 (blockARM64) at the same time, on different hashers; they may hash the same bytes. Whatever the order in which their instructions are executed, in whatever order and with whatever delay the bytes they store reach the memory (store buffers), and whatever other code stores elsewhere in between, none of them faults, each leaves in its own h, m1 and cs exactly what it leaves when it runs alone, and nothing else in memory changes.", "quantifier": "all numbers of calls, contents, addresses, registers, interleavings of instructions, arrivals of stored bytes and foreign stores", "why_tests_cant": "There are far more interleavings than can be run, and a race detector does not see into assembly code.", "anchors": ["sha1cdblock_amd64.s: blockAMD64", "sha1cdblock_arm64.s: blockARM64", "sha1cdblock_amd64.go: block", "sha1cdblock_arm64.go: block"]}
{"id": "C62", "title": "Input that changes during the call is hashed as one string", "statement": "Other threads or processes may write to the input while a call reads it (a slice shared with another goroutine, a mapped file). Whatever they write, a call of SHA1DCUpdate, of block or of Write leaves what it would leave on one fixed string, each byte of which was in the input at its place at some time during the call. In particular the verdict belongs to the bytes that were hashed.", "quantifier": "all inputs as functions of time and place, lengths, states of the hasher, sequences of calls, configurations of the C code, implementations of block", "why_tests_cant": "A test would have to write between two particular loads of the code under test; the interesting moment is between the first and the second reading of a flagged block, which only a SHA-1 near-collision block reaches.", "anchors": ["sha1cdblock_generic.go:31-140 (the block is read again from p in each pass)", "sha1cdblock_amd64.go:34-51", "sha1cdblock_arm64.go:30-47", "sha1cd.go:132-157", "cgo/sha1.c:146-157, 459-869 (each word loaded once, kept in W)", "cgo/sha1.c:1950-2000 (recompression uses m1)", "cgo/sha1.c:2055-2092"]}
{"id": "C63", "title": "C's integer types: defined behaviour for the usual ints, and only for them", "statement": "The C expressions mix uint32_t objects with int literals. With C's promotions and conversions taken into account, the bit-condition program, the macros, the recompression functions, sha1_process and the functions of the API never overflow a signed integer, shift by too much or shift a negative number, and the results are those of arithmetic modulo 2^32, for an int of 32 bits and for an int of 63 bits or more. For an int of 33 to 62 bits, which the standard allows, every use of the API that asks for a digest is undefined (a rotation by 30 shifts a promoted uint32_t).", "quantifier": "all widths of int from 32, all contexts, configurations, sequences of API calls with all data and options, schedules", "why_tests_cant": "Undefined behaviour need not show in a test on one compiler, and machines with an int of another width are not at hand; the values that overflow depend on the data.", "anchors": ["cgo/ubc_check.c:37-68, 74-291", "cgo/sha1.c:135-253", "cgo/sha1.c:364-869", "cgo/sha1.c:871-1210", "cgo/sha1.c:1950-2000", "cgo/sha1.c:2055-2140"]}
{"id": "C64", "title": "Words read from memory: alignment and overlap in the C code", "statement": "sha1_process reads its block through a const uint32_t pointer. On a memory with addresses: ctx->buffer is at offset 28 of SHA1_CTX on every target whose uint32_t has alignment 1, 2 or 4, so a block in the buffer is always aligned. Without SHA1DC_ALLOW_UNALIGNED_ACCESS every list of calls after SHA1DCInit whose buffers do not touch the context is defined, writes the right digests and verdicts, and changes nothing else outside the context. With it (every x86 build without SHA1DC_FORCE_ALIGNED_ACCESS) the behaviour is undefined exactly when some SHA1DCUpdate has a whole block, after completing the pending one, that starts at an address not a multiple of the alignment of uint32_t; otherwise the results are the same.", "quantifier": "for all targets, configurations whose byte-order macro fits the machine, addresses of context and padding, memories, contents of the context, lists of calls with any addresses and lengths", "why_tests_cant": "On x86 a misaligned load works unless the compiler vectorises or a sanitizer looks, so tests pass; the address of a block depends on the caller's buffer and on the lengths of all earlier calls.", "anchors": ["cgo/sha1.c:125-129", "cgo/sha1.c:146-157", "cgo/sha1.c:2055-2140", "cgo/sha1.h:42-60", "cgo/sha1.go:66-75"]}
{"id": "C65", "title": "Goroutines that share one hasher", "statement": "\"Make a copy of d so that caller can keep writing and summing\" (sha1cd.go:160, 208). With the accesses of the methods to the struct interleaved one at a time: any number of goroutines may call Sum, CollisionResistantSum, MarshalBinary, Size and BlockSize on one hasher at the same time; none panics, the hasher does not change, and every digest and verdict is that of the bytes written before. One goroutine may in addition make any calls, including Write, Reset and UnmarshalBinary: its results and the final state are as if it were alone. The observers are then not safe: next to Write(\"abc\") on a new hasher Sum can panic with \"d.nx != 0\" and MarshalBinary can return the checkpoint of three zero bytes (Write counts the length before it stores the data). Of two concurrent Writes that both report success one can be lost.", "quantifier": "for all programs that ran before, hashers, numbers of goroutines and their calls, block implementations, orders in which a struct copy reads the fields, interleavings", "why_tests_cant": "The window between d.len += and the store of the data is a few instructions; a test under the race detector reports an access pair, not the result, and only for the schedules that happen.", "anchors": ["sha1cd.go:39-51", "sha1cd.go:75-92", "sha1cd.go:107-117", "sha1cd.go:132-157", "sha1cd.go:159-164", "sha1cd.go:207-212"]}
{"id": "C66", "title": "Goroutines that share one cgo hasher", "statement": "\"use a copy of d to avoid race conditions\" (cgo/sha1.go:39, 45). With the accesses of the methods and of the C functions to the members of the struct interleaved: any number of goroutines may call Sum, CollisionResistantSum, Size and BlockSize on one cgo hasher at the same time; the hasher does not change and every digest and verdict is that of the bytes written before. One goroutine may in addition Write and Reset: its results and the final state are as if it were alone. Whatever several goroutines do, no call indexes outside an array, reaches abort() or returns a result of another form than promised (a Go hasher can panic instead, C65). But the results need not be right: Sum next to Write(\"abc\") on a new hasher can return the SHA-1 of three zero bytes, and of two concurrent Writes that both report success one can be lost.", "quantifier": "for all histories that ran before, hashers, numbers of goroutines and their calls, compile-time configurations (digests: byte order recognised), orders in which a struct copy reads the members, interleavings", "why_tests_cant": "The race detector does not see accesses made by C code, and the window between ctx->total += len and the memcpy is a few instructions.", "anchors": ["cgo/sha1.go:23-75", "cgo/sha1.h:42-59", "cgo/sha1.c:1950-2016", "cgo/sha1.c:2055-2092"]}
{"id": "C67", "title": "Effective types in the C code", "statement": "C permits a uint32_t load only from bytes whose effective type is not a character type (C11 6.5p6-7), and cgo compiles sha1.c without -fno-strict-aliasing. SHA1DCInit followed by any writes is free of such undefined behaviour when neither the context nor the inputs were declared as characters in C, as for memory of Go. An input that is an array of char is defined exactly as long as it does not complete a block; on a context that is itself declared in C, an input of other types is defined exactly if it completes no block or is loaded in place from the start of a block. SHA1DCFinal violates the rule in every session: it passes sha1_padding, an unsigned char array, through the buffer to the word loads of sha1_process. With padding declared as words the sessions of the Go package would be defined.", "quantifier": "for all compile-time configurations, contents of the memory of the context, histories of writes with any effective types of their bytes", "why_tests_cant": "The compilers in use happen to generate the loads; a test sees only the code of one compiler, not what the language permits it to do.", "anchors": ["cgo/sha1.c:146-157", "cgo/sha1.c:1950-1957", "cgo/sha1.c:2055-2092", "cgo/sha1.c:2094-2129", "cgo/sha1.h:42-59"]}
{"id": "C68", "title": "What the repository's tests establish", "statement": "As programs over the modelled API, the tests are total and their outcome depends neither on the implementation chosen at each call nor on the compilation of the C code; this holds for every client whose calls depend on earlier results. TestGolden passes exactly if each entry of its table is the digest of the package (SHA-1 where no block is flagged), TestGoldenMarshal exactly if each half state is the checkpoint after the first half of its input (its comparison of the two sums never fails), TestLargeHashes exactly if each state is accepted and its sum is that of the resumed message, TestCollisionDetection exactly if digest and verdict are as listed and the two packages agree. FuzzDeviationDetection fails exactly on an input on which the packages differ, which never happens on an input whose blocks fail the bit conditions of all vectors with test step 58; inputs tried before do not matter. The remaining tests always pass.", "quantifier": "for all tables of vectors, sequences of fuzz inputs, implementations of each call, configurations of the C code, adaptive client programs", "why_tests_cant": "A test run shows that one table passes; what its passing means for the code, and that it cannot pass or fail for another reason (e.g. state left by an earlier entry or the host), needs the test itself as an object of a proof.", "anchors": ["sha1cd_test.go:60-93", "sha1cd_test.go:95-132", "sha1cd_test.go:134-208", "test/native_test.go:115-187", "test/fuzz_test.go:15-36", "test/native_test.go:189-200"]}
{"id": "C69", "title": "Benchmarks and allocations", "statement": "testAllocations: Reset, Write and Sum(out[:0]) in a loop on a hasher of either package allocate no array as long as out has capacity 20, leave the input as it was, and out stays in its array with the digest; with less capacity each iteration allocates one array. benchmarkSize hashes the same bytes in each iteration. benchmarkContent uses its input as the destination: each iteration replaces the first 20 bytes of the data by their digest, also across the three hashers of BenchmarkHashWithCollision, so that the intent, each iteration hashing a message with a collision, is false: after the first iteration on sha-mbles-1.bin the data has no collision any more.", "quantifier": "for all numbers of iterations, hashers of both packages, implementations of block, heaps and slices in them, configurations of the C code", "why_tests_cant": "A benchmark reports only a time; that its input changes under it, or that an allocation depends on the capacity of the destination, does not show in a result.", "anchors": ["test/native_test.go:33-113", "sha1cd_test.go:210-234", "sha1cd.go:115-122", "cgo/sha1.go:37-47"]}
{"id": "C70", "title": "Length extension through checkpoints", "statement": "From a digest that Sum returned and the length of its message alone one can write a checkpoint that UnmarshalBinary accepts; any writes and a sum then give the package's digest of the message, its padding and the written bytes, without the message being known, also where blocks are flagged. The verdict is that of the continuation only: the whole message is flagged exactly if the unknown message was or the continuation is. Messages of the same length with the same digest keep the same digest after any common continuation.", "quantifier": "for all messages, lists of writes, detections (for the continuation) and all implementations of block at each call (for the forgery)", "why_tests_cant": "A test forges one message; that the checkpoint format accepts every such state, for every message and suffix, with the safe-hash changes of flagged blocks included, is a statement over all messages.", "anchors": ["sha1cd.go:75-92", "sha1cd.go:166-197", "sha1cd.go:132-157"]}
{"id": "C71", "title": "Passing Go memory to C", "statement": "SHA1DCUpdate and SHA1DCFinal keep no address between calls: with the context, the data, the digest and the padding array at other addresses of another memory they give the same context, digest and verdict, and write nothing outside of the context's buffer and the digest's 20 bytes. A list of calls each of which finds its objects at new addresses, as after a move of a goroutine's stack, has the results of the calls without addresses. In every program with package cgo the only pointer in a context, callback, is null, so the memory given to C holds no Go pointer and C calls nothing back.", "quantifier": "for all memories, addresses that a call may have, lists of calls, compilations of the C code, programs over package cgo", "why_tests_cant": "The Go runtime moves stacks at points that a test does not choose, and a retained or stored pointer only shows when memory has been reused.", "anchors": ["cgo/sha1.go:28-75", "cgo/sha1.c:2002-2016", "cgo/sha1.c:2055-2140"]}
{"id": "C72", "title": "The C library reads no indeterminate value", "statement": "Starting from a SHA1_CTX of which no member and no array element has been written, every sequence of calls of the C API in which each non-empty SHA1DCUpdate and each SHA1DCFinal comes after a SHA1DCInit reads only members, buffer bytes, words of m1 and m2 and elements of states that have been written before; its results are those the library gives on every initial contents of the memory. Conversely any sequence that updates or finalises before the first SHA1DCInit does read an indeterminate value.", "quantifier": "all sequences of calls of the C API with all arguments, all compile-time configurations, all initial contents of the context", "why_tests_cant": "A test runs on some memory; a read of an unwritten word usually gives 0 or what an earlier call left, and the digest is right. A memory checker sees only the paths that the test inputs take, e.g. the recompression for a disturbance vector needs a message that meets its conditions.", "anchors": ["cgo/sha1.c:208-253", "cgo/sha1.c:459-869", "cgo/sha1.c:1950-2000", "cgo/sha1.c:2002-2016", "cgo/sha1.c:2055-2140", "cgo/sha1.h:42-59"]}
{"id": "C73", "title": "Branches and indices of the Go code reveal one path and one mask per block, and not the chaining value", "statement": "Take two sessions with a hasher of the generic Go implementation: any calls of Write and CollisionResistantSum in any order, the same calls and the same lengths of arguments in both, the same number of bytes hashed before. As long as neither reports a collision, the sequences of branches taken and of indices into the input, w, m1, the table and its rows are equal if and only if for each pair of corresponding compressed blocks ubc.CalculateDvMask takes the same path and returns the same mask. So the chaining value is not revealed, whatever was hashed before; for every block the set of disturbance vectors whose conditions it meets is revealed; the verdicts always are. The code is not constant-time in the message: there are two messages of 64 bytes, neither of them flagged, on which the branches differ. Once a collision is reported the chaining value matters. In every run, flagged or not, all indices are within their arrays, and the whole blocks of the input are read byte by byte from the first to the last, an unflagged block once and a flagged one three times.", "quantifier": "all pairs of sessions, all well-formed starting states, all messages and lengths", "why_tests_cant": "A timing test measures some inputs on some machine; that nothing else is revealed is a statement about pairs of all runs, and the runs on which the mask is not zero are few.", "anchors": ["sha1cdblock_generic.go:22-273", "ubc/ubc.go:32-371", "sha1cd.go:132-212"]}
{"id": "C74", "title": "The assembly builds reveal neither more nor less than the generic code", "statement": "Take two calls of block of an assembly build (amd64 or arm64) on the same machine at the same addresses, with inputs of the same length, arbitrary chaining values and the collision flag equal. What is observed are the branches and indices of the Go side (the loop, rectifyCompressionState, checkCollision) and, for each run of the assembly routine, the instructions executed in order and the addresses and sizes of all their memory accesses. If the observations agree the verdicts agree. As long as no collision is reported they agree if and only if in each pair of corresponding blocks ubc.CalculateDvMask takes the same path and returns the same mask. That is the condition for blockGeneric as well. The same holds of whole sessions of Write and CollisionResistantSum on an assembly build, so while the verdicts are negative each assembly build tells apart exactly the pairs of sessions that the generic build does. What a call of block reveals does not depend on the collision flag the hasher already carries.", "quantifier": "all inputs and pairs of inputs, all chaining values, all memory layouts and machine states (on arm64 those in which R16 + 64 does not wrap around)", "why_tests_cant": "A timing test sees a few inputs on one machine; a routine that reads a table at a data-dependent index or leaves a loop early on rare data passes it.", "anchors": ["sha1cdblock_amd64.go:25-52", "sha1cdblock_arm64.go:21-48", "sha1cdblock_amd64.s:26-264", "sha1cdblock_arm64.s:31-243", "sha1cdblock_generic.go:146-312", "sha1cd.go:132-212"]}
{"id": "C75", "title": "rectifyCompressionState on all arguments", "statement": "rectifyCompressionState(m1, cs): with cs nil it returns and reads nothing, whatever m1 is; with m1 nil and cs not nil it panics. Otherwise, for any contents of the two arrays, cs[0] stays as it is, cs[1] becomes the result of SHA-1 steps 56 and 57 on cs[1] with m1[56] and m1[57], and cs[2] that of step 64 on cs[2] with m1[64]. The result depends on m1 through these three words and on each of them. The function is the one that the models of the assembly builds use, and TestRectifyCompressionState passes.", "quantifier": "all pointers and all contents of the arrays", "why_tests_cant": "The test has two arrays and nil; C26 has arrays that come from a schedule only.", "anchors": ["sha1cdblock_generic.go:275-312", "sha1cd_test.go:236-298"]}
