# Design: machine-checked properties of pjbgf/sha1cd

The sources under `/repo` are read as text; nothing is compiled or executed. The model and
the proofs are Coq 8.16.1 developments in `rocq/theories`. Everything is proved for all
inputs; the `Example`s in the development are tests and witnesses, not proofs of properties.

## Trusted base

* The Coq kernel (rechecked by `coqchk`).
* Axioms: the goal is that `Print Assumptions` answers *Closed under the global context* for every
  theorem listed in `MANIFEST.json`. The exact output of each is recorded in the section
  "Print Assumptions" at the end of this file.
* The reading of the specifications: `Spec_Sha1.v` (FIPS 180-4), `Spec_DV.v` (disturbance
  vectors after Manuel, bit conditions after Stevens and Shumow, sibling collisions),
  `Spec_Cd.v` (hash with counter-cryptanalysis), and `Spec_*` files for slices and histories.
* The correspondence between `/repo` and the model. Code that is a long table or a long straight
  line (bit-condition program, difference table, C macro expansions, assembly listings) is
  translated by the Python scripts in `tools/` from the text of the source into Coq data; the data is
  then *interpreted* by small evaluators written by hand. The scripts are not run in the build; their
  output is committed. The rest is transcribed by hand, function by function, with file and line
  in the comment of each definition.
* The semantics given to Go (fixed-width wrap-around arithmetic, slices, copy, append, order of
  evaluation), C (32-bit unsigned arithmetic, 64-bit counters; integer types and promotions in `Model_CTypes.v`), SHA-NI/SSE/AVX and ARMv8 instructions.

## What is modelled

| code | model |
| --- | --- |
| `internal/const.go` | constants in `Model_Go.v` |
| `sha1cd.go` (all functions) | `Model_Go.v` |
| `sha1cdblock_generic.go` (all functions) | `Model_Go.v` |
| `sha1cdblock_{amd64,arm64,noasm}.go` | `Model_Block.v`: dispatch, per-chunk loop |
| `ubc/ubc.go`, `cgo/ubc_check.c` (program) | `Gen_UbcGo.v`, `Gen_UbcC.v`: syntax trees; `Model_Ubc.v`: evaluator |
| `ubc/const.go`, `cgo/ubc_check.c` (table) | `Gen_DvsGo.v`, `Gen_DvsC.v` |
| `sha1cdblock_amd64.s` | `Gen_Amd64.v`: instruction list; `Model_Amd64.v`: machine |
| `sha1cdblock_arm64.s` | `Gen_Arm64.v`: instruction list; `Model_Arm64.v`: machine |
| passes and recompression tests per block | `Model_Work.v`: block functions with counters |
| executed instructions and accessed addresses of the two listings | `Model_Trace.v`: the machines with a record of what they do |
| several calls of the listings at the same time | `Model_Conc.v`: one memory, one instruction of one call at a time; `Model_Buffer.v`: the same with store buffers that empty in any order |
| the methods of `sha1cd.go` used by several goroutines on one hasher | `Model_Race.v`: single accesses to the fields, interleaved |
| the effective types of the bytes that `SHA1DCUpdate`, `SHA1DCFinal` and `sha1_process` load as words | `Model_CEff.v`: a type for each byte of buffer and input; a load of characters as a word is `None` |
| the methods of `cgo/sha1.go` and `SHA1DCInit`, `SHA1DCUpdate`, `sha1_process` used by several goroutines on one hasher | `Model_CRace.v`: accesses to the members and to the bytes of the buffer, interleaved |
| slices with capacity and aliasing, `append` in `Sum` and `MarshalBinary` | `Model_Slice.v` |
| `cgo/sha1.c` step macros, recompression functions | `Gen_CSteps.v` (macro calls, generated), `Model_CSteps.v` (their meaning) |
| `cgo/sha1.c` other functions, `cgo/sha1.go`, `cgo/ubc_check.go`, `cgo/fallback_no_cgo.go` | `Model_C.v` |
| `cgo/ubc_check.c`, `cgo/sha1.c` with the integer types of C | `Gen_CTyped.v` (generated), `Model_CTypes.v` (expressions, macros), `Model_CTyped.v` (functions, API) |
| `cgo/sha1.h` struct layout, `cgo/sha1.c` loads, memcpy and API on a memory with addresses | `Model_CMem.v` |
| `cgo/sha1.c` lines 31-129 (preprocessor conditions) | `Model_CBuild.v` |
| `cgo/sha1.c` code that the default macros leave out | `Model_CDead.v` |
| build constraints, file names, declared functions of both packages | `Gen_Build.v` (generated), `Model_Build.v` (rules of go/build) |
| methods of the hasher types, interface type | `Gen_Methods.v` (generated), `Model_Iface.v`, `Model_Hasher.v` (method sets) |
| CPU feature tests and the extensions instructions need | `Model_Cpu.v`, mnemonics in `Gen_Amd64.v`, `Gen_Arm64.v` |
| input that other threads change during `block`, `Write`, `SHA1DCUpdate` | `Model_Fetch.v`: each access to the input at its own time |
| `SHA1_dvs()` and stores into the table it returns | `Model_Table.v`, `Model_Program.v` (programs with calls and stores) |
| `sha1cd_test.go`, `test/native_test.go` (tests), `test/fuzz_test.go` | `Model_Tests.v`: tests as programs over both packages; `Data_*.v`: their tables |
| `test/native_test.go` (benchmarks), `testAllocations` | `Model_Bench.v`: on the heap of `Model_Slice.v` |
| `cgo/sha1.c`, with unwritten memory | `Model_CInit.v`: every member and array element is written or not; reading one that is not ends the run |
| `sha1cdblock_generic.go`, `ubc/ubc.go`, `Write`, `CollisionResistantSum`, with what their control flow reveals | `Model_Leak.v`: the functions of `Model_Go.v` with a record of branches and indices |
| `block` of `sha1cdblock_amd64.go`, `sha1cdblock_arm64.go`, with what their control flow reveals | `Model_LeakAsm.v`: branches and indices of the Go side, instructions and addresses of the routine |
| `rectifyCompressionState` with its pointers, `TestRectifyCompressionState` | `Model_Rectify.v` |
| `README.md` (usage section) | `Spec_Doc.v` |
| programs that call the packages | `Model_Api.v`, `Model_Block.v` (Go), `Model_CApi.v` (cgo, C API) |

Not modelled: how package `cpuid` finds out the features (a CPU is a predicate on feature names; in the properties other than C48 the choice of the
implementation is a free parameter), the garbage collector (but memory may move between two calls of C, C71) and
stack growth, error message texts (an enumeration is used), C
undefined behaviour other than out-of-bounds accesses in the modelled arrays and that of integer arithmetic on `uint32_t` and of misaligned, overlapping or wrongly typed accesses and reads of unwritten memory (C63, C64, C67, C72), the time anything takes (C73 has branches and indices at the level of the source text), the benchmarks' baseline `crypto/sha1`, local variables that the compiler moves to the heap,
reordering of loads, and data races on one hasher other than by sequentially consistent accesses to its fields (C65, C66).

## Representation

* 32-bit words are `N` with every operation reducing mod 2^32 explicitly. Bytes are
  `Coq.Init.Byte.byte`, so a message is `list byte` with no side condition.
* A Go or C panic/abort is `None` in the option monad. Arrays are lists; accesses through a
  run-time index are checked and yield `None` when out of range; accesses with an index that is
  constant or bounded by the loop header use a default.
* Loops are structural recursion on a list of indices, or recursion on fuel with `None` when the fuel
  runs out; theorems show `Some`, so fuel never matters.

## Conformance tests

`Examples_Vectors.v` runs the model on the repository's own test vectors while the file is compiled: the 32 golden digests and half states, the two
large checkpoints, the collision files (Go, C), `rectifyCompressionState`, and the golden digests again on the two assembly
machines. The build stops when a vector fails. Of the SHAttered files the first 448 bytes are used; that the hashes expected for the whole
files follow from the verdicts found there was checked by hand. The tests leave nothing for the kernel to recheck and no claim refers to them.

## Assembly

`Model_Asm.v` has a flat byte-addressed memory and a layout: addresses of h, p, m1, cs, the frame, the
argument block and the read-only constants. The theorems hold for every layout in which these eight regions do not overlap or wrap
(`layout_ok`). An access that is not inside one region, a store to a read-only one (p, the arguments, the constants), a misaligned
`VMOVDQA` or SSE memory operand, and falling off the listing are all faults (`None`). The registers, the
frame, the flag and all other memory are arbitrary at entry and may differ for each call.

The machine's reading of the toolchain: `name+off(FP)` addresses the argument block, the hardware `SP` of the amd64
listing (written without a symbol) points to the 80-byte frame, `DATA`/`GLOBL` place 16 constant bytes with no alignment promised
beyond that of `RODATA` symbols of 16 bytes (the model asks for 16 on amd64, where an SSE operand needs it). Instruction meanings follow the Intel
SDM and the Arm ARM; `tools/gen_amd64.py` and `tools/gen_arm64.py` expand the macros and resolve labels, and stop on anything they do not know.

The proofs run the listing on symbolic values (`Amd64Sym.v`, `Arm64Sym.v`, proved sound) and compare the result with the
FIPS round function; nothing in them depends on the shape of the listing, so an edited listing only makes the final computation fail.

## C

`Model_C.v` has the whole `SHA1_CTX` including its scratch fields. A context before `SHA1DCInit` has arbitrary contents
(`ctx_typed` only fixes the array sizes). Byte order of the machine, byte order the macros chose and unaligned access are a record `ccfg`;
loads of message words go through it, and the theorems need `host_be = macro_be`, which C44 derives from what the compiler
defines. `size_t` is 64 bits wide. The update loop runs on fuel; running out is `None`, as are accesses outside `buffer`,
`m1`, `states`, and `abort()` in `sha1_recompression_step`. The five working variables of a macro call are named in the listing; the C code permutes the names instead of the
values, so a stored state before step 58 has its words rotated (`view`), consistently in store and load.
`Spec_C.v` says what the library should do: `flagged o h M` for options `o`, the digest `cc_sum`, and an abstract hasher for arbitrary call sequences.

## Specification of detection

`Spec_DV.v` defines, without looking at the tables of the code:

* `dvec k b ty`: the disturbance vector I(K,b) or II(K,b) by its 16-word window and the linear
  recurrence in both directions; `dmsg`: the message difference obtained from six-step local collisions.
* `ubc_holds d W`: a conjunction of two-bit relations from the table of Stevens and Shumow. The table itself can only be
  taken as data: it is the result of their differential analysis. It is written as a list of
  `(t1,b1,t2,b2,c)` meaning `W[t1].b1 xor W[t2].b2 = c`.
* `sibling d h M`: there is a chaining value `h'` such that the execution from `h'` on the
  block `M' = M xor difference` is, at the test step, in the state of the execution from `h` on
  `M`, and both executions end with the same chaining value.
* `attacked h M`: exists d, `ubc_holds` and `sibling`.

The hash specification `Spec_Cd.v` is parameterised by any boolean function that decides the detection predicate.

### A defect found while reading

`hasCollided` rotates its five variables once per loop iteration also in iterations that are skipped
because `step <= i`. For test step 65 no iteration is skipped. For test step 58 seven are skipped, so
the state, which is stored in role order, is undone starting from the wrong order of words. The test for
the 18 vectors with test step 58 therefore computes something else. The predicate the Go
code really decides is written down as `sibling_rot` in the specification, digest theorems
(C02) are stated with it, and C14, C15, C16, C21, C40 are proved in the part that
holds (test step 65) and refuted or characterised in the rest.

## Plan per property

* C01 corollary of C02 (all detections false implies plain fold).
* C02 block-level lemma: one pass of the generic code computes the FIPS compression, the schedule and the states before
  steps 0, 58, 65 (loop invariants for the 16-word ring); `checkCollision` decides the detection predicate (via C22, C24, C40);
  then the buffer invariant of `Write`: chaining value is the fold over the complete blocks of the data, buffer holds the rest.
* C03, C04, C05, C11, C17, C28, C29, C31, C32, C33 from a refinement theorem: every history of calls on a store of hashers and a
  heap of byte arrays gives the same outputs as an abstract machine whose hasher is just (bytes written, sticky flag).
* C06, C12 invariant `nx = len mod 64`, array sizes; every function returns `Some`. For hostile blobs the abstract hasher has an arbitrary start.
* C07 heap model of slices with capacity; `append`.
* C08, C10, C13 direct computation on the encoding, big-endian round trip.
* C09 false: witness from the SHAmbles collision file; partial theorem: verdict after resume = destination flag or detection in the suffix.
* C14, C15, C16, C40: injectivity of the SHA-1 step (the step is a bijection on states), partial for test step 65;
  for test step 58 a refutation and a theorem saying exactly when the Go test answers true.
* C18 with an explicit parameter for the unspecified evaluation order; full for call-first order, partial and refutation on function level otherwise.
* C19 direct from the block lemma.
* C20, C35, C36 symbolic execution of the instruction list, four rounds at a time, against the FIPS round function; memory regions are separate
  regions of one flat memory; any access outside them is a fault. The second form of C36 (`C36_*_accesses`)
  does not rely on the fault check: the accesses of every instruction reached lie in the ranges written down in `Spec_Asm.v`. C35 has the value of R16 as a hypothesis (partial) and a refutation for the bad values.
* C21, C30, C37, C38, C39, C41, C42, C43 model of the C code; recompression is proved to invert by induction over the generated step lists; a refinement from
  `SHA1_CTX` to the abstract hasher of `Spec_C.v` gives C38, C41, C43, and one to the hasher of the Go package gives C30, C39. C21 is the comparison of the two, partial because of test step 58.
* C44 case analysis of the preprocessor conditions. C45 from C02's refinement.
* C46, C47: the constraints are evaluated symbolically: the tags that occur are split on, everything else is irrelevant. C46 and C47 are false in corner cases, witnessed.
* C48: the machine of C20/C36 with a check of the mnemonic before each step; equal to the machine without the check when every mnemonic of the listing runs.
  The converse (`C48_*_needs_partial`, `C48_amd64_faults_partial`) from the path of the symbolic execution, which is the path of every run: no extension is required needlessly.
* C49: case analysis as C44 over all conventions. C50, C51: the invariants of C37 without the restriction to the defined macros.
* C52: the block lemma of C02 with the verdict of `checkCollision` left open. For programs: the representation of a hasher with marks on the blocks
  instead of a decision predicate (`Spec_Marks.v`), since the table may change between calls.
* C53: induction from the end of the padded messages; the last block fixes the length, so equal lengths follow or the last blocks already collide.
  The C side under any options is the same argument with `c_step`.
* C54: a syntactic check of which registers each instruction writes, proved sound for one step, run on the listing.
* C55: two runs in states that agree on everything public (registers that hold addresses, the arguments); a checker tracks which registers
  are public, is proved sound and run on the listing. The path itself is that of the symbolic execution (`C55_*_path`). That the recorded accesses are all accesses is a separate theorem about single instructions.
* C56: the block lemmas of C02, C20, C37 repeated for the functions with counters, and an erasure lemma.
* C57: as C46; the interfaces of the standard library are written down in `Spec_Iface.v`. False for checkpointing in package cgo.
* C58: as C57; the functions of crypto/sha1 and the calls in README.md are written down in `Spec_Doc.v`. False for `Sum`.
* C59: one direction from C01 and C02, the other refuted by a message of ten bytes whose padded block meets the conditions of a vector.
* C60: the amd64 listing cut into prologue, loop body and exit, each run symbolically once; a block of a longer slice is a layout of its own (`win`), and a machine that may access more does the same. arm64: the prologue by hand, the rest symbolically on the first block. False for arm64 and for lengths that are not multiples of 64.
* C61: one instruction does the same in memories that agree on the ranges of its call, and changes only its writable ones; then induction over the events. With store buffers: the memory that a call sees (shared memory under its buffer) agrees with its memory when it runs alone; its own bytes that arrive do not change it, those of others are elsewhere. The results alone are those of C60 (one block) and C35.
* C62: the generic pass reads the string of its 64 accesses, so each block gives a triple of readings and induction over the blocks gives the result on them; the first readings make the string with the same verdict. In C the sixteen loads of sha1_compression_states read each word once, so a call equals the call on the string of those readings.
* C63: an analysis of expressions (unsigned, or an int of at most k bits, perhaps not negative) is proved sound against the typed evaluator for every width and run on each expression for 32 and 63 bits; the typed functions then equal those of `Model_C.v` step by step. For 33 to 62 bits the first rotation of the second word of the initial value is undefined.
* C64: the run on a memory is related to that of `Model_C.v` by copying the buffer's bytes out of the memory; a block at a wrong address stops the very first load of the pass, which gives the other direction.
* C65: each method as a tree of accesses; alone it equals the function of `Model_Go.v`, and one goroutine that stores is not affected by others that do not. False for an observer next to a writer and for two writers.
* C66: as C65. That nothing crashes follows from an invariant of each location (the arrays keep their lengths): whatever values of that kind a goroutine reads, it stores such values and ends with a result. False for an observer next to a writer and for two writers.
* C67: an invariant of the types of the 64 bytes of the buffer along `SHA1DCUpdate`: no characters if none came in; a first byte of characters reaches the next word load otherwise. In `SHA1DCFinal` the padding is never empty, so its first byte is loaded as part of a word, by `SHA1DCUpdate` or at the end. False for whole sessions.
* C68: a test is a tree of calls; the store of both packages refines the abstract one, on which each test is a loop over its table. Go and C agree on a block where no vector with test step 58 meets its bit conditions.
* C69: an iteration on the heap changes only the 20 bytes at the destination; induction over iterations and runs. The refutation computes digest and verdict of the file before and after one iteration.
* C70: the forged checkpoint restores a hasher in the refinement of C02 whose blocks are those of the message with its padding.
* C71: the runs in two memories both refine the run of `Model_C.v` on the context copied out (C64). The pointer by induction over programs.
* C72: a second reading of the C code in which unwritten memory is `None` and a read of it fails. Simulation with `Model_C.v`; that each word of W is stored before `sha1_mix` uses it, and that states 58 and 65 are stored, is a computation on the generated list of steps; the bytes of the buffer below `total & 63` are written is the invariant of the updates.
* C73: the instrumented functions erase to those of `Model_Go.v` (C73_erase), so the record is of the code verified elsewhere. A trace is a fixed interleaving of constants, functions of the lengths, and per block the trace of CalculateDvMask and of the loop over the table; the latter is determined by the mask as long as no test succeeds (each hasCollided has a trace that depends on its row only), and determines it. Equality of the whole traces is then equality of the parts, by prefix codes. The two negative theorems compute. C73_bounds and C73_reads pin the indices themselves. What is revealed per block is stated as a list of truth values, without the record.
* C74: by C55 the record of a run of the routine is a function of the machine state and the layout only, so it is constant in a comparison; the rest is the argument of C73 for checkCollision. The session theorems of C73 are proved once for any block function with an exact record (section Build of Leak.v) and used for the three builds; in an assembly session the machine state at a call of the routine is fixed by the number of the call within its call of block.
* C75: unfolding, with the round functions of C02; that a step is injective in its word, for the words that matter.
* C22, C23, C27: reflection. A checker computes symbolically, for each of the 32 mask bits, which two schedule bits each statement of the program reads; it is proved sound
  and is run by `vm_compute` against the table in the specification.
* C24, C25: computation over the closed tables plus linearity of the message expansion.
* C26 from the step function.
* C34 list reasoning on padding.

## Print Assumptions

`Print Assumptions` under every theorem of `Properties_Go.v`, `Properties_Asm.v`, `Properties_C.v`, `Properties_Build.v`, `Properties_Paths.v`, `Properties_Iface.v`, `Properties_Doc.v`, `Properties_Multi.v`, `Properties_Conc.v`, `Properties_Collide.v`, `Properties_Program.v`, `Properties_Fetch.v`, `Properties_CTypes.v`, `Properties_CMem.v`, `Properties_Race.v`, `Properties_CRace.v`, `Properties_CEff.v`, `Properties_Tests.v`, `Properties_Bench.v`, `Properties_Extend.v`, `Properties_CPass.v`, `Properties_CInit.v`, `Properties_Leak.v`, `Properties_LeakAsm.v`, `Properties_Rectify.v` and `Properties_Work.v` answers

    Closed under the global context

so no axiom, neither of this development nor of the standard library, is used by any claim of the manifest. (`coqchk` lists the axioms of
ssreflect's `ssrunder` among the loaded libraries because `Lia`'s plugin files require them; nothing here uses them.)
