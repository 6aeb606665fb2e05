# Formal model of wakiyamap/lyra2 in Rocq (Coq 8.16.1)

## Approach

Every Rust function of the crate is transcribed into an executable Gallina
function (`theories/M*.v`).  Rust behaviour that the properties are about is
kept explicit:

* a panic is the outcome `Panic`, a loop that exhausts its (2^64 iteration)
  budget is the outcome `OutOfFuel`, a normal result is `Ok v`;
* `u32/u64` values are `Z` with the wrap written out (`mod 2^w`); `i64`,
  `usize` and `u64` `+ - *` are *checked or wrapping* according to a platform
  record (`overflow checks on/off`), and `as usize` truncates to the platform
  width (32 or 64);
* vectors are lists, indexing/slicing/`split_at` panic out of bounds,
  allocation and growth beyond `isize::MAX` bytes panic;
* mutation through `&mut`/`mut` becomes returning the new value.

`theories/Spec*.v` contain small specifications that do not import the model:
BLAKE2b round (RFC 7693 columns/diagonals), Lyra2 over a function
`row -> column -> block`, CubeHash16/32-256, BMW-256, the byte-level padding,
the row schedules in closed form.  `theories/P*.v` contain the property
theorems only (closed by `exact lemma`), each with `Print Assumptions` and
next to a concrete `Example` meeting its hypotheses.  `theories/Tests.v`
evaluates the model on the known-answer tests of the repository (tests, not
proofs: they tie the reading of the source to the model).

## Plan per property

| id | what is modelled | how proved |
|----|------------------|-----------|
| C01 | `lyra2`, `squeeze` | corollary of C02/C07 (`length = k`) plus byte range |
| C02 | whole of `lyra2` | loop invariants for the success domain; case analysis on first failing access for the complement; the in-bounds half from the access log (C34–C36); all platforms, key lengths and row counts joined in `AnyKey.v` |
| C03 | parameter check | direct, all platforms |
| C04 | all loops with 2^64 fuel | `(x+s)&m` is injective on submasks of `m` (bit induction), pigeonhole => orbit of 0 returns to 0 |
| C05 | `squeeze` | `_refuted` + universal panic theorem |
| C06 | `lyra2::sum` | arithmetic corollary of C02 |
| C07 | `lyra2` vs `SpecLyra2` | refinement relation flat vector <-> `row -> col -> block`, induction on every loop |
| C08 | wandering row sequence | orbit = multiples mod 2^e, permutation of rows |
| C09 | wandering row sequence | submask invariant, `_refuted` witness, exact even-pass set; pass lengths and the one-row odd passes from the binary digits of n_rows-1 (`PassLength.v`, `PPassLength.v`) |
| C10 | setup row* sequence | closed form by induction over windows; odd step coprime to 2^i |
| C11 | schedule extraction | relational theorem on model loops, for any number of rows |
| C12 | setup phase | relational: any two initial matrices |
| C13 | padding words | decoding argument |
| C14 | reading of pwd/salt | relational + `_refuted` witness |
| C15 | padding words vs byte spec | list reasoning, LE words |
| C16 | padding words | corollary of C13 |
| C17 | `round_lyra`, `blake2b_lyra` | explicit inverse |
| C18 | `round_lyra`, `init_state` | from C17 |
| C19 | `rotr64`, `g`, `round_lyra` | symbolic evaluation |
| C20 | platform flag | both directions of C02 for the wrapping platform; `_refuted` witness by `vm_compute` |
| C21 | platform width | idem |
| C22 | `cubehash` | symbolic evaluation of two rounds, induction on rounds |
| C23 | `cubehash::sum` | list lemma |
| C24 | `bmw` | stepwise symbolic evaluation of f0, f1, f2 |
| C25 | `bmw::sum` | list lemma, `_refuted` witness |
| C26 | `utils` | bit/arith lemmas |
| C27-C31 | chains, external digests as section variables with 32-byte outputs | corollaries of C07, C22, C24, C32 |
| C32 | `lyra2mod` | same refinement, parametric in the row choice |
| C33 | `lyra2` | corollary of C02 and C60 (`Capacity.v`) + witness |
| C34-C36 | the same functions logging every matrix word read or written and every sponge round (`MAccess.v`) | closed form of the log by induction on every loop (`SpecAccess.v`), counted and compared; erasing the log gives back the model; the translator also emits a logging version of the source (`SrcLyra2Log.v`, `SrcLyra2modLog.v`), whose log is proved to be this one (`SrcLogFacts.v`, `SrcLogTop.v`, `PSrcLog.v`) |
| C37 | every function, translated mechanically (`Src*.v`) | the translated and the hand-written functions are compared statement by statement (a lockstep tactic), loop by loop with a relation between their loop variables (`SrcFacts.v` - `SrcHash3.v`) |
| C38 | the statements of `lyra2` up to the end of setup (`MPhases.v`) | every row operation of the setup is undone column by column from last to first (`InjFacts.v`); the absorption of a differing block is a permutation applied to different states |
| C39 | the same up to the end of wandering, with the log of row operations | the phase is a replay of its log, and each row operation is injective on matrix and sponge (`PhaseFacts.v`); without the condition on rows the claim is refuted by two explicit states (`WanderMerge.v`); the contents being finite in number, injective row operations are permutations, and the merging phase misses some contents (`PermFacts.v`) |
| C40 | `cubehash_state`, `cubehash_read`: sum cut before its output (`MDigestState.v`) | every step of a round has an inverse; composition; absorption by xor is injective (`CubePerm.v`); the final rounds are a permutation and the output a projection (`DigestBalance.v`) |
| C41 | the calls themselves | from the exact domains: acceptance mentions lengths only (`ConsensusFacts.v` for the digests, `AnyKey.v` for every key length and row count); the wrapped case is refuted by evaluating two calls (`WrapFailure.v`) |
| C42 | the calls themselves | both platforms compute the same closed form (`ConsensusFacts.v`) |
| C43 | the selectors, and the first entry of the log of wandering | counting lemmas on lists of all words and of all states, by induction on bits and on words (`RowCount.v`, `RowCount2.v`, `FirstRow.v`) |
| C44, C45 | the same functions logging the vectors they allocate and drop, with their contents (`MHeap.v`) | closed form of the log (`HeapFacts.v`), counted, and searched for the inputs; erasing the log gives back the model |
| C46 | `bmw_first_pipe`, `bmw_fold_first`, `bmw_second_pipe`, `bmw_read`: sum cut at the first half of q in both compressions (`MDigestState.v`) | each s-function is linear over xor with an explicit inverse (checked on the 32 basis words); the 16x16 matrix of signs has determinant prime to 2 and an explicit adjugate; padding is injective (`BmwPerm.v`, `BmwState.v`) |
| C47 | the chains of C27 to C30 | values of the chains; induction over the list of stages (`CollisionFacts.v`) |
| C48 | both variants with their logs (`MTrace.v`) | the key is a function of the setup phase and the wandering log (`VariantFacts.v`) |
| C49 | `until_setup`, `wrap_up` (`MPhases.v`) | witness for the refutation; the length is a word of an absorbed block, so C38 applies; loop invariant of `squeeze` (`KeyLengthFacts.v`) |
| C50 | the log of row operations (`MTrace.v`) | the closed form of the schedule of C11; induction on its list of rows (`PScheduleLemmas.v`) |
| C51 | the phases of `MPhases.v` | the wandering phase and the last absorption are permutations (C39, C17); what remains is to count the states whose first bytes are given (`KeyCount.v`) |
| C52 | `round_lyra`, `blake2b_lyra`, `two_rounds`, `sixteen_rounds` | the round with an abstract G commutes with a turn, by computation on sixteen variables; each step of the CubeHash round commutes with an exchange; the rest is bijectivity (C17, C40) and the constants (`SymmetryFacts.v`) |
| C53 | the translated source with a log that survives the panic (`SrcLyra2Log.v`, `SrcLyra2modLog.v`, `Kept.v`, `MKept.v`) | the part before the output is extracted returns for every accepted size and its log is that of C34; otherwise the size computation panics or the writing of the input does, and a bound on the log is carried through its loops (`FailFacts.v`) |
| C54 | the chained hashes as translated with the logs of their Lyra2 calls (`SrcChainsLog.v`) | each chain reaches its Lyra2 call with a 32-byte string, so that C34 and the closed form of the work for powers of two apply; the logs of two runs by C35 |
| C55 | the step log of `MTrace.v`, the access log of the translated source, and a specification of the steps (`SpecSteps.v`) | lockstep simulation of the wandering loop with its step log and with its access log against the specified visits (`StepFacts.v`); replaying the specified steps is the specified computation |
| C56 | the source translated with a log of everything observable but the data: indices, slice bounds, vector sizes, loop ranges, branches and row choices (`Seen.v`, `Src*Seen.v`) | a relation between two runs, closed under sequencing, branches on equal conditions and loops, holds of the two runs statement by statement (`SeenFacts.v`, `SeenLyra2.v`, `SeenHash.v`); dropping the log gives the translation, keeping its matrix accesses the log of C34 (`SeenErase.v`) |
| C57 | the same log; rows hidden (`SpecShape.v`) | a second relation between two runs that both return, in which the row picked may differ: equal kinds of observations statement by statement (`SeenShape.v`); the columns of the addresses from C35, the end of the second run from C41 (`PShapeLemmas.v`) |
| C58 | the same logs, of failing calls | a third relation: equal logs and equal sponge states up to the first round of the sponge (`SeenEarly.v`), with C53 for the calls that fail before it; for all others the run is cut before the extraction of the key, a part that returns (`SeenUpto.v`), to which the relation of C57 applies, and the extraction is compared by that of C56 (`PTotalLemmas.v`) |
| C59 | the call cut at the end of the setup phase (`MPhases.v`, `MRest.v`) | two matrices that agree in the rows used keep doing so through every row operation, on the description of Lyra2, and the refinement carries this to the code (`UnusedFacts.v`); the count by induction on the binary digits of n_rows-1 |
| C60 | `lyra2` with n_rows as i64 negative | with overflow checks every step of the first pass leads from a row that is not positive to a negative one, so the loop is not left (`BigRows.v`); without them addresses are taken modulo 2^bits, so rows alias modulo 2^(bits-2), and an invariant keeps all of them below n_rows mod 2^(bits-2) (`ReleaseRows.v`); other properties assume `R < 2^63 \/ overflow_checks p = true`, of which the second case is reduced to the first (`CheckedRows.v`) |
| C61 | the source translated with a log of the vectors of words it allocates and drops (`Held.v`, `SrcLyra2Heap.v`, `SrcLyra2modHeap.v`, `SrcChainsHeap.v`) | dropping the log gives the translation, and a returning call has the log of `MHeap.v` (`HeldFacts.v`, `HeldTop.v`); a bound on the words in use is carried through every statement, with the lengths of the vectors, whether the statement returns or panics (`HeldSafe.v`); the chains by composition (`ChainHeap.v`) |

## Trusted base

* The kernel of Coq 8.16.1, including its `vm_compute` conversion (used for the
  known-answer tests, for a few concrete witnesses and for closed constants).
  No plugin, no native compilation, no kernel check is switched off.
* Axioms: none.  `Print Assumptions` stands after every property theorem in
  `P*.v` and prints `Closed under the global context` for each of them.
  (`coqchk` lists the constants `Coq.ssr.ssrunder.Under_rel.*` of the standard
  library because std++ loads ssreflect; no theorem uses them.)
* Libraries: the Coq standard library and std++ (definitions and lemmas only).
* The reading of the Rust source into Gallina.  It is mechanical:
  `tools/rust2coq.py` parses the Rust subset the crate is written in and
  translates every function statement by statement, with the types of all
  subexpressions inferred (`python3 tools/rust2coq.py /repo/src DIR`
  reproduces `SrcUtils.v`, `SrcLyra2.v`, `SrcLyra2mod.v`, `SrcCube.v`, `SrcBmw.v`,
  `SrcChains.v`, `SrcLyra2Log.v`, `SrcLyra2modLog.v`,
  `SrcChainsLog.v`, `SrcLyra2Seen.v`, `SrcLyra2modSeen.v`, `SrcCubeSeen.v`, `SrcBmwSeen.v`,
  `SrcChainsSeen.v`, `SrcLyra2Heap.v`, `SrcLyra2modHeap.v`, `SrcChainsHeap.v`; anything outside the subset is an error).  Trusted are therefore
  this translator and the meaning of the Rust operations it uses
  (`Machine.v`, `SrcOps.v`), not a manual transcription: the hand-written model
  `M*.v`, in which the other properties are stated, is *proved* equal to the
  translation on all arguments (C37).  For the properties of memory accesses the
  same script translates lyra2.rs and lyra2mod/mod.rs once more, with a log entry
  (`Log.v`, `Kept.v`) at every place that indexes `whole_matrix` or calls `round_lyra`; the
  hand-instrumented model `MKept.v` is proved equal to it, log included, and `MAccess.v`
  to be `MKept.v` without the log of a panicking call.  For C56 the script translates
  the functions a third time, with an entry (`Seen.v`) also at every other index that is
  not a literal, slice, vector size, loop range and `if`; that an operation on words
  takes the same time whatever its operands is not modelled.  For C61 it translates them a
  fourth time, with an entry (`Held.v`) where a vector of words is allocated, copied or
  resized and, at the end of a function, for each vector the function owns.  `theories/Tests.v` and
  `theories/ChainTests.v` evaluate the model on the known-answer tests of the
  repository.  (Of the chained hashes one test each of lyra2re, lyra2rev2 and
  lyra2rev3 is in the build, to keep it short; the others, lyra2z and the 80-byte
  block header of README.md were evaluated once in the same way, with the
  expected results.)  (`MBmwGen.v` / `MCubeGen.v` come from `tools/gen_models.py`, an
  earlier and simpler script; by C37 it need not be trusted.)
* The specifications `Spec*.v`: words, BLAKE2b (RFC 7693), Lyra2, CubeHash,
  BMW, the chains, and (for the examples of C27-C31 only) BLAKE-256,
  Keccak-256, Skein-512-256 and Groestl-256.

### What is modelled

| source | model |
|--------|-------|
| all of the files below, without their tests | `Src*.v` (mechanical translation) |
| `src/utils.rs` | `MUtils.v` |
| `src/lyra2.rs` | `MLyra2.v` (all functions), `MTrace.v`, `MAccess.v`, `MKept.v`, `MHeap.v` (the same functions writing a log) |
| `src/lyra2mod/mod.rs` | `MLyra2.v`: `lyra2mod`, `lyra2mod_sum`; its helper functions are textual copies of those of `lyra2.rs` and share their definitions |
| `src/cubehash/mod.rs` | `MCube.v`, `MCubeGen.v` |
| `src/bmw/mod.rs` | `MBmw.v`, `MBmwGen.v` |
| `src/lyra2re.rs`, `lyra2rev2.rs`, `lyra2rev3.rs`, `lyra2z.rs` | `MChains.v` |

`MTrace.v` repeats the control structure of `MLyra2.v` with an event log
(blocks absorbed, rows visited).  `lyra2_log_erase` proves that erasing the log
gives back the model, and C55 that the logged steps are the ones carried out:
replaying them gives the key, and the memory accesses of the translated source
are theirs.  `MAccess.v` does the same with the memory accesses
(`lyra2_accesses_erase`), `MHeap.v` with the vectors allocated and dropped
(`lyra2_heap_erase`).

### What is not modelled

* The external digest crates (blake-hash, sha3, skein-hash, groestl): variables
  in the theorems about the chains, constrained only to return 32 bytes.
* Failure of the allocator below `isize::MAX` bytes (it aborts the process),
  stack exhaustion, time and memory consumption (apart from the counts
  of C34 and C44), contents of freed stack memory and of byte vectors that a
  growing vector leaves behind.  What unwinding frees after a panic.
* Targets whose pointers have neither 32 nor 64 bits.
* Test functions and documentation text, except where a property quotes it.
