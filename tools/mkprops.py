# Generates /verif/properties.jsonl (one property per line).
import json
P=[]
def p(title,statement,quantifier,why,anchors):
    P.append(dict(id="C%02d"%(len(P)+1),title=title,statement=statement,quantifier=quantifier,why_tests_cant=why,anchors=anchors))
L="src/lyra2.rs"; M="src/lyra2mod/mod.rs"; B="src/bmw/mod.rs"; Q="src/cubehash/mod.rs"; U="src/utils.rs"
p("A key that is returned has the requested length",
  "Whenever lyra2::lyra2(k, pwd, salt, time_cost, n_rows, n_cols) returns a vector, that vector has exactly k elements and each one is a byte.",
  "every k, every password and salt, every time_cost, n_rows, n_cols in u64",
  "the parameter space is 2^256 times all byte strings; tests sample three points",
  [L+": lyra2, squeeze"])
p("Exact set of calls that return",
  "lyra2::lyra2 returns (rather than panicking) exactly when time_cost >= 1, n_rows >= 3, k <= 96, the padded input 64*((|pwd|+|salt|+48)/64+1) bytes fits in the 96*n_rows*n_cols byte matrix, and that matrix is not larger than isize::MAX bytes; every matrix access of a returning call is in bounds.",
  "all u64 parameters, all passwords and salts (64-bit target, overflow checks on); for the other platforms the exact set is given too, unless n_rows >= 2^63, overflow checks are off and the matrix size wraps around twice",
  "absence of a panic over all parameters, and presence of a panic on the whole complement, is a universally quantified claim",
  [L+": lyra2"])
p("Documented panics always happen",
  "A call with time_cost < 1 or n_rows < 3 panics, whatever the other arguments, the target width or the build profile are.",
  "all arguments, both build profiles, 32- and 64-bit targets",
  "needs all values of the other arguments",
  [L+": lyra2 (doc comment # Panics)", M+": lyra2mod"])
p("Every call terminates",
  "No call of lyra2::lyra2 (or of its lyra2mod variant) runs forever: the inner visitation loop `loop { ... if row == 0 {break} }` comes back to row 0 for every number of rows, also when it is not a power of two, and whatever the memory contents.",
  "all u64 parameters, all inputs, both build profiles, both widths",
  "non-termination for some n_rows among 2^64 cannot be excluded by running finitely many",
  [L+": lyra2 (lines 531-643)", M+": lyra2mod"])
p("Output lengths above 96 bytes",
  "The interface takes any u64 output length k. Desired: k > 96 returns k bytes by squeezing further blocks. Actual code: every call with k > 96 panics (refuted), on every input; except that on 32-bit targets k >= 2^63 returns k mod 2^32 zero bytes when that many fit.",
  "every k > 96, all other arguments",
  "existing tests only use k <= 48; the claim is about all larger k",
  [L+": squeeze"])
p("Input-length limit of lyra2::sum",
  "lyra2::sum(input) returns 32 bytes exactly when the input is at most 743 bytes long, and panics for every longer input (undocumented).",
  "all byte strings",
  "holds for all contents and all lengths, including the boundary",
  [L+": sum, lyra2"])
p("lyra2 computes Lyra2",
  "For every accepted argument tuple the returned key equals the one given by the Lyra2 description over a rows x columns matrix of 96-byte blocks: absorb pad(pwd||salt||basil), setup rows 0, 1 and 2..R-1 (reverse columns, feedback into row* with rotation by one word), time_cost wandering passes, absorb M[row*][0], squeeze k bytes. (True for power-of-two row counts and inputs of whole 8-byte words; for other arguments the code follows the same description with the row reduction (n_rows-1) AND x instead of x mod n_rows and without the incomplete words, and the equality fails.)",
  "all accepted arguments",
  "functional equality on all inputs; flat-index arithmetic (row*row_len+col*12+j) with aliasing of row, prev and row* has to be right for every shape",
  [L+": lyra2, absorb_block, absorb_block_blake2_safe, squeeze"])
p("A wandering pass visits every row exactly once (power-of-two rows)",
  "If n_rows is a power of two, each wandering pass updates every row of the matrix exactly once, in the order 0, s, 2s, ... mod n_rows (s = n_rows/2-1 on odd passes, -1 on even ones), so the cost is exactly time_cost*n_rows row operations.",
  "all n_rows = 2^e (e >= 2), all passes, all data",
  "unbounded family of row counts",
  [L+": lyra2 lines 529-643"])
p("Wandering coverage for other row counts",
  "Desired: every pass visits all rows for any n_rows. Actual: with n_rows not a power of two, rows whose index is not a bit-submask of n_rows-1 are never visited as `row` nor chosen as row* (refuted); e.g. n_rows = 2^e+1 performs a single row operation per odd pass. The set visited on even passes is exactly the submasks of n_rows-1. All odd passes visit the same rows, and that is row 0 alone exactly when no two adjacent binary digits of n_rows-1 are both one.",
  "all returning calls with any n_rows (below 2^63 without overflow checks), all passes, all data, all platforms, both variants",
  "quantifies over all row counts and memory contents",
  [L+": lyra2 lines 541-542, 637"])
p("Setup revisits only finished rows and covers each window",
  "While row r (2 <= r < n_rows) is being built, the revisited row* is an already initialised row different from r and r-1, namely ((r-w)*s) mod w for the window w = 2^floor(log2 r) and the stride s, which is 1 for w = 2 and afterwards w/2+1 and w/2-1 alternately; while r ranges over one complete window every earlier row is revisited exactly once.",
  "all returning calls with any n_rows (below 2^63 without overflow checks), all rows, all platforms, both variants",
  "doubling-window arithmetic must hold for all row counts",
  [L+": lyra2 lines 414-526"])
p("Visitation schedule does not depend on secrets",
  "The sequence of (row, prev, row*) triples of the setup phase and the sequence of (row, prev) of the wandering phase are functions of n_rows and time_cost only; password, salt and memory contents do not influence them.",
  "all pairs of passwords/salts/contents",
  "a relational property over pairs of runs",
  [L+": lyra2"])
p("Password material is overwritten",
  "When the setup phase ends no word of the working matrix depends on what the matrix held before (password, salt, basil): the matrix and sponge state are functions of the sponge state after absorption and of n_rows, n_cols only.",
  "all previous matrix contents of the right size, all shapes",
  "relational over all memory contents",
  [L+": lyra2 (comment lines 280-281, 343)"])
p("Distinct inputs feed distinct data to the sponge",
  "The block sequence absorbed determines k, |pwd|, |salt|, time_cost, n_rows, n_cols and all complete 8-byte words of pwd and salt; hence two accepted calls whose password and salt lengths are multiples of 8 absorb the same data only if all six arguments are equal.",
  "all pairs of accepted calls",
  "injectivity over pairs of inputs",
  [L+": lyra2 lines 284-339"])
p("Trailing bytes of password and salt",
  "Desired: changing any byte of the password changes what is hashed. Actual: the last |pwd| mod 8 bytes of the password and |salt| mod 8 bytes of the salt are never read, so calls that differ only there return the same key (refuted; e.g. lyra2::sum(\"abc\") = lyra2::sum(\"xyz\")).",
  "all passwords/salts of each length, all parameters",
  "universally quantified insensitivity; known-answer tests happen to be consistent with it",
  [L+": lyra2 lines 289-302"])
p("Conformance of the input padding",
  "For password and salt lengths that are multiples of 8 the absorbed data is exactly the byte string pwd || salt || le64(k) || le64(|pwd|) || le64(|salt|) || le64(time_cost) || le64(n_rows) || le64(n_cols) || 0x80 0..0 0x01 of the Lyra2 definition cut in 64-byte blocks; for other lengths it differs (refuted).",
  "all aligned inputs",
  "all lengths and contents",
  [L+": lyra2 lines 284-324"])
p("Password/salt boundary is bound",
  "Moving bytes across the password/salt boundary changes the data absorbed by the sponge, and so does swapping password and salt unless their lengths and their complete 8-byte words agree (for lengths that are multiples of 8: unless they are equal; otherwise refuted).",
  "all splits of all byte strings",
  "pairs of inputs",
  [L+": lyra2 lines 288-318"])
p("Absorption loses no information",
  "The sponge transformations used between blocks (one round, and twelve rounds) are permutations of the 1024-bit states, so two runs with equal sponge state that absorb different blocks have different states afterwards and equal later states imply equal earlier states.",
  "all pairs of 1024-bit states and blocks",
  "bijectivity on 2^1024 states",
  [L+": g, round_lyra, blake2b_lyra, reduced_blake2b_lyra, absorb_block, absorb_block_blake2_safe"])
p("The all-zero state is the only preimage of the all-zero state",
  "The sponge transformation maps the zero state to itself and no other state to zero; starting from the initial state (with the Blake2b IV) the first absorption never ends in the zero state.",
  "all states, all first blocks",
  "2^1024 states",
  [L+": init_state, round_lyra (comment 86-96)"])
p("The sponge round is the BLAKE2b round",
  "The transformation equals the RFC 7693 round with zero message words: G with rotations 32, 24, 16, 63 on the four columns, then on the four diagonals.",
  "all states",
  "functional equality on 2^1024 states",
  [L+": rotr64, g, round_lyra", M+": same"])
p("Debug and release builds agree",
  "For every call with n_rows < 2^63 a build with overflow checks and one without return the same key or both panic. For n_rows >= 2^63 they need not agree (refuted): the unchecked build can return a key computed on a tiny matrix where the checked build panics.",
  "all arguments",
  "needs all arguments including those where i64 arithmetic wraps",
  [L+": lyra2 (i64 arithmetic)"])
p("32-bit and 64-bit targets agree",
  "If a call fits a 32-bit address space (matrix at most 2^31-1 bytes) and k <= 96, 32-bit and 64-bit targets return the same key; for n_rows, k < 2^63 a call that returns on 32 bits also returns the same on 64 bits. For k >= 2^63 a 32-bit target may return all zero bytes instead of panicking (refuted).",
  "all arguments, both widths",
  "cross-platform relational property",
  [L+": lyra2, squeeze (`as usize` casts)"])
p("cubehash::sum is CubeHash16/32-256",
  "On every 32-byte message the result equals CubeHash16/32-256 (initial state derived from h=32, b=32, r=16 by 10r rounds, 0x80 padding block, xor 1 into the last word, 10r final rounds), with the two-rounds-per-iteration unrolled code equal to the round of the CubeHash definition.",
  "all 32-byte messages; all 1024-bit states for the round",
  "functional equality on 2^256 messages",
  [Q+": IV, input_block, sixteen_rounds, sum"])
p("Domain of cubehash::sum",
  "cubehash::sum panics exactly when the input is shorter than 32 bytes, returns 32 bytes otherwise, and ignores all bytes after the 32nd.",
  "all byte strings",
  "all lengths and contents",
  [Q+": sum, input_block"])
p("bmw::sum is BMW-256 on short messages",
  "On every message of at most 55 bytes the result equals Blue Midnight Wish 256 (f0, f1 with 2 expand1 and 14 expand2 rounds, f2, final compression with the constant 0xaaaaaaa0..af), serialised little-endian.",
  "all messages up to 55 bytes; all chaining values and blocks for the compression",
  "functional equality on all messages",
  [B+": compress, sum"])
p("Domain of bmw::sum",
  "bmw::sum panics exactly on inputs of 64 bytes or more and otherwise returns 32 bytes; on inputs of 56 to 63 bytes the result ignores the bytes from position 56 on, so it is not collision-free there (refuted against BMW-256).",
  "all byte strings",
  "all lengths and contents",
  [B+": sum"])
p("Little-endian codec",
  "Reading back the little-endian bytes of a word gives the word, writing the word read from 4 (8) bytes gives the bytes; the readers panic exactly when fewer than 4 (8) bytes are given and ignore further ones.",
  "all words, all byte strings",
  "2^64 words",
  [U+": read_u32_le, read_u64_le"])
p("lyra2re::sum is total and is the specified chain",
  "For every input lyra2re::sum returns 32 bytes without panicking, equal to Groestl256(Skein512-256(Lyra2(32, d, d, 1, 8, 8))) with d = Keccak256(Blake256(input)).",
  "all byte strings, for any 32-byte digest functions in place of the external crates",
  "all inputs; panic freedom of an internally partial function",
  ["src/lyra2re.rs: sum"])
p("lyra2rev2::sum is total and is the specified chain",
  "For every input lyra2rev2::sum returns 32 bytes without panicking, equal to BMW256(CubeHash256(Skein512-256(Lyra2(32, d, d, 1, 4, 4)))) with d = CubeHash256(Keccak256(Blake256(input))).",
  "all byte strings", "all inputs", ["src/lyra2rev2.rs: sum"])
p("lyra2rev3::sum is total and is the specified chain",
  "For every input lyra2rev3::sum returns 32 bytes without panicking, equal to BMW256(L(CubeHash256(L(Blake256(input))))) with L(x) = Lyra2mod(32, x, x, 1, 4, 4).",
  "all byte strings", "all inputs", ["src/lyra2rev3.rs: sum"])
p("lyra2z::sum is total and is the specified chain",
  "For every input lyra2z::sum returns 32 bytes without panicking, equal to Lyra2(32, d, d, 8, 8, 8) with d = Blake256(input).",
  "all byte strings", "all inputs", ["src/lyra2z.rs: sum"])
p("The chained hashes depend on the input only through Blake-256",
  "Two inputs with the same Blake-256 digest have the same lyra2re, lyra2rev2, lyra2rev3 and lyra2z results.",
  "all pairs of inputs", "pairs of inputs", ["src/lyra2re.rs","src/lyra2rev2.rs","src/lyra2rev3.rs","src/lyra2z.rs"])
p("lyra2mod is Lyra2 with the REv3 row choice",
  "For every accepted argument tuple the variant used by lyra2rev3 equals Lyra2 except that row* is state[i' mod 16] mod-masked with n_rows-1 where i' = state[i mod 16] and i is carried from one row operation to the next across passes, starting at 0.",
  "all accepted arguments",
  "functional equality on all inputs",
  [M+": lyra2mod"])
p("Documented capacity",
  "The doc comment promises support for passwords and salts whose combined length is smaller than the matrix. Refuted: the basil and padding need room as well; supported iff 64*((|pwd|+|salt|+48)/64+1) <= 96*n_rows*n_cols.",
  "all lengths, all shapes whose matrix fits isize::MAX bytes, all platforms, lyra2 and lyra2mod", "boundary over all shapes", [L+": lyra2 comment lines 213-217"])
p("Amount of work",
  "A successful call with n_rows = 2^e does exactly (t+1)*n_rows*n_cols reduced sponge rounds on the matrix plus a fixed number for input and output, with exact counts of the matrix words read and written; for any n_rows the number lies between one sweep plus one row per pass and t+1 sweeps. For any n_rows it is one sweep, plus the submasks of n_rows-1 for each even pass, plus one and the same number of rows for each odd pass. That t+1 full sweeps are always done is refuted for row counts that are not powers of two.",
  "all accepted arguments, all platforms",
  "a cost for every parameter choice",
  [L+": lyra2", M+": lyra2mod"])
p("Memory addresses do not reveal the secrets before wandering",
  "For fixed lengths and parameters the sequence of matrix words read and written up to the end of setup is the same for all passwords and salts; afterwards two runs differ at most in the row number of an access, never in kind, order, column or word. The whole sequence has a closed form up to the row* choices. That the addresses of the wandering phase are the same too is refuted.",
  "all pairs of passwords and salts of equal lengths, all accepted parameters, any two platforms, lyra2 and lyra2mod",
  "relational over all pairs of secrets",
  [L+": lyra2 lines 286-642", M+": lyra2mod"])
p("No stale memory is used",
  "After the input has been absorbed no matrix word is read before setup has written it, and every matrix word is written; after setup every access stays inside the matrix and inside rows whose number is a submask of n_rows-1. (Refuted for n_rows >= 2^63 in builds without overflow checks, where words that still hold the password are read.)",
  "all accepted arguments, all platforms, every position of the access sequence",
  "holds at every point of every run",
  [L+": lyra2 lines 334-642", M+": lyra2mod"])
p("The source text computes the specified functions",
  "Each public function, as its statements are written (every index computation, cast, checked or wrapping operation, slice and loop in source order), returns the specified value or panics exactly as the other properties say: lyra2::lyra2 and the lyra2rev3 variant compute Lyra2 on accepted calls and panic on the others, CubeHash and BMW return the specified digest on their domains and panic outside, the four chained hashes always return the specified chain. The sponge functions of the lyra2rev3 variant, which are a second copy of those of lyra2::lyra2, agree with the first copy on every argument.",
  "all arguments, all 32 and 64 bit platforms with and without overflow checks",
  "equality of two programs on all inputs",
  [L, M, "src/cubehash/mod.rs", "src/bmw/mod.rs", "src/utils.rs", "src/lyra2re.rs","src/lyra2rev2.rs","src/lyra2rev3.rs","src/lyra2z.rs"])
p("The setup phase loses no input",
  "Two accepted calls with the same matrix shape whose absorbed inputs differ in exactly one 64-byte block end the setup phase with different contents of the matrix and sponge. This applies to calls that differ only in the key length, only in the time cost, only inside one aligned 64-byte block of the password, and to a 32-byte digest used both as password and as salt, as the chained hashes do.",
  "all pairs of accepted calls with the same n_rows and n_cols, all platforms",
  "injectivity over all pairs of inputs",
  [L+": lyra2 lines 245-527", M+": lyra2mod"])
p("The wandering phase loses nothing for a given sequence of revisited rows",
  "Two accepted calls with the same costs that perform the same row operations in the wandering phase and end it with the same matrix and sponge entered it with the same matrix and sponge; so inputs that differ in one block and revisit the same rows still differ after wandering. Indeed the phase applies a permutation of the contents of matrix and sponge that depends only on the costs and the rows visited. When different rows are revisited, distinct contents of memory can be merged, and some contents cannot be reached at all.",
  "all pairs of accepted calls with the same time_cost, n_rows, n_cols, any rule for choosing row*, all platforms",
  "injectivity over all pairs of inputs and any number of passes",
  [L+": lyra2 lines 529-643", M+": lyra2mod"])
p("CubeHash loses nothing until it truncates its state",
  "The rounds of the code permute the 1024-bit states, and cubehash::sum on inputs of at least 32 bytes ends in the same final state for two inputs exactly when their first 32 bytes agree: different 32-byte inputs can only share a digest through the part of the state that is not returned. Every digest comes from exactly one state before the final rounds for each value of the part that is not returned, so no digest is favoured.",
  "all states, all pairs of inputs, all platforms",
  "bijectivity and injectivity over 2^1024 states and 2^256 inputs",
  ["src/cubehash/mod.rs: sum, sixteen_rounds, input_block"])
p("Failure depends on sizes only",
  "Whether a call panics is decided by the numeric parameters and the total length of password and salt (for the digests, by the length of the input), never by the bytes nor by the boundary between password and salt; so a failure tells an observer nothing about the secrets. (Refuted for n_rows >= 2^63 in builds without overflow checks when the wrapped matrix size wraps around once more, which makes the panic depend on the password.)",
  "all pairs of inputs of equal length, all parameters (with n_rows >= 2^63 and no overflow checks, those where 12 * (n_rows mod 2^(bits-2)) * n_cols is below 2^bits), all platforms",
  "relational over all pairs of secrets",
  [L+": lyra2, sum", M+": lyra2mod, sum", "src/cubehash/mod.rs: sum", "src/bmw/mod.rs: sum"])
p("Digests agree on every platform",
  "lyra2::sum, the sum of the lyra2rev3 variant, cubehash::sum, bmw::sum and the four chained hashes give the same result, value or panic, on 32 and 64 bit targets and with or without overflow checks.",
  "all inputs, all pairs of platforms",
  "all inputs on targets that are not the one the tests run on",
  [L+": sum", M+": sum", "src/cubehash/mod.rs: sum", "src/bmw/mod.rs: sum", "src/lyra2re.rs: sum","src/lyra2rev2.rs: sum","src/lyra2rev3.rs: sum","src/lyra2z.rs: sum"])
p("The choice of the revisited row is unbiased",
  "With n_rows a power of two every row is selected for revisiting by the same number of sponge states. Refuted for other n_rows (only submasks of n_rows-1 are ever selected, equally often) and for the lyra2rev3 variant, whose first choice, with R a power of two up to 16, selects row 0 in (15+R)/(16R) of the states and any other row in 15/(16R); with a larger power of two the multiples of 16 are each selected in 31/(16R) of the states and the other rows in 15/(16R).",
  "all values of the sponge state, all row counts",
  "a statement about the distribution over 2^1024 states",
  [L+": lyra2 line 542", M+": lyra2mod lines 507-521"])
p("A call needs two matrices of heap and copies the matrix once per input block",
  "While a call runs it has at most, and at some moment exactly, 24*n_rows*n_cols words of 64 bits allocated: twice the documented matrix. All of it has been given back when the call returns. In total it allocates and copies the matrix once per 64-byte block of padded input (each time 8 words less) and once more from the last revisited row on, so the cost of absorbing grows as input blocks times matrix size.",
  "all returning calls of both variants, all platforms, any number of rows (below 2^63 without overflow checks)",
  "resource use for all lengths and costs; tests observe digests only",
  [L+": lyra2 lines 274, 334-339, 648-649", M+": lyra2mod lines 251, 311-316, 627-628"])
p("Secrets are wiped before memory is returned to the allocator",
  "Refuted: the comment in lyra2 promises that the local copy of the password is overwritten as soon as possible, but for every returning call a buffer given back to the allocator still holds, side by side, the complete words of the password and of the salt; the password and salt vectors and a copy of the key are given back unchanged too.",
  "all returning calls of both variants, all platforms, any number of rows (below 2^63 without overflow checks); for the copy of the key, lengths below 2^63 on 32 bits",
  "contents of memory that the API does not return, for all secrets",
  [L+": lyra2 lines 280-281, 337, 653; squeeze line 149", M+": lyra2mod, squeeze"])
p("BMW loses nothing before it folds its pipes",
  "For every chain value the first half of the compression (the sixteen words q[0..15]) is a bijection of the 512-bit message blocks. So inputs of bmw::sum of at most 63 bytes reach the same words there exactly when they have the same length and the same first 56 bytes; different inputs of at most 55 bytes always differ there, and differ again in the second compression unless the first one folded them onto the same chain value. A shared digest can only come from the folding.",
  "all chain values, all pairs of inputs, all platforms",
  "bijectivity over 2^512 blocks for each of 2^512 chain values",
  ["src/bmw/mod.rs: sum, compress"])
p("A collision of a chained hash is a collision of one of its stages",
  "Two different inputs of lyra2re, lyra2rev2, lyra2rev3 or lyra2z have the same result exactly when, following both runs, some stage (a digest of another crate, Lyra2 on equal password and salt, CubeHash or BMW) is given two different values and returns the same one: the way the stages are put together adds no collision and removes none.",
  "all pairs of different inputs, all 256-bit digests in place of the external crates, all pairs of platforms",
  "relational over all pairs of inputs; no collision is known to test with",
  ["src/lyra2re.rs: sum","src/lyra2rev2.rs: sum","src/lyra2rev3.rs: sum","src/lyra2z.rs: sum"])
p("The two variants of Lyra2 differ in the revisited rows only",
  "If lyra2 and the variant of lyra2rev3, given the same arguments, both return and revisit the same rows in the wandering phase, they return the same key.",
  "all arguments for which both return, all platforms",
  "equality of two programs over all inputs; over 600 lines are duplicated between the two files",
  [L+": lyra2", M+": lyra2mod"])
p("The requested length is part of the key",
  "A key of k bytes is not the beginning of a longer key asked for with the same password, salt and costs (the extension property of other key derivation functions is refuted): calls that differ in k only always end the setup phase with different contents of memory and sponge. From the same final memory and sponge a shorter key is a prefix of a longer one.",
  "all accepted calls, all pairs of lengths, all platforms",
  "difference of internal states for all pairs of lengths and all passwords",
  [L+": lyra2 lines 245-527, 648-653; squeeze", M+": lyra2mod, squeeze"])
p("Every row is read right after it is written",
  "The row operations form one chain: row r of the setup phase is computed from row r-1, the first step of the wandering phase reads the last row of the setup phase, and every later step reads the row the step before it visited. No step can be left out or started before its predecessor has finished.",
  "all returning calls of both variants, any number of rows (below 2^63 without overflow checks) and of passes, all platforms",
  "a statement about every step of executions of any length",
  [L+": lyra2 lines 414-526, 538-642", M+": lyra2mod"])
p("No key is favoured",
  "For a given sequence of row operations every key of the requested length (at most 96 bytes) is returned for the same number of contents of matrix and sponge after the setup phase; and for a given matrix and last row every key is extracted from the same number of sponge states.",
  "all platforms, matrix sizes, sequences of row operations and keys; all accepted calls of both variants for the link to the code",
  "a count over 2^1024 states and more",
  [L+": lyra2 lines 538-653, squeeze, absorb_block", M+": lyra2mod"])
p("The permutations neither create nor remove symmetry",
  "Turning the columns of the 4x4 sponge state before the transformation of Lyra2 or after it gives the same state, and so does exchanging the CubeHash words whose numbers differ in given bits (not the highest) before or after the rounds. So a state with such a symmetry keeps it and no other state acquires it; and whatever the input is, the state after its first block has none of these symmetries.",
  "all states, all three turns and all fifteen exchanges, all first blocks",
  "a statement about every one of 2^1024 states, and about every input",
  [L+": round_lyra, blake2b_lyra, init_state, absorb_block_blake2_safe", "src/cubehash/mod.rs: sixteen_rounds, input_block, new_cube_hash"])
p("What a failing call costs",
  "A call whose time cost, row count, matrix size or input length is unacceptable panics before the first round of the sponge, having written at most the padded input into the matrix, and nothing at all when the time cost, row count or matrix size is the reason. This holds whenever the size of the matrix is computed without wrapping (64-bit builds with overflow checks and fewer than 2^63 rows, or 12 n_rows n_cols below 2^63 and the address space); where it wraps, sponge rounds are run before the panic. A call that only asks for more than 96 bytes panics last: all of the setup and all passes are done first, (t+1) n_rows n_cols reduced rounds for a power of two of rows.",
  "all platforms, all argument tuples that are not accepted, both variants",
  "the log up to the panic must be known for every rejected argument tuple, and a test sees only that a call panics",
  [L+": lyra2, squeeze", "src/lyra2mod/mod.rs: lyra2mod"])
p("The chained hashes cost the same for every input",
  "Whatever the input and its length, lyra2re runs 176 rounds of the sponge and reads 5597 and writes 2896 words of the matrix in its Lyra2 call, lyra2rev2 80, 1277 and 688, lyra2rev3 160, 2554 and 1376, and lyra2z 624, 27101 and 13648. Two inputs give the same sequence of addresses except for the rows the wandering phase chooses.",
  "all inputs of any length and pairs of them, all platforms, any 256-bit digests for the external crates",
  "a statement about every input; a test can time some inputs only",
  ["src/lyra2re.rs: sum", "src/lyra2rev2.rs: sum", "src/lyra2rev3.rs: sum", "src/lyra2z.rs: sum", L+": lyra2", M+": lyra2mod"])
p("The steps of a run determine its key and its memory accesses",
  "A run is the sequence of the blocks it absorbs, of its setup steps (row, previous row, row*) and of its wandering steps (pass, row, previous row, row*), where each row* is chosen by the sponge state that the steps before it produce. Carrying out these steps in this order on an empty matrix, and nothing else, gives the returned key; and the addresses read and written by the source text, in order, are exactly those of these steps.",
  "all returning calls of both variants, any number of rows (below 2^63 without overflow checks) and of passes, all platforms (key lengths below 2^63 on 32 bits)",
  "the rows chosen depend on the whole computation so far; the equality must hold at every step of runs of any length",
  [L+": lyra2 lines 334-653", M+": lyra2mod"])
p("A run shows nothing of its secrets but the rows it chooses",
  "Take two calls with the same key length and costs, and with passwords and salts of the same lengths. Every index into every vector, slice bound, vector size, loop range and branch, and the way the call ends (the length of the key, or a panic), is the same in both, up to the first step at which the two calls choose different rows of the matrix; for lyra2mod, different rows or different words of the sponge state to take the row from. If all the choices are the same, so is everything else. CubeHash and BMW show nothing but the length of their input, and the chained hashes nothing but the choices of the Lyra2 calls inside, whatever the lengths of their inputs.",
  "all platforms, all key lengths, costs and pairs of passwords and salts of equal lengths, calls that panic included; all inputs of the hashes",
  "a statement about every pair of secrets, and about everything observable but the data",
  [L+": lyra2, squeeze", M+": lyra2mod", "src/cubehash/mod.rs: sum", "src/bmw/mod.rs: sum", "src/lyra2re.rs: sum", "src/lyra2rev2.rs: sum", "src/lyra2rev3.rs: sum", "src/lyra2z.rs: sum"])
p("Whatever rows are chosen, only the rows tell two runs apart",
  "Take two calls with the same key length and costs, and with passwords and salts of the same lengths, one of which returns. Then the other returns too, and the two runs, compared to their very end and not just to the first choice that differs, show the same sequence of branches, loop ranges, vector sizes, copies, calls of the permutation, reads and writes, with the same column and word in each address: nothing but the row numbers, and in lyra2mod the words of the sponge state the row is taken from, can differ. The same holds of two runs of each chained hash, on messages of any two lengths, outside of the external digests.",
  "all platforms, all key lengths below 2^63, all row counts (below 2^63 without overflow checks), all costs, all pairs of passwords and salts of equal lengths; all pairs of messages",
  "a statement about every pair of secrets that follows both runs after they have parted",
  [L+": lyra2, squeeze, absorb_block", M+": lyra2mod", "src/cubehash/mod.rs: sum", "src/bmw/mod.rs: sum", "src/lyra2re.rs: sum", "src/lyra2rev2.rs: sum", "src/lyra2rev3.rs: sum", "src/lyra2z.rs: sum"])
p("A call that fails shows no more of its secrets than one that returns",
  "Take two calls with the same key length and costs, and with passwords and salts of the same lengths, and no condition on whether they return. They end in the same way, and show the same sequence of branches, loop ranges, vector sizes, copies, calls of the permutation, reads and writes, but for the numbers of the rows (and in lyra2mod the words of the sponge state the row is taken from): a call that asks for more than 96 bytes, which fails after all its work, shows no more than one that returns. Calls that fail because of their costs or because the input does not fit show exactly the same, rows included; more generally nothing depends on the secrets before the first round of the sponge. The two hash functions behave alike on any two messages of the same length, too long ones included.",
  "all platforms, all key lengths, all costs for which the size of the matrix does not wrap around, all pairs of passwords and salts of equal lengths; for the statement about the first round all arguments without exception",
  "a statement about every pair of secrets and every kind of failure; a test sees a panic and not what came before it",
  [L+": lyra2, squeeze, absorb_block, sum", M+": lyra2mod, sum"])
p("The key depends on all of the memory",
  "Refuted for every number of rows that is not a power of two: the key then depends, after the setup phase, only on the rows r whose binary digits are among those of n_rows-1. All other rows can be overwritten with anything at that point, or never kept, and the call returns the same key. These are 2^(number of ones in n_rows-1) rows: all of them for a power of two, at most two thirds of them otherwise, and two if n_rows is one more than a power of two.",
  "all accepted calls of lyra2 and of the lyra2rev3 variant, all platforms, all contents of the other rows",
  "a statement about every replacement of the contents of memory between two phases of every call",
  [L+": lyra2 (wandering phase, wrap-up phase)", M+": lyra2mod"])
p("Row counts of 2^63 and more are refused",
  "In builds with overflow checks every call with n_rows >= 2^63 panics, on 32 and 64 bits, whatever the number of columns (also where the size of the matrix wraps around to a small number); so with overflow checks the calls that return are exactly the accepted ones, and what such a build returns every build returns. Refuted without overflow checks: such a call may return, on 32 and 64 bits, and if it does the setup phase has filled no row but the first two. Unless the size wraps around again, it returns exactly when n_rows modulo 2^62 (2^30 on 32 bits) is at least 2, there is a pass, at most 96 bytes are asked for and the input fits into that many rows.",
  "all platforms, all arguments with n_rows >= 2^63; for the second part all arguments",
  "astronomically large parameters cannot be enumerated, and whether one of them slips through depends on wrap-around in every later step",
  ["src/lyra2.rs: lyra2 lines 272-275, 414, 533-542, 637", "src/lyra2mod/mod.rs: lyra2mod"])
p("However a call ends, its memory is bounded",
  "A call that fails its parameter checks, or whose matrix is larger than a vector may be, allocates nothing on the heap for the matrix; every other call allocates the matrix first, has passed all checks of its costs by then, and at no moment up to its end, whether it returns or panics, has more than two matrices' worth of vectors of words in use (3072 bytes for the one-argument hash functions, lyra2rev2 and lyra2rev3, 12288 bytes for lyra2re and lyra2z). A call that returns has given all of them back.",
  "all platforms, all arguments (row counts and sizes that wrap around included), both variants, every moment of every call",
  "a statement about every moment of calls with arbitrarily large costs, failing ones included; a test cannot observe the allocations at each moment for every argument",
  [L+": lyra2, sum", M+": lyra2mod, sum", "src/lyra2re.rs: sum", "src/lyra2rev2.rs: sum", "src/lyra2rev3.rs: sum", "src/lyra2z.rs: sum"])
open("/verif/properties.jsonl","w").write("".join(json.dumps(x)+"\n" for x in P))
print(len(P))
