# Formal model of xxHash in Rocq (Coq 8.16.1)

All theorems are about an executable Gallina model of the C code in /repo, written by reading the
code (the code was neither built nor run). Every definition of the model cites the file and lines it models.

## Layout (rocq/theories)

| files | content |
|---|---|
| `Base.v` | fixed-width words as `Z` with explicit `mod 2^w`; outcome monad `res A := OK a | UB` |
| `Mem.v` | pointers = (block, offset); bounds-checked and alignment-checked reads; build configuration record |
| `M_*.v` | the model, function by function (no proofs) |
| `Spec*.v` | independent specification transcribed from doc/xxhash_spec.md and the header docs; uses none of the model's helpers |
| `P_*.v` | proofs (`P_Inj*.v`: bijectivity of the mixing steps and collision freedom) |
| `History.v` | abstract object store used as the reference for sequences of API calls |
| `Properties*.v` | the property theorems: statement, `exact`, `Print Assumptions`, and a non-vacuity `Example` beside each |
| `Vectors.v` | known-answer tests (vectors of cli/xsum_sanity_check.c) run on model and spec by `vm_compute`; tests of fidelity, not proofs |

Conventions

* A word is a `Z`; additions, multiplications, subtractions and left shifts are reduced `mod 2^32` / `mod 2^64` at
  the point where C does. Sizes are `Z`; `size_t` arithmetic that may wrap is reduced `mod 2^(width of size_t)`.
* Undefined behaviour is an outcome: an out-of-bounds read or write, a NULL dereference, a misaligned typed
  access, or a false `XXH_ASSERT` (an optimiser assumption in release builds) makes the function return `UB`.
  "f x = OK v" therefore says both what is computed and that nothing undefined happened.
* A loop is recursion on its trip count (computed from the loop bounds as in the C code).
* Build options (endianness, memory access method, alignment check, ENDJMP, SIZE_OPT, size_t width, vector
  unit, 128-bit multiply strategy...) are fields of a record `cfg`; theorems quantify over every well-formed `cfg`.

## Properties: what is modelled and how it is proved

| id | approach |
|---|---|
| C01, C02 | model of XXH32/XXH64 one-shot in the outcome monad; refinement to `Spec32`/`Spec64` by induction on the number of stripes and on the tail |
| C03, C04 | model of every XXH3 length class; refinement to `Spec3`; long inputs by induction on blocks/stripes |
| C05, C06 | invariant relating the state to the list of bytes fed; preserved by update; digest computes the spec |
| C07, C08 | same, with the buffer/stripe invariant, for any secret size >= 136 |
| C09, C10 | refinement of an abstract map handle -> (parameters, bytes) by induction over the operation list |
| C11 | invariant "non-zero seed and no external secret => customSecret = derived secret" over all histories; a refutation shows the role of INITSTATE |
| C12 | lane-level models of the intrinsics; each kernel proved equal to the scalar kernel |
| C13 | model of xxh_x86dispatch.c: CPUID/XGETBV decision over every register content (trapping instructions are UB), tables with NULL rows, global table pointers; invariant over any history of dispatched calls; refutation for the NULL table entry. Data races on the table pointers are C59; not modelled: the debug-only `dispatch` asserts |
| C14 | arithmetic proof that the four partial products recombine exactly |
| C15 | bytes <-> word lemmas |
| C16, C17 | round-trip lemmas; lexicographic order vs numeric order |
| C18 | consequence of the `OK` outcome in C01-C10; refutation for updates of SIZE_MAX bytes |
| C19-C24, C35 | model of secret generation; list-level proofs; equalities of spec functions |
| C25-C29 | bijectivity of every mixing step (odd multiplication mod 2^w, xorshift, rotation) |
| C30 | refutation: the assumption precedes the check, so the documented error is reached through UB; partial theorem for NULL with a valid size |
| C31, C32 | direct, plus the streaming invariant |
| C33 | heap of disjoint blocks; malloc's answer is arbitrary; invariant over any history of writes, allocations and frees that keeps to live memory |
| C34 | strict-pointer variant of the update functions; exact characterisation of the calls that form a pointer outside the object; refutations with witnesses |
| C45 | refutation by explicit inputs; exactly: the loop with a wrapped block length, and every kernel shown to fail at a stripe that lies beyond the input's object (objects are assumed to leave 64 bytes of the address space free); the streaming functions by the invariant of C07 and C08 |
| C47 | refutation by explicit inputs |
| C36, C46 | refutation by explicit inputs; for C36 a zero factor in any window; the exact conditions by lanes and sums that are bijective in each term |
| C37, C38, C43 | model of the CLI string functions on NUL-terminated buffers with checked accesses; `SpecCli.v` gives the grammar of checksum lines, proved equal to what the parser accepts; refutation for foreign tags |
| C39, C42, C51 | model of getLine, the check loop, its counters and its output over an abstract file system; `SpecCli2.v` defines the outcome of each line and the verdict; invariant over the lines |
| C40 | hashStream over any split of the content by fread |
| C44, C50, C53 | composition: hash files, feed the output to the checker |
| C41 | model of the number parser with wrap-around; equal to `number` of `SpecCli3.v` |
| C48, C49 | model of option processing (cli/xxhsum.c:1211-1370) on argument strings; `SpecCli3.v` gives the grammar of the options as a relation, proved total and equal to what the code does; refutation for the variant table |
| C52, C54 | composition of option processing with hashing and checking |
| C55 | model of cli/xsum_sanity_check.c; every test function proved to accept exactly the specified hash; the random cutting loop ends because the generator comes around to a draw of 1 from every odd state (P_Rand.v); the tables checked against the specification by computation |
| C56 | model of cli/xsum_bench.c without the clock (numbers of calls of the later rounds are arguments); wrapper lemma from C01-C04 and the streaming theorems; refuted for sample sizes whose buffer size wraps |
| C57 | the probe loop of XSUM_findMaxMem: proved to end once a request is granted, refuted otherwise |
| C58 | model of doc/xxhash.cry over bit sequences (M_Cry.v), a relation between words of bits and numbers kept by every operator; the Cryptol operators are transcribed from the prelude's documentation |
| C59 | transition system of threads over the shared tables (M_DispatchMT.v); invariant: a slot is NULL (builds with MAYBE_NULL only) or holds a correct function and never becomes NULL again; a thread past its test finds its slot filled. Assumes sequentially consistent pointer-sized accesses |
| C60 | orbit of the successor function on decreasing lists = enumeration of combinations level by level; loop invariant: buffer = base with the current set flipped, bitIdx = the set |
| C61 | each slab is a counter in steps of an odd prime modulo 2^32; counts of two sample numbers differ in some slab by less than 2^32 |
| C62 | invariant on bits: both probe bits of an inserted hash are set in the lower half of its line, and in the upper half once it was seen twice |
| C63 | hashes grouped by their low bits partition the duplicates; the filter keeps every hash that occurs twice; counting equal neighbours of the sorted table counts duplicates |
| C64 | induction over the digits |
| C65 | inductive invariant of the transition system M_Pool.v: per program point the facts that hold there, who holds the mutex, ring buffer = list of jobs |
| C66 | ring buffer invariant with modular indices; multiset invariants over all threads |
| C67 | wake-up invariants (a non-empty queue has a worker that will look at it or a client about to signal; a waiting client has someone who will wake it); potential that every step lowers |
| C68 | busy counter equals the number of workers with a slot; without resizing the limit equals the number of workers |
| C69 | the word that makes one factor 1; then the product is the other factor, which enters the sum twice (64 bits), or flips the top bit of both lanes, which the final sums lose (128 bits) |
| C70 | the lane opposite to the changed window differs mod 2^62 and stays different through every later round; the final linear map then cannot cancel it |
| C71 | the first word of the first lane cancels the constants, so that the rotated sum is the seed itself; flipping its top bit adds or subtracts a constant according to the seed's top bit; the next word of the lane cancels the sum |
| C72 | an injective map of a finite range into itself is surjective, applied to the injectivity lemmas |
| C73 | inductive relation for a sequence of calls; loops over blocks and passes proved against it by induction |
| C74 | computed witnesses; induction over the fuel for the endless loop |
| C75 | arithmetic over the readings |
| C76 | every round either ends the call or at least doubles nbLoops; every call spends at least half of the run budget |
| C77 | computed witness; induction over the rounds |
| C78 | induction over the digits |
| C79 | C76 applied to the four wrappers of the table, induction over the loops |
| C80 | case of C79_main |
| C81 | each of the two lanes receives one word plus a product of the other; the flipped bit is chosen so that the change of the word is cancelled by that of the product; all later turns are the same |
| C82 | every turn (accumulate, scramble) acts on each lane by a bijection; the word enters the neighbour lane by plain addition, so the two runs part there and stay apart; the last sum and avalanche are bijective in each product |
| C83 | the argument loop against a table of options (induction on the list); the doubling loop of select_nbh with a rounding left open; then C63 |
| C84 | the high part is monotone in the order the sort uses, so equal high parts are neighbours |
| C85 | by computation on the argument; for the filter, the first insertion is undefined for a logarithm below 6 |
| C86 | each test function against the predicate 'this entry is right' both ways, with C55's argument for the random cutting; induction on each table, the random stream threaded through |
| C87 | induction on the lengths with the specified hash of every prefix; a relation for C constants and initializers, and every printed line shown to be one entry |
| C88 | C86 after C87 |
| C89 | from C87; the second entry of the XXH3 table differs |
| C90 | the heap as a list of live blocks; the two encodings specified character by character; no UTF-16 text has a lone surrogate, by induction |
| C91 | an invariant of the loop: the blocks above the old ones are the array and, in order, the strings its first cells point to |
| C92 | the branches of the function with the block of the text and that of its conversion on the heap |
| C93 | an invariant per record with a thread that was not joined; a cost that each step lowers |
| C94 | a run of the creating thread by induction on the number of threads; an invariant: before the growth no routine has returned, after it the array is gone |
| C95 | induction on the calls |
| C96 | model of the #if blocks over an arbitrary macro environment; case analysis of the selection under a specification of truthful macros (SpecConfig.v); composition with C01-C04 |
| C97 | as C96, for the #if blocks of xxh_x86dispatch.c; composition with C13 |
| C98 | model of cli/xsum_arch.h over the macro environment of C96 (M_Arch.v); meaning of the words and promises of compilers in SpecArch.v; case analysis by family of processors |
| C99 | models of the two programs (M_Progs.v); composition with C50, C53 and C01, C02 |
| C100 | model of the three clocks and of the wait loop (M_Time.v); a wrapped quotient is right iff nothing wrapped; induction over the readings |
| C101 | model of the preprocessor's state through the headers (M_Include.v); what is expected in terms of C declarations (SpecInclude.v); an invariant that names the declarations reached, by induction over the lines (P_Include.v) |
| C102 | lists as an inductive predicate over runs of the modelled program, comments and other lines (P_Lists.v); the outcomes of the lines by induction over it, with C39, C50 and C49; the scripts are instances (Properties31.v) |
| C103 | the functions of M_Cli2.v again with the text they write to stderr (M_CliErr.v), proved equal without it by case analysis; the texts by the induction of C39; an invariant of the loop for the failures, without any assumption on the environment (P_CliErr.v) |
| C104 | the functions of M_Cli2.v again with the list of their calls (M_CliRes.v); the rules as a replay of that list (SpecRes.v); a simulation with an invariant on the store for both loops (P_CliRes.v) |
| C105 | the functions of M_Bench.v again with the list of their calls (M_BenchRes.v); the rules of C104 (SpecRes.v); a simulation with the files open and the blocks held at each point (P_BenchRes.v) |
| C106 | model of the timing loop with the ticks of each round as a function of its calls (M_BenchClock.v); the rounds that count and the shortest time (SpecClock.v); an invariant on the rounds made, and a measure for the calibration: a round sized by any earlier one is long enough (P_BenchClock.v) |
| C107 | the functions of M_Bench.v again with the text they write by XSUM_log (M_BenchErr.v); the messages as a function of the files (SpecBenchErr.v); induction over the files (P_BenchErr.v) |
| C108 | 64 bits: one factor of each product is 0 for one seed and the other for the other; 128 bits: the products are 2^61 for one seed and 0 for the other, and 2^61 (P1 - P4) cancels 2^63 P2 (P_SeedPairs.v); low bits: P1 - P4 is divisible by 4 |
| C109 | the final avalanche and the negation are inverted; P1, P2 and P4 are 3 modulo 4, so that the two words before the avalanche sum to the seed minus the length modulo 4 (P_Told.v) |
| C110 | one window of 4 (8) bytes goes through a bijection onto the digests whatever the rest is; the inputs of n bytes are counted by the rest (SpecCount.v, P_Count.v) |
| C111 | 64 bits: the second factor of the first product is made 1, so that the product is the first word; it is solved for through additions and an avalanche. 128 bits: both products of one round are made 0 and the sums of the words give any two accumulators; the other rounds are onto (P_Forge3.v) |
| C112 | in the last stripe one lane of a pair of accumulators is made 1 (2^32 for the other pair) and the upper 32 bits of its neighbour are free, so that one pair gives the upper and the other the lower half of the sum before the avalanche (P_Forge4.v) |
| C113 | at 8 (16) bytes the hash is a permutation (C72) and every hash is in range; the seed makes the keyed word of the 4 to 8 byte path zero, after which the length no longer matters |

Not modelled: actual machine code and compilers, the preprocessor beyond the selection of the configuration (M_Config.v; the
other theorems quantify over the record `cfg`) and the identifiers that the headers declare (M_Include.v; not the parameter lists, nor the
private helpers of the implementation part), intrinsics beyond their documented lane semantics, malloc/free beyond the
addresses they return, file system races, the Windows system itself (an argument of M_Win.v: its conversions, files and console; C90-C92 assume
that its conversions are right on well-formed text, make no NUL, and that XSUM_fopen and XSUM_isDirectory called from
XSUM_main find memory), the text mode "rt", _setmode and the console modes, what clock() returns and the text of the speeds the benchmark prints,
the lines the tests of the benchmark print and the texts of its usage. Of tests/collisions: the timing and estimates that are only printed, which widths of the
statistics over high bits are printed (a comparison of doubles), rounding in Cnm beyond 2^53 and
std::sort (a parameter assumed to sort). Of pool.c: POOL_sizeof, clients that
call into a pool that is being freed, weak memory effects (all shared accesses but two stores are under the mutex). Of threading.c: failures of
WaitForSingleObject, CloseHandle (the code never calls it), calls made by more than one thread at a time; a start routine is one step. Of
tests/bench: the text and the rounding of the numbers printed, doubles (exact fractions instead), what the clocks of the system return,
BMK_createTimedFnState, benchHash.c's malloc failure. Of cli/xsum_arch.h: versions that are strings; of
tests/generate_unicode_test.c: the text of the scripts. Of tests/sanity_test.c: the messages; of its generator: the
fixed head of the header (types, include guard), fopen failing.

## Trusted base

Coq's kernel (8.16.1), the reading of the C code, and the axioms printed by `Print Assumptions` under each
theorem (target: "Closed under the global context" everywhere).

## How to read seeded/LOG.jsonl

- Lines without `generated` are edits written by hand. Their `theorems_failed` comes from rebuilding on after each failed proof.
  `files_not_rebuilt` marks runs that stopped early: theorems of files that were not rebuilt are not counted as failed.
- Lines with `generated` are edits made by a script. Their build stops at the first failed lemma (`lemmas_failed_first`, observed).
  `theorems_failed` is then inferred from the names that proofs refer to, as `theorems_failed_basis` says; it can be too long.
- "undecided" in a note means that the build reached its time limit: nothing was shown either way.
- "equivalent edit, by reading" is a judgement made by hand, not a proof.
