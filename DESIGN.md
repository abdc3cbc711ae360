# Formal model of serega/gaoya in Rocq (Coq 8.16.1)

## 1. Approach

The code is modelled function by function as executable Gallina over std++ `gmap`/`gset`, `list`,
`nat`, `N`, `Z` and the standard library's executable IEEE-754 specification `SpecFloat`. Mutating
methods become functions returning the new state; a Rust panic is an explicit value (`Panic` =
`None`, or the output `OPanic`), and for mutating methods the state *left behind* by the panic is
modelled too, because the Python binding (pyo3) turns panics into exceptions and the object stays
usable. Every model definition cites the file and lines it models. Model files contain definitions
only.

What the code leaves to its environment is an explicit argument, never an axiom:

| environment | modelled as |
|---|---|
| AHash of a band slice with the index's random keys | function `list T -> N` (any function; collisions allowed) |
| token hash (`BuildHasher`, `SimHasher`, SHA-1, SipHash, FNV) | function `token -> N`; in C63 the digest functions of the bytes written; in C74, C102, C103 FNV itself, in C80 SHA-1 and SipHash-2-4 |
| RNG draws for the coefficients | function `draws seed n j`; theorems state the ranges they need; C78 models the generator itself |
| RNG of the SuperMinHash variants | functions of the seed: the shuffled list, the draws from [0,1), the positions drawn; C78 shows that the real generator meets the hypotheses |
| HashSet/HashMap iteration order | function returning some permutation of the elements (`is_order`) |
| `sort_unstable_by` | function returning some sorted permutation (`is_sort`) |
| rayon scheduling | an explicit schedule (list of task numbers), one loop iteration per step |
| thread interleaving of the parallel clusterer | schedule over a step machine, one atomic access per step |
| `f64::powf` | arbitrary function on f64; C75 assumes (as a hypothesis of the theorems) an error of at most 2^-52 on [0,1] |
| HashMap capacity | argument of the operation |
| `str::to_lowercase`, the `shingles` crate | arbitrary functions (the latter may panic) |
| file contents / I/O errors | list of lines, each `Some text` or `None`; opening may fail |
| `QueryIndex::query` in the clusterers | arbitrary function from points to lists of points (may panic) |
| a callable Python analyzer | arbitrary function from text to token lists (no exceptions, no side effects) |

Numbers: `usize` is `nat`/`N` without wrap-around unless stated at the definition; hash arithmetic
(`wrapping_mul`, `% P`, `as u32/u16/u8`) is explicit `mod`; shifts panic when the amount reaches the
width (builds with overflow checks). `f64`/`f32` are exact IEEE-754 with round-to-nearest-even
(`SpecFloat`, one NaN); Flocq is used in proofs only, to relate `SpecFloat` to real numbers.

Each property is stated with the vocabulary of a small `Spec*.v` file (what a history of calls means
for a plain map, when two signatures share a band, ...) that does not use the model's code.

## 2. Files (`rocq/theories`)

| model | code | proofs | properties |
|---|---|---|---|
| `Base.v` (panics, slices, libcore iterator helpers), `Par.v` (rayon) | – | `ListFacts.v`, `ParFacts.v`, `SortFacts.v` | |
| `Float.v` | IEEE-754 | `FloatFacts.v`, `F64Facts.v` | |
| `Similarity.v` | minhash/mod.rs 118-161 | `SimilarityFacts.v`, `SimilarityThms.v` | `PropsSimilarity.v` C17-C18 |
| `Container.v`, `MinHashIndex.v` | id_container.rs, minhash_index.rs | `ContainerFacts.v`, `MinHashIndexFacts*.v`, `MinHashIndexThms.v`, `ScanFacts.v` (with `SpecScan.v`), `ExampleIndex.v` | `PropsIndex.v` C01-C16, `PropsScan.v` C77, `PropsHistory.v` C96 (with `SpecHistory.v`, `HistoryFacts.v`), `PropsHistoryQuery.v` C99 (with `SpecHistoryQuery.v`, `HistoryQueryFacts.v`), `PropsStopped.v` C100 (with `SpecStopped.v`, `StoppedFacts.v`, `StoppedThms.v`), `PropsLife.v` C101 (with `SpecLife.v`, `LifeFacts.v`), `PropsTuning.v` C104 (with `SpecTuning.v`, `TuningFacts.v`) |
| `MinHasher.v`, `Params.v` | min_hasher.rs, min_hasher64.rs, minhash/mod.rs 54-84, 259-287 | `MinHasherFacts.v`, `ParamsFacts.v`, `RecallFacts.v` (with `SpecRecall.v`) | `PropsMinHasher.v` C19-C25, `PropsRecall.v` C75 |
| `SuperMinHash.v` | minhash/super_min_hash.rs | `SuperFloat.v`, `SuperFacts*.v`, `SuperExpect.v` | `PropsSuper.v` C60-C61, `PropsSuperExpect.v` C71 |
| `SuperTest.v` | minhash/super_min_hash.rs with the real generator and token hash: the inherited methods (mod.rs:54-84) and the unit tests (138-180) | `SuperTestFacts.v` | `PropsSuperTest.v` C98 |
| `MinHasher.v` | min_hasher.rs, min_hasher64.rs | `AffineFacts.v`, `ExpectFacts.v`, `ExpectSig.v`, `ExpectBias.v` (with `SpecExpect.v`), `TupleFacts.v`, `CoefFacts.v`, `CoefIndex.v` (with `SpecTuples.v`), `CollisionFacts.v` (with `SpecCollision.v`) | `PropsAffine.v` C62, `PropsExpect.v` C66, `PropsCoef.v` C69-C70, `PropsCollision.v` C93 |
| `Hashers.v` | hashers.rs, sim_hasher.rs, simhash/mod.rs 66-74 | `HashersFacts.v` | `PropsHashers.v` C63 |
| `Fnv.v` | `FnvBuildHasher` (crate fnv 1.0.7) and `str::hash` as used by min_hasher.rs 30-34, min_hasher64.rs 22-31 | `FnvFacts.v` (with `SpecFnv.v`), `LowBitsFacts.v` (with `SpecLowBits.v`) | `PropsFnv.v` C74, `PropsLowBits.v` C102 |
| `Rng.v` | `StdRng`, `Uniform`, `shuffle` (crates rand 0.8.5, rand_core 0.6, rand_chacha 0.3) as used by min_hasher.rs 42-56, min_hasher64.rs 40-54, super_min_hash.rs 47-53, 101-107 | `RngFacts.v`, `RngStream.v`, `RngDraws.v`, `RngUnit.v`, `RngSuper.v` (with `SpecRng.v`) | `PropsRng.v` C78 |
| `Digests.v` | SHA-1 (crate sha-1 0.10) and SipHash-2-4 with 64 and 128 bits (crate siphasher 0.3) as used by hashers.rs 28-37 and sim_hasher.rs 14-90 | `SipFacts.v`, `ShaFacts.v` (with `SpecDigests.v`) | `PropsDigests.v` C80 |
| `SpecSimTest.v` | the unit test sim_hash_index.rs 257-295 as a function of the numbers drawn (`Uniform` over 0..20 and 1..1000); elements of type `i32` write four little-endian bytes | `SimTestFacts.v` | `PropsSimTest.v` C81 |
| `PyHash.v` | token hash of the Python classes: FNV of a str, or of a slice of str (length as 8 little-endian bytes, then the words) for min_hash.rs 84-88 | `FastHash.v` (evaluation without division, proved equal), `PyTestFacts.v` (with `SpecPyTest.v`, the scripts of tests/test_minhash.py), `WordHashFacts.v` (with `SpecWordHash.v`) | `PropsPyTest.v` C82, `PropsWordHash.v` C103 |
| `SpecBatchTest.v` | the unit test minhash_index.rs 1009-1083 as a function of the numbers drawn (`Uniform` over 1..100000 and 0..1000); an element of type `u64` writes eight little-endian bytes to the FNV hasher | `BatchTestFacts.v` | `PropsBatchTest.v` C83 |
| `Unchecked.v` | permutation.rs and sim_hash_index.rs 114-128 in a build without overflow checks | `UncheckedFacts.v` | `PropsUnchecked.v` C84 |
| `DebugBuild.v` | minhash_index.rs with the assertion of line 70, which builds with debug assertions check | `DebugFacts.v` | `PropsDebug.v` C85 |
| `PyUnchecked.v` | simhash.py `__init__` over `Unchecked.v` | - | `PropsPyUnchecked.v` C84 |
| `Helpers.v` | minhash_index.rs `has_ids`, `filter_by_minhash_similarity`; sim_hash_index.rs `avg_bucket_count` (private, called by nothing) | `HelpersFacts.v` | `PropsHelpers.v` C86 |
| `Display.v` | minhash_index.rs `Display`; min_hash.rs `__str__`, `__repr__`; lib.rs `Debug` of the tokenizer | `DisplayFacts.v` | `PropsDisplay.v` C87 |
| `Constructors.v` | minhash_index.rs 116-143, 349-410: the constructors with machine arithmetic, checked and unchecked | `ConstructorsFacts.v`, `CapacityFacts.v` | `PropsConstructors.v` C88 |
| `Centroid.v` | minhash/mod.rs 163-238, minhash_index.rs 746-753 | `CentroidFacts.v` | `PropsCentroid.v` C26-C27 |
| `Jaccard.v` | minhash/mod.rs 86-103 | `JaccardFacts.v` | `PropsJaccard.v` C55 |
| `SimHashBits.v`, `SimHash.v`, `Permutation.v`, `SimHashIndex.v` | simhash/*.rs | `BitsFacts.v`, `SimHashFacts.v`, `PermutationFacts.v`, `SimHashIndexFacts.v`, `AngleFacts.v`, `SimExpect.v`, `SimDist.v` | `PropsSimHash.v` C28-C38, `PropsAngle.v` C38, `PropsSimExpect.v` C67, `PropsSimDist.v` C76 |
| (same) | sim_hash_index.rs, the tables | `TableFacts.v`, spec `SpecTables.v` | `PropsTables.v` C107 |
| (`MinHashIndex.v`) | minhash_index.rs, the work of a query | `VisitFacts.v`, spec `SpecVisits.v` | `PropsVisits.v` C108 |
| `Text.v` | text/*.rs | `TextFacts.v` | `PropsText.v` C39-C42 |
| `SerialClusterer.v` | clustering_serial.rs | `SerialClustererFacts.v` | `PropsSerialClusterer.v` C43-C45 |
| `ParallelClusterer.v` | clusterer_parallel.rs | `ParallelClustererFacts.v`, `ParallelClustererSingle.v`, `ParallelClustererSeparate.v`, `ParallelClustererRaces.v` (with `SpecParallel.v`) | `PropsParallelClusterer.v` C46-C49, C56, `PropsParallelSeparate.v` C64, `PropsParallelRaces.v` C65 |
| (both clusterers, `MinHashIndex.v`) | the clusterers with minhash_index.rs 823-838 as query index | `ClusterIndexFacts.v`, `GroupFacts.v`, `GroupThms.v` (with `SpecGroups.v`) | `PropsClusterIndex.v` C68, `PropsGroups.v` C97 |
| (both clusterers) | clustering_serial.rs and one thread of clusterer_parallel.rs | `RepeatFacts.v` | `PropsRepeat.v` C105 |
| `StringIndex.v` | string_index.rs | `StringIndexFacts.v` | `PropsString.v` C50-C51 |
| (same) | string_index.rs, any mixture of calls | `TextHistoryFacts.v`, spec `SpecTextHistory.v` | `PropsTextHistory.v` C106 |
| `WeakClusterer.v` | clusterer_parallel.rs with the old values that `Ordering::Relaxed` lets a load return | `WeakFacts.v`, `WeakRaceFree.v`, `WeakSeparate.v` (with `SpecParallel.v`) | `PropsWeak.v` C73 |
| `HeapClusterer.v` | clusterer_parallel.rs with boxes named by address, and an allocator that may give out freed addresses again | `HeapFacts.v`, `HeapSeparate.v`, `HeapInv.v` (with `SpecHeap.v`) | `PropsHeap.v` C89 |
| (`ParallelClusterer.v`) | clusterer_parallel.rs, ids and memory of attempts | `AttemptFacts.v`, `HeapAttempts.v` (for `HeapClusterer.v`), spec `SpecAttempts.v` | `PropsAttempts.v` C109 |
| (`ParallelClusterer.v`) | clusterer_parallel.rs, calls after clusters were dropped | `PriorFacts.v`, spec `SpecPrior.v` | `PropsPrior.v` C110 |
| (`ParallelClusterer.v`) | clusterer_parallel.rs, clusters rolled back | `RollbackFacts.v`, spec `SpecAttempts.v` | `PropsRollback.v` C111 |
| (`ParallelClusterer.v`) | clusterer_parallel.rs, panics of threads | `PanicFacts.v` | `PropsPanics.v` C112 |
| `Notebook.v` | the example notebook deduplication_scholarly_articles_gaoya.ipynb: constructor call, insertion, query, removal of the own id, metrics per row | `NotebookFacts.v` (with `SpecNotebook.v`) | `PropsNotebook.v` C90 |
| `Bench.v` | gaoya/benches/lsh_bench.rs: what one iteration of the two comparisons of an index with a scan computes | `BenchFacts.v` | `PropsBench.v` C91 |
| `PyArgs.v` | py-gaoya/gaoya/minhash.py with arbitrary objects as arguments, and the conversions of pyo3 0.18.3 for the signatures in py-gaoya/src/min_hash.rs | `PyArgsFacts.v` (with `SpecPyArgs.v`) | `PropsPyArgs.v` C92 |
| `PySimArgs.v` | py-gaoya/gaoya/simhash.py with arbitrary objects as arguments | `PySimArgsFacts.v` (with `SpecPySimArgs.v`) | `PropsPySimArgs.v` C94 |
| `PyThreads.v` | both Python classes called from several threads (`pyclass(unsendable)`): what Python evaluates first, then the check of the thread, then the call of `PyArgs.v`/`PySimArgs.v`; destruction not modelled | `PyThreadsFacts.v` (with `SpecPyThreads.v`) | `PropsPyThreads.v` C95 |
| `FileLines.v` | `reader.lines()` (standard library) in string_index.rs 54, 80-81 | `FileLinesFacts.v` (with `SpecFile.v`) | `PropsFile.v` C72 |
| `PyTokenizer.v`, `PyMinHash.v`, `PySimHash.v` | py-gaoya/src/*.rs, py-gaoya/gaoya/*.py | `PyFacts.v`, `PySimFacts.v` | `PropsPy.v` C52-C54, C57-C58, `PropsPy2.v` C57-C59 |

`Spec*.v` are the specifications; `Props*.v` hold the property theorems, each followed by a concrete
example that meets its hypotheses and by `Print Assumptions`.

## 3. Plan per property

| id | model and proof plan |
|---|---|
| C01 | `step`/`run` over an operation type; spec map from `Spec`; filter at the end of `query` gives soundness; invariant `id_signatures = spec map` by induction on history |
| C02 | invariant "every live id is in the bucket of each of its band hashes", preserved by every op incl. panicking ones |
| C03 | stronger invariant for clean histories: bucket content = exactly the live ids with that hash; exact set equality |
| C04 | pigeonhole over b disjoint ranges of positions |
| C05 | C02 with q = own signature, similarity exactly 1.0 |
| C06 | refinement to `gmap Id (list T)` |
| C07 | fold of `max_by` over any enumeration of the candidates |
| C08 | equality of code paths; schedule lemma for order-preserving parallel map |
| C09, C10 | any sorted permutation; f64 order of similarities = order of match counts (Flocq) |
| C11, C12 | schedule independence of disjoint per-band tasks; commutation with sequential loop |
| C13, C14 | from the exact invariant of C03 |
| C15 | panic branches; witnesses by computation |
| C16 | f64 ratio < 1.0 iff buckets < ids |
| C17, C18 | Flocq correctness theorems, monotonicity and spacing of rounding |
| C19–C24 | fold of minimum; set extensionality; pointwise laws |
| C25 | fuel = n; out-of-fuel excluded; loop invariant |
| C26, C27 | argmax of counts for any map order; exchange argument summed over bands / positions |
| C28–C33 | invariant over histories + pigeonhole on blocks |
| C34, C35 | block masks by `testbit`; combinations as itertools enumerates them; shifts by `testbit` |
| C36, C37 | per-bit counts; sum exchange |
| C38 | popcount of xor; hamming_angle via Flocq |
| C39 | split on a predicate; characterisation by maximal runs |
| C40–C42 | fuelled iteration of `next`; closed form; UTF-8 strings as concatenated characters |
| C43–C45 | cells as a map; induction on the point list |
| C46–C49 | small-step semantics of atomic accesses; invariants for all interleavings; witness schedules by computation |
| C50, C51 | state machine over the index; invariant linking the maps |
| C52–C54 | thin wrappers over the above |
| C55 | as C17, in binary32 |
| C56 | bound on the own steps of a thread from the invariants of C46 |
| C57–C59 | histories with raising calls; the index theorems transported through tokenization |
| C60, C61 | f32 addition via Flocq; invariants of the lazily initialised permutation and of the stop counters |
| C62 | multiplication by an odd number is a bijection modulo a power of two; counting residues |
| C63 | big-endian numbers digit by digit; division by powers of two |
| C64 | a thread's future in memory it alone touches is the future of the run alone |
| C65 | the log of accesses to boxes: who made a box is in the log once; no thread meets its own boxes among the points still to visit |
| C66 | exchanging the values of two tokens maps the family to itself; weights share out ties; birthday bound with C62 |
| C67 | each bit of a signature is a decreasing-or-zero vote of the tokens' bits; Harris inequality on the cube; flipping all bits of one document when no tie is possible |
| C68 | C01-C03, C05 put into C43, C44 and C47; triangle inequality for disagreements; the answer relation is symmetric |
| C69 | positions depend on their own pair of coefficients only, so a signature is a tuple of independent draws; binomial sums and generating functions by induction on the number of positions; Chebyshev, Chernoff |
| C70 | a band agrees for `a ^ bw` of its draws; bands are independent; C01-C03 turn an agreeing band into an answer |
| C71 | C60 makes a position the least offer of the tokens, so the counting of C66 applies; an offer of rank 0 is 0, and hits of rank 0 are counted over all seeds |
| C72 | UTF-8 decoding is the inverse of encoding; one call of `next` per stretch; C50-C51 for the index |
| C73 | the invariant of C47 for steps that read old values; without a race no pointer changes twice, so old values are null; with separated chunks each thread made all values it reads |
| C74 | modulo 2^32 and 2^40 the multiplier is 435: short inputs stay close to a centre, equal hashes must come from closer values; 511 differences checked for each pair of lengths |
| C75 | error of the computed probability against the exact one: 3(b+1) half units; the search stops at the first failing width; C70 for the index; the documented answers by bounds in whole numbers |
| C76 | a token hash of W bits is W independent one-bit token hashes (a permutation between the two enumerations); counting tuples as in C69; C28 for the index |
| C77 | soundness and recall (C01, C02) squeeze the answer; pigeonhole over bands and monotone rounding for the threshold; the unit tests reduce to a computation on the map alone |
| C78 | RFC-style specification of the stream, bit lemmas for the rotations; multiples of the range in an interval for the equal shares; induction from the top place for the shuffle |
| C79 | `PropsDefaults.v`: the signatures by computation (`vm_compute`) from `Rng.v` and `Fnv.v`; the scan theorem of C77 makes the answers independent of the band hash |
| C80 | streaming invariant (the words absorbed, the bytes kept) for SipHash; for SHA-1 a relational specification after FIPS 180-4 with existence and uniqueness by induction over rounds and blocks; the unit tests by computation |
| C81 | C30 for the index after the insertions, minimality of `query_one` against `min_by`; the distance of a copy depends on the counters near a tie only, so the 19980 distances are computed from 999 token hashes; counting over tuples |
| C82 | from C57 and C52 for the classes: a script of calls is decided on a table of signatures; what is similar enough shares a band, so the answer is the same for every band hash; signatures by computation; answers with pairwise different similarities have one order |
| C83 | from C03, C06, C10 and C12: each assertion as a statement about the stored map; the answer of a query is the first vector's group or not; the assertions on top-k and removal follow from the first one; parameters by C75, coefficients and the signatures of three tokens by computation |
| C84 | every checked function that returns agrees with its unchecked version (induction over the loops); an empty block exists when there are more blocks than bits, and the search for its lowest bit never ends |
| C85 | the parallel and sequential loops agree when their bodies agree on all states with the given band bounds; invariant: stored signatures have no zero band |
| C86 | bucket invariants of C03; sum of bucket lengths and set of keys as invariants of the insertions |
| C87 | a text is cut at the first occurrence of a separator that the printed field cannot contain; decimal printing is injective |
| C88 | the band that crosses 2^W ends before it starts, and no operation changes the bounds of a band; rounding errors of the two float operations |
| C89 | simulation by a renaming of the remembered addresses; invariant: live boxes belong to one thread, pointers are claimed by it |
| C90 | C57 for the class on the history with the one bulk insertion; C59 for the tokens; ratios of sizes by C04's facts |
| C91 | C07 and C30 on the history with one bulk insertion; the first item finds itself |
| C92 | every conversion decides between accepted and rejected objects; these compose along the argument list |
| C93 | equal wrapped values are a divisibility (Gauss); any other collision is a multiple of the modulus, divisible by 2^k, between two words |
| C94 | as C92; numbers are compared as m * 2^e at a common exponent |
| C95 | what fails before the native call also fails in C92/C94; induction over the history |
| C96 | the number of times an id stands in a bucket is followed through every call, band by band; calls on other ids change neither that number nor the map entry |
| C97 | a seed that is still free has its whole group free (induction over the clusters), so clusters are groups; C43, C44, C46 and C64 do the rest |
| C98 | signatures computed with one set of draws per token, shown equal to the model's; C60, C61 and C78 for all texts |
| C99 | the candidates of a query are the ids with a mark (C96); the two queries that index the map panic at the first one without an entry; invariants over the history for the cases without ghosts |
| C100 | every task of the parallel loop is at some point of its own loop; the turns a schedule gives to a task determine where it is, so a schedule can be built for every choice; C96's count followed through the stopped calls |
| C101 | the counts of C96 for one id and key are a small machine run over the life of the id; its result is read off the life (insertions not directly followed by a removal; a last insertion not undone); the Python calls are histories of single calls (C52), with the image of the life under the signatures |
| C102 | exclusive or and multiplication by an odd number act on residues modulo 2^k, and change the next bit only by its own difference; C93 turns the number of equal low bits into the number of colliding multipliers |
| C103 | the hash of a shingle as a single byte stream; the lemmas of C74 (windows) and C102 (low bits, parity) on that stream; C93 for the multipliers |
| C104 | the threshold is not used by the mutating calls; two sorted permutations of the same distances; the lives of C101 for two ways of cutting bands; C28, C30 for simhash |
| C105 | both clusterers run the same loop for a test on the number of points; inductions over it |
| C106 | the calls as one list of insertions into the index; a ledger of ids, texts and replaced texts; C96 for the answer |
| C107 | the tables as filters of the list of insertions; tables as sets of blocks, counted by binomials; double counting |
| C108 | lengths of buckets as sums of C96's counts over the ids offered; exact buckets of clean histories; double counting of bands and documents |
| C109 | potential: ids used plus points still to be tried never grows; invariant on top of C47's: every new box is held by a thread or freed, freed boxes stay freed |
| C110 | simulation of two executions whose memories agree on pointers and on ids of this call; threads only ever hold points that had no pointer at the start, so conflicts are with ids of this call |
| C111 | a state other than new is kept by every step, and pushing a cluster needs the state new; C47's invariant at the moment in question |
| C112 | invariant: an attempt has taken at most `i` points, and the points still to visit have queries that do not panic; no assumption on the memory at the start |

No property of the list is considered inexpressible. Expected `partial`/refuted parts are recorded in
section 5 as the proofs are done.

## 4. Trusted base

* Coq 8.16.1 kernel (including `vm_compute`).
* The axioms reported by `Print Assumptions` under each theorem (section 6). No axiom is added.
* The faithfulness of the model to the text of /repo (nothing is extracted or run), under these
  assumptions, each also stated at the definition concerned:
  * counters, sizes and products of sizes do not overflow (C88 says when `MinHashIndex::new` does);
    memory is never exhausted;
  * the build has overflow checks and no debug assertions; C84 and C85 say what changes otherwise;
  * hashing a value is a function of the value; `Eq`, `Ord`, `Clone` of ids behave as equality, order
    and copy of values;
  * `BufRead::lines` and the UTF-8 check of the standard library are as written in `FileLines.v`
    (C72 only); a failed read is `None` in the file, retried `Interrupted` errors are not seen;
  * rayon runs every task exactly once unless a task panics, and `collect` keeps the order; after a
    panic any part of the remaining work may or may not have been done;
  * parallel clusterer: C46-C49, C56, C64, C65 take interleavings of the atomic operations; C73 adds
    that loads may return older values (coherent for each pointer; any earlier state of a cluster),
    but not values that are written later than they are read, as `Ordering::Relaxed` in principle
    allows; the aliasing rules of `&mut` are not modelled; C65 says which executions have data races
    on clusters, and under the hypotheses of C64 threads share nothing that is written; no address that is still remembered is used again after being freed (C89 says what happens if one is, and that it cannot under C64's hypotheses); a box is named by its
    cluster id; for each id the `Arc` in the point list and the one in the query index are the same object;
  * serial clusterer: likewise for `Rc`;
  * Python: pyo3 converts arguments as modelled in `PyArgs.v` (all files but it and `PySimArgs.v` start after the conversion);
    which objects have a hash (`hashable` in `PySimArgs.v`); an `unsendable` object panics when another thread borrows it, before its arguments
    are converted, and native calls keep the GIL (C95); a Rust panic becomes PanicException and leaves the object usable;
    `Display` of f64 and `type_name` are arguments of the texts printed (C87).
* The code of `FnvHasher` and `str::hash` (external) is modelled for C74, C102 and C103 (with the hash of a slice of strings, `PyHash.v`): it is part of the trusted base that they are as in `Fnv.v`; all other theorems hold for any token hash.
* Likewise the code of the crates rand, rand_core and rand_chacha is as in `Rng.v` (C78; checked there against published test vectors); all other theorems hold for any numbers drawn. The loops that reject words are given a number of rounds; their result does not depend on it once it is enough (C78_draw, C78_coefficients).
* Likewise the code of the crates sha-1 and siphasher is as in `Digests.v` (C80; compared there with published test vectors and proved to compute what the standards define); all other theorems hold for any digests.
* Not modelled: capacities and memory layout, the two benchmarks without a comparison, some tests,
  the hash function of the crate ahash, and what the head of each model file names.

## 5. Results

All properties of `properties.jsonl` are proved as stated there; the statements were adjusted to what
the code does, and where the natural expectation fails a theorem `..._refuted` gives a
counterexample. Defects of the code found this way:

* re-inserting an id without removing it leaves the old signature in the band tables (C02, C03, C13,
  C14), after which the similarity and top-k queries can panic (C09, C10);
* `par_bulk_insert` checks only the first signature, `par_bulk_insert_pairs` none: a short signature
  panics half-way and leaves ids in the tables but not in the id map (C15);
* `bulk_remove` pairs signatures with the wrong ids once an id is absent (C12);
* `shrink_to` panics whenever a band has as many buckets as there are ids (C16);
* `similarity_greater_than_threshold` truncates the bound, so it accepts less than the threshold (C18);
* the simhash index uses a strict bound, one less than documented (C29), and its size is always 0 (C33);
* the hash of a signature position multiplies modulo 2^32 (2^64) before reducing: half of the
  multipliers, the even ones, ignore the top bit of the token hash (C62), and in general hashes that
  agree in their lowest k bits collide for a 2^-(W-k) part of the multipliers (C93);
* simhash bits are inverted (C36);
* shingle ranges lose the windows at the end of the input (C40) and the string iterator is not fused
  (C41);
* serial clustering needs strictly more than the minimal size (C43); ids restart in every call (C45);
* parallel clustering: the states COMMITTED and ROLLED_BACK have the same value; a point may be in
  two returned clusters, a point of a returned cluster may end unassigned, freed memory may be read, a
  returned cluster may be smaller than the minimum (C47, C48);
  `cluster_par` panics when there are fewer points than threads (C49);
* the parallel file loader of the string index reuses the id of the last document (C51);
* the second SuperMinHash variant ignores its first token except in component 0, depends on order and
  multiplicity of tokens, and stops too early (C61), so any two documents of one token are taken for equal
  (C98); the first truncates its values to integers, so
  long documents without a common token get the same signature (C71);
* hashers of different sizes share their multipliers but not their increments, so their signatures
  have no common prefix (C78);
* release builds: `SimHashIndex::new` with more blocks than bits never returns (C84), so the Python
  constructor hangs where it should raise (its own check of `num_blocks` is never true, C54);
* `filter_by_minhash_similarity` (unused) keeps the dissimilar candidates (C86);
* release builds: `MinHashIndex::new` with 2^64 hashes or more gives an index that panics on every use;
  the documented tenth of `new_with_capacity` is missed by one (C88);
* a reused address lets a thread of the parallel clusterer roll back a cluster it has no conflict with,
  and a panic leaves points with pointers to freed clusters (C89);
* the notebook's `remove` cell raises if ids repeat, and its precision counts a row rightly predicted to have no
  duplicates as 0 (C90);
* the scan of the simhash benchmark takes the maximum of the distances instead of the minimum (C91);
* the Python class takes a str given as list of documents for its characters if the analyzer is a callable, and raises
  TypeError otherwise; a bulk insertion with one bad id or document stores nothing (C92);
* a Python index can be used only by the thread that made it, all others get PanicException (C95);
* re-inserting an id without removing it leaves it under its old keys, with vectors even after a later removal (C96); removing it then makes query_owned_return_similarity and query_top_k panic for
  queries under those keys (C99); with vectors nothing but `clear` repairs this (C101), and the Python class has no
  `clear`;
* a bulk insertion that panics because of one short signature leaves part of its pairs in the bands but none in the
  map: later queries with similarities may panic, depending on the schedule of the failed call (C100);
* with two exact duplicates in two chunks the parallel clusterer may return no cluster, two clusters, or one with fewer
  than `min` points (C97);
* with ngram_range (1,1) in Python the words of a document are hashed as slices of one word, tokens as strings: a
  one-word document and that word as a token agree at a position only for 4 (64 bits: 16) multipliers (C103);
* narrower bands can lose answers with hash sets after overwriting, or with vectors after a `bulk_remove` that
  names an absent id (C104_width_set_refuted, C104_width_bulk_remove_refuted);
* a larger `min_cluster_size` may give more clusters with more points, for both clusterers (C105);
* the string index may answer with a document that agrees with the query in no band, through the bands of the document it replaced (C106);
* every insertion into a simhash index, also of a known id, stays in all tables and is looked at by every query that meets it (C107);
* with vectors as containers a query visits a document once per insertion and band, so re-inserting known documents makes queries slower without bound, also after they are removed (C108);
* points keep pointers to clusters after the caller dropped the returned boxes; the clusterer itself never follows these (C110), but `get_cluster` hands them out, and once the address is used again it is that of a cluster without the point (C110_reuse_refuted);
* Python: C53, C54.

Mutation testing: `seeded/LOG.jsonl` lists edits of model definitions made in a scratch copy, the
theorems whose proofs they broke, and the theorems added or tightened for edits that survived. Entries marked
"statement violated" were found by evaluating theorem statements on random histories of the edited model instead.

## 6. Assumptions

`Print Assumptions` reports *Closed under the global context* for all theorems except those whose
proofs go through Flocq's real numbers:

C05_self_retrieval, C07_query_one_any, C07_query_one_clean, C07_threshold_one_never_answers,
C10_top_k, C16_shrink_to_panics_iff, C16_shrink_to_small_panics, C17_similarity,
C17_similarity_strict, C17_distance, C18_greater_than_threshold, C18_implied_by_similarity,
C20_same_set_similarity_one, C22_similarity_not_lower, C24_compute_similarity, C38_angle_error, C51_retrievable, C106_retrievable,
C52_minhash_found, C55_jaccard, C55_nan, C60_one, C60_union, C60_set, C60_empty, C61_panic, C61_one,
C61_first, C61_two, C61_two_first, C61_bound, C61_decrease, C61_origin, C68_all_assigned, C68_representatives, C70_at_least, C70_exact,
C71_at_least, C71_at_most, C71_exact, C71_mean, C71_collide, C71_saturated, C71_disjoint,
C74_collision_refuted, C77_threshold, C77_query_one, C77_width_one, C77_at_bound_refuted, C77_test_duplicate_ids,
C75_reaches, C75_widest, C75_documented, C75_recall, C75_threshold_refuted,
C75_width_one_refuted, C78_unit, C78_unit_fair, C78_super, C78_super1, C78_super2, C79_lsh_index,
C79_batch_construction, C79_duplicate_ids, C79_query_one, C83_batch_construction2, C83_passes,
C83_always_passes_refuted, C88_band_capacity, C90_rows, C90_mutual, C90_copies, C90_notebook, C90_recall,
C90_precision, C90_correct, C91_minhash, C97_duplicates, C97_duplicates_parallel, C98_similarity_v1, C98_same_v1,
C98_similarity_v2, C98_single_v2, C98_second_v2, C99_top_k, C99_query_one,
C104_top_k, C104_width_one, C104_width_only

which depend on the standard library's axioms `Classical_Prop.classic`,
`ClassicalDedekindReals.sig_not_dec`, `ClassicalDedekindReals.sig_forall_dec` and
`FunctionalExtensionality.functional_extensionality_dep`.
