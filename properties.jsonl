{"id": "C01", "title": "MinHashIndex query soundness after any history", "statement": "Whatever mutations an index has gone through (insert, re-insert of a live id, remove, bulk insert, bulk remove, clear, shrink, and calls that panicked half-way), every id returned by query(q) is currently in the index and the signature currently stored for it has minhash similarity >= the threshold with q. Removed or overwritten data is never reported.", "quantifier": "all operation histories, all parallel schedules, all panic points, all band hash functions, all three id containers, all query signatures", "why_tests_cant": "stale ids do stay in the band tables after overwrites, misaligned bulk removes and aborted bulk inserts; only an argument over all histories shows the final filter masks them", "anchors": ["gaoya/src/minhash/minhash_index.rs: MinHashIndex::query, insert, remove, bulk_remove, par_bulk_insert, par_bulk_insert_pairs, clear"]}
{"id": "C02", "title": "MinHashIndex query recall after any history", "statement": "After any history in which all stored signatures have num_bands*band_width hashes, query(q) with a q of that length does not panic and returns every currently stored id whose current signature has similarity >= threshold and agrees with q on at least one complete band.", "quantifier": "all operation histories and schedules, all band hash functions (collisions included), all containers, all queries", "why_tests_cant": "a lost bucket entry shows up only after particular interleavings of overwrite/remove/bulk operations on colliding buckets", "anchors": ["gaoya/src/minhash/minhash_index.rs: MinHashIndex::query, MinHashBand::insert, MinHashBand::remove, BandKey::new"]}
{"id": "C03", "title": "Exact query answer and history independence for clean histories", "statement": "If no live id is ever re-inserted and bulk_remove is called with distinct live ids, query(q) is exactly the set of stored ids with similarity >= threshold whose band hash equals q's in at least one band (with a collision-free band hash: that share a band with q). Hence two clean histories that leave the same id->signature map give identical answers, whatever the order of operations.", "quantifier": "all clean histories and schedules, all hash functions, containers and queries", "why_tests_cant": "equality of answers between arbitrary different histories cannot be enumerated", "anchors": ["gaoya/src/minhash/minhash_index.rs: MinHashIndex::query, insert, remove, bulk_remove, par_bulk_insert, clear"]}
{"id": "C04", "title": "Deterministic recall bound (pigeonhole over bands)", "statement": "A stored signature that differs from the query in fewer than num_bands positions and has similarity >= threshold is always returned by query.", "quantifier": "all histories with well-sized signatures, all num_bands, band_width, signatures, queries", "why_tests_cant": "the guarantee is over all placements of the differing positions and all index shapes", "anchors": ["gaoya/src/minhash/minhash_index.rs: MinHashIndex::query, new_index"]}
{"id": "C05", "title": "Every stored document finds itself", "statement": "With at least one band, band_width >= 1 and threshold <= 1.0, query_by_id(id), query_by_id_owned(id) and the clustering QueryIndex::query(id) contain id for every stored id, and return the empty set for an id that is not stored.", "quantifier": "all histories with well-sized signatures, all ids", "why_tests_cant": "depends on all band tables being in step with the signature map after any history", "anchors": ["gaoya/src/minhash/minhash_index.rs: query_by_id, query_by_id_owned, impl QueryIndex for MinHashIndex"]}
{"id": "C06", "title": "The index behaves as a map from id to signature", "statement": "For every history: get_signature(id) is the signature last inserted for id and not since removed or cleared; size() is the number of such ids; remove returns exactly that signature (None otherwise); bulk_remove returns the signatures of the given ids that were present, in order, counting a repeated id once; a call that panics leaves the map unchanged.", "quantifier": "all operation histories including panicking calls", "why_tests_cant": "refinement to an abstract map over unbounded histories", "anchors": ["gaoya/src/minhash/minhash_index.rs: get_signature, size, remove, bulk_remove, insert, clear, get_id_signature_map"]}
{"id": "C07", "title": "query_one returns the best match strictly above the threshold", "statement": "query_one(q) returns Some(id, s) only if id is stored, s is its similarity with q, s > threshold and no stored id sharing a band with q has a larger similarity; it returns None exactly when no candidate is strictly above the threshold. (query uses >=, so query_one can be None while query is not empty, and with threshold 1.0 it is always None.)", "quantifier": "all histories with well-sized signatures, all HashSet iteration orders, all queries", "why_tests_cant": "the maximum is over arbitrary candidate sets visited in arbitrary order", "anchors": ["gaoya/src/minhash/minhash_index.rs: query_one, query"]}
{"id": "C08", "title": "Query variants agree", "statement": "query_owned(q) = query(q) as sets; query_by_id(_owned)(id) = query of the stored signature; par_bulk_query returns, in input order and for every thread schedule, query_owned of each signature, and panics only if one of the individual queries panics.", "quantifier": "all states, queries, batches, schedules", "why_tests_cant": "equivalence of code paths over all inputs and schedules", "anchors": ["gaoya/src/minhash/minhash_index.rs: query, query_owned, query_by_id, query_by_id_owned, par_bulk_query, par_bulk_query_return_similarity"]}
{"id": "C09", "title": "query_owned_return_similarity: complete, correct, sorted", "statement": "After a clean history, query_owned_return_similarity(q) does not panic and lists exactly the ids of query(q), each once, with its similarity, in non-increasing order of similarity. After histories that leave a stale id in a band (overwrite then remove) it can panic where query does not.", "quantifier": "all clean histories, queries and iteration orders; existence of a panicking history", "why_tests_cant": "sortedness/completeness over all inputs; the panic needs a specific history", "anchors": ["gaoya/src/minhash/minhash_index.rs: query_owned_return_similarity"]}
{"id": "C10", "title": "query_top_k returns the k nearest candidates", "statement": "After a clean history query_top_k(q,k) returns min(k, number of candidates) distinct candidate ids (stored ids sharing a band hash with q) with distance 1 - similarity, in non-decreasing order of distance, and no candidate left out agrees with q in more positions than one returned. With signatures of length 0 one candidate is returned with distance NaN and two candidates panic.", "quantifier": "all clean histories, all k, all queries, all iteration and unstable-sort orders", "why_tests_cant": "an optimality claim over all candidate sets and all admissible sort results", "anchors": ["gaoya/src/minhash/minhash_index.rs: query_top_k", "gaoya/src/minhash/mod.rs: compute_minhash_distance"]}
{"id": "C11", "title": "Parallel bulk insertion equals sequential insertion", "statement": "For signatures of the right length, par_bulk_insert(ids, sigs) and par_bulk_insert_pairs, under every thread schedule, leave the index in exactly the state obtained by inserting the zipped pairs one after the other (extra ids or signatures are silently ignored).", "quantifier": "all states, batches, schedules, containers", "why_tests_cant": "schedules cannot be enumerated by tests", "anchors": ["gaoya/src/minhash/minhash_index.rs: par_bulk_insert, par_bulk_insert_pairs, insert"]}
{"id": "C12", "title": "bulk_remove versus repeated remove", "statement": "bulk_remove of distinct live ids leaves, under every schedule, exactly the state obtained by removing them one by one. For arbitrary id lists the resulting map is still the same as with repeated remove; but if an id is absent or repeated, signatures are zipped with the wrong ids and entries are left behind in the bands.", "quantifier": "all states, id lists, schedules", "why_tests_cant": "the misalignment needs an absent/repeated id at a particular position; equality is over all states", "anchors": ["gaoya/src/minhash/minhash_index.rs: bulk_remove, remove"]}
{"id": "C13", "title": "The id container does not affect answers of clean histories", "statement": "For the same clean history, HashSetContainer, VecContainer and SmallVecContainer indexes give equal query answers. With re-inserted ids the answers may differ (Vec keeps duplicates).", "quantifier": "all clean histories, all queries; existence of a distinguishing unclean history", "why_tests_cant": "observational equivalence over all histories", "anchors": ["gaoya/src/minhash/id_container.rs: HashSetContainer, VecContainer, SmallVecContainer", "gaoya/src/minhash/minhash_index.rs: query"]}
{"id": "C14", "title": "Band tables hold no garbage in clean histories", "statement": "After a clean history every band has exactly one bucket per distinct band hash among the stored signatures (band_sizes), no bucket is empty, and an index whose ids were all removed has empty bands. After overwriting a live id, its old entries are never freed by remove.", "quantifier": "all clean histories; existence of a leaking history", "why_tests_cant": "leak-freedom is an invariant over unbounded histories", "anchors": ["gaoya/src/minhash/minhash_index.rs: band_sizes, MinHashBand::remove"]}
{"id": "C15", "title": "Signature length checks", "statement": "insert and query with a signature of the wrong length panic and change nothing. par_bulk_insert checks only the first signature and par_bulk_insert_pairs none: a too-short signature panics half-way leaving ids in some bands but the map untouched; a too-long one is accepted, after which well-formed queries that hit it panic.", "quantifier": "all states and wrong-length signatures; existence of poisoning histories", "why_tests_cant": "error paths over all states, including state after the panic", "anchors": ["gaoya/src/minhash/minhash_index.rs: insert, query, par_bulk_insert, par_bulk_insert_pairs", "gaoya/src/minhash/mod.rs: compute_minhash_similarity"]}
{"id": "C16", "title": "shrink_to_fit / shrink_to never change content; when shrink_to panics", "statement": "shrink_to_fit and shrink_to never change any answer. shrink_to(min) with min <= capacity panics exactly when some band has at least as many buckets as there are ids (or the index is empty and has a band); in particular on an empty index and on any index with a single document.", "quantifier": "all states and capacities", "why_tests_cant": "needs all states", "anchors": ["gaoya/src/minhash/minhash_index.rs: shrink_to, shrink_to_fit"]}
{"id": "C17", "title": "compute_minhash_similarity as an f64 function", "statement": "For equal-length non-empty signatures the result is finite, in [0,1], symmetric, equals the correctly rounded quotient matches/length, is 1.0 exactly for equal signatures and is strictly increasing in the number of matching positions (lengths < 2^50); lengths differing panic; empty signatures give NaN.", "quantifier": "all signatures of all integer types", "why_tests_cant": "floating-point rounding over all lengths and counts", "anchors": ["gaoya/src/minhash/mod.rs: compute_minhash_similarity, compute_minhash_distance"]}
{"id": "C18", "title": "similarity_greater_than_threshold", "statement": "For equal non-zero lengths n it returns true iff the number of matches is at least trunc(n*threshold); it is implied by compute_minhash_similarity >= threshold for thresholds in [0,1] but not equivalent to it.", "quantifier": "all signatures and thresholds", "why_tests_cant": "early-exit loop and float truncation over all inputs", "anchors": ["gaoya/src/minhash/mod.rs: similarity_greater_than_threshold"]}
{"id": "C19", "title": "Signature length and value range", "statement": "create_signature of every hasher returns exactly num_hashes values for every input (all zeros for an empty input); values are < 2^31-1 (32 bit), < 2^61-1 (64 bit), < 2^16, < 2^8.", "quantifier": "all token sequences, all hash functions, all coefficients", "why_tests_cant": "all inputs", "anchors": ["gaoya/src/minhash/min_hasher.rs: create_signature, new_with_hasher_and_seed", "gaoya/src/minhash/min_hasher64.rs: create_signature"]}
{"id": "C20", "title": "Signatures depend only on the set of tokens", "statement": "Reordering or repeating tokens does not change any minhash signature, hence identical token sets have similarity 1.", "quantifier": "all token sequences with equal sets", "why_tests_cant": "all permutations and multiplicities", "anchors": ["gaoya/src/minhash/min_hasher.rs: create_signature", "gaoya/src/minhash/min_hasher64.rs: create_signature"]}
{"id": "C21", "title": "Signatures compose by pointwise minimum", "statement": "For non-empty token sequences the 32- and 64-bit signature of the concatenation is the pointwise minimum of the two signatures. For the truncated 16- and 8-bit hashers this fails.", "quantifier": "all pairs of token sequences", "why_tests_cant": "algebraic law over all inputs", "anchors": ["gaoya/src/minhash/min_hasher.rs: create_signature", "gaoya/src/minhash/min_hasher64.rs: create_signature"]}
{"id": "C22", "title": "Narrow hashers are truncations of the 32-bit hasher", "statement": "With the same hash function, seed and num_hashes, MinHasher16/8 signatures are the low 16/8 bits of the MinHasher32 signature, so reported similarity never decreases when moving to a narrower type.", "quantifier": "all token sequences, seeds, sizes", "why_tests_cant": "all inputs", "anchors": ["gaoya/src/minhash/min_hasher.rs: make_min_hasher!, MinHasher32, MinHasher16, MinHasher8"]}
{"id": "C23", "title": "When two signatures agree at a position", "statement": "At a position whose hash is collision-free on the two token sets, the signatures agree iff the token of minimal hash in the union lies in the intersection; disjoint sets then never match and a token shared by both that is minimal always matches.", "quantifier": "all pairs of non-empty token sets", "why_tests_cant": "the defining property of minhash over all sets", "anchors": ["gaoya/src/minhash/min_hasher.rs: create_signature", "gaoya/src/minhash/min_hasher64.rs: create_signature"]}
{"id": "C24", "title": "Bulk signature creation equals mapping", "statement": "bulk_create_signature(_refs) returns, in input order and under every schedule, the signature of each token list; compute_similarity is the similarity of the two signatures and lies in [0,1] whenever num_hashes > 0.", "quantifier": "all batches, schedules", "why_tests_cant": "schedules", "anchors": ["gaoya/src/minhash/mod.rs: MinHasher::bulk_create_signature, bulk_create_signature_refs, compute_similarity"]}
{"id": "C25", "title": "calculate_minhash_params terminates and is within budget", "statement": "For every similarity, num_hashes and probability (and any implementation of powf) the search terminates with r >= 1, b = num_hashes / r, hence b*r <= num_hashes; every band width from 2 to r passes the probability test, and if b > 1 width r+1 does not. b >= 1 and r <= num_hashes whenever num_hashes >= 1. Width 1 is never tested, so the desired probability need not be reached.", "quantifier": "all f64 inputs including NaN, all num_hashes, all powf", "why_tests_cant": "termination and bounds over all floats", "anchors": ["gaoya/src/minhash/mod.rs: calculate_b_and_r, calculate_minhash_params, calculate_minhash_params_with_proba"]}
{"id": "C26", "title": "calculate_centroid picks a most frequent band in every position", "statement": "calculate_centroid(ids) has num_bands*band_width hashes; each band of it is the band of some stored given id and no other band value is more frequent among them (ids not stored are ignored); it panics iff no given id is stored (and num_bands > 0). Among all signatures it maximises the number of (document, band) agreements.", "quantifier": "all states, id lists, map iteration orders", "why_tests_cant": "optimality over all candidate signatures and tie-breaks", "anchors": ["gaoya/src/minhash/minhash_index.rs: calculate_centroid", "gaoya/src/minhash/mod.rs: minhash_band_centroid_from_refs"]}
{"id": "C27", "title": "Per-position minhash centroid maximises total similarity", "statement": "minhash_centroid of non-empty equal-length signatures maximises the total number of matching positions with them over all signatures of that length, for every HashMap iteration order.", "quantifier": "all signature lists and orders", "why_tests_cant": "optimality over all candidates", "anchors": ["gaoya/src/minhash/mod.rs: minhash_centroid, minhash_centroid_from_refs"]}
{"id": "C28", "title": "SimHashIndex query is exact", "statement": "For every history of inserts and bulk inserts (re-inserts included), query(q) and query_owned(q) never panic and return exactly the stored ids whose current signature is at Hamming distance < hamming_distance from q: no false negatives and no false positives, for every num_blocks with hamming_distance <= num_blocks <= bit length.", "quantifier": "all histories, schedules, block counts, distances, signatures, both widths", "why_tests_cant": "the pigeonhole recall argument is over all placements of differing bits and all block layouts", "anchors": ["gaoya/src/simhash/sim_hash_index.rs: SimHashIndex::query, query_owned, insert, par_bulk_insert, par_bulk_insert_pairs", "gaoya/src/simhash/permutation.rs: Permutation::create"]}
{"id": "C29", "title": "Documented distance bound is off by one", "statement": "A stored signature at Hamming distance exactly hamming_distance (which the Python documentation promises to return) is never returned; with hamming_distance = 0 even an identical signature is not returned.", "quantifier": "all histories and queries", "why_tests_cant": "boundary behaviour over all states", "anchors": ["gaoya/src/simhash/sim_hash_index.rs: SimHashTable::query", "py-gaoya/gaoya/simhash.py: SimHashStringIndex docstring"]}
{"id": "C30", "title": "SimHashIndex query_one returns a globally nearest document", "statement": "query_one(q) is None iff no stored signature is at distance < hamming_distance; otherwise it returns a stored id and its distance, and no stored signature at all is closer.", "quantifier": "all histories, queries, iteration orders", "why_tests_cant": "minimum over all stored documents under any iteration order", "anchors": ["gaoya/src/simhash/sim_hash_index.rs: query_one"]}
{"id": "C31", "title": "SimHashIndex query_return_distance and bulk queries", "statement": "query_return_distance lists exactly the ids of query(q), each once, with its Hamming distance, in non-decreasing order; par_bulk_query(_return_distance) equals mapping the single query, in order, for every schedule.", "quantifier": "all histories, queries, batches, schedules, sort orders", "why_tests_cant": "all inputs and schedules", "anchors": ["gaoya/src/simhash/sim_hash_index.rs: query_return_distance, par_bulk_query, par_bulk_query_return_distance"]}
{"id": "C32", "title": "SimHashIndex bulk insert equals sequential insert", "statement": "par_bulk_insert and par_bulk_insert_pairs leave, for every schedule, the state obtained by inserting the zipped pairs in order.", "quantifier": "all states, batches, schedules", "why_tests_cant": "schedules", "anchors": ["gaoya/src/simhash/sim_hash_index.rs: par_bulk_insert, par_bulk_insert_pairs"]}
{"id": "C33", "title": "SimHashIndex size()", "statement": "size() returns 0 in every reachable state, so it does not report the number of stored documents.", "quantifier": "all histories", "why_tests_cant": "universal statement over histories", "anchors": ["gaoya/src/simhash/sim_hash_index.rs: size"]}
{"id": "C34", "title": "Block layout and number of tables", "statement": "Permutation::create(num_blocks, diff) yields binomial(num_blocks, diff) tables; the block masks are non-empty, disjoint and cover all bits; each key mask is a union of num_blocks-diff blocks; two signatures at distance <= diff agree under at least one key mask. Construction fails (underflow) if diff > num_blocks and does not terminate normally if num_blocks > bit length.", "quantifier": "all num_blocks, diff, widths, signature pairs", "why_tests_cant": "combinatorial statement over all parameters", "anchors": ["gaoya/src/simhash/permutation.rs: Permutation::create, Permutation::new", "gaoya/src/simhash/sim_hash_index.rs: SimHashIndex::new"]}
{"id": "C35", "title": "permute moves the selected blocks to the top bits without loss", "statement": "For every permutation created, permute(x) = permute(y) iff x and y agree under the key mask, and permute(x) uses only the top `width` bits, where width is the number of bits of the key mask.", "quantifier": "all permutations, all values", "why_tests_cant": "bit-level statement over all values and block layouts", "anchors": ["gaoya/src/simhash/permutation.rs: Permutation::permute, Permutation::new"]}
{"id": "C36", "title": "SimHash signature is the (inverted) bitwise majority of token hashes", "statement": "Bit i of create_signature is 1 iff strictly more token hashes have bit i = 0 than 1; the result is independent of token order, unchanged by repeating the whole document, 0 for an empty document and the bitwise complement of the hash for a single token.", "quantifier": "all token sequences and hash functions, 64 and 128 bits", "why_tests_cant": "all inputs", "anchors": ["gaoya/src/simhash/sim_hash.rs: SimHash::create_signature"]}
{"id": "C37", "title": "SimHash centroid is the strict majority and minimises total distance", "statement": "create_centroid sets a bit iff a strict majority of signatures has it; no value of the width has a smaller sum of Hamming distances to the signatures.", "quantifier": "all signature sequences, all candidate centroids", "why_tests_cant": "optimality over all 2^64 / 2^128 candidates", "anchors": ["gaoya/src/simhash/sim_hash.rs: SimHash::create_centroid"]}
{"id": "C38", "title": "Hamming distance is a metric", "statement": "hamming_distance is symmetric, 0 iff equal, satisfies the triangle inequality and is at most the bit length; hamming_angle lies in [0, PI as f64], is strictly monotone in the distance, and differs by at most 2^-51 from distance * pi / bit length.", "quantifier": "all values of both widths", "why_tests_cant": "2^128 inputs", "anchors": ["gaoya/src/simhash/mod.rs: hamming_distance, hamming_angle, count_ones, bit_length"]}
{"id": "C39", "title": "whitespace_split yields the maximal separator-free runs", "statement": "whitespace_split(text) yields exactly the maximal non-empty runs of characters that are neither ASCII punctuation nor ASCII whitespace, in order; no token is empty or contains a separator and no non-separator character is lost.", "quantifier": "all strings", "why_tests_cant": "all inputs", "anchors": ["gaoya/src/text/tokenizers.rs: whitespace_split, whitespace_split_boxed"]}
{"id": "C40", "title": "MultiShingles over slices: exact output", "statement": "For 1 <= from <= to, iterating MultiShingles::new(slice, from, to) yields, position by position, the windows of sizes from..to, up to the first position where the window of size `to` no longer fits (at which only the fitting sizes are produced); the iterator then ends. Windows starting after that position are never produced, contrary to the documented 'all n-grams with from <= n <= to'.", "quantifier": "all slices, all from/to", "why_tests_cant": "termination and exact content over all inputs", "anchors": ["gaoya/src/text/multi_shingles.rs: impl Iterator for MultiShingles<[T]>"]}
{"id": "C41", "title": "MultiShingles over strings works on whole characters", "statement": "On valid UTF-8, for 1 <= from <= to, the string iterator never panics, never splits a character, and yields exactly the character-level windows of the slice iterator.", "quantifier": "all valid UTF-8 strings, all from/to", "why_tests_cant": "byte-offset arithmetic over all multi-byte texts", "anchors": ["gaoya/src/text/multi_shingles.rs: impl Iterator for MultiShingles<str>", "gaoya/src/text/tokenizers.rs: shingle_text_range"]}
{"id": "C42", "title": "Degenerate shingle ranges", "statement": "With from = to = 0 the slice iterator panics after exhausting the slice and the string iterator over an empty string never ends; with from = 0 the string iterator yields nothing on a non-empty string while the slice iterator yields an empty window first; with from > to only windows of size from are produced.", "quantifier": "all inputs with degenerate ranges", "why_tests_cant": "divergence and panics over all inputs", "anchors": ["gaoya/src/text/multi_shingles.rs: MultiShingles::next"]}
{"id": "C43", "title": "Serial clustering produces disjoint, sufficiently large clusters", "statement": "Clusterer::cluster (serial) returns pairwise disjoint clusters of previously unassigned points, each with more than min_cluster_size points (so size min_cluster_size itself is rejected), every point of a returned cluster carries that cluster's id, and no other point changes.", "quantifier": "all point lists, all query indexes, all prior assignments", "why_tests_cant": "all similarity relations and orders", "anchors": ["gaoya/src/clustering/clustering_serial.rs: Clusterer::cluster, create_new_cluster"]}
{"id": "C44", "title": "Serial clustering leaves nothing clusterable", "statement": "On return every given point is assigned or has at most min_cluster_size unassigned similar points.", "quantifier": "all point lists and query indexes", "why_tests_cant": "maximality over all inputs", "anchors": ["gaoya/src/clustering/clustering_serial.rs: Clusterer::cluster"]}
{"id": "C45", "title": "Serial cluster ids", "statement": "Within one call the clusters get ids seq+1, seq+2, ... in order (all distinct), but the counter is not saved: a second call re-uses the same ids, so two live clusters can carry the same id.", "quantifier": "all calls; existence of the collision", "why_tests_cant": "all inputs / cross-call history", "anchors": ["gaoya/src/clustering/clustering_serial.rs: Clusterer::cluster, cluster_id_sequence"]}
{"id": "C46", "title": "Parallel clusterer run by a single thread", "statement": "Clusterer::cluster of the parallel clusterer run alone returns pairwise disjoint clusters with at least min_cluster_size points each, whose points point to that cluster, ids continuing the counter (so distinct across calls); seeds are visited by decreasing number of similar points; each cluster is all still unassigned points similar to its seed; afterwards a given unassigned point has no unassigned similar points or fewer than min_cluster_size.", "quantifier": "all point lists, query indexes and prior assignments", "why_tests_cant": "all inputs", "anchors": ["gaoya/src/clustering/clusterer_parallel.rs: cluster_slice, try_create_cluster"]}
{"id": "C47", "title": "Parallel clustering under arbitrary interleavings: what holds", "statement": "For every interleaving of any number of threads: as long as no undefined behaviour occurs, the ids of returned clusters are new and pairwise distinct, a returned cluster is committed and alive and contains (without repetition) only points similar to one seed of its thread's chunk, prior assignments never change, and at the end every newly assigned point points to a returned cluster that contains it. A returned cluster can however be smaller than min_cluster_size.", "quantifier": "all thread counts, all interleavings of atomic accesses", "why_tests_cant": "interleavings cannot be enumerated", "anchors": ["gaoya/src/clustering/clusterer_parallel.rs: cluster_par, try_create_cluster, fetch_add, compare_exchange"]}
{"id": "C48", "title": "Parallel clustering under arbitrary interleavings: what fails", "statement": "There is an interleaving of two threads after which one point belongs to two returned clusters, and one in which a thread reads a cluster that was already freed; stolen points are never re-pointed to the winner, so a point of a returned cluster can end unassigned; a cluster that was rolled back and released its points goes on taking others; with overflow checks the retry of the first point panics.", "quantifier": "existence of interleavings", "why_tests_cant": "a race that tests hit only by luck", "anchors": ["gaoya/src/clustering/clusterer_parallel.rs: try_create_cluster, rollback_cluster_points, COMMITTED, ROLLED_BACK"]}
{"id": "C49", "title": "cluster_par chunking", "statement": "cluster_par panics iff n_threads = 0 or there are fewer points than n_threads (in particular for no points); otherwise the chunks partition the points in order all but the last of size len / n_threads, and their number is at least n_threads and below 2 * n_threads.", "quantifier": "all point counts and thread counts", "why_tests_cant": "all parameters", "anchors": ["gaoya/src/clustering/clusterer_parallel.rs: cluster_par"]}
{"id": "C50", "title": "MinHashStringIndex: queries never panic, size counts lines", "statement": "For every history of insert, load_from_lines, load_from_file and load_from_file_parallel, query never panics, every returned text is one whose signature is >= threshold similar to the query's, and size() is the number of documents added.", "quantifier": "all histories, texts, queries", "why_tests_cant": "the unwrap in query relies on an invariant linking two maps", "anchors": ["gaoya/src/minhash/string_index.rs: insert, query, load_from_lines, load_from_file, load_from_file_parallel, size"]}
{"id": "C51", "title": "MinHashStringIndex retrievability", "statement": "With only insert/load_from_lines (or only parallel loads) every added text is returned by query(text) for thresholds <= 1; but load_from_file_parallel after an insert re-uses the last document's id and loses that document.", "quantifier": "all serial histories; existence of the losing history", "why_tests_cant": "id allocation across histories", "anchors": ["gaoya/src/minhash/string_index.rs: load_from_file_parallel, insert"]}
{"id": "C52", "title": "Python bulk document insertion equals one-by-one insertion", "statement": "par_bulk_insert_docs of the Python minhash and simhash indexes gives the same index as insert_document for each pair in order, on both sides of the 100-document switch, provided every document tokenises; the token variants and the MinHashStringIndex class agree likewise; a document inserted and queried verbatim is found (minhash, threshold <= 1, non-degenerate shape).", "quantifier": "all batches, sizes, tokenizers, schedules, earlier histories", "why_tests_cant": "two code paths switched on batch size", "anchors": ["py-gaoya/src/min_hash.rs: par_bulk_insert_docs, insert_document, bulk_hash_docs, query", "py-gaoya/src/sim_hash.rs: par_bulk_insert_docs", "py-gaoya/gaoya/minhash.py: insert_document, par_bulk_insert_docs"]}
{"id": "C53", "title": "Python constructor shapes and exceptions", "statement": "The Python minhash constructor uses (num_bands, band_width) when both are given, otherwise derives them from num_hashes, otherwise raises ValueError; hasher and index always agree on the signature length, so an insertion, removal or plain query raises exactly when a document cannot be tokenised (a shingle range with equal ends). The class constructor accepts exactly the documented values, except that a NaN threshold passes the check and gives an index that never answers, and num_hashes is ignored because num_bands and band_size have defaults. Not true: queries returning similarities can raise even so.", "quantifier": "all constructor arguments, all histories, all later documents", "why_tests_cant": "all argument combinations and later inputs", "anchors": ["py-gaoya/src/min_hash.rs: new, tokenize_and_minhash", "py-gaoya/gaoya/minhash.py: MinHashStringIndex.__init__"]}
{"id": "C54", "title": "Python SimHashStringIndex interface defects", "statement": "The num_blocks range check never rejects anything (so the constructor accepts any 0 <= hamming_distance < num_blocks <= hash_size and panics in Rust for more blocks); query(return_hamming_distance=True), and par_bulk_query with a callable analyzer or with return_similarity=True, always raise AttributeError because the native classes have no such methods; the remaining calls give the native answers.", "quantifier": "all arguments", "why_tests_cant": "validation over all arguments", "anchors": ["py-gaoya/gaoya/simhash.py: __init__, query, par_bulk_query", "py-gaoya/src/sim_hash.rs: pymethods"]}
{"id": "C55", "title": "Jaccard similarity of token iterators", "statement": "compute_jaccard_similarity (f32) is the correctly rounded |A∩B|/|A∪B| of the distinct tokens: symmetric, in [0,1], 1 for equal non-empty sets, 0 for disjoint non-empty ones, NaN iff both are empty; distance is 1 minus it.", "quantifier": "all token sequences (fewer than 2^24 distinct tokens)", "why_tests_cant": "float rounding and set semantics over all inputs", "anchors": ["gaoya/src/minhash/mod.rs: compute_jaccard_similarity, compute_jaccard_distance"]}
{"id": "C56", "title": "Parallel clustering is wait-free", "statement": "A thread of the parallel clusterer finishes after a number of own steps bounded by its points' numbers of similar points (n*(n+10)+2n+9 per point with n similar points), whatever the other threads do, unless undefined behaviour occurs.", "quantifier": "all interleavings, chunks, query indexes", "why_tests_cant": "interleavings cannot be enumerated; a missing livelock cannot be tested", "anchors": ["gaoya/src/clustering/clusterer_parallel.rs: cluster_slice, try_create_cluster, rollback_cluster_points"]}
{"id": "C57", "title": "Python minhash index: content and answers", "statement": "The size of a Python minhash index is the number of ids whose last call inserted rather than removed them, also after calls that raised half-way; query returns distinct stored ids only, each with signature similarity at least the threshold; if no id was inserted while present, query is exactly the ids that share a band and reach the threshold, the similarity query adds their similarity in descending order, and the bulk queries are the single queries in order. The same holds for queries by tokens, and for the class MinHashStringIndex with a named or a callable analyzer.", "quantifier": "all call histories including raising calls, documents, tokenizers, schedules", "why_tests_cant": "unbounded histories with partial failures", "anchors": ["py-gaoya/gaoya/minhash.py: MinHashStringIndex", "py-gaoya/src/min_hash.rs: insert_document, bulk_insert_tokens, par_bulk_insert_tokens, par_bulk_insert_docs, remove, query, query_return_similarity, par_bulk_query, size"]}
{"id": "C58", "title": "Python simhash index: content and answers", "statement": "query of the Python simhash index returns exactly the ids whose last stored document has a signature at Hamming distance strictly below the maximum, once each; the distance query adds the distances in ascending order; the bulk queries are the single queries in order; a call raises exactly when a document it needs cannot be tokenised. The same answers hold for queries by tokens and for SimHashStringIndex with a named or a callable analyzer.", "quantifier": "all call histories including raising calls, documents, tokenizers, schedules", "why_tests_cant": "unbounded histories with partial failures", "anchors": ["py-gaoya/src/sim_hash.rs: insert_document, insert_tokens, par_bulk_insert_tokens, par_bulk_insert_docs, query, query_return_distance, par_bulk_query"]}
{"id": "C59", "title": "Tokens of a document in the Python classes", "statement": "With no range a document is split into its words, or for the analyzer 'char' into the windows of 3 and 4 characters; with an ascending range (a,b) into the windows of a to b words (characters), as listed by the multi-shingle iterators, which leave out the short windows near the end; with (a,a) into what the shingles crate lists; with a descending range into the windows of exactly a; 'char' with a = 0 yields no tokens. Lower-casing is applied first. Not every n-gram with n in the range is a token.", "quantifier": "all documents (any Unicode text), names and ranges", "why_tests_cant": "all texts and ranges; a fuel-bounded iterator shown to end by itself", "anchors": ["py-gaoya/src/lib.rs: TokenizerSpecification::new", "py-gaoya/src/min_hash.rs: tokenize_and_minhash", "py-gaoya/src/sim_hash.rs: tokenize_and_simhash, doc2signature"]}
{"id": "C60", "title": "SuperMinHash V1 signatures", "statement": "The signature of one token is its shuffled list 0..m with entries possibly one higher (f32 rounding); the signature of a concatenation is the componentwise minimum, so it depends on the set of tokens only; a document without tokens has every component 100000000. A one-token signature need not be a permutation of 0..m.", "quantifier": "all token lists, generators (any shuffles, any draws in [0,1)), up to 2^24 hashes", "why_tests_cant": "all documents and generators; float rounding", "anchors": ["gaoya/src/minhash/super_min_hash.rs: SuperMinHasher32V1::create_signature"]}
{"id": "C61", "title": "SuperMinHash V2 signatures", "statement": "create_signature panics exactly with zero hashes. The first token only sets component 0, to 0: every one-token document has the signature 0, 100000000, ...; with two tokens the others are the ranks of the second token alone; from two tokens on every component is at most m; further tokens never raise a component, and every value comes from the random permutation of a token after the first. The signature depends on the order and the multiplicity of the tokens, and the early stop may miss smaller values.", "quantifier": "all token lists, generators (any positions, any draws in [0,1)), up to 2^24 hashes", "why_tests_cant": "all documents and generators; loop invariants over the counters that stop the loop early", "anchors": ["gaoya/src/minhash/super_min_hash.rs: SuperMinHash32V2::create_signature"]}
{"id": "C62", "title": "Distribution of a signature position over the token hashes", "statement": "For the hashers MinHasher32 and MinHasher64V1, when the multiplier of a position is odd, every value v below the modulus is the position's value for exactly its fair share of the token hashes: floor or ceiling of 2^32/(2^31-1) (2^64/(2^61-1)), the ceiling for the smallest v. When the multiplier is even, tokens whose hashes differ in the top bit only always agree in the position, so the family is not universal.", "quantifier": "all positions, multipliers, additive terms, token hashes", "why_tests_cant": "needs all 2^32 (2^64) hashes and all coefficients", "anchors": ["gaoya/src/minhash/min_hasher.rs: create_signature", "gaoya/src/minhash/min_hasher64.rs: create_signature"]}
{"id": "C63", "title": "Token hashers and leading bits", "statement": "ShaHasher64 is the big-endian number of the first eight bytes of the digest of all bytes written, so two tokens collide exactly if their digests agree there; for it and the sip hashers the way the bytes are cut into writes does not matter, and Sha1Hasher can be written on after finish. to_u32_high_bits and to_u64_high_bits are the leading 32 (64) bits of a 64- or 128-bit fingerprint.", "quantifier": "all byte sequences, splits, keys, fingerprints", "why_tests_cant": "all inputs", "anchors": ["gaoya/src/minhash/hashers.rs: Sha1Hasher", "gaoya/src/simhash/sim_hasher.rs: ShaHasher64, SimSipHasher64, SimSipHasher128", "gaoya/src/simhash/mod.rs: to_u32_high_bits, to_u64_high_bits"]}
{"id": "C64", "title": "Parallel clustering of separated chunks", "statement": "If what is found from the points of one chunk is neither in another chunk nor found from one, then in every interleaving the parallel clusterer neither panics nor has undefined behaviour, finishes within the steps of C56, gives each chunk the clusters of a run on that chunk alone, all disjoint, of at least min points that were free; and no two threads ever use the same cluster box, nor does one use a cell another writes, so the relaxed memory ordering makes no difference.", "quantifier": "all interleavings, chunks, query indexes, start states", "why_tests_cant": "interleavings cannot be enumerated; absence of sharing is not observable", "anchors": ["gaoya/src/clustering/clusterer_parallel.rs: cluster_par, cluster_slice, try_create_cluster, rollback_cluster_points"]}
{"id": "C65", "title": "Data races of the parallel clusterer", "statement": "All atomic operations being Relaxed, a thread that loses a point to a cluster another thread made during the same call races with the making of that cluster; these looks at a conflicting cluster are the only races on clusters, so a single thread and threads whose chunks are separated (C64) have none. Executions with correct results can contain such a race (the expectation that cluster_par is free of data races is refuted).", "quantifier": "all interleavings, chunks, query indexes, start states", "why_tests_cant": "on common hardware the race has no visible effect; a test cannot show its absence or presence", "anchors": ["gaoya/src/clustering/clusterer_parallel.rs: Cluster, ClusterPointInner, try_create_cluster, rollback_cluster_points"]}
{"id": "C66", "title": "Expected similarity of minhash signatures", "statement": "Averaged over any family of token hashes that with a hash contains all that hand out the same values to the tokens differently (in particular over all token hashes), the signatures of two documents agree at each position at least as often as their Jaccard similarity says, so the mean number of agreeing positions is at least num_hashes times the Jaccard similarity; for the untruncated hashers the excess is at most the share of hashes under which the least value is taken twice, none without collisions, and for independent uniform token hashes and an odd multiplier at most m(m-1)/2 times 9/2^64 (3/2^32) for m distinct tokens. It is not zero: disjoint documents agree under some token hash.", "quantifier": "all documents, hashers, coefficients, positions, families of token hashes", "why_tests_cant": "a statement about averages over 2^64 values per token", "anchors": ["gaoya/src/minhash/min_hasher.rs: create_signature", "gaoya/src/minhash/min_hasher64.rs: create_signature"]}
{"id": "C67", "title": "Expected Hamming distance of simhash signatures", "statement": "Averaged over all token hashes with values of the hash type, the signatures of any two documents differ in at most half of their bits; documents without a common token differ in exactly half of the bits if one of them has an odd number of tokens. With even numbers of tokens ties pull unrelated documents together: two documents of two different tokens each differ in 3/8 of the bits on average.", "quantifier": "all documents (repeated and common tokens included), all signature lengths up to the width of the hash", "why_tests_cant": "a statement about averages over 2^64 values per token; the upper bound is a correlation inequality", "anchors": ["gaoya/src/simhash/sim_hash.rs: create_signature", "gaoya/src/simhash/mod.rs: hamming_distance"]}
{"id": "C68", "title": "Clustering the documents of a MinHash index", "statement": "With a MinHashIndex of right-sized signatures as query index, whatever calls it went through, the serial clusterer does not panic; each cluster lies around a given free document whose signature all members' current signatures resemble to at least the threshold, so that two members differ only where one of them differs from it; with min_cluster_size 0 every free given document of the index gets into a cluster. After a clean history documents with equal signatures get into the same clusters, and the clusters have representatives among the given documents none of which is an answer to the query for another. After overwriting an id, equal signatures may be separated. Clusters of the parallel clusterer lie around a document of the thread's chunk in every interleaving without undefined behaviour.", "quantifier": "all histories of the index, containers, band hashes, thresholds, point lists, earlier assignments, iteration orders, interleavings", "why_tests_cant": "joins arbitrary histories of one component with all runs of another", "anchors": ["gaoya/src/minhash/minhash_index.rs: QueryIndex::query", "gaoya/src/clustering/clustering_serial.rs: Clusterer::cluster", "gaoya/src/clustering/clusterer_parallel.rs: Clusterer::cluster_par"]}
{"id": "C69", "title": "Distribution of the similarity estimate over the coefficients", "statement": "For any two documents, hasher and set F of coefficient pairs, let a of the |F| pairs make the one-hash signatures of the documents equal. Over all draws of n pairs the number of agreeing positions of the signatures is binomially distributed (j positions agree for C(n,j) a^j (|F|-a)^(n-j) draws), so compute_similarity estimates a/|F| without bias, with variance p(1-p)/n, and the share of draws whose estimate is off by a given amount is bounded by Chebyshev's inequality and, for any weights u and v, by the exponential bound u^k v^(n-k) * (draws with at least, or at most, k agreements) <= (u a + v (|F|-a))^n.", "quantifier": "all documents, token hashes, hashers, coefficient sets, numbers of hashes", "why_tests_cant": "a statement about all (2^31)^2n choices of coefficients", "anchors": ["gaoya/src/minhash/min_hasher.rs: new_with_hasher, create_signature", "gaoya/src/minhash/min_hasher64.rs: create_signature"]}
{"id": "C70", "title": "The S-curve of banding", "statement": "With p = a/|F| as in C69, nb bands of width bw and a threshold up to 1/nb, a stored document is found by a query under at least the share 1-(1-p^bw)^nb of all draws of coefficients, whatever the history of the index and the band hash; after clean histories and without band hash collisions it is at most that for any threshold, hence exactly that. With a larger threshold it is smaller.", "quantifier": "all documents, hashers, coefficient sets, bandings, histories, containers, ids", "why_tests_cant": "the share is over all coefficients; tests sample a few", "anchors": ["gaoya/src/minhash/minhash_index.rs: insert, query", "gaoya/src/minhash/min_hasher.rs: create_signature"]}
{"id": "C71", "title": "Expected similarity of SuperMinHash signatures", "statement": "Averaged over any set of token seeds closed under permuting the tokens, the SuperMinHash signatures of two documents agree at each position at least as often as their Jaccard similarity says, more often only when two tokens offer the same least number, and exactly as often without such ties. Offers are integers from 0 to the number of hashes m, so more than m+1 tokens always tie; a document with a token of rank 0 for every position has the all-zero signature, and documents without a common token agree at a position with probability at least (1-(1-q)^|x|)(1-(1-q)^|y|), q being the share of seeds of rank 0 there: the estimate is not unbiased and saturates for long documents.", "quantifier": "all documents, token types, seed families, generators that shuffle and draw from [0,1), 0 < m <= 2^24 hashes", "why_tests_cant": "an average over all seeds; the saturation shows only for documents much longer than the signature", "anchors": ["gaoya/src/minhash/super_min_hash.rs: SuperMinHasher32V1::create_signature"]}
{"id": "C72", "title": "Documents of the string index from the bytes of a file", "statement": "The loaders of the string index see exactly the lines of the file: stretches of bytes up to a line feed, read as UTF-8, without one carriage return at the end, and the rest if it is not empty; a stretch that is not UTF-8 or is broken by a failed read is an error, which load_from_file skips and load_from_file_parallel panics at. Texts without line feeds, written with either line end, are loaded exactly as they are by both loaders, and are then found by queries exactly if similar and sharing a band hash. Texts ending with a carriage return lose it, and after a failed read within a line the rest of the line is loaded as a document. Where reads fail for ever (a directory) load_from_file never returns.", "quantifier": "all byte sequences with read errors at any places, all histories of the index, schedules, hashes", "why_tests_cant": "all byte sequences and all places of read errors", "anchors": ["gaoya/src/minhash/string_index.rs: load_from_lines, load_from_file, load_from_file_parallel"]}
{"id": "C73", "title": "Parallel clusterer under relaxed memory", "statement": "With every load of an atomic allowed to return any coherent older value (all operations are Ordering::Relaxed): the interleavings of C47 are among the executions; the guarantees of C47 and the step bound of C56 hold in every execution without undefined behaviour. An execution without a data race on a cluster has no undefined behaviour, panics only if a query panics, and gives disjoint clusters of at least min_cluster_size points that were free and now point to their cluster, and leaves a given point unassigned only if too few of its similar points are left. For separated chunks, and for a single thread, every execution is an interleaving. In general not: a thread that starts after another has finished may see old pointers, lose a point and give up although enough points are left.", "quantifier": "all queries, chunks, initial memories, executions (schedules with choices of the values read)", "why_tests_cant": "no test can choose which old value a relaxed load returns", "anchors": ["gaoya/src/clustering/clusterer_parallel.rs: assign_cluster, commit, rollback, is_rolled_back, is_commited, cluster_slice, try_create_cluster, rollback_cluster_points"]}
{"id": "C74", "title": "The default token hash", "statement": "The default minhashers hash a string token with FNV-1a (64 bits) of its bytes and a byte 255. Tokens of one to four bytes never have the same hash, tokens of up to three bytes not even the same low 32 bits (all that MinHasher32/16/8 use); nor do tokens that differ only within four (three) consecutive bytes, and a common ending neither makes nor hides a collision. Tokens with the same hash are interchangeable in every document. There are such tokens: two of four letters and digits agree in the low 32 bits, two of twenty in all 64, so documents without a common token can have the same signature and similarity 1 for all hashers, coefficients and lengths.", "quantifier": "all tokens (byte strings), documents, hashers, coefficients", "why_tests_cant": "2^64 pairs of short tokens; collisions of long tokens are not found by sampling", "anchors": ["gaoya/src/minhash/min_hasher.rs: new, create_signature", "gaoya/src/minhash/min_hasher64.rs: new, create_signature"]}
{"id": "C75", "title": "The computed bands reach the desired probability", "statement": "Let (b, r) be the answer of calculate_minhash_params_with_proba(s, n, p) and powf be accurate to 2^-52. With r of 2 or more, 1-(1-s^r)^b exceeds p up to 3(b+1)2^-53; wider bands of n hashes in total do not exceed it (if b is above 1). The two documented calls have the documented answers. An index built with the answer and a threshold up to 1/b finds a stored document that shares a hash with the query with probability s or more with probability above p (again up to rounding, over the choice of the coefficients). Not true: with bands of one position, which are answered without a test; and with the similarity s as threshold of the index.", "quantifier": "all similarities and probabilities (floats), numbers of hashes up to 2^53, accurate powers; all documents, hash functions, sets of coefficients, histories, containers, band hashes", "why_tests_cant": "an inequality between real numbers for all floats and hash counts; probabilities over all coefficients", "anchors": ["gaoya/src/minhash/mod.rs: calculate_minhash_params, calculate_minhash_params_with_proba, calculate_b_and_r", "gaoya/src/minhash/minhash_index.rs: query"]}
{"id": "C76", "title": "Distribution of the distance of simhash signatures", "statement": "Over all token hashes of a set of tokens, the Hamming distance of the signatures of two documents is binomially distributed: L bits, each differing with the probability q/T that one-bit signatures differ; mean, variance, deviation and exponential tail bounds follow. q/T is at most one half. For n different tokens and the same with one more it is binom(n, n/2)/2^(n+1). The SimHash index with distance bound d finds a stored document exactly with the probability that fewer than d of W such bits differ, whatever else was inserted.", "quantifier": "all documents, widths W and lengths L up to W, numbers of tokens, histories of the index, bounds d up to the number of blocks", "why_tests_cant": "2^(W u) token hashes for u tokens; sampling cannot establish a distribution", "anchors": ["gaoya/src/simhash/sim_hash.rs: create_signature", "gaoya/src/simhash/sim_hash_index.rs: query"]}
{"id": "C77", "title": "When the index answers like a scan of all signatures", "statement": "If every stored signature similar enough to the query shares a band with it, query returns exactly the ids a scan of all stored signatures finds, whatever the band hash, the container and the history (overwritten and removed documents included). A threshold above (w-1)/w for bands of w hashes guarantees it for all contents and queries, a threshold of at least (w-1)/w makes query_one return a best match of the whole index, and with bands of one hash every positive threshold will do. The bound is sharp for every number and width of bands. The repository's unit tests test_remove, test_duplidate_ids and the centroid tests hold for every band hash, container and enumeration order.", "quantifier": "all histories, contents, queries, containers, band hashes, numbers and widths of bands with b*w up to 2^53, thresholds", "why_tests_cant": "tests run with one band hash and one order; the claim is about all of them", "anchors": ["gaoya/src/minhash/minhash_index.rs: query, query_one, insert, remove, size", "gaoya/src/minhash/mod.rs: minhash_centroid"]}
{"id": "C78", "title": "The random numbers of the hashers", "statement": "The words drawn from StdRng::seed_from_u64 are the ChaCha12 key stream of the key the seed expands to. Uniform and gen_range give every value of the range to the same number of words and use at least half of the words; the f32 numbers are the multiples of 2^-23 below 1, 512 words each; a shuffle makes one choice per place and exactly one list of choices leads to each order. A hasher built from a seed has as many coefficients as asked, multipliers in 1..P and increments in 0..P, read off the stream word by word; more hashes keep the multipliers but not the increments. The SuperMinHash variants read the shuffle, the positions and the numbers of [0,1) off the stream of the token's hash in the same way, and the hypotheses of C60, C61 and C71 hold for this generator.", "quantifier": "all seeds, sizes, ranges, words, and numbers of rounds of the rejection loops", "why_tests_cant": "no test compares the distribution of the numbers or looks at more than one seed", "anchors": ["gaoya/src/minhash/min_hasher.rs: new_with_hasher_and_seed", "gaoya/src/minhash/min_hasher64.rs: new_with_hasher_and_seed", "gaoya/src/minhash/super_min_hash.rs: create_signature"]}
{"id": "C79", "title": "The documented examples hold with the default hashers", "statement": "With the hashers MinHasher8/16/32/64V1::new makes (the coefficients of StdRng seeded with 3, FNV token hashes), the examples in the documentation of the crate, of MinHashIndex, query_one and remove, and the unit tests test_min_hash_32/16/8, test_min_hash_similarity, test_lsh_index, test_lsh_index_batch_construction, test_duplidate_ids and test_load_from_file of the string index give the answers they assert, whatever the randomly keyed band hash, the container, the thread schedule and the enumeration order of the sets.", "quantifier": "all band hashes, containers, schedules, set orders, and all powf with an absolute error of at most 2^-52 on [0,1]", "why_tests_cant": "a test run sees one pair of AHash keys and one schedule; here the answer is proved for all of them", "anchors": ["gaoya/src/lib.rs: Example", "gaoya/src/minhash/minhash_index.rs: query_one", "gaoya/src/minhash/minhash_index.rs: remove", "gaoya/src/minhash/minhash_index.rs: test_lsh_index", "gaoya/src/minhash/min_hasher.rs: test_min_hash", "gaoya/src/minhash/min_hasher64.rs: test_min_hash_similarity", "gaoya/src/minhash/string_index.rs: test_load_from_file"]}
{"id": "C80", "title": "The token digests are SHA-1 and SipHash-2-4", "statement": "ShaHasher64 hashes a token to the first eight bytes of the one digest FIPS 180-4 allows for the bytes the token writes, and does not panic. SimSipHasher64 and SimSipHasher128 return SipHash-2-4 (64 and 128 bits) of these bytes under the two keys in the order given, however the bytes arrive: in writes of any lengths, or byte by byte. The unit tests test_sim_hash_basics and test_sim_hash_basics128 hold: the distances are 7 (below 8) and 12 (below 13).", "quantifier": "all byte strings, all ways to cut them into writes, all pairs of 64-bit keys", "why_tests_cant": "test vectors fix the digest of a few messages, and no test cuts a token into writes in another way", "anchors": ["gaoya/src/simhash/permutation.rs: ShaHasher64, SimSipHasher64, SimSipHasher128", "gaoya/src/minhash/hashers.rs: Sha1Hasher", "gaoya/src/simhash/sim_hash.rs: test_sim_hash_basics, test_sim_hash_basics128"]}
{"id": "C81", "title": "The random unit test of the simhash index fails only when no copy is near", "statement": "test_simhash_index draws copies of a document with one element replaced. For whatever numbers it draws, and any iteration order of the candidate set, its comparison of query_one with the linear search never fails; the test passes if and only if some copy has a signature less than 6 bits from the document's, and panics at unwrap if and only if none has. Of the 19980 possible copies exactly 6917 are 6 or more bits away, so the test panics for 6917^100 of the 19980^100 outcomes, fewer than one in 10^46.", "quantifier": "all draws of the test's generator, any number of copies, all iteration orders", "why_tests_cant": "the test draws 100 copies at random; a run sees one outcome of 19980^100", "anchors": ["gaoya/src/simhash/sim_hash_index.rs: test_simhash_index", "gaoya/src/simhash/sim_hash_index.rs: query_one", "gaoya/src/simhash/sim_hash.rs: create_signature"]}
{"id": "C82", "title": "The tests of the Python package pass in every run", "statement": "With the hashers the Python classes make (the coefficients of StdRng seeded with 3, FNV token hashes of words and of one-word slices), the tests test_minhash_64bit, test_minhash_32bit/16bit/8bit with each of the three containers, test_minhash_16bit_custom_analyzer, test_documents (also the example of the class documentation) and test_return_similarity pass, whatever the randomly keyed band hash, the thread schedules, the enumeration order of sets and the unstable sort; the similarities returned in the last test are exactly 135, 126, 119, 113 and 135, 125, 111, 99 of 135 hashes. The container name array is refused with ValueError.", "quantifier": "all band hashes, schedules, set orders, sorts by descending similarity", "why_tests_cant": "a test run sees one pair of AHash keys, one schedule and one iteration order; here the assertions are proved for all of them", "anchors": ["py-gaoya/tests/test_minhash.py", "py-gaoya/gaoya/minhash.py: MinHashStringIndex", "py-gaoya/src/min_hash.rs: insert_document, query, query_return_similarity, par_bulk_insert_docs"]}
{"id": "C83", "title": "The random unit test of the MinHash index depends on the draws only through nearness", "statement": "test_lsh_index_batch_construction2 draws three vectors and 99 changed copies of each, inserts them in bulk, queries and removes every second one of the first group. With the default MinHasher64V1 and the computed 42 bands of width 3 it never panics outside its assertions, and passes exactly if each of the three vectors is near its 99 copies and near none of the other 200 vectors, near meaning that at least 63 of the 126 hashes agree and some band has the same band hash. The assertions on the size, on query_top_k and on the removal follow. There are draws within the ranges for which it passes under every band hash, and draws for which it fails.", "quantifier": "all numbers drawn, band hashes, schedules, set orders, sorts and accurate powf", "why_tests_cant": "the test sees one outcome of the draws and of the AHash keys per run", "anchors": ["gaoya/src/minhash/minhash_index.rs: test_lsh_index_batch_construction2, par_bulk_insert, query, query_top_k, bulk_remove", "gaoya/src/minhash/min_hasher64.rs: create_signature"]}
{"id": "C84", "title": "Without overflow checks a simhash index with too many blocks is never finished", "statement": "A release build (no overflow checks, as the Python wheels are made) gives the same permutations, the same index and the same permuted values as the checked build whenever that one returns. For SimHashIndex::new(num_blocks, d) on W-bit signatures: d <= num_blocks <= W gives the index; d > num_blocks panics in both builds; d <= num_blocks and num_blocks > W panics in a checked build and never returns in an unchecked one, since Permutation::new looks for a set bit in an empty mask. The Python constructor SimHashStringIndex ends alike in both builds except that it never returns where the checked build raises a PanicException, that is for valid hash sizes and analyzers exactly when 0 <= hamming_distance < num_blocks and num_blocks > hash_size.", "quantifier": "all widths, numbers of blocks, distances, and numbers of loop rounds", "why_tests_cant": "a test cannot observe that a call never returns, and the test profile has the checks on", "anchors": ["gaoya/src/simhash/permutation.rs: new, create, permute", "gaoya/src/simhash/sim_hash_index.rs: new", "py-gaoya/gaoya/simhash.py: __init__"]}
{"id": "C85", "title": "Builds with debug assertions differ only for band hashes of 0", "statement": "In a build with debug assertions the MinHash index behaves exactly as without as long as no band of an inserted signature hashes to 0. Inserting a signature with such a band panics: the bands before it have the id, the later bands and the id map do not; a bulk insertion panics and leaves the id map alone. Removals never meet the assertion, after any history. A query with such a band panics, except possibly when the table of the band is empty, and otherwise answers as without the assertion. A caught panic is not harmless: the id stays a candidate, cannot be removed, and makes query_owned_return_similarity and query_top_k panic.", "quantifier": "all signatures, band hashes, histories with caught panics, schedules, containers, and both behaviours of lookups in empty tables", "why_tests_cant": "a band hash of 0 has probability 2^-64 and is never met by a test", "anchors": ["gaoya/src/minhash/minhash_index.rs: NoOpHasher::finish, insert, par_bulk_insert_pairs, remove, bulk_remove, query, query_top_k"]}
{"id": "C86", "title": "The private helper functions", "statement": "has_ids of a band panics exactly on signatures that end inside the band; otherwise it is true whenever a stored id has the same band hash, and after a clean history only then. filter_by_minhash_similarity panics if a candidate is not stored or has another length, and otherwise keeps exactly the candidates whose distance (not similarity) is at least the threshold: with threshold 0.5 it drops the query itself and keeps a signature with no hash in common. avg_bucket_count of a simhash index is 0 before the first insertion and then the mean over the tables, rounded down, of the number of insertions divided by the number of different masked signatures, rounded down; it is between 1 and the number of insertions, but not always the mean bucket size rounded down.", "quantifier": "all histories, containers, band hashes, candidate sets, widths and numbers of blocks", "why_tests_cant": "nothing calls these functions, so no test reaches them", "anchors": ["gaoya/src/minhash/minhash_index.rs: has_ids, filter_by_minhash_similarity", "gaoya/src/simhash/sim_hash_index.rs: avg_bucket_count"]}
{"id": "C87", "title": "The printed text of an index determines its parameters and its size", "statement": "After any history the text a MinHash index prints gives the hash type, the threshold, the numbers of bands and rows, their product, and the number of stored ids. Two indexes print the same text if and only if hash type, threshold, bands, rows and number of ids agree. For the Python objects __str__ and __repr__ additionally show the tokenizer, and nothing else: objects that differ only in lowercase print the same text and answer differently.", "quantifier": "all histories, parameters, tokenizers, containers, any printing of floats that is injective and without commas", "why_tests_cant": "that different states never print alike cannot be sampled", "anchors": ["gaoya/src/minhash/minhash_index.rs: Display::fmt", "py-gaoya/src/min_hash.rs: __str__, __repr__", "py-gaoya/src/lib.rs: TokenizerSpecification"]}
{"id": "C88", "title": "Constructors of the MinHash index with machine arithmetic", "statement": "In a checked build new_index panics exactly if num_bands * band_width does not fit into a usize, and otherwise builds the index with bands [i*w, (i+1)*w). An unchecked build gives the same index if the product fits; if not it returns an index on which, after any history, every insertion and every query by signature panics and nothing is stored. new_with_capacity builds the same index as new_index, and panics in addition if a capacity cannot be reserved. Its band capacity for a ratio in [0,1] never exceeds the initial capacity and differs from capacity * (1 - ratio) by less than two; it is 0 for ratios of at least 1 and for NaN. The documented tenth for ratio 0.9 is missed: 1000 gives 99.", "quantifier": "all sizes of usize, numbers of bands, widths, capacities, ratios, histories and signatures", "why_tests_cant": "indexes with 2^64 hashes cannot be tried out, and capacities are not visible in answers", "anchors": ["gaoya/src/minhash/minhash_index.rs: MinHashBand::new, MinHashBand::new_with_capacity, new, new_index, new_with_capacity"]}
{"id": "C89", "title": "Address reuse in the parallel clusterer", "statement": "With boxes named by the address an allocator chooses, which may be any free one: if no allocation gets an address that a point or thread still has, an execution uses freed memory iff the execution with fresh names does, and result, pointers, ids and states agree; every schedule has such an execution, and with the chunks of C64 every execution is one. Whatever addresses are given, a returned result has distinct new ids, clusters that are parts of what a point of a chunk found, and every pointer leads to a returned committed cluster with that point. Without a panic no point has a pointer to a freed box, and a thread has one only as a conflicting cluster. Reuse of an address a thread still has can roll back a cluster that conflicts with none, and after a panic points keep pointers to freed boxes.", "quantifier": "all query functions, chunks, minimum sizes, interleavings and addresses chosen", "why_tests_cant": "the failure needs the allocator to give a freed address to another thread between two instructions", "anchors": ["gaoya/src/clustering/clusterer_parallel.rs: try_create_cluster, rollback_cluster_points, cluster_slice"]}
{"id": "C90", "title": "The deduplication notebook", "statement": "If the ids are distinct, every row finds its own id, so the cell with list.remove never raises, and afterwards row i lists exactly the ids of the other rows whose signatures reach the threshold and share a band hash, each once; being listed is mutual, and copies are listed for each other. This holds for the notebook's own call with every table of texts. Recall is 1 iff all labelled ids are predicted, precision is 1 iff something is predicted and all of it is labelled; both lie between 0 and 1. With repeated ids the cell can raise ValueError, and a row predicted correctly to have no duplicates has precision 0.", "quantifier": "all tables, hash functions, draws, set orders and schedules; all thresholds up to 1, band counts and widths", "why_tests_cant": "a run of the notebook is one data set and one hash function", "anchors": ["py-gaoya/examples/deduplication_scholarly_articles_gaoya.ipynb", "py-gaoya/gaoya/minhash.py: MinHashStringIndex", "py-gaoya/src/min_hash.rs: par_bulk_insert_docs, par_bulk_query"]}
{"id": "C91", "title": "The benchmarks", "statement": "In minhash_million_items_most_similar nothing panics and the assertion that query_one finds something holds for any non-empty list of items: the scan gives similarity 1 and query_one an item with similarity 1, that is, with the signature of the first item. In simhash_million_items_most_similar likewise query_one gives distance 0 at an item with the signature of the first. Without items both panic. The scan of the simhash benchmark gives the largest distance to the first signature, which is 0 only if all signatures are equal: it finds the least similar item, not the most similar one.", "quantifier": "all items, token hashes, draws, band hashes, set orders and schedules", "why_tests_cant": "a benchmark run uses one seed, and the result of the scan is not checked", "anchors": ["gaoya/benches/lsh_bench.rs", "gaoya/src/minhash/minhash_index.rs: query_one", "gaoya/src/minhash/string_index.rs: query_one"]}
{"id": "C92", "title": "Python arguments of any type", "statement": "A call of the Python class with arbitrary objects is accepted exactly if ids are integers of 64 bits (True and False count as 1 and 0), documents are str without surrogates, lists are sequences other than str, and a callable analyzer returns sequences of str; otherwise it raises TypeError, OverflowError, UnicodeEncodeError or what the callable raised, the first in the order callable, ids, documents, and the object is unchanged. Accepted calls do what C57 says, so rejected calls can be left out of a history; with a named analyzer every history is of this kind. Constructor arguments are accepted exactly as declared (hash_size may be an equal float, the range must be a tuple, lowercase a bool), and then give the constructor of C53. A bulk insertion with a bad id stores nothing although one-by-one insertion stores the documents before it, and a callable analyzer accepts a str or a generator as documents, which a named one rejects.", "quantifier": "all Python objects as modelled, analyzers, histories, indexes and environments", "why_tests_cant": "objects of all types in all argument positions cannot be enumerated by tests", "anchors": ["py-gaoya/gaoya/minhash.py: MinHashStringIndex.__init__, insert_document, query, par_bulk_query, par_bulk_insert_docs, remove", "py-gaoya/src/min_hash.rs: the signatures of the methods"]}
{"id": "C93", "title": "For how many multipliers two tokens collide", "statement": "Two token hashes that agree in exactly their lowest k bits (k below the width W, 32 or 64) get the same value at a position, for any increment, exactly if the multiplier is divisible by 2^(W-k), when k > 1 (32 bits) or k > 3 (64 bits); this holds for exactly 2^(k-1)-1 (2^(k-3)-1) of the multipliers the constructor draws from. For smaller k at most 4 (16) multipliers collide. For MinHasher32 and MinHasher64V1 one-token documents agree at a position exactly if their hashes collide under its coefficients. For all kinds, documents whose tokens' hashes are congruent modulo 2^k one by one agree at all positions whose multiplier is divisible by 2^(W-k). So the family is not universal: hashes that differ in the top bit only collide for exactly half of the multipliers.", "quantifier": "all pairs of token hashes, multipliers, increments, documents, positions", "why_tests_cant": "needs all pairs of hashes and all coefficients", "anchors": ["gaoya/src/minhash/min_hasher.rs: create_signature, new_with_hasher_and_seed", "gaoya/src/minhash/min_hasher64.rs: create_signature, new_with_hasher_and_seed"]}
{"id": "C94", "title": "Python arguments of any type for SimHashStringIndex", "statement": "An insertion with arbitrary objects reaches the native index exactly if the id is an integer of 64 bits, the document a str without surrogates, or the callable's result a sequence of such str; otherwise it raises the exception of the callable, the id or the document, in this order, and nothing changes; the object is what the accepted insertions made of it. Queries without distances work for these documents and raise for others; with distances they raise AttributeError for every object, before a callable is run. A bulk query with a callable never returns: the callable runs on all documents, then AttributeError. Called on the native object, the methods with distances convert their argument and answer like the single queries. Constructor arguments make an index exactly if hash_size equals 64 or 128, num_blocks and hamming_distance are integers of 64 bits with hamming_distance < num_blocks, the analyzer is callable, word or char, the options have the declared types, and the native constructor does not panic; else the exception is that of the first failing check, comparisons with floats being exact.", "quantifier": "all Python objects as modelled, analyzers, histories, indexes and environments", "why_tests_cant": "objects of all types in all argument positions cannot be enumerated by tests", "anchors": ["py-gaoya/gaoya/simhash.py: SimHashStringIndex.__init__, insert_document, query, par_bulk_query", "py-gaoya/src/sim_hash.rs: the signatures of the methods"]}
{"id": "C95", "title": "The Python classes used from several threads", "statement": "A Python index works only in the thread that made it. In that thread every call is as in C92 and C94; in any other thread every mutating call, every query and size() raises and changes nothing: the exception of the callable analyzer if it raises, else PanicException, whatever the arguments are. So after any interleaving of the calls of any number of threads the object, and every answer its own thread gets, are those of the calls of its own thread alone, in their order; a document that another thread hands to the index is not stored.", "quantifier": "all interleavings of calls of any number of threads, all argument objects, analyzers, indexes and environments", "why_tests_cant": "interleavings of several threads with arbitrary arguments cannot be enumerated by tests, and no test of the package uses threads", "anchors": ["py-gaoya/src/min_hash.rs:22", "py-gaoya/src/sim_hash.rs:13", "py-gaoya/gaoya/minhash.py: MinHashStringIndex", "py-gaoya/gaoya/simhash.py: SimHashStringIndex"]}
{"id": "C96", "title": "Exact answers after any history; ids do not influence each other", "statement": "After any history of calls in which no bulk insertion was stopped half-way, re-insertions and misaligned removals included, a query answers exactly the ids that are stored, similar enough, and standing under the key of the query in some band; how often an id stands under a key is determined by the history: a hash set notes it once and forgets it at once, the vectors count insertions minus removals. With single calls (insert, remove, clear, shrink) whether an id is answered depends only on the calls on that id, so calls on different ids may be exchanged; a bulk removal is an exception. For the same history the index with hash sets never answers more ids than the ones with vectors.", "quantifier": "all histories, container kinds, band hashes, shapes, thresholds, schedules, queries", "why_tests_cant": "unclean histories are unbounded, and the tests insert every id once", "anchors": ["gaoya/src/minhash/minhash_index.rs: insert, remove, bulk_remove, query", "gaoya/src/minhash/id_container.rs: push, remove"]}
{"id": "C97", "title": "Clustering of groups and of exact duplicates", "statement": "If the answers of the query index to any two of the given points are the same set or disjoint (groups), the serial clusterer returns exactly the groups of more than min_cluster_size points, each once, whatever the order of the points, their repetition and the iteration order of the answers; one thread of the parallel clusterer returns the groups of at least max(1,min) points, and so do several threads under every interleaving if no group is spread over two chunks. With a MinHash index of threshold 1, after any history, the groups are the documents with the same signature. A group spread over two chunks can be lost, cut below min, or split; without groups the order of the points matters.", "quantifier": "all query indexes with groups, points, sizes, interleavings; all histories of the MinHash index", "why_tests_cant": "orders and interleavings cannot be enumerated by tests", "anchors": ["gaoya/src/clustering/clustering_serial.rs: cluster", "gaoya/src/clustering/clusterer_parallel.rs: cluster, cluster_par", "gaoya/src/minhash/minhash_index.rs: query"]}
{"id": "C98", "title": "The SuperMinHash variants as they are used, and their unit tests", "statement": "With the generator and the token hash the library uses, both unit tests of super_min_hash.rs pass in every run: the estimates are 107/128 and 86/128 for SuperMinHasher32V1, 106/128 and 78/128 for SuperMinHash32V2; the exact similarities are 32/40 (the test compares with 0.75) and 4/6. For all texts compute_similarity is the share of agreeing positions and symmetric, with V1 it is 1 for documents with the same tokens; V2 panics without hashes, and gives similarity 1 for any two documents of one token and for any two documents of two tokens the second of which they share, but less than 1 for the same two tokens in another order. bulk_create_signature maps create_signature under every schedule.", "quantifier": "all texts, numbers of hashes up to 2^24, numbers of rounds allowed to the draws from 30 on (the tests) or any, schedules", "why_tests_cant": "the tests check two pairs of texts with a tolerance of 0.15 and cannot see that unrelated one-token documents have similarity 1", "anchors": ["gaoya/src/minhash/super_min_hash.rs: create_signature, test_super_min_hash_v1, test_super_min_hash_v2", "gaoya/src/minhash/mod.rs:54-84"]}
{"id": "C99", "title": "Queries with similarities after any history: ghosts", "statement": "After any history in which no bulk insertion was stopped half-way, call an id a ghost for a query if the history leaves it under a key of the query in some band although it is not stored any more. query_owned_return_similarity and query_top_k panic if the query has a ghost (query_top_k even for k = 0); otherwise the first lists exactly the answers of query with their similarities in descending order, the second the k nearest of the ids met. par_bulk_query_return_similarity panics exactly when one of its queries has a ghost. query_one skips ghosts and returns a best one of the stored ids that are met. There are no ghosts if nothing is ever removed, nor with hash sets if live ids are only inserted again with the signature they have (then the answers of query are exactly those of the map); with vectors the latter is false. A ghost depends only on the calls on its own id, since the last clear; removing its id again does not drive it out.", "quantifier": "all histories, container kinds, band hashes, shapes, thresholds, schedules, iteration orders, sort functions, queries, k", "why_tests_cant": "the tests never insert an id twice, and query with similarities only fresh indexes", "anchors": ["gaoya/src/minhash/minhash_index.rs: query_one, query_owned_return_similarity, query_top_k, par_bulk_query_return_similarity, insert, remove, clear", "gaoya/src/minhash/id_container.rs: push, remove"]}
{"id": "C100", "title": "Bulk insertions stopped half-way", "statement": "A bulk insertion that meets a signature too short for a band panics after the bands have done part of the work. After any history, such calls included, every band holds of each stopped call some beginning of its pairs, no longer than the pairs before the first one too short for that band, and at least one band has got to that point; buckets, answers of query, and panics of the queries with similarities are exactly those of these beginnings; conversely every such choice is what some schedules leave. A stopped insertion of ids that are not stored never changes the answers of query, but for every pair that a band reaches some schedule makes query_owned_return_similarity and query_top_k panic under its key. With hash sets a retry that repeats the pairs restores every answer as if the stopped call had not happened, whatever its schedule; with vectors it does not (removing an id afterwards leaves a ghost), and a stopped insertion of a stored id does change the answers of query.", "quantifier": "all histories, container kinds, band hashes, shapes, thresholds, schedules, queries", "why_tests_cant": "the outcome depends on the schedule of the thread pool at the moment of the panic", "anchors": ["gaoya/src/minhash/minhash_index.rs: par_bulk_insert, par_bulk_insert_pairs, query, query_owned_return_similarity, query_top_k", "gaoya/src/minhash/id_container.rs: push, remove"]}
{"id": "C101", "title": "What is left of an id after any life", "statement": "The calls about one id form its life: stored with a signature, removed, since the last clear. With vectors a bucket holds an id exactly once for each insertion under its key that was not undone by a removal as the very next event of its life; with hash sets the id is under a key exactly when, after some insertion under it, no removal directly followed an insertion under that key. This decides the answers of query, the keys of every table (so the numbers band_sizes reports), and the panics of query_owned_return_similarity: it panics exactly when it meets an id that is not stored now. With vectors such a ghost stays until clear, whatever is called; with sets inserting the overwritten signature again and removing it helps. The same holds for the Python class after any calls at all: query and query_tokens answer exactly so, their return_similarity forms raise exactly when the document has no tokens or meets a ghost, and with vectors looking for an overwritten document of a removed id always raises. Removing every id does not empty the tables.", "quantifier": "all histories without bulk_remove and without stopped bulk insertions (Python: all histories), container kinds, hash functions, shapes, thresholds, schedules, queries", "why_tests_cant": "the state after repeated overwriting and removing depends on the whole history of an id; a test sees a few histories", "anchors": ["gaoya/src/minhash/minhash_index.rs: insert, par_bulk_insert, remove, query, query_owned_return_similarity, band_sizes", "gaoya/src/minhash/id_container.rs: push, remove", "py-gaoya/src/min_hash.rs: insert_document, remove, query, query_return_similarity, query_tokens_return_similarity"]}
{"id": "C102", "title": "Low bits of the default token hash, and letter case", "statement": "The lowest k bits of the hash the default minhashers give to a string token depend only on the lowest k bits of its bytes; the next bit differs between two such tokens exactly if it differs in an odd number of places; so a hash is odd exactly if the number of odd bytes is. Two spellings of a word that differ in the case of ASCII letters have hashes with the same five low bits, and if the case of an odd number of letters differs, exactly five: they then collide at a position exactly if its multiplier is a multiple of 2^27 (MinHasher64V1: 2^59), which are exactly 15 (3) of the multipliers drawn from, whatever the increment. Documents whose tokens are case variants of each other, one by one, agree at all such positions. An even number of changes need not leave more than six bits equal.", "quantifier": "all byte strings, bit positions, hasher kinds, multipliers, increments, documents, numbers of hashes", "why_tests_cant": "counts multipliers out of 2^31 and 2^61; collisions of this kind are too rare to be met by a test", "anchors": ["gaoya/src/minhash/mod.rs: MinHasher32::hash, new, create_signature", "gaoya/src/minhash/min_hasher64.rs: MinHasher64V1 hash, new"]}
{"id": "C103", "title": "Word shingles under the default token hash, and a word as document and as token", "statement": "The default hash of a shingle of words (Python MinHashIndex with analyzer word and an ngram_range) is FNV-1a of the number of words and of the words, each followed by a byte 255; from these bytes the words can be read back, and those of one shingle never begin those of another. Shingles that differ only within four consecutive bytes of one word never collide (three: not even in the low 32 bits), nor do shingles that differ by moving the border between two neighbouring words by one to three bytes (one or two: not even in the low 32 bits). Spellings that differ in the case of an odd number of ASCII letters agree in exactly five low bits. The hash of a shingle of fewer than 256 words is odd exactly if the number of odd bytes in its words is even, the opposite of a string, so a shingle never has the hash of its words joined by nothing, by spaces or by other even bytes. Hence with ngram_range (1,1) a document of one word and the same word given to query_tokens or insert_tokens have different token hashes: their signatures agree at a position for at most 4 (64 bits: 16) of the multipliers that can be drawn. Two shingles without a common word can be the same to the hashers of 32, 16 and 8 bits (play union, comes doc).", "quantifier": "all words, shingles, places and borders, hasher kinds, multipliers, increments, numbers of hashes, Python documents of one word", "why_tests_cant": "quantifies over all pairs of shingles and all multipliers; the absence of collisions cannot be sampled", "anchors": ["py-gaoya/src/min_hash.rs: tokenize_and_minhash, insert_tokens, query_tokens", "py-gaoya/src/lib.rs: TokenizerSpecification::new", "gaoya/src/minhash/mod.rs: MinHasher32::hash, new, create_signature", "gaoya/src/minhash/min_hasher64.rs: MinHasher64V1 hash, new"]}
{"id": "C104", "title": "How the answers depend on the parameters of an index", "statement": "Of two MinHash indexes with the same calls, the one with the higher threshold answers exactly those answers of the other that reach it, and they panic together. The distances of query_top_k(k) are the first k of those of a larger k, whatever the orders in which the two calls visit the candidates. If the signatures are cut into bands in another way, so that every band contains one of the new bands (because the old width is a multiple of the new one or at least twice it less one), the new index answers everything the old one does, query_one is at least as good, and query_owned_return_similarity panics whenever the old one does: for vectors after any history of whole calls without bulk_remove, for all containers after clean histories. The condition cannot be weakened; with hash sets, with bulk_remove of absent ids, or when hashes of the old bands collide, answers can be lost. A simhash index with a smaller distance answers exactly the answers of a larger one within it, whatever the numbers of blocks, and query_one reports the same distance. The same holds for threshold, num_bands and band_size of the Python MinHash classes, after any calls.", "quantifier": "all histories (as stated), thresholds, shapes, band hashes without collisions of wide bands, container kinds, queries, iteration orders, sorts", "why_tests_cant": "compares two indexes with different parameters for all histories; a test sees a few", "anchors": ["gaoya/src/minhash/minhash_index.rs: new, query, query_one, query_top_k, query_owned_return_similarity", "gaoya/src/simhash/sim_hash_index.rs: new, query, query_one", "py-gaoya/src/min_hash.rs: __new__, query"]}
{"id": "C105", "title": "The clusterers called again, with another size, and compared", "statement": "One thread of the parallel clusterer with min_cluster_size n+1 makes the clusters, with the same ids, that the serial clusterer with min_cluster_size n makes of the points sorted by decreasing number of similar points. Points given to the serial clusterer in two calls make the same clusters as in one call (only ids are used again); points that are in a cluster from the start may be left out; the iteration order of the answers affects only the order within clusters. Called again for some of the points, with the same or a larger size, both make no cluster and change nothing. A larger size makes no difference if all clusters are larger, and there are at most as many clusters as fit into the free points found. Not true: that a larger size gives at most as many clusters or clustered points.", "quantifier": "all query indexes, points, cells, sizes, sequence numbers, steps of the single thread", "why_tests_cant": "relates whole runs of two implementations, and runs on parts to the run on the whole, for all indexes", "anchors": ["gaoya/src/clustering/clustering_serial.rs: Clusterer::cluster, create_new_cluster", "gaoya/src/clustering/clusterer_parallel.rs: Clusterer::cluster, cluster_slice, sort_by_most_number_of_similar_points, try_create_cluster"]}
{"id": "C106", "title": "The string index after any history", "statement": "A parallel load that adds something right after a document was added one by one replaces that document by its first (it takes over the id). After any history of insertions and serial or parallel loads, the answer to a query is exactly the documents that are there, that are similar enough, and that agree with the query on the hash of some band - or whose replaced predecessor does. Every document that is there is found by its own text; every document added is there or was replaced, once for each such load; size counts both; and a history is free of such loads exactly if nothing is lost. Not true: that the documents that are there determine the answers - a document may be found only through the one it replaced.", "quantifier": "all texts, histories, file contents, unreadable lines, schedules, token and band hashes, random draws, thresholds, queries, iteration orders", "why_tests_cant": "exact answers after every mixture of serial and parallel loads, in the presence of replaced documents", "anchors": ["gaoya/src/minhash/string_index.rs: insert, load_from_file, load_from_file_parallel, load_from_lines, query, size"]}
{"id": "C107", "title": "What the tables of a simhash index hold, and what a query costs", "statement": "Each table of a SimHashIndex has one entry for every insertion ever made (a re-inserted id is entered again, nothing is taken out): the bucket of a key is the list of the ids, in order of insertion, whose inserted signature has that key. There are binom(n, n-d) tables for n blocks and distance d, and a query computes exactly binom(a, n-d) distances for an insertion whose signature agrees with it in a blocks: none if a < n-d, at least binom(n-h, n-d) at Hamming distance h <= d. Over all 2^W queries a table with keys of w bits looks at an entry 2^(W-w) times. Inserting a document once more changes no answer but costs again in every query that meets it. Not true: that a query computes at most one distance per document and table.", "quantifier": "all widths, numbers of blocks, distances, histories of insertions (serial or parallel, any schedule), queries", "why_tests_cant": "exact content of every bucket and an exact combinatorial count of the work of every query", "anchors": ["gaoya/src/simhash/sim_hash_index.rs: SimHashTable::insert, query, SimHashIndex::insert, par_bulk_insert, par_bulk_insert_pairs, query", "gaoya/src/simhash/permutation.rs: create"]}
{"id": "C108", "title": "What a query of a MinHash index costs, after any history", "statement": "A query of a MinHashIndex goes, in every band, through the ids in one bucket: the number of entries visited is the sum, over bands and over ids ever offered, of how often the calls leave the id under the key of the query (any history without a half-done bulk insertion, any container). It computes one similarity for each id that has a signature now and is met in some band: at most as many as visits and at most as many as documents. After a clean history a stored document costs one visit per band with the same key (the same hashes, without collisions), with every container, so at most bands times documents in all. Inserting a document again with its signature changes no answer; with vectors each time costs one more visit per band shared with the query, with hash sets nothing. Not true: that the visits are bounded by the documents stored (one document, any number of visits) or that an index with all documents removed is free of visits.", "quantifier": "all containers, band hashes, numbers and widths of bands, thresholds, histories, schedules, queries", "why_tests_cant": "an exact count of the work of every query after every history", "anchors": ["gaoya/src/minhash/minhash_index.rs: MinHashBand::query, query_to_owned, insert, remove; MinHashIndex::query, query_owned, insert", "gaoya/src/minhash/id_container.rs: copy_refs_to, copy_to"]}
{"id": "C109", "title": "Attempts of the parallel clusterer: ids used up and memory freed", "statement": "For every interleaving of any number of threads: each point leads to at most one attempt, so a call uses up at most as many ids as there are points, no thread returns more clusters than its chunk has points, and the counter of 32 bits does not wrap while ids used before plus points stay below 2^32 (this needs no assumption on queries, on the points' pointers at the start, or on undefined behaviour). As long as no undefined behaviour occurs, the cluster of an attempt is in memory iff a thread holds it (as a finished cluster or as the one it is trying to make), and then exactly one thread does; when all threads are over - also by a panic, which frees the clusters of its thread - exactly the clusters returned are left, so no attempt that was given up leaks. When the allocator gives out addresses again the same holds in every execution (addresses with a box are those a thread holds; in the end those of the result). Not true: that the ids returned are consecutive or as many as the ids used up.", "quantifier": "all queries, minimum sizes, chunks, starting memories, thread counts, interleavings of atomic accesses, with and without overflow checks", "why_tests_cant": "a bound and an ownership discipline over all interleavings and panics", "anchors": ["gaoya/src/clustering/clusterer_parallel.rs: cluster_par, cluster_slice, try_create_cluster, rollback_cluster_points, cluster_id_sequence.fetch_add"]}
{"id": "C110", "title": "Clusters of earlier calls of the parallel clusterer may be dropped", "statement": "In the model where each allocation gets a new address (C89 is about others), for every interleaving: a call of the parallel clusterer neither reads, changes nor frees clusters made by earlier calls; from two memories that differ in those only, threads, result, pointers, counter, new clusters and undefined behaviour are the same. So everything C47 says of a call holds also if the caller dropped clusters that earlier calls returned (only: pointers of points are ids issued before); and a call, any of its clusters dropped, and a second call gives what it gives with the clusters kept, with ids distinct over both calls. Not true: that pointers of points lead to live clusters after the caller dropped the result; nor, when a later call gets the address of a dropped cluster, that the cluster a pointer leads to has the point.", "quantifier": "all queries, minimum sizes, chunks, memories at the start, thread counts, interleavings of atomic accesses, dropped clusters", "why_tests_cant": "absence of a use of dangling pointers over all interleavings", "anchors": ["gaoya/src/clustering/clusterer_parallel.rs: cluster_par, cluster_slice, try_create_cluster, is_cluster_assigned, assign_cluster, Vec<Box<Cluster>> as result"]}
{"id": "C111", "title": "A cluster that was rolled back is never returned", "statement": "For every interleaving: if at some moment a thread is still trying to make a cluster whose state is not new any more (another thread, or the thread itself, rolled it back), then at no later moment, whatever the threads do, is that cluster among those of any thread, nor in the result, and its state never changes again - although the thread may go on taking points for it (C48).", "quantifier": "all queries, minimum sizes, chunks, memories at the start (as in C47), thread counts, interleavings before and after that moment", "why_tests_cant": "a statement about all continuations of all interleavings", "anchors": ["gaoya/src/clustering/clusterer_parallel.rs: commit, rollback, try_create_cluster"]}
{"id": "C112", "title": "When a thread of the parallel clusterer panics", "statement": "For every interleaving, also with races and from any memory: before its first step a thread has panicked iff the query of one of its points panics (the sort queries them all). Later a thread panics only in a step of its own, only in a build with overflow checks, and only at the first point of an attempt that has taken no point yet, when the cluster found at that point is alive and its state is rolled back or committed, which are the same number (i - 1 with i = 0, C48); there it does panic, and loses the clusters it has made. So without overflow checks a thread has panicked, after any schedule, iff the query of one of its points panics.", "quantifier": "all queries, minimum sizes, chunks, memories at the start, thread counts, interleavings of atomic accesses, with and without overflow checks", "why_tests_cant": "absence of all other panics over all interleavings", "anchors": ["gaoya/src/clustering/clusterer_parallel.rs: cluster_slice, sort_by_most_number_of_similar_points, try_create_cluster (i = i - 1)"]}
