{"id": "C01", "title": "Received-id tracker behaves as a set", "statement": "After any sequence of Insert calls on a SegmentTree, Contains(x) is true exactly for the inserted items, Insert returns true exactly when the item was new, Count() is the number of distinct inserted items, and GetSegments()/SegmentsCount() describe the unique decomposition of that set into maximal, pairwise separated half-open intervals.", "quantifier": "every finite sequence of insertions of items below the maximum of the item type, in any order and with any repetition", "why_tests_cant": "The link layer derives its 'everything has arrived' decision from the number of segments; the merge logic has four neighbour cases that interact over arbitrary histories, so no finite set of insertion orders settles it.", "anchors": ["yacl/utils/segment_tree.h: SegmentTree::Insert, Contains, SegmentsCount, Count, GetSegments"]}
{"id": "C02", "title": "Wire keys are unambiguous", "statement": "For every message key accepted by the channel and every sequence id, splitting the wire key gives back exactly that key and sequence id; two different (key, sequence id) pairs never produce the same wire key; and the wire key of a user message is never the ACK or FIN control key.", "quantifier": "every byte string that is a legal message key and every 64-bit sequence id", "why_tests_cant": "Keys are arbitrary user strings, including ones ending in the first byte of the separator; only a proof over all strings excludes a collision with the separator or control keys.", "anchors": ["yacl/link/transport/channel.cc: NormalMessageKeyEnforce, BuildChannelKey, SplitChannelKey, kAckKey, kFinKey"]}
{"id": "C03", "title": "Chunked messages are reassembled exactly", "statement": "When a message is split into chunks and the chunks arrive in any order and with any repetition before the last missing one, the receiver delivers nothing until every chunk has arrived, then delivers exactly one message, byte for byte equal to the one sent.", "quantifier": "every payload, every chunk size, every arrival order and every duplication pattern of the chunks", "why_tests_cant": "The number of arrival orders is factorial in the number of chunks and retries can duplicate any of them at any point.", "anchors": ["yacl/link/transport/channel.cc: SendChunked, ChunkedMessage::AddChunk, OnChunkedMessage"]}
{"id": "C04", "title": "Retried messages are delivered at most once and unaltered", "statement": "Whatever the transport duplicates, delays or reorders, a Recv(key) returns the payload that the peer sent under that key, and one sent message is never returned by two Recv calls.", "quantifier": "every interleaving of sends, network duplications/reorderings/deliveries and receives, for any number of messages", "why_tests_cant": "Duplicate suppression depends on the full history of sequence ids; a test fixes one schedule.", "anchors": ["yacl/link/transport/channel.cc: OnNormalMessage, Recv, SendAck, SendRequestWithRetry"]}
{"id": "C05", "title": "Throttled sender never exceeds its window", "statement": "With a throttle window w > 0, until the channel is being closed, at every moment at most w messages have been put on the wire and are not yet acknowledged by the peer.", "quantifier": "every interleaving of send calls of any number of threads, the send thread, deliveries, duplicated and out-of-order acknowledgements", "why_tests_cant": "The bound has to survive every order in which acknowledgements can arrive relative to sends.", "anchors": ["yacl/link/transport/channel.cc: ThrottleWindowWait, SendAsyncThrottled, Send, OnMessage (ACK branch)"]}
{"id": "C06", "title": "Finish handshake means everything arrived", "statement": "When WaitLinkTaskFinish stops waiting for the peer's data, it has received every one of the n messages the peer announced, for whatever order or multiplicity they arrived in, and it stops as soon as they are in; when WaitLinkTaskFinish returns, every message this party sent has arrived at the peer.", "quantifier": "every set of received sequence ids, every announced count n, every interleaving of the two parties", "why_tests_cant": "The exit condition is phrased through segment counts and membership of the two end points, not as 'all of 1..n'; equivalence must hold for all arrival histories.", "anchors": ["yacl/link/transport/channel.cc: WaitForFinAndFlyingMsg, OnNormalMessage", "yacl/utils/segment_tree.h"]}
{"id": "C07", "title": "Event keys never collide between operations", "statement": "Within a group of parties, the message keys produced by successive collective and point-to-point operations of one context are pairwise different, and the keys of two contexts with different ids are different, for every number of operations.", "quantifier": "all context ids without restriction, all pairs of ranks, all counters", "why_tests_cant": "Keys are built by string concatenation of user supplied ids, ranks and counters; injectivity is a claim about all strings.", "anchors": ["yacl/link/context.cc: NextId, NextP2PId, Spawn, SubWorld"]}
{"id": "C08", "title": "Automatically named and explicitly named children are isolated", "statement": "Two child contexts spawned from the same parent by different calls to Spawn never share an id, so their traffic cannot mix.", "quantifier": "all sequences of Spawn() and Spawn(id) calls with arbitrary id strings", "why_tests_cant": "The collision needs a particular user-chosen id; enumerating ids does not terminate.", "anchors": ["yacl/link/context.cc: Context::Spawn"]}
{"id": "C09", "title": "Neighbour ranks stay in range and are inverse", "statement": "For every world size and stride, NextRank and PrevRank return a valid rank, and NextRank of PrevRank with the same stride is the identity, in machine (wrap-around) arithmetic.", "quantifier": "every world size, rank and stride up to the world size", "why_tests_cant": "The computation subtracts in an unsigned type; correctness for all sizes needs modular arithmetic reasoning.", "anchors": ["yacl/link/context.cc: PrevRank, NextRank"]}
{"id": "C10", "title": "AllGather delivers every party's value in rank order", "statement": "In an AllGather among n parties, under every schedule, each party that finishes holds exactly the vector whose i-th entry is the input of party i; and no schedule deadlocks.", "quantifier": "every world size, all inputs, every interleaving of the parties", "why_tests_cant": "Interleavings grow exponentially with the number of parties and messages.", "anchors": ["yacl/link/algorithm/allgather.cc: AllGatherImpl"]}
{"id": "C11", "title": "Broadcast delivers the root's value to everyone", "statement": "For every world size and every root, under every schedule, each party that finishes Broadcast holds the root's input, each non-root party receives exactly once, and no schedule deadlocks.", "quantifier": "every world size, root, input and interleaving", "why_tests_cant": "The binomial tree is computed with bit tricks whose correctness for non-power-of-two sizes and rotated roots is not settled by a handful of sizes.", "anchors": ["yacl/link/algorithm/broadcast.cc: BroadcastImpl"]}
{"id": "C12", "title": "Gather and Scatter move every value to the right place", "statement": "After Gather the root holds the vector of all inputs in rank order and the others hold nothing; after Scatter party i holds the i-th element of the root's vector; for every schedule, without deadlock.", "quantifier": "every world size, root, inputs and interleaving", "why_tests_cant": "All interleavings of n parties.", "anchors": ["yacl/link/algorithm/gather.cc: GatherImpl", "yacl/link/algorithm/scatter.cc: ScatterImpl"]}
{"id": "C13", "title": "Barrier", "statement": "No party returns from Barrier before every party has entered it, and once all have entered every party can return, for every world size and every schedule.", "quantifier": "every world size and every interleaving of sends and receives", "why_tests_cant": "The dissemination pattern's transitive reachability for all n (not only powers of two) under all schedules.", "anchors": ["yacl/link/algorithm/barrier.cc: Barrier"]}
{"id": "C14", "title": "In-memory channel hands over every message", "statement": "For the in-memory link, every message sent under a key is eventually returned by a Recv on that key, in sending order.", "quantifier": "every sequence of sends and receives on any keys", "why_tests_cant": "Requires reasoning over all histories, in particular re-use of a key before the first message is read.", "anchors": ["yacl/link/transport/channel_mem.cc: OnMessage, Recv"]}
{"id": "C15", "title": "Retry delays follow the configured policy", "statement": "The waiting time before the k-th retry equals min(base + k*increment, maximum) of the configured options, and options received in the external configuration format keep the values given there.", "quantifier": "every configuration and every retry count", "why_tests_cant": "Configuration values are arbitrary 32-bit numbers; the conversion mixes up fields only for particular combinations.", "anchors": ["yacl/link/retry_options.h: RetryOptions", "yacl/link/transport/channel.cc: SendRequestWithRetry"]}
{"id": "C16", "title": "Chunk reception never writes outside the message buffer", "statement": "Whatever chunk headers a peer sends, the receiver either stores the bytes inside the buffer allocated for that message or raises an error.", "quantifier": "every sequence of chunk headers (offset, length, total length) a peer can send", "why_tests_cant": "Headers are adversarial 64-bit values; the offending combinations are a measure-zero set for random testing.", "anchors": ["yacl/link/transport/channel.cc: OnChunkedMessage, ChunkedMessage::AddChunk"]}
{"id": "C17", "title": "parallel_for covers the range exactly once", "statement": "parallel_for(begin, end, grain, f) calls f on consecutive half-open sub-ranges that are non-empty, pairwise disjoint and whose concatenation is exactly [begin, end), whatever the number of threads and the grain size, provided end plus one chunk is representable.", "quantifier": "every range of 64-bit integers satisfying the stated bound, every grain size and thread count", "why_tests_cant": "Off-by-one errors in chunking show up only for particular residues of the range length modulo the thread count.", "anchors": ["yacl/utils/parallel.h: parallel_for, divup", "yacl/utils/parallel.cc: calc_num_tasks_and_chunk_size, _parallel_run"]}
{"id": "C18", "title": "parallel_reduce equals the sequential left fold", "statement": "For an associative combination with the given identity, parallel_reduce returns the value of the sequential reduction of the whole range, for every number of threads and whatever order tasks complete in.", "quantifier": "every range, grain size, thread count, completion order and every associative operation", "why_tests_cant": "Completion order of tasks is a scheduler choice.", "anchors": ["yacl/utils/parallel.h: parallel_reduce", "yacl/utils/parallel.cc: calc_num_tasks_and_chunk_size"]}
{"id": "C19", "title": "Thread pool runs every accepted task exactly once", "statement": "Every task accepted by Submit is started exactly once, tasks are started in submission order, the destructor returns only after all of them finished, and Submit after shutdown started is rejected.", "quantifier": "every interleaving of submitters, worker threads and destruction, any number of workers", "why_tests_cant": "All interleavings of worker and submitter steps.", "anchors": ["yacl/utils/thread_pool.cc: WorkLoop, ~ThreadPool", "yacl/utils/thread_pool.h: Submit"]}
{"id": "C20", "title": "Cuckoo table loses no element", "statement": "After any sequence of successful insertions, every inserted index sits in exactly one bin or one stash slot, a bin holding it is one of the bins its own hashes select, and no other index is in the table.", "quantifier": "every sequence of insertions, every hash values, any eviction choices", "why_tests_cant": "Evictions move elements along unbounded chains depending on hash values.", "anchors": ["yacl/utils/cuckoo_index.cc: CuckooIndex::Insert, PutToStash", "yacl/utils/cuckoo_index.h: Bin, HashRoom"]}
{"id": "C21", "title": "A rejected cuckoo insertion loses nothing", "statement": "If an Insert call raises an error because the stash is full, all elements inserted by earlier calls are still in the table.", "quantifier": "every table state and every failing insertion", "why_tests_cant": "Requires a table that is full in a very particular way.", "anchors": ["yacl/utils/cuckoo_index.cc: CuckooIndex::Insert, PutToStash"]}
{"id": "C22", "title": "Bit-matrix transpose", "statement": "Both 128x128 bit-matrix transpose routines return the matrix whose bit (i,j) is bit (j,i) of the input, and agree with each other.", "quantifier": "every 128x128 bit matrix", "why_tests_cant": "There are 2^16384 inputs.", "anchors": ["yacl/utils/matrix_utils.cc: EklundhTranspose128, SseTranspose128, sse_loadSubSquare, sse_transposeSubSquare"]}
{"id": "C23", "title": "Consumed OT slices never overlap", "statement": "Successive NextSlice calls on an OT store hand out disjoint, in-range, consecutive ranges; a call that fails leaves the store unchanged; sender and receiver stores sliced alike stay correlated.", "quantifier": "every sequence of NextSlice/ResetSlice/Slice calls and sizes", "why_tests_cant": "Reuse of an OT breaks security and only shows for particular call sequences.", "anchors": ["yacl/kernel/type/slice_base.h", "yacl/kernel/type/slice_base.cc", "yacl/kernel/type/ot_store.cc: NextSlice, Slice"]}
{"id": "C24", "title": "A slice of a slice stays inside the slice", "statement": "Slice(b, e) of a slice refers to elements b..e of that slice, never to elements of the underlying store outside it.", "quantifier": "every store and all nested slice bounds", "why_tests_cant": "Nested slicing combinations are unbounded.", "anchors": ["yacl/kernel/type/ot_store.cc: OtSendStore::Slice, OtRecvStore::Slice"]}
{"id": "C25", "title": "IKNP extension is correct", "statement": "For every number of OTs, every choice vector and base OTs of any content, after the extension the receiver's i-th block equals the sender's i-th block selected by choice bit i; in correlated mode the two sender blocks differ by the sender's base choice vector for every i.", "quantifier": "all batch counts, choices, base OT contents, every PRG and every correlation-robust hash", "why_tests_cant": "Correctness over all seeds and lengths (including lengths not divisible by the batch width).", "anchors": ["yacl/kernel/algorithms/iknp_ote.cc: IknpOtExtSend, IknpOtExtRecv"]}
{"id": "C26", "title": "KOS extension is correct and its check never rejects honest parties", "statement": "With honest parties the KOS consistency check always passes and the outputs satisfy the same relation as IKNP.", "quantifier": "all lengths, choices, base OTs, coin-toss seeds, every PRG/hash", "why_tests_cant": "The check is an algebraic identity in GF(2^64) over all random values.", "anchors": ["yacl/kernel/algorithms/kos_ote.cc: KosOtExtSend, KosOtExtRecv"]}
{"id": "C27", "title": "SGRR (n-1)-out-of-n OT is correct", "statement": "For every n > 1 and every punctured index, sender and receiver outputs agree at every position except the index, where the receiver holds zero.", "quantifier": "every n, index, seed, base OT contents, every PRG", "why_tests_cant": "Non-power-of-two n, all indexes.", "anchors": ["yacl/kernel/algorithms/sgrr_ote.cc: SgrrOtExtSend, SgrrOtExtRecv"]}
{"id": "C28", "title": "GYWZ single-point COT is correct", "statement": "For every n and every index, sender and receiver outputs agree everywhere except at the index where they differ by exactly the sender's delta.", "quantifier": "every n, index, delta, COT contents, every PRG", "why_tests_cant": "All tree sizes and puncturing positions.", "anchors": ["yacl/kernel/algorithms/gywz_ote.cc: GywzOtExtSend, GywzOtExtRecv, CggmFullEval, CggmPuncFullEval"]}
{"id": "C29", "title": "Galois-field multiplication is multiplication in GF(2^64) / GF(2^128)", "statement": "Gf64Mul and Gf128Mul return the product of the operands as polynomials over GF(2) reduced modulo x^64+x^4+x^3+x+1, respectively x^128+x^7+x^2+x+1; consequently they are commutative, associative, distribute over xor, have 1 as identity and no zero divisors.", "quantifier": "all operands", "why_tests_cant": "2^128 and 2^256 operand pairs; the two-step folding reduction is only right because of a degree argument.", "anchors": ["yacl/math/galois_field/gf_intrinsic.cc: Gf64Mul, Gf64Reduce, Gf128Mul, Gf128ClMul, Gf128Reduce"]}
{"id": "C30", "title": "Galois-field inversion", "statement": "For every non-zero x, Gf64Mul(x, Gf64Inv(x)) = 1.", "quantifier": "every non-zero 64-bit value", "why_tests_cant": "2^64-1 values through a 63-squaring addition chain.", "anchors": ["yacl/math/galois_field/gf_intrinsic.cc: Gf64Inv"]}
{"id": "C31", "title": "Universal hash is linear and its coefficients are extractable", "statement": "UniversalHash(seed, d) is the sum of d[i]*seed^(i+1) in the field, is linear in d, and ExtractHashCoef(seed, idx) returns seed^(idx+1) for every listed index.", "quantifier": "every seed, every data vector, every sorted index list", "why_tests_cant": "All lengths and indexes; the coefficient routine sizes a table from the last index only.", "anchors": ["yacl/math/galois_field/gf_intrinsic.h: UniversalHash, ExtractHashCoef"]}
{"id": "C32", "title": "Distributed point function is correct", "statement": "For keys generated for (alpha, beta), the two parties' evaluations at x add up to beta when x = alpha and to zero otherwise, modulo 2^N, for point evaluation and for full-domain evaluation.", "quantifier": "every input width M, output width N, alpha, beta, x, master seeds and every PRG", "why_tests_cant": "2^M inputs and all seeds.", "anchors": ["yacl/crypto/experimental/dpf/dpf.cc: DpfKeyGen, DpfEval, DpfEvalAll", "yacl/crypto/experimental/dpf/ge2n.h"]}
{"id": "C33", "title": "Distributed comparison function is correct", "statement": "For keys generated for (alpha, beta), the two parties' evaluations at x add up to beta when x < alpha and to zero otherwise, modulo 2^N.", "quantifier": "every M, N, alpha, beta, x, master seeds and every PRG", "why_tests_cant": "2^M inputs and all seeds.", "anchors": ["yacl/crypto/experimental/dpf/dcf.cc: DcfKeyGen, DcfEval"]}
{"id": "C34", "title": "Punctured PRF agrees with the full PRF", "statement": "PprfPuncEval with a key punctured at p returns PprfEval at every point other than p and refuses p.", "quantifier": "every M, key, punctured point, evaluation point and every PRG", "why_tests_cant": "All points and keys.", "anchors": ["yacl/crypto/experimental/dpf/pprf.cc: PprfPunc, PprfPuncEval, PprfEval"]}
{"id": "C35", "title": "Secret sharing recovers the secret", "statement": "Any list of at least threshold shares with pairwise distinct non-congruent x-coordinates produced by CreateShare is turned back into the secret by RecoverSecret.", "quantifier": "every prime modulus, threshold, secret, random polynomial and choice of shares", "why_tests_cant": "All polynomials and subsets of shares.", "anchors": ["yacl/crypto/experimental/vss/poly.cc: EvaluatePolynomial, LagrangeInterpolation", "yacl/crypto/experimental/vss/vss.cc: CreateShare, RecoverSecret"]}
{"id": "C36", "title": "Feldman commitments accept exactly the right shares", "statement": "In a group of prime order equal to the sharing prime, VerifyCommits accepts a share exactly when its y-coordinate is congruent to the committed polynomial's value at x.", "quantifier": "every group of the given order, polynomial and share", "why_tests_cant": "All shares and polynomials; both directions.", "anchors": ["yacl/crypto/experimental/vss/vss.cc: CreateCommits, VerifyCommits"]}
{"id": "C37", "title": "Sumcheck run accepts exactly correct claims", "statement": "RunSumcheckProtocol returns true for every choice of challenges when the claimed sum is the (reduced) sum of the polynomial over the Boolean hypercube, and false for every choice of challenges when it is not.", "quantifier": "every multilinear polynomial, modulus, claim and challenge sequence", "why_tests_cant": "All polynomials and challenges.", "anchors": ["yacl/crypto/experimental/zkp/sumcheck/sumcheck.cc: SumcheckProver, SumcheckVerifier, RunSumcheckProtocol", "yacl/crypto/experimental/zkp/sumcheck/polynomial.cc"]}
{"id": "C38", "title": "Sumcheck verifier is sound against arbitrary provers", "statement": "For a false claim over a prime field of size p and any prover strategy, at most k*p^(k-1) of the p^k challenge vectors make the verifier accept, k being the number of variables.", "quantifier": "every prover strategy (functions of the challenges seen so far), polynomial, prime and claim", "why_tests_cant": "Quantifies over all adversaries.", "anchors": ["yacl/crypto/experimental/zkp/sumcheck/sumcheck.cc: SumcheckVerifier::VerifyRound, FinalCheck"]}
{"id": "C39", "title": "Multi-point FSS / VOLE is correct", "statement": "After MpfssSend/MpfssRecv the outputs agree everywhere except at the noise indexes, where they differ by the sender's payload; with base VOLE correlations this yields c = a*delta + b with a zero outside the noise indexes.", "quantifier": "every parameter set, index vector, payload, every PRG and hash", "why_tests_cant": "All parameters, including last blocks of different size.", "anchors": ["yacl/kernel/algorithms/mpfss.cc", "yacl/kernel/algorithms/mp_vole.h"]}
{"id": "C40", "title": "Sparse linear code stays in range and is linear", "statement": "Encoding with the local linear code never reads outside its input and encode(x xor y) = encode(x) xor encode(y) for the same seed.", "quantifier": "every seed, code dimension below 2^31, length and inputs", "why_tests_cant": "Index generation is masked pseudo-random data; all seeds.", "anchors": ["yacl/kernel/code/linear_code.h: LocalLinearCode"]}
{"id": "C41", "title": "Keyword retrieval returns all tuples", "statement": "TSetSetup returns at the first key that sends at most S tuples to every bucket, and never when there are more tuples than slots. If the hash keeps the labels apart, TSetRetrieve with a keyword's tag then returns that keyword's tuples, all of them and in order, as long as it has at most 100; of a longer list it silently returns the first 100, and for an absent keyword nothing. Identifiers must have nine bytes.", "quantifier": "every database and keyword list, bucket count and size, sequence of random keys and slot choices, number of failed attempts, and every hash with the right output length", "why_tests_cant": "The slot choices and the number of restarts are random, records of failed attempts stay in the table, and the number of tuples per keyword is unbounded.", "anchors": ["yacl/crypto/experimental/sse/tset.cc: TSetSetup, TSetRetrieve, Pack, UnPack"]}
{"id": "C42", "title": "Buffers keep their content across resize and reserve", "statement": "Growing or reserving a Buffer preserves the first min(old,new) bytes and size never exceeds capacity, for any sequence of operations with non-negative sizes.", "quantifier": "every sequence of resize/reserve/copy/move operations", "why_tests_cant": "Unbounded operation sequences.", "anchors": ["yacl/base/buffer.h: Buffer"]}
{"id": "C43", "title": "The block buffer can be taken out of an OT store", "statement": "StealBlkBuf on a store whose buffer is not shared returns the blocks and leaves an empty store.", "quantifier": "every store contents and size", "why_tests_cant": "The call is not covered; the claim ranges over all stores.", "anchors": ["yacl/kernel/type/ot_store.cc: OtRecvStore::StealBlkBuf, OtSendStore::StealBlkBuf, Reset", "yacl/kernel/type/slice_base.cc: SliceBase::Reset, ConsistencyCheck"]}
{"id": "C44", "title": "Copying the blocks of an OT store copies exactly its blocks", "statement": "CopyBlkBuf, CopyBitBuf and CopyCotBlkBuf return the blocks (choices) of the store or slice they are called on, in order, whatever slicing happened before.", "quantifier": "every history of slicing and every store contents", "why_tests_cant": "Depends on the position of the slice and on earlier NextSlice calls.", "anchors": ["yacl/kernel/type/ot_store.cc: CopyBlkBuf, CopyBitBuf, CopyCotBlkBuf"]}
{"id": "C45", "title": "The hash of a block does not depend on batching", "statement": "CrHash_128, ParaCrHash_128 and ParaCrHashInplace_128 give each block the same hash RP(x) xor x, and CcrHash_128, ParaCcrHash_128 and ParaCcrHashInplace_128 the same hash CrHash(Sigma(x)) with Sigma a linear orthomorphism, whatever the number of blocks.", "quantifier": "every permutation, number of blocks and block values", "why_tests_cant": "Batches of 1024 plus a remainder; sizes are unbounded and the tests compare a few sizes and values.", "anchors": ["yacl/crypto/tools/crhash.cc: CrHash_128, ParaCrHash_128, ParaCrHashInplace_128, CcrHash_128, ParaCcrHash_128, ParaCcrHashInplace_128, Sigma"]}
{"id": "C46", "title": "KOS consistency check is sound against any receiver", "statement": "Whatever batches and check message a receiver sends, the KOS sender accepts exactly when every row's answer is explained by that row's choice words and the announced x wherever the sender's secret bit is 1 (and is exact where it is 0). So a row inconsistent with x is accepted for at most one value of that secret bit, and rows that use different choice words give the same inner product for at most one value of each sample multiplying a difference.", "quantifier": "every message sequence and check message, base OTs, secrets, samples, lengths", "why_tests_cant": "Tests run honest receivers only; the claim ranges over all adversarial messages.", "anchors": ["yacl/kernel/algorithms/kos_ote.cc: KosOtExtSend"]}
{"id": "C47", "title": "Pseudorandom fills are prefixes of one stream and never reuse it", "statement": "FillPRand with fewer bytes returns a prefix of what it returns with more; continuing from the returned counter continues the stream; over any sequence of fills no cipher input is used twice; the initial vector separates streams.", "quantifier": "every cipher, mode, counter, length and sequence of fills (fewer than 2^64 blocks)", "why_tests_cant": "Lengths, paddings and histories are unbounded.", "anchors": ["yacl/crypto/tools/prg.cc: FillPRand", "yacl/crypto/block_cipher/symmetric_crypto.cc: SymmetricCrypto::Encrypt"]}
{"id": "C48", "title": "A Prg yields the stream of its seed", "statement": "Successive calls of a Prg return successive elements of the stream of its seed, whatever the element and batch sizes and whatever Fill calls are interleaved; SetSeed restarts the stream.", "quantifier": "every cipher, seed, element type, batch size and history", "why_tests_cant": "Histories and batch boundaries are unbounded.", "anchors": ["yacl/crypto/tools/prg.h: Prg::operator(), Fill, SetSeed"]}
{"id": "C49", "title": "Bounded samplers stay in range and are the exact remainder", "statement": "FillPRandWithMersennePrime returns values below the Mersenne prime and FillPRandWithLtN values below n, the remainder of the random integer read from the stream, with bias below 2^-40; MersennePrimeMod is the remainder.", "quantifier": "every cipher, seed, bound n > 0, number of values", "why_tests_cant": "Ranges over all random words.", "anchors": ["yacl/crypto/tools/prg.h: FillPRandWithMersennePrime, MersennePrimeMod, FillPRandWithLtN"]}
{"id": "C50", "title": "Fewer than threshold shares reveal nothing", "statement": "For any threshold-1 shares at distinct non-zero x-coordinates and any candidate secret, exactly one choice of the random coefficients of CreateShare is consistent with those shares, so each secret explains them equally often. (A drawn x-coordinate of zero is not excluded by the code and gives a share equal to the secret.)", "quantifier": "every prime, threshold, secret and set of threshold-1 points", "why_tests_cant": "A statement about all secrets and all coefficient vectors.", "anchors": ["yacl/crypto/experimental/vss/poly.cc: CreatePolynomial, EvaluatePolynomial", "yacl/crypto/experimental/vss/vss.cc: CreateShare"]}
{"id": "C51", "title": "Multilinear evaluation is the multilinear extension", "statement": "MultilinearPolynomial::Evaluate at a point r returns sum over all hypercube indexes i of g[i] times chi_i(r) modulo p; at a Boolean point it returns the stored evaluation, and BuildEqPolynomial stores exactly the chi_i(r).", "quantifier": "every modulus, number of variables, table of evaluations and point", "why_tests_cant": "All sizes and points; index order mistakes agree on symmetric tables.", "anchors": ["yacl/crypto/experimental/zkp/sumcheck/polynomial.cc: MultilinearPolynomial::Evaluate", "yacl/crypto/experimental/zkp/sumcheck/sumcheck.cc: BuildEqPolynomial"]}
{"id": "C52", "title": "Zero check accepts zero tables and rarely others", "statement": "RunZeroCheckProtocol returns true for every choice of randomness when all evaluations are zero modulo p; otherwise at most k*p^(k-1) of the p^k points of the first random vector make it accept, whatever the later challenges.", "quantifier": "every prime, table, number of variables and randomness", "why_tests_cant": "A counting statement over all random choices.", "anchors": ["yacl/crypto/experimental/zkp/sumcheck/sumcheck.cc: RunZeroCheckProtocol, BuildEqPolynomial, MultiplyPolynomials"]}
{"id": "C53", "title": "One check accepts all-one tables and rarely others", "statement": "RunOneCheckProtocol returns true for every draw when all evaluations are one modulo p and p exceeds the table size; otherwise fewer than 2^k of the p values of alpha make it accept.", "quantifier": "every prime, table, alpha and challenge sequence", "why_tests_cant": "A counting statement over all random choices; the failing draw alpha = 1 in a small field is never sampled by tests.", "anchors": ["yacl/crypto/experimental/zkp/sumcheck/sumcheck.cc: RunOneCheckProtocol, ComputeAlphaSum, BuildAlphaPolynomial"]}
{"id": "C54", "title": "LogUp accepts correct lookups and rarely wrong ones", "statement": "RunLogUpProtocol returns true whenever every residue occurs in the looked-up table as often (modulo p) as the claimed multiplicities say and zeta is not a table value; otherwise fewer than |A| + |B| values of zeta make it return true, whatever the other random values.", "quantifier": "every prime, tables, multiplicities, zeta and randomness", "why_tests_cant": "A counting statement over all zeta and all tables.", "anchors": ["yacl/crypto/experimental/zkp/sumcheck/logup.cc: RunLogUpProtocol, LogUpProver"]}
{"id": "C55", "title": "Matrix product reductions return the extension of the product", "statement": "MatMatMultiplication and MatVecMultiplication return the multilinear extension of the matrix (vector) product at the given point modulo p.", "quantifier": "every modulus, matrix sizes, matrices and points", "why_tests_cant": "All sizes; bit-order mistakes are hidden by square or symmetric inputs.", "anchors": ["yacl/crypto/experimental/zkp/sumcheck/matmul_check.cc"]}
{"id": "C56", "title": "Expand-accumulate code computes the declared linear map", "statement": "For every permutation, dimension and weight, ExAccCode's DualEncode writes, for every output position, the xor of the pseudo-randomly chosen positions of the running xor of the input, adding to what the output held; it never reads or writes outside its spans, it is linear, and the two-vector variant equals two single encodings.", "quantifier": "all random permutations, all n (up to the 32-bit limits), all inputs and outputs", "why_tests_cant": "The map is an n x 2n matrix over blocks; tests compare two parties on a few sizes and cannot see an index rule that is wrong on other sizes.", "anchors": ["yacl/kernel/code/ea_code.h: ExAccCode::DualEncode, ExAccCode::DualEncode2", "yacl/kernel/code/linear_code.h: LocalLinearCode"]}
{"id": "C57", "title": "Silver code is the syndrome map of its parity check matrix", "statement": "For every n below 2^31 and weight 5 or 11 with n at least the weight, SilverCode can be built whatever its drawn offsets are, and DualEncode maps x1||x2 to x1 + zL where z is the unique vector with zR = x2, so that it is zero exactly on the row space of [L|R]; it is linear, never leaves its buffers, and DualEncodeInplace leaves the same result in the first half and z in the second. Other sizes and weights are refused.", "quantifier": "all n below 2^31, both weights, all drawn offsets, all input blocks and buffers", "why_tests_cant": "The band, the two offsets with 32-bit wrap-around, and the wrap of the left matrix interact near the boundaries of every n; tests only check agreement of sender and receiver on a few n.", "anchors": ["yacl/kernel/code/silver_code.cc: SilverCode::SilverCode, InitLeftMatrix, LeftEncode, RightEncode, DualEncodeImpl, DualEncodeInplaceImpl"]}
{"id": "C58", "title": "Encrypted search returns exactly the matching identifiers", "statement": "After EDBSetup, SearchProtocol with keywords w1..wn and no expression returns the identifiers of w1 that also carry every other keyword, in the order of the data; with an expression over v2..vn (n at most 19) it returns those satisfying the expression read from the right without precedence. A keyword that does not occur finds nothing. SaveEDB followed by LoadEDB loses the labels, so a loaded database finds nothing.", "quantifier": "every set of (identifier, keyword) pairs, query, expression and order of the variable map, every random key, iv and slot choice, any group of the given order and any hash without accidental collisions", "why_tests_cant": "The result depends on the whole data set, random keys and the iteration order of a hash map; the tests use one file and a few queries.", "anchors": ["yacl/crypto/experimental/sse/sse.cc: EDBSetup, SearchProtocol, EvaluateExpression, SaveEDB, LoadEDB"]}
{"id": "C59", "title": "Silent VOLE gives c = a*delta + b", "statement": "For every accepted code type, every number of outputs that the code admits, both field widths and the subfield variant, semi-honest and malicious, and given correctly correlated OTs for the receiver's choices: SilentVoleSender::Send and SilentVoleReceiver::Recv return (an honest run never throws) and c = a*delta + b holds at every position, delta being GetDelta() (its low 64 bits for uint64_t). Silver codes overwrite the caller's spans; expand-accumulate codes add to them, so there the result is a VOLE exactly at the positions where the spans held one before (in particular everywhere when they are zeroed). Expand-accumulate codes with no more outputs than their degree and the ExConv types throw.", "quantifier": "all code types, sizes, deltas, OT blocks, receiver random points and choices, tree seeds, buffers' previous contents", "why_tests_cant": "the correlation depends on every random point, seed and size, and on the linearity of the codes over all inputs; tests use a few sizes with zero-initialised vectors", "anchors": ["yacl/kernel/algorithms/silent_vole.cc: VoleParam, DualLpnEncode, SendImpl, RecvImpl", "yacl/kernel/algorithms/silent_vole.h: SilentVoleSender, SilentVoleReceiver"]}
{"id": "C60", "title": "The plaintext circuit executor computes the circuit", "statement": "For a Bristol Fashion circuit whose gates come in an order in which every wire is written once and after the wires it reads, a fresh PlainExecutor run (SetupInputs, Exec, Finalize) never leaves its memory and returns the outputs of the only assignment of the wires that agrees with the inputs and satisfies every gate: value for value when every input has the width of T and the output widths read the same in both directions, and as big endian bytes when the outputs fill whole bytes. Outside these conditions it does not: outputs of different widths are cut at the wrong places, a partial byte contains wires that are no outputs, a gate on a missing wire is out of bounds, values set up on a used executor are ignored, MAND throws. PrepareSha256Input gives the reversed FIPS 180-4 block and initial hash of every message of at most 55 bytes and throws on longer ones.", "quantifier": "all circuits, gate lists of any length, all inputs, all previous wire contents, all messages", "why_tests_cant": "The claim is about every circuit and every input; tests run a handful of built-in circuits on random values.", "anchors": ["yacl/utils/circuit_executor.cc: SetupInputs, Exec, Finalize", "yacl/io/circuit/bristol_fashion.h: BFCircuit", "yacl/io/circuit/bristol_fashion.cc: PrepareSha256Input"]}
{"id": "C61", "title": "The circuit file reader reads what was written", "statement": "Reading a file in Bristol fashion (counts, blank line, one gate a line, decimal numbers below 2^32 and single spaces) with CircuitReader gives back exactly the circuit written, whatever follows the last gate. A file that ends with a newline before all announced gates raises an exception. What the reader accepts has as many gates as announced and every gate has the number of wires of its kind. Limits, proved as witnesses: a last line without newline is repeated for the missing gates, and some malformed lines read outside a vector instead of raising an exception.", "quantifier": "all circuits, all texts", "why_tests_cant": "Files are unbounded; the tests read the bundled files only.", "anchors": ["yacl/io/circuit/bristol_fashion.cc: CircuitReader::ReadMeta, ReadAllGates", "yacl/io/stream/file_io.cc: FileInputStream::GetLine"]}
{"id": "C62", "title": "The built-in 64 bit circuits compute their functions", "statement": "Running a fresh PlainExecutor on the circuit files behind BuiltinBFCircuit returns, for all 64 bit inputs: a + b mod 2^64 (Add64Path), a - b mod 2^64 (Sub64Path), -a mod 2^64 (Neg64Path), a * b mod 2^64 (Mul64Path), and whether a is 0 (EqzPath).", "quantifier": "all 64 bit inputs (2^128 pairs), all gates of the circuit files", "why_tests_cant": "The circuits have up to 13675 gates; tests run a few random pairs out of 2^128.", "anchors": ["yacl/io/circuit/bristol_fashion.h: BuiltinBFCircuit", "yacl/io/circuit/data/adder64.txt", "yacl/io/circuit/data/sub64.txt", "yacl/io/circuit/data/neg64.txt", "yacl/io/circuit/data/mult64.txt", "yacl/io/circuit/data/zero_equal.txt", "yacl/utils/circuit_executor.cc"]}
{"id": "C63", "title": "The built-in division circuits divide", "statement": "Running a fresh PlainExecutor on the circuit behind BuiltinBFCircuit::UDiv64Path returns floor(a / b) for all 64 bit a and all b other than 0, and 2^64 - 1 for b = 0. On the circuit behind Div64Path it returns, for b other than 0, the quotient of the two's complement values truncated towards 0, modulo 2^64 (so INT64_MIN / -1 is INT64_MIN); for b = 0 it returns -1 for a >= 0, 2 for INT64_MIN and 1 for other negative a.", "quantifier": "all pairs of 64 bit inputs, all 16952 and 29926 gates of the circuits", "why_tests_cant": "There are 2^128 pairs; the tests run a few.", "anchors": ["yacl/io/circuit/bristol_fashion.h: BuiltinBFCircuit::UDiv64Path, Div64Path", "yacl/io/circuit/data/udivide64.txt", "yacl/io/circuit/data/divide64.txt", "yacl/utils/circuit_executor.cc"]}
{"id": "C64", "title": "Big integer byte formats, bit access and conversions are exact", "statement": "For every integer held by an MPInt: BitCount is the bit length of its magnitude; ToBytes(n) is its two's complement modulo 2^(8n) in either byte order whatever the buffer held; ToMagBytes writes the magnitude in the least number of bytes, leaves the rest of a larger buffer alone and throws on a smaller one, and FromMagBytes reads it back; Serialize then Deserialize returns the same number, sign included; GetBit/SetBit address exactly the named bit; Set<T> then Get<T> is the identity for every value of an 8 to 128 bit type; RandomExactBits(n) stays below 2^n and RandomLtN(n) returns a number in [0, n).", "quantifier": "all integers of any size, all buffers of any length and content, both byte orders, all bit positions, all integer widths up to 128, all random draws", "why_tests_cant": "The code walks 60-bit digits across byte boundaries with a carry and a partial nibble; errors show only for particular digit counts, carries or sizes, and there are infinitely many.", "anchors": ["yacl/math/mpint/tommath_ext_features.cc: mpx_to_bytes, mpx_to_mag_bytes, mpx_from_mag_bytes, mpx_serialize, mpx_deserialize, mpx_count_bits_fast, mpx_get_bit, mpx_set_bit, mpx_rand_bits", "yacl/math/mpint/tommath_ext_types.cc: MPX_SET_UNSIGNED, MPX_GET_MAG", "yacl/math/mpint/mp_int.h: MPInt::ToBytes, ToMagBytes, FromMagBytes, Serialize, Deserialize, BitCount, RandomLtN, Get, Set"]}
{"id": "C65", "title": "Fixed-base exponentiation with a precomputed table gives the power", "statement": "MakeBaseTable(base, unit_bits, max_exp_bits) followed by PowMod(table, e) returns base^e modulo the modulus (in Montgomery form, and mapped back as base^e mod m) for every non-negative exponent of at most the table's number of bits, and throws for a negative or longer one; a negative base or zero unit_bits throws when the table is built. It never reads outside the table. SlowCustomPow combines the base with itself as many times as the scalar says in any monoid, and throws for a negative scalar.", "quantifier": "all moduli, bases, unit sizes 1..31, table sizes and exponents of any length, both word sizes (60 and 64 bits)", "why_tests_cant": "Units of the exponent straddle word boundaries in ways that depend on the unit size, the word size and the exponent's length; a wrong carry changes the result only for particular bit patterns.", "anchors": ["yacl/math/bigint/mont_space.cc: MontgomerySpace::MakeBaseTable, PowMod", "yacl/math/mpint/mp_int.h: SlowCustomPow", "yacl/math/bigint/{tommath,openssl}/mont_space.cc"]}
{"id": "C66", "title": "Big integer division and remainder agree with each other", "statement": "For all integers a and b <> 0, a / b is the quotient rounded towards minus infinity, a % b is the remainder with the divisor's sign, and a = (a / b) * b + a % b; division by zero throws; the overloads for uint64_t give the same results; >> rounds towards zero; comparisons with int64_t agree with the integers.", "quantifier": "all pairs of integers of any size and sign", "why_tests_cant": "The correction applied to the truncated quotient depends on the signs and on whether the quotient and the remainder are zero; wrong corners are measure-zero among random operands.", "anchors": ["yacl/math/mpint/mp_int.cc: MPInt::operator/, operator%, operator/=, operator%=, operator>>, Mod, Div, Compare"]}
{"id": "C67", "title": "Safe primes are primes of the requested size", "statement": "Whenever RandPrimeOver(bit_size, FastSafe) returns p, then p = 2q + 1 where q passed the final primality test, and p is prime if q is; p has bit_size or bit_size + 1 bits; sizes of 81 bits or less throw. The candidate search always ends with p = 2q + 1 (never with a p left from an earlier round or from the caller), and the code never writes outside its buffer.", "quantifier": "all random bytes, all numbers of rounds, all bit sizes, all answers of the final primality test, all previous contents of the output", "why_tests_cant": "Only q is tested for primality, p only by a Fermat test to base 2: that this suffices is a theorem (Pocklington), and that the search window always contains a candidate is a statement about all residues modulo a 64-bit product.", "anchors": ["yacl/math/mpint/tommath_ext_features.cc: mpx_safe_prime_rand, is_co_prime, is_prime_candidate, is_pocklington_criterion_satisfied", "yacl/math/mpint/mp_int.cc: MPInt::RandPrimeOver"]}
{"id": "C68", "title": "Threshold proxy re-encryption delivers the message to owner and receiver", "statement": "TPRE::Decrypt with the owner's key returns the plaintext given to Encrypt. For the key fragments of GenerateReKey(N, t), every selection of at least t of them whose fragment points (hash of id) differ re-encrypts the ciphertext, and DecryptFrags on the resulting fragments returns the plaintext. CheckCapsule accepts exactly the capsules with the right linear relation, so ReEncrypt refuses a capsule with a changed s. Fewer than t fragments at non-zero points are consistent with every secret. Sm4MteDecrypt returns a plaintext only for the ciphertext Sm4MteEncrypt makes of it.", "quantifier": "all messages, keys, random draws, N, t, selections of fragments, hash and cipher functions, all cyclic groups of prime order", "why_tests_cant": "Random keys, polynomials and subsets of proxies; a test draws one set of keys, one subset and never meets a zero hash, an empty message or a tampered fragment.", "anchors": ["yacl/crypto/experimental/tpre/tpre.cc: TPRE", "yacl/crypto/experimental/tpre/keys.cc: Keys::GenerateReKey", "yacl/crypto/experimental/tpre/capsule.cc: Capsule", "yacl/crypto/aead/sm4_mte.cc: Sm4MteDecrypt"]}
{"id": "C69", "title": "KKRT OT extension computes the same PRF on both sides", "statement": "After KkrtOtExtSend/Recv, the receiver's output number i equals the sender's PRF number i at the receiver's input i; at any other input the sender's row differs exactly by the code difference masked by the base OT choices. For KkrtOtExtSender/Receiver the same holds after any history of Encode, ZeroEncode and SendCorrection in which index i was encoded once before the correction covering it was sent; the value for an index encoded any other number of times is determined too. Wrong counts and indices past the end throw on the sender's side.", "quantifier": "all inputs, numbers of OTs, base OT seeds and choices, joint seeds, histories of receiver calls, chunkings of the corrections, contents of uninitialised memory", "why_tests_cant": "Batches of 128 and 1024 rows, a partial last batch and an arbitrary interleaving of encodings and corrections; a test fixes one size and order.", "anchors": ["yacl/kernel/algorithms/kkrt_ote.cc: KkrtOtExtSend, KkrtOtExtRecv, KkrtOtExtSender, KkrtOtExtReceiver, KkrtGroupPRF"]}
{"id": "C70", "title": "The inner product argument accepts exactly the statement proved", "statement": "A proof made by InnerProductProof::Create for vectors a, b, factors and generators is accepted by Verify, on the same transcript, for exactly one point: sum a_i f_i G_i + sum b_i f'_i H_i + <a,b> Q; it throws when a point of the proof is the identity (which happens for honest proofs of zero vectors). Create succeeds exactly on equal sizes that are a power of two, barring a zero challenge. FromBytes returns what ToBytes wrote. Two different histories of transcript operations end in different states unless the hash collides.", "quantifier": "all vectors, factors, generators, transcripts, hash functions, groups of prime order", "why_tests_cant": "The argument halves vectors of every size with challenges from the transcript; tests use a few sizes and random vectors, and never the zero vector or an identity point.", "anchors": ["yacl/crypto/experimental/zkp/bulletproofs/ipa/inner_product_proof.cc: InnerProductProof::Create, Verify, ToBytes, FromBytes", "yacl/crypto/experimental/zkp/bulletproofs/simple_transcript.cc: SimpleTranscript"]}
{"id": "C71", "title": "The aggregated range proof accepts values in range and rejects others", "statement": "A proof made by RangeProof::ProveMultiple for any non-negative values is accepted by VerifyMultiple exactly when w z^2 sum_j z^j (v_j - v_j mod 2^n) is zero modulo the order: always for values below 2^n, and never for one value from 2^n on, up to zero challenges. The commitments returned are v_j B + r_j B'. The field t_x is not checked: a prover may send any other. The generators are the same in whatever steps the capacity was increased. FromBytes returns what ToBytes wrote.", "quantifier": "all values, blindings, random tapes, bit sizes, numbers of parties, transcripts, hash functions, groups of prime order", "why_tests_cant": "Acceptance is an identity of polynomials in the challenges; tests use a few values and cannot see a coefficient that cancels.", "anchors": ["yacl/crypto/experimental/zkp/bulletproofs/range_proof/range_proof.cc: RangeProof::ProveMultiple, VerifyMultiple, ToBytes, FromBytes", "yacl/crypto/experimental/zkp/bulletproofs/generators.cc: BulletproofGens"]}
{"id": "C72", "title": "The R1CS proof accepts satisfied constraint systems and rejects others", "statement": "Let client code make the same calls (commit, multiply, allocate, constrain, second-phase callbacks that draw challenges) on an R1CSProver and an R1CSVerifier whose transcripts are equal. If Prove succeeds then the verifier's calls succeed, and Verify accepts exactly when r x^2 z P(z) is zero modulo the order, where P has the values of the linear combinations under the prover's assignment as coefficients and r, x, z are challenges; or it throws, when a point of the inner product proof is the identity. So satisfied constraints are always accepted, and a violated one only for a zero challenge or one of fewer than n values of z, n being the number of constraints. FromBytes reads back what ToBytes wrote, except that e_blinding, which Prove does not reduce, is cut to 32 bytes: an accepted proof is refused after a round trip.", "quantifier": "all client programs, committed values, blindings, random tapes, generators, transcripts, hash functions, groups of prime order", "why_tests_cant": "Client code is arbitrary and acceptance is an identity of polynomials in the challenges; the tests run a few gadgets and never write a proof to bytes.", "anchors": ["yacl/crypto/experimental/zkp/bulletproofs/r1cs/r1cs_prover.cc: R1CSProver", "yacl/crypto/experimental/zkp/bulletproofs/r1cs/r1cs_verifier.cc: R1CSVerifier", "yacl/crypto/experimental/zkp/bulletproofs/r1cs/r1cs_proof.cc: R1CSProof"]}
{"id": "C73", "title": "SoftSpoken OT extension gives correct OTs in every call", "statement": "After one set-up from 128 base OTs, any sequence of SoftSpoken Send/Recv calls of any sizes, in semi-honest or malicious mode, compact or normal, with any k from 1 to 31 and any step, ends without an exception; in each call the receiver gets the block its choice selects, in COT mode the two blocks differ by the sender's secret (bit i of it is base choice i, bit 0 forced to 1 in compact mode) and in compact mode the lowest bit of the received block is the choice; random OTs are the hashes of the correlated ones. The messages of the receiver are the choice words masked by the sum of the hashed leaves under a counter that never repeats over all calls. In malicious mode the sender accepts exactly the messages whose random linear combination agrees column by column, and a receiver inconsistent in one tree passes for at most one value of the secret bits of that tree.", "quantifier": "all k, steps, numbers of OTs, sequences of calls, base OTs, choices, random tapes, block ciphers and hashes; for the check all received messages", "why_tests_cant": "the layout in super batches and single batches, the tree sizes when k does not divide 128, and the counters over several calls have far more cases than tests can try; soundness of the check is about every malicious message", "anchors": ["yacl/kernel/algorithms/softspoken_ote.cc: OneTimeSetup, GenSfVole, Send, Recv, XorReduceImpl", "yacl/kernel/algorithms/sgrr_ote.cc: SgrrOtExtSend_fixed_index, SgrrOtExtRecv_fixed_index"]}
{"id": "C74", "title": "SoftSpoken OT extension hides the receiver's choices", "statement": "The messages of the receiver tell neither the sender nor an eavesdropper anything about its choices. In normal mode, for any two histories of choices of the same shape, the messages are the same up to the values of the hash at points that no honest sender evaluates. In compact mode this is false: base OT 0 is replaced by two zero keys, so the set-up message contains both children of the root of the first tree in clear, and from the messages alone every choice of every call can be computed.", "quantifier": "all k from 1 to 31, steps, histories of calls, base OTs, seeds and hashes", "why_tests_cant": "tests compare outputs of the two parties and never look at what the messages reveal", "anchors": ["yacl/kernel/algorithms/softspoken_ote.cc: SoftspokenOtExtReceiver::OneTimeSetup, SoftspokenOtExtReceiver::Recv"]}
{"id": "C75", "title": "Ferret OT extension: any number of correlated OTs from a fixed number", "statement": "With supported parameters (the number of bins divides n, bins of at least two elements, a batch produces more than the next consumes) and base COTs that are correlated under delta, both parties return for every requested number of OTs, and what they hold are that many compact COTs under the same delta. The COTs that seed a batch are never handed out. The receiver's choices of a batch are those of its seed under the linear code plus one puncture per bin. The default parameters are supported. Outside of them the call throws or reads out of bounds (t does not divide n), returns the output buffers untouched (batch smaller than what it consumes) or, in the cheetah version, uses the same COTs twice.", "quantifier": "all parameters, numbers of OTs and batches, base COTs, seeds, hashes; normal, malicious and cheetah versions", "why_tests_cant": "tests run a few sizes with default parameters; wrapping counts, reuse of COTs and the last short batch depend on the arithmetic of the sizes", "anchors": ["yacl/kernel/algorithms/ferret_ote.cc: FerretOtExtSend, FerretOtExtRecv, FerretOtExtSend_cheetah, FerretOtExtRecv_cheetah, FerretCotHelper", "yacl/kernel/algorithms/ferret_ote_rn.h: MpCotRNSend, MpCotRNRecv, MpCotRNHelper"]}
{"id": "C76", "title": "Ferret OT extension: the malicious check catches uncorrelated outputs", "statement": "In the malicious version the receiver accepts exactly when the hash of the errors of the two parties' outputs is zero, so outputs that are not correlated pass for at most as many seeds as there are outputs, and correlated outputs always pass. The guarantee fails because the seed is drawn by the sender, which is the party being checked: with seed 0 every output passes. An honest run can also read past an empty vector or throw in the check, the last output can equal the first check COT, and a message of another length is copied out of bounds.", "quantifier": "all outputs, seeds, check COTs, ranges and bin sizes, injective digests", "why_tests_cant": "an inconsistent output passes with probability about 2^-100 for a random seed; tests run the honest protocol only", "anchors": ["yacl/kernel/algorithms/ferret_ote_rn.h: MpCotRNSend, MpCotRNRecv", "yacl/kernel/algorithms/gywz_ote.cc: GywzOtExtRecv_ferret", "yacl/math/galois_field/gf_intrinsic.cc: UniversalHash, ExtractHashCoef"]}
{"id": "C77", "title": "OPRF: the client learns the function value, for every history of the client object", "statement": "For every key, input, blind and private input shorter than 2^16 bytes, blinding, evaluating and finalising gives hash(input, key times HashToGroup(input)), independently of the blind; the blinded element is distributed the same for any two inputs. The same holds along any history of sessions, as long as the blind is cleared before it is refreshed: RefreshBlind alone keeps the cached inverse of the old blind, and the next session then returns a wrong value. A zero blind or a long private input throws. DeriveKeyPair is the scalar hashed from seed and info, except that a retry (first hash zero) writes past its buffer. Context strings are injective, but no context string can be parsed back: FromContextString throws on every string.", "quantifier": "all groups of prime order, hashes, keys, blinds, inputs, private inputs, and all sequences of Blind/Evaluate/Finalize/RefreshBlind/ClearBlind", "why_tests_cant": "tests run one session per client object with the RFC vectors; stale caches, the retry of a hash that is zero and all possible context strings are outside of any test", "anchors": ["yacl/crypto/oprf/oprf.h: OprfClient::Blind, OprfClient::Finalize, OprfClient::RefreshBlind, OprfClient::ClearBlind, OprfServer::BlindEvaluate", "yacl/crypto/oprf/oprf_ctx.h: I2OSP, OprfConfig::ToContextString, OprfConfig::FromContextString, OprfCtx::HashToGroup", "yacl/crypto/oprf/oprf_ctx.cc: OprfCtx::GenKeyPair, OprfCtx::DeriveKeyPair"]}
{"id": "C78", "title": "VOPRF: an accepted evaluation is the announced key's", "statement": "The server's proof is accepted for every batch of up to 65536 elements (larger ones throw). VerifyProof accepts exactly the proofs whose challenge is the hash of the commitments they determine; if an element was not multiplied by the announced key, then unless the hashed weights make the errors cancel, every pair of commitments leaves one challenge that can be answered. Weights of different positions, elements and keys hash different inputs. An honest session returns the function value of the key; an evaluation by the key with any accepted proof does too; a rejected proof throws and leaves the client unchanged. The announced key itself is not checked: with the point at infinity every input gets the same output.", "quantifier": "all groups of prime order, hashes, keys, batches, proofs and clients", "why_tests_cant": "tests run honest sessions of one or two elements; soundness is about all proofs, and the size limit needs 65537 elements", "anchors": ["yacl/crypto/oprf/voprf.h: VOprfServer::GenerateProof, VOprfServer::BlindEvaluate, VOprfServer::ComputeCompositesFast, VOprfClient::ComputeComposites, VOprfClient::VerifyProof, VOprfClient::Finalize"]}
{"id": "C79", "title": "A dynamic bitset is the list of its bits", "statement": "After any sequence of constructions and in-contract operations on dynamic_bitset (resize, push_back, pop_back, append of blocks, of another bitset and of itself, bitwise operators, shifts, set/reset/flip of bits, ranges and everything), with any block type, no access is out of bounds and every observer (size, test, test_set, all, any, none, count, find_first, find_next, iterate_bits_on, to_string, ==, <, is_subset_of, is_proper_subset_of, intersects) answers exactly for the list of bits the sequence describes; < is a strict total order by number then size with ties exactly ==; strings and streams read back; the block width is invisible.", "quantifier": "every history of operations, every operand, size, position, shift and block width", "why_tests_cant": "blocks of 8 to 128 bits, histories, sizes around block boundaries and in-place shifts multiply beyond any test list", "anchors": ["yacl/base/dynamic_bitset.h: dynamic_bitset", "yacl/base/dynamic_bitset.h: operator<, operator==, operator>>"]}
{"id": "C80", "title": "Random helpers return uniform values from the generator's bytes", "statement": "RandU32/64/128 return the generator's bytes as an integer; FastRandSeed and SecureRandSeed reach every 128-bit seed; RandBits returns a different generator bit at every position, for every container and block width; RandLtN(n) is below n and every value is hit by 2^(8 size + 64)/n or one more of the byte strings; RandInRange(n) is below n. RandSeed should return 128-bit seeds and RandInRange should not favour values (both refuted), and RandInRange(0) should be rejected (refuted: division by zero).", "quantifier": "every output of the generator, every length up to the generator's limit, every bound and every integer or block width", "why_tests_cant": "uniformity is a statement about how many of the 2^k generator outputs give each value; tests draw a few", "anchors": ["yacl/crypto/rand/rand.h: RandU32, RandSeed, RandBits, RandVec, RandInRange, RandLtN", "yacl/crypto/rand/rand.cc: FillRand, RandBits"]}
{"id": "C81", "title": "Replayable generator and shuffle", "statement": "A YaclReplayUrbg returns the pseudorandom words of successive counters; one rebuilt from the seed and GetCounter continues the sequence (not one rebuilt from GetSeed: refuted). ReplayShuffle returns a rearrangement of the array, advances the counter by one block per element but one, rearranges all arrays of one length alike for the same seed and counter, reaches every order from exactly one vector of indices, each index being within 2^-64 of uniform over cipher words, and successive shuffles with one counter never use a cipher block twice. Shuffling an empty array should do nothing (refuted: it throws).", "quantifier": "every block cipher, seed, counter, array, element type, integer width, mode of operation and number of calls", "why_tests_cant": "bijectivity between index vectors and orders, and the absence of reuse over any sequence of shuffles, range over unbounded arrays and sequences", "anchors": ["yacl/crypto/rand/rand.h: YaclReplayUrbg, ReplayShuffle"]}
{"id": "C82", "title": "The CSV reader shows exactly the table in the file, whatever the history of Next, Seek, Tell, Rows and Spawn", "statement": "For every file and schema, Init accepts the file exactly when its header is sound and names the requested features; then every history of Next, Next(k), Seek, Tell, Rows, Cols and Spawn of a row reader returns the next rows in order, positioned as Tell and Seek say, with Rows the true number once a scan met the end, and Next throws exactly when a row it would return is malformed; a column reader shows the columns of the same table and rejects it at Init if any row is malformed.", "quantifier": "every file content, pair of delimiters, schema, batch size and finite history of calls, including spawned readers", "why_tests_cant": "Seeking goes through a cache of positions built by earlier calls, and the end-of-file state of the stream depends on the history and on a missing final newline; no finite set of scripts covers these.", "anchors": ["yacl/io/rw/csv_reader.cc CsvReader::Init, NextRow, NextCol, Seek, Spawn", "yacl/io/rw/csv_reader.h", "yacl/io/rw/schema.h ColumnVectorBatch", "yacl/io/stream/mem_io.cc", "yacl/io/stream/file_io.cc"]}
{"id": "C83", "title": "What the CSV writer writes, the CSV reader reads back", "statement": "For every schema and every list of batches whose columns have the types of the schema and equal lengths, the file written is the header line and one line per row in order; if no name or text contains a delimiter and numbers survive printing, reading it with any batch size returns the same rows.", "quantifier": "every schema, list of batches and batch size of the reader", "why_tests_cant": "The round trip is over all tables; tests write a few rows.", "anchors": ["yacl/io/rw/csv_writer.cc CsvWriter::Init, Add", "yacl/io/rw/csv_reader.cc", "yacl/io/rw/schema.h"]}
{"id": "C84", "title": "OT kernel serves every history of requests", "statement": "After init, every sequence of eval_cot and eval_rot requests on an OT kernel (SoftSpoken or Ferret) returns: COT requests give correlated OTs under one delta, which is fixed by the base OTs for the kernel's life, and random-OT requests give OTs whose messages are the hashes of correlated ones; the accessors of both stores show matching choices and messages at every index. Random OTs turned into chosen-message OTs give the receiver exactly the chosen messages.", "quantifier": "all histories of requests of all sizes in range, both algorithms, all base OTs, random draws, parameters supported by Ferret, hash and PRG functions, contents of the caller's stores", "why_tests_cant": "a test makes one or two requests of one size with one algorithm; state kept between requests (counters, cached base COTs) shows only over histories", "anchors": ["yacl/kernel/ot_kernel.cc: OtKernel::init, eval_cot, eval_rot", "yacl/kernel/type/ot_store.cc: OtSendStore::GetBlock, OtRecvStore::GetChoice"]}
{"id": "C85", "title": "Multi-threaded sVOLE is a VOLE for every thread count and schedule", "statement": "SVoleKernel::eval_multithread with any number of threads and any order of the tasks fills the whole spans with c = a * delta + b, equal to the tasks' outputs one after the other.", "quantifier": "all span lengths, thread counts, schedules (orders of the tasks), contents of the spans, random draws, deltas", "why_tests_cant": "tests run a few thread counts on one machine's scheduling; uneven splits and late tasks are schedules a test does not choose", "anchors": ["yacl/kernel/svole_kernel.cc: SVoleKernel::eval_multithread"]}
{"id": "C86", "title": "Streaming sVOLE fills the whole span; the malicious flag is honoured", "statement": "SVoleKernel::eval_streaming with any step size fills all of a, b and c with c = a * delta + b; silent VOLE in malicious mode runs the consistency check of the OT extension.", "quantifier": "all span lengths, step sizes, thread counts, schedules; all check messages", "why_tests_cant": "tests use a step as large as the span; a missing check never fails with honest parties", "anchors": ["yacl/kernel/svole_kernel.cc: SVoleKernel::eval_streaming", "yacl/kernel/algorithms/silent_vole.h: SilentVoleSender"]}
{"id": "C87", "title": "Mock OT stores are OTs", "statement": "MockRots, MockCots and MockCompactOts return stores of the given size with the given choices (MockCompactOts: the low bits of the blocks) in which the receiver holds exactly the chosen message of every pair; COT pairs differ by delta.", "quantifier": "all sizes, choices, deltas and random blocks", "why_tests_cant": "tests look at one size with one delta; delta 0 is not tried", "anchors": ["yacl/kernel/type/ot_store_utils.cc: MockRots, MockCots, MockCompactOts"]}
{"id": "C88", "title": "The affine curve back end is a group with scalar multiplication", "statement": "On the Toy library's Weierstrass curves Add of two curve points is always defined and a curve point, the sum is the chord-and-tangent sum, Add is commutative and associative with (0,0) as neutral element and Negate as inverse; Mul(P, k) is P added k mod n times for every integer k, Mul is additive and multiplicative in the scalar and in the point; Double, Sub and MulDoubleBase agree with it; Div by a scalar coprime to the order undoes Mul, and every other scalar is refused.", "quantifier": "all curve points with reduced coordinates, all integer scalars, every odd prime field and curve without points of order two", "why_tests_cant": "tests add and multiply a few points; associativity and the scalar laws range over all points and scalars", "anchors": ["yacl/crypto/ecc/toy/weierstrass.cc: ToyWeierstrassGroup::Add, Mul, Negate, IsInCurveGroup, PointEqual", "yacl/crypto/ecc/group_sketch.cc: EcGroupSketch::Sub, Double, MulBase, MulDoubleBase, Div", "yacl/crypto/ecc/toy/factory.cc: kPredefinedCurves"]}
{"id": "C89", "title": "The x-only Montgomery curve computes masked multiples, and key agreement works", "statement": "ToyXGroup::Mul(P, k) returns the abscissa of m(k) P (zero for infinity), where m(k) is 2^254 plus k with its three low bits cleared, whatever the sign of k and whether P lies on the curve or on its twist; the result is reduced and depends on the abscissa modulo p only; Mul(Mul(P, a), b) = Mul(Mul(P, b), a).", "quantifier": "all abscissas (also unreduced, zero and twist points), all integer scalars", "why_tests_cant": "tests use the RFC vectors; the ladder has exceptional cases (infinity, points of order two, equal abscissas) that random tests never meet", "anchors": ["yacl/crypto/ecc/toy/montgomery.cc: ToyXGroup::Mul, MaskScalar255, MaskPoint255, cswap"]}
{"id": "C90", "title": "Every curve handle honours the EcGroup contract", "statement": "For every group the Toy library creates: a point accepted by IsInCurveGroup can be added and compared like the element it stands for, operands off the curve are refused, 0 P is infinity, 1 P is P, and Negate is the inverse.", "quantifier": "all points accepted by the membership test, all scalars", "why_tests_cant": "tests use reduced points on the curve and do not multiply by 0 or 1 on the x-only curve", "anchors": ["yacl/crypto/ecc/ecc_spi.h: EcGroup", "yacl/crypto/ecc/toy/weierstrass.cc: IsInCurveGroup, DeserializePoint", "yacl/crypto/ecc/toy/montgomery.cc: Mul, Negate"]}
{"id": "C91", "title": "ExpandMessageXmd is RFC 9380's expand_message_xmd", "statement": "For every message, every tag of 16 to 255 bytes and every length up to 65535 bytes and 255 digests, the uniform bytes are exactly those of RFC 9380 5.3.1 and as many as asked for; any other size is refused. Two different requests that give the same bytes, or a longer request that extends a shorter one, exhibit a collision of the hash.", "quantifier": "all messages, tags, lengths and hash functions with a fixed digest size", "why_tests_cant": "test vectors cover a few messages and two lengths; injectivity is over all pairs of requests", "anchors": ["yacl/crypto/ecc/hash_to_curve/hash_to_curve_util.cc: ExpandMessageXmd, I2OSP", "yacl/crypto/ecc/hash_to_curve/hash_to_curve_util.h"]}
{"id": "C92", "title": "Field elements and scalars of a hash are the reduced uniform bytes", "statement": "HashToField returns count elements of key_size bytes, element i being block i of the uniform bytes, big-endian, modulo p. HashToScalar of every NIST suite returns the uniform bytes modulo the group order.", "quantifier": "all messages, tags, counts, lengths and suites", "why_tests_cant": "needs every suite, and tests have no vector for scalars of P-384 and P-521", "anchors": ["yacl/crypto/ecc/hash_to_curve/hash_to_curve_util.cc: HashToField, HashToScalar, kPredefinedCurveCtxs", "yacl/crypto/ecc/hash_to_curve/p256.cc: HashToScalarP256", "yacl/crypto/ecc/hash_to_curve/p384.cc: HashToScalarP384", "yacl/crypto/ecc/hash_to_curve/p521.cc: HashToScalarP521"]}
{"id": "C93", "title": "MapToCurveSSWU is RFC 9380's simplified SWU map", "statement": "For every field element u the map returns, without failing, the one point RFC 9380 6.6.2 defines: its x is x1(u) or Z u^2 x1(u) by whether g(x1) is a square, y^2 = g(x), and y has the parity of u (or is 0). The exceptional u with Z^2 u^4 + Z u^2 = 0 are included.", "quantifier": "all byte strings holding u, all curves with p = 3 mod 4 and admissible A, B, Z, among them P-256, P-384 and P-521", "why_tests_cant": "exceptional inputs are never drawn by tests, and both branches must be right for all u", "anchors": ["yacl/crypto/ecc/hash_to_curve/hash_to_curve_util.cc: MapToCurveSSWU, SqrtRatio, IsSquare, Sgn0"]}
{"id": "C94", "title": "EncodeToCurve and HashToCurve of the NIST curves return the right point of the curve", "statement": "For every message and every tag of 16 to 255 bytes, EncodeToCurve returns the SWU image of the hashed field element, and HashToCurve returns the group sum of the SWU images of the two hashed field elements: a point of the curve, or (0, 0) for infinity. HashToCurve fails only when both images are the same point of order two; other tags are refused.", "quantifier": "all messages, tags and hash functions with a fixed digest size; P-256, P-384, P-521 (their moduli taken prime)", "why_tests_cant": "the sum has cases (equal, opposite points) that no known message reaches", "anchors": ["yacl/crypto/ecc/hash_to_curve/p256.cc: EncodeToCurveP256, HashToCurveP256", "yacl/crypto/ecc/hash_to_curve/p384.cc", "yacl/crypto/ecc/hash_to_curve/p521.cc", "yacl/crypto/ecc/hash_to_curve/hash_to_curve_util.cc: AffinePointAddNIST"]}
{"id": "C95", "title": "The map to Curve25519 is RFC 9380's Elligator 2", "statement": "For every field element u the map returns, without failing, the one point RFC 9380 6.7.1 defines: x1 = -A / (1 + 2 u^2); if g(x1) is a square then x = x1 and y is odd (or 0), else x = -x1 - A and y is even; y^2 = x^3 + A x^2 + x.", "quantifier": "all byte strings holding u, all curves with p = 5 mod 8 and matching constants, among them Curve25519", "why_tests_cant": "the four root candidates each depend on the quartic character of the input", "anchors": ["yacl/crypto/ecc/hash_to_curve/curve25519.cc: MapToCurveG2"]}
{"id": "C96", "title": "EncodeToCurve and HashToCurve of Curve25519 return eight times the hashed point", "statement": "For every message and every tag of 16 to 255 bytes EncodeToCurveCurve25519 returns eight times the Elligator image of the hashed field element and HashToCurveCurve25519 eight times the sum of the two images, a point of the curve; they never fail.", "quantifier": "all messages, tags and hash functions with a fixed digest size", "why_tests_cant": "the exceptional cases (equal abscissas, small order) are not met by any known message", "anchors": ["yacl/crypto/ecc/hash_to_curve/curve25519.cc: HashToCurveCurve25519, EncodeToCurveCurve25519, PointAdd, PointDbl, PointClearCofactor"]}
{"id": "C97", "title": "The GMP back end's Montgomery space multiplies and exponentiates modulo the modulus", "statement": "With the GMP back end, CreateMontgomerySpace(m) succeeds exactly for positive odd m. MapIntoMSpace(a) is a*R mod m for every integer a, where R is the least power of 2^64 above m; MapBackToZSpace divides exactly by R modulo m every number of magnitude below m*R; multiplying two mapped numbers and mapping back gives their product mod m; PowMod with a table mapped back gives g^e mod m for every exponent the table admits and throws for others. No limb is read or written outside its array.", "quantifier": "all positive odd moduli of any size, all integers, all unit sizes 1..31, all exponents", "why_tests_cant": "The reduction walks 64-bit limbs with an unrolled loop and carry propagation; a lost carry shows only for particular limb patterns of measure near zero, and moduli whose bit length is a multiple of 64 take a different path in the normalisation.", "anchors": ["yacl/math/bigint/gmp/gmp_int.cc: MontgomerySetup, MontgomeryCalcNormalization, MontgomeryReduce", "yacl/math/bigint/gmp/mont_space.cc: GmpMontSpace"]}
{"id": "C98", "title": "Big integer arithmetic does not depend on the library behind it", "statement": "The same expression over big integers (quotient, remainder, their uint64 overloads, AddMod, SubMod, MulMod, InvMod, PowMod, Pow, Lcm, shifts, bit access, CompareAbs) gives the same integer, or throws, whether libtommath, OpenSSL or GMP holds the numbers; operands held by different libraries are refused.", "quantifier": "all three libraries, all integers (negative, zero, unreduced), all moduli, exponents, shift counts and bit indices", "why_tests_cant": "tests compare a few operands on the libraries present on one machine; signs, zero and narrowing conversions show up only for particular operands", "anchors": ["yacl/math/bigint/bigint.cc", "yacl/math/bigint/openssl/bignum.cc", "yacl/math/bigint/gmp/gmp_int.cc", "yacl/math/mpint/mp_int.cc"]}
{"id": "C99", "title": "Bytes of big integers are the same in every library", "statement": "ToBytes, Serialize, Deserialize, ToMagBytes and FromMagBytes produce and read the same bytes in every library, so what one party serializes with one library another party reads with a different one; ToBytes is the two's complement modulo the buffer size; OpenSSL's bitwise operators, computed on such bytes, are those of unbounded two's complement integers.", "quantifier": "all integers, all buffer sizes and contents, both byte orders, all pairs of libraries", "why_tests_cant": "round trips in tests use one library on both sides and a few numbers; carries through whole buffers, sign bits at byte boundaries and zero are particular values", "anchors": ["yacl/math/bigint/openssl/bignum.cc (Serialize, Deserialize, ToBytes, ToMagBytes, FromMagBytes, operator&, operator|, operator^)", "yacl/math/bigint/gmp/gmp_int.cc", "yacl/math/mpint/tommath_ext_features.cc"]}
{"id": "C100", "title": "A base OT delivers the chosen block and hides the choice", "statement": "When BaseOtSend and BaseOtRecv are run against each other with the same number of OTs and the same library, both succeed and block i of the receiver is block choice[i] of pair i of the sender. The message of the receiver has the same distribution for every choice vector. Wrong world size, wrong span size, empty input, messages of a wrong length and bytes that encode no element are refused. Blocks of different OTs come from different random oracle inputs.", "quantifier": "all numbers of OTs, choice vectors, sender secrets and receiver scalars; batch size 1 (portable) and 4 (x86)", "why_tests_cant": "The number of OTs, the position in the last batch, choices and secrets are unbounded; hiding is a statement about all scalars at once.", "anchors": ["yacl/kernel/algorithms/base_ot.cc: BaseOtRecv, BaseOtSend", "yacl/kernel/algorithms/portable_ot_interface.cc: Recv, Send", "yacl/kernel/algorithms/x86_asm_ot_interface.cc: Recv, Send", "yacl/crypto/tools/ro.h: RandomOracle"]}
{"id": "C101", "title": "Base OT parties that disagree are told so", "statement": "If the two parties of a base OT ask for different numbers of OTs, or are built with different libraries that cannot talk to each other, at least one of them throws; otherwise the outputs match.", "quantifier": "all pairs of OT counts and all pairs of libraries", "why_tests_cant": "Whether a mismatch is noticed depends on both counts modulo the batch size.", "anchors": ["yacl/kernel/algorithms/portable_ot_interface.cc: Send", "yacl/kernel/algorithms/x86_asm_ot_interface.cc: Send"]}
{"id": "C102", "title": "A key-value store returns the last value put", "statement": "After any sequence of Put calls, Get of a key returns true and the value last put under it, or false if it was never put (leaving the caller's string alone, emptying the caller's Buffer); Count is the number of different keys; the memory and the LevelDB store behave alike, and an IndexStore on top of either behaves as an array.", "quantifier": "all histories of Put, all keys and values (any bytes), all 64 bit indices, both stores", "why_tests_cant": "Histories are unbounded; the unit tests put every key once.", "anchors": ["yacl/io/kv/memory_kvstore.cc: Put, Get, Count", "yacl/io/kv/leveldb_kvstore.cc: Put, Get, Count", "yacl/io/kv/kvstore.h: KVStore, IndexStore"]}
{"id": "C103", "title": "The GM-DRBG generator serves every history and depends on its seed", "statement": "A generator created with type gm-drbg fills any buffer with as many bytes as asked for, for any number of requests, reseeding itself when due and when asked to; generators with different entropy return different bytes.", "quantifier": "all entropy and nonce bytes, all entropy sources, all histories of Fill and ReSeed calls", "why_tests_cant": "The reseed limit is reached after 1024 requests only, and a single run cannot tell a constant sequence from a random one; the unit test compares two outputs of one generator.", "anchors": ["yacl/crypto/rand/drbg/native_factory.cc: NativeDrbg, Sm4Drbg::Instantiate, derive, rng_update, Generate, ReSeed", "yacl/crypto/rand/entropy_source/urandom_factory.cc: GetEntropy", "yacl/crypto/rand/entropy_source/rdseed_factory.cc: GetEntropy"]}
{"id": "C104", "title": "Synchronised and forked generators agree; Fill reports the truth", "statement": "After SendState/RecvState the receiver is an exact copy of the sender, and a fork of its original: for the same requests both give the same bytes, in any history that does not reach the reseed interval. Fill returns 1 only if the whole buffer holds generated bytes, never writes outside it, and returns 0 without touching it during a synchronisation or with more than 32 bytes of additional data. A malformed state message is rejected.", "quantifier": "all states reachable by constructing, filling, reseeding, forking and synchronising, all request histories, buffer sizes and prior contents, entropy values and link failures", "why_tests_cant": "the histories, the reseed boundary and the failure points of the link cannot be enumerated; the reseed interval of the library is never reached in a test", "anchors": ["yacl/crypto/experimental/sync_drbg/sync_drbg.cc: SyncDrbg::Fill, Reseed, SendState, RecvState, serialize_hash_drbg_ctx, deserialize_hash_drbg_ctx", "yacl/crypto/experimental/sync_drbg/sync_drbg.h: SyncDrbg::Fork"]}
{"id": "C105", "title": "What is serialised is read back, whole, and never truncated", "statement": "DeserializeVars and DeserializeVarsTo return the variables given to SerializeVars, in order, for any number of variables of any supported types, whatever bytes follow, and report the bytes consumed. SerializeVarsTo(nullptr) announces exactly the bytes written; a buffer that large is enough, a smaller one makes it throw without writing outside it. A serialisation cut short anywhere is refused; equal serialisations mean equal values; an integer read as a type it does not fit is refused. HeadSizeOfStr and HeadSizeOfArray are the sizes of the headers written.", "quantifier": "all lists of variables of bool, integer, 128 bit integer, string, buffer, vector and pair types nested to any depth, all buffers, all cut points, all target types", "why_tests_cant": "nesting, lengths at the header boundaries up to 2^32 and cut points cannot be enumerated", "anchors": ["yacl/utils/serializer.h: SerializeVars, SerializeVarsTo, DeserializeVars, DeserializeVarsTo", "yacl/utils/serializer_adapter.h: pack, convert", "yacl/io/msgpack/buffer.h: StreamBuffer, FixedBuffer, ShadowBuffer", "yacl/io/msgpack/spec_traits.cc: HeadSizeOfStr, HeadSizeOfArray", "yacl/base/int128.h: MakeInt128, MakeUint128"]}
{"id": "C106", "title": "Calls on scalars, vectors and views agree, in any thread order, and the field obeys its laws", "statement": "A unary or binary call on a vector item succeeds exactly if it succeeds on every element (pair, with equal lengths) and returns the vector of results; a scalar mixed with a vector is refused. An in-place call on a writable view leaves there what the ordinary call returns, in whatever order the threads process the elements, when the second operand is the same view, a disjoint one or a vector, and changes nothing else; a read-only view is never changed. SubItem is the slice, inside its parent. In the prime field sums, differences and products are field elements and obey the ring laws, Inv and Div work exactly for nonzero divisors, Pow is repeated multiplication, with inverses for negative exponents, Equal is equality of elements.", "quantifier": "every item, element function, memory, view, processing order; every prime modulus and element", "why_tests_cant": "The number of element orders, overlaps and field elements is unbounded; thread interleavings of a test run are few.", "anchors": ["yacl/utils/spi/item.h: Item, SubItem, AsSpan", "yacl/utils/spi/sketch/scalar_call.h: CallUnaryFunc, CallUnaryInplaceFunc, CallBinaryFunc, CallBinaryInplaceFunc", "yacl/math/galois_field/factory/mpint_factory.cc: MPFactory", "yacl/math/galois_field/factory/gf_scalar.h: Equal"]}
{"id": "C107", "title": "Items of field elements survive serialisation, in all three forms", "statement": "Serialize(item) is a MessagePack string, or array of strings, of the elements' bytes; Deserialize returns the item (a view comes back as a vector), whatever bytes follow. The size call announces exactly the number of bytes, the version that writes to a caller's buffer writes the same bytes at its start if they fit and throws otherwise, independent of how much the growing buffer reserved.", "quantifier": "every item of fewer than 2^32 elements of fewer than 2^28 bytes each, header, reserve and buffer", "why_tests_cant": "Growth of the buffer, header lengths and sizes switch at many thresholds; only chosen sizes can be tested.", "anchors": ["yacl/utils/spi/sketch/scalar_tools.h: Serialize", "yacl/math/galois_field/factory/gf_scalar.h: Serialize, Deserialize", "yacl/io/msgpack/buffer.h: StreamBuffer, FixedBuffer"]}
{"id": "C108", "title": "A symmetric cipher object is one long stream in each direction", "statement": "For every SymmetricCrypto object (AES-128 or SM4; ECB, CBC or CTR): a history of Encrypt calls followed, on an object built from the same key and initial vector, by Decrypt calls on the results in the same order, gives the plaintexts back, with ciphertexts of the plaintexts' lengths; the way data is split over calls does not change the bytes; the first call computes the textbook mode (ECB and CBC block by block, CTR byte by byte with a 128-bit big endian counter); buffers of different sizes and, in ECB and CBC, partial blocks are refused; Reset restores the state of the constructor; only the first 16 bytes of key and initial vector are used and shorter ones are read out of bounds. In CBC and CTR mode a call is not a function of its arguments: repeated plaintexts encrypt differently and decrypting out of order silently gives other data.", "quantifier": "all block ciphers satisfying the inverse law, all modes, keys, initial vectors, byte strings of any length and histories of calls of any length", "why_tests_cant": "tests encrypt a few buffers, once per object, and never cross the 2^31 - 16 byte pass limit", "anchors": ["yacl/crypto/block_cipher/symmetric_crypto.cc: SymmetricCrypto::Encrypt, SymmetricCrypto::Decrypt, SymmetricCrypto::Reset", "yacl/crypto/block_cipher/symmetric_crypto.h: SymmetricCrypto"]}
{"id": "C109", "title": "Authenticated encryption accepts exactly what it produced", "statement": "For every algorithm of AeadCtx, with keys of GetKeySize bytes and buffers of the right sizes, Decrypt gives back what Encrypt was given; Decrypt succeeds exactly when encrypting its result with the same key, initial vector and additional data gives this ciphertext and tag, and otherwise throws without having released anything; wrong sizes of buffers, keys, initial vectors and tags are refused; GetMacSize is the size of the tag.", "quantifier": "all algorithms, keys, initial vectors, plaintexts, ciphertexts, additional data and tags of any size, buffers with any contents", "why_tests_cant": "tests flip a byte or two; that every other ciphertext is refused, for every size, and what the buffers hold after a failure cannot be enumerated", "anchors": ["yacl/crypto/aead/all_gcm.cc: GcmCrypto::Encrypt, GcmCrypto::Decrypt", "yacl/crypto/aead/sm4_mte.cc: Sm4MteEncrypt, Sm4MteDecrypt", "yacl/crypto/aead/aead.cc: AeadCtx::Encrypt, AeadCtx::Decrypt, AeadCtx::GetKeySize, AeadCtx::GetMacSize"]}
{"id": "C110", "title": "A sealed digital envelope opens to its contents and nothing else does", "statement": "What SmEnvSeal or RsaEnvSeal produced, SmEnvOpen or RsaEnvOpen with the matching private key opens to the plaintext, whatever the output vectors held before; an envelope that opens is one whose key part decrypts to a key under which encrypting the result gives exactly its ciphertext (and tag); any other envelope is refused with an exception.", "quantifier": "all key pairs, initial vectors, plaintexts, envelopes (encrypted key, ciphertext, tag) and old vector contents", "why_tests_cant": "tests seal and open one message; the acceptance of every forged envelope cannot be enumerated", "anchors": ["yacl/crypto/envelope/digital_envelope.cc: SmEnvSeal, SmEnvOpen, RsaEnvSeal, RsaEnvOpen"]}
{"id": "C111", "title": "A service is created with the library asked for, or the best one registered", "statement": "For every history of library registrations: a registration is refused exactly when a library with the same name, in any case, was registered before. Creating a service with a library name, in any case, uses that library if it supports the feature and throws otherwise. Without a name the library with the highest performance among those that support the feature is used, the earliest registered among equals, provided performances are not negative. Listing libraries gives exactly the supported ones, in increasing order, and creation reaches a library exactly when that list is not empty. Argument names are compared in a normal form that keeps their letters and digits; of two arguments with one name the first counts.", "quantifier": "every sequence of registrations with any checkers and creators, every feature, every set of arguments", "why_tests_cant": "The outcome depends on the whole history of registrations, which static initialisation orders arbitrarily, and on all combinations of checkers; tests see the handful of libraries linked in", "anchors": ["yacl/utils/spi/spi_factory.h: SpiFactoryBase::Register, CreateFromArgPkg, ListLibraries", "yacl/utils/spi/argument/util.cc: ToSnakeCase", "yacl/utils/spi/argument/arg_set.h: SpiArgs", "yacl/utils/spi/argument/arg_kv.cc: SpiArg::operator="]}
{"id": "C112", "title": "AES-128 on processor instructions is FIPS-197, one key at a time or in batches", "statement": "For every key, both key schedules store the eleven round keys of FIPS-197. Encrypting a list of blocks applies the FIPS-197 cipher to each, into another buffer or in place, and refuses a buffer of another size. Decrypting with the decryption key gives the FIPS-197 inverse cipher, for fewer than 2^32 blocks; decryption undoes encryption and encryption undoes decryption. Encrypting in a batch with several keys gives, group by group, what encrypting each group with its key gives, and leaves later blocks alone.", "quantifier": "every key, every block, every list of blocks, every number of keys and of blocks per key", "why_tests_cant": "There are 2^128 keys and blocks; tests compare a few vectors, and an error in one shuffle constant can hide on many inputs", "anchors": ["yacl/crypto/aes/aes_intrinsics.h: AES_set_encrypt_key, AES_set_decrypt_key, AES_ecb_encrypt_blks, AES_ecb_decrypt_blks", "yacl/crypto/aes/aes_opt.h: AES_opt_key_schedule, ParaEnc"]}
{"id": "C113", "title": "Multi-point COT with uniform noise puts delta at the chosen indices and nowhere else", "statement": "MakeSimpleMap files every index below n under exactly the bins its three hashes name, numbered consecutively. When MpCotUNSend and MpCotUNRecv run on such a map and the receiver's cuckoo insertion succeeds, the two outputs are equal except at the indices chosen an odd number of times, where they differ by the sender's delta; this needs that no bin with members follows an empty bin. If one does, the sender reads a vector that was never filled. A failed insertion is an exception. The number of COTs MpCotUNHelper announces suffices for at least two indices and six bins, and is too small for one index.", "quantifier": "every random permutation, hash function, seed, index set, number of bins, set of correlated OTs and initial memory contents", "why_tests_cant": "the placement of indices in bins and the order of evictions depend on the permutation; tests run a few sizes", "anchors": ["yacl/kernel/algorithms/ferret_ote_un.h: MakeSimpleMap, MpCotUNHelper, MpCotUNSend, MpCotUNRecv", "yacl/kernel/algorithms/gywz_ote.cc: GywzOtExtSend, GywzOtExtRecv", "yacl/utils/cuckoo_index.cc: CuckooIndex::Insert"]}
{"id": "C114", "title": "The module registry enforces the weakest declared security level", "statement": "CT_CRC32 of every string is its CRC-32, and two names of equal length that differ within four consecutive characters never share a hash. A translation unit with module declarations compiles exactly when the hashes of the names are distinct and there are at most 256 modules. A module's parameters read back as declared and an undeclared name is UNKNOWN. With at most 255 modules YACL_GLOB_SECPARAM is the weakest declared level and YACL_ENFORCE_SECPARAM passes exactly when every declared module meets both levels, whatever uses came before, in whatever order. With 256 modules the last one is overlooked. The order of levels is the order of the numbers they stand for.", "quantifier": "every string, list of declarations, pair of required levels and history of earlier uses", "why_tests_cant": "the registry is a compile time structure; a test program fixes one set of modules and one order of uses", "anchors": ["yacl/secparam.h: YACL_MODULE_DECLARE, YACL_GLOB_SECPARAM_C, YACL_ENFORCE_SECPARAM, YaclModuleHandler::GetGlob, SecParam::MakeInt", "yacl/secparam.cc: SecParam::glob_c", "yacl/utils/compile_time_utils.h: CT_CRC32, COUNTER_READ, COUNTER_INC"]}
{"id": "C115", "title": "Curve names resolve to one curve and one library", "statement": "A lookup of a curve by name ignores letter case and answers with the first table entry that lists the name or throws when none does; every lookup throws if two entries that share a name differ in form, field or strength, and the shipped table has no such pair. All aliases of an entry give the same answer, and the answer's own name looks up to itself. Creating a group without naming a library uses the fastest registered library that supports the curve, whatever the order of registration and the spelling of the name; naming a library uses that one or throws; a library that says it supports a curve builds it (OpenSSL's own constructor aside). Every curve a library lists can be created under the listed name (false for three of OpenSSL's keys).", "quantifier": "every table, every name in every spelling, every subset of the libraries in every order of registration, every argument set", "why_tests_cant": "Names are unbounded strings, the order of static registration depends on the link, and tests look up a few spellings with all libraries linked.", "anchors": ["yacl/crypto/ecc/curve_meta.cc BuildMap, GetCurveMetaByName, kPredefinedCurves", "yacl/crypto/ecc/ecc_spi.cc EcGroupFactory::Register", "yacl/crypto/ecc/openssl/openssl_factory.cc kName2Nid", "yacl/crypto/ecc/mcl/mcl_ec_factory.cc", "yacl/crypto/ecc/libsodium/sodium_factory.cc", "yacl/crypto/ecc/toy/factory.cc"]}
{"id": "C116", "title": "Hash and MAC objects answer for exactly the data since the last reset", "statement": "After any sequence of Update, Reset and CumulativeHash (CumulativeMac) calls, every answer of a hash object, an extendable output object, a BLAKE3 object or an HMAC object with a non-empty key is the function of the concatenation of the data added since construction or the last Reset, of the stated size; asking does not disturb the object, and how data is cut into updates does not matter. A longer extendable output begins with the shorter one. The one-shot functions give the same values. Algorithms the library lacks, extendable output objects for other algorithms and zero-length Shake calls throw. An HMAC object accepts every key (false for the empty key).", "quantifier": "every history of calls, every chunking, every algorithm, key, output length and byte string; the digest functions are arguments", "why_tests_cant": "Histories are unbounded; tests hash a few strings in one or two chunks and rarely ask twice or after a reset.", "anchors": ["yacl/crypto/hash/ssl_hash.cc SslHash", "yacl/crypto/hash/ssl_hash_xof.cc SslHashXof", "yacl/crypto/hash/blake3.cc Blake3Hash", "yacl/crypto/hash/hash_utils.cc", "yacl/crypto/hmac/hmac.cc Hmac"]}
{"id": "C117", "title": "libsodium Ed25519 and X25519 groups", "statement": "On the Ed25519 group, multiplication by any integer (negative, zero, larger than the order) gives that multiple for every point of the prime order subgroup, by Mul, MulInplace, MulBase and MulDoubleBase; doubling gives twice the point; negation gives (-x, y) on the curve in both forms; the affine coordinates are the point's; two points reported equal are one point of the subgroup, all representations of one point are reported equal, and equal points hash equally; copying an affine point accepts exactly points of the curve when x is not zero. Copying a compressed point gives a point of the curve with the parity asked for, and recovers every point with x not zero. On X25519, two parties who exchange MulBase results agree for all integers, and MulInplace agrees with Mul on reduced scalars. Refuted: refusal of a set sign bit with x = 0 (accepted for y = -1, so that point has two encodings), equality and multiplication outside the subgroup (the point of order two counts as infinity), rejection of off-curve affine points with x = 0, length and validity checks in point deserialisation, X25519 MulInplace against Mul for unreduced scalars, X25519 Mul by 1 as identity.", "quantifier": "every field, every projective representation of every point, every integer scalar, every buffer", "why_tests_cant": "points have a huge number of representations and scalars are unbounded; the failing cases are single points or scalar ranges a random test never meets", "anchors": ["yacl/crypto/ecc/libsodium/ed25519_group.cc: Ed25519Group", "yacl/crypto/ecc/libsodium/sodium_group.cc: SodiumGroup", "yacl/crypto/ecc/libsodium/x25519_group.cc: X25519Group"]}
{"id": "C118", "title": "libsodium Ristretto255 group", "statement": "On the Ristretto255 group, Add, Sub, Double, Negate and their in-place forms compute the group operations on encodings and refuse bytes that encode nothing; Mul, MulInplace, MulBase and MulDoubleBase give the multiple by any integer; IsInfinity is the neutral element; PointEqual is equality of elements; reading a point never reads outside the buffer and accepts exactly the buffers that begin with an encoding; a point written into a long enough buffer reads back and the bytes after it are kept, a short buffer is refused; the named hash strategies use the given domain tag, or the default one. Refuted: Mul of bytes that encode nothing is refused (the answer is infinity); different domain tags separate under the default hash strategy (tag and text are joined without a mark).", "quantifier": "every encoding, every integer scalar, every buffer, every hash function", "why_tests_cant": "scalars and encodings are unbounded or astronomically many; malformed bytes reach Mul only through unchecked copies", "anchors": ["yacl/crypto/ecc/libsodium/ristretto255_group.cc: Ristretto255Group"]}
{"id": "C119", "title": "OpenSSL groups: writing, reading and hashing to points", "statement": "A point written to a Buffer reads back as itself in every format, and different points are written differently; written into memory of GetSerializeLength bytes every point fits, infinity included, and reads back; memory that is too small is refused; whatever is read is a point of the curve; nothing is read outside a nonempty buffer. Hashing to the curve with the try-and-rehash strategies returns the first candidate in the hash chain that is an x-coordinate, hence a point of the curve, and throws exactly if the strategy is refused or none of the candidates is one. Refuted: a point written into larger memory reads back from it; an empty buffer is refused (it is read out of bounds); a point has one encoding (bytes after a zero byte are ignored); domain tags separate (the tag is ignored by these strategies); curves over 256 bits use SHAKE256 (SHAKE128 is run).", "quantifier": "every curve, every point, format, buffer, text and hash function", "why_tests_cant": "encodings and hash chains range over unbounded inputs; the failing cases depend on the size of the caller's memory or on one leading byte", "anchors": ["yacl/crypto/ecc/openssl/openssl_group.cc: OpensslGroup::SerializePoint", "yacl/crypto/ecc/openssl/openssl_group.cc: OpensslGroup::DeserializePoint", "yacl/crypto/ecc/openssl/openssl_group.cc: OpensslGroup::HashToCurve"]}
