# Formal model of secretflow/yacl in Rocq (Coq 8.16.1)

## Layout

* `properties.jsonl` – the semantic properties (C01, C02, …).
* `rocq/theories/*.v` – for each area `X`:
  * `XModel.v` – the model: total, computable Gallina functions, each citing the
    file and lines of /repo it models and saying where it simplifies.
  * `XProof.v` – lemmas and proofs.
  * `XProps.v` – the property theorems only, each closed by `exact`, followed by
    `Print Assumptions`, with `Example`s showing that the hypotheses are met by
    concrete non-trivial cases.
* `MANIFEST.json` – property → theorem names and status.
* `seeded/LOG.jsonl` – mutation attempts against the model.

## Conventions

* Machine integers are `Z`/`N` with explicit `mod 2^w` wherever wrap-around can
  be observed.  Out-of-bounds accesses and other undefined behaviour are a
  distinct outcome (`UB`, or `None` where the comment says so), exceptions
  (`YACL_THROW`/`YACL_ENFORCE`) another.
* Cryptographic primitives (AES PRG, hashes, random oracles, group operations)
  are universally quantified function arguments: theorems hold for every
  function of that type.  Randomness is an explicit argument.
* Concurrency is a transition relation; theorems quantify over every run.
* A property that is false of the faithful model is proved false:
  `…_refuted`, with a concrete witness, plus the strongest true variant.

## Plan per property

| id | model | proof |
|----|-------|-------|
| C01 | SegmentTree as sorted association list of segments, function by function | invariant (sorted, separated) + abstraction to a set, induction over insertions |
| C02 | key build/split over byte lists, decimal printing/parsing of 64-bit ids | round trip lemma, injectivity |
| C03, C16 | chunk table of the receiver, byte buffers with explicit UB | invariant over arrival sequences; refutation of C16 with witness headers |
| C04, C05, C06 | channel end points as a transition system (send, deliver, duplicate, recv, ack, fin) | inductive invariant over all traces |
| C07, C08 | id/key generation as string functions | injectivity proofs; witness for the Spawn collision |
| C09 | 64-bit wrap arithmetic | modular arithmetic |
| C10–C13 | programs of sends/receives per rank on keyed channels, interleaving semantics | invariants + progress measure, for every n |
| C14, C15 | in-memory database map; option conversion | refinement / refutation with witness |
| C17, C18 | task split arithmetic on int64 | list induction; overflow edge refuted |
| C19 | worker/submitter transition system | invariant on history of started tasks |
| C20, C21 | bins/stash arrays, eviction loop with explicit random choices | loop invariant; witness for the lost element |
| C22 | bit-level model of both transposes | symbolic bit-index permutation argument |
| C23, C24, C43, C44 | slice counters, views and OT stores | invariant; witness |
| C25, C26, C46 | OT extension protocols as two functions connected by messages | algebra over xor and GF(2^128); counting of the seeds a cheating receiver survives |
| C27, C28, C39 | puncturable trees and the protocols on top | tree induction, xor sums over the leaves |
| C29–C31 | carry-less product and folding on bit vectors | polynomial arithmetic over GF(2); irreducibility certificate |
| C32–C34 | key generation / evaluation loops | path induction |
| C35, C36, C50 | Horner, Lagrange over Z/p | polynomial identity (roots bound), bijection of polynomials for secrecy |
| C37, C38, C51–C55 | prover and verifier state machines | induction on variables; counting argument for soundness |
| C40, C56, C57, C59 | sparse codes as loops on lists with explicit out-of-bounds outcomes | loop invariants to a closed matrix form; linearity; back substitution for Silver |
| C41, C58 | table set-up and retrieval, keyword search | refutation (100-iteration cap) + conditional correctness |
| C42 | buffer as (bytes, size, capacity) | invariant |
| C45 | batched hash entry points | closed form per element; witnesses where batching changes the value |
| C60–C63 | circuits as gate lists, executor on bit vectors with out-of-bounds outcomes, reader on texts | every run determined by the gates; round trip print/read; certificates over the gates (truth tables of cones, linear combinations, rows of the division) checked by a verified checker |
| C64–C67 | digits of 60 bits with the byte cache of the loops; tables as lists; libtommath's own arithmetic by its documentation | loop invariants to `x / 2^(8p) mod 256`; exponent bookkeeping; Pocklington's criterion and a sieve bound for safe primes |
| C68 | capsules, fragments and the SM4 MTE container over an abstract prime order group | Lagrange in the exponent; capsule relation exact; witnesses for the zero hash and the empty message |
| C69 | rows as four words, batches, histories of receiver calls | transposes (C22) to a row read off the streams; invariant over histories |
| C70, C71 | inner product argument, transcript and range proof over an abstract prime order group with explicit random tapes | discrete logarithms of all points as ghost values; the verifier's multi-scalar product in closed form; witnesses for zero vectors, long labels and the unchecked t_x |
| C72 | client programs as trees of API calls run on prover and verifier; polynomials of degree six | lock-step simulation of both runs; the verifier's check in closed form; Pocklington prime for the truncation witness |
| C73, C74 | the two parties' objects after the set-up, calls as functions of messages; buffers updated in place as functions of the index | invariant linking the two objects (all leaves but one); XorReduce to sums over bit patterns; transposes (C22); patched hash for hiding; explicit attacker for compact mode |
| C75, C76 | both parties run against each other, batch by batch; stores share their buffer and nested slices are absolute | invariant over the batches (paired COTs, chain of seeds); the malicious check as a polynomial in the seed, root bound over GF(2^128); witnesses for seed 0, missing punctures, wrapping batch counts and the cheetah slices |
| C77, C78 | group of prime order with its exponent isomorphism, hashes as arguments, byte-level transcripts; the client object as a state machine | invariant over histories (cached inverse fits the blind); injective framing; two-transcript special soundness and a linear relation for batches; witnesses for the stale inverse, the retry of DeriveKeyPair and the identity key |
| C79 | a bitset as its block vector and size, every function on blocks as written, for any block width | refinement: a history (a term with one node per operation) evaluates to a bitset all of whose observers agree with the same history over lists of bits; witnesses for release-mode misuse |
| C80 | each helper applied to the bytes of the next generator call, written as a number | the exact value as a function of that number; exact preimage counts for RandLtN; witnesses for the 64-bit RandSeed and the biased RandInRange |
| C81 | the generator state and the shuffle as the loop of swaps over the indices FillPRand gives | induction over the calls; index vectors and orders in bijection by induction over the swaps; disjoint cipher inputs over a sequence of shuffles |
| C82 | the reader over a stream with eofbit and failbit, with its cache of positions, and the packed column files | invariant "stands at row c" with every cached position the start of its row; induction over histories against an abstract reader; decoding inverts packing; every text is a document |
| C83 | the writer cell by cell | output equals the document of the table; composition with C82 |
| C84, C87 | whole stores with their accessors; both parties of the kernel, set-up and request by request; all randomness explicit | invariant over the requests (kernel ready: COT state or cached base COTs under one delta) on top of C73 and C75; loop invariants for the conversions; witnesses for small Ferret requests, the 32-bit loop, stores with a delta, repeated choices and delta 0 |
| C85, C86 | spans cut into pieces; a task is one step, a schedule is the order of the tasks | induction over the schedule: the result is the pieces' results one after the other for every permutation; instantiated with C59; witnesses for lost exceptions, the sender's window in streaming and the malicious flag |
| C88, C90 | affine points as pairs of integers, scalars as MPInt digits | the chord-and-tangent law over an abstract field with all case distinctions, associativity by the polynomial identities for chords and tangents; Z/p as a field; the code's formulas are that law; SlowCustomPow by C65's square-and-multiply lemma; witnesses for unreduced points, points off the curve and points of order two |
| C89 | the ladder step by step on integers with the conditional swaps as written | invariant: the projective pairs stand for the abscissas of kP and (k+1)P; doubling and differential addition of the group law in every case; abscissa 0 separately; a point on some twist exists for every abscissa |
| C47–C49 | counter-mode streams, buffered generator, samplers | invariant on the position in the stream; witnesses for reuse |
| C91–C94 | bytes and field elements as integers, every assignment of the C++ functions kept | RFC 9380's expand_message_xmd, hash_to_field and simplified SWU map written as equations; induction over the blocks; Euler's criterion and p = 3 mod 4 for the square roots; AffinePointAddNIST refines the group law of C88 |
| C95, C96 | as above; coordinates as byte strings between the steps, as in the code | the quartic character of the value decides the branches; 2 is no square modulo p = 5 mod 8; PointAdd and PointDbl refine the group law of C88, three doublings are the multiple by eight (associativity); witness for u = 0 |
| C97 | limbs of 64 bits, every store of the reduction loop kept; mpz_* functions by their documentation | invariant of the reduction loop (value plus a multiple of the modulus, low limbs zero); products and powers through the space are products and powers modulo m; witnesses for operands outside [0, m R) |
| C98, C99 | numbers as integers, bytes as lists; one definition per library and operation | agreement of the three definitions on the largest domain where it holds, a witness for every difference; carry loops by induction over the bytes, bitwise operators by bits |
| C100, C101 | abstract group with encodings, key hash and scalars as arguments; batch size (1 or 4) as a parameter; the bytes of both messages explicit | the batches cover 0..n-1 in order, so message and blocks are maps over all OTs; choice hiding by an explicit bijection of the scalars; witness for the unnoticed count mismatch |
| C102 | both stores as sorted association lists with their own insertion; a history is a list of Put calls | refinement: what Get returns is the first (memory) or last (LevelDB) value of the history; Count is the number of different keys; decimal keys are injective |
| C103 | state of the generator with the key the cipher context holds; entropy of every call as an argument; memory errors and the state left behind by an exception explicit | invariant over the history of Fill calls: state n is the n-th state of a seedless iteration; consequences: which calls succeed, and that entropy does not matter |
| C104 | generator objects as context and flag; the state left behind by a failed call explicit; a history is a list of Fill calls with prior buffer contents and entropy | Fill equals the concatenation of the library's outputs by induction over batches; equal outputs of copies by induction over histories within the reseed interval; invariant over reachable objects |
| C105 | values of a universe of C++ types, msgpack objects, the write calls a packer makes, three streams | round trip by induction over objects; rejection of prefixes from stability of the unpacker under more input and more fuel; sizes by induction over the write calls |
| C106 | memory of arrays, items (scalar, vector, view), element loops in a scheduler's order; the field as Z mod p | in-place loops by induction over any permutation of the indices with an undisturbed second operand; field laws over Z |
| C107 | growing, counting and fixed buffers, an abstract element codec | three writers equal to one encoding; instance for MPInt from the MPInt serialisation theorem; reading back from C105 |
| C108 | block ciphers as arguments with an inverse law, contexts with chaining block and stream position | invariant that the encrypting and decrypting contexts are in step; chunking by a splitting law of one update |
| C109 | GCM as a length-preserving involution and a 16-byte tag, int conversion of sizes, caller buffers with old contents; mac-then-encrypt on the Sym model | decryption characterised as the inverse of encryption; failures keep the buffer in the result |
| C110 | public key ciphers as arguments with a pair law | composition of C109 with the pair law |
| C111 | a history of registrations folded into the two maps; checkers and creators as arguments | sorted-map and stable-insertion invariants over histories; selection against the first best of the accepted registrations |
| C112 | registers as sixteen bytes, instructions after Intel's description | round keys against the FIPS-197 recurrence; xor algebra by bits, linearity of multiplication by x; loops by position |
| C113 | rows pairing the members of a bin with its cuckoo entry | closed form of the simple table; induction over the rows on top of the single point COT; the cuckoo permutation turns the sum over bins into a sum over inputs |
| C114 | declarations as a fold over a compile time state; the globals as explicit state | linearity and injectivity of the shift register step; table by enumeration of the 256 bytes; invariant over declarations; minimum by its lower bounds |
| C115 | the map as an association list; the seven libraries as records over the SPI registry of C111 | build reduced to one insertion fold, invariant on lookups; the shipped table by computation; selection from the registry theorems |
| C116 | library contexts as explicit state; a history as a list of operations | one invariant (state = bytes since the last reset) carried by a generic induction over histories |
| C117 | coordinates as limb arrays with a valuation into an abstract field; points as representatives of elements of an abstract abelian group | field identities for negation, equality, conversion; multiples through EcMul; the clamped scalars by computation |
| C118 | points as 32 bytes; an encoding of an abstract group whose order kills every element; the library as a record of functions with its documented contract | cases on the library's status; multiples through EcMul |
| C119 | points as affine coordinates; the X9.62 encoder and decoder of the library written out; hash functions and square roots as arguments | round trip of fixed-width integers, cases on the tag byte; induction on the number of attempts |

## Trusted base

* Coq 8.16.1's kernel, including its `vm_compute` conversion (used only for closed
  witnesses and `Example`s, and for finite certificates: GfProps, TransProof, and the circuit certificates of BuiltinProps,
  DivProps, SdivProps and BuiltinFiles);
  `coqchk` re-checks everything without the VM.
* The statements in the `*Props.v` files, with the small specifications at the top of
  each, and the faithfulness of the `*Model.v` files to the cited C++ code.
* `Print Assumptions` is run after the property theorems of every `*Props.v` file and
  prints "Closed under the global context" for each: no theorem in MANIFEST.json uses
  an axiom, of the standard library or otherwise.
* Library axioms that are *loaded* but not used: `coqchk` lists
  `Coq.ssr.ssrunder.Under_rel` and its six companions (`Over_rel`, `Under_rel_from_rel`,
  `over_rel`, `over_rel_done`, `Under_relE`, `under_rel_done`), the module-type
  parameters of the standard library's `ssrunder.v`, because the standard `ssreflect`
  plugin files are loaded by some imports.
* No axioms, admitted proofs, functors, module types or plugins of our own.

## What is modelled

| area (theory) | files of /repo/yacl | simplifications |
|---|---|---|
| SegTree | utils/segment_tree.h | std::map as sorted list |
| Chunk, Chan, ChanKey | link/transport/channel.{h,cc} | brpc and the wire are a nondeterministic network (drop, duplicate, reorder, retry); time-outs are nondeterministic |
| MemChan | link/transport/channel_mem.{h,cc}, link/retry_options.h | one condition variable per channel as a transition system |
| LinkId, Coll | link/context.{h,cc}, link/algorithm/{allgather,broadcast,gather,scatter,barrier}.cc | single-buffer variants; the vector variants (msgpack of arrays) are not modelled |
| Parallel, Pool | utils/parallel.{h,cc}, utils/thread_pool.{h,cc} | mutex sections are atomic steps |
| Cuckoo | utils/cuckoo_index.{h,cc} | hash functions and random bins are arguments |
| Trans | utils/matrix_utils.{h,cc}, base/block.h (the operations used) | SSE2/AVX intrinsics by their documented lane semantics |
| Buffer | base/buffer.h | allocator: new bytes are arbitrary |
| OtStore | kernel/type/{slice_base,ot_store}.{h,cc} | bit sets as boolean lists |
| OtExt, Kos | kernel/algorithms/{iknp,kos}_ote.cc | both parties run together; base OTs given; PRG, hashes arguments |
| Spcot | kernel/algorithms/{sgrr,gywz}_ote.cc | as above |
| Mpfss | kernel/algorithms/{mpfss.h,mpfss.cc,mp_vole.h,base_vole.h} | as above |
| SilentVole | kernel/algorithms/silent_vole.{h,cc} | the correlated OTs are given; the floating-point noise count is an argument |
| LinCode, Silver | kernel/code/{linear_code.h,ea_code.h,silver_code.cc} | AES permutation and the drawn offsets are arguments |
| Gf, Hash, Prg | math/gadget.h, utils/…/gf_intrinsic.h, crypto/tools/{crhash,rp,prg}.*, crypto/block_cipher/symmetric_crypto.cc | the block cipher is an arbitrary function (a permutation where stated) |
| Fss | crypto/experimental/dpf/{dpf,dcf,pprf,ge2n}.* | PRG argument |
| Vss | crypto/experimental/vss/{vss,poly}.cc, the MPInt operations used | the group is an abstract cyclic group |
| Sumcheck, Logup | crypto/experimental/zkp/sumcheck/*.cc | challenges arguments; field Z/p |
| Circuit, Builtin, Div, Sdiv | utils/circuit_executor.{h,cc}, io/circuit/bristol_fashion.h | bits the executor may touch behind the last wire inside one byte are not modelled |
| Bristol | io/circuit/bristol_fashion.{h,cc}, io/stream/file_io.cc (GetLine) | allocation and I/O succeed; absl::StrSplit and SimpleAtoi by their documentation |
| CircuitData*, BristolData* | io/circuit/data/{adder64,sub64,neg64,zero_equal,mult64,udivide64,divide64}.txt | generated by a script: BristolData* are the lines of the files, CircuitData* the gates (proved to be what the reader returns for those lines) and the certificates |
| Mpx | math/mpint/{tommath_ext_features,tommath_ext_types}.cc, the MPInt members that call them | mp_int is sign and used digits; unused digits are zero (libtommath's invariant); allocation succeeds |
| ExpTable | math/bigint/mont_space.cc (MakeBaseTable, PowMod), the word lists of both back ends, SlowCustomPow in mpint/mp_int.h | Montgomery multiplication, MapIntoMSpace and MapBackToZSpace are exact arithmetic modulo m |
| GmpMont | math/bigint/gmp/gmp_int.cc (MontgomerySetup, MontgomeryCalcNormalization, MontgomeryReduce), gmp/mont_space.cc (Identity, MulMod, MapIntoMSpace, MapBackToZSpace) | mpz_* by GMP's documentation; MontgomeryReduceComba is compiled out in /repo and not modelled |
| Big | math/bigint/{bigint.cc, openssl/bignum.cc, gmp/gmp_int.cc}, mpint/mp_int.cc: arithmetic, shifts, bits, byte formats | OpenSSL, GMP and libtommath functions by their documentation; ToString, ToHexString, SetFloatingPoint, IsPrime and the random generators are not modelled |
| MpDiv | the division, remainder, right shift and int64 comparison operators of mpint/mp_int.cc | at the level of integer values; mp_div, mp_mod, mp_div_d by libtommath's documentation |
| SafePrime | mpx_safe_prime_rand and its helpers, RandPrimeOver(FastSafe) | random bytes and mp_prime_is_prime are arguments; mp_exptmod is exact |
| Tpre | crypto/experimental/tpre/{keys,capsule,tpre,kdf}.cc, crypto/aead/sm4_mte.cc | group, hashes, SM4 and HMAC are arguments; EC_POINT serialisation is injective |
| Kkrt | kernel/algorithms/kkrt_ote.{h,cc} | Prg stream, AES, PrgAesCtr and Blake3 are arguments; sizes far below 2^64 |
| BaseOt | kernel/algorithms/{base_ot,portable_ot_interface,x86_asm_ot_interface}.cc, crypto/tools/ro.h | the simplest-OT libraries by the published protocol over an arbitrary group (no cofactor clearing); hashes are arguments; fewer than 2^31 OTs |
| Bp | crypto/experimental/zkp/bulletproofs: ipa, range_proof, generators.cc, util.cc, simple_transcript.cc | SHA-256, SHAKE-256, hash to curve and the point encoding are arguments; all points are multiples of the base |
| R1cs | crypto/experimental/zkp/bulletproofs/r1cs: linear combinations, prover, verifier, proof bytes | as Bp; the client of the constraint system is a program tree of API calls whose continuations take the returned variables and challenges; the prover's random scalars are a tape; a Result error is [Thrown]; GetMetrics is left out |
| Soft | kernel/algorithms/softspoken_ote.cc: both set-ups, GenSfVole, Send, Recv, XorReduce (template and loop), the malicious check | the set-up buffer is the list of its parts, one per tree; 1 <= k <= 31 (larger k shifts an int too far, k = 0 divides by zero); the store variants are the COT case; Unpack of the check message reads 129 words whatever its size, the message is taken to have them; Recv into a store does not look at the compact flag of the object |
| Ferret | kernel/algorithms/ferret_ote.{h,cc}, ferret_ote_rn.h, the GYWZ bins of gywz_ote.cc used by it, slices of ot_store.cc | the two parties are run in lock step; regular noise only (uniform noise throws); the hash of the trees, the digest and the matrix stream are arguments; the versions returning a store are the same on a new buffer; a copy past a span is [OutOfBounds] |
| Oprf | crypto/oprf/{oprf_ctx.h,oprf_ctx.cc,oprf.h,voprf.h} | the curve, HashToCurve, HashToScalar and the digest are arguments; random scalars are arguments; scalars taken as integers; null contexts and output pointers (which throw) are left out |
| Bitset | base/dynamic_bitset.h | asserts off (release build); intrinsics for popcount and trailing zeros replaced by the portable loops; capacity, allocators, references, iterators with early stop and swap left out; sizes below 2^64 |
| Rand | crypto/rand/rand.{h,cc} | the DRBG is an argument (bytes of one call); fast and secure modes not distinguished; YaclStdUrbg and RandLtN on signed types left out; FillPRand from Prg |
| Csv | io/rw/{csv_reader,csv_writer}.{h,cc}, schema.h, mmapped_file.cc, io/stream/{mem_io,file_io}.cc (GetLine, Seekg, Tellg, Spawn) | files are lists of characters without I/O errors; float parsing, printing and memory layout are arguments; std::sort as a stable sort; GetLength, Tellg of the reader, Pop, Flush and Close left out |
| Kv | io/kv/{kvstore.h,memory_kvstore.cc,leveldb_kvstore.cc} | leveldb by its documentation, without I/O errors; opening, temporary files and persistence left out |
| GmDrbg | crypto/rand/drbg/native_factory.{h,cc}, the buffer sizes of crypto/rand/entropy_source/{urandom,rdseed}_factory.cc | SM4 and Blake3 are arguments; EVP_CipherUpdate without a length pointer fails and writes nothing (OpenSSL 3; checked against libcrypto 3.0.13) |
| SyncDrbg | crypto/experimental/sync_drbg/sync_drbg.{h,cc} | the Hash_DRBG library is an argument; the mutex and concurrent Fill calls are not modelled; the batch counter of Fill does not wrap (buffers below 2^48 bytes) |
| Msg | utils/serializer.h, utils/serializer_adapter.h, io/msgpack/{buffer.h,spec_traits.cc}, the halves of 128 bit integers in base/int128.{h,cc} | msgpack-c's packer, unpacker and standard converters are transcribed from the specification; maps, floats, extension types and the limits of the unpacker are left out |
| GfItem | utils/spi/item.h (scalars, vectors, views, SubItem), utils/spi/sketch/scalar_{call,define,tools}.h, math/galois_field/factory/{mpint_factory.cc,gf_scalar.h} | element steps of parallel_for are atomic; lifetimes of viewed arrays, ResizeAndSpan, printing and random elements are left out; mp_invmod and mp_exptmod are taken as the mathematical inverse and power |
| Sym | crypto/block_cipher/symmetric_crypto.{h,cc} | the EVP calls (modes, chaining, counter) are modelled after OpenSSL 3; allocation failures and the EVP_Final calls, which write nothing here, are left out |
| Aead | crypto/aead/{all_gcm,sm4_mte,aead}.cc, crypto/envelope/digital_envelope.cc | GCM, SM3, HMAC-SM3 and the public key ciphers are arguments; an int length below zero is an out-of-bounds access; allocation failures left out |
| Spi | utils/spi/spi_factory.h, utils/spi/argument/{util,arg_kv,arg_set}.cc, arg_k.h, argument.h | strings are byte lists; checkers are total functions; printing left out |
| Aes | crypto/aes/aes_intrinsics.h, crypto/aes/aes_opt.h | the SSE and AES instructions are definitions after Intel's description; input and output buffers are equal or disjoint |
| MpCotUn | kernel/algorithms/ferret_ote_un.h | the random permutation is a function argument; both parties of a bin run in lockstep; unordered_map as a list of pairs; NumBins a parameter |
| SecParam | secparam.h, secparam.cc, utils/compile_time_utils.h | one translation unit; a program that does not compile is None; printing, LpnParam, GenRegNoiseWeight not modelled |
| CurveMeta | crypto/ecc/curve_meta.{h,cc}, ecc_spi.cc, the factories under ecc/ | a group is reduced to library, class and metadata; EC_GROUP_new_by_curve_name and the GPU are arguments; curve constants and mcl initCurve not modelled |
| HashObj | crypto/hash/{ssl_hash,ssl_hash_xof,blake3,hash_utils}, hash_interface.h, hmac/hmac | digest, output stream and MAC functions are arguments; a context is algorithm, absorbed bytes, finalised flag; allocation failure not modelled |
| Sodium | crypto/ecc/libsodium/{sodium_group,ed25519_group,x25519_group}.cc | libsodium's field, point and ladder functions are arguments with their meaning as hypotheses; conversion of integers to limbs and SerializePoint are not modelled |
| Ristretto | crypto/ecc/libsodium/ristretto255_group.cc | the library is a record of functions with its contract as hypotheses; GetAffinePoint and HashPoint not modelled; the RFC 9380 functions behind the named strategies are arguments |
| OsslGroup | crypto/ecc/openssl/openssl_group.cc: serialisation, HashToCurve (try and rehash) | OpenSSL's point2oct and oct2point are transcribed from its documented format; the group operations (single library calls), HashToScalar, HashPoint and the SSWU strategies are not modelled |
| Kernel | kernel/{ot_kernel,svole_kernel}.{h,cc}, kernel/type/{ot_store,ot_store_utils}.{h,cc} (accessors, makers, mocks), the OT extension parameters of silent_vole.h | both parties run together; base OTs are given; a thread's task is one atomic step (tasks have disjoint spans and their own links); what a throwing task wrote before is not modelled; the slices of the stores are modelled in Ferret |
| EcGroup, EcField, EcMul, EcLadder | no code: the elliptic-curve group law over a field, Z/p as a field, integer multiples in an abelian group, x-only formulas | |
| ToyEc, ToyX | crypto/ecc/toy/{weierstrass,montgomery,factory}.cc, crypto/ecc/group_sketch.cc | MPInt arithmetic is exact; serialisation, HashPoint and HashToCurve left out; the ladder model was compared with the RFC 7748 vector for k = u = 9 |
| HashCurve | crypto/ecc/hash_to_curve/{hash_to_curve_util,p256,p384,p521,curve25519}.cc | the hash is an argument with its digest size; MPInt arithmetic is exact, InvertMod is right on negative values too; the Ristretto functions (libsodium) and the EC_POINT conversions left out; the model was compared with all RFC 9380 vectors of the repository's tests |
| TSet, Sse | crypto/experimental/sse/{tset,sse}.cc | hashes, PRFs and group arguments |

Not modelled: brpc/black-box transports, TLS, the FourQ, lib25519 and mcl elliptic-curve back
ends and pairings, the arithmetic inside libsodium and OpenSSL (their wrappers are modelled as
far as the rows above say), big-number back ends, PKE and signature wrappers around OpenSSL,
entropy sources, I/O back ends (leveldb), and whatever is not listed above.  No statement
is made about secrecy except C50 (perfect secrecy of Shamir shares) and the soundness
bounds C38, C46, C52–C54; computational security is out of scope.
