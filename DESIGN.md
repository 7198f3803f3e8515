# Formal model of CEX in Rocq (Coq 8.16.1)

Status of this file: written before the proofs, revised as the model grows.

## Method

* `/repo/CEX` is read as text. It is not built and not run. Each definition in a
  `Model_*.v` file cites the file and lines it models and names every simplification.
* A *model* file holds only executable Gallina. A *spec* file holds a short,
  independent description of what the English property says. A *proofs* file
  relates them. A *properties* file holds only the theorems, each closed by `exact`,
  followed by `Print Assumptions`, beside an `Example` showing that its hypotheses
  are met by a concrete, non-trivial case.
* Bytes and machine words are `Z` with explicit range predicates; wrap-around is
  written out as `mod 2^n`. Arrays are `list Z`; lengths and indices are `nat`;
  `size_t` subtraction that may wrap is written as such.
* Results have type `res A` = `Ok a | Throw e | UB`. Out-of-range reads or writes,
  over-wide shifts, division by zero and loops that do not terminate are `UB`
  (undefined or non-returning behaviour), never a normal-looking value.
* Primitives that a construction is generic in (block cipher, compression function,
  permutation, MAC, hash, provider) are explicit parameters of the model functions.
  Theorems quantify over them and state the assumption needed (for example "D inverts
  E"). No axiom is used for them.
* A property that the code violates is recorded as a `*_refuted` theorem with a
  witness, next to a theorem that states what does hold.

## Configuration modelled

Little-endian target (`CEX_IS_LITTLE_ENDIAN`), `CEXASSERT` is a no-op (release build),
non-compact ("U", unrolled) forms where the two differ, with the compact form modelled
too where it is the more readable one. SIMD code paths: memory tools are modelled with
the SIMD block width as a parameter (0 = no SIMD); vectorised cipher and hash kernels
(`*H`, `*x512`, AES-NI) are not modelled.

Threads: `ParallelTools::ParallelFor` is modelled as executing its body for every index;
the bodies write disjoint ranges, and the model states results for any order of the
indices where the order could matter.

## Properties

For each property of `properties.jsonl`: what is modelled, how it is proved.
(The table is kept in step with MANIFEST.json.)

| id | modelled | proof |
|---|---|---|
| C01 | `IntegerTools` byte conversions | arithmetic on positional values |
| C02 | increment loops over arrays | induction on the counter list |
| C03 | increase loops with the code's carry rule | witness (refuted) + induction under "no lost carry" |
| C04 | `Compare`, `Verify` | induction, `lor`=0 iff both 0 |
| C05 | rotations | bitwise extensionality |
| C06, C07 | `MemoryTools` range operations, SIMD width as a parameter | induction over blocks and tail |
| C08-C11 | the four padding classes, both overloads | loop invariants over the masks |
| C12-C15 | ECB, CBC, CFB, OFB over an abstract block cipher | induction over blocks and calls |
| C16-C20 | CTR, ICM | keystream = map over counter sequence; parallel = concatenation of segments |
| C21, C22 | CMUL, GHASH | GF(2)[x] polynomials as bit lists / integers; loop invariant |
| C23-C25 | GCM state machine | on top of CTR and GHASH |
| C49 | GCM against SP 800-38D | counter arithmetic; witness for the 128-bit counter (refuted) |
| C47, C48 | `IntegerTools` selection and utility helpers | bitwise arithmetic, exhaustive computation on bytes |
| C26, C27 | CMAC object over any block cipher, HMAC object over any digest object (instances SHA2256, SHA2512), stateless MACR64P512/MACR80P1024 | refinement of every call history (Initialize, Update, both Finalize forms, Compute, Reset) to an abstract state none / key and message / used up |
| C28 | Poly1305 object over both 128-bit integer types | limb invariant: value of the limbs mod 2^130-5 = RFC 8439 accumulator; every call history refined to (key, accumulator, pending message) |
| C29 | KMAC object (three modes), stateless MACP1600 | every call history refined to (start state, message); equality with SP 800-185 when the encoded length fits, collisions otherwise |
| C30, C31 | SHA2256, SHA2512 objects (sequential), stateless Compute256/384/512 | invariant "state = fold over full blocks, buffer = rest", carried over any call history |
| C32 | unrolled and compact SHA-2 block functions | the unrolled text is translated by `tools/gen_sha2.py` into a straight-line program, shown equal to a template instantiated per round, then induction over rounds |
| C33, C50 | SHA-2 tree mode, header blocks as parameters | the same invariant over all leaves at once; root input computed exactly |
| C51 | Donna128 | arithmetic of halves, shown equal to integer arithmetic; witnesses for the shifts |
| C34 | SHA3256, SHA3512 objects, stateless Compute | buffering invariant over any call history |
| C35 | Keccak-p[1600]: unrolled 24 and 48 rounds (translated by `tools/gen_keccak.py`), compact form | template equality and induction over rounds; explicit inverse of each step |
| C36 | Blake256, Blake512: block functions (translated by `tools/gen_blake.py`) unrolled and compact, BlakeParams, sequential objects with Initialize, tree mode | template equality and induction over rounds against RFC 7693; every call history refined to (key length, data); GetConfig against the parameter block (`Spec_BlakeConf.v`) for all field values; tree mode: dependence of Update on the message, by computing it in closed form for long messages |
| C37, C38 | HKDF, KDF2 and PBKDF2 objects over the HMAC and SHA-2 objects | every call history refined to (key material, blocks taken); closed forms for one request; witnesses for the limits, stale parameters and offsets |
| C39 | SHAKE object (four modes), XOFP1600, CXOFP1600 | every call history refined to (inputs, blocks used up) |
| C40 | RHX without AVX and its HKDF and cSHAKE extensions: constant-time S-box and row shifts (translated by `tools/gen_rijndael.py`), key schedules, object; not the table-driven and AVX forms | equality of each step with FIPS 197; inverse of each step; every call history refined to (direction, key, info) |
| C41 | SHX without AVX; S-boxes and linear transformations translated from Serpent.h by tools/gen_serpent.py | bitsliced S-boxes equal to the published tables bit position by bit position (all 16 nibbles, lifted to words); invariants of the block and key loops; round-wise inverses; object histories as for C40 |
| C42, C46 | ChaCha (unrolled, translated by `tools/gen_chacha.py`, and compact), CSX-512, ChaChaP20 and CSX512 objects with KMAC | template equality and induction over rounds; every call history refined to (layout, block number, MAC input); conversations by induction over message lists; stored objects |
| C57 | RCS and RWS objects (Rijndael with 256 and 512 bit blocks in counter mode, cSHAKE key schedule, KMAC), sequential and parallel loops with worker orders, Serialize; not AES-NI | reuses the C40 round lemmas, the C39 and C29 call-history invariants; every call history refined to (round keys, counter, MAC input); conversations by induction; stored objects by an invariant of what calls keep |
| C56 | BlakeParams: constructors, ToBytes, Clone, GetHashCode, Equals, Reset | round-trip law; behaviour on every byte string; int overflow and out-of-range writes as UB |
| C58-C62 | KyberBase (all of it except the AVX2 forms) and Kyber's Generate, Encapsulate, Decapsulate; the random provider is the argument `d z m`, the matrix sampling has a fuel `F` (running out is UB, a call that does not return); the probability of a decryption failure is not modelled, its exact condition is | butterflies as linear maps with bounds on every layer; products through the evaluation points; exchange composed from bytes to polynomials; rejection sampling as a prefix of the stream; finite checks over all 3329 residues; witnesses for the refutations |
| C63 | GMAC object over an abstract block cipher; portable multiplication | the GHASH invariant of C22 carried over any call history |
| C64 | ParallelOptions and the profile checks of the modes, 64-bit sizes | invariant over any call sequence; discharges the profile hypothesis of C12 to C20 |
| C65 | DigestStream and MacStream over any digest or MAC object and MemoryStream or arrays | the pieces fed join to the rest of the stream; then the history theorems of the digests and MACs |
| C66 | the unrolled permutations of Threefish.h and Skein.h, translated by `tools/gen_threefish.py`; not the compact and AVX forms | four-round groups checked symbolically against the specification's rounds, induction over groups; injectivity of each round |
| C67 | `Model_TSX.v`: Initialize, Generate, Process, Transform, SetAssociatedData, Tag of TSX256, TSX512 and TSX1024 over the permutations of C66, one parameter record for the three classes; KMAC and cSHAKE objects of C29 and C39 for the authenticated form. Spec: `Spec_TSX.v`, the key stream of a key, tweak and counter and the expected result of each call. | Refinement: an abstraction relation between object and specification state is kept by every call, hence by every history; the parallel loop by the window lemmas used for ChaCha; conversations by induction over letters. |
| C68 | The same, with the authenticator's message as part of the specification state. | The same; the room and the Tag() theorems by running the seal and open cases of the relation. |
| C69 | `Model_Skein.v`: the three digests, written once over the number of words and the permutation of C66, with the tweak flags of SkeinUbiTweak.h. Spec: `Spec_Skein.v`, UBI chaining with the published tweak layout, checked against the published hash of FF. | Invariant: the tweak words of the object are the tweak of (first, final, position), the state is the UBI chain of the blocks so far; histories through the digest history theorem. |
| C70 | The same model with several leaf states; the number of workers `d` and the parallel block are parameters, tied to ParallelOptions by `C70_profile`. Spec: `skein_tree`, the leaves take the blocks in turn. | Invariant per leaf, as for parallel SHA-2; the findings by running the two-piece Update from a fresh object for every pair of messages, and a witness for the root. |
| C71 | SkeinParams: constructors, ToBytes, GetConfig, GetHashCode, Equals. | Round trip by running the field writes and reads on lists; the findings for every short array, by witness for Equals. |
| C72 | HBA.cpp over a block cipher given as a function and a record for the authenticator, with the instances KMAC256, KMAC512, HMAC-SHA2-256 and HMAC-SHA2-512 (`Model_HBA`). Spec: `Spec_HBA.hexpected`, a state machine over counter mode, a MAC and its key derivation. | An abstraction relation between object and specification state, kept by every call for any authenticator that implements its specification; the four instances from C26–C29, C37, C39; the ciphers from C40, C41; the round trip by induction over the conversation. |
| C73 | The same model. | From the history theorem: the packet with another tag takes the refusing branch; each finding by following two or three calls of the specification, for every key and message. |
| C74 | `Model_CSG.v`: Expand (shared with HCG), Absorb, Derive, Fill, Generate, Initialize, Update, both constructors' rates; the random provider is a function from call number and size to bytes. | Refinement to `Spec_CSG.v` (loaded state, blocks made, bytes given out) over every call history by a relation; one-stream theorem to cSHAKE; refutations by the general theorem. |
| C75 | `Model_SCBKDF.v`: Initialize, Expand, Extract, Generate, the cost accessors. | Refinement to `Spec_SCBKDF.v` over every call history; the memory cost theorem by induction on CpuCost. |
| C76 | `Model_HCG.v`: Fill, Derive, Expand, Generate, Initialize, Update over the HMAC object of `Model_HMAC.v`, the digests the pointer constructor accepts. | Refinement to `Spec_HCG.v` (HMAC key, code, counter, last block, bytes left) over every call history by a relation, for every digest object; whole blocks by induction; refutations by the general theorem and computation of three blocks. |
| C77 | `Model_BCG.v`: Initialize, Generate, Update, Derive, Process with its workers in any order, Transform (the counter loop and block of `Model_RCS.v`), Reset. A worker is atomic; vector blocks are left out. | Refinement to `Spec_BCG.v` (round keys, customization, nonce, bytes since the last seed, seeds) over every call history by a relation; the workers by the lemma on disjoint windows; whole blocks by induction on the requests; the parallel refutation for every key because Rijndael is injective; the count refutations by induction on the calls. |
| C78 | `Model_Prng.v`: the public Generate forms, Reset and NextUInt of `BCR`, `CSR`, `HCR`; the private Generate is that of `Model_SecureRandom.v`. The generator below is an arbitrary byte sequence; a generator that throws is left out. | Refinement of every call history to `Spec_Random.v` by the invariant of C45; order of the windows and erasure by induction on the calls; the overrun by showing that every path of Generate into a short array is undefined. |
| C79 | `Model_SecureStream.v`: all of `SecureStream.cpp`, with Transform as the modelled CTR engine over an arbitrary block function and an arbitrary 64-byte seed per salt. Capacity and running out of memory are left out. | Transform is xor with a pointwise key stream (from C16); refinement of every call history to `Spec_File.v`, with gaps filled as in `Spec_SecureStream.v`, by a relation that keeps the stored bytes equal to the padded contents. |
| C80 | `Model_AsymmetricSecureKey.v`: all of `AsymmetricSecureKey.cpp`; the stream ciphers, the machine key and the size of the tag are parameters. | Unfolding Encipher and Extract for an arbitrary cipher with the law of `Spec_AsymmetricSecureKey.v`; the stored array is the text and its tag, the temporary has the size of both. The stored array is compared with the cipher, SHAKE mode, key and nonce of `policy_table`. |
| C81 | `Model_KPA.v`: all of `KPA.cpp`, portable little endian branch (the AVX2 and AVX512 branches are not modelled); the squeezed blocks skip the detour through Buffer. | Update is the eager scheme of `Model_Absorb.v` with blocks of eight times the rate; the fold over blocks commutes with the eight leaves (`fold_lstep`), the key schedule and the root reuse the KMAC lemmas; induction over the call list against `pexpected`. The leaf states after Finalize are part of the abstract state, which makes the chaining of messages visible. |
| C82 | `Model_SymKeyGen.v`: all of `SymmetricKeyGenerator.cpp` and `ProviderFromName::GetInstance`, on the SHAKE of `Model_SHAKE.v`; the bytes of the providers are a parameter. | The refinement of SHAKE to cSHAKE (the lemmas of C39), one request after the other; the refuted parts by unfolding. |
| C43, C52, C55 | SymmetricKey, SymmetricKeySize, AsymmetricKey, SymmetricSecureKey (its cipher and machine key are parameters) | round-trip laws; exact behaviour of the parsers on every byte string; witnesses for 2^16-byte sizes and Clone |
| C53, C54 | MemoryStream with 64-bit positions, StreamWriter, StreamReader | refinement of every call history to a byte file; round trip of item lists by induction |
| C44 | CipherStream::Write (array and stream forms) over the models of the modes, paddings and MemoryStream; progress events not modelled | the processing loop as a fold over pieces, mode specifications composed over the pieces, padding round trips; sequences of messages by induction |
| C45 | SecureRandom | refinement of every call history to one byte sequence, counting argument |

## Generated modules

Unrolled C++ bodies are translated statement by statement into Gallina data (a list of
register assignments, `Model_Straight.v` gives the semantics) by the scripts in `tools/`;
the generated `Model_*Gen.v` files are committed and are part of the model. The scripts are
not trusted for anything but having read the text correctly, and the theorems about the
generated programs (equality with the published algorithm) check that as well.

## Not expressible in the model

Timing (constant-time claims), erasure of memory in the presence of an optimizing
compiler, entropy quality of providers, operating-system behaviour of file and socket
streams, data races. These are not claimed.

## Trusted base

* Coq 8.16.1's kernel (and `coqchk`), including its VM for `vm_compute`.
* The reading of `/repo` embodied in the `Model_*.v` files (cited line by line).
* `Print Assumptions` output per theorem: see "Assumptions" below.
* No axioms of our own, no plugins, no functors.

## Assumptions

`Print Assumptions` stands beneath every theorem in the `Properties_*.v` files. For every
theorem it prints "Closed under the global context": no axiom, of ours or of the standard
library, is used.

## Source files outside the model

Every file named in a comment of a `Model_*.v` file is modelled to the extent that comment says. These parts of `/repo/CEX` have no model:

- Random sources: `ACP`, `CJP`, `CSP`, `ECP`, `RDP`, `ProviderSelfTest`, `DrbgBase` beyond its constants. In C45, C74, C76, C77 and C82 a provider is an arbitrary function.
- Asymmetric schemes other than Kyber: `DLTM*`, `Dilithium*`, `MPKC*`, `McEliece*`, `GoppaMath`, `SPXBase`, `SphincsPlus*`, `XmssCore`, `XmssUtils`, `XMSS`, `EC25519`, `ECDH*`, `ECDSA*`; of the key containers, `AsymmetricKeyPair`.
- `FileStream`, `SecureMemory`, `MemoryPool`, `LockingAllocator`.
- Networking (`Socket*`, `NetworkTools`), threads (`AsyncThread`, `ThreadPool`), timers, `SystemTools`, `CpuDetect`.
- Factories and name tables (`*FromName`, enumeration converters) except `KdfFromName`, `StreamCiphers` and `ProviderFromName::GetInstance`.
- The vector kernels (`SimdIntegers.h`, `UInt*`, `ULong*`, `UShort128`, `AES128`, `Rijndael256`, the `W` forms of the permutations), compact forms, big-endian branches, exception classes.
