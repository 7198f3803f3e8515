{"id": "C01", "title": "Big/little-endian conversions round-trip and agree with the positional value", "statement": "For every width in 16/32/64 bits, writing an integer to bytes with the Be/Le ToBytes functions and reading it back with the matching BytesTo function at the same offset returns the integer; reading returns the positional base-256 value; writing changes no byte outside the written window.", "quantifier": "every integer of the width, every array and every offset with room for the word", "why_tests_cant": "2^64 values times every array and offset; a unit test covers a few literals", "anchors": ["CEX/IntegerTools.h: BeBytesTo16/32/64, Be16/32/64ToBytes, LeBytesTo16/32/64, Le16/32/64ToBytes"]}
{"id": "C02", "title": "Counter increment adds exactly one", "statement": "BeIncrement8, LeIncrement8 and LeIncrement(len) replace the counter's numeric value v (big or little endian over the counter length) by v+1 modulo 256^length, keep its length and touch nothing else.", "quantifier": "every counter content and every counter length", "why_tests_cant": "carry chains of every length over every content", "anchors": ["CEX/IntegerTools.h: BeIncrement8, LeIncrement8, LeIncrement, LeIncrementW"]}
{"id": "C03", "title": "Counter increase by a delta adds exactly the delta", "statement": "BeIncrease8/LeIncrease8 (used to position each parallel worker's counter) set the output counter to the input counter plus Length modulo 256^size. The code loses a carry when a delta byte is 0xFF and a carry comes in; the property is refuted in general and proved for the deltas where the lost carry cannot occur.", "quantifier": "every counter, every 32-bit delta", "why_tests_cant": "the lost carry appears only for rare counter/delta combinations that sampled tests miss", "anchors": ["CEX/IntegerTools.h: BeIncrease8, LeIncrease8"]}
{"id": "C04", "title": "Constant-time comparison decides equality of the compared ranges", "statement": "IntegerTools::Compare / Verify return 'equal' exactly when every byte of the two ranges agrees, for any offsets and length within bounds.", "quantifier": "all arrays, offsets and lengths", "why_tests_cant": "a difference may hide at any position and in any bit", "anchors": ["CEX/IntegerTools.h: Compare, Verify"]}
{"id": "C05", "title": "Rotations are true rotations", "statement": "RotL/RotR 32/64 with a shift strictly between 0 and the width rotate the bits: RotL by n then RotR by n is the identity, RotL n = RotR (width-n), and every result bit i is source bit (i-n) mod width.", "quantifier": "every word and every shift amount in range", "why_tests_cant": "2^64 words times 63 shifts", "anchors": ["CEX/IntegerTools.h: RotL32, RotR32, RotL64, RotR64"]}
{"id": "C06", "title": "MemoryTools::XOR xors exactly the named range", "statement": "MemoryTools::XOR over a range of any length replaces output[i] by output[i] xor input[i] for exactly the indices in the range and leaves all others unchanged, whatever split into 16-byte blocks, 8-byte words and byte tail the code uses.", "quantifier": "all arrays, offsets, lengths in bounds", "why_tests_cant": "every length modulo the vector widths times every content", "anchors": ["CEX/MemoryTools.h: XOR, XOR128, XOR64"]}
{"id": "C07", "title": "MemoryTools AND/OR cover the named range", "statement": "MemoryTools::AND and OR over a range of any length apply the operation to every byte of the range. The remainder loops index a constant byte, so the property is refuted for lengths with a tail and proved for aligned lengths.", "quantifier": "all arrays, offsets, lengths in bounds", "why_tests_cant": "only lengths with a tail of two or more bytes expose it", "anchors": ["CEX/MemoryTools.h: AND, OR"]}
{"id": "C08", "title": "PKCS7 padding round-trips", "statement": "For every block size and every payload length smaller than the block, stripping the block produced by PKCS7::AddPadding reports exactly the payload length, so the payload is recovered; payload bytes are not modified.", "quantifier": "all blocks and all payload lengths below the block size, block size up to 255", "why_tests_cant": "every content times every length; content may imitate padding", "anchors": ["CEX/PKCS7.cpp: AddPadding, GetBlockLength"]}
{"id": "C09", "title": "X9.23 padding round-trips", "statement": "Same as PKCS7 for X923::AddPadding/GetBlockLength.", "quantifier": "all blocks, payload lengths", "why_tests_cant": "every content times every length", "anchors": ["CEX/X923.cpp: AddPadding, GetBlockLength"]}
{"id": "C10", "title": "ESP and ZeroOne paddings round-trip", "statement": "ESP and ZeroOne (ISO 7816-4) padding: stripping what AddPadding produced gives back exactly the payload.", "quantifier": "all blocks and payload lengths below the block size", "why_tests_cant": "content dependent", "anchors": ["CEX/ESP.cpp", "CEX/ZeroOne.cpp"]}
{"id": "C11", "title": "Malformed padding is rejected", "statement": "GetBlockLength reports 'no padding' (the whole block) for a block whose last byte is not a valid pad count or whose pad bytes disagree. Byte positions actually checked are stated exactly; unchecked position 0 (a block made entirely of padding) is a documented finding.", "quantifier": "all blocks", "why_tests_cant": "256^16 blocks", "anchors": ["CEX/PKCS7.cpp: GetBlockLength", "CEX/X923.cpp: GetBlockLength"]}
{"id": "C12", "title": "ECB decryption inverts encryption", "statement": "For any block cipher whose decrypt inverts its encrypt, ECB decrypt of ECB encrypt of a block-multiple message is the message, sequentially and through the parallel path.", "quantifier": "all keys (through the cipher), all messages of whole blocks, all parallel degrees", "why_tests_cant": "unbounded message space and thread splits", "anchors": ["CEX/ECB.cpp: Transform, ProcessParallel, EncryptBlock, DecryptBlock"]}
{"id": "C13", "title": "CBC decryption inverts encryption and matches the CBC definition", "statement": "CBC encryption of a list of blocks is C_i = E(P_i xor C_{i-1}); decryption with the same key and IV returns the plaintext, including decryption in several calls and through the parallel decryption path whose workers take their IVs from the ciphertext.", "quantifier": "all messages of whole blocks, all IVs, all splits into calls, all parallel degrees", "why_tests_cant": "unbounded histories and splits", "anchors": ["CEX/CBC.cpp: Encrypt128, Decrypt128, DecryptParallel, DecryptSegment"]}
{"id": "C14", "title": "CFB decryption inverts encryption for every register size", "statement": "CFB decryption with the same key, IV and register size returns the plaintext, for any number of register-sized units across any number of calls.", "quantifier": "all messages, IVs, register sizes 1..block size", "why_tests_cant": "unbounded; parallel decryption path", "anchors": ["CEX/CFB.cpp: Encrypt128, Decrypt128"]}
{"id": "C15", "title": "OFB is its own inverse", "statement": "OFB transform applied to its own output with the same key and IV gives back the input for every block-multiple input.", "quantifier": "all messages, IVs", "why_tests_cant": "unbounded message space", "anchors": ["CEX/OFB.cpp: Transform, Encrypt128"]}
{"id": "C16", "title": "CTR/ICM keystream is the block-cipher image of consecutive counters, decryption inverts encryption", "statement": "CTR (big endian) and ICM (little endian) output is input xor E(ctr), E(ctr+1), ...; applying the transform twice from the same nonce returns the input for every length.", "quantifier": "all messages of every length, all nonces", "why_tests_cant": "unbounded lengths; counter wrap", "anchors": ["CEX/CTR.cpp: Generate, ProcessSequential, Transform", "CEX/ICM.cpp: Generate, ProcessSequential, Transform"]}
{"id": "C17", "title": "CTR counters never repeat within 2^128 blocks", "statement": "Within one initialization, the counter blocks given to the cipher by any sequence of transforms are pairwise distinct as long as fewer than 2^128 blocks have been consumed.", "quantifier": "all sequences of calls, all nonces", "why_tests_cant": "2^128 steps", "anchors": ["CEX/CTR.cpp: Generate", "CEX/IntegerTools.h: BeIncrement8"]}
{"id": "C18", "title": "Parallel CTR equals sequential CTR", "statement": "The parallel CTR/ICM path gives the same output and leaves the same counter as the sequential path. Proved whenever the counter positioning is exact; refuted for nonces hitting the lost carry of BeIncrease8/LeIncrease8.", "quantifier": "all messages, nonces, degrees", "why_tests_cant": "the failing nonces are rare; thread schedule", "anchors": ["CEX/CTR.cpp: ProcessParallel", "CEX/ICM.cpp: ProcessParallel"]}
{"id": "C19", "title": "Stream position: splitting a CTR message at block multiples does not change the result", "statement": "Transforming a message in several calls whose lengths (except the last) are multiples of 16 equals transforming it in one call; for other splits it does not (refuted).", "quantifier": "all messages, all splits", "why_tests_cant": "all histories of calls", "anchors": ["CEX/CTR.cpp: Transform"]}
{"id": "C20", "title": "CTR cannot be run in place", "statement": "Calling CTR/ICM Transform with the same array and offset as input and output destroys the data (keystream is generated into the output before the xor): the result is all zeros whatever the plaintext. CFB with segments shorter than a block behaves the same way when run in place.", "quantifier": "all messages and nonces", "why_tests_cant": "a test must know to alias the buffers; states it for all inputs", "anchors": ["CEX/CTR.cpp: ProcessSequential, Generate", "CEX/ICM.cpp: ProcessSequential, Generate", "CEX/CFB.cpp: Encrypt128, Decrypt128", "CEX/MemoryTools.h: XOR"]}
{"id": "C21", "title": "Carry-less multiply implements GF(2^128) multiplication", "statement": "The carry-less multiplication of a 128-bit block by the hash key computes the product in GF(2)[x]/(x^128+x^7+x^2+x+1) under the GCM bit order, for all pairs; hence it is bilinear and commutative.", "quantifier": "all pairs of 128-bit strings", "why_tests_cant": "2^256 pairs", "anchors": ["CEX/CMUL.cpp: PermuteR128P128U, PermuteR128P128C"]}
{"id": "C22", "title": "GHASH over any chunking equals the polynomial hash", "statement": "Feeding associated data and ciphertext to GHASH in any number of Update calls yields the GCM GHASH of the zero-padded segments and the length block.", "quantifier": "all inputs and all ways of splitting them into Update calls", "why_tests_cant": "all splits", "anchors": ["CEX/GHASH.cpp: Initialize, Multiply, Update, Finalize, Permute"]}
{"id": "C23", "title": "GCM encrypt/decrypt round trip with tag verification", "statement": "After the same initialization and associated data, decrypting the ciphertext and tag produced by encryption succeeds and returns the plaintext.", "quantifier": "all keys, nonces, associated data, messages", "why_tests_cant": "unbounded inputs", "anchors": ["CEX/GCM.cpp: Initialize, SetAssociatedData, Transform, Finalize, Verify"]}
{"id": "C24", "title": "GCM releases no plaintext when the tag does not match", "statement": "Decryption with a ciphertext/tag whose tag differs from the computed one throws an authentication failure and leaves the output array unchanged.", "quantifier": "all ciphertexts and tags", "why_tests_cant": "an attacker chooses the input", "anchors": ["CEX/GCM.cpp: Transform, Verify"]}
{"id": "C25", "title": "GCM re-initialized with only a new nonce keeps authenticating under the key", "statement": "Re-initializing GCM with a key-less parameter set and a fresh nonce should give the same tag as a full initialization. Refuted: the hash subkey has been wiped to zero, so the tag no longer depends on ciphertext or associated data.", "quantifier": "all messages after a key-less re-initialization", "why_tests_cant": "tests only compare round trip, which still succeeds", "anchors": ["CEX/GCM.cpp: Initialize, Finalize", "CEX/GHASH.cpp: Reset, Clear, Initialize"]}
{"id": "C26", "title": "CMAC matches its definition for every chunking", "statement": "CMAC::Finalize after any sequence of Updates returns the NIST SP800-38B CMAC of the concatenated message, for every call history; a tag taken into a std::vector leaves the object unusable until the next Initialize (a further message does not get its CMAC), a tag taken into a SecureVector removes the key.", "quantifier": "all messages, chunkings, keys (abstract cipher)", "why_tests_cant": "all splits and lengths", "anchors": ["CEX/CMAC.cpp: Initialize, Update, Finalize"]}
{"id": "C27", "title": "HMAC matches RFC 2104 for every key and chunking and is reusable", "statement": "HMAC::Finalize returns H((K' xor opad) || H((K' xor ipad) || m)) for the concatenation of all Updates since the last Finalize; the engine can be used again with the same key. The stateless forms in SHA2.h return the same value for keys up to one block and overrun a buffer for longer keys.", "quantifier": "all keys, messages, chunkings, sequences of messages", "why_tests_cant": "histories", "anchors": ["CEX/HMAC.cpp: Initialize, Update, Finalize, Reset"]}
{"id": "C28", "title": "Poly1305 computes the RFC 8439 polynomial", "statement": "Poly1305::Finalize after any sequence of Updates returns ((sum of clamped-r powers times blocks) mod 2^130-5 + s) mod 2^128 as 16 little-endian bytes; the 44/44/42-bit limb arithmetic never overflows.", "quantifier": "all 32-byte keys, all messages, all chunkings", "why_tests_cant": "limb carries reach rare corner cases", "anchors": ["CEX/Poly1305.cpp: Initialize, Update, Absorb, Finalize", "CEX/Donna128.h"]}
{"id": "C29", "title": "KMAC equals SP800-185 KMAC when the final right-encoding fits the block, and loses bytes otherwise", "statement": "When the buffered message leaves room for the length encoding and padding, KMAC is the SP800-185 function for every chunking; for residues too close to the rate the encoding is truncated (refuted), so tags of different output lengths may share a prefix.", "quantifier": "all keys, customization strings, messages, chunkings", "why_tests_cant": "depends on message length modulo the rate", "anchors": ["CEX/KMAC.cpp: Update, Finalize, LoadKey, Customize"]}
{"id": "C30", "title": "SHA2-256 equals FIPS 180-4 for every message and chunking", "statement": "In sequential mode SHA2256 Update*/Finalize returns the Merkle-Damgard hash with FIPS padding of the concatenated input for every split; after Finalize the object behaves like a new one.", "quantifier": "all sequences of Update, Finalize, Compute and Reset calls, all messages (length field modulo 2^64)", "why_tests_cant": "padding boundary cases for every length and split", "anchors": ["CEX/SHA2256.cpp: Update, Finalize, HashFinal, Permute, Reset"]}
{"id": "C31", "title": "SHA2-512 equals FIPS 180-4 for every message and chunking", "statement": "As for SHA2-256, with 128-byte blocks and the 128-bit length field. Exact unless the length is within 128 bytes below a multiple of 2^61 and the padding needs two blocks; then the length field is too large by 2^64 (refuted there). The stateless Compute384/Compute512 agree with FIPS for every message below 2^61 bytes.", "quantifier": "all messages and splits", "why_tests_cant": "padding boundary cases", "anchors": ["CEX/SHA2512.cpp"]}
{"id": "C32", "title": "SHA2 block permutations implement FIPS 180-4", "statement": "The unrolled SHA-256 and SHA-512 compression functions equal the FIPS compression function (message schedule, constants, 64/80 rounds, feed-forward) for every state and block.", "quantifier": "all states and blocks", "why_tests_cant": "2^(256+512) inputs", "anchors": ["CEX/SHA2.h: PermuteR64P512C/U, PermuteR80P1024C/U"]}
{"id": "C33", "title": "Parallel SHA2 uses every leaf", "statement": "The parallel (tree) SHA2 digest should depend on the state of every leaf. Refuted: the root hash only reads half of the leaves, so messages that differ only in the ignored leaves collide, whatever the compression function.", "quantifier": "all messages", "why_tests_cant": "needs the structure, not sampled digests", "anchors": ["CEX/SHA2256.cpp: Finalize", "CEX/SHA2512.cpp: Finalize"]}
{"id": "C34", "title": "SHA3 equals the Keccak sponge for every message and chunking", "statement": "SHA3256/512 Update*/Finalize returns the FIPS 202 sponge hash of the concatenated input for every split.", "quantifier": "all messages and splits", "why_tests_cant": "padding boundary (rate-1 bytes) and splits", "anchors": ["CEX/SHA3256.cpp", "CEX/SHA3512.cpp", "CEX/Keccak.h"]}
{"id": "C35", "title": "Keccak permutation implements FIPS 202 Keccak-f[1600]", "statement": "The unrolled 24-round permutation equals theta, rho, pi, chi, iota of FIPS 202 for every state, and is invertible.", "quantifier": "all 1600-bit states", "why_tests_cant": "2^1600 states", "anchors": ["CEX/Keccak.h: PermuteR24P1600C, PermuteR24P1600U"]}
{"id": "C36", "title": "Blake2 sequential digest is chunk-invariant and equals RFC 7693", "statement": "Blake256/Blake512 in sequential mode returns the RFC 7693 hash of the concatenated input for any split and any history of calls; after Initialize the first code is the RFC 7693 keyed hash. GetConfig writes the BLAKE2 parameter block for every value of the parameters. As exceptions: the salt and personalization of the key have no effect; a second message on a keyed object is hashed without the key; Blake512 ignores the distribution code. In tree mode the digest is independent of the split only while the message fits the buffer: longer messages lose blocks (collisions), few processors or ParallelMaxDegree make Update read beyond the input, and Blake512 ignores the output offset.", "quantifier": "all messages, splits, keys, call histories, leaf counts, processor counts", "why_tests_cant": "splits, histories and machines are unbounded", "anchors": ["CEX/Blake256.cpp: Update, Finalize, Initialize, Reset, ParallelMaxDegree, ProcessLeaf", "CEX/Blake512.cpp", "CEX/Blake.h: PermuteR10P512U, PermuteR10P512C, PermuteR12P1024U, PermuteR12P1024C", "CEX/BlakeParams.h: GetConfig", "CEX/BlakeParams.cpp", "CEX/ParallelOptions.cpp: Calculate"]}
{"id": "C37", "title": "HKDF expand equals RFC 5869 and its limit", "statement": "HKDF::Generate in a single call returns the RFC 5869 output T(1)||T(2)||... truncated; requests beyond 255 blocks throw. Every later call starts at the next block. As exceptions: requests between 255 and 256 blocks are served, short requests are never refused and repeat with period 256, salts of 4 to 7 bytes fail, a missing info reuses zeros of the previous length, and Extract re-keys an initialized object.", "quantifier": "all keys, infos, lengths, sequences of calls", "why_tests_cant": "histories of calls", "anchors": ["CEX/HKDF.cpp: Generate, Expand, Extract"]}
{"id": "C38", "title": "KDF2 equals ISO 18033 and PBKDF2 equals RFC 2898", "statement": "KDF2::Generate returns the blocks H(key||counter||salt), PBKDF2::Generate the xor of the HMAC iteration chain per block, over any sequence of calls. As exceptions: without a salt KDF2 pads short keys with zeros and drops the info, so different keys collide; a salt together with an info is read past its end; PBKDF2 accepts keys of 4 to 7 bytes and then always fails; iteration count 0 means 2^64.", "quantifier": "all keys, salts, iteration counts, lengths", "why_tests_cant": "unbounded iteration counts and lengths", "anchors": ["CEX/KDF2.cpp: Expand", "CEX/PBKDF2.cpp: Expand"]}
{"id": "C39", "title": "SHAKE output of one call is the sponge squeeze", "statement": "SHAKE::Generate in one call returns the first n bytes of the XOF stream, so shorter requests are prefixes of longer ones.", "quantifier": "all seeds and lengths", "why_tests_cant": "all lengths", "anchors": ["CEX/SHAKE.cpp: Generate, Expand"]}
{"id": "C40", "title": "Rijndael (RHX): AES is FIPS-197, every variant is the cipher of its schedule, and decryption inverts encryption", "statement": "For keys of 16, 24 and 32 bytes the software AES equals FIPS-197; the extended variants (HKDF with SHA2-256 or SHA2-512, cSHAKE-256, cSHAKE-512) are Rijndael with 14 + length/4 rounds under the round keys their generator derives from key and info. This holds for every history of Initialize, EncryptBlock, DecryptBlock and Transform..Transform2048, in place or not, and the other direction gives every block back. Exceptions: AES accepts 64-byte keys and uses 16 bytes of them, an object without a key reads outside its arrays, and the documented 1024-bit keys are refused.", "quantifier": "all variants, keys, infos, blocks, windows and call histories", "why_tests_cant": "2^384 inputs", "anchors": ["CEX/RHX.cpp: Initialize, StandardExpand, SecureExpand, Encrypt128, Decrypt128, Transform", "CEX/Rijndael.h"]}
{"id": "C41", "title": "Serpent (SHX): the published cipher for the key read backwards, every variant is the cipher of its schedule, decryption inverts encryption", "statement": "For keys of 16, 24 and 32 bytes the software Serpent equals the published cipher (S-box tables, linear transformation, 32 rounds, key schedule) under the key with its bytes in reverse order; with the published byte order results differ. Keys of 64 bytes get 40 rounds and a recurrence of eight terms; the extended variants (HKDF, cSHAKE) take 40, 48 or 64 rounds of keys from their generator. This holds for every history of Initialize, EncryptBlock, DecryptBlock and Transform..Transform2048, in place or not, and the other direction gives every block back. Other key lengths, also the documented 1024 bits, are refused; an object without a key reads outside its arrays.", "quantifier": "all variants, keys, infos, blocks, windows and call histories", "why_tests_cant": "bitsliced S-boxes over 2^128 blocks and 2^256 keys", "anchors": ["CEX/SHX.cpp: Initialize, StandardExpand, SecureExpand, Encrypt128, Decrypt128, Transform", "CEX/Serpent.h"]}
{"id": "C42", "title": "ChaCha20 and CSX-512 equal their round definition and every history of calls is the keystream", "statement": "The 20-round ChaCha permutation (unrolled and compact) equals ten double rounds plus feed-forward serialised little endian, and CSX-512 the same on 64-bit words; ChaChaP20 and CSX512 xor the message with that keystream, every call going on at the next whole block, and a peer with the same key gets back whatever was encrypted, independent of vector width, parallel profile and schedule. Pieces that are not whole blocks, equal input and output windows, parallel tails with an output offset, calls before Initialize and short CSX512 codes after a reuse are exceptions.", "quantifier": "all states, all messages", "why_tests_cant": "2^512 states", "anchors": ["CEX/ChaCha.h", "CEX/ChaChaP20.cpp"]}
{"id": "C43", "title": "Symmetric key serialization round-trips", "statement": "SymmetricKey::DeSerialize of Serialize gives back key, nonce and info for all sizes below 65536; larger ones are truncated (refuted).", "quantifier": "all keys, nonces and infos", "why_tests_cant": "sizes around 2^16", "anchors": ["CEX/SymmetricKey.cpp: Serialize, DeSerialize"]}
{"id": "C44", "title": "CipherStream round-trips", "statement": "Writing data (arrays or streams, any number of messages in a row) through CipherStream gives the mode's encryption of the padded data and a decrypting CipherStream gives the data back, whatever the parallel profile, the vector width and the order of the workers. Proved for every length that is not a whole number of blocks, for the block modes, and every length but 16 for the counter modes. Refuted elsewhere: an input of exactly one block is not processed at all, whole blocks get no padding but lose a padding-like tail on decryption (so two messages share a ciphertext), and a non-zero OutOffset makes encryption write out of bounds and decryption lose bytes.", "quantifier": "all data lengths and contents, all modes, paddings, block ciphers, parallel profiles, schedules and message sequences", "why_tests_cant": "content-, length-, offset- and schedule-dependent", "anchors": ["CEX/CipherStream.cpp: Write, BlockTransform"]}
{"id": "C45", "title": "SecureRandom: every byte once, bounded integers in range and unbiased", "statement": "In every call history a SecureRandom hands out consecutive windows of its engine's output, no byte twice; bounded integers lie in the range asked for; for the unsigned types every value comes from the same number of raw samples. Refuted: the signed variants accept negative multiples, so the minimum is over-represented; NextInt16 over 2^15 or more values never returns the maximum (and over exactly 2^15 always the minimum); the whole range of a type is a division by zero, wide signed ranges an overflow.", "quantifier": "all engines, call histories, ranges and raw samples", "why_tests_cant": "bias is a counting statement over the whole sample space; buffering depends on the history", "anchors": ["CEX/SecureRandom.cpp: Generate, Fill, NextUInt16/32/64, NextInt16/32/64"]}
{"id": "C46", "title": "Authenticated stream sessions round-trip", "statement": "With the same key, a sequence of messages encrypted by ChaChaP20 or CSX512 in authenticated mode is decrypted message by message by the peer; a packet is accepted exactly if its tag is the KMAC of the associated data, counter, ciphertext and running length, and is otherwise refused before any plaintext is written. A stored object is restored exactly right after Initialize; later its authenticator is lost, and without authentication it cannot be restored.", "quantifier": "all sequences of messages and associated data", "why_tests_cant": "histories", "anchors": ["CEX/ChaChaP20.cpp: Initialize, SetAssociatedData, Transform, Serialize", "CEX/CSX512.cpp: Initialize, SetAssociatedData, Transform, Serialize"]}
{"id": "C47", "title": "Constant-time selection helpers choose correctly", "statement": "IntegerTools::ExpandMask turns every nonzero word into all-ones and zero into zero; IsZero/IsEqual/IsLess/IsLte return the matching mask; ConditionalCopy, ValueOrZero and CMov select exactly the documented operand. CMax/CMin do not return the maximum/minimum and DiffMask misses differences in 16-bit arrays (refuted).", "quantifier": "every word of every width, every array", "why_tests_cant": "all word values; the wrong results of CMax/DiffMask need specific bit patterns", "anchors": ["CEX/IntegerTools.h: ExpandMask, IsZero, IsEqual, IsLess, IsLte, Select, ConditionalCopy, CMov, CMax, CMin, DiffMask, ValueOrZero"]}
{"id": "C48", "title": "Integer utility functions compute what they are named for", "statement": "ShiftLeft doubles the big-endian number and returns the bit shifted out; ModPowerOf2, Crop, IsPowerOf2 and Parity compute the remainder, the truncation, the power-of-two test and the bit-sum parity; FromHex inverts ToHex.", "quantifier": "all arrays and words", "why_tests_cant": "all contents and lengths", "anchors": ["CEX/IntegerTools.h: ShiftLeft, ModPowerOf2, Crop, IsPowerOf2, Parity, ToHex, FromHex"]}
{"id": "C49", "title": "GCM output is the GCM of NIST SP 800-38D", "statement": "For every key, nonce, associated data and message, encryption appends to the output the ciphertext and tag that SP 800-38D defines. Proved as long as the low 32 bits of the counter do not overflow (for 12-byte nonces: fewer than 2^32-1 blocks); refuted in general because the code increments all 128 bits of the counter.", "quantifier": "all keys, nonces of 8 bytes or more, associated data and messages", "why_tests_cant": "the counter overflow is reached only for rare (key, nonce) pairs with nonces that are not 12 bytes", "anchors": ["CEX/GCM.cpp: Initialize, SetAssociatedData, Transform, Finalize", "CEX/CTR.cpp: Generate"]}
{"id": "C50", "title": "Parallel SHA2 is a function of the message", "statement": "In parallel (tree) mode with a fixed number of leaves, Update*/Finalize writes the same digest however the message is split into Update calls and whatever legal ParallelBlockSize is set, every call succeeds, and Finalize leaves the object as a new one.", "quantifier": "all messages, all splits, all leaf counts and all multiples of the minimum parallel size", "why_tests_cant": "the three absorption loops meet at boundaries that depend on the split", "anchors": ["CEX/SHA2256.cpp: Update, Finalize, ProcessLeaf, Reset", "CEX/SHA2512.cpp: Update, Finalize, ProcessLeaf, Reset"]}
{"id": "C51", "title": "Donna128 is 128-bit arithmetic", "statement": "On builds without a native 128-bit integer, Donna128 multiplication of two words is the exact product, addition (of a Donna128 or a word) is addition modulo 2^128, and CarryShift returns the low word of the shifted value. operator >> and operator << exchange the two halves first and CombineLow inherits it, so they are not shifts (refuted).", "quantifier": "all operands and all shift counts from 1 to 63", "why_tests_cant": "carries between the 32-bit partial products occur for few operand pairs", "anchors": ["CEX/Donna128.h: operator *, operator +, operator +=, operator >>, operator <<, CarryShift, CombineLow, Mul64x64To128"]}
{"id": "C52", "title": "Asymmetric key serialization round-trips", "statement": "AsymmetricKey::DeSerialize of Serialize gives back the polynomial, primitive, class and parameters of any constructed key. On any other byte string of at least three bytes DeSerialize either builds the key the bytes describe or throws InvalidParam (empty polynomial, or an enumeration that is None); below three bytes the behaviour is undefined.", "quantifier": "all polynomials and names, all byte strings", "why_tests_cant": "the whole input space of a parser", "anchors": ["CEX/AsymmetricKey.cpp: AsymmetricKey, Serialize, DeSerialize"]}
{"id": "C53", "title": "MemoryStream behaves as a file in memory", "statement": "Any sequence of Write, WriteByte, Read, ReadByte, Seek, Reset and Close calls gives the answers, length, position and contents of a byte file: writes overwrite and extend (zero-filling a gap), reads at the end are short. Excluded, with counterexamples: Read with a nonzero output offset when offset plus length exceeds what is left, ReadByte/WriteByte/Read after Seek past the end (undefined), SetLength (no effect).", "quantifier": "all initial contents and all call sequences", "why_tests_cant": "depends on the whole call history", "anchors": ["CEX/MemoryStream.cpp: Read, ReadByte, Write, WriteByte, Seek, Reset, Close, SetLength, CopyTo"]}
{"id": "C54", "title": "StreamWriter and StreamReader are inverse", "statement": "Any sequence of 1, 2, 4 and 8 byte integers and byte arrays written with a StreamWriter of any initial size is read back unchanged, in order, by a StreamReader over GetStream; Generate gives the same bytes followed by zeros up to the initial size.", "quantifier": "all item lists and initial sizes", "why_tests_cant": "unbounded sequences of heterogeneous items", "anchors": ["CEX/StreamWriter.h: Write", "CEX/StreamWriter.cpp: GetStream, Generate", "CEX/StreamReader.h: ReadInt", "CEX/StreamReader.cpp: ReadByte, ReadBytes"]}
{"id": "C55", "title": "SymmetricSecureKey gives back what it was given", "statement": "For every stream cipher that decrypts what it encrypts, Key, IV, Info and Serialize of a SymmetricSecureKey return the constructor's arguments (sizes below 2^32), and Clone of a salted key is an equal key. Clone of a key made without a salt throws InvalidParam (refuted).", "quantifier": "all keys, IVs, infos, salts, policies, machine keys and ciphers", "why_tests_cant": "the state is encrypted under machine-dependent data", "anchors": ["CEX/SymmetricSecureKey.cpp: SymmetricSecureKey, Key, IV, Info, Clone, Encipher, Extract, Serialize"]}
{"id": "C56", "title": "BlakeParams survives serialization", "statement": "For BLAKE2s and BLAKE2b parameters ToBytes is the parameter block padded with zeros to the output size, and the constructor from bytes and Clone give equal parameters back; every byte string is either refused, or read as the block it starts with, except 32 byte strings that declare another output size, which are read out of bounds. Refuted: ToBytes of default, reset or otherwise sized parameters writes out of bounds; Equals holds for different parameters because it compares a sum; GetHashCode overflows for some leaf lengths.", "quantifier": "all parameter values and all byte strings", "why_tests_cant": "every field value and every string, and comparison of all pairs", "anchors": ["CEX/BlakeParams.cpp: BlakeParams, ToBytes, Clone, Equals, GetHashCode, Reset"]}
{"id": "C57", "title": "RCS and RWS encrypt, authenticate and restore correctly", "statement": "After Initialize, every sequence of Transform, SetAssociatedData and Tag calls on an RCS or RWS object, plain or authenticated, gives the xor with the keystream of the wide Rijndael function under cSHAKE round keys, with KMAC tags appended and checked before decryption; conversations round-trip, altered tags are refused, Serialize restores the object, and neither parallel profile nor schedule changes a result as long as the counter offsets of the workers have no 0xFF byte. Refuted: in-place Transform writes zeros; a worker offset with an 0xFF byte makes a parallel call reuse keystream; RWS with 128-bit keys has one keystream for the plain and authenticated cipher; re-initializing without Info uses zeros as long as the previous Info; an Info of 1 to 3 bytes fails half way; Transform on a new object is undefined.", "quantifier": "all keys, nonces, infos, call histories, window offsets, profiles and worker orders", "why_tests_cant": "histories and schedules are unbounded; the lost carry needs particular nonces and chunk sizes", "anchors": ["CEX/RCS.cpp: Initialize, Transform, SetAssociatedData, Finalize, Process, ProcessParallel, Generate, Reset, Serialize", "CEX/RWS.cpp: Initialize, Transform, SetAssociatedData, Finalize, Process, ProcessParallel, Generate, Reset, Serialize"]}
{"id": "C58", "title": "Kyber: both sides obtain the same secret", "statement": "For each parameter set, key pair, message and domain key: Generate and Encapsulate succeed with outputs of the documented sizes, and Decapsulate returns true with the secret of Encapsulate whenever the decryption error of the exchange, an explicit polynomial in the sampled noise and the rounding, lies in -832..831. Refuted: the ciphertext is not unique, since zero bytes behind it are accepted and give other secrets; a short ciphertext is read out of bounds instead of being refused.", "quantifier": "all random bytes, messages, domain keys, parameter sets and contents of the output vectors", "why_tests_cant": "the randomness has 96 bytes, and the failure condition is met by a few exchanges in 2^100", "anchors": ["CEX/Kyber.cpp: Generate, Encapsulate, Decapsulate", "CEX/KyberBase.cpp: Generate, Encapsulate, Decapsulate, IndCpaKeyPair, IndCpaEnc, IndCpaDec"]}
{"id": "C59", "title": "Kyber: products of polynomials are exact", "statement": "The reductions keep residues modulo 3329 for every input in their range, and transforming two polynomials or vectors of polynomials, multiplying them pointwise and transforming back gives their product modulo X^256 + 1, with no 16 or 32 bit overflow on the way, for all coefficients up to 15000.", "quantifier": "all polynomials with coefficients of absolute value at most 15000, vectors of length up to nine", "why_tests_cant": "overflows hide in rare combinations of 256 coefficients", "anchors": ["CEX/KyberBase.cpp: BarrettReduce, MontgomeryReduce, Ntt, InvNtt, BaseMul, PolyNttv2, PolyInvNttToMontgomery, PolyVecBaseMulAccMontgomery"]}
{"id": "C60", "title": "Kyber: encodings, rounding, messages and noise", "statement": "Keys are read back as the residues that were written; ciphertexts are read back as the rounded polynomials, which differ from the originals by at most 104, 52, 2 or 1 for 4, 5, 10 or 11 bits; a message is recovered from its polynomial under every error in -832..831, and the bound is sharp at +832; noise polynomials are the centred binomial samples of SHAKE-256 output, within -eta..eta.", "quantifier": "all polynomials in range, messages, error polynomials, seeds and nonces", "why_tests_cant": "every coefficient value in every position, and every error pattern", "anchors": ["CEX/KyberBase.cpp: PolyToBytes, PolyFromBytes, PackCiphertext, UnPackCiphertext, PolyToMsg, PolyFromMsg, PolyGetNoiseEta1, Cbd2, Cbd3"]}
{"id": "C61", "title": "Kyber: sampling of the matrix", "statement": "Each matrix entry is the first 256 values below 3329 of its SHAKE-128 stream whenever those lie in the first 534 bytes; entries are always reduced, and the matrix for encryption is always the transpose of the one for key generation. Refuted for every seed: if more than 534 bytes are needed the fourth block is read beyond its 32 fresh bytes, and the entry is not the specified one.", "quantifier": "all seeds, dimensions and fuel", "why_tests_cant": "the wrong entries need one seed in about half a million", "anchors": ["CEX/KyberBase.cpp: GenMatrix, RejUniform"]}
{"id": "C62", "title": "Kyber: decapsulation of arbitrary input", "statement": "For any private key of the right size and any ciphertext of at least the right size, Decapsulate decrypts to a message, encrypts it again with the stored public key, returns true with the hash of that message and the ciphertext exactly if the re-encryption (followed by zeros, if the input is longer) equals the input, and otherwise returns false and leaves SharedSecret unchanged.", "quantifier": "all private keys, ciphertexts, domain keys and output vectors", "why_tests_cant": "adversarial ciphertexts range over all byte strings", "anchors": ["CEX/Kyber.cpp: Decapsulate", "CEX/KyberBase.cpp: Decapsulate"]}
{"id": "C63", "title": "GMAC objects compute GMAC over every call history", "statement": "Over any 128-bit block cipher, every sequence of Initialize, Update, Finalize, Compute and Reset calls gives the GCM tag (SP 800-38D) of the message fed since Initialize, as associated data without plaintext, for nonces of 12 bytes and of any longer size; each tag uses up key and nonce, and calls without a key, with short keys, nonces, windows or outputs are refused without effect.", "quantifier": "all block ciphers, keys, nonces, call sequences, window offsets and lengths", "why_tests_cant": "splits of a message into Update calls and call orders are unbounded", "anchors": ["CEX/GMAC.cpp: Initialize, Update, Absorb, Multiply, PreCompute, Finalize, Compute, Reset"]}
{"id": "C64", "title": "Parallel profiles always describe equal, non-empty shares", "statement": "On every machine with at least one processor, after every constructor and every sequence of SetBlockSize, SetMaxDegree, ParallelMaxDegree, Calculate and flag changes, ParallelMinimumSize is the degree times what one worker handles at a time and ParallelBlockSize is a multiple of it; once Initialize of a mode has accepted the profile it keeps the shape the parallel code needs, whatever is called later, except that setting IsParallel() by hand can leave a zero block size and that a degree whose product wraps divides by zero. Refused calls change nothing.", "quantifier": "all processor counts, cache sizes, constructor arguments and call sequences", "why_tests_cant": "the machine, the arguments and the call order are unbounded", "anchors": ["CEX/ParallelOptions.cpp: constructors, Calculate, Detect, SetBlockSize, SetMaxDegree", "CEX/CBC.cpp: Initialize, ParallelMaxDegree"]}
{"id": "C65", "title": "Digest and MAC streams hash exactly what is left of the stream", "statement": "DigestStream and MacStream, over any digest or MAC object and any non-empty MemoryStream at any position, or any window of an array, feed the object exactly the bytes from the position to the end (or of the window), once and in order, leave the stream at its end with its contents unchanged, and return the object's value; any number of inputs can be hashed one after the other and each gets its own digest (SHA-2, SHA-3, parallel SHA-2) or tag (HMAC). Hashing an empty input is undefined behaviour.", "quantifier": "all digest objects, stream contents and positions, windows, block sizes and sequences of inputs", "why_tests_cant": "contents, positions and block-size relations are unbounded", "anchors": ["CEX/DigestStream.cpp: Compute, Process, CalculateProgress", "CEX/MacStream.cpp: Compute, Process"]}
{"id": "C66", "title": "The Threefish permutations are Threefish", "statement": "For every key, tweak and counter a TSX256 key-stream block is the 72-round Threefish-256 encryption of the counter completed by all-one words, and the block functions of Skein256, Skein512 and Skein1024 are Threefish-256, -512 and -1024 with 72, 72 and 80 rounds. The TSX512 and TSX1024 blocks are 96 and 120 rounds of Threefish whose last subkey takes its words in the order of subkey 18 (20) instead of 24 (30), so they are not Threefish. In all of them different counters (message blocks) under one key and tweak give different blocks.", "quantifier": "all keys, tweaks, counters and message blocks", "why_tests_cant": "the input space is 2^384 and more; equality with the published cipher needs a proof over all words", "anchors": ["CEX/Threefish.h: PemuteR72P256U, PemuteR96P512U, PemuteR120P1024U", "CEX/Skein.h: PemuteR72P256U, PemuteR72P512U, PemuteR80P1024U"]}
{"id": "C67", "title": "TSX256, TSX512 and TSX1024 without authentication cipher every call history", "statement": "After Initialize of a new object with a key, nonce and tweak of legal size, every sequence of Initialize, Transform, SetAssociatedData and Tag calls, with any windows, parallel profile and worker schedule, xors the counter-mode key stream of the Threefish variant (C66) into the window and nothing else, each Transform starting at the next whole block; decryption inverts encryption, and block-aligned pieces equal one call. Exceptions: with one window for input and output the message becomes zeros, an object that was never initialised ciphers under the zero key, and TSX512 and TSX1024 read a tweak of 1 to 15 bytes beyond its end where TSX256 refuses it.", "quantifier": "all keys, nonces, tweaks, call sequences, window offsets and lengths, parallel profiles and schedules", "why_tests_cant": "call histories, window positions and schedules are unbounded", "anchors": ["CEX/TSX256.cpp: Initialize, Transform, Process, Generate", "CEX/TSX512.cpp: Initialize, Transform, Process", "CEX/TSX1024.cpp: Initialize, Transform, Process"]}
{"id": "C68", "title": "TSX256, TSX512 and TSX1024 with authentication seal and open every conversation", "statement": "With authentication, every call sequence after Initialize follows each ciphertext by, and checks it against, KMAC over associated data, counter, ciphertext, running total and name, under keys derived by cSHAKE; any conversation of letters with associated data is read back exactly by a peer with another profile and schedule; after any such conversation a packet with any other tag is refused with nothing written. Exceptions: Tag() after a refusal tells the tag that would have been accepted, TSX1024 checks for 64 bytes of room but writes 128, and Transform before Initialize dereferences null.", "quantifier": "all keys, nonces, tweaks, conversations, tags, window offsets, profiles and schedules", "why_tests_cant": "the tag depends on the whole history, and tampering ranges over all tags", "anchors": ["CEX/TSX256.cpp: Initialize, Transform, Finalize, SetAssociatedData, Tag", "CEX/TSX512.cpp: Transform, Finalize", "CEX/TSX1024.cpp: Transform, Finalize"]}
{"id": "C69", "title": "Sequential Skein256, Skein512 and Skein1024 compute Skein for every call history", "statement": "For every sequence of Update, Finalize, Compute and Reset calls, Finalize and Compute write the Skein hash of exactly the bytes given since the last reset at the output offset and nothing else, throw when the output is too short, and leave a reset object. Positions are counted in 64 bits; the result is that of standard Skein (96 bits) for messages below 2^64 bytes. SkeinParams with fan-out 1 change the configuration block only; a fan-out of 0 or above 64 is refused.", "quantifier": "all messages, all splits into Update calls, all call sequences, output arrays and offsets, all parameters", "why_tests_cant": "message lengths, splits and call histories are unbounded", "anchors": ["CEX/Skein256.cpp: Update, Finalize, Compute, Reset, Initialize, HashFinal, ProcessBlock", "CEX/Skein512.cpp", "CEX/Skein1024.cpp", "CEX/SkeinUbiTweak.h"]}
{"id": "C70", "title": "Tree Skein depends on the message and the fan-out only", "statement": "With as many workers as the fan-out, every sequence of calls on a tree Skein object gives one function of the configuration, the fan-out and the bytes since the last reset, whatever the splits and the parallel block size. Exceptions: on a machine with fewer processors than the fan-out, a message given in two pieces is only hashed as far as the workers reach, so different messages have the same hash; and the root is not the hash of the leaf states, as documented.", "quantifier": "all messages, splits, call sequences, fan-outs 1 to 64, parallel block sizes and processor counts", "why_tests_cant": "splits, histories and hardware profiles are unbounded; a test machine has one processor count", "anchors": ["CEX/Skein256.cpp: Update, Finalize, Initialize, ProcessLeaf", "CEX/Skein256.h: tree hashing description", "CEX/ParallelOptions.cpp: Detect, Calculate"]}
{"id": "C71", "title": "SkeinParams survive ToBytes and are validated", "statement": "The constructor accepts exactly the output sizes 32, 64 and 128 with a fan-out if and only if there is a leaf size; parameters written by ToBytes are read back unchanged. Exceptions: an array shorter than 24 bytes is read beyond its end instead of being refused, Equals answers true for different parameters, and Skein512 and Skein1024 read beyond the configuration of parameters made for Skein256.", "quantifier": "all parameter values and all byte arrays", "why_tests_cant": "the value space is too large to enumerate", "anchors": ["CEX/SkeinParams.cpp: SkeinParams, ToBytes, Equals, GetHashCode, GetConfig"]}
{"id": "C72", "title": "The HBA authenticated mode seals and opens every conversation", "statement": "An HBA object over any of the library's block ciphers and any of its KMAC or HMAC authenticators answers every sequence of Initialize, SetAssociatedData, Transform and Tag calls, with any windows, parallel profile and worker schedule, as follows: the cipher key and the MAC key come from cSHAKE or HKDF over the user's key, encryption is counter mode going on at the next block, every ciphertext is followed by, or checked against, the MAC of associated data, counter block, ciphertext and running total, and the MAC key is replaced after every message; nothing but the window is written. What one side seals, in any number of messages with any associated data, a peer with another profile and schedule opens to the same messages.", "quantifier": "all keys, counter blocks, info strings, call sequences, windows, associated data, profiles and schedules, all block ciphers with 16-byte blocks, four authenticators", "why_tests_cant": "the tag and the MAC key depend on the whole history; histories, windows and schedules are unbounded", "anchors": ["CEX/HBA.cpp: Initialize, SetAssociatedData, Transform, Finalize, Verify"]}
{"id": "C73", "title": "HBA refuses every wrong tag", "statement": "After any conversation the next ciphertext with any tag but the right one is refused with AuthenticationFailure and nothing written. Exceptions: a Transform refused for want of room has already authenticated the counter block, so the next packet it seals is refused by the peer (unless two MACs collide); after a refused packet the next genuine packet is refused too (unless two MACs collide), because the counter block did not move; Tag() after a refusal is the tag that would have been accepted; SetAssociatedData refuses every window whose offset exceeds its length; with KMAC an info string of 1 to 3 bytes is refused and makes a following Initialize without info fail; with HMAC the cipher key has 32 bytes (64 for a key of 64) whatever size the user chose.", "quantifier": "all keys, conversations, packets and tags", "why_tests_cant": "tampering ranges over all tags and histories", "anchors": ["CEX/HBA.cpp: Initialize, SetAssociatedData, Transform, Finalize, Verify, Tag"]}
{"id": "C74", "title": "Random generator on SHAKE: every call history", "statement": "A CSG random generator answers every sequence of Initialize, Generate and Update calls, with or without a random provider and for any reseed threshold, with the consecutive bytes of the output stream of its sponge state, however requests are cut; without a provider these are the bytes of SHAKE or cSHAKE of the key. Seeds from the provider and from Update are absorbed into the state, and reseeds after the ten thousandth are refused. Two exceptions are stated: Update with the key of the preceding Initialize, before any output, cancels the key and leaves the all-zero state; and the constructor that takes a provider pointer uses a rate of 1 byte for SHAKE-512, and of 0 bytes for SHAKE-1024 with which Initialize does not terminate.", "quantifier": "all rates, keys, IVs, infos, providers, thresholds and call sequences", "why_tests_cant": "A test fixes a few keys and request sizes; the claim is about every way of cutting requests and every interleaving of reseeds.", "anchors": ["CEX/CSG.cpp: Initialize, Generate, Update, Absorb, Derive, Expand, Fill", "CEX/DrbgBase.cpp"]}
{"id": "C75", "title": "Cost-based key derivation: every call history, and what MemoryCost does", "statement": "An SCBKDF object answers every sequence of Initialize, Generate, Reset and cost assignments with the output of its sponge after one absorption of the cache per unit of CpuCost. Stated exception: the memory held is one block per unit of CpuCost whatever positive MemoryCost is set, and the output does not depend on it.", "quantifier": "all SHAKE modes, costs, keys, IVs, infos and call sequences", "why_tests_cant": "A test runs one or two cost settings; that the memory cost has no effect is a statement about all of them.", "anchors": ["CEX/SCBKDF.cpp: Initialize, Generate, Expand, Extract"]}
{"id": "C76", "title": "Random generator on HMAC: every call history", "statement": "An HCG random generator answers every sequence of Initialize, Generate and Update calls, with SHA2-256 or SHA2-512, with or without a random provider and for any reseed threshold, with the bytes of a chain of HMAC blocks over last block, code and counter; every seed gives a new HMAC key and the ten thousand and first is refused; requests for whole blocks give consecutive blocks of one chain however they are cut. Exceptions: requests for parts of blocks make the stream depend on how they are cut; Update accepts seeds of half the size it asks for; the constructor that takes a digest refuses SHA2-512 and accepts every other digest.", "quantifier": "all keys, IVs, infos below 65000 bytes, providers, thresholds and call sequences, both digests", "why_tests_cant": "A test fixes a few keys and request sizes; the claim is about every way of cutting requests and every interleaving of reseeds.", "anchors": ["CEX/HCG.cpp: Initialize, Generate, Update, Derive, Expand, Fill, HCG", "CEX/IntegerTools.h: BeIncrease8", "CEX/DrbgBase.cpp"]}
{"id": "C77", "title": "Random generator on a block cipher: every call history", "statement": "A BCG random generator answers every sequence of Initialize, Generate and Update calls, with or without a random provider, for any reseed threshold, any parallel profile and any order of its workers, with the bytes of 256-bit Rijndael in counter mode under round keys made by cSHAKE-256 from the key and the customization; without parallelism requests for whole blocks give one stream however they are cut. Exceptions: with two workers every key and nonce give other bytes than without; the limit of 10000 seeds counts over the life of the object and Initialize does not reset it; automatic seeds count twice; a seed of 16 to 31 bytes is counted and then refused; Update on a generator that was not initialized starts it with a zero nonce; every Update puts the version string in front of the customization once more.", "quantifier": "all keys, nonces, infos, providers, thresholds, parallel profiles with fewer than 65280 counter steps, worker orders and call sequences", "why_tests_cant": "A test fixes a few keys, one machine profile and one schedule; the claim is about every schedule, every cut and every interleaving of reseeds.", "anchors": ["CEX/BCG.cpp: Initialize, Generate, Update, Derive, Process, Transform, Transform256, Reset", "CEX/IntegerTools.h: BeIncrease8"]}
{"id": "C78", "title": "Buffered random generators: every byte once, and the window that overruns", "statement": "BCR, CSR and HCR answer every history of Generate, NextUInt16/32/64 and Reset calls with consecutive windows of the output of the generator below, no byte twice, also across Resets; what was given out is erased from the buffer. Exceptions: in CSR and HCR, Generate into a window of a std::vector that is smaller than the vector writes beyond the end of a temporary, whatever was called before; a request for more than is buffered discards the buffered bytes, so the bytes depend on how requests are cut; Reset makes a new buffer but goes on at the old place in it.", "quantifier": "all generators below, call histories, arrays and windows", "why_tests_cant": "what a request returns depends on the whole history; the overrun corrupts memory without a visible failure", "anchors": ["CEX/BCR.cpp: Generate, Reset", "CEX/CSR.cpp: Generate, Reset", "CEX/HCR.cpp: Generate, Reset", "CEX/PrngBase.cpp: NextUInt16, NextUInt32, NextUInt64"]}
{"id": "C79", "title": "Encrypted stream: a file, except for its gaps, its pad and its salt", "statement": "A SecureStream answers every history of Write, WriteByte, Read, ReadByte, Seek, Reset and Close calls like a file of bytes with a position, whatever the machine, the salt and the engine's parallel profile, as long as no write starts beyond the end; the bytes held in memory are at every point the contents under the AES256-CTR key stream of the machine's seed. CopyTo writes the contents and changes nothing; after Destroy nothing is left. Exceptions: seeking beyond the end and writing fills the gap with the raw key stream, which every later read shows; streams with the same salt share one key stream, so their stored bytes give the xor of their contents; a salt of 2^63 or more makes every constructor throw, because a vector of that many bytes is built first.", "quantifier": "all machines (seed digest and block cipher), salts, contents, worker orders and call histories", "why_tests_cant": "what a read returns depends on the whole history of writes and seeks; the key stream is fixed per machine, so a test on one machine says nothing about another", "anchors": ["CEX/SecureStream.cpp: constructors, CopyTo, Destroy, Read, ReadByte, Seek, ToArray, Write, WriteByte, GetSystemKey, Transform", "CEX/CTR.cpp: Transform"]}
{"id": "C80", "title": "AsymmetricSecureKey gives back what it was given, except under an authenticated policy", "statement": "For every cipher that decrypts what it encrypts, an AsymmetricSecureKey under a policy without authentication returns the constructor's key from Polynomial and SecurePolynomial, and Serialize followed by DeSerialize gives the same key; what it stores is that key encrypted with the cipher of its policy, under the first bytes of the machine key for the salt with the bytes after them as nonce; the constructors refuse an empty key and every None; under an authenticated policy a stored key that does not verify is never given out. Exceptions: under an authenticated policy the key comes back longer, with a zero byte for every byte of the tag, and DeSerialize after Serialize makes that longer key; Polynomial after Reset is undefined behaviour; the authenticated 256-bit and 1024-bit policies store the same bytes.", "quantifier": "all keys, salts, names, policies, machine keys and ciphers", "why_tests_cant": "the state is encrypted under machine-dependent data; the claim is about every key and every cipher that satisfies the stated law", "anchors": ["CEX/AsymmetricSecureKey.cpp: AsymmetricSecureKey, Polynomial, SecurePolynomial, Reset, Serialize, DeSerialize, Encipher, Extract, GetStreamCipher, GetSystemKey", "CEX/StreamCipherFromName.cpp: GetInstance"]}
{"id": "C81", "title": "The parallel MAC is one function of key, salt, message and output size, except for its second message", "statement": "Every history of Initialize, Update, Finalize, Compute and Reset calls on a KPA object with messages below 2^53 bytes returns what an eight-leaf tree of 12-round Keccak sponges says: however the message is split into Updates, the tag of the first message after Initialize is one function of key, salt, message and output size, whatever the mode of the object; short keys, short outputs and calls before Initialize are refused without effect. Exceptions: a KPA512 object takes one byte as its tag size and gives out one-byte tags; Finalize into a SecureVector ignores its offset and overwrites the whole array; Finalize does not start the leaves again, so the tag of a second message depends on the first one; Reset leaves 175 of the 200 bytes of every keyed leaf in memory.", "quantifier": "all keys of at least 16 bytes, salts, messages, splits into Update calls, output sizes and call histories", "why_tests_cant": "the claim ranges over all messages, splits and histories; the sizes of the tree blocks (8 times the rate) make the boundary cases many", "anchors": ["CEX/KPA.cpp: KPA, Compute, Finalize, Initialize, Reset, Update, FastAbsorbx8, KpaAbsorbLeaves, KpaPermutex8, KpaSqueezeBlocks", "CEX/Keccak.h: LeftEncode, RightEncode, FastAbsorb, Permute"]}
{"id": "C82", "title": "SymmetricKeyGenerator makes keys of the sizes asked for, each part from its own seed", "statement": "For every machine whose providers answer, every provider and policy and every size up to the limit of SHAKE, GetSymmetricKey returns a key, nonce and information string of the sizes asked for, and each is cSHAKE of the answer to a separate request to the provider, customized with the names of the generator, the provider really used and the function; GetSecureKey is made from the same arrays; Generate returns, or writes to exactly its window, cSHAKE of one request, and refuses a window that does not fit; None is refused by the constructor and a size of zero by every function. Exceptions: without a nonce size the information string is left out; the 1024-bit policies make the keys of the 256-bit policy; an offset so large that offset plus length wraps makes Generate write outside of the array.", "quantifier": "all machines, providers, policies, sizes, arrays and windows", "why_tests_cant": "the seeds differ on every run; the claim is about every seed and every size", "anchors": ["CEX/SymmetricKeyGenerator.cpp: SymmetricKeyGenerator, GetSymmetricKey, GetSecureKey, Generate", "CEX/ProviderFromName.cpp: GetInstance", "CEX/SHAKE.cpp: Initialize, Generate"]}
