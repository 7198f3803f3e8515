{
 "claims": [
  {
   "property": "C01",
   "status": "proved",
   "theorems": [
    "C01_be16_round_trip",
    "C01_be32_round_trip",
    "C01_be64_round_trip",
    "C01_le_round_trip",
    "C01_be_read",
    "C01_le_read_length"
   ],
   "note": ""
  },
  {
   "property": "C02",
   "status": "proved",
   "theorems": [
    "C02_be_increment",
    "C02_be_increment_range",
    "C02_le_increment",
    "C02_le_increment_words"
   ],
   "note": ""
  },
  {
   "property": "C03",
   "status": "proved",
   "theorems": [
    "C03_be_increase_exact_iff",
    "C03_le_increase_exact_iff",
    "C03_be_increase_refuted",
    "C03_le_increase_refuted",
    "C03_le_increase_words"
   ],
   "note": "The unrestricted claim is false of the code (C03_*_refuted); C03_*_exact_iff characterises exactly when it holds."
  },
  {
   "property": "C04",
   "status": "proved",
   "theorems": [
    "C04_compare_iff_equal",
    "C04_verify_zero_iff_equal"
   ],
   "note": ""
  },
  {
   "property": "C05",
   "status": "proved",
   "theorems": [
    "C05_rotl_bits",
    "C05_rotr_bits",
    "C05_rotr_inverts_rotl",
    "C05_rotr_is_rotl_complement",
    "C05_rot_by_zero_undefined"
   ],
   "note": ""
  },
  {
   "property": "C06",
   "status": "proved",
   "theorems": [
    "C06_xor_exact",
    "C06_copy_exact",
    "C06_set_value_exact",
    "C06_xor_pad_exact"
   ],
   "note": ""
  },
  {
   "property": "C07",
   "status": "proved",
   "theorems": [
    "C07_and_aligned",
    "C07_or_aligned",
    "C07_and_tail_skipped",
    "C07_or_tail_skipped",
    "C07_and_refuted",
    "C07_or_refuted",
    "C07_or128_portable_refuted"
   ],
   "note": "False of the code for ranges with a tail (C07_*_refuted, C07_*_tail_skipped for all data); exact for aligned lengths."
  },
  {
   "property": "C08",
   "status": "proved",
   "theorems": [
    "C08_pkcs7_round_trip",
    "C08_pkcs7_block_round_trip"
   ],
   "note": ""
  },
  {
   "property": "C09",
   "status": "proved",
   "theorems": [
    "C09_x923_round_trip",
    "C09_x923_block_round_trip"
   ],
   "note": ""
  },
  {
   "property": "C10",
   "status": "proved",
   "theorems": [
    "C10_esp_round_trip",
    "C10_esp_block_round_trip",
    "C10_zeroone_round_trip",
    "C10_zeroone_block_round_trip"
   ],
   "note": ""
  },
  {
   "property": "C11",
   "status": "proved",
   "theorems": [
    "C11_pkcs7_accepts_iff",
    "C11_x923_accepts_iff",
    "C11_esp_accepts_iff",
    "C11_zeroone_accepts_iff",
    "C11_pkcs7_sound",
    "C11_x923_sound",
    "C11_esp_sound",
    "C11_pkcs7_first_byte_refuted",
    "C11_x923_first_byte_refuted",
    "C11_short_block_ub"
   ],
   "note": "Exact acceptance conditions proved; the first byte of the range is never compared by PKCS7/X923 (C11_*_refuted)."
  },
  {
   "property": "C12",
   "status": "proved",
   "theorems": [
    "C12_ecb_blockwise",
    "C12_ecb_decrypt_inverts"
   ],
   "note": ""
  },
  {
   "property": "C13",
   "status": "proved",
   "theorems": [
    "C13_cbc_encrypt_history",
    "C13_cbc_decrypt_history",
    "C13_cbc_round_trip",
    "C13_cbc_in_place_sequential",
    "C13_cbc_parallel_in_place_refuted"
   ],
   "note": "In-place decryption through the parallel path is order dependent and refuted (C13_*_refuted); everything else proved."
  },
  {
   "property": "C14",
   "status": "proved",
   "theorems": [
    "C14_cfb_encrypt_history",
    "C14_cfb_decrypt_history",
    "C14_cfb_round_trip",
    "C14_cfb_nonce_loading"
   ],
   "note": ""
  },
  {
   "property": "C15",
   "status": "proved",
   "theorems": [
    "C15_ofb_history",
    "C15_ofb_self_inverse",
    "C15_ofb_in_place",
    "C15_ofb_rejects_partial_blocks"
   ],
   "note": ""
  },
  {
   "property": "C16",
   "status": "proved",
   "theorems": [
    "C16_ctr_definition",
    "C16_icm_definition",
    "C16_ctr_self_inverse",
    "C16_icm_self_inverse"
   ],
   "note": ""
  },
  {
   "property": "C17",
   "status": "proved",
   "theorems": [
    "C17_ctr_counters_distinct",
    "C17_icm_counters_distinct",
    "C17_ctr_parallel_keystream_reuse_refuted",
    "C17_icm_parallel_keystream_reuse_refuted"
   ],
   "note": "Distinctness proved for the counters of any history whose parallel blocks are within the bound; beyond it keystream reuse is a witness (C17_*_refuted)."
  },
  {
   "property": "C18",
   "status": "proved",
   "theorems": [
    "C18_ctr_parallel_is_sequential",
    "C18_icm_parallel_is_sequential",
    "C18_ctr_parallel_is_sequential_small_blocks",
    "C18_icm_parallel_is_sequential_small_blocks",
    "C18_ctr_parallel_differs_refuted",
    "C18_icm_parallel_differs_refuted"
   ],
   "note": "Exact when positioning is exact; refuted beyond (witness)."
  },
  {
   "property": "C19",
   "status": "proved",
   "theorems": [
    "C19_ctr_aligned_split",
    "C19_icm_aligned_split",
    "C19_ctr_unaligned_split_refuted",
    "C19_icm_unaligned_split_refuted"
   ],
   "note": "Aligned splits proved; unaligned splits refuted by witness, as the property states."
  },
  {
   "property": "C20",
   "status": "proved",
   "theorems": [
    "C20_ctr_in_place_zero",
    "C20_icm_in_place_zero",
    "C20_cfb_encrypt_in_place_zero",
    "C20_cfb_decrypt_in_place_zero"
   ],
   "note": "The statement is the negative one: in place the output is zero."
  },
  {
   "property": "C21",
   "status": "proved",
   "theorems": [
    "C21_permute_is_field_product",
    "C21_product_is_remainder",
    "C21_commutative",
    "C21_linear"
   ],
   "note": ""
  },
  {
   "property": "C22",
   "status": "proved",
   "theorems": [
    "C22_ghash_any_chunking"
   ],
   "note": ""
  },
  {
   "property": "C23",
   "status": "proved",
   "theorems": [
    "C23_encrypt_definition",
    "C23_round_trip"
   ],
   "note": ""
  },
  {
   "property": "C24",
   "status": "proved",
   "theorems": [
    "C24_decrypt_exact"
   ],
   "note": ""
  },
  {
   "property": "C25",
   "status": "proved",
   "theorems": [
    "C25_keyless_tag_ignores_data",
    "C25_keyless_forgery_accepted",
    "C25_keyless_tag_refuted",
    "C25_keyless_keystream_repeats"
   ],
   "note": "The property is false of the code: C25_keyless_tag_refuted, with the exact behaviour for every input in the other C25 theorems."
  },
  {
   "property": "C26",
   "status": "proved",
   "theorems": [
    "C26_every_history",
    "C26_reuse_refuted"
   ],
   "note": "Every call history over every block cipher; C26_reuse_refuted is the reuse the statement excludes."
  },
  {
   "property": "C27",
   "status": "proved",
   "theorems": [
    "C27_every_history256",
    "C27_every_history512",
    "C27_is_hmac512",
    "C27_stateless256",
    "C27_stateless512",
    "C27_stateless_long_key_refuted"
   ],
   "note": "Every call history for SHA2-256 and SHA2-512; the stateless forms for keys up to one block, C27_stateless_long_key_refuted beyond."
  },
  {
   "property": "C28",
   "status": "proved",
   "theorems": [
    "C28_is_poly1305_native",
    "C28_is_poly1305_donna",
    "C28_every_history_native",
    "C28_every_history_donna",
    "C28_builds_agree",
    "C28_reuse_refuted"
   ],
   "note": "Every message, chunking and call history, for both 128-bit integer types; C28_reuse_refuted: Finalize does not end the message."
  },
  {
   "property": "C29",
   "status": "proved",
   "theorems": [
    "C29_every_history",
    "C29_is_kmac",
    "C29_distinct_messages_refuted",
    "C29_distinct_lengths_refuted",
    "C29_stateless",
    "C29_stateless_empty_refuted"
   ],
   "note": "Every call history in all three modes; equal to SP 800-185 KMAC exactly when the encoded length fits, the truncation the statement names is C29_distinct_messages_refuted and C29_distinct_lengths_refuted.  Customization strings whose length field would cross a block (possible only with a replaced function name) are excluded by fits_block."
  },
  {
   "property": "C30",
   "status": "proved",
   "theorems": [
    "C30_every_history",
    "C30_compute256"
   ],
   "note": ""
  },
  {
   "property": "C31",
   "status": "proved",
   "theorems": [
    "C31_every_history",
    "C31_is_sha512",
    "C31_length_field_refuted",
    "C31_compute512",
    "C31_compute384"
   ],
   "note": "Exact characterisation for every history; C31_length_field_refuted is the exception the statement names."
  },
  {
   "property": "C32",
   "status": "proved",
   "theorems": [
    "C32_unrolled256",
    "C32_compact256",
    "C32_unrolled512",
    "C32_compact512"
   ],
   "note": ""
  },
  {
   "property": "C33",
   "status": "proved",
   "theorems": [
    "C33_digest256",
    "C33_digest512",
    "C33_collision256",
    "C33_collision512",
    "C33_every_leaf_refuted"
   ],
   "note": "The claim is false of the code, as the statement says: C33_every_leaf_refuted gives collisions for every even leaf count, C33_digest256/512 the exact digest."
  },
  {
   "property": "C34",
   "status": "proved",
   "theorems": [
    "C34_every_history256",
    "C34_every_history512",
    "C34_stateless"
   ],
   "note": ""
  },
  {
   "property": "C35",
   "status": "proved",
   "theorems": [
    "C35_unrolled24",
    "C35_unrolled48",
    "C35_compact",
    "C35_bijective"
   ],
   "note": ""
  },
  {
   "property": "C36",
   "status": "proved",
   "theorems": [
    "C36_blake256_compression",
    "C36_blake512_compression",
    "C36_blake256_unkeyed",
    "C36_blake512_unkeyed",
    "C36_blake256_history",
    "C36_blake512_history",
    "C36_blake256_params",
    "C36_blake512_params",
    "C36_blake512_distribution_refuted",
    "C36_blake256_keyed",
    "C36_blake512_keyed",
    "C36_salt_refuted",
    "C36_second_message_refuted",
    "C36_tree256_split",
    "C36_tree512_split",
    "C36_tree256_collision_refuted",
    "C36_tree512_collision_refuted",
    "C36_tree256_cores_refuted",
    "C36_tree512_cores_refuted",
    "C36_tree256_degree_refuted",
    "C36_tree512_offset_refuted",
    "C36_config256",
    "C36_config512"
   ],
   "note": "Sequential mode: every call history.  Tree mode: split independence for messages that fit the buffer, the exceptions the statement names are the C36_*_refuted theorems; no digest specification for the tree mode.  Vector permutations are not modelled."
  },
  {
   "property": "C37",
   "status": "proved",
   "theorems": [
    "C37_every_history256",
    "C37_every_history512",
    "C37_one_request256",
    "C37_one_request512",
    "C37_too_long256",
    "C37_limit_refuted",
    "C37_repeats_refuted",
    "C37_short_salt_refuted",
    "C37_stale_info_refuted",
    "C37_secure_offset_refuted",
    "C37_extract256",
    "C37_extract_rekeys_refuted"
   ],
   "note": "Every call history over HMAC-SHA2-256/512 and the RFC 5869 output for one request; the limit, short salts, stale info, SecureVector offsets and Extract on an initialized object are the C37_*_refuted witnesses."
  },
  {
   "property": "C38",
   "status": "proved",
   "theorems": [
    "C38_kdf2_every_history256",
    "C38_kdf2_every_history512",
    "C38_kdf2_salted256",
    "C38_kdf2_salted512",
    "C38_kdf2_long_key256",
    "C38_kdf2_limit256",
    "C38_kdf2_collision_refuted",
    "C38_kdf2_salt_and_info_refuted",
    "C38_pbkdf2_salt_and_info_refuted",
    "C38_pbkdf2_every_history256",
    "C38_pbkdf2_every_history512",
    "C38_pbkdf2_one_request256",
    "C38_pbkdf2_one_request512",
    "C38_pbkdf2_short_key_refuted",
    "C38_pbkdf2_zero_iterations_refuted"
   ],
   "note": "Every call history (IV and info not given together, which is C38_*_salt_and_info_refuted) and the standard output for one request, for every iteration count."
  },
  {
   "property": "C39",
   "status": "proved",
   "theorems": [
    "C39_every_history",
    "C39_prefix",
    "C39_split_refuted",
    "C39_stateless",
    "C39_stateless_custom"
   ],
   "note": "Every call history in all four modes; C39_split_refuted shows that several requests are not one longer request."
  },
  {
   "property": "C40",
   "status": "proved",
   "theorems": [
    "C40_every_history",
    "C40_fips",
    "C40_round_trip",
    "C40_long_key_refuted",
    "C40_uninitialised_refuted",
    "C40_1024_refuted"
   ],
   "note": "Constant-time code without AVX; variants HKDF256, HKDF512, SHAKE256, SHAKE512 and none (SHAKE128 is not instantiated).  The exceptions the statement names are the C40_*_refuted theorems."
  },
  {
   "property": "C41",
   "status": "proved",
   "theorems": [
    "C41_every_history",
    "C41_published",
    "C41_key_order_refuted",
    "C41_round_trip",
    "C41_other_lengths",
    "C41_uninitialised_refuted"
   ],
   "note": "Code without AVX; variants HKDF256, HKDF512, SHAKE256, SHAKE512 and none (SHAKE128 is not instantiated).  The exceptions the statement names are the C41_*_refuted theorems."
  },
  {
   "property": "C42",
   "status": "proved",
   "theorems": [
    "C42_block",
    "C42_block_compact",
    "C42_csx_block",
    "C42_every_history",
    "C42_round_trip",
    "C42_schedules",
    "C42_aligned_split",
    "C42_split_refuted",
    "C42_in_place_refuted",
    "C42_parallel_tail_refuted",
    "C42_uninitialised_refuted",
    "C42_early_call_refuted",
    "C42_short_code_refuted"
   ],
   "note": "Both permutations for every state and counter, and every call history; the exceptions the statement names are the C42_*_refuted theorems."
  },
  {
   "property": "C43",
   "status": "proved",
   "theorems": [
    "C43_format",
    "C43_round_trip",
    "C43_injective",
    "C43_every_stream",
    "C43_long_key_refuted",
    "C43_exact_65536_refuted",
    "C43_key_sizes"
   ],
   "note": "Round trip, injectivity, the exact behaviour on every byte string; sizes of 65536 and more refuted as the statement says."
  },
  {
   "property": "C44",
   "status": "proved",
   "theorems": [
    "C44_encrypt_padded",
    "C44_encrypt_aligned",
    "C44_counter",
    "C44_round_trip",
    "C44_counter_round_trip",
    "C44_one_block_refuted",
    "C44_padding_like_tail_refuted",
    "C44_distinct_messages_refuted",
    "C44_offset_encrypt_refuted",
    "C44_offset_decrypt_refuted",
    "C44_stream_encrypt",
    "C44_stream_counter",
    "C44_stream_round_trip",
    "C44_stream_one_block_refuted"
   ],
   "note": "All modes CipherStream can drive and ECB; the exceptions the statement names are the C44_*_refuted theorems.  Progress events are not modelled."
  },
  {
   "property": "C45",
   "status": "proved",
   "theorems": [
    "C45_history",
    "C45_range",
    "C45_no_byte_twice",
    "C45_unsigned_uniform",
    "C45_signed_uniform_refuted",
    "C45_int16_wide_refuted",
    "C45_whole_range_refuted",
    "C45_wide_range_refuted"
   ],
   "note": "The engine is any byte sequence; NextDouble is not modelled.  The exceptions the statement names are the C45_*_refuted theorems."
  },
  {
   "property": "C46",
   "status": "proved",
   "theorems": [
    "C46_every_history",
    "C46_round_trip",
    "C46_tampered_tag",
    "C46_serialize",
    "C46_serialize_later",
    "C46_serialize_plain_refuted",
    "C46_uninitialised_refuted"
   ],
   "note": "Every call history and every conversation; acceptance is exact, so what an altered ciphertext needs is a KMAC collision."
  },
  {
   "property": "C47",
   "status": "proved",
   "theorems": [
    "C47_expand_mask",
    "C47_predicates",
    "C47_conditional_copy",
    "C47_cmov",
    "C47_value_or_zero",
    "C47_cmax_refuted",
    "C47_cmin_refuted",
    "C47_diffmask_bytes",
    "C47_diffmask_words_refuted"
   ],
   "note": "CMax, CMin and 16-bit DiffMask are refuted; the other helpers are proved."
  },
  {
   "property": "C48",
   "status": "proved",
   "theorems": [
    "C48_shift_left_doubles",
    "C48_mod_power_of_two",
    "C48_crop",
    "C48_is_power_of_two",
    "C48_parity",
    "C48_hex_round_trip"
   ],
   "note": ""
  },
  {
   "property": "C49",
   "status": "proved",
   "theorems": [
    "C49_is_gcm",
    "C49_twelve_byte_nonce",
    "C49_counter_width_refuted"
   ],
   "note": "False in general (C49_counter_width_refuted); proved under the exact no-overflow condition."
  },
  {
   "property": "C50",
   "status": "proved",
   "theorems": [
    "C50_digest256",
    "C50_digest512",
    "C50_one_value"
   ],
   "note": ""
  },
  {
   "property": "C51",
   "status": "proved",
   "theorems": [
    "C51_multiply",
    "C51_add",
    "C51_add_word",
    "C51_carry_shift",
    "C51_shift_right",
    "C51_shift_right_refuted",
    "C51_shift_left_refuted",
    "C51_combine_refuted"
   ],
   "note": "Multiplication, addition and CarryShift exact; operator >>, operator << and CombineLow refuted as the statement says."
  },
  {
   "property": "C52",
   "status": "proved",
   "theorems": [
    "C52_round_trip",
    "C52_constructor",
    "C52_every_stream"
   ],
   "note": "Round trip and the exact behaviour on every byte string."
  },
  {
   "property": "C53",
   "status": "proved",
   "theorems": [
    "C53_every_history",
    "C53_read_offset_refuted",
    "C53_set_length_refuted",
    "C53_past_end_refuted",
    "C53_copy_to"
   ],
   "note": "Every call history that is meaningful for a file; the excluded calls are the C53_*_refuted witnesses."
  },
  {
   "property": "C54",
   "status": "proved",
   "theorems": [
    "C54_round_trip",
    "C54_generate"
   ],
   "note": "Every item list and initial size."
  },
  {
   "property": "C55",
   "status": "proved",
   "theorems": [
    "C55_contents",
    "C55_clone",
    "C55_clone_unsalted_refuted"
   ],
   "note": "The stream cipher and the machine key are parameters; the cipher is assumed to decrypt what it encrypts."
  },
  {
   "property": "C56",
   "status": "proved",
   "theorems": [
    "C56_format",
    "C56_round_trip",
    "C56_clone",
    "C56_every_string",
    "C56_other_sizes_refuted",
    "C56_equals",
    "C56_equals_refuted",
    "C56_hash_overflow_refuted"
   ],
   "note": "The exceptions the statement names are the C56_*_refuted theorems; C56_equals is for LeafLength up to 2^26 (no overflow)."
  },
  {
   "property": "C57",
   "status": "proved",
   "theorems": [
    "C57_every_history",
    "C57_round_trip",
    "C57_schedules",
    "C57_aligned_split",
    "C57_tampered_tag",
    "C57_serialize",
    "C57_reinitialize",
    "C57_reinitialize_without_info",
    "C57_in_place_refuted",
    "C57_parallel_carry_refuted",
    "C57_same_stream_refuted",
    "C57_short_info_refuted",
    "C57_uninitialized_auth_refuted",
    "C57_uninitialized_refuted"
   ],
   "note": "Code without AES-NI and AVX; a worker of a parallel call is atomic.  The exceptions the statement names are the C57_*_refuted and C57_reinitialize_without_info theorems."
  },
  {
   "property": "C58",
   "status": "proved",
   "theorems": [
    "C58_both_sides_agree",
    "C58_total",
    "C58_key_layout",
    "C58_secret_size",
    "C58_one_ciphertext_refuted",
    "C58_short_ciphertext_refuted"
   ],
   "note": "Agreement under the exact no-failure condition; the probability of failure is not modelled.  The exceptions the statement names are the C58_*_refuted theorems."
  },
  {
   "property": "C59",
   "status": "proved",
   "theorems": [
    "C59_barrett",
    "C59_montgomery",
    "C59_product",
    "C59_inner_product"
   ],
   "note": ""
  },
  {
   "property": "C60",
   "status": "proved",
   "theorems": [
    "C60_keys",
    "C60_ciphertexts",
    "C60_rounding",
    "C60_message_written",
    "C60_message_read",
    "C60_message_error_832_refuted",
    "C60_noise"
   ],
   "note": "C60_message_error_832_refuted shows that the tolerance stated is sharp."
  },
  {
   "property": "C61",
   "status": "proved",
   "theorems": [
    "C61_sampled",
    "C61_reduced_and_transposed",
    "C61_every_seed_refuted"
   ],
   "note": "The seeds the statement excepts are the subject of C61_every_seed_refuted."
  },
  {
   "property": "C62",
   "status": "proved",
   "theorems": [
    "C62_accepts_only_reencryption"
   ],
   "note": ""
  },
  {
   "property": "C63",
   "status": "proved",
   "theorems": [
    "C63_every_history",
    "C63_one_message"
   ],
   "note": ""
  },
  {
   "property": "C64",
   "status": "proved",
   "theorems": [
    "C64_sizes",
    "C64_modes",
    "C64_sized",
    "C64_refused",
    "C64_block",
    "C64_flag_refuted",
    "C64_degree_refuted"
   ],
   "note": "The exceptions the statement names are C64_flag_refuted and C64_degree_refuted."
  },
  {
   "property": "C65",
   "status": "proved",
   "theorems": [
    "C65_any_stream",
    "C65_any_digest",
    "C65_any_mac",
    "C65_sha256",
    "C65_sha512",
    "C65_sha3",
    "C65_parallel256",
    "C65_parallel512",
    "C65_hmac256",
    "C65_hmac512",
    "C65_empty_refuted"
   ],
   "note": "The exception the statement names is C65_empty_refuted; any object (C65_any_*) and the digests and HMACs of C31 to C33 and C27."
  },
  {
   "property": "C66",
   "status": "proved",
   "theorems": [
    "C66_tsx256_block",
    "C66_tsx512_block",
    "C66_tsx1024_block",
    "C66_tsx512_threefish_refuted",
    "C66_tsx1024_threefish_refuted",
    "C66_skein256_block",
    "C66_skein512_block",
    "C66_skein1024_block",
    "C66_counters_differ",
    "C66_blocks_differ"
   ],
   "note": "The two deviations the statement names are the _refuted theorems."
  },
  {
   "property": "C67",
   "status": "proved",
   "theorems": [
    "C67_every_history",
    "C67_round_trip",
    "C67_schedules",
    "C67_aligned_split",
    "C67_in_place_refuted",
    "C67_uninitialised_refuted",
    "C67_short_info_refuted"
   ],
   "note": "Scalar code; a worker of a parallel call is atomic.  The exceptions the statement names are the C67_*_refuted theorems."
  },
  {
   "property": "C68",
   "status": "proved",
   "theorems": [
    "C68_every_history",
    "C68_round_trip",
    "C68_tampered_tag",
    "C68_refusal_hides_tag_refuted",
    "C68_room_refuted",
    "C68_uninitialised_refuted"
   ],
   "note": "Scalar code; a worker of a parallel call is atomic.  Unforgeability of KMAC is not claimed: a packet with the right ciphertext and any other tag is refused.  The exceptions the statement names are the C68_*_refuted theorems."
  },
  {
   "property": "C69",
   "status": "proved",
   "theorems": [
    "C69_history",
    "C69_standard",
    "C69_params",
    "C69_fan_out"
   ],
   "note": "Scalar code."
  },
  {
   "property": "C70",
   "status": "proved",
   "theorems": [
    "C70_history",
    "C70_profile",
    "C70_few_processors_refuted",
    "C70_root_refuted"
   ],
   "note": "Scalar code; a leaf worker is atomic.  The exceptions the statement names are the C70_*_refuted theorems."
  },
  {
   "property": "C71",
   "status": "proved",
   "theorems": [
    "C71_new",
    "C71_round_trip",
    "C71_short_refuted",
    "C71_equals_refuted",
    "C71_output_refuted"
   ],
   "note": "The exceptions the statement names are the C71_*_refuted theorems."
  },
  {
   "property": "C72",
   "status": "proved",
   "theorems": [
    "C72_every_history",
    "C72_ciphers",
    "C72_round_trip"
   ],
   "note": "Scalar code; a worker of a parallel call is atomic.  Poly1305, the profile check of Initialize and in-place calls are not modelled."
  },
  {
   "property": "C73",
   "status": "proved",
   "theorems": [
    "C73_tampered_tag",
    "C73_refused_transform_refuted",
    "C73_after_refusal_refuted",
    "C73_tag_oracle_refuted",
    "C73_associated_window_refuted",
    "C73_short_info_refuted",
    "C73_cipher_key_size_refuted"
   ],
   "note": "Unforgeability of the MACs is not claimed: a packet with the right ciphertext and any other tag is refused.  The exceptions the statement names are the C73_*_refuted theorems."
  },
  {
   "property": "C74",
   "status": "proved",
   "theorems": [
    "C74_every_history",
    "C74_one_stream",
    "C74_update_after_init_refuted",
    "C74_pointer_constructor_refuted",
    "C74_pointer_1024_refuted"
   ],
   "note": "The statement names its two exceptions; they are the theorems with the suffix _refuted."
  },
  {
   "property": "C75",
   "status": "proved",
   "theorems": [
    "C75_every_history",
    "C75_memory_cost_refuted"
   ],
   "note": "The statement names its exception; it is the theorem with the suffix _refuted."
  },
  {
   "property": "C76",
   "status": "proved",
   "theorems": [
    "C76_every_history_sha256",
    "C76_every_history_sha512",
    "C76_whole_blocks_sha256",
    "C76_whole_blocks_sha512",
    "C76_split_refuted",
    "C76_update_seed_size_refuted",
    "C76_pointer_constructor_refuted"
   ],
   "note": "The statement names its three exceptions; they are the theorems with the suffix _refuted."
  },
  {
   "property": "C77",
   "status": "proved",
   "theorems": [
    "C77_every_history",
    "C77_whole_blocks",
    "C77_parallel_refuted",
    "C77_reseed_limit_refuted",
    "C77_refused_seed_refuted",
    "C77_double_count_refuted",
    "C77_uninitialised_update_refuted",
    "C77_update_customization_refuted"
   ],
   "note": "The statement names its six exceptions; they are the theorems with the suffix _refuted."
  },
  {
   "property": "C78",
   "status": "proved",
   "theorems": [
    "C78_every_history",
    "C78_no_byte_twice",
    "C78_erased",
    "C78_window_overrun_refuted",
    "C78_split_refuted"
   ],
   "note": "The statement names its exceptions: the first two are the theorems with the suffix _refuted, the third is part of C78_every_history."
  },
  {
   "property": "C79",
   "status": "proved",
   "theorems": [
    "C79_every_history",
    "C79_as_a_file",
    "C79_constructors",
    "C79_copy_to",
    "C79_destroyed",
    "C79_gap_refuted",
    "C79_same_pad_refuted",
    "C79_salt_refuted"
   ],
   "note": "The statement names its three exceptions; they are the theorems with the suffix _refuted."
  },
  {
   "property": "C80",
   "status": "proved",
   "theorems": [
    "C80_contents",
    "C80_stored",
    "C80_constructor",
    "C80_tampered",
    "C80_authenticated_refuted",
    "C80_reset_refuted",
    "C80_policies_refuted"
   ],
   "note": "The statement names its three exceptions; they are the theorems with the suffix _refuted."
  },
  {
   "property": "C81",
   "status": "proved",
   "theorems": [
    "C81_every_history",
    "C81_tag",
    "C81_tag_size_refuted",
    "C81_offset_refuted",
    "C81_second_message_refuted",
    "C81_reset_refuted"
   ],
   "note": "The statement names its four exceptions; they are the theorems with the suffix _refuted."
  },
  {
   "property": "C82",
   "status": "proved",
   "theorems": [
    "C82_key",
    "C82_bytes",
    "C82_guards",
    "C82_info_refuted",
    "C82_policies_refuted",
    "C82_window_refuted"
   ],
   "note": "The statement names its three exceptions; they are the theorems with the suffix _refuted.  Sizes above 1024000 blocks, which SHAKE refuses, are outside of the hypotheses."
  }
 ]
}