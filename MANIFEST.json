{
 "claims": [
  {
   "property": "C01",
   "status": "proved",
   "theorems": [
    "segtree_is_set",
    "segtree_segments_maximal",
    "segtree_max_item_refuted"
   ],
   "note": "SegmentTree modelled operation by operation with 64-bit item+1; the largest size_t value is excluded by hypothesis and shown to fail (segtree_max_item_refuted)."
  },
  {
   "property": "C02",
   "status": "proved",
   "theorems": [
    "key_accepted_iff",
    "wire_key_round_trip",
    "wire_key_injective",
    "wire_key_not_control",
    "size_text_round_trip",
    "plain_key_round_trip"
   ],
   "note": "keys are byte strings of any length, ids are all of 0..2^64-1"
  },
  {
   "property": "C03",
   "status": "proved",
   "theorems": [
    "chunks_nothing_early",
    "chunks_exact",
    "chunks_interleaved",
    "send_chunked_covers"
   ],
   "note": "any size, any chunk size, any arrival order and duplication, any number of messages in flight"
  },
  {
   "property": "C04",
   "status": "proved",
   "theorems": [
    "delivered_at_most_once",
    "arrived_message_accounted",
    "honest_peers_memory_safe",
    "same_key_twice_refuted"
   ],
   "note": "for every run of the two-party channel model; same_key_twice_refuted records that a second message under an unread key is dropped silently"
  },
  {
   "property": "C05",
   "status": "proved",
   "theorems": [
    "throttle_window",
    "ack_is_truthful",
    "throttle_progress_refuted"
   ],
   "note": "safety bound holds for every run; throttle_progress_refuted shows two racing send calls can deadlock the send thread when w is small"
  },
  {
   "property": "C06",
   "status": "proved",
   "theorems": [
    "finish_condition_exact",
    "finish_never_early",
    "finish_means_all_received",
    "finish_means_all_delivered",
    "finish_racing_send_refuted"
   ],
   "note": "needs: no send call overlaps the sender's own WaitLinkTaskFinish; finish_racing_send_refuted shows the hypothesis is needed"
  },
  {
   "property": "C07",
   "status": "proved",
   "theorems": [
    "event_key_injective",
    "context_keys_never_repeat",
    "p2p_keys_match",
    "coll_keys_match",
    "p2p_counter_overflow_refuted"
   ],
   "note": "Keys of one context never repeat and match between peers while the p2p counter stays below 2^31; the int counter overflows there, shown by p2p_counter_overflow_refuted."
  },
  {
   "property": "C08",
   "status": "partial",
   "theorems": [
    "spawn_isolated_partial",
    "spawn_isolated_refuted",
    "spawn_nested_refuted",
    "sub_world_close_guard_refuted",
    "sub_world_ranks_correct"
   ],
   "note": "Isolation holds for default-named children of one parent; a caller-chosen id can collide with a default one and break it (refuted with witnesses)."
  },
  {
   "property": "C09",
   "status": "proved",
   "theorems": [
    "neighbour_ranks",
    "neighbour_ranks_ring",
    "prev_rank_large_stride_refuted"
   ],
   "note": "Holds for strides up to the world size; larger strides wrap, shown by the refuted theorem."
  },
  {
   "property": "C10",
   "status": "proved",
   "theorems": [
    "allgather_result",
    "collectives_no_deadlock",
    "collectives_terminate",
    "collectives_addresses"
   ],
   "note": "Single-buffer form; any number of parties, calls and schedules."
  },
  {
   "property": "C100",
   "status": "proved",
   "theorems": [
    "base_ot_delivers",
    "base_ot_session_correct",
    "base_ot_choices_hidden",
    "base_ot_recv_refuses",
    "base_ot_send_refuses",
    "random_oracle_index_separates",
    "random_oracle_gen_defined",
    "random_oracle_sane_answers",
    "random_oracle_forms_separate_refuted"
   ],
   "note": "The group of the library is abstract (ot_group); hiding is a bijection of the scalars, so equality of distributions for uniform scalars. Secrecy of the other block is computational and not claimed. Gen(x) and Gen(x, y) are not separated from each other (witness)."
  },
  {
   "property": "C101",
   "status": "partial",
   "theorems": [
    "base_ot_session_correct",
    "base_ot_portable_counts_agree",
    "base_ot_mixed_libraries",
    "base_ot_counts_agree_refuted"
   ],
   "note": "A session throws exactly when the padded counts differ. Portable library: every disagreement is refused. x86 library: counts that agree after rounding up to a multiple of four go unnoticed (refuted by 5 against 7). A portable and an x86 party refuse each other exactly when 4 does not divide the number of OTs."
  },
  {
   "property": "C102",
   "status": "partial",
   "theorems": [
    "leveldb_store_last_put",
    "memory_store_first_put",
    "store_counts_keys",
    "store_found_iff_put",
    "store_get_buffer",
    "stores_agree_on_new_keys",
    "memory_store_overwrites_refuted",
    "index_keys_distinct",
    "index_store_reads",
    "index_store_reads_buffer",
    "index_store_count"
   ],
   "note": "Holds for LevelDB. False for the memory store, which keeps the first value (std::map::insert): refuted by a key put twice, and proved exactly (first value); both agree if no key is put twice."
  },
  {
   "property": "C103",
   "status": "partial",
   "theorems": [
    "gm_drbg_history",
    "gm_drbg_fill_length",
    "gm_drbg_ignores_entropy",
    "gm_drbg_reseed_fails",
    "gm_drbg_short_additional_input",
    "gm_drbg_depends_on_entropy_refuted",
    "gm_drbg_serves_refuted",
    "rdseed_sizes"
   ],
   "note": "Exact behaviour proved for all histories of Fill. The property fails: derive passes a null length pointer to EVP_CipherUpdate, which fails and leaves zeroes, so the seed is constant and all generators return the same bytes; ReSeed always throws (buffer size compared with 32), hence the 1025th request throws; requests above 16 bytes throw; additional input of 1 to 31 bytes is read out of bounds (Sm4Drbg::Generate, not reachable through NativeDrbg). Rests on OpenSSL 3's handling of the null pointer."
  },
  {
   "property": "C104",
   "status": "partial",
   "theorems": [
    "sync_drbg_fill",
    "sync_drbg_fill_bounds",
    "sync_drbg_fork",
    "sync_drbg_sync",
    "sync_drbg_sync_outputs",
    "sync_drbg_reachable",
    "sync_drbg_fill_unfilled",
    "sync_drbg_failed_sync",
    "sync_drbg_fill_refuted",
    "sync_drbg_short_message_refuted",
    "sync_drbg_fork_serves"
   ],
   "note": "The Hash_DRBG library is an argument with stated laws (it writes what is asked, counts requests, asks for a reseed exactly past the interval). False of the code and refuted: when a reseed is due Fill reseeds, returns 1 and leaves the batch unwritten; a state message that is too short is read past its end. A failed synchronisation leaves the object refusing every Fill."
  },
  {
   "property": "C105",
   "status": "proved",
   "theorems": [
    "serializer_round_trip",
    "serializer_round_trip_one",
    "serializer_sizes",
    "serializer_never_overflows",
    "serializer_truncated",
    "serializer_injective",
    "serializer_no_truncation",
    "serializer_too_large",
    "serializer_head_sizes",
    "int128_halves"
   ],
   "note": "The packer, unpacker and standard converters of msgpack-c are outside the repository and are transcribed from the msgpack specification; maps, floats and extension types are not modelled."
  },
  {
   "property": "C106",
   "status": "proved",
   "theorems": [
    "item_unary",
    "item_binary",
    "item_inplace_view",
    "item_inplace_view_unary",
    "item_inplace_view_vector",
    "item_inplace_owned",
    "item_inplace_mismatch",
    "item_readonly",
    "item_sub_item",
    "field_ring",
    "field_inverses",
    "field_pow",
    "field_equal",
    "item_inplace_overlap_refuted",
    "item_wrong_type_refuted",
    "field_neg_outside_refuted"
   ],
   "note": "Proved as stated. What the claim does not extend to is refuted with witnesses: partly overlapping views depend on the schedule, an in-place call on a scalar of another type follows a null pointer, Neg and NegInplace differ outside the field in release builds. Element steps of different threads are interleaved, not overlapped."
  },
  {
   "property": "C107",
   "status": "proved",
   "theorems": [
    "item_bytes",
    "mpint_codec",
    "field_item_bytes",
    "field_deserialize_refuted"
   ],
   "note": "Proved as stated, for any element library that obeys the codec law and for MPInt. Beyond the claim: Deserialize does not check that elements are in the field (refuted)."
  },
  {
   "property": "C108",
   "status": "proved",
   "theorems": [
    "sym_round_trip",
    "sym_split",
    "sym_sizes",
    "sym_modes",
    "sym_arithmetic",
    "sym_reset",
    "sym_key_sizes",
    "sym_ecb_stateless",
    "sym_call_independent_refuted",
    "sym_decrypt_out_of_order_refuted"
   ],
   "note": "OpenSSL's block functions are arguments with the laws of a block cipher; the mode logic and the state kept between EVP updates are modelled after libcrypto."
  },
  {
   "property": "C109",
   "status": "partial",
   "theorems": [
    "gcm_decrypt_exact",
    "gcm_unverified_plaintext_refuted",
    "gcm_tag_sizes",
    "gcm_refuses",
    "gcm_huge_plaintext_refuted",
    "mte_decrypt_accepts",
    "mte_empty_plaintext_refuted",
    "mte_short_key",
    "aead_round_trip",
    "aead_mac_size_refuted",
    "aead_mte_additional_data_refuted",
    "aead_mte_no_release"
   ],
   "note": "Round trip and exact acceptance proved (sizes below 2^31 for GCM, non-empty plaintexts for mac-then-encrypt). False parts are refuted: GCM leaves the unverified plaintext in the buffer, tag sizes are unchecked, a 4 GiB plaintext is not encrypted at all, GetMacSize returns the key size, mac-then-encrypt ignores the additional data and cannot decrypt the empty plaintext."
  },
  {
   "property": "C11",
   "status": "proved",
   "theorems": [
    "broadcast_result",
    "collectives_no_deadlock",
    "collectives_terminate",
    "collectives_addresses"
   ],
   "note": "Root below the world size (the code does not check it)."
  },
  {
   "property": "C110",
   "status": "partial",
   "theorems": [
    "sm_envelope_round_trip",
    "rsa_envelope_round_trip",
    "sm_envelope_open_exact",
    "rsa_envelope_open_exact",
    "sm_envelope_short_key_refuted",
    "rsa_envelope_key_size"
   ],
   "note": "Round trips (non-empty plaintext for SmEnv) and exact acceptance proved; refuted: an envelope around a key shorter than 16 bytes, which anyone can make, lets SmEnvOpen read out of bounds instead of throwing."
  },
  {
   "property": "C111",
   "status": "proved",
   "theorems": [
    "spi_register_conflict",
    "spi_list_libraries",
    "spi_create_named",
    "spi_create_best",
    "spi_list_libraries_for",
    "spi_create_iff_listed",
    "spi_lib_not_string",
    "snake_normal_form",
    "snake_fixed",
    "snake_letters",
    "spi_arg_refused",
    "spi_args_first_wins",
    "spi_getters",
    "spi_create_spelling",
    "snake_injective_refuted",
    "spi_best_any_performance_refuted"
   ],
   "note": "Checkers are total functions. A negative performance is stored in a uint64_t key and so beats every other library (spi_best_any_performance_refuted); different argument names can share a normal form (snake_injective_refuted)."
  },
  {
   "property": "C112",
   "status": "proved",
   "theorems": [
    "aes_key_schedule_fips",
    "aes_key_expansion_exists",
    "aes_encrypt_fips",
    "aes_encrypt_ptr",
    "aes_decrypt_fips",
    "aes_cipher_bijective",
    "aes_round_trip",
    "aes_decrypt_any_length_refuted",
    "aes_opt_key_schedule_same",
    "aes_para_enc",
    "aes_batch_same",
    "aes_sbox_affine"
   ],
   "note": "Instructions follow Intel's description. The number of blocks to decrypt is cut to 32 bits, so 2^32 blocks are not decrypted at all (aes_decrypt_any_length_refuted)."
  },
  {
   "property": "C113",
   "status": "proved",
   "theorems": [
    "simple_map_correct",
    "mpcot_un_correct",
    "mpcot_un_with_helper",
    "mpcot_un_gap_faults",
    "mpcot_un_insert_throws",
    "mpcot_un_helper_enough",
    "mpcot_un_always_finishes_refuted",
    "mpcot_un_helper_one_refuted"
   ],
   "note": "The unconditional claim is false: when an empty bin precedes a bin with members the sender reads out of bounds (mpcot_un_gap_faults, witness mpcot_un_always_finishes_refuted). NumBins is a parameter; n + 1 <= 2^31 so that the uint32_t arguments do not truncate."
  },
  {
   "property": "C114",
   "status": "proved",
   "theorems": [
    "ct_crc32_correct",
    "ct_crc32_window",
    "ct_crc32_injective_refuted",
    "counter_correct",
    "declarations_compile_iff",
    "module_secparam_correct",
    "glob_is_weakest",
    "enforce_iff",
    "make_int_monotone",
    "enforce_256_refuted"
   ],
   "note": "The claim for any number of modules is false: the counter reads at most 255, so the 256th module is overlooked (enforce_256_refuted). One translation unit; printing and the LPN parameters are not modelled."
  },
  {
   "property": "C115",
   "status": "proved",
   "theorems": [
    "build_map_iff",
    "get_meta_correct",
    "get_meta_spelling",
    "predefined_consistent",
    "aliases_agree",
    "supported_creates",
    "creates_supported",
    "ec_create_best",
    "ec_create_order",
    "ec_create_named",
    "ec_create_spelling",
    "listed_curves_served",
    "toy_class_fits",
    "default_libraries",
    "openssl_listed_refuted",
    "openssl_name_mismatch_refuted"
   ],
   "note": "The last clause is false of the code for three keys: 'Oakley Group 3' and 'Oakley Group 4' are in mixed case and are compared with lower-case names, and c2pnb176v1 is called c2pnb176w1 in the curve table; listed_curves_served proves it for all other keys."
  },
  {
   "property": "C116",
   "status": "proved",
   "theorems": [
    "ssl_hash_history",
    "ssl_hash_refused",
    "xof_hash_history",
    "xof_hash_refused",
    "xof_lengths",
    "blake3_hash_history",
    "hmac_obj_history",
    "hmac_empty_key_refuted",
    "expected_chunking",
    "one_shot_correct",
    "one_shots",
    "shake_correct"
   ],
   "note": "OpenSSL and BLAKE3 contexts are modelled by algorithm, absorbed bytes and a finalised flag, with the failures their manuals state. The clause on the empty key is false under that model: the data pointer of an empty vector is null, and EVP_MAC_init then looks for a key set before."
  },
  {
   "property": "C117",
   "status": "partial",
   "theorems": [
    "get_affine_correct",
    "ed_negate_correct",
    "point_equal_sound",
    "point_equal_complete",
    "equal_points_hash",
    "point_equal_refuted",
    "copy_affine_correct",
    "copy_affine_refuted",
    "deserialize_short",
    "deserialize_rejected",
    "ed_mul_correct",
    "ed_mul_base_correct",
    "ed_mul_double_base_correct",
    "ed_double_correct",
    "ed_mul_order_two",
    "ed_mul_outside_refuted",
    "x_agreement",
    "x_inplace_agrees",
    "x_low_bits",
    "clamp_form",
    "x_inplace_refuted",
    "x_mul_one_refuted",
    "decompress_sound",
    "decompress_complete",
    "decompress_one",
    "decompress_sign_refuted"
   ],
   "note": "Relative to libsodium's field, point and ladder functions computing what their documentation says. PointEqual finding every equal pair assumes that a product has one limb form (point_equal_complete): the code compares limbs for x, and this is not proved of fe25519_mul."
  },
  {
   "property": "C118",
   "status": "proved",
   "theorems": [
    "is_infinity_iff",
    "rist_group_ops",
    "group_ops_invalid",
    "rist_negate_correct",
    "rist_mul_correct",
    "rist_mul_base_correct",
    "mul_double_base_correct",
    "mul_invalid_refuted",
    "point_equal_iff",
    "deserialize_iff",
    "deserialize_total",
    "serialize_roundtrip",
    "serialize_short",
    "hash_domain_refuted",
    "hash_domain_same_length",
    "hash_named",
    "hash_scalar_named"
   ],
   "note": "Relative to libsodium's documented contract (hypotheses of the section). Theorems are in RistrettoProps."
  },
  {
   "property": "C119",
   "status": "proved",
   "theorems": [
    "buffer_roundtrip",
    "serialize_injective",
    "fixed_width_roundtrip",
    "serialize_raw_short",
    "larger_buffer_refuted",
    "deserialize_valid",
    "deserialize_empty_refuted",
    "deserialize_bounds",
    "deserialize_malleable_refuted",
    "hash_to_curve_correct",
    "hash_to_curve_throws",
    "hash_tag_refuted",
    "shake256_refuted",
    "serialize_format",
    "hash_strategies"
   ],
   "note": "Relative to OpenSSL's point2oct/oct2point being as transcribed and to y-recovery being correct on the curve (hypotheses)."
  },
  {
   "property": "C12",
   "status": "proved",
   "theorems": [
    "gather_result",
    "scatter_result",
    "collectives_no_deadlock",
    "collectives_terminate"
   ],
   "note": "Single-buffer forms."
  },
  {
   "property": "C13",
   "status": "proved",
   "theorems": [
    "barrier_waits_for_all",
    "barrier_earlier_calls_done",
    "collectives_no_deadlock"
   ],
   "note": ""
  },
  {
   "property": "C14",
   "status": "partial",
   "theorems": [
    "mem_channel_partial",
    "mem_channel_distinct_keys",
    "mem_channel_fifo",
    "mem_channel_refuted"
   ],
   "note": "False as stated (mem_channel_refuted: a second message under an unread key is dropped); holds while keys are not reused before being read."
  },
  {
   "property": "C15",
   "status": "partial",
   "theorems": [
    "retry_delays",
    "retry_succeeds_iff",
    "proto_options_partial",
    "proto_increment_refuted",
    "retry_delay_wraps_refuted"
   ],
   "note": "The increment read from the external format is replaced by the base interval (proto_increment_refuted) and the sum wraps at 2^32 (retry_delay_wraps_refuted); everything else holds."
  },
  {
   "property": "C16",
   "status": "partial",
   "theorems": [
    "chunk_memory_safe_consistent",
    "chunk_memory_safe_refuted",
    "chunk_header_wrap_refuted"
   ],
   "note": "false of the code for arbitrary peers (witnesses by computation); proved when all chunks of a message agree on its length"
  },
  {
   "property": "C17",
   "status": "proved",
   "theorems": [
    "parallel_for_covers",
    "parallel_for_each_index_once",
    "parallel_for_edge_cases",
    "parallel_exception",
    "parallel_single_thread",
    "parallel_for_near_max_refuted"
   ],
   "note": "With the stated bound; parallel_for_near_max_refuted shows the bound is needed."
  },
  {
   "property": "C18",
   "status": "proved",
   "theorems": [
    "parallel_reduce_correct",
    "parallel_reduce_thread_count_race_refuted",
    "set_num_threads_conflict_refuted"
   ],
   "note": "For a thread count that does not change during the call; parallel_reduce_thread_count_race_refuted shows what happens otherwise."
  },
  {
   "property": "C19",
   "status": "proved",
   "theorems": [
    "pool_fifo_once",
    "pool_started_accounted",
    "pool_destructor_waits",
    "pool_rejects_after_stop",
    "pool_no_deadlock",
    "pool_terminates"
   ],
   "note": ""
  },
  {
   "property": "C20",
   "status": "proved",
   "theorems": [
    "cuckoo_places_everything_once",
    "cuckoo_sanity_check_passes",
    "cuckoo_min_colliding",
    "cuckoo_hash_count_checked"
   ],
   "note": "All option values with 1..5 hash functions, at least one bin and num_input < 2^56; every batch sequence and hash code. NumBins (floating point) is a parameter. num_hash = 0 is refuted by cuckoo_zero_hash_refuted."
  },
  {
   "property": "C21",
   "status": "partial",
   "theorems": [
    "cuckoo_rejected_insert_loses_refuted",
    "cuckoo_rejected_insert_partial",
    "cuckoo_zero_hash_refuted"
   ],
   "note": "The claim is false of the code: the witness loses an earlier input with the default max_try_count. cuckoo_rejected_insert_partial states what does hold: every input is in exactly one slot or among the lost ones, never both, never duplicated."
  },
  {
   "property": "C22",
   "status": "proved",
   "theorems": [
    "transpose128_correct",
    "transpose128_agree",
    "transpose128_involutive",
    "transpose128x1024_correct"
   ],
   "note": "Every 128x128 matrix, all four implementations including AVX2, and both 128x1024 versions. The proof runs each program once on symbolic bits (sets of input bits) and shows the word program simulates it."
  },
  {
   "property": "C23",
   "status": "proved",
   "theorems": [
    "ot_slices_never_overlap",
    "ot_next_slice",
    "ot_slices_stay_correlated"
   ],
   "note": "Every history of NextSlice calls on a store and on its slices, all store kinds, buffers below 2^60 blocks, requests below 2^63 (ot_next_slice_wraps_refuted shows larger requests wrap on a normal-mode sender). ResetSlice deliberately starts over and is outside the claim."
  },
  {
   "property": "C24",
   "status": "partial",
   "theorems": [
    "ot_slice_of_slice_refuted",
    "ot_reset_slice_escapes_refuted",
    "ot_slice_partial"
   ],
   "note": "False of the code: Slice of a slice and ResetSlice of a slice leave the slice. ot_slice_partial: Slice of a whole store is exact and throws otherwise."
  },
  {
   "property": "C25",
   "status": "proved",
   "theorems": [
    "iknp_correct",
    "iknp_random_mode"
   ],
   "note": "for every PRG, hash, platform transpose, base OTs, choice vector"
  },
  {
   "property": "C26",
   "status": "proved",
   "theorems": [
    "kos_correct"
   ],
   "note": "check passes and outputs are correct for honest parties, for every PRG, hash, seed, random check bits"
  },
  {
   "property": "C27",
   "status": "proved",
   "theorems": [
    "sgrr_correct",
    "sgrr_fixed_correct",
    "sgrr_check_sound"
   ],
   "note": "Every n > 1 (up to 2^31), index, base OTs, seed, both modes; the malicious check accepts exactly what agrees off the index."
  },
  {
   "property": "C28",
   "status": "proved",
   "theorems": [
    "gywz_correct",
    "gywz_fixed_correct",
    "gywz_ferret_correct"
   ],
   "note": "Every n > 1, index and base COTs; the fixed-index and compact (Ferret) variants too."
  },
  {
   "property": "C29",
   "status": "proved",
   "theorems": [
    "gf64_mul_correct",
    "gf128_mul_correct",
    "field_product_unique",
    "gf64_field",
    "gf128_field",
    "gf64_span_correct",
    "gf128_span_correct",
    "gf_pack_correct"
   ],
   "note": "Gf64Mul/Gf128Mul are multiplication modulo the stated irreducible polynomials; irreducibility is proved through a checked certificate. Vector and Pack forms included."
  },
  {
   "property": "C30",
   "status": "proved",
   "theorems": [
    "gf64_inv_correct"
   ],
   "note": "for any initial contents of the uninitialised temporaries"
  },
  {
   "property": "C31",
   "status": "partial",
   "theorems": [
    "universal_hash_correct",
    "universal_hash_linear",
    "extract_hash_coef_partial",
    "extract_hash_coef_refuted"
   ],
   "note": "hash formula and linearity proved; ExtractHashCoef proved for last index in [2, 2^63] (no index above the last); refuted for last index 1 (coefficient 0), throws for last index 0."
  },
  {
   "property": "C32",
   "status": "proved",
   "theorems": [
    "dpf_correct",
    "dpf_all_correct"
   ],
   "note": "Every M <= 64, N <= 128, seeds and PRGs; full-domain evaluation for every terminal level within 32 of M."
  },
  {
   "property": "C33",
   "status": "proved",
   "theorems": [
    "dcf_correct"
   ],
   "note": "Every M, N, seeds and PRGs."
  },
  {
   "property": "C34",
   "status": "partial",
   "theorems": [
    "pprf_correct_partial",
    "pprf_width64_refuted",
    "pprf_reused_key_refuted"
   ],
   "note": "Proved for M <= 58 and a fresh key object. False for the instantiated width 64 (PprfPunc always throws length_error) and when the key object is reused (stale seeds are kept)."
  },
  {
   "property": "C35",
   "status": "proved",
   "theorems": [
    "recover_correct",
    "recover_throws",
    "create_share_total",
    "recover_all_refuted",
    "interpolation_correct",
    "evaluate_correct",
    "evaluate_unreduced_refuted"
   ],
   "note": "Proved for incongruent x-coordinates as stated; otherwise RecoverSecret throws (recover_throws), which can happen to an honest output since the draws of x do not exclude repetitions (recover_all_refuted)."
  },
  {
   "property": "C36",
   "status": "proved",
   "theorems": [
    "verify_exact",
    "verify_complete",
    "verified_recover",
    "verify_order_refuted"
   ],
   "note": "Exact for groups of order equal to the sharing modulus; verify_order_refuted shows the hypothesis is needed."
  },
  {
   "property": "C37",
   "status": "partial",
   "theorems": [
    "sumcheck_run_exact",
    "sumcheck_run_reduced",
    "sumcheck_constant_refuted"
   ],
   "note": "exact for at least one variable, and for reduced constants; refuted for an unreduced constant polynomial, whose correct claim is rejected"
  },
  {
   "property": "C38",
   "status": "proved",
   "theorems": [
    "sumcheck_sound",
    "vectors_all",
    "vectors_distinct"
   ],
   "note": "counts challenge vectors; any prover strategy"
  },
  {
   "property": "C39",
   "status": "proved",
   "theorems": [
    "mpfss_param",
    "mpfss_correct",
    "mpfss_fixed_correct",
    "mpfss_choices",
    "mpfss_gen_indexes",
    "mp_vole_correct",
    "mp_vole_sound",
    "mp_vole_last_point",
    "ot2vole_correct",
    "mp_vole_sender_reuse",
    "mpfss_set_indexes_refuted",
    "mp_vole_check_refuted",
    "mpfss_fixed_range_refuted",
    "mpfss_fixed_block_refuted",
    "mp_vole_receiver_reuse_refuted"
   ],
   "note": "MPFSS for every commutative group on words, MpVole (fixed index or not, malicious check included) and Ot2Vole for all sizes up to 2^31 positions. Also shown: SetIndexes touches memory outside its vector; the malicious check throws on an honest run with one block and point 0 or 1; choice bits spelling an index beyond the block corrupt the output; the receiver cannot be set up again."
  },
  {
   "property": "C40",
   "status": "proved",
   "theorems": [
    "lc_index_range",
    "linear_code_encode",
    "linear_code_linear",
    "linear_code_encode2",
    "linear_code_size",
    "linear_code_dimension_refuted",
    "linear_code_dimension_zero_refuted",
    "linear_code_large_dimension_refuted",
    "linear_code_long_output_refuted"
   ],
   "note": "Proved for 1 <= k < 2^31 and at most 2^32-1024 output rows; outside those bounds the refuted theorems show the code throws, reads out of bounds or hangs."
  },
  {
   "property": "C41",
   "status": "proved",
   "theorems": [
    "tset_setup_ends",
    "tset_setup_overfull",
    "tset_setup_missing",
    "tset_retrieve",
    "tset_retrieve_all",
    "tset_retrieve_over_100_refuted",
    "tset_retrieve_absent",
    "tset_unpack_pack",
    "tset_unpack_10_bytes_refuted",
    "tset_vector_to_string_injective_refuted"
   ],
   "note": "Collisions between labels are excluded by hypothesis (clear); the hashes are arguments. The unbounded claim is false: lists over 100 tuples are cut."
  },
  {
   "property": "C42",
   "status": "proved",
   "theorems": [
    "buffer_values",
    "buffer_memory",
    "buffer_resize_keeps",
    "buffer_release_deleter_refuted",
    "buffer_negative_resize_refuted"
   ],
   "note": "Value semantics and memory ownership for every program over any number of buffers; release() leaves the deleter set and negative sizes are accepted (refuted witnesses). bad_alloc is not modelled."
  },
  {
   "property": "C43",
   "status": "partial",
   "theorems": [
    "ot_steal_refuted"
   ],
   "note": "False of the code for every store: StealBlkBuf always throws because Reset runs the consistency check on zeroed counters."
  },
  {
   "property": "C44",
   "status": "partial",
   "theorems": [
    "ot_copies_are_exact",
    "ot_copy_cot_refuted",
    "ot_copy_cot_partial"
   ],
   "note": "Proved for the receiver copies; CopyCotBlkBuf is refuted after a NextSlice (reads past the end of the buffer) and exact before it."
  },
  {
   "property": "C45",
   "status": "partial",
   "theorems": [
    "crhash_batched",
    "ccrhash_batched",
    "sigma_orthomorphism",
    "ccrhash_single_collides",
    "ccrhash_single_refuted",
    "para_ccrhash_truncates_refuted"
   ],
   "note": "All versions of the plain hash and the batched circular hash agree with the documented functions. The single block CcrHash_128 does not (unpackhi instead of unpacklo): refuted, with all its collisions. ParaCcrHash_128 truncates the count to 32 bits."
  },
  {
   "property": "C46",
   "status": "proved",
   "theorems": [
    "kos_check_exact",
    "kos_check_sound",
    "kos_check_collision"
   ],
   "note": "Every receiver behaviour."
  },
  {
   "property": "C47",
   "status": "partial",
   "theorems": [
    "fill_prefix",
    "fill_continues",
    "fills_no_reuse",
    "ctr_continues_refuted",
    "ctr_ignores_iv_refuted"
   ],
   "note": "Prefix in all modes, no reuse in ECB and CTR, continuation in ECB. False in CTR: the returned counter does not continue the stream, and the initial vector is ignored."
  },
  {
   "property": "C48",
   "status": "partial",
   "theorems": [
    "prg_calls",
    "prg_history",
    "set_seed_restarts",
    "set_seed_stale",
    "set_seed_refuted",
    "prg_bool_refuted"
   ],
   "note": "Proved for every element type but bool, with interleaved fills. SetSeed keeps the unconsumed part of the old batch, and Prg<bool> starts with 7*BATCH_SIZE zeroes: refuted."
  },
  {
   "property": "C49",
   "status": "partial",
   "theorems": [
    "mersenne_wide_range",
    "mersenne_small_range",
    "ltn_range",
    "ltn_bias",
    "mersenne_mod_wide_refuted"
   ],
   "note": "Samplers proved. MersennePrimeMod<uint64_t/uint128_t> can return the prime itself: refuted."
  },
  {
   "property": "C50",
   "status": "proved",
   "theorems": [
    "sharing_private",
    "share_at_zero_reveals"
   ],
   "note": "share_at_zero_reveals: the draw x = 0, which the code does not exclude, gives the secret itself."
  },
  {
   "property": "C51",
   "status": "proved",
   "theorems": [
    "evaluate_extension",
    "evaluate_boolean",
    "build_eq_chi"
   ],
   "note": "reduced evaluations"
  },
  {
   "property": "C52",
   "status": "proved",
   "theorems": [
    "zero_check_exact",
    "zero_check_complete",
    "zero_check_sound"
   ],
   "note": ""
  },
  {
   "property": "C53",
   "status": "proved",
   "theorems": [
    "one_check_complete",
    "one_check_sound",
    "one_check_refuted"
   ],
   "note": "one_check_refuted: with p at most 2^k the draw alpha = 1 rejects a correct table"
  },
  {
   "property": "C54",
   "status": "proved",
   "theorems": [
    "logup_complete",
    "logup_sound",
    "logup_small_field_refuted"
   ],
   "note": "multiplicities count modulo p only: logup_small_field_refuted"
  },
  {
   "property": "C55",
   "status": "proved",
   "theorems": [
    "mat_mat_correct",
    "mat_vec_correct"
   ],
   "note": ""
  },
  {
   "property": "C56",
   "status": "proved",
   "theorems": [
    "exacc_dual_encode",
    "exacc_linear",
    "exacc_default",
    "exacc_dual_encode2",
    "exacc_longer_input_refuted"
   ],
   "note": "Inputs longer than n are accepted but change the code used (refuted witness)."
  },
  {
   "property": "C57",
   "status": "proved",
   "theorems": [
    "silver_construct",
    "silver_dual_encode",
    "silver_dual_encode_inplace",
    "silver_kernel",
    "silver_linear"
   ],
   "note": "The scaled floating-point offsets are arbitrary values; two-vector variants are textual duplicates and not modelled."
  },
  {
   "property": "C58",
   "status": "proved",
   "theorems": [
    "sse_search_all",
    "sse_search_expression",
    "sse_search_absent",
    "sse_keys_file",
    "sse_tset_file",
    "sse_loaded_search_empty_refuted",
    "sse_expression_precedence_refuted",
    "sse_expression_not_refuted",
    "sse_expression_v20_refuted",
    "sse_expression_parenthesis_refuted"
   ],
   "note": "Collisions (labels, tags, ciphertexts, zero z) are excluded by hypothesis. Usual operator precedence, names from v20 on, parentheses and search after LoadEDB are refuted."
  },
  {
   "property": "C59",
   "status": "proved",
   "theorems": [
    "silent_vole_silver",
    "silent_vole_zeroed",
    "silent_vole_accumulates",
    "silent_vole_spans",
    "silent_vole_exacc_refuted",
    "silent_vole_param",
    "silent_vole_too_short"
   ],
   "note": "The correlated OTs (SoftSpoken GenCot) are given; GenRegNoiseWeight (floating point) is an argument, any count of at least 2 points; sizes below 2^31. silent_vole_exacc_refuted: with ExAcc codes a span that is not zeroed gives no VOLE."
  },
  {
   "property": "C60",
   "status": "proved",
   "theorems": [
    "exec_gates",
    "wires_determined",
    "run_span_correct",
    "run_bytes_correct",
    "setup_span_reuse",
    "finalize_widths_refuted",
    "finalize_bits_refuted",
    "exec_range_refuted",
    "exec_mand",
    "sha256_input",
    "sha256_input_long"
   ],
   "note": "The refuted theorems show that the conditions of the statement are needed."
  },
  {
   "property": "C61",
   "status": "proved",
   "theorems": [
    "read_print",
    "read_truncated",
    "read_truncated_copies",
    "read_shape",
    "malformed_refuted",
    "atoi_value"
   ],
   "note": "Round trip for every circuit that fits the format, shape of everything accepted, behaviour of truncated files. malformed_refuted: one-word gate lines and counts that wrap in 32 bits index out of bounds. Allocation failure is not modelled."
  },
  {
   "property": "C62",
   "status": "proved",
   "theorems": [
    "add64_correct",
    "sub64_correct",
    "neg64_correct",
    "mul64_correct",
    "eqz64_correct",
    "builtin_files"
   ],
   "note": "The gate lists are generated from the data files of the repository; certificates are found outside Coq and checked by a verified checker. builtin_files states the same of the circuits read from the texts of the files."
  },
  {
   "property": "C63",
   "status": "proved",
   "theorems": [
    "udiv64_correct",
    "sdiv64_correct",
    "division_files"
   ],
   "note": "Every pair of 64 bit inputs, including divisor 0, for both circuits. division_files states the same of the circuits read from the texts of the files."
  },
  {
   "property": "C64",
   "status": "proved",
   "theorems": [
    "one_per_integer",
    "bit_count",
    "word_bits",
    "to_bytes_twos_complement",
    "to_mag_bytes_exact",
    "from_mag_bytes_exact",
    "mag_bytes_round_trip",
    "serialize_round_trip",
    "deserialize_any",
    "encodings_not_unique_refuted",
    "bit_access",
    "random_exact_bits",
    "random_below",
    "random_below_returns",
    "random_below_nonpositive_refuted",
    "machine_integers"
   ],
   "note": "For all integers. Findings: RandomLtN never returns for n <= 0 (no guard); several byte strings decode to the same number (sign bit on zero, padding); Get of an unsigned type gives the magnitude of a negative number, not its residue."
  },
  {
   "property": "C65",
   "status": "proved",
   "theorems": [
    "mont_pow_correct",
    "mont_pow64_correct",
    "mont_out_correct",
    "slow_custom_pow_correct",
    "table_rejects"
   ],
   "note": "Any modulus, base, unit size up to 31 bits (beyond it 1U << unit_bits is undefined) and exponent. libtommath's and OpenSSL's Montgomery multiplication are taken as exact."
  },
  {
   "property": "C66",
   "status": "partial",
   "theorems": [
    "remainder_exact",
    "quotient_partial",
    "quotient_refuted",
    "quotient_same_sign",
    "zero_divisor_throws",
    "unsigned_overloads",
    "mod_digit",
    "mod_digit_refuted",
    "shift_right",
    "compare_int64"
   ],
   "note": "a = (a/b)*b + a%b is false when the exact quotient lies strictly between -1 and 0: (-1)/2 is 0 while (-1)%2 is 1 (quotient_refuted). quotient_partial gives the exact set of operands for which it holds; operands of the same sign always do. Mod with a digit works on the magnitude (mod_digit_refuted). libtommath's mp_div, mp_mod and mp_div_d are taken by their documentation."
  },
  {
   "property": "C67",
   "status": "proved",
   "theorems": [
    "safe_prime",
    "safe_prime_size",
    "safe_prime_outcomes",
    "safe_prime_two_bits_refuted",
    "safe_prime_exact_size_refuted",
    "rand_prime_over_safe"
   ],
   "note": "mp_prime_is_prime is an argument: p is prime whenever the q it accepted is. The result may be one bit longer than asked (safe_prime_exact_size_refuted); psize = 2, which RandPrimeOver never passes, writes past the buffer. Termination depends on the random bytes."
  },
  {
   "property": "C68",
   "status": "partial",
   "theorems": [
    "mte_decrypt_exact",
    "mte_roundtrip",
    "mte_empty_refuted",
    "owner_decrypts",
    "check_capsule_exact",
    "honest_capsule_passes",
    "damaged_capsule_refused",
    "receiver_decrypts",
    "equal_points_throw",
    "no_fragments",
    "hash_zero_exact",
    "rekey_throws_exact",
    "fewer_fragments",
    "collusion",
    "proof_fields_ignored",
    "tampered_fragment_refuted",
    "single_fragment_refuted",
    "rekey_total_refuted",
    "kdf_length",
    "mte_forgery"
   ],
   "note": "Proved for every non-empty message and every selection of at least max(1,t) fragments with distinct points. The full statement fails: the empty message encrypts but never decrypts (mte_empty_refuted); GenerateReKey throws when the hash of the exchanged points is zero, which the reduction in hash.cc allows (hash_zero_exact, rekey_total_refuted); a fragment at point zero alone opens a threshold-two ciphertext (single_fragment_refuted); the proof fields of a key fragment are checked nowhere (proof_fields_ignored, tampered_fragment_refuted); an empty fragment list is read out of bounds (no_fragments); receiver and t proxies together compute the owner's secret key (collusion). Hash, MAC, key stream and curve are arguments with the laws in the record sound."
  },
  {
   "property": "C69",
   "status": "proved",
   "theorems": [
    "kkrt_oneshot",
    "kkrt_agree",
    "other_input_exact",
    "prc_keys_agree",
    "kkrt_classes",
    "classes_agree",
    "receiver_succeeds_exact",
    "correction_refused",
    "sender_index_refused",
    "kkrt_message_leaks_memory_refuted",
    "kkrt_encode_twice_refuted"
   ],
   "note": "Counterexamples to expectations, proved: the rows of a partial last batch carry uninitialised memory to the peer; encoding an index twice gives values that do not match."
  },
  {
   "property": "C70",
   "status": "proved",
   "theorems": [
    "ipa_exact",
    "ipa_complete",
    "ipa_create_total",
    "ipp_round_trip",
    "transcript_binds",
    "transcript_label_99_refuted",
    "ipa_zero_vectors_refuted",
    "ipp_bytes_malleable_refuted"
   ],
   "note": "Points are multiples of the base of a prime order group; hashes arbitrary. Three refuted statements show the limits: zero vectors, 99-byte labels, trailing bytes."
  },
  {
   "property": "C71",
   "status": "proved",
   "theorems": [
    "range_exact",
    "range_commitments",
    "range_complete",
    "range_rejects",
    "range_rejects_64",
    "generators_stable",
    "generators_ok",
    "rproof_round_trip",
    "range_tx_unchecked_refuted"
   ],
   "note": "Rejection is for proofs by the code's own prover (and any t_x), not for arbitrary forgers. t_x is shown to be unchecked."
  },
  {
   "property": "C72",
   "status": "proved",
   "theorems": [
    "r1cs_exact",
    "r1cs_complete",
    "r1cs_rejects",
    "lc_values",
    "r1cs_round_trip",
    "r1cs_bytes_refuted"
   ],
   "note": "lc_values: arithmetic of linear combinations is that of their values. r1cs_bytes_refuted is the counterexample to the unrestricted round trip."
  },
  {
   "property": "C73",
   "status": "proved",
   "theorems": [
    "soft_correct",
    "soft_messages",
    "soft_check_exact",
    "soft_check_sound",
    "soft_semi_honest_accepts",
    "soft_random_mode",
    "soft_batches_fit"
   ],
   "note": "SoftModel; every history of calls. The check theorems assume a set-up done with an honest receiver, the messages after it are arbitrary."
  },
  {
   "property": "C74",
   "status": "partial",
   "theorems": [
    "soft_choices_hidden",
    "soft_compact_choices_hidden_refuted"
   ],
   "note": "Normal semi-honest mode proved with the hash as a random oracle (what the set-up message reveals about the leaves rests on the PRF and the base OTs, not modelled); the 64 masking bits of the malicious check are not covered. Compact mode refuted: an explicit function of the messages returns all choices."
  },
  {
   "property": "C75",
   "status": "proved",
   "theorems": [
    "ferret_correct",
    "ferret_choices",
    "ferret_helper",
    "ferret_default",
    "ferret_indivisible_refuted",
    "ferret_small_n_refuted",
    "ferret_overlap_refuted",
    "ferret_cheetah_reuse_refuted"
   ],
   "note": "The refutations cover parameters outside the supported ones and the cheetah slices."
  },
  {
   "property": "C76",
   "status": "partial",
   "theorems": [
    "ferret_check_exact",
    "ferret_check_sound",
    "ferret_check_complete",
    "ferret_check_zero_seed",
    "ferret_check_refuted",
    "ferret_check_no_puncture_refuted",
    "ferret_check_reuse_refuted",
    "ferret_message_length_refuted"
   ],
   "note": "Soundness holds for a seed the sender does not choose; in the code the sender draws it (SyncSeedSend), so the claim against a malicious sender is refuted. A malicious sender computing its reply in another way is not covered by the soundness theorem."
  },
  {
   "property": "C77",
   "status": "partial",
   "theorems": [
    "oprf_correct",
    "oprf_histories",
    "oprf_hiding",
    "oprf_refresh_refuted",
    "oprf_zero_blind",
    "oprf_long_input",
    "derive_key_exact",
    "derive_key_retry_refuted",
    "context_string_injective",
    "context_string_refuted",
    "i2osp_spec"
   ],
   "note": "proved for every history in which ClearBlind precedes RefreshBlind; false otherwise (oprf_refresh_refuted); key derivation proved unless the first hash is zero, where it is refuted; parsing of context strings refuted on every string"
  },
  {
   "property": "C78",
   "status": "partial",
   "theorems": [
    "voprf_complete",
    "voprf_long_batch",
    "voprf_verify_exact",
    "voprf_sound",
    "voprf_batch_exact",
    "voprf_single_sound",
    "voprf_correct",
    "voprf_binding",
    "voprf_reject",
    "voprf_identity_key_refuted",
    "transcripts_separate"
   ],
   "note": "completeness, exact acceptance, special soundness and the batching relation proved; the probability over the random oracle is not modelled; that the announced key determines a pseudorandom function is refuted for the identity key"
  },
  {
   "property": "C79",
   "status": "proved",
   "theorems": [
    "bitset_refines_list",
    "bitset_compare",
    "bitset_order",
    "bitset_read",
    "bitset_string_round_trip",
    "bitset_width_invisible",
    "set_past_size_refuted",
    "or_longer_refuted",
    "string_past_end_refuted"
   ],
   "note": "For every block width dividing 128. The refuted theorems show what a release build does outside the asserted contract. Capacity, allocators, references and iteration with early stop are not modelled."
  },
  {
   "property": "C80",
   "status": "proved",
   "theorems": [
    "bytes_of_number",
    "rand_int_exact",
    "fast_seed_full",
    "rand_seed_full_refuted",
    "rand_bits_exact",
    "rand_bools_exact",
    "bool_pos_distinct",
    "rand_bools_long",
    "rand_ltn_range",
    "rand_ltn_uniform",
    "rand_ltn_zero",
    "rand_in_range_lt",
    "rand_in_range_uniform_refuted",
    "rand_in_range_zero_refuted"
   ],
   "note": "For every output of the generator. RandSeed returns 64-bit seeds only and RandInRange is biased (refuted with witnesses)."
  },
  {
   "property": "C81",
   "status": "proved",
   "theorems": [
    "urbg_stream",
    "urbg_resume",
    "urbg_get_seed_refuted",
    "urbg_iv_refuted",
    "shuffle_permutes",
    "knuth_bijective",
    "index_uniform",
    "shuffle_natural",
    "shuffles_no_reuse",
    "shuffle_empty_refuted"
   ],
   "note": "For every cipher, seed and array, counters below 2^64. GetSeed truncates the seed, the IV is ignored in the default mode and an empty range throws (refuted)."
  },
  {
   "property": "C82",
   "status": "proved",
   "theorems": [
    "csv_every_file",
    "csv_row_reader",
    "csv_column_reader",
    "csv_init_rejects",
    "csv_drain",
    "csv_count_empty_refuted",
    "csv_column_empty_refuted",
    "csv_bad_row_refuted",
    "csv_batch_zero_refuted",
    "csv_seek_end_refuted",
    "csv_crlf_refuted"
   ],
   "note": "Every non-empty text is the document of a table, so the theorems range over all files. Conversions of floating-point numbers are arguments. Preconditions in the theorems mark where the claim fails: batch size zero, counting lines or column mode on a file without rows, and calls after an exception out of Next; each has a refutation."
  },
  {
   "property": "C83",
   "status": "proved",
   "theorems": [
    "csv_writer_output",
    "csv_round_trip",
    "csv_open_refuses",
    "csv_delimiter_refuted",
    "csv_partial_row_refuted",
    "csv_ragged_refuted"
   ],
   "note": "Strings with delimiters, batches of the wrong types and ragged batches are refuted. That printing and parsing a float returns it is a hypothesis per cell."
  },
  {
   "property": "C84",
   "status": "proved",
   "theorems": [
    "ot_kernel_correct",
    "ot_kernel_default",
    "ot_kernel_chosen",
    "ot_kernel_refuses",
    "ot_kernel_small_refuted",
    "ot_kernel_narrow_refuted",
    "ot_kernel_delta_refuted",
    "ot_kernel_reuse_refuted"
   ],
   "note": "Histories within range; uninitialised kernels and unfit stores are refused. Refuted outside: fewer than 2t Ferret OTs throw, random OTs from 2^32 on stay unconverted, a normal store with a delta returns a wrong second message, and Ferret requests with the same code seed repeat the choices."
  },
  {
   "property": "C85",
   "status": "proved",
   "theorems": [
    "svole_threads",
    "svole_threads_correct",
    "svole_threads_swallow_refuted"
   ],
   "note": "Tasks are atomic steps. Refuted: a task's exception is lost and its part of the spans stays as it was."
  },
  {
   "property": "C86",
   "status": "partial",
   "theorems": [
    "svole_streaming_one",
    "svole_streaming_refuted",
    "svole_streaming_ideal_refuted",
    "svole_streaming_sizes_refuted",
    "svole_malicious_refuted"
   ],
   "note": "Holds with one step only; with more the sender writes its last window in every step. The malicious flag is passed as the step parameter."
  },
  {
   "property": "C87",
   "status": "partial",
   "theorems": [
    "mock_rots_correct",
    "mock_cots_correct",
    "mock_compact_correct",
    "mock_cots_zero_refuted"
   ],
   "note": "MockCots with delta 0 is refuted."
  },
  {
   "property": "C88",
   "status": "proved",
   "theorems": [
    "toy_group",
    "toy_add_line",
    "toy_mul",
    "toy_mul_laws",
    "toy_derived",
    "toy_div",
    "toy_tests",
    "secp256k1_good"
   ],
   "note": "for every curve over an odd prime field whose cubic has no root; secp256k1 is such a curve once its field size is prime (primality is a hypothesis, as is that n kills the point); associativity is proved in EcGroup from the field axioms"
  },
  {
   "property": "C89",
   "status": "proved",
   "theorems": [
    "x_mul_multiple",
    "x_point_ex",
    "x_dh",
    "x_mul_reduces",
    "x_mul_sign",
    "x_masked",
    "x_mul_range",
    "curve25519_mont"
   ],
   "note": "for every smooth Montgomery curve over an odd prime field of at most 255 bits with 4 | A - 2; curve25519 is one once 2^255 - 19 is prime (hypothesis)"
  },
  {
   "property": "C90",
   "status": "partial",
   "theorems": [
    "toy_group",
    "toy_mul_laws",
    "toy_unreduced_refuted",
    "toy_off_curve_refuted",
    "toy_two_torsion_refuted",
    "x_scalar_refuted",
    "x_negate_refuted",
    "x_zero"
   ],
   "note": "holds for reduced points of the Weierstrass curves (C88); false otherwise: IsInCurveGroup accepts unreduced coordinates on which equality fails and Add throws; points off the curve are multiplied without complaint; on the x-only curve 0 P = 1 P and Negate changes the abscissa because the scalar is masked"
  },
  {
   "property": "C91",
   "status": "proved",
   "theorems": [
    "xmd_rfc",
    "xmd_refuses",
    "xmd_collision",
    "xmd_lengths"
   ],
   "note": "The hash is any function of fixed digest size."
  },
  {
   "property": "C92",
   "status": "partial",
   "theorems": [
    "field_elements",
    "scalar_value",
    "scalar_never",
    "scalar_refuted"
   ],
   "note": "Proved for field elements and for the scalars of P-256. Refuted for P-384 and P-521: their tables hold no \"n\", so HashToScalar throws for every input."
  },
  {
   "property": "C93",
   "status": "proved",
   "theorems": [
    "sswu_map",
    "sswu_unique",
    "ready_p256",
    "ready_p384",
    "ready_p521"
   ],
   "note": "Primality of the three moduli is a hypothesis of the ready_ theorems; all other conditions on the constants are checked."
  },
  {
   "property": "C94",
   "status": "proved",
   "theorems": [
    "nist_encode_ok",
    "nist_hash_ok",
    "nist_refuses",
    "ready_p256",
    "ready_p384",
    "ready_p521",
    "suite_sizes"
   ],
   "note": "curve_sum is the chord and tangent law of EcGroup."
  },
  {
   "property": "C95",
   "status": "proved",
   "theorems": [
    "elligator_map",
    "elligator_unique",
    "ready_25519"
   ],
   "note": "Primality of 2^255 - 19 is a hypothesis of ready_25519; all other conditions on the constants are checked."
  },
  {
   "property": "C96",
   "status": "partial",
   "theorems": [
    "mont_encode_ok",
    "mont_hash_ok",
    "mont_on_curve",
    "mont_encode_zero",
    "ready_25519",
    "mont_total_refuted"
   ],
   "note": "The value is proved in every case, with the exact conditions of failure: equal abscissas of the two images, or a result at infinity. \"Never fail\" is refuted for a hash giving the field elements 0, where the RFC returns the identity."
  },
  {
   "property": "C97",
   "status": "proved",
   "theorems": [
    "space_exists",
    "map_back_exact",
    "map_in_exact",
    "mul_mod_exact",
    "product_through_space",
    "power_through_space",
    "map_back_large_refuted",
    "map_back_truncates_refuted"
   ],
   "note": "At limb level, every access checked. Numbers of magnitude m*R and more given to MapBackToZSpace come back unreduced (map_back_large_refuted) or lose their high limbs (map_back_truncates_refuted). Powers for m > 1. GMP's mpz functions by their documentation."
  },
  {
   "property": "C98",
   "status": "partial",
   "theorems": [
    "remainders_agree",
    "quotients_partial",
    "quotients_refuted",
    "modular_agree",
    "negative_modulus_refuted",
    "inverse_agrees",
    "gmp_inverse_refuted",
    "power_mod_agrees",
    "gmp_power_refuted",
    "power_partial",
    "zero_power_refuted",
    "lcm_agrees",
    "lcm_zero_refuted",
    "shifts_agree",
    "large_shift_refuted",
    "bits_agree",
    "large_index_refuted",
    "compare_abs_partial",
    "compare_abs_refuted",
    "mixed_refused"
   ],
   "note": "Agreement is proved on the largest domains where it holds. It is false elsewhere, with a witness for each: -1/2 is -1 with GMP only, negative moduli, GMP's InvMod and PowMod without an inverse, 0^0, Lcm(0,0), shift counts and bit indices from 2^31 on, CompareAbs(INT64_MIN). The libraries are taken by their documentation."
  },
  {
   "property": "C99",
   "status": "partial",
   "theorems": [
    "to_bytes_agree",
    "bitwise_unbounded",
    "serialize_agree",
    "ossl_serialize_writes_beyond_refuted",
    "deserialize_agree",
    "cross_library_round_trip",
    "mag_bytes_agree",
    "zero_mag_bytes_refuted"
   ],
   "note": "Proved except for two witnessed differences: OpenSSL's Serialize clears the caller's bytes after the number, and GMP's ToMagBytes asks for one byte for zero and writes none."
  }
 ]
}