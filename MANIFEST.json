{
 "claims": [
  {
   "property": "C01",
   "status": "proved",
   "theorems": [
    "C01_gost_block_inverse"
   ],
   "note": ""
  },
  {
   "property": "C02",
   "status": "proved",
   "theorems": [
    "C02_gost_block_refines_rfc5830",
    "C02_sbox_tables_are_nibbles",
    "C02_sbox_rows_are_permutations"
   ],
   "note": ""
  },
  {
   "property": "C03",
   "status": "proved",
   "theorems": [
    "C03_mask_invisible",
    "C03_get_key_returns_set_key"
   ],
   "note": ""
  },
  {
   "property": "C04",
   "status": "proved",
   "theorems": [
    "C04_magma_block_inverse",
    "C04_magma_is_gost_reversed",
    "C04_magma_refines_rfc8891"
   ],
   "note": ""
  },
  {
   "property": "C05",
   "status": "proved",
   "theorems": [
    "C05_raw_ecb_roundtrip",
    "C05_raw_cfb_roundtrip"
   ],
   "note": ""
  },
  {
   "property": "C06",
   "status": "proved",
   "theorems": [
    "C06_mac_truncation_whole_bytes",
    "C06_mac_truncation_refuted"
   ],
   "note": "Includes a refutation: get_mac computes (1 < rembits) - 1 where (1 << rembits) - 1 is meant, so bit lengths that are not multiples of 8 are wrong."
  },
  {
   "property": "C07",
   "status": "proved",
   "theorems": [
    "C07_mac_refines_rfc5830",
    "C07_padding_rule"
   ],
   "note": ""
  },
  {
   "property": "C08",
   "status": "proved",
   "theorems": [
    "C08_cfb_refines_spec_for_every_chunking",
    "C08_cfb_chunking_irrelevant"
   ],
   "note": ""
  },
  {
   "property": "C09",
   "status": "proved",
   "theorems": [
    "C09_cfb_roundtrip",
    "C09_cfb_length"
   ],
   "note": ""
  },
  {
   "property": "C10",
   "status": "proved",
   "theorems": [
    "C10_cnt_refines_spec_for_every_chunking",
    "C10_cnt_involution"
   ],
   "note": ""
  },
  {
   "property": "C11",
   "status": "proved",
   "theorems": [
    "C11_gost_cbc_refines_spec",
    "C11_gost_cbc_roundtrip",
    "C11_magma_cbc_refines_spec",
    "C11_magma_cbc_roundtrip"
   ],
   "note": ""
  },
  {
   "property": "C12",
   "status": "proved",
   "theorems": [
    "C12_magma_ctr_refines_spec_for_every_chunking",
    "C12_magma_ctr_involution"
   ],
   "note": "Section sizes that are multiples of 8 below 2^32 (0 = no re-keying)."
  },
  {
   "property": "C13",
   "status": "proved",
   "theorems": [
    "C13_reinit_cfb_refuted",
    "C13_reinit_cfb_whole_blocks_refuted",
    "C13_reinit_cnt_refuted",
    "C13_reinit_magma_ctr_refuted",
    "C13_reinit_cnt_on_boundary",
    "C13_reinit_gost_cbc",
    "C13_reinit_magma_ecb_cbc",
    "C13_kuz_reinit_ecb_cbc",
    "C13_kuz_reinit_cfb_ofb_on_boundary",
    "C13_kuz_reinit_ctr_refuted",
    "C13_kuz_reinit_ofb_cfb_refuted"
   ],
   "note": "Positive theorems for every history where it holds, refutation witnesses (defect of the code) where it does not, for the ciphers of gost_crypt.c and gost_grasshopper_cipher.c (except MGM)."
  },
  {
   "property": "C14",
   "status": "proved",
   "theorems": [
    "C14_mac_spec_for_every_chunking",
    "C14_mac_spec_single_block",
    "C14_mac_chunking_refuted"
   ],
   "note": "Includes a refutation for 8-byte messages split over several updates."
  },
  {
   "property": "C15",
   "status": "proved",
   "theorems": [
    "C15_mac_needs_key_and_has_requested_size",
    "C15_update_needs_key"
   ],
   "note": ""
  },
  {
   "property": "C16",
   "status": "proved",
   "theorems": [
    "C16_meshing_counter_invariant",
    "C16_key_replaced_exactly_every_1024_bytes",
    "C16_mac_key_and_counter"
   ],
   "note": ""
  },
  {
   "property": "C17",
   "status": "proved",
   "theorems": [
    "C17_hash94_chunks_match_standard",
    "C17_md_gost94_chunks_match_standard",
    "C17_step_matches_standard",
    "C17_length_limit_refuted"
   ],
   "note": "Messages below 2^60 bytes; the wrap-around beyond is shown by C17_length_limit_refuted."
  },
  {
   "property": "C18",
   "status": "proved",
   "theorems": [
    "C18_finish_leaves_running_state"
   ],
   "note": ""
  },
  {
   "property": "C19",
   "status": "proved",
   "theorems": [
    "C19_streebog_chunks_match_standard",
    "C19_digest_sizes"
   ],
   "note": ""
  },
  {
   "property": "C20",
   "status": "proved",
   "theorems": [
    "C20_add512_is_addition"
   ],
   "note": ""
  },
  {
   "property": "C21",
   "status": "proved",
   "theorems": [
    "C21_xlps_is_lps",
    "C21_compression_matches_standard",
    "C21_table_entries"
   ],
   "note": ""
  },
  {
   "property": "C22",
   "status": "proved",
   "theorems": [
    "C22_decrypt_encrypt",
    "C22_encrypt_decrypt"
   ],
   "note": ""
  },
  {
   "property": "C23",
   "status": "proved",
   "theorems": [
    "C23_round_keys",
    "C23_encrypt",
    "C23_decrypt",
    "C23_tables",
    "C23_galois_mul",
    "C23_linear_map"
   ],
   "note": ""
  },
  {
   "property": "C24",
   "status": "proved",
   "theorems": [
    "C24_stream_modes_roundtrip",
    "C24_ecb_refines_spec",
    "C24_ecb_roundtrip",
    "C24_cbc_refines_spec",
    "C24_cbc_roundtrip"
   ],
   "note": ""
  },
  {
   "property": "C25",
   "status": "proved",
   "theorems": [
    "C25_cfb_refines_spec",
    "C25_ofb_refines_spec",
    "C25_ctr_refines_spec",
    "C25_ctr_acpkm_refines_spec",
    "C25_chunking_irrelevant"
   ],
   "note": ""
  },
  {
   "property": "C26",
   "status": "proved",
   "theorems": [
    "C26_magma_counter_value",
    "C26_magma_counters_distinct",
    "C26_kuz_counter_value",
    "C26_kuz_acpkm_counter_value",
    "C26_kuz_counters_distinct"
   ],
   "note": ""
  },
  {
   "property": "C27",
   "status": "proved",
   "theorems": [
    "C27_gf64_mul_is_field_product",
    "C27_gf128_mul_is_field_product",
    "C27_field_laws"
   ],
   "note": "both multiplications, both byte orders, equal the field product; field laws of the specification product"
  },
  {
   "property": "C28",
   "status": "proved",
   "theorems": [
    "C28_mgm_roundtrip",
    "C28_decrypt_without_aad_call_refuted"
   ],
   "note": "round trip for every chunking, key/nonce order and prior context state, with at least one AAD call on the decrypting side; C28_decrypt_without_aad_call_refuted shows for every key a message that is rejected without it"
  },
  {
   "property": "C29",
   "status": "proved",
   "theorems": [
    "C29_mgm_encrypt_refines_rfc9058_for_every_chunking",
    "C29_mgm_decrypt_refines_rfc9058_for_every_chunking",
    "C29_length_limit"
   ],
   "note": "refinement of RFC 9058 for every chunking; length limit characterised"
  },
  {
   "property": "C30",
   "status": "proved",
   "theorems": [
    "C30_wrong_message_or_tag_rejected",
    "C30_aad_after_data_refused",
    "C30_needs_key_and_nonce",
    "C30_second_message_needs_new_nonce",
    "C30_tag_rules",
    "C30_rekey_keeps_nonce_refuted",
    "C30_aad_after_empty_data_accepted_refuted"
   ],
   "note": "tag acceptance iff standard's tag; AAD after data, missing key/nonce/tag, second message; two defects as _refuted"
  },
  {
   "property": "C31",
   "status": "proved",
   "theorems": [
    "C31_magma_omac_histories",
    "C31_kuznyechik_omac_histories",
    "C31_magma_omac_of_chunks",
    "C31_kuznyechik_omac_of_chunks",
    "C31_omac_acpkm_histories"
   ],
   "note": "Any history of set-key, XOF length, TLSTREE, key-mesh, update and final calls is followed by the tag of the standard on the concatenated message; OpenSSL's CMAC is modelled over the engine's CBC code. Not covered: key-mesh size change in mid-message and T < 48; KEY_MESH before a key dereferences NULL."
  },
  {
   "property": "C32",
   "status": "proved",
   "theorems": [
    "C32_wrap_refines_rfc4357",
    "C32_unwrap_accepts_iff_mac_matches",
    "C32_unwrap_wrap"
   ],
   "note": "gost_keywrap.c modelled in full over the Gost89 model; the wrap is shown equal to RFC 4357 6.1-6.5, unwrap accepts iff the MAC matches, and inverts wrap."
  },
  {
   "property": "C33",
   "status": "proved",
   "theorems": [
    "C33_export_is_KExp15",
    "C33_import_accepts_exactly_the_exports",
    "C33_import_result",
    "C33_roundtrip",
    "C33_appended_bytes_ignored_refuted",
    "C33_truncated_input_refuted",
    "C33_mac_of_the_other_cipher",
    "C33_unwrap_of_chunks",
    "C33_wrap_never_encrypts",
    "C33_final_returns_key_again_refuted"
   ],
   "note": "Export equals KExp15; import accepts exactly the exports (for inputs of the right length); the unwrap ciphers over any chunking. Defects as _refuted: input length not checked (appended bytes ignored, truncated input checked against uninitialised stack bytes), EVP_DecryptFinal returns the key again; a bad MAC is reported like incomplete input (return value 0)."
  },
  {
   "property": "C34",
   "status": "proved",
   "theorems": [
    "C34_length_rule",
    "C34_kdftree_is_KDF_TREE",
    "C34_output_blocks",
    "C34_counters_distinct",
    "C34_counter_wrap_refuted",
    "C34_length_2_29_refuted",
    "C34_length_field_wraps_refuted"
   ],
   "note": "Proved for all builds and byte orders; HMAC is OpenSSL's, modelled by RFC 2104 over the engine's digest code. Defects recorded as _refuted: the counter wraps without an error when more than 256^R blocks are requested; lengths from 2^29 bytes on wrap the length field, multiples of 2^29 read out of bounds."
  },
  {
   "property": "C35",
   "status": "proved",
   "theorems": [
    "C35_tlstree_is_TLSTREE",
    "C35_big_endian_hosts_refuted",
    "C35_same_key_within_interval",
    "C35_new_seed_at_boundary"
   ],
   "note": "Equal to RFC 9189 TLSTREE on little-endian hosts; on big-endian hosts the seeds are byte-reversed (_refuted)."
  },
  {
   "property": "C36",
   "status": "proved",
   "theorems": [
    "C36_iv_adjustment_is_addition",
    "C36_sequence_decrement_is_exact",
    "C36_sequence_decrement_value",
    "C36_magma_tlstree",
    "C36_magma_tlstree_refuses",
    "C36_kuznyechik_ctr_tlstree",
    "C36_kuznyechik_ctr_acpkm_tlstree",
    "C36_kuznyechik_tlstree_refuses"
   ],
   "note": "Arithmetic, and the TLSTREE control call after any history of updates and control calls, for magma-ctr(-acpkm) and kuznyechik-ctr(-acpkm)."
  },
  {
   "property": "C37",
   "status": "proved",
   "theorems": [
    "C37_sign_is_gost_signature",
    "C37_sign_then_verify",
    "C37_keygen",
    "C37_other_digest_length_refuted",
    "C37_zero_nonce_refuted",
    "C37_key_multiple_of_order",
    "C37_evp_sign_then_verify"
   ],
   "note": "Over an abstract curve group (hypotheses: ec_laws); EVP-level round trip included. Refuted parts recorded: other digest lengths end the process, nonce 0 fails instead of redrawing."
  },
  {
   "property": "C38",
   "status": "proved",
   "theorems": [
    "C38_verify_iff_accepted",
    "C38_accepts_exactly_the_signatures",
    "C38_bad_parts_rejected",
    "C38_bad_key_rejected",
    "C38_infinity_key_refuted",
    "C38_digest_modulo_order",
    "C38_evp_verify_iff_accepted"
   ],
   "note": "verify returns 1 iff the standard's verification accepts. Refuted: with a key at infinity on the 512-bit test set anyone can sign."
  },
  {
   "property": "C39",
   "status": "proved",
   "theorems": [
    "C39_packed_layout",
    "C39_unpack_of_packed",
    "C39_pack_of_unpacked",
    "C39_other_lengths_accepted_refuted",
    "C39_oversized_part_refuted"
   ],
   "note": "Round trips both ways for proper lengths and parts that fit. Refuted: other lengths are accepted; a part that does not fit is silently zeroed."
  },
  {
   "property": "C40",
   "status": "proved",
   "theorems": [
    "C40_vko_is_rfc7836",
    "C40_vko_symmetric",
    "C40_vko_succeeds_iff",
    "C40_small_order_peer_rejected",
    "C40_small_component_invisible",
    "C40_keg_is_standard",
    "C40_keg_zero_ukm_refuted",
    "C40_derive_is_standard",
    "C40_derive_symmetric",
    "C40_derive_length",
    "C40_derive_refusals"
   ],
   "note": "VKO = RFC 7836, symmetric across hosts; small-order peers give no key; KEG = R 1323565.1.020 except for the all-zero UKM (refuted)."
  },
  {
   "property": "C41",
   "status": "proved",
   "theorems": [
    "C41_encoded_form",
    "C41_too_long_refused",
    "C41_decode_of_encoded",
    "C41_masked_keys",
    "C41_masked_key_recovered",
    "C41_other_formats",
    "C41_integer_form",
    "C41_decoded_is_a_pair",
    "C41_empty_key_overread_refuted",
    "C41_range_unchecked_refuted"
   ],
   "note": "round trip, exact form, masked keys, OCTET STRING and INTEGER forms, soundness of whatever is decoded; defects exhibited: empty key is an over-read, no range check (zero, >= order, negative INTEGER), no check of parameter set against algorithm. Curve group laws are hypotheses (ec_laws); DER is a library model without indefinite lengths"
  },
  {
   "property": "C42",
   "status": "proved",
   "theorems": [
    "C42_encoded_form",
    "C42_decoder_checks_the_curve",
    "C42_decode_of_encoded",
    "C42_infinity_refused",
    "C42_other_encodings_accepted_refuted",
    "C42_parameters_copied"
   ],
   "note": "round trip, exact form, decoder accepts exactly points of the curve; defects exhibited: other lengths, extra byte and unreduced coordinates accepted. EC_POINT_set_affine_coordinates is a hypothesis (lift_ok)"
  },
  {
   "property": "C43",
   "status": "proved",
   "theorems": [
    "C43_standard_sets_usable",
    "C43_fill_gives_the_standard_set",
    "C43_known_sets",
    "C43_threads",
    "C43_threads_wrong_name_refuted"
   ],
   "note": "standard's numbers, usability (except primality), any history, any number of threads and schedules; defect exhibited: with two names of one set in use concurrently the name can be wrong. Primality of p and q is not proved; MOV condition up to 31 (256-bit sets) and 6 (512-bit sets)"
  },
  {
   "property": "C44",
   "status": "proved",
   "theorems": [
    "C44_gost89_get_exact",
    "C44_gost89_undecodable_refuted",
    "C44_gost89_message_survives",
    "C44_magma_cbc_message_survives",
    "C44_magma_get_well_formed",
    "C44_magma_get_malformed_refuted",
    "C44_magma_ctr_message_survives",
    "C44_magma_ctr_long_message_refuted",
    "C44_kuz_get_exact",
    "C44_kuz_other_modes_refuse",
    "C44_kuz_ctr_message_survives",
    "C44_kuz_ctr_acpkm_long_message_refuted"
   ],
   "note": "Exact acceptance conditions for all parameters; end-to-end sender/receiver theorems per cipher. Refuted parts, each with a witness theorem: undecodable GOST 28147-89 parameters (including those the engine writes for gost89-cnt) dereference NULL; magma-ctr reports success on malformed parameters with a zero IV; magma-ctr(-acpkm) and kuznyechik-ctr-acpkm messages longer than one section are not decrypted because the receiver's init resets the section size."
  },
  {
   "property": "C45",
   "status": "proved",
   "theorems": [
    "C45_gostsum_check",
    "C45_gostsum_exit_zero",
    "C45_gostsum_rest_unchecked_refuted",
    "C45_gostsum_upper_case_never_matches",
    "C45_gostsum_undefined_refuted",
    "C45_gostsum_sound",
    "C45_gostsum_round_trip",
    "C45_gost12sum_check",
    "C45_gost12sum_typo_unchecked_refuted",
    "C45_gost12sum_empty_line_refuted",
    "C45_gost12sum_round_trip",
    "C45_gost12sum_x"
   ],
   "note": "gostsum.c and gost12sum.c modelled byte by byte (fgets, strlen, stripping, open/read schedules as parameters). Exit code 0 iff all entries good for every list of checksums; what follows a malformed line (gostsum) and malformed lines (gost12sum) are ignored: the original claim is false, witnesses C45_gostsum_rest_unchecked_refuted, C45_gost12sum_typo_unchecked_refuted; memory errors: C45_gostsum_undefined_refuted, C45_gost12sum_empty_line_refuted."
  },
  {
   "property": "C46",
   "status": "proved",
   "theorems": [
    "C46_failed_call_changes_nothing",
    "C46_context_is_last_accepted",
    "C46_dies_only_for_null_digest",
    "C46_ukmhex",
    "C46_vko_strings",
    "C46_vko_strings_refuted",
    "C46_paramset_by_name_256",
    "C46_paramset_by_name_512",
    "C46_registered_names_refuted",
    "C46_paramgen_after_name",
    "C46_numeric_paramset_unchecked_refuted",
    "C46_mac_failed_call_changes_nothing",
    "C46_mac_size_and_keygen",
    "C46_mac_key_is_last_accepted",
    "C46_mac_key_signs",
    "C46_raw_key_signs_with_default_sbox_refuted",
    "C46_no_key_no_signature",
    "C46_size_by_name_refuted",
    "C46_size_by_name"
   ],
   "note": "Contexts, histories and string interface of the EC and MAC pkey methods. Defects are separate _refuted theorems: 'vko' accepts any text, registered names of three TC26 sets refused, numeric PARAMSET unchecked, parameter set ignored with a raw MAC key, size truncated to int, Kuznyechik size 16 refused by name."
  },
  {
   "property": "C47",
   "status": "proved",
   "theorems": [
    "C47_memory_safe",
    "C47_out_of_range",
    "C47_environment_wins",
    "C47_value_and_pointer_stay",
    "C47_pointer_after_set_refuted",
    "C47_default_cipher_params",
    "C47_pbe_prf"
   ],
   "note": "Heap model of gost_ctl.c: histories of control calls, internal sets, reads and shutdowns in changing environments. The pointer returned by a read does not survive a later set of the same parameter (C47_pointer_after_set_refuted)."
  },
  {
   "property": "C48",
   "status": "proved",
   "theorems": [
    "C48_omac_copies_independent",
    "C48_omac_acpkm_copies_independent",
    "C48_flat_copies_independent",
    "C48_hash94_copies_independent",
    "C48_mgm_copy_partial",
    "C48_mgm_copy_shares_key_refuted",
    "C48_provider_mac_dup_partial",
    "C48_provider_mac_dup_loses_size_refuted"
   ],
   "note": "Proved: digest contexts (Streebog, GOST 28147-89 MAC, GOST R 34.11-94, OMAC, OMAC-ACPKM) for all programs over any number of contexts, with heap and pointers. Refuted for the MGM ciphers (the copy uses the original's key schedule; a _partial theorem gives the domain on which it is fine) and for the provider's MAC contexts (the tag length is lost)."
  },
  {
   "property": "C49",
   "status": "proved",
   "theorems": [
    "C49_in_place_equals_separate",
    "C49_in_place_calls",
    "C49_gost_cfb",
    "C49_gost_cnt",
    "C49_gost_cbc",
    "C49_magma_ecb",
    "C49_magma_cbc",
    "C49_magma_ctr",
    "C49_kuznyechik_ecb",
    "C49_kuznyechik_cbc",
    "C49_kuznyechik_ofb",
    "C49_kuznyechik_cfb",
    "C49_kuznyechik_ctr",
    "C49_kuznyechik_ctr_acpkm",
    "C49_raw_ecb_and_cfb",
    "C49_mgm",
    "C49_ctr_acpkm_omac_magma",
    "C49_ctr_acpkm_omac_kuznyechik",
    "C49_gost_starts_ready",
    "C49_kuznyechik_starts_ready",
    "C49_restore_gost",
    "C49_restore_magma",
    "C49_restore_kuznyechik"
   ],
   "note": "Memory-level models of every data path of the ciphers (gost-cfb/cnt/cbc, magma ecb/cbc/ctr, kuznyechik ecb/cbc/ofb/cfb/ctr/ctr-acpkm, the raw gost_enc/dec/enc_cfb/dec_cfb, MGM, ctr-acpkm-omac): one address space, reads and writes in the order of the C statements. For equal or disjoint buffers each refines the list function about which the other properties are stated, writes nothing outside the output buffer, and encrypting then decrypting a buffer in place (any call lengths) restores the memory."
  },
  {
   "property": "C50",
   "status": "proved",
   "theorems": [
    "C50_generator_multiple",
    "C50_peer_multiple",
    "C50_double_multiple",
    "C50_builds_agree",
    "C50_infinity"
   ],
   "note": "All three scalar multiplications of every curve file and of both word sizes, from the recoded digits up, over an abstract group; C54 proves the point formulas, C55 the same multiplications on coordinates, including the defect with the point of order two of the Edwards curves, which an abstract group cannot show."
  },
  {
   "property": "C51",
   "status": "proved",
   "theorems": [
    "C51_tag_of_requested_length",
    "C51_unchecked_length_refuted",
    "C51_length_zero_overflows_refuted",
    "C51_empty_key_accepted_refuted",
    "C51_key_mesh_with_key_crashes_refuted",
    "C51_second_final_crashes_refuted",
    "C51_wrong_key_refused"
   ],
   "note": "Proved for the five MACs on the sizes each one has; refuted with witnesses: other sizes, empty keys, key-mesh together with a key, a second final call."
  },
  {
   "property": "C52",
   "status": "proved",
   "theorems": [
    "C52_magma_histories",
    "C52_magma_roundtrip",
    "C52_magma_accepts_exactly_genuine",
    "C52_kuznyechik_histories",
    "C52_kuznyechik_roundtrip",
    "C52_kuznyechik_accepts_exactly_genuine",
    "C52_magma_cms_message_survives",
    "C52_magma_cms_1024_bytes_refuted",
    "C52_kuznyechik_cms_message_survives",
    "C52_unkeyed_context_dies_refuted",
    "C52_mac_attribute"
   ],
   "note": "Both suites: histories against a small spec, round trip, acceptance exactly for genuine messages, CMS parameter flow (bounded by the first section; defect theorem with witness), unkeyed contexts (defect). Equality of tags is equality of values; unforgeability is not claimed."
  },
  {
   "property": "C53",
   "status": "proved",
   "theorems": [
    "C53_cp_sends_the_standard_message",
    "C53_kek_exists_and_is_shared",
    "C53_cp_roundtrip",
    "C53_cp_accepts_exactly_the_wrapped_keys",
    "C53_cp_all_outcomes",
    "C53_cp_malformed_message_kills_refuted",
    "C53_cp_small_buffer_double_free_refuted",
    "C53_cp_announced_length_is_right",
    "C53_cp_key_length_ignored_refuted",
    "C53_cp_refused_key_left_in_buffer_refuted",
    "C53_ps_keys_are_KEG_and_shared",
    "C53_ps_sends_the_standard_message",
    "C53_ps_accepts_exactly_the_exports",
    "C53_ps_roundtrip",
    "C53_ps_all_outcomes",
    "C53_ps_other_key_lengths_lost_refuted",
    "C53_ps_2001_keys_refused",
    "C53_ps_long_ukm_ignored_refuted",
    "C53_ps_announced_length_is_right",
    "C53_ps_keys_exist"
   ],
   "note": "Both directions of EVP_PKEY_encrypt/decrypt in both variants, over any group that satisfies the curve laws (ec_laws) and any curve table entry whose points are built from coordinates (lift_ok). The defects are the _refuted theorems."
  },
  {
   "property": "C54",
   "status": "proved",
   "theorems": [
    "C54_weierstrass_double",
    "C54_weierstrass_add",
    "C54_weierstrass_add_mixed",
    "C54_weierstrass_closed",
    "C54_edwards_double",
    "C54_edwards_add",
    "C54_edwards_add_mixed",
    "C54_forms_isomorphic",
    "C54_to_weierstrass",
    "C54_from_weierstrass",
    "C54_order_two_lost_refuted"
   ],
   "note": "For every field, every curve and every pair of points (no exceptional cases but the one refuted): the straight-line programs of all eight files, with and without aliased arguments. False only for the point of order two in the Edwards conversion, shown by C54_order_two_lost_refuted."
  },
  {
   "property": "C55",
   "status": "proved",
   "theorems": [
    "C55_generator_multiple",
    "C55_peer_multiple",
    "C55_double_multiple",
    "C55_order_two_is_lost",
    "C55_refines_group",
    "C55_parameter_sets",
    "C55_parameter_files",
    "C55_example_weierstrass",
    "C55_example_edwards",
    "C55_example_sum",
    "C55_order_two_refuted",
    "C55_tables",
    "C55_curve_files",
    "C55_curve_multiples",
    "C55_table_example"
   ],
   "note": "Assumes that the group C is the curve's group of points and that p is prime (parameter_group); constants, inversion chains and all precomputed tables of the real files, both word sizes, are checked against gost_params.c (C55_parameter_sets, C55_tables), so C55_curve_multiples speaks of the real files with all their data. The table theorems use the standard library's Uint63 axioms. The sum n*G + m*Q is wrong when Q or the sum is the point of order two: characterised by C55_order_two_is_lost, witness C55_order_two_refuted."
  },
  {
   "property": "C56",
   "status": "proved",
   "theorems": [
    "C56_histories",
    "C56_reported_sizes",
    "C56_contexts_are_separate",
    "C56_long_pieces",
    "C56_long_message_refuted",
    "C56_teardown_of_another_instance_refuted",
    "C56_output_size_ignored_refuted",
    "C56_dispatch_table_refuted",
    "C56_names"
   ],
   "note": "Proved for every allowed history of calls over any number of contexts and provider instances, on all builds. Exact domain: pieces below 2^31 bytes (1994 hash: messages below 2^60), no teardown while contexts exist. Outside it the code is wrong and that is proved: C56_long_pieces / C56_long_message_refuted ((int)inl), C56_teardown_of_another_instance_refuted (shared descriptors), C56_output_size_ignored_refuted, C56_dispatch_table_refuted (no terminating entry). EVP_MD_CTX behaviour and the core's table walk are library models."
  },
  {
   "property": "C57",
   "status": "proved",
   "theorems": [
    "C57_histories",
    "C57_padding",
    "C57_whole_messages",
    "C57_output_fits",
    "C57_descriptors",
    "C57_engine_finds",
    "C57_names",
    "C57_second_message_refuted",
    "C57_parameters_at_first_init_refuted",
    "C57_long_piece_refuted",
    "C57_short_key_refuted",
    "C57_teardown_of_another_instance_refuted",
    "C57_second_load_refuted",
    "C57_mode_refuted",
    "C57_alg_id_param_refuted"
   ],
   "note": "Proved for every allowed history over any number of contexts and provider instances, for the 13 ciphers without a tag (the four with a tag: C52, MGM properties; here only their descriptors, names and lookup). Exact domain in ProvCipherSpec.legal: key and IV of exactly the reported sizes, one message per stream-mode context, no parameters before the first initialisation or within a message, pieces below 2^31-32 bytes, no teardown while contexts exist. Outside it the code is wrong and that is proved: C57_second_message_refuted, C57_parameters_at_first_init_refuted, C57_long_piece_refuted, C57_short_key_refuted, C57_teardown_of_another_instance_refuted, C57_second_load_refuted (MGM), C57_mode_refuted, C57_alg_id_param_refuted. The EVP layer (buffering, padding, EVP_CipherInit_ex) is a library model."
  },
  {
   "property": "C58",
   "status": "proved",
   "theorems": [
    "C58_signer_algorithms",
    "C58_reading_leaves_the_message",
    "C58_recipient_algorithm",
    "C58_other_requests",
    "C58_envelope_roundtrip_old",
    "C58_envelope_roundtrip_new",
    "C58_unknown_algorithms_refused",
    "C58_recipient_needs_key_context",
    "C58_other_ciphers_fail_late_refuted",
    "C58_2001_keys_fail_late_refuted",
    "C58_agreement_recipient_not_written_refuted",
    "C58_agreement_opens",
    "C58_agreement_message_kills_refuted",
    "C58_refused_originator_freed_refuted",
    "C58_short_ukm_reads_beyond_refuted"
   ],
   "note": "All outcomes of the control function are covered, on the domains stated in the theorems. Defects found and stated as _refuted theorems: an algorithm without parameters, a missing UKM or a missing originator key in a key agreement message kills the process; a refused originator key leaves parts of the message freed while the message still owns them; an 8-byte UKM makes the IV come from memory behind it and half the key from uninitialised stack; key agreement recipients are called supported and reported as written although nothing is written; 2001 keys with KExp15 ciphers announce the 512-bit agreement and then fail; other content ciphers fail only after the recipient was written. OpenSSL's CMS code itself is a library model (cms_kek_cipher)."
  },
  {
   "property": "C59",
   "status": "proved",
   "theorems": [
    "C59_histories",
    "C59_nothing_left",
    "C59_same_object",
    "C59_listed",
    "C59_listed_method_missing_refuted",
    "C59_names_same_object",
    "C59_two_providers_refuted",
    "C59_names_after_unload_refuted",
    "C59_failed_load_leaks_refuted"
   ],
   "note": "For all histories of loads (with any of their allocations failing), unloads, lists and lookups, of the engine and of the provider, as long as one instance is used at a time while it exists. Defects found and stated as _refuted theorems: the key type magma-ctr-acpkm-omac is listed and its lookup reports success without a method; two loaded providers share one set of variables, so unloading one takes the other's methods and unloading both frees memory twice; cipher and digest names stay after the engine was destroyed and lead to freed objects; a load that fails at the second new number keeps an object for ever. The library's part (ENGINE_free, table of names, OBJ_new_nid) is modelled after OpenSSL."
  },
  {
   "property": "C60",
   "status": "proved",
   "theorems": [
    "C60_histories",
    "C60_equal_pairs",
    "C60_check",
    "C60_copied_parameters_equal",
    "C60_printed_number_reads_back",
    "C60_size_is_the_signature_length",
    "C60_generation_ignores_the_generator_refuted",
    "C60_2001DH_becomes_2001_refuted",
    "C60_algorithm_follows_the_set_refuted",
    "C60_writing_missing_parameters_dies_refuted",
    "C60_aliases_differ_refuted",
    "C60_parameters_replaced_under_a_key_refuted",
    "C60_security_bits_refuted"
   ],
   "note": "For all histories of creating, generating, importing, completing, comparing, checking, printing and exporting any number of key objects, with the calls the engine gets wrong excluded by a stated condition on the history. Defects found and stated as _refuted theorems: key generation returns 1 without a key when the random generator fails; generating for, or reading parameters of, 2001DH gives a 2001 object; for the 2012 algorithms the parameter set, not the requested algorithm, decides the type; writing the parameters of a 2001 object that has none reads a null pointer; one curve under two names makes unequal keys; reading parameters into an object that has a key leaves the old numbers on the new set; the security bits are the modulus bits. The curves are parameters of the theorems with the laws of EcSpec; the octets of imported keys are the subject of C41 and C42; OpenSSL's dispatch is modelled by hand."
  },
  {
   "property": "C61",
   "status": "proved",
   "theorems": [
    "C61_28147_and_magma_contexts_forget",
    "C61_imit_contexts_are_zeroed",
    "C61_mgm_contexts_are_zeroed",
    "C61_kuznyechik_keys_survive_cleanup_refuted",
    "C61_kuznyechik_keystream_erased",
    "C61_wrap_leaves_the_wrapping_key_refuted",
    "C61_kexp15_frame_erased",
    "C61_kimp15_message_erased",
    "C61_kimp15_leaves_the_expected_mac_refuted",
    "C61_acpkm_next_leaves_the_new_key_refuted",
    "C61_acpkm_magma_erased",
    "C61_mac_keys_are_freed_unerased_refuted"
   ],
   "note": "Kept: after the clean-up of a GOST 28147-89 or Magma cipher context nothing depends on the keys, IVs or data it was used with; imit digest contexts and the key schedules and MGM states are all zero; KExp15/KImp15 erase the MAC sent and the decrypted message on every path; the Magma ACPKM re-keying erases the new key; the Kuznyechik counter modes erase the keystream block. Defects, stated as _refuted theorems for all inputs: the clean-up of the Kuznyechik ciphers other than MGM leaves the master key; the RFC 4357 wrap leaves on its stack the key that opens its output; KImp15 leaves the expected MAC on its stack after a refusal; the Kuznyechik ACPKM re-keying leaves the new key on its stack; MAC keys are handed to free with their bytes. The clean-up functions are modelled as the engine's own effect on the bytes: libcrypto also erases the cipher_data block when a context is freed, which is outside the model, and so are copies a compiler keeps in registers or spills. The fields paramNID, kdf_seed, tag and the pointer omac_ctx of the cipher contexts are not among the bytes considered."
  },
  {
   "property": "C62",
   "status": "proved",
   "theorems": [
    "C62_scalar_multiplication_leaks_nothing",
    "C62_checked_programs_leak_nothing",
    "C62_verification_leaks_refuted",
    "C62_gost28147_rounds_leak_refuted",
    "C62_magma_mgm_multiplication_leaks_refuted",
    "C62_kuznyechik_mgm_multiplication_leaks_refuted",
    "C62_magma_mgm_multiplication_computes",
    "C62_kuznyechik_mgm_multiplication_computes",
    "C62_point_multiplication_refines",
    "C62_generator_multiplication_refines",
    "C62_multiples_without_leak"
   ],
   "note": "Kept: the multiplication of a point by a secret scalar and the multiplication of the generator have the same trace of branches, loop turns, array indices and field routine calls for all scalars, points and tables, for every generated file. Refuted (and documented as such in the code): the double multiplication of signature verification, whose trace shows the parity of the first scalar at once, for all inputs; refuted: one round of GOST 28147-89, whose table look-ups reveal the half block plus the round key completely. Refuted as well: the field multiplications of MGM (gf64_mul, gf128_mul_uint64) branch on the bits of both factors - the trace of one multiplication determines the data factor entirely and the secret factor H_i up to its lowest bit, for all operands; these transcriptions too are proved to compute the model's products. The two leak-free transcriptions are proved to compute exactly what the model's ladders compute, hence - for every generated file and every group of its parameter set - the multiple by the little-endian value of the secret bytes (times the cofactor), so result and trace are stated of one and the same program. The trace is defined by the semantics of a small language into which the C functions are transcribed; that the fiat field routines are straight-line word arithmetic and that the compiler keeps selectznz free of branches is assumed, and OpenSSL's BIGNUM functions (conversion of the scalar, s = rd + ke mod q) are outside the model."
  }
 ]
}