{
 "claims": [
  {
   "property": "C01",
   "status": "proved",
   "theorems": [
    "C01_library",
    "C01_sign_then_verify",
    "C01_sign_then_verify_public_only"
   ],
   "note": "every hash function with 64-byte output, every private key length C01_library instantiates it with SHA3-512."
  },
  {
   "property": "C02",
   "status": "proved",
   "theorems": [
    "C02_sign_total",
    "C02_sign_fails_iff"
   ],
   "note": ""
  },
  {
   "property": "C03",
   "status": "proved",
   "theorems": [
    "C03_sign_equations"
   ],
   "note": ""
  },
  {
   "property": "C04",
   "status": "proved",
   "theorems": [
    "C04_every_signature",
    "C04_verify_exact",
    "C04_verify_large_S"
   ],
   "note": "C04_every_signature: every S of 32 bytes or more, with the integer double_scalar the verifier uses for it (S itself up to 2^255)"
  },
  {
   "property": "C05",
   "status": "proved",
   "theorems": [
    "C05_accepted_every",
    "C05_malleable",
    "C05_malleable_general",
    "C05_malleable_every_message",
    "C05_accepted_class",
    "C05_unique_below_q"
   ],
   "note": "exact class of accepted S, also above 2^255 (C05_accepted_every); malleability shown for every honest signature but a 2^-64 fraction"
  },
  {
   "property": "C06",
   "status": "proved",
   "theorems": [
    "C06_canonical_iff",
    "C06_not_the_range_test",
    "C06_rejects_0_and_q"
   ],
   "note": "exact characterisation; the textbook range test is shown to differ in both directions"
  },
  {
   "property": "C07",
   "status": "proved",
   "theorems": [
    "C07_make_canonical",
    "C07_make_canonical_any_length",
    "C07_make_canonical_bad_R",
    "C07_idempotent",
    "C07_preserves_verification",
    "C07_large_S_not_preserved"
   ],
   "note": "includes the counterexample above 2^255"
  },
  {
   "property": "C08",
   "status": "proved",
   "theorems": [
    "C08_verify_total",
    "C08_R_of_wrong_length",
    "C08_short_S_panics"
   ],
   "note": "includes the exact panic case for short S"
  },
  {
   "property": "C09",
   "status": "proved",
   "theorems": [
    "C09_wrong_length",
    "C09_64_bytes",
    "C09_64_bytes_accepted_example"
   ],
   "note": ""
  },
  {
   "property": "C10",
   "status": "proved",
   "theorems": [
    "C10_zero_key",
    "C10_neutral_key_accepts"
   ],
   "note": ""
  },
  {
   "property": "C11",
   "status": "proved",
   "theorems": [
    "C11_sign_without_private_key"
   ],
   "note": ""
  },
  {
   "property": "C12",
   "status": "proved",
   "theorems": [
    "C12_derive",
    "C12_secret_scalar",
    "C12_secret_scalar_bits"
   ],
   "note": "clamping given bit by bit"
  },
  {
   "property": "C13",
   "status": "proved",
   "theorems": [
    "C13_field_multiply",
    "C13_field_square",
    "C13_field_square_double",
    "C13_field_add",
    "C13_field_subtract",
    "C13_field_negate"
   ],
   "note": "every limb vector within the stated bounds; int64 wrap-around shown absent"
  },
  {
   "property": "C14",
   "status": "proved",
   "theorems": [
    "C14_invert"
   ],
   "note": "including invert(0)=0"
  },
  {
   "property": "C15",
   "status": "proved",
   "theorems": [
    "C15_encode_canonical",
    "C15_equals",
    "C15_is_nonzero",
    "C15_is_negative",
    "C15_arbitrary_limbs_refuted"
   ],
   "note": "true for bounded limbs, refuted for the arbitrary int64 limbs the exported constructor accepts"
  },
  {
   "property": "C16",
   "status": "proved",
   "theorems": [
    "C16_decode",
    "C16_decode_encode",
    "C16_decode_long",
    "C16_decode_short"
   ],
   "note": ""
  },
  {
   "property": "C17",
   "status": "proved",
   "theorems": [
    "C17_sqrt",
    "C17_sqrt_zero"
   ],
   "note": ""
  },
  {
   "property": "C18",
   "status": "proved",
   "theorems": [
    "C18_modQ",
    "C18_modQ_bytes",
    "C18_modQ_short",
    "C18_modQ_any"
   ],
   "note": ""
  },
  {
   "property": "C19",
   "status": "proved",
   "theorems": [
    "C19_mulAdd",
    "C19_mulAdd_bytes",
    "C19_mulAdd_any",
    "C19_mulAdd_short"
   ],
   "note": ""
  },
  {
   "property": "C20",
   "status": "proved",
   "theorems": [
    "C20_add",
    "C20_subtract",
    "C20_precomputed_add",
    "C20_precomputed_subtract",
    "C20_double_P2",
    "C20_double_P3",
    "C20_negate",
    "C20_other_systems",
    "C20_represented_point_unique"
   ],
   "note": "complete addition law, no exceptional cases"
  },
  {
   "property": "C21",
   "status": "proved",
   "theorems": [
    "C21_addition_law",
    "C21_assoc",
    "C21_comm",
    "C21_neutral",
    "C21_inverse",
    "C21_order_of_B",
    "C21_p_q_prime"
   ],
   "note": "includes primality of p and q (Pocklington certificates)"
  },
  {
   "property": "C22",
   "status": "proved",
   "theorems": [
    "C22_encode_decode",
    "C22_encode_injective",
    "C22_encode_other_panics"
   ],
   "note": ""
  },
  {
   "property": "C23",
   "status": "proved",
   "theorems": [
    "C23_decode",
    "C23_decode_64_bytes",
    "C23_decode_other_length",
    "C23_rejects_noncanonical_refuted"
   ],
   "note": "exact characterisation; that non-canonical strings are rejected is refuted"
  },
  {
   "property": "C24",
   "status": "proved",
   "theorems": [
    "C24_equals",
    "C24_equals_inconvertible",
    "C24_equals_affine",
    "C24_equals_symmetric_refuted"
   ],
   "note": "holds for the nine convertible pairs; symmetry refuted"
  },
  {
   "property": "C25",
   "status": "proved",
   "theorems": [
    "C25_convertible_pairs",
    "C25_convert",
    "C25_convert_panics"
   ],
   "note": ""
  },
  {
   "property": "C26",
   "status": "proved",
   "theorems": [
    "C26_scalar_multiply",
    "C26_base_scalar_multiply",
    "C26_all_scalars_refuted",
    "C26_short_scalar_panics",
    "C26_every_scalar",
    "C26_base_every_scalar",
    "C26_correct_range",
    "C26_small"
   ],
   "note": "C26_every_scalar: all scalars of 32 bytes or more; the result is [a]P exactly below 9*16^63 - 8*(16^63-1)/15"
  },
  {
   "property": "C27",
   "status": "proved",
   "theorems": [
    "C27_on_demand_refuted",
    "C27_without_table_panics"
   ],
   "note": "the documented property is false of the code: refuted, and the panic proved for every element"
  },
  {
   "property": "C28",
   "status": "proved",
   "theorems": [
    "C28_double_scalar_multiply",
    "C28_double_scalar_multiply_any",
    "C28_every_scalar",
    "C28_used_scalar",
    "C28_used_scalar_example"
   ],
   "note": "C28_every_scalar: all scalars; the multiplier is the value of the first 256 digits of the width-5 NAF"
  },
  {
   "property": "C29",
   "status": "proved",
   "theorems": [
    "C29_single_table",
    "C29_double_table",
    "C29_base_point",
    "C29_base_point_coords",
    "C29_constants"
   ],
   "note": ""
  },
  {
   "property": "C30",
   "status": "proved",
   "theorems": [
    "C30_satisfies",
    "C30_satisfied_by_results",
    "C30_other_systems_panic"
   ],
   "note": ""
  },
  {
   "property": "C31",
   "status": "proved",
   "theorems": [
    "C31_symmetric",
    "C31_value",
    "C31_every_call"
   ],
   "note": ""
  },
  {
   "property": "C32",
   "status": "proved",
   "theorems": [
    "C32_decrypt_encrypt",
    "C32_sender_decrypts",
    "C32_aes",
    "C32_library"
   ],
   "note": "also the sender reading its own message C32_aes proves the hypothesis cipher_ok for AES-256; C32_library is the statement for SHA3-512, SHA3-256 and AES-256 with no hypothesis on the algorithms left."
  },
  {
   "property": "C33",
   "status": "proved",
   "theorems": [
    "C33_layout",
    "C33_short_source"
   ],
   "note": ""
  },
  {
   "property": "C34",
   "status": "proved",
   "theorems": [
    "C34_no_panic",
    "C34_panics",
    "C34_short_input"
   ],
   "note": "exact panic set"
  },
  {
   "property": "C35",
   "status": "proved",
   "theorems": [
    "C35_exact",
    "C35_unpad_pad",
    "C35_unpad_sound"
   ],
   "note": "Decrypt accepts exactly what Encrypt produces"
  },
  {
   "property": "C36",
   "status": "proved",
   "theorems": [
    "C36_encrypt",
    "C36_decrypt"
   ],
   "note": ""
  },
  {
   "property": "C37",
   "status": "proved",
   "theorems": [
    "C37_private_roundtrip",
    "C37_public_roundtrip",
    "C37_text",
    "C37_signature_text",
    "C37_private_from_hex",
    "C37_public_from_hex"
   ],
   "note": "exact texts; exact acceptance set for every string"
  },
  {
   "property": "C38",
   "status": "proved",
   "theorems": [
    "C38_exact",
    "C38_iff",
    "C38_shorter_key_example"
   ],
   "note": ""
  },
  {
   "property": "C39",
   "status": "proved",
   "theorems": [
    "C39_from_bytes",
    "C39_from_bytes_error",
    "C39_new_signature",
    "C39_new_signature_error",
    "C39_roundtrip"
   ],
   "note": ""
  },
  {
   "property": "C40",
   "status": "proved",
   "theorems": [
    "C40_success",
    "C40_error",
    "C40_values_kept",
    "C40_values_altered_example",
    "C40_rebuild"
   ],
   "note": ""
  },
  {
   "property": "C41",
   "status": "proved",
   "theorems": [
    "C41_bytes_value",
    "C41_string_value",
    "C41_no_spare_capacity",
    "C41_sign_fresh",
    "C41_spare_capacity",
    "C41_exactly",
    "C41_from_bytes",
    "C41_constructor_shares",
    "C41_new_refines",
    "C41_from_bytes_refines",
    "C41_canonical_refines",
    "C41_history",
    "C41_verify_later",
    "C41_canonical_trap",
    "C41_canonical_trap_possible",
    "C41_canonical_trap_changes",
    "C41_buffer_overwritten"
   ],
   "note": "heap model with slices, capacities and append; exact characterisation; the canonical trap refutes the naive claim"
  },
  {
   "property": "C42",
   "status": "proved",
   "theorems": [
    "C42_generate",
    "C42_short_source"
   ],
   "note": ""
  },
  {
   "property": "C43",
   "status": "proved",
   "theorems": [
    "C43_derived",
    "C43_given",
    "C43_nothing_given",
    "C43_mismatch_accepted_example",
    "C43_mismatch_verify"
   ],
   "note": ""
  },
  {
   "property": "C44",
   "status": "proved",
   "theorems": [
    "C44_parts",
    "C44_boundaries",
    "C44_any_sponge",
    "C44_one_part",
    "C44_sizes",
    "C44_instances"
   ],
   "note": "The incremental sponge object of x/crypto/sha3 (buffer, partial writes, padding) is modelled and shown equal to the one-shot sponge of the concatenation for every list of parts, permutation, rate; the concrete Keccak-f is checked against published digests (ModelTests). SHA-256 and RIPEMD-160: C55."
  },
  {
   "property": "C45",
   "status": "proved",
   "theorems": [
    "C45_add",
    "C45_double",
    "C45_add_neutral_wrong",
    "C45_add_other_systems",
    "C45_negate",
    "C45_negate_other_systems",
    "C45_scalar_multiply",
    "C45_double_scalar_multiply",
    "C45_reduce",
    "C45_multiply_add"
   ],
   "note": ""
  },
  {
   "property": "C46",
   "status": "proved",
   "theorems": [
    "C46_every_string",
    "C46_toGroupElement",
    "C46_rejects_points",
    "C46_argument",
    "C46_short"
   ],
   "note": ""
  },
  {
   "property": "C47",
   "status": "proved",
   "theorems": [
    "C47_toRepresentation",
    "C47_toRepresentation_precomputed",
    "C47_toRepresentation_nil_T"
   ],
   "note": ""
  },
  {
   "property": "C48",
   "status": "proved",
   "theorems": [
    "C48_randomFieldElement",
    "C48_randomFieldElement_short",
    "C48_randomEncodedField",
    "C48_randomEncodedField_panics",
    "C48_randomGroupElement",
    "C48_randomEncodedGroupElement",
    "C48_randomGroupElement_panics"
   ],
   "note": ""
  },
  {
   "property": "C49",
   "status": "proved",
   "theorems": [
    "C49_base_point_constant",
    "C49_elements_constant",
    "C49_to_coordinate_system",
    "C49_select",
    "C49_arithmetic",
    "C49_tables",
    "C49_write_leaks",
    "C49_write_possible",
    "C49_select_leaks",
    "C49_select_possible",
    "C49_write_only",
    "C49_write_to_new",
    "C49_write_to_new_possible",
    "C49_write_to_converted",
    "C49_write_to_converted_possible",
    "C49_reachable"
   ],
   "note": "object model with shared coordinate pointers; all histories of library calls; leaks through outside writes shown, and their exact extent"
  },
  {
   "property": "C50",
   "status": "proved",
   "theorems": [
    "C50_flipped_bits_accepted",
    "C50_dropped_blocks_accepted",
    "C50_sender_not_authenticated"
   ],
   "note": "exact bit-flipping statement; no integrity, shown for every message"
  },
  {
   "property": "C51",
   "status": "proved",
   "theorems": [
    "C51_small_order_keys",
    "C51_shared_key_public",
    "C51_anyone_decrypts",
    "C51_cofactor_ignored"
   ],
   "note": "complete list of small-order encodings proved from the curve equation"
  },
  {
   "property": "C52",
   "status": "proved",
   "theorems": [
    "C52_two_public_keys_leak",
    "C52_repeated_R_leaks",
    "C52_scalar_signs",
    "C52_two_public_keys_forge"
   ],
   "note": "key recovery and forgery as theorems about the model's Sign and Verify"
  },
  {
   "property": "C53",
   "status": "proved",
   "theorems": [
    "C53_order",
    "C53_same_public_key"
   ],
   "note": "uses primality of q and the proved order of the base point"
  },
  {
   "property": "C54",
   "status": "proved",
   "theorems": [
    "C54_history",
    "C54_random_bytes_visible",
    "C54_chunks_irrelevant",
    "C54_many_key_pairs"
   ],
   "note": "histories by induction; readers with chunks and errors; io.ReadFull is a contract"
  },
  {
   "property": "C55",
   "status": "proved",
   "theorems": [
    "C55_sha256",
    "C55_ripemd160",
    "C55_sizes",
    "C55_any_parts",
    "C55_length_extension"
   ],
   "note": "the compression functions are checked against published digests in MdModel; the theorems hold for them and, for the buffering, for every block function"
  },
  {
   "property": "C56",
   "status": "proved",
   "theorems": [
    "C56_goroutines",
    "C56_plain"
   ],
   "note": "programs of single byte accesses, arbitrary schedules; goroutines hand nothing to each other; field and group elements are values"
  },
  {
   "property": "C57",
   "status": "proved",
   "theorems": [
    "C57_derive",
    "C57_new_key_pair",
    "C57_generate",
    "C57_sign",
    "C57_verify",
    "C57_make_canonical",
    "C57_encrypt",
    "C57_decrypt",
    "C57_unchanged",
    "C57_independent"
   ],
   "note": "refinement of the byte-string model by programs on memory, per call"
  },
  {
   "property": "C58",
   "status": "proved",
   "theorems": [
    "C58_bytes_writes_iff",
    "C58_decoded_writes",
    "C58_goroutines",
    "C58_schedule_matters",
    "C58_two_answers"
   ],
   "note": "the code's behaviour, exactly: a data race in Go's memory model; results under atomic byte accesses"
  },
  {
   "property": "C59",
   "status": "proved",
   "theorems": [
    "C59_private_key",
    "C59_key_pair",
    "C59_signatures_fail"
   ],
   "note": "uses the primality of q for the exception"
  },
  {
   "property": "C60",
   "status": "proved",
   "theorems": [
    "C60_same_results",
    "C60_select_tells_the_digit",
    "C60_multiplication_tells_the_scalar",
    "C60_branches_alike_iff_same_scalar",
    "C60_nothing_else",
    "C60_derivation_tells_the_private_scalar",
    "C60_shared_key_tells_the_private_scalar",
    "C60_signing_tells_the_nonce",
    "C60_signing_tells_the_private_scalar",
    "C60_signing_lets_forge",
    "C60_rest_of_derivation",
    "C60_rest_of_signing",
    "C60_rest_of_shared_key"
   ],
   "note": "about conditions, lengths and table rows, not about time or caches; the documented claim is false of the code"
  },
  {
   "property": "C61",
   "status": "proved",
   "theorems": [
    "C61_reads_whatever_is_accepted",
    "C61_reads_encrypted_messages",
    "C61_writes_messages"
   ],
   "note": "the attacker is an explicit tree of questions (PadSpec); what the code does not protect against"
  },
  {
   "property": "C62",
   "status": "proved",
   "theorems": [
    "C62_field_text",
    "C62_field_text_same",
    "C62_encoded_field_new",
    "C62_encoded_field_compare",
    "C62_encoded_field_value",
    "C62_encoded_nonzero_but_decodes_to_zero",
    "C62_affine_coordinates",
    "C62_encoded_group_text",
    "C62_encoded_group_text_length",
    "C62_encoded_group_text_same",
    "C62_same_text_not_equal",
    "C62_group_text_panics",
    "C62_group_text",
    "C62_group_text_point",
    "C62_equal_points_different_text"
   ],
   "note": "strings as lists of byte codes; the code's behaviour, exactly"
  },
  {
   "property": "C63",
   "status": "proved",
   "theorems": [
    "C63_select",
    "C63_select_panics",
    "C63_select_model",
    "C63_byte_equality",
    "C63_negative",
    "C63_every_multiple_refuted"
   ],
   "note": "with the wrap-around of int; the model of C26 is shown to be the same function"
  },
  {
   "property": "C64",
   "status": "proved",
   "theorems": [
    "C64_history",
    "C64_order",
    "C64_other_systems_panic",
    "C64_copy_is_not_precomputed"
   ],
   "note": "sequences of calls on one element; tables not nil-poisoned by a recovered panic"
  },
  {
   "property": "C65",
   "status": "proved",
   "theorems": [
    "C65_memory_no_output",
    "C65_memory_process",
    "C65_output_never_written",
    "C65_plaintext_lost_example",
    "C65_no_encryption"
   ],
   "note": "placeholders in the code; stated as what they do"
  },
  {
   "property": "C66",
   "status": "proved",
   "theorems": [
    "C66_encrypt",
    "C66_one_ciphertext",
    "C66_encrypt_errors",
    "C66_decrypt",
    "C66_one_plaintext",
    "C66_decrypt_errors",
    "C66_odd_recipient"
   ],
   "note": "specification of CBC and PKCS #7 independent of the model"
  },
  {
   "property": "C67",
   "status": "proved",
   "theorems": [
    "C67_number_of_points",
    "C67_structure",
    "C67_exponent",
    "C67_subgroup",
    "C67_same_shared_keys",
    "C67_public_shared_key_iff",
    "C67_shared_point",
    "C67_derived_keys"
   ],
   "note": "counting argument: a point is determined by y and a bit, so there are at most 2p < 16q points"
  },
  {
   "property": "C68",
   "status": "proved",
   "theorems": [
    "C68_signatures_valid",
    "C68_sound",
    "C68_error_point",
    "C68_derived_keys",
    "C68_disagreement",
    "C68_mixed_order_keys",
    "C68_noncanonical_key",
    "C68_zero_key"
   ],
   "note": "specification RfcSpec.v written from RFC 8032, not from the library; SHA-512 is replaced by the hash parameter"
  },
  {
   "property": "C69",
   "status": "proved",
   "theorems": [
    "C69_other_message",
    "C69_other_key"
   ],
   "note": ""
  },
  {
   "property": "C70",
   "status": "proved",
   "theorems": [
    "C70_sign",
    "C70_verify",
    "C70_new_key_pair",
    "C70_generate",
    "C70_same_generate",
    "C70_new_block_cipher",
    "C70_encrypt",
    "C70_decrypt",
    "C70_derive",
    "C70_has_private_key",
    "C70_is_canonical",
    "C70_make_canonical",
    "C70_same_helpers",
    "C70_get_shared_key",
    "C70_constructed_sign_verify",
    "C70_constructed_cipher",
    "C70_same_calls"
   ],
   "note": "pointers are options; the receivers (signer, block cipher) come from their constructors"
  },
  {
   "property": "C71",
   "status": "proved",
   "theorems": [
    "C71_generate",
    "C71_generate_waits",
    "C71_encrypt",
    "C71_encrypt_waits",
    "C71_one_outcome",
    "C71_same_bytes",
    "C71_progress",
    "C71_finite_readers"
   ],
   "note": "io.ReadFull as in the Go standard library; a Read returning more bytes than asked for breaks the contract and is excluded"
  },
  {
   "property": "C72",
   "status": "proved",
   "theorems": [
    "C72_P3",
    "C72_half_filled",
    "C72_P2",
    "C72_select",
    "C72_select_right_refuted",
    "C72_scalar_multiply",
    "C72_scalar_multiply_right_refuted",
    "C72_double_right_or_panic"
   ],
   "note": "the code's behaviour, exactly; scalarMultiply and the double multiplication are not exported, Select is"
  },
  {
   "property": "C73",
   "status": "proved",
   "theorems": [
    "C73_accepted",
    "C73_odd_not_canonical",
    "C73_odd_number",
    "C73_number_of_strings",
    "C73_strings_of_point",
    "C73_strings_of_derived_key"
   ],
   "note": "Decode of every 32-byte string: the exact list of accepted non-encodings, their number, and all strings of each point and of each derived key."
  },
  {
   "property": "C74",
   "status": "proved",
   "theorems": [
    "C74_equal_blocks",
    "C74_repeated_randomness",
    "C74_repeated_randomness_whole",
    "C74_moved_blocks"
   ],
   "note": "CBC blocks: exact characterisation of equal ciphertext blocks, of ciphertexts with repeated randomness, and of moved blocks under Decrypt."
  },
  {
   "property": "C75",
   "status": "proved",
   "theorems": [
    "C75_as_if_alone",
    "C75_bytes",
    "C75_order",
    "C75_no_byte_twice",
    "C75_all_return",
    "C75_own_readers"
   ],
   "note": "Reads are atomic and the unit of interleaving; memory effects between Reads are the subject of C56. Readers obey the io.Reader contract (at most as many bytes as asked for)."
  },
  {
   "property": "C76",
   "status": "proved",
   "theorems": [
    "C76_programs",
    "C76_points_exist",
    "C76_exchange",
    "C76_panic_ends",
    "C76_no_panic",
    "C76_misuse"
   ],
   "note": "Full: refinement, by a simulation of the machine over limbs and tables by a machine over curve points; the example program exercises errors, copies without tables and a panic."
  },
  {
   "property": "C77",
   "status": "proved",
   "theorems": [
    "C77_accepted_form",
    "C77_every_nonce",
    "C77_one_nonce",
    "C77_accepted_any",
    "C77_accepted_every",
    "C77_R",
    "C77_signed"
   ],
   "note": "The hash is a parameter. Exact characterisation of the accepted signatures under derived keys, from the exactness of Verify (C04) and the order of B."
  },
  {
   "property": "C78",
   "status": "proved",
   "theorems": [
    "C78_encode",
    "C78_is_negative",
    "C78_equals",
    "C78_is_nonzero",
    "C78_only_the_value",
    "C78_undisciplined_refuted"
   ],
   "note": "The discipline (three summands for products, nine for what is looked at) covers every use in the library's group operations. Its necessity is shown by the refuted version."
  },
  {
   "property": "C79",
   "status": "proved",
   "theorems": [
    "C79_bytes_to_integer",
    "C79_limbs_to_integer",
    "C79_field_to_integer",
    "C79_to_bytes_panics",
    "C79_to_bytes",
    "C79_to_encoded",
    "C79_to_field_panics",
    "C79_to_field",
    "C79_bytes_back",
    "C79_integer_back",
    "C79_integer_back_from_field",
    "C79_field_back",
    "C79_field_of_integer_refuted",
    "C79_square_root",
    "C79_same_square_root",
    "C79_affine_x",
    "C79_random_bytes",
    "C79_random_int64",
    "C79_random_int64_short"
   ],
   "note": "The contract of go-xpx-utils for BigIntToByteArray (absolute value, 32 bytes) is as in DESIGN."
  },
  {
   "property": "C80",
   "status": "proved",
   "theorems": [
    "C80_no_wrong_entry",
    "C80_select",
    "C80_single_complete",
    "C80_single_stays",
    "C80_double_complete",
    "C80_double_stays",
    "C80_one_single_never_panics",
    "C80_doubles_never_panic",
    "C80_two_singles_panic",
    "C80_double_lost",
    "C80_right_after_return_refuted",
    "C80_every_call_ends",
    "C80_safe_use_has_no_race",
    "C80_is_precomputed",
    "C80_double_multiply"
   ],
   "note": "Loads and stores are indivisible and seen in one order by all goroutines (the Go memory model promises this only without data races). Coordinates of the element are never written."
  },
  {
   "property": "C81",
   "status": "proved",
   "theorems": [
    "C81_same_calls",
    "C81_convert",
    "C81_encode",
    "C81_satisfies",
    "C81_double",
    "C81_add",
    "C81_subtract",
    "C81_precomputed_add",
    "C81_precomputed_subtract",
    "C81_negate",
    "C81_string",
    "C81_equals_different",
    "C81_equals_same",
    "C81_panic_values"
   ],
   "note": "Table-free methods on elements with any coordinate system number and nil coordinates, with panic values; agreement with GroupModel."
  },
  {
   "property": "C82",
   "status": "proved",
   "theorems": [
    "C82_equals_prints",
    "C82_texts",
    "C82_equals_nil",
    "C82_equals_silent",
    "C82_library_elements_whole",
    "C82_verify_prints",
    "C82_verify_same"
   ],
   "note": "The bytes written by fmt.Printf in Equals and fmt.Println in Verify."
  },
  {
   "property": "C83",
   "status": "proved",
   "theorems": [
    "C83_generate",
    "C83_pair_fits",
    "C83_encrypt",
    "C83_recipient_reads",
    "C83_reads_always_refuted",
    "C83_stores_nothing",
    "C83_honest_readers"
   ],
   "note": "C83_reads_always_refuted: a reader that keeps the salt's slice and changes it in a later Read makes Encrypt return a message that cannot be read; C83_recipient_reads has the condition under which this cannot happen."
  },
  {
   "property": "C84",
   "status": "proved",
   "theorems": [
    "C84_sha3_512",
    "C84_256",
    "C84_permutation",
    "C84_bits"
   ],
   "note": "the bit-level definitions of FIPS 202 written out independently; lanes and bytes of the model related to them by a simulation"
  },
  {
   "property": "C85",
   "status": "proved",
   "theorems": [
    "C85_schedule",
    "C85_encrypt",
    "C85_decrypt",
    "C85_inverse"
   ],
   "note": "FIPS 197 written with polynomials over GF(2), without tables, and a key schedule given by its recurrence; crypto/aes itself is a contract"
  },
  {
   "property": "C86",
   "status": "proved",
   "theorems": [
    "C86_sha256",
    "C86_bits",
    "C86_constants"
   ],
   "note": "is_SHA256 is a relation written from the standard, on bit strings, constants by description; existence and uniqueness are both proved."
  },
  {
   "property": "C87",
   "status": "proved",
   "theorems": [
    "C87_ripemd160",
    "C87_constants"
   ],
   "note": "is_RIPEMD160 is a relation written from the paper: word orders by rho and pi, shifts by message word, constants by description; existence and uniqueness are both proved."
  },
  {
   "property": "C88",
   "status": "proved",
   "theorems": [
    "C88_public_key",
    "C88_sign",
    "C88_accepted",
    "C88_verify",
    "C88_verify_any",
    "C88_encrypt",
    "C88_decrypt",
    "C88_received",
    "C88_sent"
   ],
   "note": "Standards-only description (StdSpec, no model functions) of keys, signatures and messages; the library's outputs are its unique solutions, Verify/Decrypt accept others' (exact), both directions."
  },
  {
   "property": "C89",
   "status": "proved",
   "theorems": [
    "C89_includes_one_order",
    "C89_no_wrong_entry",
    "C89_select",
    "C89_multiply",
    "C89_other_calls",
    "C89_is_precomputed",
    "C89_every_call_ends",
    "C89_returned_is_not_enough",
    "C89_double_right_or_panics",
    "C89_double_can_panic",
    "C89_double_includes_one_order"
   ],
   "note": "A load gives nil or any value stored there at any time; a slice whose words come from two stores acts like nil, like one of the tables, or panics. What a stored element pointer points to is seen complete (the coordinates are never stored to after the pointer is). The memory is weaker than the one of the Go memory model: the failures shown are those of unsynchronised goroutines, and the positive claims hold on every memory."
  }
 ]
}