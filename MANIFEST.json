{
 "claims": [
  {
   "property": "C01",
   "status": "proved",
   "theorems": [
    "C01_sum_is_standard"
   ],
   "note": "One-shot Sum equals the GB/T 32905 function for every non-empty input below 2^31 bytes."
  },
  {
   "property": "C02",
   "status": "proved",
   "theorems": [
    "C02_streaming"
   ],
   "note": "Every split into non-empty chunks below 2^31 bytes, total below 2^61 bytes; includes zero chunks."
  },
  {
   "property": "C03",
   "status": "proved",
   "theorems": [
    "C03_reset_forgets",
    "C03_reset_any_state"
   ],
   "note": "After any history of Write/Sum/Reset, and for any contents of the struct."
  },
  {
   "property": "C04",
   "status": "proved",
   "theorems": [
    "C04_sum_twice",
    "C04_sum_keeps_state_refuted"
   ],
   "note": "Exact value of a second Sum; the hash.Hash contract is refuted with a witness."
  },
  {
   "property": "C05",
   "status": "proved",
   "theorems": [
    "C05_write_panics",
    "C05_sum_panics_iff"
   ],
   "note": "Exact panic condition of Write after any good writes, and of Sum."
  },
  {
   "property": "C06",
   "status": "proved",
   "theorems": [
    "C06_sizes",
    "C06_blocksize",
    "C06_blocksize_refuted"
   ],
   "note": "Digest length, append behaviour, Size 32, BlockSize 16 (not 64, refuted)."
  },
  {
   "property": "C07",
   "status": "proved",
   "theorems": [
    "C07_encrypt_standard",
    "C07_decrypt_standard",
    "C07_refusals"
   ],
   "note": "Refusals with the exact error values in C07_refusals. Encrypt/Decrypt equal the standard transformation (algebraic S-box, computed CK) for all keys and blocks."
  },
  {
   "property": "C08",
   "status": "proved",
   "theorems": [
    "C08_inverse",
    "C08_permutation"
   ],
   "note": "Both compositions are the identity; injectivity as a corollary."
  },
  {
   "property": "C09",
   "status": "proved",
   "theorems": [
    "C09_footprint"
   ],
   "note": "Heap model: any two windows, any overlap; exact panic condition and footprint. The value written is C07_encrypt_standard."
  },
  {
   "property": "C10",
   "status": "proved",
   "theorems": [
    "C10_key_length",
    "C10_key_length_iff"
   ],
   "note": "Exact key-length condition and error for every entry point."
  },
  {
   "property": "C11",
   "status": "proved",
   "theorems": [
    "C11_ecb",
    "C11_ecb_decrypt",
    "C11_length_error",
    "C11_never_panics"
   ],
   "note": "Block structure, round trip, length error, absence of panics."
  },
  {
   "property": "C12",
   "status": "proved",
   "theorems": [
    "C12_cbc",
    "C12_cbc_decrypt",
    "C12_bad_iv_panics"
   ],
   "note": "Chaining equation, round trip, bad iv panic. crypto/cipher CBC is modelled from its documented behaviour."
  },
  {
   "property": "C13",
   "status": "proved",
   "theorems": [
    "C13_padded_roundtrip",
    "C13_zero_padded_roundtrip"
   ],
   "note": "PKCS5 and zero padding, ECB and CBC."
  },
  {
   "property": "C14",
   "status": "proved",
   "theorems": [
    "C14_pkcs5_shape",
    "C14_pkcs5_inverse_iff",
    "C14_pkcs5_roundtrip",
    "C14_zero_block_panics",
    "C14_large_block_refuted"
   ],
   "note": "Shape, exact inversion condition (fewer than 256 bytes added), zero block size panics; large blocks refuted."
  },
  {
   "property": "C15",
   "status": "proved",
   "theorems": [
    "C15_unpad_exact",
    "C15_validates_refuted"
   ],
   "note": "Exact behaviour on every byte string; validation refuted."
  },
  {
   "property": "C16",
   "status": "proved",
   "theorems": [
    "C16_zero_pad_shape",
    "C16_unzero"
   ],
   "note": "Shape, exact effect and exact panic condition including negative counts and capacity."
  },
  {
   "property": "C17",
   "status": "proved",
   "theorems": [
    "C17_backing_array"
   ],
   "note": "Exact effect on the backing array."
  },
  {
   "property": "C18",
   "status": "proved",
   "theorems": [
    "C18_read_uint"
   ],
   "note": "All four widths, any String, nil included."
  },
  {
   "property": "C19",
   "status": "proved",
   "theorems": [
    "C19_read_length_prefixed"
   ],
   "note": "Exact result and remaining String for every input; a failed read still consumes the prefix."
  },
  {
   "property": "C20",
   "status": "proved",
   "theorems": [
    "C20_suffix_simple",
    "C20_suffix_asn1",
    "C20_partition"
   ],
   "note": "Readers return suffixes of what they were given, and success partitions the input."
  },
  {
   "property": "C21",
   "status": "proved",
   "theorems": [
    "C21_skip",
    "C21_read_bytes",
    "C21_copy_bytes"
   ],
   "note": "Skip, ReadBytes, CopyBytes including negative counts and nil."
  },
  {
   "property": "C22",
   "status": "proved",
   "theorems": [
    "C22_read_any",
    "C22_read_any_element",
    "C22_never_panics"
   ],
   "note": "Accepted iff the input begins with a DER TLV of low tag and total size below 2^32; never panics."
  },
  {
   "property": "C23",
   "status": "proved",
   "theorems": [
    "C23_canonical"
   ],
   "note": "Two accepted encodings of the same tag and content are identical."
  },
  {
   "property": "C24",
   "status": "proved",
   "theorems": [
    "C24_read_asn1",
    "C24_read_asn1_element",
    "C24_skip_asn1",
    "C24_peek"
   ],
   "note": "A wrong tag still consumes the element and overwrites the output."
  },
  {
   "property": "C25",
   "status": "proved",
   "theorems": [
    "C25_uint_roundtrip"
   ],
   "note": "Four widths, any surrounding bytes."
  },
  {
   "property": "C26",
   "status": "proved",
   "theorems": [
    "C26_growing_builder"
   ],
   "note": "Arbitrary trees of adds, length-prefixed groups and elements on a growing Builder."
  },
  {
   "property": "C27",
   "status": "proved",
   "theorems": [
    "C27_no_bytes",
    "C27_children_fit"
   ],
   "note": "No bytes are returned if any child anywhere does not fit."
  },
  {
   "property": "C28",
   "status": "proved",
   "theorems": [
    "C28_adds_ignored",
    "C28_sticky",
    "C28_child_error"
   ],
   "note": "Any later call sequence, growing or fixed, including panicking continuations."
  },
  {
   "property": "C29",
   "status": "proved",
   "theorems": [
    "C29_capacity",
    "C29_plain",
    "C29_children",
    "C29_children_lost_refuted",
    "C29_overflow_panics_refuted"
   ],
   "note": "Confinement for arbitrary call sequences even when they panic; exact result for plain adds; children lost and internal panic shown by witnesses."
  },
  {
   "property": "C30",
   "status": "proved",
   "theorems": [
    "C30_write_pending",
    "C30_build_error",
    "C30_other_panics"
   ],
   "note": "BuildError recovery is proved for growing Builders; in fixed ones the flush after recovery may itself panic (C29)."
  },
  {
   "property": "C31",
   "status": "proved",
   "theorems": [
    "C31_element_roundtrip",
    "C31_too_long_to_read"
   ],
   "note": "Also shows that elements of 2^32-6 to 2^32-2 bytes are written but cannot be read."
  },
  {
   "property": "C32",
   "status": "proved",
   "theorems": [
    "C32_write",
    "C32_int_der_total",
    "C32_roundtrip",
    "C32_minus_one_panics"
   ],
   "note": "Statement corrected after the proof attempt: -1 panics."
  },
  {
   "property": "C33",
   "status": "proved",
   "theorems": [
    "C33_write_signed",
    "C33_write_unsigned",
    "C33_read_integer",
    "C33_read_never_panics",
    "C33_roundtrip",
    "C33_read_enum"
   ],
   "note": "Writers produce the minimal encoding; ReadASN1Integer and ReadASN1Enum are characterised exactly (iff) for every width 1..64 and big.Int, and never panic."
  },
  {
   "property": "C34",
   "status": "proved",
   "theorems": [
    "C34_canonical",
    "C34_injective"
   ],
   "note": "Exact characterisation plus injectivity."
  },
  {
   "property": "C35",
   "status": "proved",
   "theorems": [
    "C35_roundtrip",
    "C35_bound_sharp",
    "C35_invalid_refused",
    "C35_wrap_refuted",
    "C35_not_canonical_refuted"
   ],
   "note": "Round trip, sharp bound, refusal of invalid OIDs, wrap-around and non-canonical witnesses."
  },
  {
   "property": "C36",
   "status": "proved",
   "theorems": [
    "C36_octet_string",
    "C36_read_bit_string",
    "C36_read_bit_string_as_bytes",
    "C36_bit_string_roundtrip"
   ],
   "note": "Exact characterisation of the BIT STRING readers plus round trips."
  },
  {
   "property": "C37",
   "status": "proved",
   "theorems": [
    "C37_read_boolean",
    "C37_no_roundtrip",
    "C37_optional_boolean"
   ],
   "note": "Exact acceptance set; the written BOOLEAN is always rejected."
  },
  {
   "property": "C38",
   "status": "proved",
   "theorems": [
    "C38_optional",
    "C38_optional_integer_absent",
    "C38_optional_integer_present",
    "C38_optional_octet_string"
   ],
   "note": "Exact characterisation for optional elements, integers and octet strings."
  },
  {
   "property": "C39",
   "status": "proved",
   "theorems": [
    "C39_domain_parameters",
    "C39_base_point_order",
    "C39_base_mult_injective"
   ],
   "note": "Primality by Pocklington certificates; the order by a scalar-multiplication certificate, both re-checked by the kernel."
  },
  {
   "property": "C40",
   "status": "proved",
   "theorems": [
    "C40_add_is_chord_tangent",
    "C40_double_is_chord_tangent",
    "C40_scalar_mult_is_iterated_sum",
    "C40_sum_unique",
    "C40_add_commutative",
    "C40_add_associative",
    "C40_add_identity",
    "C40_add_inverse"
   ],
   "note": "The generic CurveParams code of crypto/elliptic transcribed and proved equal to the textbook affine law; associativity proved for any such curve."
  },
  {
   "property": "C41",
   "status": "proved",
   "theorems": [
    "C41_public_key_encoding",
    "C41_private_key_encoding",
    "C41_public_bytes_accepted",
    "C41_private_bytes_accepted",
    "C41_oversized_panics",
    "C41_no_validation"
   ],
   "note": "Both directions, every length, oversized and negative values, and witnesses for the missing validation."
  },
  {
   "property": "C42",
   "status": "proved",
   "theorems": [
    "C42_generate_key"
   ],
   "note": "The key is the first 32-byte block (second byte xor 0x42) below N."
  },
  {
   "property": "C43",
   "status": "proved",
   "theorems": [
    "C43_nonce_is_first_draw_in_range",
    "C43_nonces_are_blocks",
    "C43_encrypt_nonce",
    "C43_sign_nonce"
   ],
   "note": "The list of usable blocks is given in closed form; Encrypt and SignToRS take their nonce from it."
  },
  {
   "property": "C44",
   "status": "proved",
   "theorems": [
    "C44_signatures_verify",
    "C44_sign_then_verify"
   ],
   "note": "For all D >= 0, including the key at infinity. Both for (r, s) and for DER signatures."
  },
  {
   "property": "C45",
   "status": "proved",
   "theorems": [
    "C45_signature_equations",
    "C45_first_signature"
   ],
   "note": "Exact: the first nonce having a signature decides the result."
  },
  {
   "property": "C46",
   "status": "proved",
   "theorems": [
    "C46_verify_iff_equation",
    "C46_verify_infinity_key"
   ],
   "note": "Exact in both directions; never panics."
  },
  {
   "property": "C47",
   "status": "proved",
   "theorems": [
    "C47_minus_one_never_signs"
   ],
   "note": "Every tape is used up with only the reader error coming out."
  },
  {
   "property": "C48",
   "status": "proved",
   "theorems": [
    "C48_sign_empty_panics",
    "C48_verify_empty"
   ],
   "note": "Exact."
  },
  {
   "property": "C49",
   "status": "proved",
   "theorems": [
    "C49_nil_id_is_default",
    "C49_id_hashed",
    "C49_length_field"
   ],
   "note": "nil id equals the default id; length field modulo 2^16."
  },
  {
   "property": "C50",
   "status": "proved",
   "theorems": [
    "C50_decrypt_inverts_encrypt"
   ],
   "note": "Also for D = 0 and D >= N."
  },
  {
   "property": "C51",
   "status": "proved",
   "theorems": [
    "C51_ciphertext_layout",
    "C51_orders_rearrange",
    "C51_unknown_order",
    "C51_succeeds"
   ],
   "note": "Layout, both orders, unknown orders, and a success condition."
  },
  {
   "property": "C52",
   "status": "proved",
   "theorems": [
    "C52_decrypt_authenticates"
   ],
   "note": "Exact characterisation of acceptance."
  },
  {
   "property": "C53",
   "status": "proved",
   "theorems": [
    "C53_short_input_panics",
    "C53_invalid_c1_panics",
    "C53_empty_c2_panics"
   ],
   "note": "Three families of panicking inputs."
  },
  {
   "property": "C54",
   "status": "proved",
   "theorems": [
    "C54_empty_message_never_encrypts"
   ],
   "note": "Every tape is used up with only the reader error coming out."
  },
  {
   "property": "C55",
   "status": "proved",
   "theorems": [
    "C55_marshal_is_der",
    "C55_unmarshal_accepts",
    "C55_roundtrip",
    "C55_trailing_data_ignored",
    "C55_verify_accepts_only"
   ],
   "note": "Exact characterisation of what is accepted, both directions."
  },
  {
   "property": "C56",
   "status": "proved",
   "theorems": [
    "C56_short_panics",
    "C56_marshal_cipher",
    "C56_unknown_order",
    "C56_roundtrip"
   ],
   "note": "Also the exact DER produced."
  },
  {
   "property": "C57",
   "status": "proved",
   "theorems": [
    "C57_unmarshal_cipher",
    "C57_oversized_coordinate_panics",
    "C57_sign_of_coordinate_ignored"
   ],
   "note": "Exact behaviour on every input."
  },
  {
   "property": "C58",
   "status": "proved",
   "theorems": [
    "C58_both_sides_agree",
    "C58_confirm_is_equality"
   ],
   "note": "For all scalars >= 0 and every keyBits."
  },
  {
   "property": "C59",
   "status": "proved",
   "theorems": [
    "C59_nil_tag_refused",
    "C59_one_tag",
    "C59_other_tags_rejected",
    "C59_responder_never_errs"
   ],
   "note": "Also for points off the curve."
  },
  {
   "property": "C60",
   "status": "proved",
   "theorems": [
    "C60_exact",
    "C60_long_keys_panic",
    "C60_key_length"
   ],
   "note": "Exact result or panic for every call with valid points."
  },
  {
   "property": "C61",
   "status": "proved",
   "theorems": [
    "C61_reduce",
    "C61_exchange_width"
   ],
   "note": "For every width as well."
  },
  {
   "property": "C62",
   "status": "proved",
   "theorems": [
    "C62_key_usage",
    "C62_defined_usages",
    "C62_no_trailing_zeros"
   ],
   "note": "For every value, not only 1..511."
  },
  {
   "property": "C63",
   "status": "proved",
   "theorems": [
    "C63_ip_constraint",
    "C63_mask"
   ],
   "note": "The mask test alone and the whole range."
  },
  {
   "property": "C64",
   "status": "proved",
   "theorems": [
    "C64_dns_constraint",
    "C64_uri_constraint",
    "C64_labels",
    "C64_labels_unique",
    "C64_leading_dot"
   ],
   "note": "Exact; with the labels and their uniqueness."
  },
  {
   "property": "C65",
   "status": "proved",
   "theorems": [
    "C65_refused",
    "C65_not_written",
    "C65_ia5"
   ],
   "note": "Both when writing and when reading."
  },
  {
   "property": "C66",
   "status": "proved",
   "theorems": [
    "C66_extension",
    "C66_unknown_usage_panics",
    "C66_bijection",
    "C66_known"
   ],
   "note": "Table, extension round trip and the panic."
  },
  {
   "property": "C67",
   "status": "proved",
   "theorems": [
    "C67_extensions",
    "C67_critical",
    "C67_panics",
    "C67_info"
   ],
   "note": "Exact list, criticality, and the exact panic condition."
  },
  {
   "property": "C68",
   "status": "proved",
   "theorems": [
    "C68_basic_constraints"
   ],
   "note": "For every path length that fits an int (64 bits)."
  },
  {
   "property": "C69",
   "status": "proved",
   "theorems": [
    "C69_other_tags",
    "C69_mask",
    "C69_name_constraints",
    "C69_mixed_range_refuted"
   ],
   "note": "Round trip, skipped kinds and the witness against mixed ranges."
  },
  {
   "property": "C70",
   "status": "proved",
   "theorems": [
    "C70_san",
    "C70_extension",
    "C70_bad_ip",
    "C70_other_kinds",
    "C70_class_ignored"
   ],
   "note": "Round trip, refused lengths, ignored kinds and classes. url.Parse is a parameter."
  },
  {
   "property": "C71",
   "status": "proved",
   "theorems": [
    "C71_layout",
    "C71_issue"
   ],
   "note": "C71_layout gives the bytes for any DER element, C71_issue the verbatim bytes and the verifying signature for a SEQUENCE."
  },
  {
   "property": "C72",
   "status": "proved",
   "theorems": [
    "C72_email_constraint",
    "C72_mailbox",
    "C72_empty_domain"
   ],
   "note": "Exact on every string."
  },
  {
   "property": "C73",
   "status": "proved",
   "theorems": [
    "C73_fill",
    "C73_only_generated",
    "C73_noninterference",
    "C73_key"
   ],
   "note": "C73_fill is field by field; C73_only_generated and C73_noninterference are about the certificate contents made from the filled template; C73_key ties the key."
  },
  {
   "property": "C74",
   "status": "proved",
   "theorems": [
    "C74_standard_without_leading_zeros",
    "C74_standard_tags_refuted"
   ],
   "note": "Conformance under a condition, and a witness against it without the condition."
  },
  {
   "property": "C75",
   "status": "proved",
   "theorems": [
    "C75_zero_x_ephemeral_panics"
   ],
   "note": "The point is exhibited."
  },
  {
   "property": "C76",
   "status": "proved",
   "theorems": [
    "C76_subject_key_id",
    "C76_authority_key_id",
    "C76_authority_info",
    "C76_policies",
    "C76_distribution_points"
   ],
   "note": "Each extension on its own, through the certificate parser."
  },
  {
   "property": "C77",
   "status": "proved",
   "theorems": [
    "C77_extensions"
   ],
   "note": "For templates in range (template_ok); url.Parse is a parameter."
  },
  {
   "property": "C78",
   "status": "proved",
   "theorems": [
    "C78_unique",
    "C78_calendar",
    "C78_time",
    "C78_refused"
   ],
   "note": "Calendar (existence and uniqueness of the date), round trip and refusal."
  },
  {
   "property": "C79",
   "status": "proved",
   "theorems": [
    "C79_rdn_sequence",
    "C79_fill",
    "C79_name",
    "C79_plain_name",
    "C79_utf8_written"
   ],
   "note": "C79_rdn_sequence for sequences, C79_fill/C79_name/C79_plain_name for pkix.Name."
  },
  {
   "property": "C80",
   "status": "proved",
   "theorems": [
    "C80_certificate"
   ],
   "note": "Up to 2^31 bytes. The request key hypothesis holds for every parsed request (parsed_request in PropsCert.v). Extra extensions of the ten known kinds are excluded: they would be read with their own contents."
  },
  {
   "property": "C81",
   "status": "proved",
   "theorems": [
    "C81_request",
    "C81_signature",
    "C81_plain",
    "C81_requested",
    "C81_again",
    "C81_repeatable",
    "C81_read_back"
   ],
   "note": "C81_request and C81_signature; C81_requested, C81_plain and C81_again about the attributes; C81_read_back for templates without attributes. Up to 2^31 bytes. url.Parse is a parameter."
  },
  {
   "property": "C82",
   "status": "proved",
   "theorems": [
    "C82_key_on_curve",
    "C82_unsigned",
    "C82_malleable",
    "C82_verify",
    "C82_no_key_panics"
   ],
   "note": "C82_verify is the exact verdict; C82_unsigned and C82_malleable about what is not signed; C82_key_on_curve; C82_no_key_panics."
  },
  {
   "property": "C83",
   "status": "proved",
   "theorems": [
    "C83_request",
    "C83_certificate",
    "C83_fuel"
   ],
   "note": "url.Parse is a parameter (total by its type). C83_fuel shows that the loops of the model have fuel enough."
  },
  {
   "property": "C84",
   "status": "proved",
   "theorems": [
    "C84_read",
    "C84_total",
    "C84_roundtrip",
    "C84_exact",
    "C84_refused"
   ],
   "note": "Time.Format and time.Parse are modelled for the one layout used. C84_roundtrip also states what happens to offsets that are not whole minutes."
  },
  {
   "property": "C85",
   "status": "proved",
   "theorems": [
    "C85_nonce_gives_key",
    "C85_nonce_reuse",
    "C85_different"
   ],
   "note": "The random source is a finite byte tape; what a real source yields is outside the model."
  },
  {
   "property": "C86",
   "status": "proved",
   "theorems": [
    "C86_one_digest",
    "C86_few_s",
    "C86_any_s"
   ],
   "note": "The bound four comes from at most two field elements below P with the same residue modulo N and two points per x coordinate. Whether different messages have different digests is a question about SM3, which is not claimed."
  },
  {
   "property": "C87",
   "status": "proved",
   "theorems": [
    "C87_parts"
   ],
   "note": "The replaced algorithm identifiers have to be readable as such, and the whole shorter than 2^31 bytes. C87_ex_lost shows an extension list that is silently dropped."
  },
  {
   "property": "C88",
   "status": "proved",
   "theorems": [
    "C88_combine",
    "C88_certificate",
    "C88_only_kind",
    "C88_order",
    "C88_unhandled"
   ],
   "note": "What each decoder reads alone is the subject of C65 to C70 and C76. For name constraints the condition of being understood is the flag of the decoder, which C92_name_constraints gives in terms of the bytes."
  },
  {
   "property": "C89",
   "status": "proved",
   "theorems": [
    "C89_one_private_key",
    "C89_number_of_points",
    "C89_order"
   ],
   "note": "The count rests on the generator having prime order n (Sm2Order.v), on there being at most 2p+1 points, and on the cubic x^3-3x+b having no root modulo p (Sm2Cubic.v), so that no point has order two."
  },
  {
   "property": "C90",
   "status": "proved",
   "theorems": [
    "C90_decrypt_iff",
    "C90_encrypt_iff"
   ],
   "note": "C90_ex gives an input that Decrypt accepts and Encrypt never returns: the plaintext stands in it unencrypted."
  },
  {
   "property": "C91",
   "status": "proved",
   "theorems": [
    "C91_accepted_is_producible",
    "C91_one_nonce",
    "C91_last_key"
   ],
   "note": "Exceptional key: the public point is minus the generator."
  },
  {
   "property": "C92",
   "status": "proved",
   "theorems": [
    "C92_key_usage",
    "C92_basic_constraints",
    "C92_subject_key_id",
    "C92_authority_key_id",
    "C92_ext_key_usage",
    "C92_policies",
    "C92_distribution_points",
    "C92_authority_info",
    "C92_alternative_names",
    "C92_name_constraints",
    "C92_name",
    "C92_oid"
   ],
   "note": "Each theorem is an equivalence over all byte strings; the grammar is stated with DER elements and no parser (gram, elem_of, opt_of, many in PropsCertDecode.v, header and other_item in DerIff.v). The value of an attribute in a name refers to the table of C93. Host, URI and address parsing of the standard library stay parameters."
  },
  {
   "property": "C93",
   "status": "proved",
   "theorems": [
    "C93_utf8",
    "C93_string_written",
    "C93_time",
    "C93_table",
    "C93_value"
   ],
   "note": "The code is that of encoding/asn1 and unicode/utf8, outside the repository (GoText.v, GoPkix.v). C93_table ties the grammar of names of C92 to the table."
  },
  {
   "property": "C94",
   "status": "proved",
   "theorems": [
    "C94_parse"
   ],
   "note": "One equivalence. The grammar is that of C92 extended by sequences of parts (part \u2026 is \u2026), explicit tags and times of C93; the names as structures are those of C79. The standard library parts (URI parser, IP addresses) stay parameters as in C92."
  },
  {
   "property": "C95",
   "status": "proved",
   "theorems": [
    "C95_parse"
   ],
   "note": "One equivalence; grammar and notes as C94."
  },
  {
   "property": "C96",
   "status": "proved",
   "theorems": [
    "C96_where_from",
    "C96_forgery",
    "C96_encryption_is_open"
   ],
   "note": "Certificates and requests cannot carry this key: C94 and C95 require a point of the curve."
  },
  {
   "property": "C97",
   "status": "proved",
   "theorems": [
    "C97_scalar_mult",
    "C97_encryption",
    "C97_verification",
    "C97_two_secrets"
   ],
   "note": "The two singular curves (b = 2 and b = -2) are left out because there the sums need not be associative at the singular point. Sums of points of different curves, which occur in VerifyByRS when t times the key is not infinity, are not described."
  },
  {
   "property": "C98",
   "status": "proved",
   "theorems": [
    "C98_every_history"
   ],
   "note": "Digest state is one value per object; concurrent use and two pointers to one digest are not modelled here."
  },
  {
   "property": "C99",
   "status": "proved",
   "theorems": [
    "C99_length_extension",
    "C99_prefix_code_is_forged"
   ],
   "note": "Consequence of C01 and of the standard padding."
  },
  {
   "property": "C100",
   "status": "proved",
   "theorems": [
    "C100_collisions"
   ],
   "note": "A reduction: says nothing about how hard collisions of the compression function are to find."
  },
  {
   "property": "C101",
   "status": "proved",
   "theorems": [
    "C101_ecb_equal_blocks",
    "C101_cbc_equal_blocks",
    "C101_cbc_common_prefix",
    "C101_cbc_change_iv",
    "C101_cbc_change_block",
    "C101_length_tells_last_byte",
    "C101_padding_oracle"
   ],
   "note": "Seven theorems. The two decryptions compared are of inputs the code accepts; opened is CBCDecrypt followed by PKCS5UnPadding."
  },
  {
   "property": "C102",
   "status": "proved",
   "theorems": [
    "C102_keys",
    "C102_ciphertexts",
    "C102_signatures",
    "C102_every_key_possible"
   ],
   "note": "Counts random strings; the random source is modelled as the string of bytes it delivers. The number itself is not computed, only shown equal for all outcomes."
  },
  {
   "property": "C103",
   "status": "proved",
   "theorems": [
    "C103_util",
    "C103_sign",
    "C103_verify",
    "C103_encrypt",
    "C103_decrypt",
    "C103_generate_key",
    "C103_calculate_pub_key",
    "C103_raw_keys",
    "C103_exchange_point",
    "C103_init"
   ],
   "note": "Proved by relating a model with memory (Sm2Mem.v) to the one on values (Sm2.v, KeyExchange.v); which of several panics occurs is not compared. Assumes math/big methods write only their receiver and elliptic and rand functions return fresh integers. C103_decrypt allows spare capacity after the ciphertext."
  },
  {
   "property": "C104",
   "status": "proved",
   "theorems": [
    "C104_same_bytes",
    "C104_same_start",
    "C104_random_bytes_open"
   ],
   "note": "Consequence for users: never reuse a random source. The last theorem does not need the private key."
  },
  {
   "property": "C105",
   "status": "proved",
   "theorems": [
    "C105_hash_part_binds",
    "C105_changed_ciphertext"
   ],
   "note": "Reduction with the colliding strings written out; says nothing about how hard collisions are."
  },
  {
   "property": "C106",
   "status": "proved",
   "theorems": [
    "C106_accepted_tag",
    "C106_initiator_agrees",
    "C106_responder_agrees"
   ],
   "note": "Reduction as C105. With leading zero bytes the hashed coordinates are shorter and the boundaries in the concatenation are not fixed (C74), hence the condition in the second and third theorem; C106_accepted_tag has no such condition. Points off the curve are excluded."
  },
  {
   "property": "C107",
   "status": "proved",
   "theorems": [
    "C107_contents",
    "C107_panics",
    "C107_issue",
    "C107_request"
   ],
   "note": "The conditions are stated on the template with a separate small grammar (object identifiers, UTF-8 text, times, g_spki of C94). Object identifiers with negative arcs count as valid as far as the code checks. Size hypotheses: constraint names together below 2^31 bytes, attributes encoded below 2^31 bytes. Attribute values of Go types other than those the library parses are not modelled."
  },
  {
   "property": "C108",
   "status": "proved",
   "theorems": [
    "C108_certificate",
    "C108_pipeline"
   ],
   "note": "C108_certificate is for any parsed request, C108_pipeline composes it with the making of the request. Templates with raw subject bytes are left out here (C73 and C80 cover them: the raw bytes win over the request's subject). URIs have to print and parse again, stated by uri_back. The request template of the second theorem has no attributes of its own."
  },
  {
   "property": "C109",
   "status": "proved",
   "theorems": [
    "C109_value",
    "C109_frame",
    "C109_untouched",
    "C109_overwrites",
    "C109_shared_refuted"
   ],
   "note": "CertMem.v models the function on arrays with offsets and capacities; C109_value relates it to the value model that the other claims use, C109_frame and C109_overwrites say what is written, C109_shared_refuted shows that the condition is needed. After a panic nothing is said about memory."
  },
  {
   "property": "C110",
   "status": "proved",
   "theorems": [
    "C110_generate",
    "C110_encrypt",
    "C110_sign",
    "C110_chunks",
    "C110_returns_refuted"
   ],
   "note": "Sm2Reader.v has the same functions on a reader with state and fuel; a value is what holds for all sufficient fuel. Readers that break io.Reader's contract by claiming more bytes than the buffer holds are outside (feeds excludes them)."
  },
  {
   "property": "C111",
   "status": "proved",
   "theorems": [
    "C111_same",
    "C111_no_race",
    "C111_unchanged",
    "C111_finishes",
    "C111_sign",
    "C111_verify",
    "C111_encrypt",
    "C111_decrypt"
   ],
   "note": "A step is one access to an integer or buffer, on sequentially consistent memory (what Go promises race-free programs). Each call has its random bytes as an argument; a reader shared between goroutines must itself be safe. The standard library's own shared state (sync pools) is taken to be safe."
  },
  {
   "property": "C112",
   "status": "proved",
   "theorems": [
    "C112_same",
    "C112_no_race",
    "C112_unchanged",
    "C112_finishes",
    "C112_cipher",
    "C112_new_cipher",
    "C112_ecb",
    "C112_digest",
    "C112_sum",
    "C112_can_finish",
    "C112_shared_write_refuted",
    "C112_shared_write_panics_refuted",
    "C112_shared_sum_refuted"
   ],
   "note": "A step is one read or write of a byte, word or counter, on sequentially consistent memory. The calls of a goroutine are a list fixed beforehand (a block it makes has a name fixed beforehand). CBC, whose state belongs to the standard library, is not included."
  },
  {
   "property": "C113",
   "status": "proved",
   "theorems": [
    "C113_new",
    "C113_same",
    "C113_fixed",
    "C113_frame",
    "C113_kept",
    "C113_apart",
    "C113_items",
    "C113_shared_refuted",
    "C113_stale_refuted",
    "C113_error_cleared_refuted",
    "C113_panic_lost_refuted"
   ],
   "note": "A second model of builder.go in which Builders, slices and the inContinuation flag are objects in memory; the value model of C26-C30 is proved to agree with it. (1) is for programs that name open Builders and do not recover; (2) and (3) for all. The test for overflow of int in add is left out."
  },
  {
   "property": "C114",
   "status": "proved",
   "theorems": [
    "C114_same",
    "C114_windows",
    "C114_apart",
    "C114_append",
    "C114_copy",
    "C114_independent_refuted",
    "C114_copy_refuted",
    "C114_in_place_refuted"
   ],
   "note": "A second model of string.go and the reading half of asn1.go with windows of arrays. Integers, times and object identifiers are results rather than variables. The loops over the bytes of an object identifier are those of the first model."
  },
  {
   "property": "C115",
   "status": "proved",
   "theorems": [
    "C115_wide",
    "C115_exact",
    "C115_readers_panic",
    "C115_readers_same",
    "C115_optional",
    "C115_name_constraints",
    "C115_certificate",
    "C115_attack",
    "C115_wide_certificate",
    "C115_total_refuted"
   ],
   "note": "The width of int is a parameter of CbWidth.v; with 64 bits its functions are proved equal to those of CbString.v and Cert.v. encoding/asn1 on 32 bits is modelled by its parseInt32 for fields of type int. Requests and the writing half are not repeated."
  },
  {
   "property": "C116",
   "status": "proved",
   "theorems": [
    "C116_write_integer",
    "C116_write_strings",
    "C116_write_short",
    "C116_write_oid",
    "C116_write_time",
    "C116_read",
    "C116_optional_boolean_absent"
   ],
   "note": "Written with literal numbers, not with the constants of the model."
  },
  {
   "property": "C117",
   "status": "proved",
   "theorems": [
    "C117_request",
    "C117_certificate",
    "C117_request_windows",
    "C117_certificate_windows",
    "C117_request_after",
    "C117_certificate_after",
    "C117_request_unchanged",
    "C117_certificate_unchanged",
    "C117_verify",
    "C117_reuse",
    "C117_reused_refuted"
   ],
   "note": "CertShare.v is a second model of the parsers with slices as windows of the array; C117_request and C117_certificate prove it agrees with Cert.v on outcome and values. Capacities (append to a returned slice) and the sharing among the returned parts other than through the buffer (an IP address inside the copied extension value) are not modelled."
  },
  {
   "property": "C118",
   "status": "proved",
   "theorems": [
    "C118_element",
    "C118_integer",
    "C118_int64",
    "C118_bits",
    "C118_octets",
    "C118_time",
    "C118_boolean",
    "C118_oid",
    "C118_oid_agree_refuted",
    "C118_element_high_tag_refuted",
    "C118_time_utc_refuted"
   ],
   "note": "C118_oid_agree_refuted, C118_element_high_tag_refuted and C118_time_utc_refuted show that the side conditions are needed. encoding/asn1 is modelled from the standard library (GoAsn1.v), not from /repo."
  },
  {
   "property": "C119",
   "status": "proved",
   "theorems": [
    "C119_int64",
    "C119_big",
    "C119_uint64",
    "C119_strings",
    "C119_boolean",
    "C119_oid",
    "C119_time",
    "C119_marshal",
    "C119_last_error",
    "C119_bytes_or_panic",
    "C119_minus_one",
    "C119_negative_arc",
    "C119_negative_arc_refuted",
    "C119_time_tag",
    "C119_zone_refuted"
   ],
   "note": "encoding/asn1.Marshal is modelled for these types from the standard library (GoAsn1.v, GoText.v). C119_negative_arc_refuted and C119_zone_refuted show where the agreement ends."
  },
  {
   "property": "C120",
   "status": "proved",
   "theorems": [
    "C120_when",
    "C120_poison",
    "C120_one_static",
    "C120_private_key"
   ],
   "note": "The panic comes from hashing the empty byte string of a zero coordinate. The function does not check that the shared point is finite, as GB/T 32918.3 requires; the panic takes the place of that check."
  },
  {
   "property": "C121",
   "status": "proved",
   "theorems": [
    "C121_key_size",
    "C121_key_size_inj",
    "C121_hex",
    "C121_constants"
   ],
   "note": "strconv.Itoa and the verb %08X are modelled digit by digit."
  },
  {
   "property": "C122",
   "status": "proved",
   "theorems": [
    "C122_exchange",
    "C122_confirm",
    "C122_concurrent"
   ],
   "note": "A digest belongs to its call; byte strings only the call sees are values. Sequentially consistent memory, justified by C111_no_race, which covers these calls."
  },
  {
   "property": "C123",
   "status": "proved",
   "theorems": [
    "C123_info",
    "C123_shares",
    "C123_later",
    "C123_serial",
    "C123_package",
    "C123_extension_refuted"
   ],
   "note": "C123_extension_refuted is the part about extension identifiers: that they are the standard's whatever callers do is false. Object identifiers are whole arrays; the other fields of a template are read only and kept as values."
  },
  {
   "property": "C124",
   "status": "proved",
   "theorems": [
    "C124_text",
    "C124_same_text",
    "C124_encrypt",
    "C124_decrypt",
    "C124_der"
   ],
   "note": "The order is an int32; the model takes any integer."
  },
  {
   "property": "C125",
   "status": "proved",
   "theorems": [
    "C125_same",
    "C125_no_race",
    "C125_unchanged",
    "C125_finishes",
    "C125_harmless",
    "C125_cbc",
    "C125_pad",
    "C125_unpad",
    "C125_seal",
    "C125_open",
    "C125_can_finish",
    "C125_adjacent_refuted",
    "C125_behind_refuted"
   ],
   "note": "C125_adjacent_refuted and C125_behind_refuted are the last sentence. crypto/cipher's CBC mode is modelled from its published source, one access per byte; its object's headers are not memory."
  },
  {
   "property": "C126",
   "status": "proved",
   "theorems": [
    "C126_sign",
    "C126_sign_der",
    "C126_public",
    "C126_bytes",
    "C126_encrypt",
    "C126_decrypt",
    "C126_verify",
    "C126_accepts",
    "C126_refuses",
    "C126_marshal",
    "C126_exchange",
    "C126_made"
   ],
   "note": "The Curve field's two pointers are each nil or the package's own; hand-made curve parameters are not covered."
  },
  {
   "property": "C127",
   "status": "proved",
   "theorems": [
    "C127_one_curve",
    "C127_verify",
    "C127_generate",
    "C127_apart_refuted"
   ],
   "note": "C127_apart_refuted is the false statement, with the standard's sample signature."
  },
  {
   "property": "C128",
   "status": "proved",
   "theorems": [
    "C128_value",
    "C128_standard_refuted",
    "C128_long_key",
    "C128_second_sum",
    "C128_sum_keeps_state_refuted",
    "C128_reset",
    "C128_empty_write"
   ],
   "note": "crypto/hmac is transcribed from Go 1.12 (GoHmac.v). C128_standard_refuted and C128_sum_keeps_state_refuted are the false statements with witnesses."
  },
  {
   "property": "C129",
   "status": "proved",
   "theorems": [
    "C129_cut",
    "C129_length",
    "C129_crash",
    "C129_short",
    "C129_integrity_refuted"
   ],
   "note": "C129_integrity_refuted is the false statement that a changed ciphertext is not accepted, with a witness."
  },
  {
   "property": "C130",
   "status": "proved",
   "theorems": [
    "C130_whole",
    "C130_order",
    "C130_csr",
    "C130_uri",
    "C130_range",
    "C130_replaced",
    "C130_request",
    "C130_verify",
    "C130_issue",
    "C130_fill"
   ],
   "note": "The panic for a nil IP range is stated for DNS names and ranges of less than 2^31 bytes together; that no certificate is made holds without that bound."
  },
  {
   "property": "C131",
   "status": "proved",
   "theorems": [
    "C131_issue",
    "C131_raw_wins",
    "C131_layout",
    "C131_serial",
    "C131_same",
    "C131_ids",
    "C131_odd_ids"
   ],
   "note": "For certificates of less than 2^31 bytes. A unique identifier with a non-nil empty Bytes and no bits is left out: Go tells it from the zero value, the model does not."
  },
  {
   "property": "C132",
   "status": "proved",
   "theorems": [
    "C132_alone",
    "C132_request",
    "C132_quiet",
    "C132_times",
    "C132_settled",
    "C132_order_refuted"
   ],
   "note": "Interleavings of the steps that read or write shared memory, in one order for all goroutines; a slice header is read and written in one piece, the attributes are scanned in one step. Nothing else that is read through the attributes may lie in the cells that are written. Go calls the second situation a data race and promises less."
  },
  {
   "property": "C133",
   "status": "proved",
   "theorems": [
    "C133_ctr",
    "C133_ofb",
    "C133_cfb",
    "C133_round_trip",
    "C133_iv_twice",
    "C133_ctr_blocks",
    "C133_refused"
   ],
   "note": "The three files of crypto/cipher are modelled as in Go 1.12, with the SM4 cipher of the package in place of the interface; dst and src are two arrays or one and the same slice. XORKeyStream with slices that overlap otherwise panics in Go and is not modelled."
  },
  {
   "property": "C134",
   "status": "proved",
   "theorems": [
    "C134_new",
    "C134_seal",
    "C134_open",
    "C134_round_trip",
    "C134_refused",
    "C134_one_tag",
    "C134_nonce_twice"
   ],
   "note": "gcm.go of Go 1.12 is modelled with the SM4 cipher of the package in place of the interface. Lengths of nonce and additional data are below 2^61 bytes, where their lengths in bits fit 64 bits. Slices are values: the spare capacity of dst and the panics for overlapping slices are not modelled."
  }
 ]
}