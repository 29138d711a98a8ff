(** Every theorem named in MANIFEST.json, and what they all rest on. Generated from the manifest. *)
From Verif Require PropsCbAsn1 PropsCbBuilder PropsCbMem PropsCbStrMem PropsCbString PropsCbTags PropsCbTime PropsCbWidth PropsCert PropsCertAttr PropsCertBuild PropsCertConc PropsCertDN PropsCertDecode PropsCertExt PropsCertFlow PropsCertGrammar PropsCertInfoMem PropsCertMem PropsCertNames PropsCertNil PropsCertParse PropsCertParts PropsCertRaw PropsCertReq PropsCertSafe PropsCertSan PropsCertShare PropsCertText PropsCertTime PropsCertWhen PropsCurve PropsDerTwo PropsDerWrite PropsHmac PropsKex PropsKexMem PropsKexPanic PropsReader PropsSm2 PropsSm2Bind PropsSm2Conc PropsSm2Der PropsSm2Full PropsSm2Mem PropsSm2Nil PropsSm2Sec PropsSm2Shared PropsSm2Text PropsSm2Uniform PropsSm2Weak PropsSm3 PropsSm3Hist PropsSm4Cut PropsSm4Gcm PropsSm4Modes PropsSm4Stream PropsSm4Util PropsSmConc PropsSmConcMode PropsSmText.

Definition all_C01 := (I, @PropsSm3.C01_sum_is_standard).
Definition all_C02 := (I, @PropsSm3.C02_streaming).
Definition all_C03 := (I, @PropsSm3.C03_reset_forgets, @PropsSm3.C03_reset_any_state).
Definition all_C04 := (I, @PropsSm3.C04_sum_twice, @PropsSm3.C04_sum_keeps_state_refuted).
Definition all_C05 := (I, @PropsSm3.C05_write_panics, @PropsSm3.C05_sum_panics_iff).
Definition all_C06 := (I, @PropsSm3.C06_sizes, @PropsSm3.C06_blocksize, @PropsSm3.C06_blocksize_refuted).
Definition all_C07 := (I, @PropsSm4Util.C07_encrypt_standard, @PropsSm4Util.C07_decrypt_standard, @PropsSm4Util.C07_refusals).
Definition all_C08 := (I, @PropsSm4Util.C08_inverse, @PropsSm4Util.C08_permutation).
Definition all_C09 := (I, @PropsSm4Util.C09_footprint).
Definition all_C10 := (I, @PropsSm4Util.C10_key_length, @PropsSm4Util.C10_key_length_iff).
Definition all_C11 := (I, @PropsSm4Util.C11_ecb, @PropsSm4Util.C11_ecb_decrypt, @PropsSm4Util.C11_length_error, @PropsSm4Util.C11_never_panics).
Definition all_C12 := (I, @PropsSm4Util.C12_cbc, @PropsSm4Util.C12_cbc_decrypt, @PropsSm4Util.C12_bad_iv_panics).
Definition all_C13 := (I, @PropsSm4Util.C13_padded_roundtrip, @PropsSm4Util.C13_zero_padded_roundtrip).
Definition all_C14 := (I, @PropsSm4Util.C14_pkcs5_shape, @PropsSm4Util.C14_pkcs5_inverse_iff, @PropsSm4Util.C14_pkcs5_roundtrip, @PropsSm4Util.C14_zero_block_panics, @PropsSm4Util.C14_large_block_refuted).
Definition all_C15 := (I, @PropsSm4Util.C15_unpad_exact, @PropsSm4Util.C15_validates_refuted).
Definition all_C16 := (I, @PropsSm4Util.C16_zero_pad_shape, @PropsSm4Util.C16_unzero).
Definition all_C17 := (I, @PropsSm4Util.C17_backing_array).
Definition all_C18 := (I, @PropsCbString.C18_read_uint).
Definition all_C19 := (I, @PropsCbString.C19_read_length_prefixed).
Definition all_C20 := (I, @PropsCbString.C20_suffix_simple, @PropsCbString.C20_suffix_asn1, @PropsCbString.C20_partition).
Definition all_C21 := (I, @PropsCbString.C21_skip, @PropsCbString.C21_read_bytes, @PropsCbString.C21_copy_bytes).
Definition all_C22 := (I, @PropsCbString.C22_read_any, @PropsCbString.C22_read_any_element, @PropsCbString.C22_never_panics).
Definition all_C23 := (I, @PropsCbString.C23_canonical).
Definition all_C24 := (I, @PropsCbString.C24_read_asn1, @PropsCbString.C24_read_asn1_element, @PropsCbString.C24_skip_asn1, @PropsCbString.C24_peek).
Definition all_C25 := (I, @PropsCbBuilder.C25_uint_roundtrip).
Definition all_C26 := (I, @PropsCbBuilder.C26_growing_builder).
Definition all_C27 := (I, @PropsCbBuilder.C27_no_bytes, @PropsCbBuilder.C27_children_fit).
Definition all_C28 := (I, @PropsCbBuilder.C28_adds_ignored, @PropsCbBuilder.C28_sticky, @PropsCbBuilder.C28_child_error).
Definition all_C29 := (I, @PropsCbBuilder.C29_capacity, @PropsCbBuilder.C29_plain, @PropsCbBuilder.C29_children, @PropsCbBuilder.C29_children_lost_refuted, @PropsCbBuilder.C29_overflow_panics_refuted).
Definition all_C30 := (I, @PropsCbBuilder.C30_write_pending, @PropsCbBuilder.C30_build_error, @PropsCbBuilder.C30_other_panics).
Definition all_C31 := (I, @PropsCbBuilder.C31_element_roundtrip, @PropsCbBuilder.C31_too_long_to_read).
Definition all_C32 := (I, @PropsCbAsn1.C32_write, @PropsCbAsn1.C32_int_der_total, @PropsCbAsn1.C32_roundtrip, @PropsCbAsn1.C32_minus_one_panics).
Definition all_C33 := (I, @PropsCbAsn1.C33_write_signed, @PropsCbAsn1.C33_write_unsigned, @PropsCbAsn1.C33_read_integer, @PropsCbAsn1.C33_read_never_panics, @PropsCbAsn1.C33_roundtrip, @PropsCbAsn1.C33_read_enum).
Definition all_C34 := (I, @PropsCbAsn1.C34_canonical, @PropsCbAsn1.C34_injective).
Definition all_C35 := (I, @PropsCbAsn1.C35_roundtrip, @PropsCbAsn1.C35_bound_sharp, @PropsCbAsn1.C35_invalid_refused, @PropsCbAsn1.C35_wrap_refuted, @PropsCbAsn1.C35_not_canonical_refuted).
Definition all_C36 := (I, @PropsCbAsn1.C36_octet_string, @PropsCbAsn1.C36_read_bit_string, @PropsCbAsn1.C36_read_bit_string_as_bytes, @PropsCbAsn1.C36_bit_string_roundtrip).
Definition all_C37 := (I, @PropsCbAsn1.C37_read_boolean, @PropsCbAsn1.C37_no_roundtrip, @PropsCbAsn1.C37_optional_boolean).
Definition all_C38 := (I, @PropsCbAsn1.C38_optional, @PropsCbAsn1.C38_optional_integer_absent, @PropsCbAsn1.C38_optional_integer_present, @PropsCbAsn1.C38_optional_octet_string).
Definition all_C39 := (I, @PropsCurve.C39_domain_parameters, @PropsCurve.C39_base_point_order, @PropsCurve.C39_base_mult_injective).
Definition all_C40 := (I, @PropsCurve.C40_add_is_chord_tangent, @PropsCurve.C40_double_is_chord_tangent, @PropsCurve.C40_scalar_mult_is_iterated_sum, @PropsCurve.C40_sum_unique, @PropsCurve.C40_add_commutative, @PropsCurve.C40_add_associative, @PropsCurve.C40_add_identity, @PropsCurve.C40_add_inverse).
Definition all_C41 := (I, @PropsSm2.C41_public_key_encoding, @PropsSm2.C41_private_key_encoding, @PropsSm2.C41_public_bytes_accepted, @PropsSm2.C41_private_bytes_accepted, @PropsSm2.C41_oversized_panics, @PropsSm2.C41_no_validation).
Definition all_C42 := (I, @PropsSm2.C42_generate_key).
Definition all_C43 := (I, @PropsSm2.C43_nonce_is_first_draw_in_range, @PropsSm2.C43_nonces_are_blocks, @PropsSm2.C43_encrypt_nonce, @PropsSm2.C43_sign_nonce).
Definition all_C44 := (I, @PropsSm2.C44_signatures_verify, @PropsSm2Der.C44_sign_then_verify).
Definition all_C45 := (I, @PropsSm2.C45_signature_equations, @PropsSm2.C45_first_signature).
Definition all_C46 := (I, @PropsSm2.C46_verify_iff_equation, @PropsSm2.C46_verify_infinity_key).
Definition all_C47 := (I, @PropsSm2.C47_minus_one_never_signs).
Definition all_C48 := (I, @PropsSm2.C48_sign_empty_panics, @PropsSm2.C48_verify_empty).
Definition all_C49 := (I, @PropsSm2.C49_nil_id_is_default, @PropsSm2.C49_id_hashed, @PropsSm2.C49_length_field).
Definition all_C50 := (I, @PropsSm2.C50_decrypt_inverts_encrypt).
Definition all_C51 := (I, @PropsSm2.C51_ciphertext_layout, @PropsSm2.C51_orders_rearrange, @PropsSm2.C51_unknown_order, @PropsSm2.C51_succeeds).
Definition all_C52 := (I, @PropsSm2.C52_decrypt_authenticates).
Definition all_C53 := (I, @PropsSm2.C53_short_input_panics, @PropsSm2.C53_invalid_c1_panics, @PropsSm2.C53_empty_c2_panics).
Definition all_C54 := (I, @PropsSm2.C54_empty_message_never_encrypts).
Definition all_C55 := (I, @PropsSm2Der.C55_marshal_is_der, @PropsSm2Der.C55_unmarshal_accepts, @PropsSm2Der.C55_roundtrip, @PropsSm2Der.C55_trailing_data_ignored, @PropsSm2Der.C55_verify_accepts_only).
Definition all_C56 := (I, @PropsSm2Der.C56_short_panics, @PropsSm2Der.C56_marshal_cipher, @PropsSm2Der.C56_unknown_order, @PropsSm2Der.C56_roundtrip).
Definition all_C57 := (I, @PropsSm2Der.C57_unmarshal_cipher, @PropsSm2Der.C57_oversized_coordinate_panics, @PropsSm2Der.C57_sign_of_coordinate_ignored).
Definition all_C58 := (I, @PropsKex.C58_both_sides_agree, @PropsKex.C58_confirm_is_equality).
Definition all_C59 := (I, @PropsKex.C59_nil_tag_refused, @PropsKex.C59_one_tag, @PropsKex.C59_other_tags_rejected, @PropsKex.C59_responder_never_errs).
Definition all_C60 := (I, @PropsKex.C60_exact, @PropsKex.C60_long_keys_panic, @PropsKex.C60_key_length).
Definition all_C61 := (I, @PropsKex.C61_reduce, @PropsKex.C61_exchange_width).
Definition all_C62 := (I, @PropsCertExt.C62_key_usage, @PropsCertExt.C62_defined_usages, @PropsCertExt.C62_no_trailing_zeros).
Definition all_C63 := (I, @PropsCertNames.C63_ip_constraint, @PropsCertText.C63_mask).
Definition all_C64 := (I, @PropsCertNames.C64_dns_constraint, @PropsCertNames.C64_uri_constraint, @PropsCertText.C64_labels, @PropsCertText.C64_labels_unique, @PropsCertText.C64_leading_dot).
Definition all_C65 := (I, @PropsCertNames.C65_refused, @PropsCertNames.C65_not_written, @PropsCertText.C65_ia5).
Definition all_C66 := (I, @PropsCertExt.C66_extension, @PropsCertExt.C66_unknown_usage_panics, @PropsCertText.C66_bijection, @PropsCertText.C66_known).
Definition all_C67 := (I, @PropsCertBuild.C67_extensions, @PropsCertBuild.C67_critical, @PropsCertBuild.C67_panics, @PropsCertWhen.C67_info).
Definition all_C68 := (I, @PropsCertExt.C68_basic_constraints).
Definition all_C69 := (I, @PropsCertNames.C69_other_tags, @PropsCertNames.C69_mask, @PropsCertNames.C69_name_constraints, @PropsCertNames.C69_mixed_range_refuted).
Definition all_C70 := (I, @PropsCertSan.C70_san, @PropsCertSan.C70_extension, @PropsCertSan.C70_bad_ip, @PropsCertSan.C70_other_kinds, @PropsCertSan.C70_class_ignored).
Definition all_C71 := (I, @PropsCert.C71_layout, @PropsCert.C71_issue).
Definition all_C72 := (I, @PropsCertNames.C72_email_constraint, @PropsCertText.C72_mailbox, @PropsCertText.C72_empty_domain).
Definition all_C73 := (I, @PropsCert.C73_fill, @PropsCert.C73_only_generated, @PropsCert.C73_noninterference, @PropsCert.C73_key).
Definition all_C74 := (I, @PropsKex.C74_standard_without_leading_zeros, @PropsKex.C74_standard_tags_refuted).
Definition all_C75 := (I, @PropsKex.C75_zero_x_ephemeral_panics).
Definition all_C76 := (I, @PropsCertExt.C76_subject_key_id, @PropsCertExt.C76_authority_key_id, @PropsCertExt.C76_authority_info, @PropsCertExt.C76_policies, @PropsCertExt.C76_distribution_points).
Definition all_C77 := (I, @PropsCertBuild.C77_extensions).
Definition all_C78 := (I, @PropsCbTime.C78_unique, @PropsCertTime.C78_calendar, @PropsCertTime.C78_time, @PropsCertTime.C78_refused).
Definition all_C79 := (I, @PropsCertDN.C79_rdn_sequence, @PropsCertDN.C79_fill, @PropsCertDN.C79_name, @PropsCertDN.C79_plain_name, @PropsCertDN.C79_utf8_written).
Definition all_C80 := (I, @PropsCert.C80_certificate).
Definition all_C81 := (I, @PropsCertReq.C81_request, @PropsCertReq.C81_signature, @PropsCertReq.C81_plain, @PropsCertReq.C81_requested, @PropsCertReq.C81_again, @PropsCertReq.C81_repeatable, @PropsCertReq.C81_read_back).
Definition all_C82 := (I, @PropsCertSafe.C82_key_on_curve, @PropsCertSafe.C82_unsigned, @PropsCertSafe.C82_malleable, @PropsCertSafe.C82_verify, @PropsCertSafe.C82_no_key_panics).
Definition all_C83 := (I, @PropsCertSafe.C83_request, @PropsCertSafe.C83_certificate, @PropsCertSafe.C83_fuel).
Definition all_C84 := (I, @PropsCbTime.C84_read, @PropsCbTime.C84_total, @PropsCbTime.C84_roundtrip, @PropsCbTime.C84_exact, @PropsCbTime.C84_refused).
Definition all_C85 := (I, @PropsSm2Sec.C85_nonce_gives_key, @PropsSm2Sec.C85_nonce_reuse, @PropsSm2Sec.C85_different).
Definition all_C86 := (I, @PropsSm2Sec.C86_one_digest, @PropsSm2Sec.C86_few_s, @PropsSm2Sec.C86_any_s).
Definition all_C87 := (I, @PropsCertParts.C87_parts).
Definition all_C88 := (I, @PropsCertParse.C88_combine, @PropsCertParse.C88_certificate, @PropsCertParse.C88_only_kind, @PropsCertParse.C88_order, @PropsCertParse.C88_unhandled).
Definition all_C89 := (I, @PropsSm2Full.C89_one_private_key, @PropsSm2Full.C89_number_of_points, @PropsSm2Full.C89_order).
Definition all_C90 := (I, @PropsSm2Full.C90_decrypt_iff, @PropsSm2Full.C90_encrypt_iff).
Definition all_C91 := (I, @PropsSm2Full.C91_accepted_is_producible, @PropsSm2Full.C91_one_nonce, @PropsSm2Full.C91_last_key).
Definition all_C92 := (I, @PropsCertDecode.C92_key_usage, @PropsCertDecode.C92_basic_constraints, @PropsCertDecode.C92_subject_key_id, @PropsCertDecode.C92_authority_key_id, @PropsCertDecode.C92_ext_key_usage, @PropsCertDecode.C92_policies, @PropsCertDecode.C92_distribution_points, @PropsCertDecode.C92_authority_info, @PropsCertDecode.C92_alternative_names, @PropsCertDecode.C92_name_constraints, @PropsCertDecode.C92_name, @PropsCertDecode.C92_oid).
Definition all_C93 := (I, @PropsCertAttr.C93_utf8, @PropsCertAttr.C93_string_written, @PropsCertAttr.C93_time, @PropsCertAttr.C93_table, @PropsCertAttr.C93_value).
Definition all_C94 := (I, @PropsCertGrammar.C94_parse).
Definition all_C95 := (I, @PropsCertGrammar.C95_parse).
Definition all_C96 := (I, @PropsSm2Weak.C96_where_from, @PropsSm2Weak.C96_forgery, @PropsSm2Weak.C96_encryption_is_open).
Definition all_C97 := (I, @PropsSm2Weak.C97_scalar_mult, @PropsSm2Weak.C97_encryption, @PropsSm2Weak.C97_verification, @PropsSm2Weak.C97_two_secrets).
Definition all_C98 := (I, @PropsSm3Hist.C98_every_history).
Definition all_C99 := (I, @PropsSm3Hist.C99_length_extension, @PropsSm3Hist.C99_prefix_code_is_forged).
Definition all_C100 := (I, @PropsSm3Hist.C100_collisions).
Definition all_C101 := (I, @PropsSm4Modes.C101_ecb_equal_blocks, @PropsSm4Modes.C101_cbc_equal_blocks, @PropsSm4Modes.C101_cbc_common_prefix, @PropsSm4Modes.C101_cbc_change_iv, @PropsSm4Modes.C101_cbc_change_block, @PropsSm4Modes.C101_length_tells_last_byte, @PropsSm4Modes.C101_padding_oracle).
Definition all_C102 := (I, @PropsSm2Uniform.C102_keys, @PropsSm2Uniform.C102_ciphertexts, @PropsSm2Uniform.C102_signatures, @PropsSm2Uniform.C102_every_key_possible).
Definition all_C103 := (I, @PropsSm2Mem.C103_util, @PropsSm2Mem.C103_sign, @PropsSm2Mem.C103_verify, @PropsSm2Mem.C103_encrypt, @PropsSm2Mem.C103_decrypt, @PropsSm2Mem.C103_generate_key, @PropsSm2Mem.C103_calculate_pub_key, @PropsSm2Mem.C103_raw_keys, @PropsSm2Mem.C103_exchange_point, @PropsSm2Mem.C103_init).
Definition all_C104 := (I, @PropsSm2Bind.C104_same_bytes, @PropsSm2Bind.C104_same_start, @PropsSm2Bind.C104_random_bytes_open).
Definition all_C105 := (I, @PropsSm2Bind.C105_hash_part_binds, @PropsSm2Bind.C105_changed_ciphertext).
Definition all_C106 := (I, @PropsSm2Bind.C106_accepted_tag, @PropsSm2Bind.C106_initiator_agrees, @PropsSm2Bind.C106_responder_agrees).
Definition all_C107 := (I, @PropsCertWhen.C107_contents, @PropsCertWhen.C107_panics, @PropsCertWhen.C107_issue, @PropsCertWhen.C107_request).
Definition all_C108 := (I, @PropsCertFlow.C108_certificate, @PropsCertFlow.C108_pipeline).
Definition all_C109 := (I, @PropsCertMem.C109_value, @PropsCertMem.C109_frame, @PropsCertMem.C109_untouched, @PropsCertMem.C109_overwrites, @PropsCertMem.C109_shared_refuted).
Definition all_C110 := (I, @PropsReader.C110_generate, @PropsReader.C110_encrypt, @PropsReader.C110_sign, @PropsReader.C110_chunks, @PropsReader.C110_returns_refuted).
Definition all_C111 := (I, @PropsSm2Conc.C111_same, @PropsSm2Conc.C111_no_race, @PropsSm2Conc.C111_unchanged, @PropsSm2Conc.C111_finishes, @PropsSm2Conc.C111_sign, @PropsSm2Conc.C111_verify, @PropsSm2Conc.C111_encrypt, @PropsSm2Conc.C111_decrypt).
Definition all_C112 := (I, @PropsSmConc.C112_same, @PropsSmConc.C112_no_race, @PropsSmConc.C112_unchanged, @PropsSmConc.C112_finishes, @PropsSmConc.C112_cipher, @PropsSmConc.C112_new_cipher, @PropsSmConc.C112_ecb, @PropsSmConc.C112_digest, @PropsSmConc.C112_sum, @PropsSmConc.C112_can_finish, @PropsSmConc.C112_shared_write_refuted, @PropsSmConc.C112_shared_write_panics_refuted, @PropsSmConc.C112_shared_sum_refuted).
Definition all_C113 := (I, @PropsCbMem.C113_new, @PropsCbMem.C113_same, @PropsCbMem.C113_fixed, @PropsCbMem.C113_frame, @PropsCbMem.C113_kept, @PropsCbMem.C113_apart, @PropsCbMem.C113_items, @PropsCbMem.C113_shared_refuted, @PropsCbMem.C113_stale_refuted, @PropsCbMem.C113_error_cleared_refuted, @PropsCbMem.C113_panic_lost_refuted).
Definition all_C114 := (I, @PropsCbStrMem.C114_same, @PropsCbStrMem.C114_windows, @PropsCbStrMem.C114_apart, @PropsCbStrMem.C114_append, @PropsCbStrMem.C114_copy, @PropsCbStrMem.C114_independent_refuted, @PropsCbStrMem.C114_copy_refuted, @PropsCbStrMem.C114_in_place_refuted).
Definition all_C115 := (I, @PropsCbWidth.C115_wide, @PropsCbWidth.C115_exact, @PropsCbWidth.C115_readers_panic, @PropsCbWidth.C115_readers_same, @PropsCbWidth.C115_optional, @PropsCbWidth.C115_name_constraints, @PropsCbWidth.C115_certificate, @PropsCbWidth.C115_attack, @PropsCbWidth.C115_wide_certificate, @PropsCbWidth.C115_total_refuted).
Definition all_C116 := (I, @PropsCbTags.C116_write_integer, @PropsCbTags.C116_write_strings, @PropsCbTags.C116_write_short, @PropsCbTags.C116_write_oid, @PropsCbTags.C116_write_time, @PropsCbTags.C116_read, @PropsCbTags.C116_optional_boolean_absent).
Definition all_C117 := (I, @PropsCertShare.C117_request, @PropsCertShare.C117_certificate, @PropsCertShare.C117_request_windows, @PropsCertShare.C117_certificate_windows, @PropsCertShare.C117_request_after, @PropsCertShare.C117_certificate_after, @PropsCertShare.C117_request_unchanged, @PropsCertShare.C117_certificate_unchanged, @PropsCertShare.C117_verify, @PropsCertShare.C117_reuse, @PropsCertShare.C117_reused_refuted).
Definition all_C118 := (I, @PropsDerTwo.C118_element, @PropsDerTwo.C118_integer, @PropsDerTwo.C118_int64, @PropsDerTwo.C118_bits, @PropsDerTwo.C118_octets, @PropsDerTwo.C118_time, @PropsDerTwo.C118_boolean, @PropsDerTwo.C118_oid, @PropsDerTwo.C118_oid_agree_refuted, @PropsDerTwo.C118_element_high_tag_refuted, @PropsDerTwo.C118_time_utc_refuted).
Definition all_C119 := (I, @PropsDerWrite.C119_int64, @PropsDerWrite.C119_big, @PropsDerWrite.C119_uint64, @PropsDerWrite.C119_strings, @PropsDerWrite.C119_boolean, @PropsDerWrite.C119_oid, @PropsDerWrite.C119_time, @PropsDerWrite.C119_marshal, @PropsDerWrite.C119_last_error, @PropsDerWrite.C119_bytes_or_panic, @PropsDerWrite.C119_minus_one, @PropsDerWrite.C119_negative_arc, @PropsDerWrite.C119_negative_arc_refuted, @PropsDerWrite.C119_time_tag, @PropsDerWrite.C119_zone_refuted).
Definition all_C120 := (I, @PropsKexPanic.C120_when, @PropsKexPanic.C120_poison, @PropsKexPanic.C120_one_static, @PropsKexPanic.C120_private_key).
Definition all_C121 := (I, @PropsSmText.C121_key_size, @PropsSmText.C121_key_size_inj, @PropsSmText.C121_hex, @PropsSmText.C121_constants).
Definition all_C122 := (I, @PropsKexMem.C122_exchange, @PropsKexMem.C122_confirm, @PropsSm2Conc.C122_concurrent).
Definition all_C123 := (I, @PropsCertInfoMem.C123_info, @PropsCertInfoMem.C123_shares, @PropsCertInfoMem.C123_later, @PropsCertInfoMem.C123_serial, @PropsCertInfoMem.C123_package, @PropsCertInfoMem.C123_extension_refuted).
Definition all_C124 := (I, @PropsSm2Text.C124_text, @PropsSm2Text.C124_same_text, @PropsSm2Text.C124_encrypt, @PropsSm2Text.C124_decrypt, @PropsSm2Text.C124_der).
Definition all_C125 := (I, @PropsSmConcMode.C125_same, @PropsSmConcMode.C125_no_race, @PropsSmConcMode.C125_unchanged, @PropsSmConcMode.C125_finishes, @PropsSmConcMode.C125_harmless, @PropsSmConcMode.C125_cbc, @PropsSmConcMode.C125_pad, @PropsSmConcMode.C125_unpad, @PropsSmConcMode.C125_seal, @PropsSmConcMode.C125_open, @PropsSmConcMode.C125_can_finish, @PropsSmConcMode.C125_adjacent_refuted, @PropsSmConcMode.C125_behind_refuted).
Definition all_C126 := (I, @PropsSm2Nil.C126_sign, @PropsSm2Nil.C126_sign_der, @PropsSm2Nil.C126_public, @PropsSm2Nil.C126_bytes, @PropsSm2Nil.C126_encrypt, @PropsSm2Nil.C126_decrypt, @PropsSm2Nil.C126_verify, @PropsSm2Nil.C126_accepts, @PropsSm2Nil.C126_refuses, @PropsSm2Nil.C126_marshal, @PropsSm2Nil.C126_exchange, @PropsSm2Nil.C126_made).
Definition all_C127 := (I, @PropsSm2Shared.C127_one_curve, @PropsSm2Shared.C127_verify, @PropsSm2Shared.C127_generate, @PropsSm2Shared.C127_apart_refuted).
Definition all_C128 := (I, @PropsHmac.C128_value, @PropsHmac.C128_standard_refuted, @PropsHmac.C128_long_key, @PropsHmac.C128_second_sum, @PropsHmac.C128_sum_keeps_state_refuted, @PropsHmac.C128_reset, @PropsHmac.C128_empty_write).
Definition all_C129 := (I, @PropsSm4Cut.C129_cut, @PropsSm4Cut.C129_length, @PropsSm4Cut.C129_crash, @PropsSm4Cut.C129_short, @PropsSm4Cut.C129_integrity_refuted).
Definition all_C130 := (I, @PropsCertNil.C130_whole, @PropsCertNil.C130_order, @PropsCertNil.C130_csr, @PropsCertNil.C130_uri, @PropsCertNil.C130_range, @PropsCertNil.C130_replaced, @PropsCertNil.C130_request, @PropsCertNil.C130_verify, @PropsCertNil.C130_issue, @PropsCertNil.C130_fill).
Definition all_C131 := (I, @PropsCertRaw.C131_issue, @PropsCertRaw.C131_raw_wins, @PropsCertRaw.C131_layout, @PropsCertRaw.C131_serial, @PropsCertRaw.C131_same, @PropsCertRaw.C131_ids, @PropsCertRaw.C131_odd_ids).
Definition all_C132 := (I, @PropsCertConc.C132_alone, @PropsCertConc.C132_request, @PropsCertConc.C132_quiet, @PropsCertConc.C132_times, @PropsCertConc.C132_settled, @PropsCertConc.C132_order_refuted).
Definition all_C133 := (I, @PropsSm4Stream.C133_ctr, @PropsSm4Stream.C133_ofb, @PropsSm4Stream.C133_cfb, @PropsSm4Stream.C133_round_trip, @PropsSm4Stream.C133_iv_twice, @PropsSm4Stream.C133_ctr_blocks, @PropsSm4Stream.C133_refused).
Definition all_C134 := (I, @PropsSm4Gcm.C134_new, @PropsSm4Gcm.C134_seal, @PropsSm4Gcm.C134_open, @PropsSm4Gcm.C134_round_trip, @PropsSm4Gcm.C134_refused, @PropsSm4Gcm.C134_one_tag, @PropsSm4Gcm.C134_nonce_twice).

Definition all_claims := (I, all_C01, all_C02, all_C03, all_C04, all_C05, all_C06, all_C07, all_C08, all_C09, all_C10, all_C11, all_C12, all_C13, all_C14, all_C15, all_C16, all_C17, all_C18, all_C19, all_C20, all_C21, all_C22, all_C23, all_C24, all_C25, all_C26, all_C27, all_C28, all_C29, all_C30, all_C31, all_C32, all_C33, all_C34, all_C35, all_C36, all_C37, all_C38, all_C39, all_C40, all_C41, all_C42, all_C43, all_C44, all_C45, all_C46, all_C47, all_C48, all_C49, all_C50, all_C51, all_C52, all_C53, all_C54, all_C55, all_C56, all_C57, all_C58, all_C59, all_C60, all_C61, all_C62, all_C63, all_C64, all_C65, all_C66, all_C67, all_C68, all_C69, all_C70, all_C71, all_C72, all_C73, all_C74, all_C75, all_C76, all_C77, all_C78, all_C79, all_C80, all_C81, all_C82, all_C83, all_C84, all_C85, all_C86, all_C87, all_C88, all_C89, all_C90, all_C91, all_C92, all_C93, all_C94, all_C95, all_C96, all_C97, all_C98, all_C99, all_C100, all_C101, all_C102, all_C103, all_C104, all_C105, all_C106, all_C107, all_C108, all_C109, all_C110, all_C111, all_C112, all_C113, all_C114, all_C115, all_C116, all_C117, all_C118, all_C119, all_C120, all_C121, all_C122, all_C123, all_C124, all_C125, all_C126, all_C127, all_C128, all_C129, all_C130, all_C131, all_C132, all_C133, all_C134).

Print Assumptions all_claims.
