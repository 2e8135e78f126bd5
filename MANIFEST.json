{
 "claims": [
  {
   "property": "C01",
   "status": "proved",
   "theorems": [
    "C01_verify_16_exact"
   ],
   "note": ""
  },
  {
   "property": "C02",
   "status": "proved",
   "theorems": [
    "C02_sha2_oneshot"
   ],
   "note": ""
  },
  {
   "property": "C03",
   "status": "proved",
   "theorems": [
    "C03_sha2_streaming"
   ],
   "note": ""
  },
  {
   "property": "C04",
   "status": "proved",
   "theorems": [
    "C04_write_digest_contract"
   ],
   "note": ""
  },
  {
   "property": "C05",
   "status": "proved",
   "theorems": [
    "C05_sha2_past_limit"
   ],
   "note": ""
  },
  {
   "property": "C06",
   "status": "proved",
   "theorems": [
    "C06_hmac_rfc2104",
    "C06_hmac_wrappers"
   ],
   "note": ""
  },
  {
   "property": "C07",
   "status": "proved",
   "theorems": [
    "C07_hmac_verify_exact"
   ],
   "note": ""
  },
  {
   "property": "C08",
   "status": "proved",
   "theorems": [
    "C08_hmac_long_key",
    "C08_hmac_zero_extended_key"
   ],
   "note": ""
  },
  {
   "property": "C09",
   "status": "proved",
   "theorems": [
    "C09_hkdf_extract",
    "C09_empty_salt"
   ],
   "note": ""
  },
  {
   "property": "C10",
   "status": "proved",
   "theorems": [
    "C10_hkdf_expand_unchecked"
   ],
   "note": ""
  },
  {
   "property": "C11",
   "status": "partial",
   "theorems": [
    "C11_hkdf_expand_checked_exact_limit",
    "C11_hkdf_expand_checked_limit_refuted"
   ],
   "note": "The property is false of the code: refuted (witness okm of 254 SHA-224 digests) and the exact limit in checked builds proved."
  },
  {
   "property": "C12",
   "status": "proved",
   "theorems": [
    "C12_hkdf_prefix"
   ],
   "note": ""
  },
  {
   "property": "C13",
   "status": "proved",
   "theorems": [
    "C13_keystream_is_rfc8439"
   ],
   "note": ""
  },
  {
   "property": "C14",
   "status": "proved",
   "theorems": [
    "C14_stream_histories",
    "C14_keystream_byte_meaning"
   ],
   "note": ""
  },
  {
   "property": "C15",
   "status": "proved",
   "theorems": [
    "C15_stream_roundtrip",
    "C15_buffers"
   ],
   "note": ""
  },
  {
   "property": "C16",
   "status": "proved",
   "theorems": [
    "C16_stream_past_end"
   ],
   "note": ""
  },
  {
   "property": "C17",
   "status": "proved",
   "theorems": [
    "C17_constructor_panics"
   ],
   "note": ""
  },
  {
   "property": "C18",
   "status": "proved",
   "theorems": [
    "C18_roundtrip"
   ],
   "note": ""
  },
  {
   "property": "C19",
   "status": "proved",
   "theorems": [
    "C19_decrypt_accepts_exactly"
   ],
   "note": ""
  },
  {
   "property": "C20",
   "status": "proved",
   "theorems": [
    "C20_ciphertext_is_rfc8439"
   ],
   "note": ""
  },
  {
   "property": "C21",
   "status": "partial",
   "theorems": [
    "C21_tag_is_rfc8439_partial",
    "C21_tag_or_faulty_partial",
    "C21_tag_is_rfc8439_refuted",
    "C21_tag_exactly",
    "C21_accepted_exactly"
   ],
   "note": "False of the code: the final carry of poly1305 drops a case, so the tag differs from RFC 8439 when the accumulator is small; refuted with a concrete witness, proved whenever the accumulator is at least 2^22+5; the tag returned and the tag accepted are characterised exactly (T_PolyExact): RFC tag iff the number held is below 2^130-5."
  },
  {
   "property": "C22",
   "status": "proved",
   "theorems": [
    "C22_poly1305_never_overflows",
    "C22_tags_agree_across_builds"
   ],
   "note": ""
  },
  {
   "property": "C23",
   "status": "partial",
   "theorems": [
    "C23_no_keystream_reuse_partial",
    "C23_no_keystream_reuse_refuted"
   ],
   "note": "False without overflow checks for messages beyond 2^38-64 bytes (refuted for every such message); proved for all others and for checked builds."
  },
  {
   "property": "C24",
   "status": "proved",
   "theorems": [
    "C24_panics_exactly",
    "C24_checked_limit_panics"
   ],
   "note": ""
  },
  {
   "property": "C25",
   "status": "proved",
   "theorems": [
    "C25_aes_is_fips197"
   ],
   "note": ""
  },
  {
   "property": "C26",
   "status": "proved",
   "theorems": [
    "C26_sbox"
   ],
   "note": ""
  },
  {
   "property": "C27",
   "status": "proved",
   "theorems": [
    "C27_permutation"
   ],
   "note": ""
  },
  {
   "property": "C28",
   "status": "proved",
   "theorems": [
    "C28_new_panics"
   ],
   "note": ""
  },
  {
   "property": "C29",
   "status": "proved",
   "theorems": [
    "C29_ghash",
    "C29_mul_is_remainder"
   ],
   "note": ""
  },
  {
   "property": "C30",
   "status": "proved",
   "theorems": [
    "C30_gcm_is_sp800_38d",
    "C30_aes_gcm"
   ],
   "note": ""
  },
  {
   "property": "C31",
   "status": "proved",
   "theorems": [
    "C31_roundtrip"
   ],
   "note": ""
  },
  {
   "property": "C32",
   "status": "proved",
   "theorems": [
    "C32_decrypt_accepts_exactly"
   ],
   "note": ""
  },
  {
   "property": "C33",
   "status": "proved",
   "theorems": [
    "C33_panics_exactly",
    "C33_panics_exactly_checked"
   ],
   "note": ""
  },
  {
   "property": "C34",
   "status": "partial",
   "theorems": [
    "C34_checked_limit_refuted",
    "C34_exact_limit_partial"
   ],
   "note": "False of the code: with overflow checks encrypt panics above 2^36-64 bytes, the documentation promises 2^36-32; refuted, and the exact limit proved."
  },
  {
   "property": "C35",
   "status": "proved",
   "theorems": [
    "C35_counter_blocks_distinct"
   ],
   "note": ""
  },
  {
   "property": "C36",
   "status": "proved",
   "theorems": [
    "C36_dh_is_x25519"
   ],
   "note": ""
  },
  {
   "property": "C37",
   "status": "proved",
   "theorems": [
    "C37_gen_pk"
   ],
   "note": ""
  },
  {
   "property": "C38",
   "status": "proved",
   "theorems": [
    "C38_key_agreement"
   ],
   "note": ""
  },
  {
   "property": "C39",
   "status": "proved",
   "theorems": [
    "C39_ignored_bits"
   ],
   "note": ""
  },
  {
   "property": "C40",
   "status": "proved",
   "theorems": [
    "C40_canonical_output"
   ],
   "note": ""
  },
  {
   "property": "C41",
   "status": "proved",
   "theorems": [
    "C41_ed25519_builds_agree",
    "C41_x25519_builds_agree"
   ],
   "note": ""
  },
  {
   "property": "C42",
   "status": "proved",
   "theorems": [
    "C42_ed25519_panics",
    "C42_x25519_panics"
   ],
   "note": ""
  },
  {
   "property": "C43",
   "status": "proved",
   "theorems": [
    "C43_low_order"
   ],
   "note": ""
  },
  {
   "property": "C44",
   "status": "proved",
   "theorems": [
    "C44_sc_reduce",
    "C44_sc_muladd"
   ],
   "note": ""
  },
  {
   "property": "C45",
   "status": "proved",
   "theorems": [
    "C45_gen_pk"
   ],
   "note": ""
  },
  {
   "property": "C46",
   "status": "proved",
   "theorems": [
    "C46_sign",
    "C46_sign_form"
   ],
   "note": ""
  },
  {
   "property": "C47",
   "status": "proved",
   "theorems": [
    "C47_sign_verify"
   ],
   "note": ""
  },
  {
   "property": "C48",
   "status": "proved",
   "theorems": [
    "C48_verify",
    "C48_verify_rfc",
    "C48_verify_gen_pk"
   ],
   "note": ""
  },
  {
   "property": "C49",
   "status": "partial",
   "theorems": [
    "C49_malleable_refuted",
    "C49_refuted"
   ],
   "note": "False of the code: verify only checks S < 2^253, not S < L; refuted with closed-form witnesses and for every accepted signature whose S + L stays below 2^253."
  },
  {
   "property": "C50",
   "status": "partial",
   "theorems": [
    "C50_refuted",
    "C50_accepted_keys_partial",
    "C50_count_partial"
   ],
   "note": "False of the code: refuted with two concrete keys accepted for every message; proved that at most 40 strings can be accepted against RFC 8032, and they are listed."
  },
  {
   "property": "C51",
   "status": "proved",
   "theorems": [
    "C51_decode",
    "C51_round_trip",
    "C51_canonical"
   ],
   "note": ""
  },
  {
   "property": "C52",
   "status": "proved",
   "theorems": [
    "C52_dh_is_multiplication",
    "C52_gen_pk_is_multiplication"
   ],
   "note": ""
  },
  {
   "property": "C53",
   "status": "proved",
   "theorems": [
    "C53_malleability_exact",
    "C53_unique_below_L"
   ],
   "note": ""
  },
  {
   "property": "C54",
   "status": "proved",
   "theorems": [
    "C54_ed25519_public_keys",
    "C54_x25519_public_keys"
   ],
   "note": ""
  },
  {
   "property": "C55",
   "status": "proved",
   "theorems": [
    "C55_honest_secret_nonzero",
    "C55_zero_exactly"
   ],
   "note": ""
  },
  {
   "property": "C56",
   "status": "proved",
   "theorems": [
    "C56_secrets_distinct",
    "C56_secret_keys_distinct"
   ],
   "note": ""
  },
  {
   "property": "C57",
   "status": "proved",
   "theorems": [
    "C57_message_binding"
   ],
   "note": ""
  },
  {
   "property": "C58",
   "status": "proved",
   "theorems": [
    "C58_accepts_only_rfc",
    "C58_stricter"
   ],
   "note": ""
  },
  {
   "property": "C59",
   "status": "proved",
   "theorems": [
    "C59_nonces",
    "C59_reuse_reveals"
   ],
   "note": ""
  },
  {
   "property": "C60",
   "status": "proved",
   "theorems": [
    "C60_gcm_forgery_bound",
    "C60_gcm_forgery_after_encrypt"
   ],
   "note": ""
  },
  {
   "property": "C61",
   "status": "proved",
   "theorems": [
    "C61_ccp_forgery_bound",
    "C61_ccp_forgery_bound_rfc"
   ],
   "note": ""
  },
  {
   "property": "C62",
   "status": "proved",
   "theorems": [
    "C62_collision_in_compression",
    "C62_collision_all_variants"
   ],
   "note": ""
  },
  {
   "property": "C63",
   "status": "proved",
   "theorems": [
    "C63_hmac_collision",
    "C63_hkdf_collision"
   ],
   "note": ""
  },
  {
   "property": "C64",
   "status": "proved",
   "theorems": [
    "C64_length_extension"
   ],
   "note": ""
  },
  {
   "property": "C65",
   "status": "proved",
   "theorems": [
    "C65_gcm_nonce_reuse",
    "C65_ccp_nonce_reuse"
   ],
   "note": ""
  },
  {
   "property": "C66",
   "status": "proved",
   "theorems": [
    "C66_ed25519_to_x25519"
   ],
   "note": ""
  },
  {
   "property": "C67",
   "status": "proved",
   "theorems": [
    "C67_dh_every_key",
    "C67_dh_commutes"
   ],
   "note": ""
  },
  {
   "property": "C68",
   "status": "proved",
   "theorems": [
    "C68_zero_exactly_low_order"
   ],
   "note": ""
  },
  {
   "property": "C69",
   "status": "proved",
   "theorems": [
    "C69_same_secret_independent"
   ],
   "note": ""
  },
  {
   "property": "C70",
   "status": "proved",
   "theorems": [
    "C70_decoded_against_rfc",
    "C70_accepted_keys"
   ],
   "note": ""
  },
  {
   "property": "C71",
   "status": "proved",
   "theorems": [
    "C71_hash_results",
    "C71_hash_trace",
    "C71_hash_streaming_trace"
   ],
   "note": ""
  },
  {
   "property": "C72",
   "status": "proved",
   "theorems": [
    "C72_hmac_results",
    "C72_hmac_trace",
    "C72_hmac_streaming_trace",
    "C72_hmac_verify_trace"
   ],
   "note": ""
  },
  {
   "property": "C73",
   "status": "proved",
   "theorems": [
    "C73_hkdf_results",
    "C73_extract_trace",
    "C73_expand_trace"
   ],
   "note": ""
  },
  {
   "property": "C74",
   "status": "proved",
   "theorems": [
    "C74_stream_results",
    "C74_stream_trace"
   ],
   "note": ""
  },
  {
   "property": "C75",
   "status": "proved",
   "theorems": [
    "C75_ccp_results",
    "C75_ccp_encrypt_trace",
    "C75_ccp_decrypt_trace"
   ],
   "note": ""
  },
  {
   "property": "C76",
   "status": "proved",
   "theorems": [
    "C76_gcm_results",
    "C76_gcm_new_trace",
    "C76_gcm_encrypt_trace",
    "C76_gcm_decrypt_trace"
   ],
   "note": ""
  },
  {
   "property": "C77",
   "status": "proved",
   "theorems": [
    "C77_x25519_results",
    "C77_dh_trace",
    "C77_gen_pk_trace"
   ],
   "note": ""
  },
  {
   "property": "C78",
   "status": "proved",
   "theorems": [
    "C78_ed25519_results",
    "C78_gen_pk_trace",
    "C78_sign_trace"
   ],
   "note": ""
  },
  {
   "property": "C79",
   "status": "proved",
   "theorems": [
    "C79_stream_after_panics",
    "C79_exhausted_for_good"
   ],
   "note": ""
  },
  {
   "property": "C80",
   "status": "proved",
   "theorems": [
    "C80_chacha20_poly1305",
    "C80_gcm",
    "C80_same_runs"
   ],
   "note": ""
  },
  {
   "property": "C81",
   "status": "proved",
   "theorems": [
    "C81_chacha20_poly1305",
    "C81_gcm",
    "C81_same_runs"
   ],
   "note": ""
  },
  {
   "property": "C82",
   "status": "proved",
   "theorems": [
    "C82_write_digest",
    "C82_write_tag",
    "C82_extract",
    "C82_expand"
   ],
   "note": ""
  },
  {
   "property": "C83",
   "status": "proved",
   "theorems": [
    "C83_small_order_strings",
    "C83_verify_small_order",
    "C83_messages_share",
    "C83_neutral_key_accepts",
    "C83_gen_pk_not_small_order"
   ],
   "note": ""
  },
  {
   "property": "C84",
   "status": "proved",
   "theorems": [
    "C84_chacha_not_key_committing",
    "C84_gcm_not_key_committing"
   ],
   "note": ""
  },
  {
   "property": "C85",
   "status": "proved",
   "theorems": [
    "C85_hash",
    "C85_ciphers",
    "C85_curve"
   ],
   "note": ""
  },
  {
   "property": "C86",
   "status": "proved",
   "theorems": [
    "C86_hmac",
    "C86_verify",
    "C86_extract",
    "C86_expand",
    "C86_digest_over_block",
    "C86_digest_over_64",
    "C86_empty_digest",
    "C86_sha2_implements"
   ],
   "note": ""
  },
  {
   "property": "C87",
   "status": "proved",
   "theorems": [
    "C87_update_panics_leave_no_trace",
    "C87_no_wrong_digest",
    "C87_unchecked_never_panics",
    "C87_no_wrong_tag"
   ],
   "note": ""
  },
  {
   "property": "C88",
   "status": "proved",
   "theorems": [
    "C88_keystream_blocks_distinct",
    "C88_equal_blocks_encrypt_differently"
   ],
   "note": ""
  },
  {
   "property": "C89",
   "status": "proved",
   "theorems": [
    "C89_gcm_hash_key_forges",
    "C89_ccp_point_forges"
   ],
   "note": ""
  },
  {
   "property": "C90",
   "status": "proved",
   "theorems": [
    "C90_channel"
   ],
   "note": ""
  },
  {
   "property": "C91",
   "status": "proved",
   "theorems": [
    "C91_gcm_attempts",
    "C91_ccp_attempts"
   ],
   "note": ""
  },
  {
   "property": "C92",
   "status": "proved",
   "theorems": [
    "C92_knowing_r",
    "C92_two_answers",
    "C92_scalar_signs"
   ],
   "note": ""
  },
  {
   "property": "C93",
   "status": "proved",
   "theorems": [
    "C93_left_or_right",
    "C93_any_messages"
   ],
   "note": ""
  },
  {
   "property": "C94",
   "status": "proved",
   "theorems": [
    "C94_signatures_can_be_simulated"
   ],
   "note": ""
  },
  {
   "property": "C95",
   "status": "proved",
   "theorems": [
    "C95_random_blocks",
    "C95_chacha_experiment",
    "C95_chacha_game",
    "C95_chacha_advantage",
    "C95_chacha_forgery",
    "C95_interactive_budget",
    "C95_cca_budget",
    "C95_cca",
    "C95_cca_experiment",
    "C95_cca_chacha",
    "C95_game_is_aead",
    "C95_sources",
    "C95_forgery",
    "C95_interactive",
    "C95_interactive_experiment",
    "C95_interactive_chacha",
    "C95_privacy"
   ],
   "note": ""
  },
  {
   "property": "C96",
   "status": "proved",
   "theorems": [
    "C96_wrong_tags_are_rare"
   ],
   "note": ""
  },
  {
   "property": "C97",
   "status": "proved",
   "theorems": [
    "C97_sha2",
    "C97_sha2_oneshot",
    "C97_hmac",
    "C97_hkdf",
    "C97_hmac_sha2_exactly",
    "C97_ed25519",
    "C97_stream",
    "C97_ccp",
    "C97_gcm"
   ],
   "note": ""
  },
  {
   "property": "C98",
   "status": "proved",
   "theorems": [
    "C98_sha2",
    "C98_hmac",
    "C98_hkdf",
    "C98_sign",
    "C98_verify",
    "C98_sign_verify",
    "C98_short",
    "C98_length_field"
   ],
   "note": ""
  },
  {
   "property": "C99",
   "status": "proved",
   "theorems": [
    "C99_aes_accepts",
    "C99_aes_game",
    "C99_aes_forgery",
    "C99_interactive_budget",
    "C99_cca_budget",
    "C99_cca_budget_aes",
    "C99_cca",
    "C99_cca_experiment",
    "C99_cca_aes",
    "C99_interactive",
    "C99_interactive_experiment",
    "C99_interactive_aes",
    "C99_blocks",
    "C99_random_permutation",
    "C99_aes_experiment",
    "C99_aes_gcm",
    "C99_nonce_reuse",
    "C99_forgery"
   ],
   "note": ""
  }
 ]
}