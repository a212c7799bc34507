{
 "claims": [
  {
   "property": "C01",
   "status": "proved",
   "theorems": [
    "C01_eocd_iff"
   ],
   "note": ""
  },
  {
   "property": "C02",
   "status": "proved",
   "theorems": [
    "C02_signing_block_iff"
   ],
   "note": ""
  },
  {
   "property": "C03",
   "status": "proved",
   "theorems": [
    "C03_entries_decoded",
    "C03_malformed_rejected",
    "C03_extra_blocks"
   ],
   "note": ""
  },
  {
   "property": "C04",
   "status": "proved",
   "theorems": [
    "C04_precedence"
   ],
   "note": ""
  },
  {
   "property": "C05",
   "status": "proved",
   "theorems": [
    "C05_chunked_digest",
    "C05_chunks_exist",
    "C05_integrity_iff"
   ],
   "note": ""
  },
  {
   "property": "C06",
   "status": "proved",
   "theorems": [
    "C06_digest_commits",
    "C06_digest_function"
   ],
   "note": ""
  },
  {
   "property": "C07",
   "status": "proved",
   "theorems": [
    "C07_verity_digest"
   ],
   "note": ""
  },
  {
   "property": "C08",
   "status": "proved",
   "theorems": [
    "C08_source_reads"
   ],
   "note": ""
  },
  {
   "property": "C09",
   "status": "proved",
   "theorems": [
    "C09_field_iff",
    "C09_field_error_iff",
    "C09_sequence_iff"
   ],
   "note": ""
  },
  {
   "property": "C10",
   "status": "proved",
   "theorems": [
    "C10_compare",
    "C10_best_signature",
    "C10_unique"
   ],
   "note": ""
  },
  {
   "property": "C11",
   "status": "proved",
   "theorems": [
    "C11_v2_sound",
    "C11_each_signer"
   ],
   "note": ""
  },
  {
   "property": "C12",
   "status": "proved",
   "theorems": [
    "C12_v2_complete",
    "C12_v2_complete_returns"
   ],
   "note": ""
  },
  {
   "property": "C13",
   "status": "proved",
   "theorems": [
    "C13_digests_agree"
   ],
   "note": ""
  },
  {
   "property": "C14",
   "status": "proved",
   "theorems": [
    "C14_stripping"
   ],
   "note": ""
  },
  {
   "property": "C15",
   "status": "proved",
   "theorems": [
    "C15_v1_ten_signers",
    "C15_ten_signers"
   ],
   "note": ""
  },
  {
   "property": "C16",
   "status": "proved",
   "theorems": [
    "C16_ranges_cover",
    "C16_not_covering_rejected",
    "C16_order_irrelevant"
   ],
   "note": ""
  },
  {
   "property": "C17",
   "status": "partial",
   "theorems": [
    "C17_signed_min_partial",
    "C17_refuted"
   ],
   "note": "Lower bound proved. False for the upper bound: schemev3.go:198 compares the parsed max SDK with itself (C17_refuted)."
  },
  {
   "property": "C18",
   "status": "proved",
   "theorems": [
    "C18_lineage",
    "C18_links"
   ],
   "note": ""
  },
  {
   "property": "C19",
   "status": "proved",
   "theorems": [
    "C19_consolidate",
    "C19_reported"
   ],
   "note": ""
  },
  {
   "property": "C20",
   "status": "partial",
   "theorems": [
    "C20_v31_sound_partial",
    "C20_refuted",
    "C20_v31_complete"
   ],
   "note": "Everything except that the v3.1 signers own digests match the contents, which is false (C20_refuted): with a v3.0 block present the digests of the v3.1 block are dropped."
  },
  {
   "property": "C21",
   "status": "proved",
   "theorems": [
    "C21_v31_needs_v3"
   ],
   "note": ""
  },
  {
   "property": "C22",
   "status": "proved",
   "theorems": [
    "C22_fallback_only",
    "C22_no_fallback_fails",
    "C22_errors_kept"
   ],
   "note": "A v3.1 block that does not verify never leads to success (C22_no_fallback_fails, second part)."
  },
  {
   "property": "C23",
   "status": "partial",
   "theorems": [
    "C23_chains_partial",
    "C23_fallback_partial",
    "C23_refuted"
   ],
   "note": "Exact chains outside the fallback from v3 to v2. False in the fallback (C23_refuted): certificates of the rejected v3 block stay in the result; C23_fallback_partial says exactly which chains and lineage are reported there."
  },
  {
   "property": "C24",
   "status": "proved",
   "theorems": [
    "C24_authenticated"
   ],
   "note": ""
  },
  {
   "property": "C25",
   "status": "proved",
   "theorems": [
    "C25_dex_rejected",
    "C25_only_dex"
   ],
   "note": ""
  },
  {
   "property": "C26",
   "status": "partial",
   "theorems": [
    "C26_v1_alone_partial",
    "C26_refuted"
   ],
   "note": "Proved for manifests that can be parsed up to the first uses-sdk. False otherwise (C26_refuted): a manifest parse error is dropped for APKs with JAR signatures only, and with it the sandbox and target SDK rules."
  },
  {
   "property": "C27",
   "status": "proved",
   "theorems": [
    "C27_downgrade_rejected",
    "C27_no_declared_v2_accepted"
   ],
   "note": ""
  },
  {
   "property": "C28",
   "status": "proved",
   "theorems": [
    "C28_v1_soundness"
   ],
   "note": ""
  },
  {
   "property": "C29",
   "status": "partial",
   "theorems": [
    "C29_refuted",
    "C29_present_partial"
   ],
   "note": "False (C29_refuted): AndroidManifest.xml is excluded from the files whose digest is checked. Proved: an accepted APK has AndroidManifest.xml or BundleConfig.pb."
  },
  {
   "property": "C30",
   "status": "proved",
   "theorems": [
    "C30_order_independent"
   ],
   "note": ""
  },
  {
   "property": "C31",
   "status": "proved",
   "theorems": [
    "C31_valid_signature_binds",
    "C31_binding_accepted"
   ],
   "note": ""
  },
  {
   "property": "C32",
   "status": "proved",
   "theorems": [
    "C32_sections_partition"
   ],
   "note": ""
  },
  {
   "property": "C33",
   "status": "partial",
   "theorems": [
    "C33_round_trip_partial",
    "C33_refuted"
   ],
   "note": "Round trip proved for manifests without an empty continuation line; false with one (C33_refuted): the value loop panics."
  },
  {
   "property": "C34",
   "status": "partial",
   "theorems": [
    "C34_verify_partial",
    "C34_extract_certs_partial",
    "C34_manifest_refuted",
    "C34_block_file_refuted",
    "C34_signature_refuted",
    "C34_frosting_refuted"
   ],
   "note": "False as stated: the four _refuted theorems give APKs on which the code panics (manifest ending in ':', empty continuation line, one-byte PKCS#7 file, unknown digest OID, DSA algorithm with another key, key type that does not fit the algorithm, signature with one number, long DSA subgroup, negative frosting key index). Proved: Verify and ExtractCerts panic only on such contents (bad_block, bad_jar in Spec/Panics.v) and return on every other file. Not covered: panics inside the libraries behind the oracles (x509, asn1, zip, XML); pkcs7 parsing is covered through the oracle's own outcome."
  },
  {
   "property": "C35",
   "status": "partial",
   "theorems": [
    "C35_varint_partial",
    "C35_varint_exact_partial",
    "C35_refuted"
   ],
   "note": "readInt32 can return a negative number (C35_refuted); everything else proved."
  },
  {
   "property": "C36",
   "status": "proved",
   "theorems": [
    "C36_frosting"
   ],
   "note": ""
  },
  {
   "property": "C37",
   "status": "proved",
   "theorems": [
    "C37_stamp"
   ],
   "note": ""
  },
  {
   "property": "C38",
   "status": "partial",
   "theorems": [
    "C38_untied_partial",
    "C38_refuted"
   ],
   "note": "Proved for stamps that do not offer two equally ranked algorithms. False otherwise (C38_refuted): filterSignaturesToVerify keeps whichever of the tied algorithms map iteration yields first."
  },
  {
   "property": "C39",
   "status": "proved",
   "theorems": [
    "C39_canonical",
    "C39_encoding",
    "C39_injective"
   ],
   "note": ""
  },
  {
   "property": "C40",
   "status": "partial",
   "theorems": [
    "C40_transcodes_partial",
    "C40_der_unchanged",
    "C40_output_is_der",
    "C40_idempotent",
    "C40_der_unique",
    "C40_terminates",
    "C40_refuted"
   ],
   "note": "Proved for every BER encoding with definite lengths < 2^31 in at most 4 octets and non-empty indefinite forms; DER fixed point, idempotence and DER output proved for all. False for an empty indefinite-length SEQUENCE (C40_refuted)."
  },
  {
   "property": "C41",
   "status": "proved",
   "theorems": [
    "C41_header_round_trip",
    "C41_header_decoder",
    "C41_header_encoder",
    "C41_base128_round_trip",
    "C41_base128_decoder",
    "C41_base128_encoder",
    "C41_oid_round_trip",
    "C41_oid_decoder",
    "C41_int64_decoder",
    "C41_int64_round_trip",
    "C41_int64_injective",
    "C41_int32_decoder",
    "C41_bigint_decoder",
    "C41_bigint_round_trip",
    "C41_bigint_injective",
    "C41_bool_decoder",
    "C41_bits_decoder",
    "C41_bits_round_trip"
   ],
   "note": ""
  },
  {
   "property": "C42",
   "status": "proved",
   "theorems": [
    "C42_pick",
    "C42_permuted",
    "C42_empty_chain",
    "C42_unique"
   ],
   "note": ""
  },
  {
   "property": "C43",
   "status": "partial",
   "theorems": [
    "C43_extra_blocks_partial",
    "C43_exact_partial",
    "C43_refuted"
   ],
   "note": "False from API 33 on (C43_refuted): the v3.0 block is always put into ExtraBlocks. Proved: below 33 without fallback, whatever the result, and for accepted files exactly which parsed block types are there (C43_exact_partial)."
  },
  {
   "property": "C44",
   "status": "partial",
   "theorems": [
    "C44_extract_partial",
    "C44_fallback_partial",
    "C44_refuted"
   ],
   "note": "Proved outside the fallback from v3 to v2; false there (C44_refuted), where C44_fallback_partial gives the exact relation: the extracted chains followed by those of the v2 signers."
  },
  {
   "property": "C45",
   "status": "partial",
   "theorems": [
    "C45_refuted",
    "C45_exact_partial",
    "C45_distinct_partial",
    "C45_same_partial"
   ],
   "note": "False (C45_refuted): schemev1.go:971 writes a backslash instead of the escaped character, so CN=a,b and CN=a+b match. Proved for all names with ASCII values: exactly which names match (C45_exact_partial), hence the full claim for those without special characters."
  },
  {
   "property": "C46",
   "status": "proved",
   "theorems": [
    "C46_supported_iff",
    "C46_table",
    "C46_unsupported_panics",
    "C46_thresholds",
    "C46_verify_signature_iff"
   ],
   "note": ""
  },
  {
   "property": "C47",
   "status": "proved",
   "theorems": [
    "C47_v3_sound"
   ],
   "note": ""
  },
  {
   "property": "C48",
   "status": "proved",
   "theorems": [
    "C48_v3_complete",
    "C48_v3_complete_returns"
   ],
   "note": ""
  },
  {
   "property": "C49",
   "status": "proved",
   "theorems": [
    "C49_chain_building",
    "C49_block_verified"
   ],
   "note": ""
  },
  {
   "property": "C50",
   "status": "proved",
   "theorems": [
    "C50_entry_check",
    "C50_strongest_selected",
    "C50_selected_digests"
   ],
   "note": ""
  },
  {
   "property": "C51",
   "status": "partial",
   "theorems": [
    "C51_platform_partial",
    "C51_platform_refuted"
   ],
   "note": "All algorithms except 0x0101 (RSASSA-PSS with SHA2-256), for which the code has no entry (C51_platform_refuted)."
  },
  {
   "property": "C52",
   "status": "proved",
   "theorems": [
    "C52_schedule_independent"
   ],
   "note": ""
  },
  {
   "property": "C53",
   "status": "proved",
   "theorems": [
    "C53_stamp_attributes"
   ],
   "note": ""
  },
  {
   "property": "C54",
   "status": "proved",
   "theorems": [
    "C54_v1_completeness"
   ],
   "note": ""
  },
  {
   "property": "C55",
   "status": "partial",
   "theorems": [
    "C55_reported_chains_bind_partial",
    "C55_refuted"
   ],
   "note": "Proved for APKs with a covered file. False otherwise (C55_refuted): chains of signatures that bind nothing are reported."
  },
  {
   "property": "C56",
   "status": "proved",
   "theorems": [
    "C56_min_from_manifest",
    "C56_unreadable_manifest"
   ],
   "note": ""
  },
  {
   "property": "C57",
   "status": "proved",
   "theorems": [
    "C57_block_accepted",
    "C57_jar_accepted"
   ],
   "note": ""
  },
  {
   "property": "C58",
   "status": "partial",
   "theorems": [
    "C58_refuted",
    "C58_expired_refuted",
    "C58_dates_ignored_partial"
   ],
   "note": "False of the code (C58_refuted, C58_expired_refuted): certinfo.go:41 tests NotAfter > now OR NotBefore < now. Proved instead: what the comparison actually does (dates are ignored)."
  },
  {
   "property": "C59",
   "status": "proved",
   "theorems": [
    "C59_digests",
    "C59_identifies",
    "C59_names"
   ],
   "note": ""
  },
  {
   "property": "C60",
   "status": "partial",
   "theorems": [
    "C60_refuted",
    "C60_overrun_refuted",
    "C60_size_partial"
   ],
   "note": "False of the code (C60_refuted: 8n+8 bytes of input can give 2^n bytes of output, because children may overrun their parent and are re-read; C60_overrun_refuted). Proved for genuine BER: output at most twice the input."
  },
  {
   "property": "C61",
   "status": "proved",
   "theorems": [
    "C61_signed_bytes",
    "C61_injective",
    "C61_signed_content",
    "C61_one_message_one_file"
   ],
   "note": ""
  },
  {
   "property": "C62",
   "status": "partial",
   "theorems": [
    "C62_refuted",
    "C62_signers_decoded_partial",
    "C62_no_signer_no_verification_partial"
   ],
   "note": "False of the code (C62_refuted): pkcs7.go:177 drops the error, and a SignedData with only a version is accepted. Proved: a block with a signer, in particular one that verifies, was decoded completely."
  },
  {
   "property": "C63",
   "status": "partial",
   "theorems": [
    "C63_refuted",
    "C63_der_object_partial"
   ],
   "note": "False of the code (C63_refuted): bytes after the value inside an attribute are dropped before re-encoding, so two different block files verify. Proved for DER objects: the signed bytes are the attribute octets of the file under the SET tag."
  },
  {
   "property": "C64",
   "status": "proved",
   "theorems": [
    "C64_honest_object",
    "C64_honest_der"
   ],
   "note": ""
  },
  {
   "property": "C65",
   "status": "proved",
   "theorems": [
    "C65_round_trip"
   ],
   "note": "Without optional, defaulted, interface, raw-content and time fields (for which Go does not promise the round trip)."
  },
  {
   "property": "C66",
   "status": "proved",
   "theorems": [
    "C66_v1_tamper_evident"
   ],
   "note": ""
  },
  {
   "property": "C67",
   "status": "partial",
   "theorems": [
    "C67_block_only",
    "C67_extract_sound",
    "C67_jar_complete",
    "C67_agrees",
    "C67_newer_refuted"
   ],
   "note": "Meaning and completeness proved for all APKs; agreement with Verify proved for min SDK < 24 <= max SDK without signature block. False for min SDK >= 24 (C67_newer_refuted): ExtractCerts looks only at the first SignerInfo and fails where Verify accepts."
  },
  {
   "property": "C68",
   "status": "proved",
   "theorems": [
    "C68_no_fallback_to_v1"
   ],
   "note": ""
  },
  {
   "property": "C69",
   "status": "proved",
   "theorems": [
    "C69_certificate_bytes",
    "C69_certificate_list"
   ],
   "note": ""
  },
  {
   "property": "C70",
   "status": "partial",
   "theorems": [
    "C70_certificate_key_partial",
    "C70_certificate_key_refuted",
    "C70_v2_signed_with_certificate_key",
    "C70_v3_signed_with_certificate_key"
   ],
   "note": "Proved except for RSA keys whose modulus the code turns into 0 (C70_certificate_key_refuted: modulus -1 is recorded as 0 and re-read as 254); with such a key sizes and signatures are left open (weak_rsa)."
  },
  {
   "property": "C71",
   "status": "partial",
   "theorems": [
    "C71_unsigned_modulus_partial",
    "C71_unsigned_modulus_refuted",
    "C71_zero_modulus_refuted"
   ],
   "note": "Proved unless the first octet is 0xff. False there and for 0 (C71_unsigned_modulus_refuted, C71_zero_modulus_refuted): the re-encoding drops leading 0xff octets, and modulus 0 becomes 254."
  },
  {
   "property": "C72",
   "status": "proved",
   "theorems": [
    "C72_unhandled_critical"
   ],
   "note": ""
  },
  {
   "property": "C73",
   "status": "proved",
   "theorems": [
    "C73_certificate_read",
    "C73_relative_names_rejected"
   ],
   "note": "For names without BMPString. The well-formed extension values are those of value_ok; a distribution point with a name relative to the CRL issuer (RFC 5280 4.2.1.13), although well-formed, makes the certificate unreadable (C73_relative_names_rejected). Names: C75, signature algorithm: C74, critical extensions: C72."
  },
  {
   "property": "C74",
   "status": "proved",
   "theorems": [
    "C74_signature_algorithm",
    "C74_pss"
   ],
   "note": ""
  },
  {
   "property": "C75",
   "status": "partial",
   "theorems": [
    "C75_names_partial",
    "C75_names_refuted"
   ],
   "note": "False (C75_names_refuted): attributes that pkix.Name does not list, for example the e-mail address, are dropped. Proved: exactly when two names are equal for the code (same_for_go)."
  },
  {
   "property": "C76",
   "status": "partial",
   "theorems": [
    "C76_rs_decoded_partial",
    "C76_der",
    "C76_dsa_checked_partial",
    "C76_refuted"
   ],
   "note": "False as stated (C76_refuted): bytes after s inside the SEQUENCE are ignored and lengths need not be minimal, so a signature value has many accepted encodings. Proved: exactly which byte strings are read as (r, s), that DER is read as written, and that the two positive numbers read are those checked."
  },
  {
   "property": "C77",
   "status": "proved",
   "theorems": [
    "C77_verdict_order_independent"
   ],
   "note": ""
  },
  {
   "property": "C78",
   "status": "proved",
   "theorems": [
    "C78_honest_apk_verifies"
   ],
   "note": ""
  },
  {
   "property": "C79",
   "status": "proved",
   "theorems": [
    "C79_public_key",
    "C79_key_sizes"
   ],
   "note": ""
  },
  {
   "property": "C80",
   "status": "proved",
   "theorems": [
    "C80_certificate_layout"
   ],
   "note": ""
  },
  {
   "property": "C81",
   "status": "proved",
   "theorems": [
    "C81_v2_from_bytes",
    "C81_v3_from_bytes"
   ],
   "note": ""
  },
  {
   "property": "C82",
   "status": "proved",
   "theorems": [
    "C82_utc_time",
    "C82_generalized_time",
    "C82_calendar",
    "C82_certificate_validity"
   ],
   "note": ""
  },
  {
   "property": "C83",
   "status": "proved",
   "theorems": [
    "C83_text",
    "C83_utf8_unique"
   ],
   "note": ""
  },
  {
   "property": "C84",
   "status": "proved",
   "theorems": [
    "C84_honest_stamp",
    "C84_no_panic"
   ],
   "note": ""
  },
  {
   "property": "C85",
   "status": "partial",
   "theorems": [
    "C85_verify_iff",
    "C85_only_signer",
    "C85_one_content_partial",
    "C85_two_contents_refuted",
    "C85_same_object"
   ],
   "note": "Everything but the last clause is proved. One signature stands for one content only if the signer has a single messageDigest attribute (C85_one_content_partial); with two of them the first in file order counts while the signed SET is sorted, so one signature serves for two contents (C85_two_contents_refuted)."
  },
  {
   "property": "C86",
   "status": "proved",
   "theorems": [
    "C86_parse"
   ],
   "note": ""
  },
  {
   "property": "C87",
   "status": "proved",
   "theorems": [
    "C87_round_trip"
   ],
   "note": ""
  },
  {
   "property": "C88",
   "status": "proved",
   "theorems": [
    "C88_degenerate"
   ],
   "note": ""
  },
  {
   "property": "C89",
   "status": "proved",
   "theorems": [
    "C89_round_trip"
   ],
   "note": ""
  },
  {
   "property": "C90",
   "status": "partial",
   "theorems": [
    "C90_decrypt_partial",
    "C90_strict_refuted"
   ],
   "note": "Proved as an equivalence with the padding rule the code applies (C90_decrypt_partial: last octet n in 0..255, n octets of value n at the end); every strictly padded text is returned. The other direction fails for the strict rule: 0 and lengths over a block are accepted (C90_strict_refuted, C90_long_padding)."
  },
  {
   "property": "C91",
   "status": "partial",
   "theorems": [
    "C91_panics_exactly_partial",
    "C91_no_panic_refuted",
    "C91_encrypt_panics"
   ],
   "note": "False of the code: C91_no_panic_refuted. C91_panics_exactly_partial says exactly when Decrypt panics: private key of another type, content not a number of whole blocks, last octet of the text larger than its length. C91_encrypt_panics: Encrypt panics exactly if some certificate has no RSA key."
  },
  {
   "property": "C92",
   "status": "proved",
   "theorems": [
    "C92_raise_min_block",
    "C92_raise_min",
    "C92_fallback_refuted"
   ],
   "note": "The exception for the v3-to-v2 fallback is part of the statement; C92_fallback_refuted shows that it is needed."
  },
  {
   "property": "C93",
   "status": "proved",
   "theorems": [
    "C93_min_steps",
    "C93_block_min_steps"
   ],
   "note": ""
  },
  {
   "property": "C94",
   "status": "partial",
   "theorems": [
    "C94_block_id",
    "C94_algorithm",
    "C94_capabilities",
    "C94_capabilities_injective_partial",
    "C94_top_bit_refuted"
   ],
   "note": "Proved for block ids, algorithms and capability bits 0 to 30. False for bit 31 (C94_top_bit_refuted): schemev3lineage.go:36 loops to 30, so 1 and 0x80000001 are printed alike."
  },
  {
   "property": "C95",
   "status": "partial",
   "theorems": [
    "C95_lineage_level_partial",
    "C95_level_28_refuted"
   ],
   "note": "Proved for every call: the level is 28 iff no node uses 0x0101, and 2147483647 otherwise (C95_lineage_level_partial). The unrestricted claim is false (C95_level_28_refuted): getMinSdkVersion has no case for 0x0101."
  },
  {
   "property": "C96",
   "status": "partial",
   "theorems": [
    "C96_reliable",
    "C96_sound_partial",
    "C96_no_false_accept_partial",
    "C96_frosting_partial",
    "C96_no_crash_partial",
    "C96_zip64_refuted",
    "C96_downgrade_refuted"
   ],
   "note": "Proved for files that are not ZIP64, or when the read looking for the ZIP64 locator does not fail; false otherwise, since an error in isZip64 counts as 'no locator' (C96_zip64_refuted). The scheme is the same except that an error while hashing under v3 with min < 28 makes the code fall back to v2 and report both chains (C96_downgrade_refuted; signed_through says which chains are reported)."
  },
  {
   "property": "C97",
   "status": "partial",
   "theorems": [
    "C97_located_partial",
    "C97_manifest_partial",
    "C97_refuted"
   ],
   "note": "False (C97_refuted): errors in the reads that look for the signing block count as 'no signing block', and the JAR signatures are used instead of the (possibly non-matching) v2/v3 signature. Proved when these reads do not fail (C97_located_partial), and for any failures when the manifest's targetSdkVersion or targetSandboxVersion demands a block (C97_manifest_partial)."
  },
  {
   "property": "C98",
   "status": "partial",
   "theorems": [
    "C98_extract_partial",
    "C98_located_partial",
    "C98_refuted"
   ],
   "note": "False (C98_refuted) for the same reason as C97. Proved: the certificates are those of the reliable run or of the JAR signatures (C98_extract_partial); the outcome is the reliable one when the locating reads do not fail (C98_located_partial)."
  },
  {
   "property": "C99",
   "status": "partial",
   "theorems": [
    "C99_marshal_partial",
    "C99_unique",
    "C99_set_order_refuted",
    "C99_time_partial",
    "C99_time_read_partial",
    "C99_time_error",
    "C99_zone_refuted"
   ],
   "note": "False in two places: SET OF elements are not sorted (C99_set_order_refuted; disabled in the code on purpose) and the seconds of a zone offset are dropped (C99_zone_refuted). Proved: iff characterisation of everything written, with slices in order (C99_marshal_partial), uniqueness, times up to the zone seconds and their reading back (C99_time_partial, C99_time_read_partial), the error condition of times. Not modelled: interface{} values and optional time fields."
  },
  {
   "property": "C100",
   "status": "partial",
   "theorems": [
    "C100_lower_max_block_partial",
    "C100_before_rotation",
    "C100_late_rotation_rejected",
    "C100_late_rotation_refuted",
    "C100_lower_max_partial"
   ],
   "note": "Proved with the two exceptions of the statement as hypotheses, and for API 28 to 32 with v3.1 (C100_before_rotation). The claim without the exception for a late rotation is false (C100_late_rotation_rejected, C100_late_rotation_refuted): schemev3.go:64-70 requires the v3.1 signers to cover max itself."
  },
  {
   "property": "C101",
   "status": "proved",
   "theorems": [
    "C101_max_steps",
    "C101_block_max_steps"
   ],
   "note": ""
  },
  {
   "property": "C102",
   "status": "proved",
   "theorems": [
    "C102_frosting_complete",
    "C102_frosting_levels"
   ],
   "note": ""
  },
  {
   "property": "C103",
   "status": "proved",
   "theorems": [
    "C103_chain_sound",
    "C103_some_or_error",
    "C103_terminates",
    "C103_nonvacuous"
   ],
   "note": ""
  },
  {
   "property": "C104",
   "status": "partial",
   "theorems": [
    "C104_chain_found_partial",
    "C104_nonvacuous",
    "C104_path_length_refuted",
    "C104_usage_refuted"
   ],
   "note": "False of the code: the chains below an intermediate are cached with the path on which it was first reached, so a valid chain can be missed when a path length limit (C104_path_length_refuted) or a requested usage (C104_usage_refuted) rules out that first path. Proved for all pools without path length limits when any usage is acceptable."
  },
  {
   "property": "C105",
   "status": "proved",
   "theorems": [
    "C105_hostname",
    "C105_star",
    "C105_nonvacuous"
   ],
   "note": ""
  },
  {
   "property": "C106",
   "status": "proved",
   "theorems": [
    "C106_constraint",
    "C106_nonvacuous"
   ],
   "note": ""
  },
  {
   "property": "C107",
   "status": "partial",
   "theorems": [
    "C107_check_signature_partial",
    "C107_signed_by_partial",
    "C107_key_kind_refuted",
    "C107_not_a_ca_refuted"
   ],
   "note": "The exact conditions are proved (C107_check_signature_partial, C107_signed_by_partial). Two parts of the English claim are false of the code: the kind of key is not compared with the algorithm (C107_key_kind_refuted), and for a child with one old Entrust key the parent need not be a CA (C107_not_a_ca_refuted)."
  },
  {
   "property": "C108",
   "status": "proved",
   "theorems": [
    "C108_contains",
    "C108_issuers",
    "C108_no_duplicates",
    "C108_nonvacuous"
   ],
   "note": ""
  },
  {
   "property": "C109",
   "status": "proved",
   "theorems": [
    "C109_unmarshal",
    "C109_field",
    "C109_error",
    "C109_one_value",
    "C109_nonvacuous"
   ],
   "note": ""
  },
  {
   "property": "C110",
   "status": "partial",
   "theorems": [
    "C110_skipped_partial",
    "C110_last_refuted",
    "C110_wrapper_length_refuted",
    "C110_inside"
   ],
   "note": "False of the code: an absent optional field with an explicit tag before a final empty element is an error (C110_last_refuted), and the length of an explicit tag is not compared with its contents (C110_wrapper_length_refuted). Proved: an absent field is skipped when something follows (C110_skipped_partial), and the element after the explicit tag is the value (C110_inside)."
  },
  {
   "property": "C111",
   "status": "proved",
   "theorems": [
    "C111_signed_attribute",
    "C111_nonvacuous"
   ],
   "note": ""
  },
  {
   "property": "C112",
   "status": "proved",
   "theorems": [
    "C112_jar_signed",
    "C112_v2_signed",
    "C112_v1_v2_signed",
    "C112_v3_signed",
    "C112_jar_nonvacuous",
    "C112_v2_nonvacuous"
   ],
   "note": ""
  },
  {
   "property": "C113",
   "status": "partial",
   "theorems": [
    "C113_tamper_evident_partial",
    "C113_v31_refuted",
    "C113_nonvacuous"
   ],
   "note": "False of the code for v3.1 (C113_v31_refuted; see C20): only the digests of the v3.0 block are compared with the contents. Proved for v3, and for v2 unless a v3 block failed and the request goes below API 28 (then certificates of the failed block stay in the result, see C23)."
  },
  {
   "property": "C114",
   "status": "proved",
   "theorems": [
    "C114_field_tag",
    "C114_every_string",
    "C114_structures",
    "C114_nonvacuous"
   ],
   "note": ""
  },
  {
   "property": "C115",
   "status": "proved",
   "theorems": [
    "C115_contents",
    "C115_one_time",
    "C115_identifies",
    "C115_dump",
    "C115_equal"
   ],
   "note": ""
  },
  {
   "property": "C116",
   "status": "partial",
   "theorems": [
    "C116_round_trip_partial",
    "C116_field_partial",
    "C116_injective",
    "C116_prefix_free",
    "C116_private_refuted",
    "C116_enum_refuted",
    "C116_flag_refuted",
    "C116_left_out_refuted",
    "C116_nonvacuous"
   ],
   "note": "False of the code in three corners: explicit private tags are written with the private class and read as context-specific (C116_private_refuted), ENUMERATED values beyond 32 bits are written but not read (C116_enum_refuted), a false Flag that is not optional is read as true (C116_flag_refuted); and a left-out field followed by one with the same tag is ambiguous (C116_left_out_refuted). Proved for all other values (C116_round_trip_partial, C116_field_partial), with injectivity and prefix-freeness. Not covered: times inside structures (C99 has them at the top) and interface{}."
  },
  {
   "property": "C117",
   "status": "proved",
   "theorems": [
    "C117_read_back",
    "C117_accepted",
    "C117_verdict",
    "C117_usage_bits",
    "C117_critical",
    "C117_not_vacuous"
   ],
   "note": ""
  },
  {
   "property": "C118",
   "status": "proved",
   "theorems": [
    "C118_public",
    "C118_rsa",
    "C118_ec",
    "C118_ec_octets",
    "C118_pkcs8",
    "C118_checked",
    "C118_not_vacuous"
   ],
   "note": ""
  },
  {
   "property": "C119",
   "status": "proved",
   "theorems": [
    "C119_round_trip",
    "C119_encrypted",
    "C119_decrypted",
    "C119_unique",
    "C119_not_vacuous"
   ],
   "note": ""
  }
 ]
}