NOTES = {
 'C29': ('partial', 'False (C29_refuted): AndroidManifest.xml is excluded from the files whose digest is checked. Proved: an accepted APK has AndroidManifest.xml or BundleConfig.pb.'),
 'C55': ('partial', 'Proved for APKs with a covered file. False otherwise (C55_refuted): chains of signatures that bind nothing are reported.'),
 'C17': ('partial', 'Lower bound proved. False for the upper bound: schemev3.go:198 compares the parsed max SDK with itself (C17_refuted).'),
 'C20': ('partial', 'Everything except that the v3.1 signers own digests match the contents, which is false (C20_refuted): with a v3.0 block present the digests of the v3.1 block are dropped.'),
 'C22': ('proved', 'A v3.1 block that does not verify never leads to success (C22_no_fallback_fails, second part).'),
 'C23': ('partial', 'Exact chains outside the fallback from v3 to v2. False in the fallback (C23_refuted): certificates of the rejected v3 block stay in the result; C23_fallback_partial says exactly which chains and lineage are reported there.'),
 'C92': ('proved', 'The exception for the v3-to-v2 fallback is part of the statement; C92_fallback_refuted shows that it is needed.'),
 'C100': ('partial', 'Proved with the two exceptions of the statement as hypotheses, and for API 28 to 32 with v3.1 (C100_before_rotation). The claim without the exception for a late rotation is false (C100_late_rotation_rejected, C100_late_rotation_refuted): schemev3.go:64-70 requires the v3.1 signers to cover max itself.'),
 'C94': ('partial', 'Proved for block ids, algorithms and capability bits 0 to 30. False for bit 31 (C94_top_bit_refuted): schemev3lineage.go:36 loops to 30, so 1 and 0x80000001 are printed alike.'),
 'C26': ('partial', 'Proved for manifests that can be parsed up to the first uses-sdk. False otherwise (C26_refuted): a manifest parse error is dropped for APKs with JAR signatures only, and with it the sandbox and target SDK rules.'),
 'C33': ('partial', 'Round trip proved for manifests without an empty continuation line; false with one (C33_refuted): the value loop panics.'),
 'C35': ('partial', 'readInt32 can return a negative number (C35_refuted); everything else proved.'),
 'C38': ('partial', 'Proved for stamps that do not offer two equally ranked algorithms. False otherwise (C38_refuted): filterSignaturesToVerify keeps whichever of the tied algorithms map iteration yields first.'),
 'C43': ('partial', 'False from API 33 on (C43_refuted): the v3.0 block is always put into ExtraBlocks. Proved: below 33 without fallback, whatever the result, and for accepted files exactly which parsed block types are there (C43_exact_partial).'),
 'C44': ('partial', 'Proved outside the fallback from v3 to v2; false there (C44_refuted), where C44_fallback_partial gives the exact relation: the extracted chains followed by those of the v2 signers.'),
 'C45': ('partial', 'False (C45_refuted): schemev1.go:971 writes a backslash instead of the escaped character, so CN=a,b and CN=a+b match. Proved for all names with ASCII values: exactly which names match (C45_exact_partial), hence the full claim for those without special characters.'),
 'C51': ('partial', 'All algorithms except 0x0101 (RSASSA-PSS with SHA2-256), for which the code has no entry (C51_platform_refuted).'),
 'C58': ('partial', 'False of the code (C58_refuted, C58_expired_refuted): certinfo.go:41 tests NotAfter > now OR NotBefore < now. Proved instead: what the comparison actually does (dates are ignored).'),
 'C40': ('partial', 'Proved for every BER encoding with definite lengths < 2^31 in at most 4 octets and non-empty indefinite forms; DER fixed point, idempotence and DER output proved for all. False for an empty indefinite-length SEQUENCE (C40_refuted).'),
 'C60': ('partial', 'False of the code (C60_refuted: 8n+8 bytes of input can give 2^n bytes of output, because children may overrun their parent and are re-read; C60_overrun_refuted). Proved for genuine BER: output at most twice the input.'),
 'C62': ('partial', 'False of the code (C62_refuted): pkcs7.go:177 drops the error, and a SignedData with only a version is accepted. Proved: a block with a signer, in particular one that verifies, was decoded completely.'),
 'C63': ('partial', 'False of the code (C63_refuted): bytes after the value inside an attribute are dropped before re-encoding, so two different block files verify. Proved for DER objects: the signed bytes are the attribute octets of the file under the SET tag.'),
 'C65': ('proved', 'Without optional, defaulted, interface, raw-content and time fields (for which Go does not promise the round trip).'),
    "C34": ("partial", "False as stated: the four _refuted theorems give APKs on which the code panics (manifest ending in ':', empty continuation line, one-byte PKCS#7 file, unknown digest OID, DSA algorithm with another key, key type that does not fit the algorithm, signature with one number, long DSA subgroup, negative frosting key index). Proved: Verify and ExtractCerts panic only on such contents (bad_block, bad_jar in Spec/Panics.v) and return on every other file. Not covered: panics inside the libraries behind the oracles (x509, asn1, zip, XML); pkcs7 parsing is covered through the oracle's own outcome."),
 "C67": ("partial", "Meaning and completeness proved for all APKs; agreement with Verify proved for min SDK < 24 <= max SDK without signature block. False for min SDK >= 24 (C67_newer_refuted): ExtractCerts looks only at the first SignerInfo and fails where Verify accepts."),
 "C70": ("partial", "Proved except for RSA keys whose modulus the code turns into 0 (C70_certificate_key_refuted: modulus -1 is recorded as 0 and re-read as 254); with such a key sizes and signatures are left open (weak_rsa)."),
 "C71": ("partial", "Proved unless the first octet is 0xff. False there and for 0 (C71_unsigned_modulus_refuted, C71_zero_modulus_refuted): the re-encoding drops leading 0xff octets, and modulus 0 becomes 254."),
 "C73": ("proved", "For names without BMPString. The well-formed extension values are those of value_ok; a distribution point with a name relative to the CRL issuer (RFC 5280 4.2.1.13), although well-formed, makes the certificate unreadable (C73_relative_names_rejected). Names: C75, signature algorithm: C74, critical extensions: C72."),
 "C75": ("partial", "False (C75_names_refuted): attributes that pkix.Name does not list, for example the e-mail address, are dropped. Proved: exactly when two names are equal for the code (same_for_go)."),
 "C76": ("partial", "False as stated (C76_refuted): bytes after s inside the SEQUENCE are ignored and lengths need not be minimal, so a signature value has many accepted encodings. Proved: exactly which byte strings are read as (r, s), that DER is read as written, and that the two positive numbers read are those checked."),
 "C90": ("partial", "Proved as an equivalence with the padding rule the code applies (C90_decrypt_partial: last octet n in 0..255, n octets of value n at the end); every strictly padded text is returned. The other direction fails for the strict rule: 0 and lengths over a block are accepted (C90_strict_refuted, C90_long_padding)."),
 "C91": ("partial", "False of the code: C91_no_panic_refuted. C91_panics_exactly_partial says exactly when Decrypt panics: private key of another type, content not a number of whole blocks, last octet of the text larger than its length. C91_encrypt_panics: Encrypt panics exactly if some certificate has no RSA key."),
 "C85": ("partial", "Everything but the last clause is proved. One signature stands for one content only if the signer has a single messageDigest attribute (C85_one_content_partial); with two of them the first in file order counts while the signed SET is sorted, so one signature serves for two contents (C85_two_contents_refuted)."),
 "C95": ("partial", "Proved for every call: the level is 28 iff no node uses 0x0101, and 2147483647 otherwise (C95_lineage_level_partial). The unrestricted claim is false (C95_level_28_refuted): getMinSdkVersion has no case for 0x0101."),
 "C96": ("partial", "Proved for files that are not ZIP64, or when the read looking for the ZIP64 locator does not fail; false otherwise, since an error in isZip64 counts as 'no locator' (C96_zip64_refuted). The scheme is the same except that an error while hashing under v3 with min < 28 makes the code fall back to v2 and report both chains (C96_downgrade_refuted; signed_through says which chains are reported)."),
 "C97": ("partial", "False (C97_refuted): errors in the reads that look for the signing block count as 'no signing block', and the JAR signatures are used instead of the (possibly non-matching) v2/v3 signature. Proved when these reads do not fail (C97_located_partial), and for any failures when the manifest's targetSdkVersion or targetSandboxVersion demands a block (C97_manifest_partial)."),
 "C98": ("partial", "False (C98_refuted) for the same reason as C97. Proved: the certificates are those of the reliable run or of the JAR signatures (C98_extract_partial); the outcome is the reliable one when the locating reads do not fail (C98_located_partial)."),
 "C104": ("partial", "False of the code: the chains below an intermediate are cached with the path on which it was first reached, so a valid chain can be missed when a path length limit (C104_path_length_refuted) or a requested usage (C104_usage_refuted) rules out that first path. Proved for all pools without path length limits when any usage is acceptable."),
 "C107": ("partial", "The exact conditions are proved (C107_check_signature_partial, C107_signed_by_partial). Two parts of the English claim are false of the code: the kind of key is not compared with the algorithm (C107_key_kind_refuted), and for a child with one old Entrust key the parent need not be a CA (C107_not_a_ca_refuted)."),
 "C99": ("partial", "False in two places: SET OF elements are not sorted (C99_set_order_refuted; disabled in the code on purpose) and the seconds of a zone offset are dropped (C99_zone_refuted). Proved: iff characterisation of everything written, with slices in order (C99_marshal_partial), uniqueness, times up to the zone seconds and their reading back (C99_time_partial, C99_time_read_partial), the error condition of times. Not modelled: interface{} values and optional time fields."),
 "C110": ("partial", "False of the code: an absent optional field with an explicit tag before a final empty element is an error (C110_last_refuted), and the length of an explicit tag is not compared with its contents (C110_wrapper_length_refuted). Proved: an absent field is skipped when something follows (C110_skipped_partial), and the element after the explicit tag is the value (C110_inside)."),
 "C113": ("partial", "False of the code for v3.1 (C113_v31_refuted; see C20): only the digests of the v3.0 block are compared with the contents. Proved for v3, and for v2 unless a v3 block failed and the request goes below API 28 (then certificates of the failed block stay in the result, see C23)."),
 "C116": ("partial", "False of the code in three corners: explicit private tags are written with the private class and read as context-specific (C116_private_refuted), ENUMERATED values beyond 32 bits are written but not read (C116_enum_refuted), a false Flag that is not optional is read as true (C116_flag_refuted); and a left-out field followed by one with the same tag is ambiguous (C116_left_out_refuted). Proved for all other values (C116_round_trip_partial, C116_field_partial), with injectivity and prefix-freeness. Not covered: times inside structures (C99 has them at the top) and interface{}."),
}
