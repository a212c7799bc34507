{"id": "C01", "title": "EOCD record is located correctly and unambiguously", "statement": "Signing-block verification only ever works with an End-Of-Central-Directory record that starts with the ZIP EOCD magic, whose comment-length field equals the number of bytes following the 22-byte record up to the end of the file, which is the first such record met when the comment length grows from 0, and whose central directory (offset+size fields) ends exactly where the record starts; conversely when such a record exists it is found.", "quantifier": "every byte string given as the APK file", "why_tests_cant": "the space of files and of fake EOCD records inside comments is unbounded", "anchors": ["signingblock/signingblock.go:findEocd", "signingblock/signingblock.go:findEocdMaxCommentSize"]}
{"id": "C02", "title": "APK Signing Block is exactly the framed region before the central directory", "statement": "The signing block used for verification is exactly the byte range [o, centralDirOffset) such that both 64-bit size fields agree, the 16-byte magic ends the range, and the size is in range; the function accepts a file exactly when such a range exists.", "quantifier": "every file and every central-directory offset", "why_tests_cant": "depends on all byte contents and sizes", "anchors": ["signingblock/signingblock.go:findApkSigningBlock"]}
{"id": "C03", "title": "Signing-block entries are decoded faithfully", "statement": "For every sequence of (id, payload) entries laid out as uint64 length / uint32 id / payload, the verifier sees for each scheme id supported at the requested max SDK exactly the payload of the last entry with that id, puts every unsupported/unknown id into ExtraBlocks, ignores verity padding, and reports an error for every malformed length; no malformed entry is silently skipped.", "quantifier": "every sequence of entries of any number and size, every max SDK", "why_tests_cant": "unbounded sequences", "anchors": ["signingblock/signingblock.go:findSignatureBlocks"]}
{"id": "C04", "title": "Scheme precedence v3.1 > v3 > v2", "statement": "The scheme that is verified is the highest one present among the entries supported at the max SDK: 31 if a v3.1 entry is present, otherwise 3, otherwise 2, otherwise a signing-block-not-found error with scheme id 1.", "quantifier": "every set of entries and SDK range", "why_tests_cant": "combination space", "anchors": ["signingblock/signingblock.go:pickScheme", "signingblock/signingblock.go:pickAndVerify"]}
{"id": "C05", "title": "Chunked content digest follows the APK Signature Scheme v2 definition", "statement": "For every content and every hash function, the computed digest equals H(0x5a || le32(#chunks) || H(0xa5||le32(|c1|)||c1) || ...), where the chunks are the <=1 MiB pieces of (bytes before the signing block), (central directory), (EOCD with its central-directory-offset field replaced by the signing-block offset), each section split separately and in order.", "quantifier": "every file content, any number of chunks, every requested subset/order of algorithms", "why_tests_cant": "unbounded content sizes", "anchors": ["signingblock/signingblock.go:computeOneMbChunkContentDigests", "signingblock/signingblock.go:verifyIntegrity", "signingblock/datasource.go"]}
{"id": "C06", "title": "Content digest commits to every protected byte", "statement": "If the hash function is collision-free then two APK contents with the same chunked (resp. verity) digest have the same concatenation of protected sections (same bytes before the signing block, central directory and patched EOCD): no protected byte can change without changing the digest.", "quantifier": "every pair of contents of any size", "why_tests_cant": "universally quantified over pairs of contents", "anchors": ["signingblock/signingblock.go:computeOneMbChunkContentDigests", "signingblock/verity.go"]}
{"id": "C07", "title": "Verity digest is the Merkle-tree root of the contents", "statement": "The verity content digest equals the root of the 4096-byte-block salted SHA-256 hash tree (last block zero padded, each level padded to 4096, 8 zero bytes of salt) over the concatenation of the three sections, followed by the le64 total length; it is refused if the first section is not a multiple of 4096.", "quantifier": "every content of any length (any tree depth)", "why_tests_cant": "unbounded depth", "anchors": ["signingblock/verity.go:generateTreeRootHash", "signingblock/verity.go:calculateLevelOffset", "signingblock/signingblock.go:computeVerityContentDigest"]}
{"id": "C08", "title": "Chained data source reads exactly the slice of the concatenation", "statement": "Reading (offset,size) from the chained source writes exactly bytes [offset, offset+size) of the concatenation of its sources when in bounds, and returns an error otherwise; same for a file section and a byte slice.", "quantifier": "every list of sources, every offset and size", "why_tests_cant": "boundary combinations unbounded", "anchors": ["signingblock/datasource.go"]}
{"id": "C09", "title": "Length-prefixed fields are parsed injectively and in bounds", "statement": "Reading a length-prefixed field succeeds exactly when the buffer is le32(|x|) || x || rest with |x| < 2^31, returns exactly that x and leaves exactly that rest; it never reads past the buffer and never panics; negative and over-long lengths are errors.", "quantifier": "every buffer", "why_tests_cant": "all lengths including boundary/negative ones", "anchors": ["signingblock/utils.go:getLenghtPrefixedSlice"]}
{"id": "C10", "title": "Best signature algorithm is the strongest supported one", "statement": "Among the signature records of a signer the algorithm that is verified is supported, is at least as strong (SHA-512 > verity-SHA-256 > SHA-256) as every other supported record, and is the first of that strength; comparison of algorithms is a total preorder and never panics on supported ones.", "quantifier": "every list of signature records", "why_tests_cant": "unbounded lists", "anchors": ["signingblock/signer.go:parseSignatures", "signingblock/signer.go:compareAlgos"]}
{"id": "C11", "title": "v2 soundness: success means every signer really signed these contents", "statement": "If verification succeeds with scheme 2, then the v2 block is a non-empty list of signer records and for each of them: the signature of the strongest supported algorithm verifies over the exact signed-data bytes with the record's public key, that key is the SubjectPublicKeyInfo of the first listed certificate, the algorithm lists of digests and signatures are equal, and the digest recorded for that algorithm equals the digest actually computed from the file.", "quantifier": "every file, SDK range, crypto oracle and map order", "why_tests_cant": "attacker controls every byte", "anchors": ["signingblock/signingblock.go:VerifySigningBlockReaderWithZip", "signingblock/schemev2.go:verifySigner", "signingblock/signer.go"]}
{"id": "C12", "title": "v2 completeness: honestly signed APKs verify", "statement": "Every APK built from arbitrary contents and 1..10 honest v2 signers (correct digests, valid signatures, parseable certificates, no unsatisfied stripping attribute) verifies without error with scheme 2 at any max SDK >= 24, and the returned certificate chains are exactly the signers' chains in order.", "quantifier": "every content, every list of signers, certificates and algorithms", "why_tests_cant": "unbounded", "anchors": ["signingblock/schemev2.go", "signingblock/signer.go", "signingblock/signingblock.go"]}
{"id": "C13", "title": "All signers agree on each content digest", "statement": "If no error is reported then any two signers whose strongest algorithm uses the same digest kind recorded equal digests, and every recorded digest of an accepted v2/v3 signer is among the digests compared with the file.", "quantifier": "every list of signers", "why_tests_cant": "unbounded lists", "anchors": ["signingblock/signer.go:parseDigests"]}
{"id": "C14", "title": "v2 stripping protection", "statement": "If a v2 signer's signed attributes say the APK was also signed with a newer scheme (v3 or v3.1) and no such block is present in the APK, verification at max SDK >= 28 fails.", "quantifier": "every APK whose v2 signer carries the attribute anywhere in its attribute list", "why_tests_cant": "unbounded attribute lists and positions", "anchors": ["signingblock/schemev2.go:verifySigner"]}
{"id": "C15", "title": "At most 10 signers", "statement": "A v2 block (or v1 signature set) with more than 10 signer chains is rejected.", "quantifier": "every number of signers", "why_tests_cant": "unbounded", "anchors": ["signingblock/schemev2.go:parseSigners", "schemev1.go:verify"]}
{"id": "C16", "title": "v3 signer SDK ranges are contiguous and cover the requested range", "statement": "If scheme v3 verification succeeds, the signers' [min,max] SDK ranges, ordered by min, are valid (1<=min<=max), adjacent without gap or overlap, start at or below max(requestedMin,28) and end at or above the requested max (or rotationMin-1 when a v3.1 block takes over); independent of the order of signers in the file and of the sort algorithm.", "quantifier": "every list of signers, SDK ranges and sort tie-breaking", "why_tests_cant": "unbounded and int32 wraparound", "anchors": ["signingblock/schemev3.go:finalizeResult"]}
{"id": "C17", "title": "v3 SDK range that is used was signed", "statement": "The [min,max] SDK range that decides which platforms a v3 signer covers is the one inside the signed data.", "quantifier": "every v3 signer record", "why_tests_cant": "attacker-controlled unsigned copies", "anchors": ["signingblock/schemev3.go:verifySigner (lines 195-200)"]}
{"id": "C18", "title": "Proof-of-rotation lineage is a verified certificate chain", "statement": "If a lineage is reported, then every node after the first is signed by the previous node's certificate key with the previous node's declared algorithm over that node's exact signed bytes, declared parent algorithms agree, no certificate occurs twice, the capability flags/algorithms are those encoded, and for the accepted signer the last certificate is the signer's own certificate.", "quantifier": "every lineage of any length", "why_tests_cant": "unbounded chain length", "anchors": ["signingblock/schemev3.go:readSigningCertificateLineage", "signingblock/schemev3lineage.go"]}
{"id": "C19", "title": "Consolidated lineage extends all signers' lineages", "statement": "When several signers carry lineages, the reported lineage is one of them, is longest, and every other one is a prefix of it; otherwise an error is reported; the computation never panics.", "quantifier": "every list of lineages", "why_tests_cant": "unbounded", "anchors": ["signingblock/schemev3.go:consolidateLineages", "signingblock/schemev3lineage.go:Equal"]}
{"id": "C20", "title": "v3.1 soundness: reported signer signed these contents", "statement": "If verification succeeds with scheme 31, the certificates reported belong to signers whose signed content digests match the file.", "quantifier": "every file and SDK range", "why_tests_cant": "attacker controls both blocks", "anchors": ["signingblock/schemev31.go:parseSigners", "signingblock/signingblock.go:verify"]}
{"id": "C21", "title": "v3.1 requires a matching v3.0 block", "statement": "If verification succeeds with scheme 31 then a v3.0 block is present, verified without error too, its SDK coverage reaches the SDK level just below the lowest v3.1 signer, and any rotation-min-SDK attribute in it equals that lowest v3.1 level.", "quantifier": "every APK with a v3.1 block", "why_tests_cant": "unbounded", "anchors": ["signingblock/schemev31.go", "signingblock/schemev3.go"]}
{"id": "C22", "title": "Fallback from v3 to v2 is only used below API 28", "statement": "If a v3 (v3.1) block is present and supported but does not verify, then verification can succeed with scheme 2 only if the requested min SDK is below 28 and a v2 block is present; otherwise the v3 errors are returned. All v3 errors are kept as warnings.", "quantifier": "every APK and SDK range", "why_tests_cant": "combinations", "anchors": ["signingblock/signingblock.go:VerifySigningBlockReaderWithZip"]}
{"id": "C23", "title": "Reported certificates belong to the scheme that verified", "statement": "On success the reported certificate chains are exactly those of the signers of the scheme that was accepted.", "quantifier": "every APK and SDK range", "why_tests_cant": "needs adversarial construction (v3->v2 fallback)", "anchors": ["signingblock/signingblock.go:VerifySigningBlockReaderWithZip (lines 172-187)"]}
{"id": "C24", "title": "Nil error means authenticated", "statement": "If top-level verification returns a nil error then either the signing block verified (scheme >= 2), or v1 verification succeeded with no signing block present/required; when min SDK < 24 v1 verification succeeded in either case.", "quantifier": "every APK, SDK range, manifest", "why_tests_cant": "decision table over unbounded inputs", "anchors": ["apkverifier.go:VerifyWithSdkVersionReader"]}
{"id": "C25", "title": "Janus protection", "statement": "If the file starts with the DEX magic and acceptance relies on v1 verification, the error is ErrMixedDexApkFile; ErrMixedDexApkFile is returned only for such files, and only if a file with the same ZIP entries and the same signing block outcome but without the magic would be accepted.", "quantifier": "every file", "why_tests_cant": "all inputs", "anchors": ["apkverifier.go:VerifyWithSdkVersionReader"]}
{"id": "C26", "title": "Sandbox / target-SDK rules", "statement": "An APK with targetSandboxVersion > 1 is never accepted on v1 alone when max SDK >= 26; an APK targeting SDK >= 30 (and <= max SDK) is never accepted on v1 alone.", "quantifier": "every APK, manifest and SDK range", "why_tests_cant": "all combinations", "anchors": ["apkverifier.go:VerifyWithSdkVersionReader", "apkverifier.go:EncodeToken"]}
{"id": "C27", "title": "v1 downgrade protection", "statement": "If no signing block verifies and a verified v1 signature file declares X-Android-APK-Signed containing 2 anywhere in its list, v1 verification fails for max SDK >= 24 whatever the map iteration order.", "quantifier": "every list syntax, position and iteration order", "why_tests_cant": "strings of any form", "anchors": ["schemev1.go:verify"]}
{"id": "C28", "title": "v1 soundness: every regular file is covered", "statement": "If v1 verification succeeds then every non-directory entry outside META-INF/ (other than AndroidManifest.xml) has a manifest entry whose digests all match the file content, is listed in at least one valid signature file, and all such files are signed by the same set of certificate chains; every manifest entry exists in the APK.", "quantifier": "every ZIP content, manifest, set of signatures and iteration order", "why_tests_cant": "unbounded", "anchors": ["schemev1.go:verifyMainManifest", "schemev1.go:verifyManifestEntry"]}
{"id": "C29", "title": "v1 protects AndroidManifest.xml", "statement": "If v1 verification succeeds, AndroidManifest.xml's content matches its manifest digest.", "quantifier": "every APK", "why_tests_cant": "adversarial", "anchors": ["schemev1.go:verifyMainManifest (lines 447-471)"]}
{"id": "C30", "title": "v1 verdict does not depend on map iteration order", "statement": "For every two map iteration orders, v1 verification of the same APK either succeeds for both or fails for both, and on success the sets of certificate chains agree.", "quantifier": "every pair of schedules of Go map iteration", "why_tests_cant": "random runtime order", "anchors": ["schemev1.go:verify", "schemev1.go:verifyMainManifest", "schemev1.go:certChainsMatch"]}
{"id": "C31", "title": "v1 signature file binds the manifest", "statement": "A signature counts as valid only if its signature file's digest of the whole manifest matches or every entry digest in it matches the corresponding manifest section (and the main-attributes digest, if present, matches).", "quantifier": "every manifest and signature file", "why_tests_cant": "unbounded", "anchors": ["schemev1.go:verify", "schemev1.go:verifyManifestEntry"]}
{"id": "C32", "title": "Manifest sections partition the manifest", "statement": "A successfully parsed manifest's sections are pairwise distinct by name, their raw byte chunks are consecutive, and the main section followed by the chunks is a prefix of the file: no byte of a section escapes its digest.", "quantifier": "every manifest", "why_tests_cant": "unbounded", "anchors": ["manifest.go:parse"]}
{"id": "C33", "title": "Manifest encode/parse round trip", "statement": "Every manifest built from attributes with valid names and values without line breaks or NUL, with any line continuation splits, parses back to exactly those attributes (names lower-cased).", "quantifier": "every list of sections/attributes and every split", "why_tests_cant": "unbounded", "anchors": ["manifest.go:readHeader", "manifest.go:parse"]}
{"id": "C34", "title": "Parsers never crash on hostile input", "statement": "Verification of any file terminates and returns an error rather than panicking.", "quantifier": "every file", "why_tests_cant": "crash inputs are needles", "anchors": ["manifest.go:readHeader line 141", "signingblock/utils.go:verifySignature", "signingblock/frosting.go", "fullsailor/pkcs7/ber.go"]}
{"id": "C35", "title": "Frosting varint decoding", "statement": "Every value 0..2^31-1 encoded as a canonical 1..5 byte little-endian base-128 varint decodes to itself consuming exactly its bytes; decoding never returns a negative number.", "quantifier": "every value and byte stream", "why_tests_cant": "all 2^31 values / all streams", "anchors": ["signingblock/frosting.go:readInt32"]}
{"id": "C36", "title": "Frosting soundness", "statement": "If frosting is reported without error, an enabled metadata entry exists whose signature (same index) verifies with the embedded key over the exact bytes from the protobuf size up to the end of that entry, and the file hash in it equals SHA-256 of (bytes before the signing block, v2 id+block if present, central directory, patched EOCD).", "quantifier": "every frosting block and file", "why_tests_cant": "unbounded", "anchors": ["signingblock/frosting.go"]}
{"id": "C37", "title": "Source stamp soundness", "statement": "If a source stamp result carries no error and the stamp-cert file is present, the stamp certificate's SHA-256 equals the stamp-cert-sha256 entry, and the stamp's signatures for the verified scheme verify over the canonical encoding of the content digests.", "quantifier": "every stamp block and zip", "why_tests_cant": "unbounded", "anchors": ["signingblock/sourcestamp.go"]}
{"id": "C38", "title": "Source stamp verdict does not depend on map iteration order", "statement": "For the same input the stamp verdict is the same for every map iteration order.", "quantifier": "every pair of schedules", "why_tests_cant": "random runtime order", "anchors": ["signingblock/sourcestamp.go:filterSignaturesToVerify"]}
{"id": "C39", "title": "Stamp digest encoding is canonical and injective", "statement": "The byte string that the stamp signs is independent of map order and two different digest maps give different byte strings.", "quantifier": "every pair of digest maps and orders", "why_tests_cant": "unbounded", "anchors": ["signingblock/sourcestamp.go:getSignatureSchemeDigest"]}
{"id": "C40", "title": "BER to DER transcoding", "statement": "ber2der of any DER-encoded object tree returns it unchanged; for any BER input on which it succeeds the output parses back to the same object tree with minimal definite lengths; converting twice equals converting once.", "quantifier": "every object tree (any depth) and every input", "why_tests_cant": "unbounded nesting", "anchors": ["fullsailor/pkcs7/ber.go"]}
{"id": "C41", "title": "ASN.1 tag/length/base-128/integer codecs round trip", "statement": "Parsing what the marshaller wrote for any tag/length, OID, int64 or big integer returns the original value and exactly the consumed length.", "quantifier": "every value in range", "why_tests_cant": "infinite value space", "anchors": ["internal/asn1andr/asn1.go", "internal/asn1andr/marshal.go"]}
{"id": "C42", "title": "PickBestApkCert", "statement": "For non-empty chains the pick is the first certificate of one of the given chains and none of the chains' leaf certificates has a higher signature-algorithm id; the input slice is only permuted.", "quantifier": "every list of chains", "why_tests_cant": "unbounded", "anchors": ["certinfo.go:PickBestApkCert"]}
{"id": "C43", "title": "ExtraBlocks never contains parsed schemes", "statement": "The documented promise that parsed block types (scheme v2, v3, ...) are never in ExtraBlocks.", "quantifier": "every APK and max SDK", "why_tests_cant": "all inputs", "anchors": ["signingblock/verificationresult.go:ExtraBlocks", "signingblock/signingblock.go:findSignatureBlocks"]}
{"id": "C44", "title": "Certificate extraction agrees with verification", "statement": "If verification succeeds on the signing-block path then ExtractCerts at the same SDK range returns the same certificate chains.", "quantifier": "every APK", "why_tests_cant": "all inputs", "anchors": ["signingblock/signingblock.go:ExtractCertsReader"]}
{"id": "C45", "title": "Issuer matching by canonical name", "statement": "The canonical form used to match issuer and subject names distinguishes different names (up to case and space folding).", "quantifier": "every pair of names", "why_tests_cant": "infinite", "anchors": ["schemev1.go:pkixCanonicalSeq"]}
{"id": "C46", "title": "Supported-algorithm and API-level tables", "statement": "Exactly the ten documented signature algorithm ids are accepted, each mapped to its digest kind and minimum platform; scheme support thresholds are exactly 24/28/33 and sandbox/stamp 26/30.", "quantifier": "every int32", "why_tests_cant": "2^32 values", "anchors": ["signingblock/signer.go", "apilevel/levels.go"]}
{"id": "C47", "title": "v3 soundness: success means every signer really signed these contents", "statement": "Like C11 for scheme 3 (without rotation): each signer's strongest supported signature verifies over its signed data with the key of its first certificate, its digest matches the file, and the min SDK used equals the signed one.", "quantifier": "every file, SDK range, oracle", "why_tests_cant": "attacker controls every byte", "anchors": ["signingblock/schemev3.go"]}
{"id": "C48", "title": "v3 completeness", "statement": "Every APK honestly signed with one v3 signer covering the requested range verifies without error, with exactly the signer's chain and lineage reported.", "quantifier": "every content/signer/lineage", "why_tests_cant": "unbounded", "anchors": ["signingblock/schemev3.go"]}
{"id": "C49", "title": "v1 certificate chain building terminates", "statement": "Chain building from the signer certificate terminates with at most #certificates+1 elements, each link's subject matching the previous issuer, for every (even cyclic) set of certificates.", "quantifier": "every certificate set including cycles", "why_tests_cant": "unbounded cycles", "anchors": ["schemev1.go:verifySignature (lines 787-818)"]}
{"id": "C50", "title": "v1 digest selection per platform", "statement": "For max SDK >= 18 the strongest digest present among SHA-512/384/256/1 is always among those checked; success of an entry check means every selected digest matched.", "quantifier": "every attribute map and SDK range", "why_tests_cant": "unbounded", "anchors": ["schemev1.go:getDigestsToVerify", "schemev1.go:verifyManifestEntry"]}
{"id": "C51", "title": "Minimum platform of lineage algorithms", "statement": "Every supported signature algorithm has a minimum platform version at which APK signatures with it are understood (24, or 28 for verity digests), which determines the lineage's minimum SDK.", "quantifier": "every supported algorithm, every lineage", "why_tests_cant": "all inputs", "anchors": ["signingblock/signer.go:getMinSdkVersion", "signingblock/schemev3lineage.go:145"]}
{"id": "C52", "title": "Verdict does not depend on the schedule", "statement": "Signing-block verification of the same bytes gives the same verdict, scheme and certificate chains for every map iteration order and every sort algorithm (including the fallback path).", "quantifier": "every file, every two schedules", "why_tests_cant": "map iteration order and unstable sort order are not controllable in tests", "anchors": ["signingblock/signingblock.go", "signingblock/signingblock.go:verifyIntegrity", "signingblock/schemev3.go:sort"]}
{"id": "C53", "title": "Source stamp lineage and time are signed", "statement": "A lineage or timestamp reported for an error-free source stamp comes from a stamp attribute covered by valid signatures of the stamp certificate; the lineage verifies link by link and ends in the stamp certificate; the timestamp is positive.", "quantifier": "every stamp block", "why_tests_cant": "unbounded attribute lists and lineages", "anchors": ["signingblock/sourcestamp.go:parseStampAttributes", "signingblock/sourcestamp.go:parseStampCertLineage"]}
{"id": "C54", "title": "v1 completeness", "statement": "Every APK that is JAR-signed honestly by 1 to 10 signers (each signature file listing every file, correct digests, valid PKCS#7 signatures, no announced v2 signature unless a signing block verified) verifies without error, and the reported chains are headed by exactly the signers' certificates.", "quantifier": "every content, every set of signers, every map iteration order", "why_tests_cant": "unbounded files and signers", "anchors": ["schemev1.go:newSchemeV1", "schemev1.go:verify", "schemev1.go:verifyMainManifest"]}
{"id": "C55", "title": "Reported v1 chains belong to binding signatures", "statement": "If v1 verification succeeds, every reported certificate chain belongs to a signature whose signature file binds the APK's manifest.", "quantifier": "every APK", "why_tests_cant": "attacker controls every file", "anchors": ["schemev1.go:verify", "schemev1.go:verifyMainManifest"]}
{"id": "C56", "title": "Minimum SDK from the manifest", "statement": "Verifying with min SDK -1 gives exactly the result of verifying with the manifest's minSdkVersion (first uses-sdk element; 1 if absent); an APK whose manifest cannot be parsed is accepted on JAR signatures alone or not at all.", "quantifier": "every manifest token stream, file and SDK range", "why_tests_cant": "unbounded XML inputs", "anchors": ["apkverifier.go:getManifestInfo", "apkverifier.go:EncodeToken", "apkverifier.go:getAttrIntValue"]}
{"id": "C57", "title": "Top-level completeness", "statement": "If the signing block verifies and the minimum SDK is at least 24 the top-level call accepts and reports exactly its scheme and chains; if there is no signing block, JAR signatures verify, the manifest permits v1 and the file is not a DEX, it accepts with scheme 1 and the JAR chains.", "quantifier": "every APK, manifest and SDK range", "why_tests_cant": "all combinations", "anchors": ["apkverifier.go:VerifyWithSdkVersionReader"]}
{"id": "C58", "title": "PickBestApkCert prefers currently valid certificates", "statement": "Of leaf certificates with the same signature-algorithm id, PickBestApkCert never returns one that is not valid now when another is valid now (the comment in the code: an expired cert is 'More' than a non-expired one).", "quantifier": "every list of chains and every clock value", "why_tests_cant": "unbounded lists, all validity periods", "anchors": ["certinfo.go:byPreference.Less"]}
{"id": "C59", "title": "NewCertInfo shows the certificate", "statement": "The Md5, Sha1 and Sha256 fields are the lower-case hexadecimal digests of the whole DER certificate, the dates, serial and algorithm are the certificate's, and Issuer/Subject list the present C, ST, L, O, OU and CN fields in this order.", "quantifier": "every certificate", "why_tests_cant": "all certificates", "anchors": ["certinfo.go:Fill", "signingblock/utils.go:PkixNameToString"]}
{"id": "C60", "title": "BER transcoding is not amplifying", "statement": "The DER output of the PKCS#7 transcoder is at most linear in the size of its input, and inputs whose elements overrun their parent are rejected.", "quantifier": "every input", "why_tests_cant": "needs worst-case inputs of unbounded nesting", "anchors": ["fullsailor/pkcs7/ber.go:readObject"]}
{"id": "C61", "title": "Signed attributes: what the signature covers", "statement": "For every parsed PKCS#7 block the bytes a SignerInfo's signature is checked against are the DER SET of its signed attributes; computing them never fails; they determine every attribute the verifier reads, so two signature files share signed bytes only if they are equal, share the digest, or one is itself the attribute set.", "quantifier": "every block file and every signer in it", "why_tests_cant": "unbounded inputs; injectivity is over all pairs of blocks", "anchors": ["fullsailor/pkcs7/pkcs7.go:GetSignerInfos", "fullsailor/pkcs7/pkcs7.go:MarshalAuthenticatedAttributes", "schemev1.go:verifySignature"]}
{"id": "C62", "title": "Malformed SignedData is rejected", "statement": "pkcs7.Parse returns an error for a block whose SignedData cannot be decoded completely.", "quantifier": "every block file", "why_tests_cant": "all malformed inputs", "anchors": ["fullsailor/pkcs7/pkcs7.go:parseSignedData"]}
{"id": "C63", "title": "No unsigned bytes inside the signed attributes", "statement": "No byte of the signed-attributes element of a v1 block file can be changed without changing the bytes the signature is checked against.", "quantifier": "every block file and every change", "why_tests_cant": "all pairs of files", "anchors": ["fullsailor/pkcs7/pkcs7.go:MarshalAuthenticatedAttributes", "internal/asn1andr/asn1.go:parseField"]}
{"id": "C64", "title": "Honest PKCS#7 objects are parsed", "statement": "A SignedData as written by an honest signer, in DER or any BER encoding of the same object, is parsed, and issuer name, serial number, algorithms, signature, attributes and certificates are exactly those written.", "quantifier": "every object and every encoding of it", "why_tests_cant": "unbounded objects, all length encodings", "anchors": ["fullsailor/pkcs7/pkcs7.go:Parse", "fullsailor/pkcs7/ber.go:ber2der"]}
{"id": "C65", "title": "ASN.1 values round trip", "statement": "Unmarshal of Marshal of a value gives the value and the remaining input, for every Go type made of integers, booleans, strings, OIDs, bit and octet strings, raw elements, slices and structs.", "quantifier": "every type description and value", "why_tests_cant": "unbounded nesting of types and values", "anchors": ["internal/asn1andr/asn1.go:parseField", "internal/asn1andr/marshal.go:makeField"]}
{"id": "C66", "title": "v1 tamper evidence", "statement": "If an APK made by the JAR signing procedure is changed and the result is accepted under v1 with one of the original signature files still binding it, then every protected file has the original contents, or an explicit hash collision between two of the hashed files or manifest sections exists.", "quantifier": "every original APK and every changed one", "why_tests_cant": "all pairs of APKs; the adversary controls every byte", "anchors": ["schemev1.go:verify", "schemev1.go:verifyMainManifest", "schemev1.go:verifyManifestEntry", "manifest.go:parseManifest"]}
{"id": "C67", "title": "ExtractCerts: meaning and agreement with Verify", "statement": "If ExtractCerts returns a nil error the chains are those of the signers of the newest signature block if there is one and of all JAR signatures otherwise, each signature verifying under the head of its chain; whenever Verify accepts an APK, ExtractCerts succeeds and includes the reported chains.", "quantifier": "every APK, map iteration order and SDK range", "why_tests_cant": "all APKs; relates two API calls", "anchors": ["apkverifier.go:ExtractCerts", "signingblock/signingblock.go:ExtractCertsReader", "schemev1.go:extractCertsSchemeV1"]}
{"id": "C68", "title": "No fallback to JAR signatures beside a signature block", "statement": "If the APK has a v2, v3 or v3.1 signature block that the newest device in the range knows, no error of the signing block verification is ever replaced by a JAR signature check: it is returned, and acceptance implies the block verified and a scheme of 2 or more.", "quantifier": "every APK, manifest and SDK range", "why_tests_cant": "attacker controls every byte", "anchors": ["apkverifier.go:VerifyWithSdkVersionReader", "signingblock/signingblock.go:VerifySigningBlockReaderWithZip"]}
{"id": "C69", "title": "Certificates carry their bytes", "statement": "Every certificate in a Result is exactly the DER element it was read from (Raw), with nothing before, after or left over; the certificates of a PKCS#7 block are exactly the elements standing in it one after the other.", "quantifier": "every byte string", "why_tests_cant": "all byte strings", "anchors": ["internal/x509andr/x509.go:ParseCertificate", "internal/x509andr/x509.go:ParseCertificates"]}
{"id": "C70", "title": "The signature was checked with the certificate's key", "statement": "The public key parsed from the recorded public key information of a certificate is the certificate's public key; hence each signer of an accepted v2, v3 or v3.1 block signed with the key of the certificate reported for it.", "quantifier": "every certificate and every APK", "why_tests_cant": "all encodings of keys", "anchors": ["internal/x509andr/x509.go:parseCertificate", "internal/x509andr/x509.go:ParsePKIXPublicKey", "signingblock/schemev2.go:verifySigner", "signingblock/schemev3.go:verifySigner"]}
{"id": "C71", "title": "Negative RSA moduli are read as unsigned", "statement": "An RSA modulus encoded without its leading zero octet (a negative INTEGER) is read as the unsigned value of its octets, as Android's BoringSSL does.", "quantifier": "every modulus and exponent", "why_tests_cant": "all byte strings", "anchors": ["internal/x509andr/x509.go:parsePublicKey"]}
{"id": "C72", "title": "Unhandled critical extensions", "statement": "A certificate is recorded as having an unhandled critical extension exactly if it has a critical extension that is not one of the ten recognised ones, or critical alternative names of which none is an e-mail address, DNS name or IP address.", "quantifier": "every certificate in DER", "why_tests_cant": "unbounded extension lists", "anchors": ["internal/x509andr/x509.go:parseCertificate", "internal/x509andr/x509.go:parseSANExtension"]}
{"id": "C73", "title": "Certificates are read as written", "statement": "A certificate in DER with any number of names, attributes and extensions with well-formed values is accepted, and serial number, names, validity, public key and its encoding in the Result are those written. Well-formed are, of the extensions the library decodes, key identifiers, key usages, alternative names, basic constraints, name constraints (only DNS names if critical), CRL distribution points with full names, policies and authority information; a certificate with a distribution point named relative to the CRL issuer is rejected.", "quantifier": "every certificate in DER", "why_tests_cant": "unbounded documents", "anchors": ["internal/x509andr/x509.go:ParseCertificate", "internal/asn1andr/asn1.go:parseField"]}
{"id": "C74", "title": "Signature algorithm of a certificate", "statement": "The SignatureAlgorithm of a certificate is the one its algorithm identifier names; RSASSA-PSS is recognised only with equal hashes, NULL parameters, MGF1, matching salt length and trailer 1; anything else is UnknownSignatureAlgorithm.", "quantifier": "every certificate in DER", "why_tests_cant": "all identifiers and parameters", "anchors": ["internal/x509andr/x509.go:getSignatureAlgorithmFromAI"]}
{"id": "C75", "title": "Issuer names compared by decoded fields", "statement": "Two encoded names match (v1 signer against certificates) exactly if they say the same.", "quantifier": "every pair of names", "why_tests_cant": "all pairs", "anchors": ["schemev1.go:verifySignature", "schemev1.go:pkixCanonical"]}
{"id": "C76", "title": "DSA and ECDSA signature values of JAR signatures", "statement": "A DSA signature (and ECDSA with SHA-224) is accepted only if it is the DER encoding of two positive integers with nothing after it, and these two integers are the ones checked against the key.", "quantifier": "every byte string given as signature", "why_tests_cant": "all byte strings", "anchors": ["schemev1.go:checkSignature", "internal/asn1andr/asn1.go:Unmarshal"]}
{"id": "C77", "title": "Verify's verdict does not depend on map iteration order", "statement": "If Verify accepts an APK in one run, every other run on the same APK that returns accepts it too, with the same SchemeId and the same set of certificate chains - the very same chains if a signing block decided - whatever order Go's map iterations take in the two runs.", "quantifier": "every APK, SDK range and pair of map iteration orders", "why_tests_cant": "Go randomises map iteration: a test sees a few orders", "anchors": ["apkverifier.go:verifyWithSdkVersion", "signingblock/signingblock.go:VerifySigningBlock", "schemev1.go"]}
{"id": "C78", "title": "An honestly JAR-signed APK verifies, from its bytes", "statement": "An APK whose manifest, signature files, PKCS#7 signature blocks and certificates are written as the formats prescribe, with digests that match and signatures made with the keys of the certificates, is accepted by the JAR scheme, and the chains returned start with exactly the signers' certificates, byte for byte.", "quantifier": "every number of files, signers, certificates, attributes and extensions", "why_tests_cant": "unbounded documents", "anchors": ["schemev1.go", "fullsailor/pkcs7/pkcs7.go:Parse", "internal/asn1andr/asn1.go", "internal/x509andr/x509.go:ParseCertificates"]}
{"id": "C79", "title": "Which public keys are accepted", "statement": "A public key is accepted exactly if it is a SubjectPublicKeyInfo with an RSA key with positive exponent, a DSA key with positive parameters and public value, or an uncompressed point on P-224, P-256, P-384 or P-521 that is on the curve, with nothing after it; and it is read as the key written there.", "quantifier": "every byte string", "why_tests_cant": "all byte strings", "anchors": ["internal/x509andr/x509.go:ParsePKIXPublicKey", "internal/x509andr/x509.go:parsePublicKey"]}
{"id": "C80", "title": "Accepted certificates have the X.509 layout", "statement": "A certificate is accepted only if its fields stand where RFC 5280 puts them, and serial number, validity and public key in the Result are the ones standing there; nothing follows the certificate.", "quantifier": "every byte string", "why_tests_cant": "all byte strings", "anchors": ["internal/x509andr/x509.go:ParseCertificate", "internal/x509andr/x509.go:parseCertificate", "internal/asn1andr/asn1.go:parseField"]}
{"id": "C81", "title": "An honestly v2- or v3-signed APK verifies, from its bytes", "statement": "An APK whose signing block is written as the format prescribes, with X.509 certificates in DER, digests of the contents and signatures made with the keys of the certificates, is accepted, and the chains returned consist of exactly the certificates written, byte for byte.", "quantifier": "every content, number of signers, certificates and attributes", "why_tests_cant": "unbounded documents", "anchors": ["signingblock/schemev2.go", "signingblock/schemev3.go", "signingblock/signingblock.go", "internal/x509andr/x509.go:ParseCertificate", "internal/x509andr/x509.go:ParsePKIXPublicKey"]}
{"id": "C82", "title": "Times are read by the calendar", "statement": "A UTCTime is accepted exactly if it is YYMMDDhhmm[ss] with a zone (Z or a non-zero signed offset of at most 24 hours), denotes an existing date of the Gregorian calendar between 1950 and 2049 and a time of day, and is read as that instant; a GeneralizedTime likewise with a four-digit year and seconds; the validity of every accepted certificate is the one written in its bytes.", "quantifier": "every byte string and every certificate", "why_tests_cant": "all byte strings; all dates", "anchors": ["internal/asn1andr/asn1.go:parseUTCTime", "internal/asn1andr/asn1.go:parseGeneralizedTime"]}
{"id": "C83", "title": "Text is read as Unicode", "statement": "A string in a certificate is read byte by byte for PrintableString, T61String, NumericString (digits and spaces only) and IA5String (ASCII only); a UTF8String is accepted exactly if it is the UTF-8 encoding of Unicode scalar values; a BMPString is read as UTF-16 with unpaired surrogates replaced and one final zero dropped.", "quantifier": "every byte string", "why_tests_cant": "all byte strings", "anchors": ["internal/asn1andr/asn1.go:parseField", "internal/asn1andr/asn1.go:parseUTF8String", "internal/asn1andr/asn1.go:parseBMPString"]}
{"id": "C84", "title": "An honest source stamp verifies", "statement": "If the APK carries a source stamp block written as the format prescribes - certificate, per signature scheme the signatures over the content digests that the verified signers of the newest known scheme recorded (or over the manifest digest when none of its schemes is known to the platform), all of them valid, signed attributes with positive time and valid lineages ending in the stamp certificate - and the ZIP entry stamp-cert-sha256 holds the SHA-256 of the certificate, then VerifySigningBlockReaderWithZip reports the stamp without errors, with that certificate, time and lineage; and it does not panic.", "quantifier": "every APK, SDK range, number of algorithms, attributes and lineage nodes, every map iteration order", "why_tests_cant": "unbounded documents and every map iteration order", "anchors": ["signingblock/sourcestamp.go:VerifySourceV2Stamp", "signingblock/sourcestamp.go:filterSignaturesToVerify", "signingblock/sourcestamp.go:parseStampAttributes", "signingblock/sourcestamp.go:parseStampCertLineage"]}
{"id": "C85", "title": "PKCS7.Verify accepts exactly signed content", "statement": "Verify on a parsed PKCS#7 object returns nil exactly if the object has a signer and every signer names a certificate of the object (serial number and issuer bytes), whose key has signed with the algorithm the signer names the content itself or, if the signer has signed attributes, the DER SET of these attributes, whose messageDigest is the hash of the content; GetOnlySigner is then the certificate whose key made the signature; and one signature stands for one content, up to collisions of the hash.", "quantifier": "every byte string given to Parse, every content put into the object", "why_tests_cant": "all byte strings, any number of signers, certificates and attributes", "anchors": ["fullsailor/pkcs7/pkcs7.go:Verify", "fullsailor/pkcs7/pkcs7.go:verifySignature", "fullsailor/pkcs7/pkcs7.go:GetOnlySigner", "fullsailor/pkcs7/pkcs7.go:getSignatureAlgorithmFromAI", "fullsailor/pkcs7/pkcs7.go:marshalAttributes"]}
{"id": "C86", "title": "Parse reads a SignedData document as written", "statement": "A SignedData document in DER, with or without content, certificates and certificate revocation lists, is accepted whatever follows it, and content, content type, certificates, every field of every revocation list (version, algorithm, issuer, dates, revoked serial numbers, extensions, signed part and signature) and every field of every signer of the result are those of the document.", "quantifier": "every document: any content, number of certificates, signers and attributes", "why_tests_cant": "unbounded documents", "anchors": ["fullsailor/pkcs7/pkcs7.go:Parse", "fullsailor/pkcs7/pkcs7.go:parseSignedData"]}
{"id": "C87", "title": "What is signed can be read and verifies", "statement": "For any data and any sequence of AddSigner, AddCertificate and Detach calls with certificates that the parser reads and keys that belong to them, no two different certificates with the same issuer and serial number and no second messageDigest among the extra attributes, Finish returns bytes which Parse reads as that data (nothing if detached), the certificates in the order of the calls and the signers with their signing time and extra attributes, and Verify of it (with the data put back) returns nil; GetOnlySigner of an object with one signer is that signer's certificate.", "quantifier": "every content and every sequence of calls", "why_tests_cant": "unbounded sequences of calls", "anchors": ["fullsailor/pkcs7/pkcs7.go:NewSignedData", "fullsailor/pkcs7/pkcs7.go:AddSigner", "fullsailor/pkcs7/pkcs7.go:AddCertificate", "fullsailor/pkcs7/pkcs7.go:Detach", "fullsailor/pkcs7/pkcs7.go:Finish", "fullsailor/pkcs7/pkcs7.go:Verify"]}
{"id": "C88", "title": "DegenerateCertificate carries exactly the certificates", "statement": "DegenerateCertificate of DER certificates one after the other gives an object which Parse reads as exactly these certificates, with no content and no signer, and which Verify does not accept.", "quantifier": "every list of certificates", "why_tests_cant": "unbounded lists", "anchors": ["fullsailor/pkcs7/pkcs7.go:DegenerateCertificate", "fullsailor/pkcs7/pkcs7.go:Parse"]}
{"id": "C89", "title": "What is encrypted can be read by every recipient", "statement": "For any content, any list of recipients with RSA keys (no two different certificates with the same issuer and serial number) and both content encryption algorithms, Encrypt returns bytes which Parse reads as enveloped data, and Decrypt of it with the certificate and private key of any of the recipients returns the content.", "quantifier": "every content, key, nonce and list of recipients", "why_tests_cant": "unbounded contents and lists", "anchors": ["fullsailor/pkcs7/pkcs7.go:Encrypt", "fullsailor/pkcs7/pkcs7.go:encryptDESCBC", "fullsailor/pkcs7/pkcs7.go:encryptAES128GCM", "fullsailor/pkcs7/pkcs7.go:pad", "fullsailor/pkcs7/pkcs7.go:Parse", "fullsailor/pkcs7/pkcs7.go:Decrypt"]}
{"id": "C90", "title": "Decrypt returns only what the key opens", "statement": "Decrypt of a parsed enveloped-data document returns a text exactly if the certificate is that of a recipient, the private key opens the encrypted key of the first such recipient, the content encryption algorithm is one of the five known ones, key and parameters have the lengths it needs, and the content (one octet string or the concatenation of several) decrypts to that text: in CBC mode followed by n octets of value n with n from 1 to the block length, in GCM mode with a tag that fits.", "quantifier": "every document, certificate, key and text", "why_tests_cant": "unbounded documents", "anchors": ["fullsailor/pkcs7/pkcs7.go:Decrypt", "fullsailor/pkcs7/pkcs7.go:decrypt", "fullsailor/pkcs7/pkcs7.go:unpad", "fullsailor/pkcs7/pkcs7.go:selectRecipientForCertificate", "fullsailor/pkcs7/pkcs7.go:parseEnvelopedData"]}
{"id": "C91", "title": "Decrypt and Encrypt do not panic", "statement": "Decrypt of a document that Parse accepts, and Encrypt for any recipients, return a value or an error and do not panic, whatever the encrypted content and the types of the keys.", "quantifier": "every document, certificate, key, recipient", "why_tests_cant": "unbounded documents", "anchors": ["fullsailor/pkcs7/pkcs7.go:Decrypt", "fullsailor/pkcs7/pkcs7.go:decrypt", "fullsailor/pkcs7/pkcs7.go:unpad", "fullsailor/pkcs7/pkcs7.go:Encrypt", "fullsailor/pkcs7/pkcs7.go:encryptKey"]}
{"id": "C92", "title": "Raising the minimum SDK level keeps an accepted signing block accepted", "statement": "If an APK is accepted for the SDK levels min..max by its signing block, and not merely through the fallback from a broken v3 block to v2, then it is accepted for every narrower range min'..max with min <= min' (for the whole verification: min' at least 24, where no JAR signature is needed any more), under the same scheme and with the same certificate chains. Without the exception for the fallback this is false.", "quantifier": "every file, zip, environment, schedule, pair of minimum levels", "why_tests_cant": "relates two runs over unbounded files and all levels", "anchors": ["apkverifier.go:VerifyWithSdkVersionReader", "signingblock/signingblock.go:VerifySigningBlockReaderWithZip", "signingblock/schemev3.go:finalizeResult", "signingblock/schemev31.go:finalizeResult"]}
{"id": "C93", "title": "Below API 28 the minimum SDK level matters only at known steps", "statement": "For two minimum levels below 28 that are on the same side of each of the levels 9, 11, 18, 23, 24, verification of any APK has the same outcome (result, error or panic); for the signing block alone the levels are 11 and 23. So a caller's verdict does not change between these platform releases.", "quantifier": "every file, zip, environment, schedule, maximum level, pair of minimum levels", "why_tests_cant": "relates two runs over unbounded files and all levels", "anchors": ["apkverifier.go:VerifyWithSdkVersionReader", "schemev1.go:getDigestsToVerify", "schemev1.go:verifySignature", "signingblock/sourcestamp.go:filterSignaturesToVerify", "signingblock/schemev3.go:finalizeResult"]}
{"id": "C94", "title": "Printed ids, algorithms and capabilities identify what they print", "statement": "BlockId.String and SignatureAlgorithm.String print different values differently. LineageCertCaps.String lists the set capability bits in order, by name or as a hexadecimal mask, and two different flag words are printed differently.", "quantifier": "every uint32 / int32 value", "why_tests_cant": "2^32 values and pairs of them", "anchors": ["signingblock/signingblock.go:BlockId.String", "signingblock/signer.go:SignatureAlgorithm.String", "signingblock/schemev3lineage.go:LineageCertCaps.String"]}
{"id": "C95", "title": "The SDK level reported with a signing lineage", "statement": "SigningLineage.MinSdkVersion is 28, the first level that knows key rotation, whatever the algorithms of the lineage's nodes (every supported algorithm is known at 28).", "quantifier": "every file, SDK range, map order and outcome of the call", "why_tests_cant": "lineages of any length with any algorithms, consolidated from any number of signers", "anchors": ["signingblock/schemev3lineage.go:lineageCalculateMinSdkVersion", "signingblock/schemev3.go:consolidateLineages", "signingblock/signer.go:getMinSdkVersion"]}
{"id": "C96", "title": "An I/O error never makes a signing block verify", "statement": "Whichever seeks and reads of the APK fail while a signing block is verified, a nil error means that the contents of the file are signed under the reported scheme by the reported signers, that the call returns a nil error with the same scheme when nothing fails, and that Google Play metadata reported as verified are verified; and the call does not crash because of an I/O error.", "quantifier": "every file, set of failing seeks and reads (fault point), environment, schedule, SDK range", "why_tests_cant": "all fault points of unbounded runs", "anchors": ["signingblock/signingblock.go:VerifySigningBlockReaderWithZip", "signingblock/signingblock.go:findEocd", "signingblock/signingblock.go:isZip64", "signingblock/signingblock.go:findApkSigningBlock", "signingblock/signingblock.go:verifyIntegrity", "signingblock/datasource.go:dataSourceApk", "signingblock/frosting.go:hashFileSection", "signingblock/verity.go"]}
{"id": "C97", "title": "An I/O error never makes an APK verify", "statement": "If VerifyWithSdkVersionReader returns a nil error although some reads of the APK failed, then it returns a nil error when none fails.", "quantifier": "every file, zip, set of failing seeks and reads, environment, schedule, SDK range", "why_tests_cant": "all fault points of unbounded runs", "anchors": ["apkverifier.go:VerifyWithSdkVersionReader", "signingblock/signingblock.go:VerifySigningBlockReaderWithZip", "signingblock/signingblock.go:IsSigningBlockNotFoundError"]}
{"id": "C98", "title": "An I/O error never changes the extracted certificates", "statement": "If ExtractCertsReader returns certificates and a nil error although some reads of the APK failed, then these are the certificates it returns when none fails.", "quantifier": "every file, zip, set of failing seeks and reads, environment, schedule", "why_tests_cant": "all fault points of unbounded runs", "anchors": ["apkverifier.go:ExtractCertsReader", "signingblock/signingblock.go:ExtractCertsReader"]}
{"id": "C99", "title": "Marshal writes the DER encoding of the value", "statement": "What asn1andr.Marshal writes for a value is its DER encoding under the tags of its struct fields (universal, implicit and explicit tags, optional and default fields, string types, UTCTime/GeneralizedTime, sorted SET OF), and it returns an error exactly if the value has none; a written time is read back as the same instant.", "quantifier": "every type built from the supported Go types, struct tags, value, time and zone", "why_tests_cant": "unbounded nesting and sizes, all values", "anchors": ["internal/asn1andr/marshal.go:makeField", "internal/asn1andr/marshal.go:makeBody", "internal/asn1andr/marshal.go:appendTimeCommon", "internal/asn1andr/common.go:getUniversalType"]}
{"id": "C100", "title": "Lowering the maximum SDK level keeps an accepted signing block accepted", "statement": "If an APK is accepted for the SDK levels min..max by its signing block, then it is accepted for every narrower range min..max' whose last level knows the scheme, under the same scheme and with the same chains; an APK accepted under v3.1 is accepted under v3.0 for ranges that end below API 33. Exceptions, where it is false: acceptance through the fallback from v3 to v2, and max' from 33 up to the level before the first level of the v3.1 signers, where every call ends with an error although the v3.0 signers cover the range.", "quantifier": "every file, zip, environment, schedule, pair of maximum levels", "why_tests_cant": "relates two runs over unbounded files and all levels", "anchors": ["apkverifier.go:VerifyWithSdkVersionReader", "signingblock/signingblock.go:VerifySigningBlockReaderWithZip", "signingblock/schemev3.go:finalizeResult", "signingblock/schemev31.go:finalizeResult"]}
{"id": "C101", "title": "Without a v3 block the maximum SDK level matters only at known steps", "statement": "For two maximum levels that are on the same side of each of the levels 1, 11, 18, 23, 24, 26, 28, 33, 2147483647 and of the APK's target level if that is 30 or more, verification of an APK without a v3 or v3.1 block has the same outcome (result, error or panic); below API 28 this holds for every APK.", "quantifier": "every file, zip, environment, schedule, minimum level, pair of maximum levels", "why_tests_cant": "relates two runs over unbounded files and all levels", "anchors": ["apkverifier.go:VerifyWithSdkVersionReader", "schemev1.go:getDigestsToVerify", "schemev1.go:verifySignature", "signingblock/sourcestamp.go:filterSignaturesToVerify", "signingblock/schemev2.go:verifySigner", "signingblock/signingblock.go:findSignatureBlocks"]}
{"id": "C102", "title": "Genuine frosting is recognised", "statement": "If the last frosting entry of a well-formed APK Signing Block has the documented format - a non-empty protobuf, metadata whose first enabled entry (after fewer than 32767 disabled ones) names Google Play's key and the SHA-256 of the protected parts of the file, and at the same index a valid ECDSA signature - then the verification result reports frosting without error, with that protobuf and the hash of that key. This does not depend on the SDK levels or on whether the APK signatures verify.", "quantifier": "all files, environments, SDK ranges and frosting blocks, with any number and contents of disabled entries and any (also over-long) varint encodings", "why_tests_cant": "frosting blocks are nested variable-length structures with unbounded many entries; no set of samples covers all encodings", "anchors": ["signingblock/frosting.go:frostingInfo.parse", "signingblock/frosting.go:frostingInfo.parseFrostingBlock", "signingblock/frosting.go:readArrayItem", "signingblock/frosting.go:verifyApk", "signingblock/signingblock.go:VerifySigningBlockReaderWithZip"]}
{"id": "C103", "title": "Chains that Certificate.Verify returns are valid", "statement": "Every chain x509andr's Certificate.Verify returns leads from the certificate through intermediates of the given pool to a root of the given pool (or the certificate is itself one of the roots): each certificate is signed by the next, whose subject is its issuer; every signer is a CA where required, may sign certificates, is within its validity period, permits the DNS name asked for and has no more certificates below it than it allows; no certificate occurs twice; the certificate is valid for the host if one is given and has no critical extension that was not understood; and one of the requested extended key usages is allowed by the whole chain. There is at least one chain exactly if there is no error, and the search ends for every pool.", "quantifier": "every certificate, pool of roots, pool of intermediates (any size, any cyclic issuing relations), name, time and list of usages", "why_tests_cant": "the search recurses over arbitrary graphs of certificates with a cache shared between branches", "anchors": ["internal/x509andr/verify.go:Verify", "internal/x509andr/verify.go:buildChains", "internal/x509andr/verify.go:isValid", "internal/x509andr/verify.go:checkChainForKeyUsage", "internal/x509andr/cert_pool.go:findVerifiedParents"]}
{"id": "C104", "title": "Certificate.Verify finds a chain if there is one", "statement": "If there is a valid chain from the certificate to a root (in the sense of C103, with key identifiers that agree with the signatures), Verify returns without error.", "quantifier": "every certificate, pools, name, time and usages for which a valid chain exists", "why_tests_cant": "the chains found below an intermediate are cached and reused for other branches, so the outcome depends on the order of the whole search", "anchors": ["internal/x509andr/verify.go:Verify", "internal/x509andr/verify.go:buildChains"]}
{"id": "C105", "title": "VerifyHostname accepts exactly the names of the certificate", "statement": "VerifyHostname(h) returns nil exactly if h (without brackets) is an IP address equal to one of the certificate's, or is no IP address and one of the certificate's DNS names - the common name if there is no subjectAltName extension - equals h label by label, ignoring ASCII case and one final dot, where a first label of just a star stands for exactly one arbitrary label.", "quantifier": "every certificate and every host string", "why_tests_cant": "infinitely many names and patterns; the star must never cover the bare domain or several labels", "anchors": ["internal/x509andr/verify.go:VerifyHostname", "internal/x509andr/verify.go:matchHostnames", "internal/x509andr/verify.go:toLowerCaseASCII"]}
{"id": "C106", "title": "Name constraints cover exactly the domain and its subdomains", "statement": "A dNSName constraint covers the name asked for exactly if it is empty, equals the name, or is a suffix of it at a label boundary: without leading dot the domain and names below it, with leading dot only names below it.", "quantifier": "every pair of name and constraint", "why_tests_cant": "infinitely many strings; off-by-one at the boundary lets evil-example.com pass for example.com", "anchors": ["internal/x509andr/verify.go:matchNameConstraint"]}
{"id": "C107", "title": "Certificate signature checks accept exactly valid signatures", "statement": "CheckSignature accepts exactly signatures of the message that verify under the key with the hash named by the algorithm (never MD2 or MD5; (r,s) positive and without trailing bytes; PSS only for PSS algorithms) and an algorithm of the key's kind; CheckSignatureFrom moreover requires that the parent is a CA if it is of version 3 or has basic constraints, that its key usage, if any, includes certificate signing, and that its key algorithm is known.", "quantifier": "every algorithm id, key, message and signature", "why_tests_cant": "all byte strings; cryptography is uninterpreted", "anchors": ["internal/x509andr/x509.go:checkSignature", "internal/x509andr/x509.go:CheckSignatureFrom"]}
{"id": "C108", "title": "Certificate pools hold what was added and find all issuers", "statement": "After any sequence of AddCert calls a pool contains exactly the added certificates, each once, and the issuers tried for a certificate are all certificates of the pool with the matching subject key identifier, or if there are none, all those whose subject is the issuer.", "quantifier": "every sequence of additions and every certificate looked up", "why_tests_cant": "histories of unbounded length; two indices must stay consistent with the list", "anchors": ["internal/x509andr/cert_pool.go:AddCert", "internal/x509andr/cert_pool.go:contains", "internal/x509andr/cert_pool.go:findVerifiedParents"]}
{"id": "C109", "title": "Unmarshal reads exactly the values of the type", "statement": "asn1andr.Unmarshal into a variable of a Go type succeeds, with a value and remaining bytes, exactly when the bytes start with an encoding of that value: the identifier octets fit the type and the field parameters (universal, implicit or explicit tag, set, string and time kinds), the contents octets are those of the value, lists are read to the end of their contents, structs field by field, absent optional fields get their default or zero value, RawValue and RawContent keep the bytes as they stand; in all other cases it returns an error, and no bytes can be read as two values.", "quantifier": "every Go type that the package can describe (structs, lists, pointers to big.Int, interface{}, RawValue, times, strings, nested without bound), all field parameters and all byte strings", "why_tests_cant": "the decoder is a reflection-driven recursion with a separate counting pass for lists and many special cases of tags; tests look at a handful of types and inputs", "anchors": ["internal/asn1andr/asn1.go: Unmarshal, UnmarshalWithParams, parseField, parseSequenceOf, parseTagAndLength, setDefaultValue", "internal/asn1andr/common.go: getUniversalType, fieldParameters"]}
{"id": "C110", "title": "Optional and explicitly tagged fields", "statement": "An optional field that is not there is skipped and gets its default, whatever element stands in its place, and a field with an explicit tag is read from the element inside the tag, which it fills. (False of the code in two ways: before a final element with empty contents, such as a NULL, an absent optional field with an explicit tag is an error instead of being skipped; and the length of the explicit tag is not compared with that of the element in it.)", "quantifier": "all types and field parameters, all byte strings", "why_tests_cant": "the two failures need an empty element at the very end, or lengths that disagree; ordinary test data has neither", "anchors": ["internal/asn1andr/asn1.go: parseField, setDefaultValue"]}
{"id": "C111", "title": "Reading a signed attribute", "statement": "PKCS7.UnmarshalSignedAttribute returns a value exactly when the object holds signed data with at least one signer, the first signer has a signed attribute of the given type, and the octets of the value set of the first such attribute start with an encoding of a value of the Go type given; the value returned is that one.", "quantifier": "every PKCS#7 object (any number of signers and attributes), every attribute type, every Go type", "why_tests_cant": "any number of attributes in any order, with values of any type; tests read one attribute of one file", "anchors": ["fullsailor/pkcs7/pkcs7.go: UnmarshalSignedAttribute, unmarshalAttribute"]}
{"id": "C112", "title": "What genuine signers write is accepted", "statement": "An APK with JAR signatures only, with an APK Signature Scheme v2 block, with both, or with a v3 block and a rotation history, written by a signer that follows the formats (certificates, PKCS#7 files, manifests, digests and signatures as the specifications say), is accepted by Verify and VerifyWithSdkVersion for every range of API levels the signatures are meant for, with the scheme number of the strongest signature and with exactly the certificates the signers wrote; for v3 the lineage reported is the one written.", "quantifier": "every APK, every number of entries and signers, all certificates and key sizes, all API level arguments including 'from the manifest', every schedule of the digest workers", "why_tests_cant": "completeness: no finite set of signed APKs shows that every correctly signed APK is accepted", "anchors": ["apkverifier.go: Verify, VerifyReader, VerifyWithSdkVersion, VerifyWithSdkVersionReader, getManifestInfo", "signingblock/signingblock.go: VerifySigningBlockReaderWithZip", "schemev1.go: verifySchemeV1", "internal/x509andr", "fullsailor/pkcs7"]}
{"id": "C113", "title": "An accepted APK is one that the reported signer signed", "statement": "If Verify accepts an APK and reports a certificate, and the APK shows no signature by that certificate's key other than over signed data its owner made, then the protected contents of the APK are those of one of the versions its owner signed, or two different messages with the same hash can be pointed out. (Proved for schemes v2 and v3; for v2 unless the certificates come from a failed v3 block. False for v3.1: a genuine v3.1 block moved unchanged into another APK, beside a v3.0 block by anyone, is accepted and its signer reported.)", "quantifier": "every APK, every number of signers and of versions signed by the owner of a key, all API level arguments and schedules", "why_tests_cant": "quantifies over everything an attacker can put into an APK file; tests try a few manipulations", "anchors": ["apkverifier.go: Verify, VerifyReader, VerifyWithSdkVersion", "signingblock/schemev2.go", "signingblock/schemev3.go", "signingblock/schemev31.go", "signingblock/signingblock.go: VerifySigningBlockReaderWithZip"]}
{"id": "C114", "title": "Struct tags mean what they say", "statement": "The parameters of a field that Marshal and Unmarshal use are those its struct tag gives: each option that is a known word switches its parameter on wherever it stands, the last proper number after 'default:' and 'tag:' counts, explicit, application and private without a number mean tag 0, the last string and time kind counts, and anything else is ignored; and the structures of PKCS#7, X.509 and revocation lists are read with the tags in the source.", "quantifier": "every struct tag string, with any number of options in any order, known or unknown, with any numbers", "why_tests_cant": "tags can combine any number of options in any order; tests list a dozen", "anchors": ["internal/asn1andr/common.go: parseFieldParameters, fieldParameters", "fullsailor/pkcs7/pkcs7.go: struct tags", "internal/x509andr/x509.go: struct tags"]}
{"id": "C115", "title": "Printed certificates and lineage nodes identify what they print", "statement": "CertInfo.String of an APK's certificate consists of the SHA-1 of the whole certificate in hexadecimal, the two ends of its validity as RFC 3339 texts that denote exactly those instants (in the zone the certificate gives), and its subject and issuer; an RFC 3339 text denotes one instant only; two certificates have the same text only if they have the same bytes or SHA-1 collides on them. V3LineageSigningCertificateNode.Dump writes the same text for two nodes only if Equal holds of them, or SHA-1 collides on their certificates or signatures; Equal of nodes and of node lists holds exactly if certificates, algorithms, signatures and flags agree place by place.", "quantifier": "every certificate, name, validity in the years 0 to 9999, zone offset of whole minutes, lineage node and list of nodes", "why_tests_cant": "The calendar computation and the claim that no two different values share a text range over unbounded dates and byte strings.", "anchors": ["certinfo.go: CertInfo.String, CertInfo.Fill", "signingblock/schemev3lineage.go: V3LineageSigningCertificateNode.Dump, Equal; V3LineageSigningCertificateNodeList.Equal"]}
{"id": "C116", "title": "What Marshal writes, Unmarshal reads back", "statement": "If Marshal encodes a Go value, Unmarshal with the same type and the same field parameters gives the same value and leaves exactly the bytes that followed the encoding, whatever they are; so two values have the same encoding only if they are the same value, and no encoding is the start of another. (Except: what is left out of the encoding may be read as a following field of the same tag; false for explicit private tags, for ENUMERATED values beyond 32 bits and for a false non-optional Flag.)", "quantifier": "every Go type (structures, lists, strings, numbers, tags, defaults, optional and omitted fields, nested without limit), every value, all bytes that follow", "why_tests_cant": "ranges over all types and values; tests list some values of some types", "anchors": ["internal/asn1andr/marshal.go: Marshal, makeField, makeBody", "internal/asn1andr/asn1.go: Unmarshal, UnmarshalWithParams, parseField"]}
{"id": "C117", "title": "The extensions written into a certificate are the ones read from it", "statement": "The extensions CreateCertificate builds from a template (key usages, extended key usages, basic constraints, key identifiers, DNS names, e-mail and IP addresses, OCSP and issuer URLs, policies, name constraints, CRL URLs) are accepted by ParseCertificate, none of them is an unhandled critical extension, and every field of the parsed certificate is that of the template; except that an IPv4 address comes back in four octets, that IsCA and MaxPathLen are lost without BasicConstraintsValid, and that MaxPathLen 0 without MaxPathLenZero comes back as -1. Bit i of KeyUsage is bit i (from the most significant one of the first octet) of the bit string in the certificate.", "quantifier": "every template without ExtraExtensions (any lists of names, addresses, identifiers of any length; key usages within the nine of RFC 5280; numbers that fit) whose extensions are below 2 GiB; every bit string for the key usage", "why_tests_cant": "ranges over all templates and all combinations of extensions; tests build a few certificates", "anchors": ["internal/x509andr/x509.go: CreateCertificate, buildExtensions, marshalSANs, reverseBitsInAByte, asn1BitLength, oidFromExtKeyUsage", "internal/x509andr/x509.go: parseCertificate, parseSANExtension, getDNSNames, extKeyUsageFromOID"]}
{"id": "C118", "title": "Keys, written and read back", "statement": "A public key written as SubjectPublicKeyInfo is read back as the same key; an RSA or EC private key written as PKCS#1 or SEC 1 structure is read back with the same numbers (modulus, exponents and primes; curve and scalar), also inside PKCS#8, where the algorithm parameters give the curve; the scalar is written with exactly as many bytes as the order of the curve. What the readers accept satisfies the checks they promise: version number 0 (or 1), positive modulus and primes, a known curve, a scalar below its order; a scalar of zero and bytes after a SEC 1 or PKCS#8 structure are accepted too.", "quantifier": "every key (any modulus, exponents, any number of primes; every curve, scalar below its order and pair of coordinates) and every byte string given to the readers", "why_tests_cant": "the numbers have unbounded sizes, and padding bytes appear only for few of them", "anchors": ["internal/x509andr/pkcs1.go: ParsePKCS1PrivateKey, MarshalPKCS1PrivateKey", "internal/x509andr/sec1.go: ParseECPrivateKey, parseECPrivateKey, MarshalECPrivateKey", "internal/x509andr/pkcs8.go: ParsePKCS8PrivateKey", "internal/x509andr/x509.go: MarshalPKIXPublicKey, marshalPublicKey, oidFromNamedCurve, namedCurveFromOID"]}
{"id": "C119", "title": "Password-encrypted PEM blocks", "statement": "DecryptPEMBlock gives back the data EncryptPEMBlock encrypted under the same password, for data of every length and each of the five ciphers. The encrypted block has the type asked for, the headers of RFC 1423 (cipher name and initialization vector, taken from the random source) and the data padded to the next whole block. DecryptPEMBlock accepts exactly the blocks whose DEK-Info header names a known cipher and an initialization vector of its block size, whose text is whole blocks, and whose plain text under the key of the password ends in 1 to a block's size bytes of that value; it returns the text before the padding, and reports an incorrect password exactly if only the padding is wrong.", "quantifier": "every data, password and random source, every cipher number, and every PEM block with any headers and bytes", "why_tests_cant": "padding and chaining depend on the length of the data and the key derivation on its size; a test sees a few lengths", "anchors": ["internal/x509andr/pem_decrypt.go: IsEncryptedPEMBlock, DecryptPEMBlock, EncryptPEMBlock, rfc1423Algo.deriveKey, cipherByName, cipherByKey"]}
