#!/usr/bin/env python3
"""Writes /verif/properties.jsonl.  Keep the list here, one tuple per property."""
import json, os
P = []
def p(id, title, statement, quantifier, why, anchors):
    P.append(dict(id=id, title=title, statement=statement, quantifier=quantifier, why_tests_cant=why, anchors=anchors))

SB="signingblock/signingblock.go"
p("C01","EOCD record is located correctly and unambiguously",
  "Signing-block verification only ever works with an End-Of-Central-Directory record that starts with the ZIP EOCD magic, whose comment-length field equals the number of bytes following the 22-byte record up to the end of the file, which is the first such record met when the comment length grows from 0, and whose central directory (offset+size fields) ends exactly where the record starts; conversely when such a record exists it is found.",
  "every byte string given as the APK file","the space of files and of fake EOCD records inside comments is unbounded",
  [SB+":findEocd",SB+":findEocdMaxCommentSize"])
p("C02","APK Signing Block is exactly the framed region before the central directory",
  "The signing block used for verification is exactly the byte range [o, centralDirOffset) such that both 64-bit size fields agree, the 16-byte magic ends the range, and the size is in range; the function accepts a file exactly when such a range exists.",
  "every file and every central-directory offset","depends on all byte contents and sizes",
  [SB+":findApkSigningBlock"])
p("C03","Signing-block entries are decoded faithfully",
  "For every sequence of (id, payload) entries laid out as uint64 length / uint32 id / payload, the verifier sees for each scheme id supported at the requested max SDK exactly the payload of the last entry with that id, puts every unsupported/unknown id into ExtraBlocks, ignores verity padding, and reports an error for every malformed length; no malformed entry is silently skipped.",
  "every sequence of entries of any number and size, every max SDK","unbounded sequences",
  [SB+":findSignatureBlocks"])
p("C04","Scheme precedence v3.1 > v3 > v2",
  "The scheme that is verified is the highest one present among the entries supported at the max SDK: 31 if a v3.1 entry is present, otherwise 3, otherwise 2, otherwise a signing-block-not-found error with scheme id 1.",
  "every set of entries and SDK range","combination space", [SB+":pickScheme",SB+":pickAndVerify"])
p("C05","Chunked content digest follows the APK Signature Scheme v2 definition",
  "For every content and every hash function, the computed digest equals H(0x5a || le32(#chunks) || H(0xa5||le32(|c1|)||c1) || ...), where the chunks are the <=1 MiB pieces of (bytes before the signing block), (central directory), (EOCD with its central-directory-offset field replaced by the signing-block offset), each section split separately and in order.",
  "every file content, any number of chunks, every requested subset/order of algorithms","unbounded content sizes",
  [SB+":computeOneMbChunkContentDigests",SB+":verifyIntegrity","signingblock/datasource.go"])
p("C06","Content digest commits to every protected byte",
  "If the hash function is collision-free then two APK contents with the same chunked (resp. verity) digest have the same concatenation of protected sections (same bytes before the signing block, central directory and patched EOCD): no protected byte can change without changing the digest.",
  "every pair of contents of any size","universally quantified over pairs of contents",
  [SB+":computeOneMbChunkContentDigests","signingblock/verity.go"])
p("C07","Verity digest is the Merkle-tree root of the contents",
  "The verity content digest equals the root of the 4096-byte-block salted SHA-256 hash tree (last block zero padded, each level padded to 4096, 8 zero bytes of salt) over the concatenation of the three sections, followed by the le64 total length; it is refused if the first section is not a multiple of 4096.",
  "every content of any length (any tree depth)","unbounded depth",
  ["signingblock/verity.go:generateTreeRootHash","signingblock/verity.go:calculateLevelOffset",SB+":computeVerityContentDigest"])
p("C08","Chained data source reads exactly the slice of the concatenation",
  "Reading (offset,size) from the chained source writes exactly bytes [offset, offset+size) of the concatenation of its sources when in bounds, and returns an error otherwise; same for a file section and a byte slice.",
  "every list of sources, every offset and size","boundary combinations unbounded",
  ["signingblock/datasource.go"])
p("C09","Length-prefixed fields are parsed injectively and in bounds",
  "Reading a length-prefixed field succeeds exactly when the buffer is le32(|x|) || x || rest with |x| < 2^31, returns exactly that x and leaves exactly that rest; it never reads past the buffer and never panics; negative and over-long lengths are errors.",
  "every buffer","all lengths including boundary/negative ones",
  ["signingblock/utils.go:getLenghtPrefixedSlice"])
p("C10","Best signature algorithm is the strongest supported one",
  "Among the signature records of a signer the algorithm that is verified is supported, is at least as strong (SHA-512 > verity-SHA-256 > SHA-256) as every other supported record, and is the first of that strength; comparison of algorithms is a total preorder and never panics on supported ones.",
  "every list of signature records","unbounded lists",
  ["signingblock/signer.go:parseSignatures","signingblock/signer.go:compareAlgos"])
p("C11","v2 soundness: success means every signer really signed these contents",
  "If verification succeeds with scheme 2, then the v2 block is a non-empty list of signer records and for each of them: the signature of the strongest supported algorithm verifies over the exact signed-data bytes with the record's public key, that key is the SubjectPublicKeyInfo of the first listed certificate, the algorithm lists of digests and signatures are equal, and the digest recorded for that algorithm equals the digest actually computed from the file.",
  "every file, SDK range, crypto oracle and map order","attacker controls every byte",
  [SB+":VerifySigningBlockReaderWithZip","signingblock/schemev2.go:verifySigner","signingblock/signer.go"])
p("C12","v2 completeness: honestly signed APKs verify",
  "Every APK built from arbitrary contents and 1..10 honest v2 signers (correct digests, valid signatures, parseable certificates, no unsatisfied stripping attribute) verifies without error with scheme 2 at any max SDK >= 24, and the returned certificate chains are exactly the signers' chains in order.",
  "every content, every list of signers, certificates and algorithms","unbounded",
  ["signingblock/schemev2.go","signingblock/signer.go",SB])
p("C13","All signers agree on each content digest",
  "If no error is reported then any two signers whose strongest algorithm uses the same digest kind recorded equal digests, and every recorded digest of an accepted v2/v3 signer is among the digests compared with the file.",
  "every list of signers","unbounded lists",["signingblock/signer.go:parseDigests"])
p("C14","v2 stripping protection",
  "If a v2 signer's signed attributes say the APK was also signed with a newer scheme (v3 or v3.1) and no such block is present in the APK, verification at max SDK >= 28 fails.",
  "every APK whose v2 signer carries the attribute anywhere in its attribute list","unbounded attribute lists and positions",
  ["signingblock/schemev2.go:verifySigner"])
p("C15","At most 10 signers",
  "A v2 block (or v1 signature set) with more than 10 signer chains is rejected.",
  "every number of signers","unbounded",["signingblock/schemev2.go:parseSigners","schemev1.go:verify"])
p("C16","v3 signer SDK ranges are contiguous and cover the requested range",
  "If scheme v3 verification succeeds, the signers' [min,max] SDK ranges, ordered by min, are valid (1<=min<=max), adjacent without gap or overlap, start at or below max(requestedMin,28) and end at or above the requested max (or rotationMin-1 when a v3.1 block takes over); independent of the order of signers in the file and of the sort algorithm.",
  "every list of signers, SDK ranges and sort tie-breaking","unbounded and int32 wraparound",
  ["signingblock/schemev3.go:finalizeResult"])
p("C17","v3 SDK range that is used was signed",
  "The [min,max] SDK range that decides which platforms a v3 signer covers is the one inside the signed data.",
  "every v3 signer record","attacker-controlled unsigned copies",
  ["signingblock/schemev3.go:verifySigner (lines 195-200)"])
p("C18","Proof-of-rotation lineage is a verified certificate chain",
  "If a lineage is reported, then every node after the first is signed by the previous node's certificate key with the previous node's declared algorithm over that node's exact signed bytes, declared parent algorithms agree, no certificate occurs twice, the capability flags/algorithms are those encoded, and for the accepted signer the last certificate is the signer's own certificate.",
  "every lineage of any length","unbounded chain length",
  ["signingblock/schemev3.go:readSigningCertificateLineage","signingblock/schemev3lineage.go"])
p("C19","Consolidated lineage extends all signers' lineages",
  "When several signers carry lineages, the reported lineage is one of them, is longest, and every other one is a prefix of it; otherwise an error is reported; the computation never panics.",
  "every list of lineages","unbounded",["signingblock/schemev3.go:consolidateLineages","signingblock/schemev3lineage.go:Equal"])
p("C20","v3.1 soundness: reported signer signed these contents",
  "If verification succeeds with scheme 31, the certificates reported belong to signers whose signed content digests match the file.",
  "every file and SDK range","attacker controls both blocks",
  ["signingblock/schemev31.go:parseSigners",SB+":verify"])
p("C21","v3.1 requires a matching v3.0 block",
  "If verification succeeds with scheme 31 then a v3.0 block is present, verified without error too, its SDK coverage reaches the SDK level just below the lowest v3.1 signer, and any rotation-min-SDK attribute in it equals that lowest v3.1 level.",
  "every APK with a v3.1 block","unbounded",["signingblock/schemev31.go","signingblock/schemev3.go"])
p("C22","Fallback from v3 to v2 is only used below API 28",
  "If a v3 (v3.1) block is present and supported but does not verify, then verification can succeed with scheme 2 only if the requested min SDK is below 28 and a v2 block is present; otherwise the v3 errors are returned. All v3 errors are kept as warnings.",
  "every APK and SDK range","combinations",[SB+":VerifySigningBlockReaderWithZip"])
p("C23","Reported certificates belong to the scheme that verified",
  "On success the reported certificate chains are exactly those of the signers of the scheme that was accepted.",
  "every APK and SDK range","needs adversarial construction (v3->v2 fallback)",[SB+":VerifySigningBlockReaderWithZip (lines 172-187)"])
p("C24","Nil error means authenticated",
  "If top-level verification returns a nil error then either the signing block verified (scheme >= 2), or v1 verification succeeded with no signing block present/required; when min SDK < 24 v1 verification succeeded in either case.",
  "every APK, SDK range, manifest","decision table over unbounded inputs",["apkverifier.go:VerifyWithSdkVersionReader"])
p("C25","Janus protection",
  "If the file starts with the DEX magic and acceptance relies on v1 verification, the error is ErrMixedDexApkFile; ErrMixedDexApkFile is returned only for such files, and only if a file with the same ZIP entries and the same signing block outcome but without the magic would be accepted.",
  "every file","all inputs",["apkverifier.go:VerifyWithSdkVersionReader"])
p("C26","Sandbox / target-SDK rules",
  "An APK with targetSandboxVersion > 1 is never accepted on v1 alone when max SDK >= 26; an APK targeting SDK >= 30 (and <= max SDK) is never accepted on v1 alone.",
  "every APK, manifest and SDK range","all combinations",["apkverifier.go:VerifyWithSdkVersionReader","apkverifier.go:EncodeToken"])
p("C27","v1 downgrade protection",
  "If no signing block verifies and a verified v1 signature file declares X-Android-APK-Signed containing 2 anywhere in its list, v1 verification fails for max SDK >= 24 whatever the map iteration order.",
  "every list syntax, position and iteration order","strings of any form",["schemev1.go:verify"])
p("C28","v1 soundness: every regular file is covered",
  "If v1 verification succeeds then every non-directory entry outside META-INF/ (other than AndroidManifest.xml) has a manifest entry whose digests all match the file content, is listed in at least one valid signature file, and all such files are signed by the same set of certificate chains; every manifest entry exists in the APK.",
  "every ZIP content, manifest, set of signatures and iteration order","unbounded",["schemev1.go:verifyMainManifest","schemev1.go:verifyManifestEntry"])
p("C29","v1 protects AndroidManifest.xml",
  "If v1 verification succeeds, AndroidManifest.xml's content matches its manifest digest.",
  "every APK","adversarial",["schemev1.go:verifyMainManifest (lines 447-471)"])
p("C30","v1 verdict does not depend on map iteration order",
  "For every two map iteration orders, v1 verification of the same APK either succeeds for both or fails for both, and on success the sets of certificate chains agree.",
  "every pair of schedules of Go map iteration","random runtime order",["schemev1.go:verify","schemev1.go:verifyMainManifest","schemev1.go:certChainsMatch"])
p("C31","v1 signature file binds the manifest",
  "A signature counts as valid only if its signature file's digest of the whole manifest matches or every entry digest in it matches the corresponding manifest section (and the main-attributes digest, if present, matches).",
  "every manifest and signature file","unbounded",["schemev1.go:verify","schemev1.go:verifyManifestEntry"])
p("C32","Manifest sections partition the manifest",
  "A successfully parsed manifest's sections are pairwise distinct by name, their raw byte chunks are consecutive, and the main section followed by the chunks is a prefix of the file: no byte of a section escapes its digest.",
  "every manifest","unbounded",["manifest.go:parse"])
p("C33","Manifest encode/parse round trip",
  "Every manifest built from attributes with valid names and values without line breaks or NUL, with any line continuation splits, parses back to exactly those attributes (names lower-cased).",
  "every list of sections/attributes and every split","unbounded",["manifest.go:readHeader","manifest.go:parse"])
p("C34","Parsers never crash on hostile input",
  "Verification of any file terminates and returns an error rather than panicking.",
  "every file","crash inputs are needles",["manifest.go:readHeader line 141","signingblock/utils.go:verifySignature","signingblock/frosting.go","fullsailor/pkcs7/ber.go"])
p("C35","Frosting varint decoding",
  "Every value 0..2^31-1 encoded as a canonical 1..5 byte little-endian base-128 varint decodes to itself consuming exactly its bytes; decoding never returns a negative number.",
  "every value and byte stream","all 2^31 values / all streams",["signingblock/frosting.go:readInt32"])
p("C36","Frosting soundness",
  "If frosting is reported without error, an enabled metadata entry exists whose signature (same index) verifies with the embedded key over the exact bytes from the protobuf size up to the end of that entry, and the file hash in it equals SHA-256 of (bytes before the signing block, v2 id+block if present, central directory, patched EOCD).",
  "every frosting block and file","unbounded",["signingblock/frosting.go"])
p("C37","Source stamp soundness",
  "If a source stamp result carries no error and the stamp-cert file is present, the stamp certificate's SHA-256 equals the stamp-cert-sha256 entry, and the stamp's signatures for the verified scheme verify over the canonical encoding of the content digests.",
  "every stamp block and zip","unbounded",["signingblock/sourcestamp.go"])
p("C38","Source stamp verdict does not depend on map iteration order",
  "For the same input the stamp verdict is the same for every map iteration order.",
  "every pair of schedules","random runtime order",["signingblock/sourcestamp.go:filterSignaturesToVerify"])
p("C39","Stamp digest encoding is canonical and injective",
  "The byte string that the stamp signs is independent of map order and two different digest maps give different byte strings.",
  "every pair of digest maps and orders","unbounded",["signingblock/sourcestamp.go:getSignatureSchemeDigest"])
p("C40","BER to DER transcoding",
  "ber2der of any DER-encoded object tree returns it unchanged; for any BER input on which it succeeds the output parses back to the same object tree with minimal definite lengths; converting twice equals converting once.",
  "every object tree (any depth) and every input","unbounded nesting",["fullsailor/pkcs7/ber.go"])
p("C41","ASN.1 tag/length/base-128/integer codecs round trip",
  "Parsing what the marshaller wrote for any tag/length, OID, int64 or big integer returns the original value and exactly the consumed length.",
  "every value in range","infinite value space",["internal/asn1andr/asn1.go","internal/asn1andr/marshal.go"])
p("C42","PickBestApkCert",
  "For non-empty chains the pick is the first certificate of one of the given chains and none of the chains' leaf certificates has a higher signature-algorithm id; the input slice is only permuted.",
  "every list of chains","unbounded",["certinfo.go:PickBestApkCert"])
p("C43","ExtraBlocks never contains parsed schemes",
  "The documented promise that parsed block types (scheme v2, v3, ...) are never in ExtraBlocks.",
  "every APK and max SDK","all inputs",["signingblock/verificationresult.go:ExtraBlocks",SB+":findSignatureBlocks"])
p("C44","Certificate extraction agrees with verification",
  "If verification succeeds on the signing-block path then ExtractCerts at the same SDK range returns the same certificate chains.",
  "every APK","all inputs",["signingblock/signingblock.go:ExtractCertsReader"])
p("C45","Issuer matching by canonical name",
  "The canonical form used to match issuer and subject names distinguishes different names (up to case and space folding).",
  "every pair of names","infinite",["schemev1.go:pkixCanonicalSeq"])
p("C46","Supported-algorithm and API-level tables",
  "Exactly the ten documented signature algorithm ids are accepted, each mapped to its digest kind and minimum platform; scheme support thresholds are exactly 24/28/33 and sandbox/stamp 26/30.",
  "every int32","2^32 values",["signingblock/signer.go","apilevel/levels.go"])
p("C47","v3 soundness: success means every signer really signed these contents",
  "Like C11 for scheme 3 (without rotation): each signer's strongest supported signature verifies over its signed data with the key of its first certificate, its digest matches the file, and the min SDK used equals the signed one.",
  "every file, SDK range, oracle","attacker controls every byte",["signingblock/schemev3.go"])
p("C48","v3 completeness",
  "Every APK honestly signed with one v3 signer covering the requested range verifies without error, with exactly the signer's chain and lineage reported.",
  "every content/signer/lineage","unbounded",["signingblock/schemev3.go"])
p("C49","v1 certificate chain building terminates",
  "Chain building from the signer certificate terminates with at most #certificates+1 elements, each link's subject matching the previous issuer, for every (even cyclic) set of certificates.",
  "every certificate set including cycles","unbounded cycles",["schemev1.go:verifySignature (lines 787-818)"])
p("C50","v1 digest selection per platform",
  "For max SDK >= 18 the strongest digest present among SHA-512/384/256/1 is always among those checked; success of an entry check means every selected digest matched.",
  "every attribute map and SDK range","unbounded",["schemev1.go:getDigestsToVerify","schemev1.go:verifyManifestEntry"])
p("C51","Minimum platform of lineage algorithms",
  "Every supported signature algorithm has a minimum platform version at which APK signatures with it are understood (24, or 28 for verity digests), which determines the lineage's minimum SDK.",
  "every supported algorithm, every lineage","all inputs",["signingblock/signer.go:getMinSdkVersion","signingblock/schemev3lineage.go:145"])
p("C52","Verdict does not depend on the schedule",
  "Signing-block verification of the same bytes gives the same verdict, scheme and certificate chains for every map iteration order and every sort algorithm (including the fallback path).",
  "every file, every two schedules","map iteration order and unstable sort order are not controllable in tests",["signingblock/signingblock.go","signingblock/signingblock.go:verifyIntegrity","signingblock/schemev3.go:sort"])
p("C53","Source stamp lineage and time are signed",
  "A lineage or timestamp reported for an error-free source stamp comes from a stamp attribute covered by valid signatures of the stamp certificate; the lineage verifies link by link and ends in the stamp certificate; the timestamp is positive.",
  "every stamp block","unbounded attribute lists and lineages",["signingblock/sourcestamp.go:parseStampAttributes","signingblock/sourcestamp.go:parseStampCertLineage"])
p("C54","v1 completeness",
  "Every APK that is JAR-signed honestly by 1 to 10 signers (each signature file listing every file, correct digests, valid PKCS#7 signatures, no announced v2 signature unless a signing block verified) verifies without error, and the reported chains are headed by exactly the signers' certificates.",
  "every content, every set of signers, every map iteration order","unbounded files and signers",["schemev1.go:newSchemeV1","schemev1.go:verify","schemev1.go:verifyMainManifest"])
p("C55","Reported v1 chains belong to binding signatures",
  "If v1 verification succeeds, every reported certificate chain belongs to a signature whose signature file binds the APK's manifest.",
  "every APK","attacker controls every file",["schemev1.go:verify","schemev1.go:verifyMainManifest"])
p("C56","Minimum SDK from the manifest",
  "Verifying with min SDK -1 gives exactly the result of verifying with the manifest's minSdkVersion (first uses-sdk element; 1 if absent); an APK whose manifest cannot be parsed is accepted on JAR signatures alone or not at all.",
  "every manifest token stream, file and SDK range","unbounded XML inputs",["apkverifier.go:getManifestInfo","apkverifier.go:EncodeToken","apkverifier.go:getAttrIntValue"])
p("C57","Top-level completeness",
  "If the signing block verifies and the minimum SDK is at least 24 the top-level call accepts and reports exactly its scheme and chains; if there is no signing block, JAR signatures verify, the manifest permits v1 and the file is not a DEX, it accepts with scheme 1 and the JAR chains.",
  "every APK, manifest and SDK range","all combinations",["apkverifier.go:VerifyWithSdkVersionReader"])
p("C58","PickBestApkCert prefers currently valid certificates",
  "Of leaf certificates with the same signature-algorithm id, PickBestApkCert never returns one that is not valid now when another is valid now (the comment in the code: an expired cert is 'More' than a non-expired one).",
  "every list of chains and every clock value","unbounded lists, all validity periods",["certinfo.go:byPreference.Less"])
p("C59","NewCertInfo shows the certificate",
  "The Md5, Sha1 and Sha256 fields are the lower-case hexadecimal digests of the whole DER certificate, the dates, serial and algorithm are the certificate's, and Issuer/Subject list the present C, ST, L, O, OU and CN fields in this order.",
  "every certificate","all certificates",["certinfo.go:Fill","signingblock/utils.go:PkixNameToString"])
p("C60","BER transcoding is not amplifying",
  "The DER output of the PKCS#7 transcoder is at most linear in the size of its input, and inputs whose elements overrun their parent are rejected.",
  "every input","needs worst-case inputs of unbounded nesting",["fullsailor/pkcs7/ber.go:readObject"])
p("C61","Signed attributes: what the signature covers",
  "For every parsed PKCS#7 block the bytes a SignerInfo's signature is checked against are the DER SET of its signed attributes; computing them never fails; they determine every attribute the verifier reads, so two signature files share signed bytes only if they are equal, share the digest, or one is itself the attribute set.",
  "every block file and every signer in it","unbounded inputs; injectivity is over all pairs of blocks",["fullsailor/pkcs7/pkcs7.go:GetSignerInfos","fullsailor/pkcs7/pkcs7.go:MarshalAuthenticatedAttributes","schemev1.go:verifySignature"])
p("C62","Malformed SignedData is rejected",
  "pkcs7.Parse returns an error for a block whose SignedData cannot be decoded completely.",
  "every block file","all malformed inputs",["fullsailor/pkcs7/pkcs7.go:parseSignedData"])
p("C63","No unsigned bytes inside the signed attributes",
  "No byte of the signed-attributes element of a v1 block file can be changed without changing the bytes the signature is checked against.",
  "every block file and every change","all pairs of files",["fullsailor/pkcs7/pkcs7.go:MarshalAuthenticatedAttributes","internal/asn1andr/asn1.go:parseField"])
p("C64","Honest PKCS#7 objects are parsed",
  "A SignedData as written by an honest signer, in DER or any BER encoding of the same object, is parsed, and issuer name, serial number, algorithms, signature, attributes and certificates are exactly those written.",
  "every object and every encoding of it","unbounded objects, all length encodings",["fullsailor/pkcs7/pkcs7.go:Parse","fullsailor/pkcs7/ber.go:ber2der"])
p("C65","ASN.1 values round trip",
  "Unmarshal of Marshal of a value gives the value and the remaining input, for every Go type made of integers, booleans, strings, OIDs, bit and octet strings, raw elements, slices and structs.",
  "every type description and value","unbounded nesting of types and values",["internal/asn1andr/asn1.go:parseField","internal/asn1andr/marshal.go:makeField"])
p("C66","v1 tamper evidence",
  "If an APK made by the JAR signing procedure is changed and the result is accepted under v1 with one of the original signature files still binding it, then every protected file has the original contents, or an explicit hash collision between two of the hashed files or manifest sections exists.",
  "every original APK and every changed one","all pairs of APKs; the adversary controls every byte",["schemev1.go:verify","schemev1.go:verifyMainManifest","schemev1.go:verifyManifestEntry","manifest.go:parseManifest"])
p("C67","ExtractCerts: meaning and agreement with Verify",
  "If ExtractCerts returns a nil error the chains are those of the signers of the newest signature block if there is one and of all JAR signatures otherwise, each signature verifying under the head of its chain; whenever Verify accepts an APK, ExtractCerts succeeds and includes the reported chains.",
  "every APK, map iteration order and SDK range","all APKs; relates two API calls",["apkverifier.go:ExtractCerts","signingblock/signingblock.go:ExtractCertsReader","schemev1.go:extractCertsSchemeV1"])
p("C68","No fallback to JAR signatures beside a signature block",
  "If the APK has a v2, v3 or v3.1 signature block that the newest device in the range knows, no error of the signing block verification is ever replaced by a JAR signature check: it is returned, and acceptance implies the block verified and a scheme of 2 or more.",
  "every APK, manifest and SDK range","attacker controls every byte",["apkverifier.go:VerifyWithSdkVersionReader","signingblock/signingblock.go:VerifySigningBlockReaderWithZip"])
p("C69","Certificates carry their bytes",
  "Every certificate in a Result is exactly the DER element it was read from (Raw), with nothing before, after or left over; the certificates of a PKCS#7 block are exactly the elements standing in it one after the other.",
  "every byte string","all byte strings",["internal/x509andr/x509.go:ParseCertificate","internal/x509andr/x509.go:ParseCertificates"])
p("C70","The signature was checked with the certificate's key",
  "The public key parsed from the recorded public key information of a certificate is the certificate's public key; hence each signer of an accepted v2, v3 or v3.1 block signed with the key of the certificate reported for it.",
  "every certificate and every APK","all encodings of keys",["internal/x509andr/x509.go:parseCertificate","internal/x509andr/x509.go:ParsePKIXPublicKey","signingblock/schemev2.go:verifySigner","signingblock/schemev3.go:verifySigner"])
p("C71","Negative RSA moduli are read as unsigned",
  "An RSA modulus encoded without its leading zero octet (a negative INTEGER) is read as the unsigned value of its octets, as Android's BoringSSL does.",
  "every modulus and exponent","all byte strings",["internal/x509andr/x509.go:parsePublicKey"])
p("C72","Unhandled critical extensions",
  "A certificate is recorded as having an unhandled critical extension exactly if it has a critical extension that is not one of the ten recognised ones, or critical alternative names of which none is an e-mail address, DNS name or IP address.",
  "every certificate in DER","unbounded extension lists",["internal/x509andr/x509.go:parseCertificate","internal/x509andr/x509.go:parseSANExtension"])
p("C73","Certificates are read as written",
  "A certificate in DER with any number of names, attributes and extensions with well-formed values is accepted, and serial number, names, validity, public key and its encoding in the Result are those written. Well-formed are, of the extensions the library decodes, key identifiers, key usages, alternative names, basic constraints, name constraints (only DNS names if critical), CRL distribution points with full names, policies and authority information; a certificate with a distribution point named relative to the CRL issuer is rejected.",
  "every certificate in DER","unbounded documents",["internal/x509andr/x509.go:ParseCertificate","internal/asn1andr/asn1.go:parseField"])
p("C74","Signature algorithm of a certificate",
  "The SignatureAlgorithm of a certificate is the one its algorithm identifier names; RSASSA-PSS is recognised only with equal hashes, NULL parameters, MGF1, matching salt length and trailer 1; anything else is UnknownSignatureAlgorithm.",
  "every certificate in DER","all identifiers and parameters",["internal/x509andr/x509.go:getSignatureAlgorithmFromAI"])
p("C75","Issuer names compared by decoded fields",
  "Two encoded names match (v1 signer against certificates) exactly if they say the same.",
  "every pair of names","all pairs",["schemev1.go:verifySignature","schemev1.go:pkixCanonical"])
p("C76","DSA and ECDSA signature values of JAR signatures",
  "A DSA signature (and ECDSA with SHA-224) is accepted only if it is the DER encoding of two positive integers with nothing after it, and these two integers are the ones checked against the key.",
  "every byte string given as signature","all byte strings",["schemev1.go:checkSignature","internal/asn1andr/asn1.go:Unmarshal"])
p("C77","Verify's verdict does not depend on map iteration order",
  "If Verify accepts an APK in one run, every other run on the same APK that returns accepts it too, with the same SchemeId and the same set of certificate chains - the very same chains if a signing block decided - whatever order Go's map iterations take in the two runs.",
  "every APK, SDK range and pair of map iteration orders","Go randomises map iteration: a test sees a few orders",["apkverifier.go:verifyWithSdkVersion","signingblock/signingblock.go:VerifySigningBlock","schemev1.go"])
p("C78","An honestly JAR-signed APK verifies, from its bytes",
  "An APK whose manifest, signature files, PKCS#7 signature blocks and certificates are written as the formats prescribe, with digests that match and signatures made with the keys of the certificates, is accepted by the JAR scheme, and the chains returned start with exactly the signers' certificates, byte for byte.",
  "every number of files, signers, certificates, attributes and extensions","unbounded documents",["schemev1.go","fullsailor/pkcs7/pkcs7.go:Parse","internal/asn1andr/asn1.go","internal/x509andr/x509.go:ParseCertificates"])
p("C79","Which public keys are accepted",
  "A public key is accepted exactly if it is a SubjectPublicKeyInfo with an RSA key with positive exponent, a DSA key with positive parameters and public value, or an uncompressed point on P-224, P-256, P-384 or P-521 that is on the curve, with nothing after it; and it is read as the key written there.",
  "every byte string","all byte strings",["internal/x509andr/x509.go:ParsePKIXPublicKey","internal/x509andr/x509.go:parsePublicKey"])
p("C80","Accepted certificates have the X.509 layout",
  "A certificate is accepted only if its fields stand where RFC 5280 puts them, and serial number, validity and public key in the Result are the ones standing there; nothing follows the certificate.",
  "every byte string","all byte strings",["internal/x509andr/x509.go:ParseCertificate","internal/x509andr/x509.go:parseCertificate","internal/asn1andr/asn1.go:parseField"])
p("C81","An honestly v2- or v3-signed APK verifies, from its bytes",
  "An APK whose signing block is written as the format prescribes, with X.509 certificates in DER, digests of the contents and signatures made with the keys of the certificates, is accepted, and the chains returned consist of exactly the certificates written, byte for byte.",
  "every content, number of signers, certificates and attributes","unbounded documents",["signingblock/schemev2.go","signingblock/schemev3.go","signingblock/signingblock.go","internal/x509andr/x509.go:ParseCertificate","internal/x509andr/x509.go:ParsePKIXPublicKey"])
p("C82","Times are read by the calendar",
  "A UTCTime is accepted exactly if it is YYMMDDhhmm[ss] with a zone (Z or a non-zero signed offset of at most 24 hours), denotes an existing date of the Gregorian calendar between 1950 and 2049 and a time of day, and is read as that instant; a GeneralizedTime likewise with a four-digit year and seconds; the validity of every accepted certificate is the one written in its bytes.",
  "every byte string and every certificate","all byte strings; all dates",["internal/asn1andr/asn1.go:parseUTCTime","internal/asn1andr/asn1.go:parseGeneralizedTime"])
p("C83","Text is read as Unicode",
  "A string in a certificate is read byte by byte for PrintableString, T61String, NumericString (digits and spaces only) and IA5String (ASCII only); a UTF8String is accepted exactly if it is the UTF-8 encoding of Unicode scalar values; a BMPString is read as UTF-16 with unpaired surrogates replaced and one final zero dropped.",
  "every byte string","all byte strings",["internal/asn1andr/asn1.go:parseField","internal/asn1andr/asn1.go:parseUTF8String","internal/asn1andr/asn1.go:parseBMPString"])
p("C84","An honest source stamp verifies",
  "If the APK carries a source stamp block written as the format prescribes - certificate, per signature scheme the signatures over the content digests that the verified signers of the newest known scheme recorded (or over the manifest digest when none of its schemes is known to the platform), all of them valid, signed attributes with positive time and valid lineages ending in the stamp certificate - and the ZIP entry stamp-cert-sha256 holds the SHA-256 of the certificate, then VerifySigningBlockReaderWithZip reports the stamp without errors, with that certificate, time and lineage; and it does not panic.",
  "every APK, SDK range, number of algorithms, attributes and lineage nodes, every map iteration order","unbounded documents and every map iteration order",["signingblock/sourcestamp.go:VerifySourceV2Stamp","signingblock/sourcestamp.go:filterSignaturesToVerify","signingblock/sourcestamp.go:parseStampAttributes","signingblock/sourcestamp.go:parseStampCertLineage"])
p("C85","PKCS7.Verify accepts exactly signed content",
  "Verify on a parsed PKCS#7 object returns nil exactly if the object has a signer and every signer names a certificate of the object (serial number and issuer bytes), whose key has signed with the algorithm the signer names the content itself or, if the signer has signed attributes, the DER SET of these attributes, whose messageDigest is the hash of the content; GetOnlySigner is then the certificate whose key made the signature; and one signature stands for one content, up to collisions of the hash.",
  "every byte string given to Parse, every content put into the object","all byte strings, any number of signers, certificates and attributes",["fullsailor/pkcs7/pkcs7.go:Verify","fullsailor/pkcs7/pkcs7.go:verifySignature","fullsailor/pkcs7/pkcs7.go:GetOnlySigner","fullsailor/pkcs7/pkcs7.go:getSignatureAlgorithmFromAI","fullsailor/pkcs7/pkcs7.go:marshalAttributes"])
p("C86","Parse reads a SignedData document as written",
  "A SignedData document in DER, with or without content, certificates and certificate revocation lists, is accepted whatever follows it, and content, content type, certificates, every field of every revocation list (version, algorithm, issuer, dates, revoked serial numbers, extensions, signed part and signature) and every field of every signer of the result are those of the document.",
  "every document: any content, number of certificates, signers and attributes","unbounded documents",["fullsailor/pkcs7/pkcs7.go:Parse","fullsailor/pkcs7/pkcs7.go:parseSignedData"])
p("C87","What is signed can be read and verifies",
  "For any data and any sequence of AddSigner, AddCertificate and Detach calls with certificates that the parser reads and keys that belong to them, no two different certificates with the same issuer and serial number and no second messageDigest among the extra attributes, Finish returns bytes which Parse reads as that data (nothing if detached), the certificates in the order of the calls and the signers with their signing time and extra attributes, and Verify of it (with the data put back) returns nil; GetOnlySigner of an object with one signer is that signer's certificate.",
  "every content and every sequence of calls","unbounded sequences of calls",["fullsailor/pkcs7/pkcs7.go:NewSignedData","fullsailor/pkcs7/pkcs7.go:AddSigner","fullsailor/pkcs7/pkcs7.go:AddCertificate","fullsailor/pkcs7/pkcs7.go:Detach","fullsailor/pkcs7/pkcs7.go:Finish","fullsailor/pkcs7/pkcs7.go:Verify"])
p("C88","DegenerateCertificate carries exactly the certificates",
  "DegenerateCertificate of DER certificates one after the other gives an object which Parse reads as exactly these certificates, with no content and no signer, and which Verify does not accept.",
  "every list of certificates","unbounded lists",["fullsailor/pkcs7/pkcs7.go:DegenerateCertificate","fullsailor/pkcs7/pkcs7.go:Parse"])
p("C89","What is encrypted can be read by every recipient",
  "For any content, any list of recipients with RSA keys (no two different certificates with the same issuer and serial number) and both content encryption algorithms, Encrypt returns bytes which Parse reads as enveloped data, and Decrypt of it with the certificate and private key of any of the recipients returns the content.",
  "every content, key, nonce and list of recipients","unbounded contents and lists",["fullsailor/pkcs7/pkcs7.go:Encrypt","fullsailor/pkcs7/pkcs7.go:encryptDESCBC","fullsailor/pkcs7/pkcs7.go:encryptAES128GCM","fullsailor/pkcs7/pkcs7.go:pad","fullsailor/pkcs7/pkcs7.go:Parse","fullsailor/pkcs7/pkcs7.go:Decrypt"])
p("C90","Decrypt returns only what the key opens",
  "Decrypt of a parsed enveloped-data document returns a text exactly if the certificate is that of a recipient, the private key opens the encrypted key of the first such recipient, the content encryption algorithm is one of the five known ones, key and parameters have the lengths it needs, and the content (one octet string or the concatenation of several) decrypts to that text: in CBC mode followed by n octets of value n with n from 1 to the block length, in GCM mode with a tag that fits.",
  "every document, certificate, key and text","unbounded documents",["fullsailor/pkcs7/pkcs7.go:Decrypt","fullsailor/pkcs7/pkcs7.go:decrypt","fullsailor/pkcs7/pkcs7.go:unpad","fullsailor/pkcs7/pkcs7.go:selectRecipientForCertificate","fullsailor/pkcs7/pkcs7.go:parseEnvelopedData"])
p("C91","Decrypt and Encrypt do not panic",
  "Decrypt of a document that Parse accepts, and Encrypt for any recipients, return a value or an error and do not panic, whatever the encrypted content and the types of the keys.",
  "every document, certificate, key, recipient","unbounded documents",["fullsailor/pkcs7/pkcs7.go:Decrypt","fullsailor/pkcs7/pkcs7.go:decrypt","fullsailor/pkcs7/pkcs7.go:unpad","fullsailor/pkcs7/pkcs7.go:Encrypt","fullsailor/pkcs7/pkcs7.go:encryptKey"])
p("C92","Raising the minimum SDK level keeps an accepted signing block accepted",
  "If an APK is accepted for the SDK levels min..max by its signing block, and not merely through the fallback from a broken v3 block to v2, then it is accepted for every narrower range min'..max with min <= min' (for the whole verification: min' at least 24, where no JAR signature is needed any more), under the same scheme and with the same certificate chains. Without the exception for the fallback this is false.",
  "every file, zip, environment, schedule, pair of minimum levels","relates two runs over unbounded files and all levels",["apkverifier.go:VerifyWithSdkVersionReader","signingblock/signingblock.go:VerifySigningBlockReaderWithZip","signingblock/schemev3.go:finalizeResult","signingblock/schemev31.go:finalizeResult"])
p("C93","Below API 28 the minimum SDK level matters only at known steps",
  "For two minimum levels below 28 that are on the same side of each of the levels 9, 11, 18, 23, 24, verification of any APK has the same outcome (result, error or panic); for the signing block alone the levels are 11 and 23. So a caller's verdict does not change between these platform releases.",
  "every file, zip, environment, schedule, maximum level, pair of minimum levels","relates two runs over unbounded files and all levels",["apkverifier.go:VerifyWithSdkVersionReader","schemev1.go:getDigestsToVerify","schemev1.go:verifySignature","signingblock/sourcestamp.go:filterSignaturesToVerify","signingblock/schemev3.go:finalizeResult"])
p("C94","Printed ids, algorithms and capabilities identify what they print",
  "BlockId.String and SignatureAlgorithm.String print different values differently. LineageCertCaps.String lists the set capability bits in order, by name or as a hexadecimal mask, and two different flag words are printed differently.",
  "every uint32 / int32 value","2^32 values and pairs of them",["signingblock/signingblock.go:BlockId.String","signingblock/signer.go:SignatureAlgorithm.String","signingblock/schemev3lineage.go:LineageCertCaps.String"])
p("C95","The SDK level reported with a signing lineage",
  "SigningLineage.MinSdkVersion is 28, the first level that knows key rotation, whatever the algorithms of the lineage's nodes (every supported algorithm is known at 28).",
  "every file, SDK range, map order and outcome of the call","lineages of any length with any algorithms, consolidated from any number of signers",["signingblock/schemev3lineage.go:lineageCalculateMinSdkVersion","signingblock/schemev3.go:consolidateLineages","signingblock/signer.go:getMinSdkVersion"])
p("C96","An I/O error never makes a signing block verify",
  "Whichever seeks and reads of the APK fail while a signing block is verified, a nil error means that the contents of the file are signed under the reported scheme by the reported signers, that the call returns a nil error with the same scheme when nothing fails, and that Google Play metadata reported as verified are verified; and the call does not crash because of an I/O error.",
  "every file, set of failing seeks and reads (fault point), environment, schedule, SDK range","all fault points of unbounded runs",["signingblock/signingblock.go:VerifySigningBlockReaderWithZip","signingblock/signingblock.go:findEocd","signingblock/signingblock.go:isZip64","signingblock/signingblock.go:findApkSigningBlock","signingblock/signingblock.go:verifyIntegrity","signingblock/datasource.go:dataSourceApk","signingblock/frosting.go:hashFileSection","signingblock/verity.go"])
p("C97","An I/O error never makes an APK verify",
  "If VerifyWithSdkVersionReader returns a nil error although some reads of the APK failed, then it returns a nil error when none fails.",
  "every file, zip, set of failing seeks and reads, environment, schedule, SDK range","all fault points of unbounded runs",["apkverifier.go:VerifyWithSdkVersionReader","signingblock/signingblock.go:VerifySigningBlockReaderWithZip","signingblock/signingblock.go:IsSigningBlockNotFoundError"])
p("C98","An I/O error never changes the extracted certificates",
  "If ExtractCertsReader returns certificates and a nil error although some reads of the APK failed, then these are the certificates it returns when none fails.",
  "every file, zip, set of failing seeks and reads, environment, schedule","all fault points of unbounded runs",["apkverifier.go:ExtractCertsReader","signingblock/signingblock.go:ExtractCertsReader"])
p("C99","Marshal writes the DER encoding of the value",
  "What asn1andr.Marshal writes for a value is its DER encoding under the tags of its struct fields (universal, implicit and explicit tags, optional and default fields, string types, UTCTime/GeneralizedTime, sorted SET OF), and it returns an error exactly if the value has none; a written time is read back as the same instant.",
  "every type built from the supported Go types, struct tags, value, time and zone","unbounded nesting and sizes, all values",["internal/asn1andr/marshal.go:makeField","internal/asn1andr/marshal.go:makeBody","internal/asn1andr/marshal.go:appendTimeCommon","internal/asn1andr/common.go:getUniversalType"])
p("C100","Lowering the maximum SDK level keeps an accepted signing block accepted",
  "If an APK is accepted for the SDK levels min..max by its signing block, then it is accepted for every narrower range min..max' whose last level knows the scheme, under the same scheme and with the same chains; an APK accepted under v3.1 is accepted under v3.0 for ranges that end below API 33. Exceptions, where it is false: acceptance through the fallback from v3 to v2, and max' from 33 up to the level before the first level of the v3.1 signers, where every call ends with an error although the v3.0 signers cover the range.",
  "every file, zip, environment, schedule, pair of maximum levels","relates two runs over unbounded files and all levels",["apkverifier.go:VerifyWithSdkVersionReader","signingblock/signingblock.go:VerifySigningBlockReaderWithZip","signingblock/schemev3.go:finalizeResult","signingblock/schemev31.go:finalizeResult"])
p("C101","Without a v3 block the maximum SDK level matters only at known steps",
  "For two maximum levels that are on the same side of each of the levels 1, 11, 18, 23, 24, 26, 28, 33, 2147483647 and of the APK's target level if that is 30 or more, verification of an APK without a v3 or v3.1 block has the same outcome (result, error or panic); below API 28 this holds for every APK.",
  "every file, zip, environment, schedule, minimum level, pair of maximum levels","relates two runs over unbounded files and all levels",["apkverifier.go:VerifyWithSdkVersionReader","schemev1.go:getDigestsToVerify","schemev1.go:verifySignature","signingblock/sourcestamp.go:filterSignaturesToVerify","signingblock/schemev2.go:verifySigner","signingblock/signingblock.go:findSignatureBlocks"])
p("C102", "Genuine frosting is recognised",
  "If the last frosting entry of a well-formed APK Signing Block has the documented format - a non-empty protobuf, metadata whose first enabled entry (after fewer than 32767 disabled ones) names Google Play's key and the SHA-256 of the protected parts of the file, and at the same index a valid ECDSA signature - then the verification result reports frosting without error, with that protobuf and the hash of that key. This does not depend on the SDK levels or on whether the APK signatures verify.",
  "all files, environments, SDK ranges and frosting blocks, with any number and contents of disabled entries and any (also over-long) varint encodings",
  "frosting blocks are nested variable-length structures with unbounded many entries; no set of samples covers all encodings",
  ["signingblock/frosting.go:frostingInfo.parse", "signingblock/frosting.go:frostingInfo.parseFrostingBlock", "signingblock/frosting.go:readArrayItem", "signingblock/frosting.go:verifyApk", "signingblock/signingblock.go:VerifySigningBlockReaderWithZip"])

p("C103", "Chains that Certificate.Verify returns are valid",
  "Every chain x509andr's Certificate.Verify returns leads from the certificate through intermediates of the given pool to a root of the given pool (or the certificate is itself one of the roots): each certificate is signed by the next, whose subject is its issuer; every signer is a CA where required, may sign certificates, is within its validity period, permits the DNS name asked for and has no more certificates below it than it allows; no certificate occurs twice; the certificate is valid for the host if one is given and has no critical extension that was not understood; and one of the requested extended key usages is allowed by the whole chain. There is at least one chain exactly if there is no error, and the search ends for every pool.",
  "every certificate, pool of roots, pool of intermediates (any size, any cyclic issuing relations), name, time and list of usages",
  "the search recurses over arbitrary graphs of certificates with a cache shared between branches",
  ["internal/x509andr/verify.go:Verify", "internal/x509andr/verify.go:buildChains", "internal/x509andr/verify.go:isValid", "internal/x509andr/verify.go:checkChainForKeyUsage", "internal/x509andr/cert_pool.go:findVerifiedParents"])
p("C104", "Certificate.Verify finds a chain if there is one",
  "If there is a valid chain from the certificate to a root (in the sense of C103, with key identifiers that agree with the signatures), Verify returns without error.",
  "every certificate, pools, name, time and usages for which a valid chain exists",
  "the chains found below an intermediate are cached and reused for other branches, so the outcome depends on the order of the whole search",
  ["internal/x509andr/verify.go:Verify", "internal/x509andr/verify.go:buildChains"])
p("C105", "VerifyHostname accepts exactly the names of the certificate",
  "VerifyHostname(h) returns nil exactly if h (without brackets) is an IP address equal to one of the certificate's, or is no IP address and one of the certificate's DNS names - the common name if there is no subjectAltName extension - equals h label by label, ignoring ASCII case and one final dot, where a first label of just a star stands for exactly one arbitrary label.",
  "every certificate and every host string", "infinitely many names and patterns; the star must never cover the bare domain or several labels",
  ["internal/x509andr/verify.go:VerifyHostname", "internal/x509andr/verify.go:matchHostnames", "internal/x509andr/verify.go:toLowerCaseASCII"])
p("C106", "Name constraints cover exactly the domain and its subdomains",
  "A dNSName constraint covers the name asked for exactly if it is empty, equals the name, or is a suffix of it at a label boundary: without leading dot the domain and names below it, with leading dot only names below it.",
  "every pair of name and constraint", "infinitely many strings; off-by-one at the boundary lets evil-example.com pass for example.com",
  ["internal/x509andr/verify.go:matchNameConstraint"])
p("C107", "Certificate signature checks accept exactly valid signatures",
  "CheckSignature accepts exactly signatures of the message that verify under the key with the hash named by the algorithm (never MD2 or MD5; (r,s) positive and without trailing bytes; PSS only for PSS algorithms) and an algorithm of the key's kind; CheckSignatureFrom moreover requires that the parent is a CA if it is of version 3 or has basic constraints, that its key usage, if any, includes certificate signing, and that its key algorithm is known.",
  "every algorithm id, key, message and signature", "all byte strings; cryptography is uninterpreted",
  ["internal/x509andr/x509.go:checkSignature", "internal/x509andr/x509.go:CheckSignatureFrom"])
p("C108", "Certificate pools hold what was added and find all issuers",
  "After any sequence of AddCert calls a pool contains exactly the added certificates, each once, and the issuers tried for a certificate are all certificates of the pool with the matching subject key identifier, or if there are none, all those whose subject is the issuer.",
  "every sequence of additions and every certificate looked up", "histories of unbounded length; two indices must stay consistent with the list",
  ["internal/x509andr/cert_pool.go:AddCert", "internal/x509andr/cert_pool.go:contains", "internal/x509andr/cert_pool.go:findVerifiedParents"])

p("C109", "Unmarshal reads exactly the values of the type",
  "asn1andr.Unmarshal into a variable of a Go type succeeds, with a value and remaining bytes, exactly when the bytes start with an encoding of that value: the identifier octets fit the type and the field parameters (universal, implicit or explicit tag, set, string and time kinds), the contents octets are those of the value, lists are read to the end of their contents, structs field by field, absent optional fields get their default or zero value, RawValue and RawContent keep the bytes as they stand; in all other cases it returns an error, and no bytes can be read as two values.",
  "every Go type that the package can describe (structs, lists, pointers to big.Int, interface{}, RawValue, times, strings, nested without bound), all field parameters and all byte strings",
  "the decoder is a reflection-driven recursion with a separate counting pass for lists and many special cases of tags; tests look at a handful of types and inputs",
  ["internal/asn1andr/asn1.go: Unmarshal, UnmarshalWithParams, parseField, parseSequenceOf, parseTagAndLength, setDefaultValue", "internal/asn1andr/common.go: getUniversalType, fieldParameters"])
p("C110", "Optional and explicitly tagged fields",
  "An optional field that is not there is skipped and gets its default, whatever element stands in its place, and a field with an explicit tag is read from the element inside the tag, which it fills. (False of the code in two ways: before a final element with empty contents, such as a NULL, an absent optional field with an explicit tag is an error instead of being skipped; and the length of the explicit tag is not compared with that of the element in it.)",
  "all types and field parameters, all byte strings",
  "the two failures need an empty element at the very end, or lengths that disagree; ordinary test data has neither",
  ["internal/asn1andr/asn1.go: parseField, setDefaultValue"])

p("C111", "Reading a signed attribute",
  "PKCS7.UnmarshalSignedAttribute returns a value exactly when the object holds signed data with at least one signer, the first signer has a signed attribute of the given type, and the octets of the value set of the first such attribute start with an encoding of a value of the Go type given; the value returned is that one.",
  "every PKCS#7 object (any number of signers and attributes), every attribute type, every Go type",
  "any number of attributes in any order, with values of any type; tests read one attribute of one file",
  ["fullsailor/pkcs7/pkcs7.go: UnmarshalSignedAttribute, unmarshalAttribute"])

p("C112", "What genuine signers write is accepted",
  "An APK with JAR signatures only, with an APK Signature Scheme v2 block, with both, or with a v3 block and a rotation history, written by a signer that follows the formats (certificates, PKCS#7 files, manifests, digests and signatures as the specifications say), is accepted by Verify and VerifyWithSdkVersion for every range of API levels the signatures are meant for, with the scheme number of the strongest signature and with exactly the certificates the signers wrote; for v3 the lineage reported is the one written.",
  "every APK, every number of entries and signers, all certificates and key sizes, all API level arguments including 'from the manifest', every schedule of the digest workers",
  "completeness: no finite set of signed APKs shows that every correctly signed APK is accepted",
  ["apkverifier.go: Verify, VerifyReader, VerifyWithSdkVersion, VerifyWithSdkVersionReader, getManifestInfo", "signingblock/signingblock.go: VerifySigningBlockReaderWithZip", "schemev1.go: verifySchemeV1", "internal/x509andr", "fullsailor/pkcs7"])

p("C113", "An accepted APK is one that the reported signer signed",
  "If Verify accepts an APK and reports a certificate, and the APK shows no signature by that certificate's key other than over signed data its owner made, then the protected contents of the APK are those of one of the versions its owner signed, or two different messages with the same hash can be pointed out. (Proved for schemes v2 and v3; for v2 unless the certificates come from a failed v3 block. False for v3.1: a genuine v3.1 block moved unchanged into another APK, beside a v3.0 block by anyone, is accepted and its signer reported.)",
  "every APK, every number of signers and of versions signed by the owner of a key, all API level arguments and schedules",
  "quantifies over everything an attacker can put into an APK file; tests try a few manipulations",
  ["apkverifier.go: Verify, VerifyReader, VerifyWithSdkVersion", "signingblock/schemev2.go", "signingblock/schemev3.go", "signingblock/schemev31.go", "signingblock/signingblock.go: VerifySigningBlockReaderWithZip"])

p("C114", "Struct tags mean what they say",
  "The parameters of a field that Marshal and Unmarshal use are those its struct tag gives: each option that is a known word switches its parameter on wherever it stands, the last proper number after 'default:' and 'tag:' counts, explicit, application and private without a number mean tag 0, the last string and time kind counts, and anything else is ignored; and the structures of PKCS#7, X.509 and revocation lists are read with the tags in the source.",
  "every struct tag string, with any number of options in any order, known or unknown, with any numbers",
  "tags can combine any number of options in any order; tests list a dozen",
  ["internal/asn1andr/common.go: parseFieldParameters, fieldParameters", "fullsailor/pkcs7/pkcs7.go: struct tags", "internal/x509andr/x509.go: struct tags"])

p('C115','Printed certificates and lineage nodes identify what they print',
  "CertInfo.String of an APK's certificate consists of the SHA-1 of the whole certificate in hexadecimal, the two ends of its validity as RFC 3339 texts that denote exactly those instants (in the zone the certificate gives), and its subject and issuer; an RFC 3339 text denotes one instant only; two certificates have the same text only if they have the same bytes or SHA-1 collides on them. V3LineageSigningCertificateNode.Dump writes the same text for two nodes only if Equal holds of them, or SHA-1 collides on their certificates or signatures; Equal of nodes and of node lists holds exactly if certificates, algorithms, signatures and flags agree place by place.",
  'every certificate, name, validity in the years 0 to 9999, zone offset of whole minutes, lineage node and list of nodes',
  'The calendar computation and the claim that no two different values share a text range over unbounded dates and byte strings.',
  ['certinfo.go: CertInfo.String, CertInfo.Fill', 'signingblock/schemev3lineage.go: V3LineageSigningCertificateNode.Dump, Equal; V3LineageSigningCertificateNodeList.Equal'])

p("C116","What Marshal writes, Unmarshal reads back",
  "If Marshal encodes a Go value, Unmarshal with the same type and the same field parameters gives the same value and leaves exactly the bytes that followed the encoding, whatever they are; so two values have the same encoding only if they are the same value, and no encoding is the start of another. (Except: what is left out of the encoding may be read as a following field of the same tag; false for explicit private tags, for ENUMERATED values beyond 32 bits and for a false non-optional Flag.)",
  "every Go type (structures, lists, strings, numbers, tags, defaults, optional and omitted fields, nested without limit), every value, all bytes that follow",
  "ranges over all types and values; tests list some values of some types",
  ["internal/asn1andr/marshal.go: Marshal, makeField, makeBody", "internal/asn1andr/asn1.go: Unmarshal, UnmarshalWithParams, parseField"])

p("C117","The extensions written into a certificate are the ones read from it",
  "The extensions CreateCertificate builds from a template (key usages, extended key usages, basic constraints, key identifiers, DNS names, e-mail and IP addresses, OCSP and issuer URLs, policies, name constraints, CRL URLs) are accepted by ParseCertificate, none of them is an unhandled critical extension, and every field of the parsed certificate is that of the template; except that an IPv4 address comes back in four octets, that IsCA and MaxPathLen are lost without BasicConstraintsValid, and that MaxPathLen 0 without MaxPathLenZero comes back as -1. Bit i of KeyUsage is bit i (from the most significant one of the first octet) of the bit string in the certificate.",
  "every template without ExtraExtensions (any lists of names, addresses, identifiers of any length; key usages within the nine of RFC 5280; numbers that fit) whose extensions are below 2 GiB; every bit string for the key usage",
  "ranges over all templates and all combinations of extensions; tests build a few certificates",
  ["internal/x509andr/x509.go: CreateCertificate, buildExtensions, marshalSANs, reverseBitsInAByte, asn1BitLength, oidFromExtKeyUsage", "internal/x509andr/x509.go: parseCertificate, parseSANExtension, getDNSNames, extKeyUsageFromOID"])

p("C118", "Keys, written and read back",
  "A public key written as SubjectPublicKeyInfo is read back as the same key; an RSA or EC private key written as PKCS#1 or SEC 1 structure is read back with the same numbers (modulus, exponents and primes; curve and scalar), also inside PKCS#8, where the algorithm parameters give the curve; the scalar is written with exactly as many bytes as the order of the curve. What the readers accept satisfies the checks they promise: version number 0 (or 1), positive modulus and primes, a known curve, a scalar below its order; a scalar of zero and bytes after a SEC 1 or PKCS#8 structure are accepted too.",
  "every key (any modulus, exponents, any number of primes; every curve, scalar below its order and pair of coordinates) and every byte string given to the readers",
  "the numbers have unbounded sizes, and padding bytes appear only for few of them",
  ["internal/x509andr/pkcs1.go: ParsePKCS1PrivateKey, MarshalPKCS1PrivateKey", "internal/x509andr/sec1.go: ParseECPrivateKey, parseECPrivateKey, MarshalECPrivateKey", "internal/x509andr/pkcs8.go: ParsePKCS8PrivateKey", "internal/x509andr/x509.go: MarshalPKIXPublicKey, marshalPublicKey, oidFromNamedCurve, namedCurveFromOID"])

p("C119", "Password-encrypted PEM blocks",
  "DecryptPEMBlock gives back the data EncryptPEMBlock encrypted under the same password, for data of every length and each of the five ciphers. The encrypted block has the type asked for, the headers of RFC 1423 (cipher name and initialization vector, taken from the random source) and the data padded to the next whole block. DecryptPEMBlock accepts exactly the blocks whose DEK-Info header names a known cipher and an initialization vector of its block size, whose text is whole blocks, and whose plain text under the key of the password ends in 1 to a block's size bytes of that value; it returns the text before the padding, and reports an incorrect password exactly if only the padding is wrong.",
  "every data, password and random source, every cipher number, and every PEM block with any headers and bytes",
  "padding and chaining depend on the length of the data and the key derivation on its size; a test sees a few lengths",
  ["internal/x509andr/pem_decrypt.go: IsEncryptedPEMBlock, DecryptPEMBlock, EncryptPEMBlock, rfc1423Algo.deriveKey, cipherByName, cipherByKey"])


if __name__ == "__main__":
    out = os.path.join(os.path.dirname(__file__), "..", "properties.jsonl")
    with open(out, "w") as f:
        for x in P: f.write(json.dumps(x) + "\n")
    print(len(P))
