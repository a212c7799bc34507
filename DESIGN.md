# Formal model of avast/apkverifier in Rocq (Coq 8.16.1)

Everything lives in `rocq/theories/` (logical root `Verif`).

## Layout

| directory | content |
|-----------|---------|
| `Model/`  | executable Gallina transcription of the Go code, function by function, each with a `/repo` citation; no proofs |
| `Spec/`   | small declarative specifications (encoders, grammars, digest definitions) that never mention model functions |
| `Proofs/` | lemmas and proofs |
| `Props/`  | the property theorems `Cnn_...`, each closed by `exact`, with `Print Assumptions` and non-vacuity examples |

## Modelling conventions

* **Bytes**: `Coq.Init.Byte.byte` (256 constructors), so every `list byte` is a legal Go `[]byte`; no well-formedness
  hypothesis on inputs.
* **Integers**: `Z`.  Fixed-width decoding applies the Go conversion (`int32` two's complement); wrap-around is written
  explicitly where the code can overflow (`lastMax+1`, `levelOffset`, frosting varints).  `int` is 64 bit.
* **Panic**: `outcome A := Ret a | Panic p`.  Every reachable Go run-time panic (failed type assertion, index out of
  range, explicit `panic`) is a `Panic` result, so "never panics" is a statement, not an assumption (C34 says when it happens).
* **Errors**: constructor per error site.  `fmt.Errorf` texts are not modelled.
* **`*VerificationResult` mutation**: state passing.
* **bytes.Buffer loops** `for b.Len() > 0 { x := getLenghtPrefixedSlice(b) ... }`: the buffer is first cut into its
  items (plus an "ended badly" flag) by one fuelled function whose fuel is the buffer length (proved sufficient), then the loop body is
  folded over the items; the bodies cannot touch the outer buffer, so the order of effects is the same.
* **Go maps**: association lists with unique keys.  `range` over a map goes through a schedule `sched` giving an arbitrary
  permutation per loop and execution, and theorems quantify over all schedules.
* **sort.Slice**: any sorted permutation (theorems quantify over it); the executable toy schedule uses an insertion sort.
* **goroutines** (content digests): the order in which chunks are hashed is a schedule too (C52); results are combined by position.
* **io.ReadSeeker**: an immutable `list byte`; reads inside the file succeed, others fail.  I/O errors: `Model/Reader.v` models every function
  that reads the APK again over a `reader` any operation of which may fail at any place; `ReaderFacts` proves that without failures
  these are the same functions (C96_reliable), and C96-C98 say what failures can change.
* **Reflection** (`asn1andr`): a deep embedding of Go types (`gotype`), values (`goval`) and struct tags (`fparams`).
* **Outside code**: oracles, the fields of the record `env` over which every theorem is quantified.  They are not axioms;
  hypotheses on them (digest sizes, absence of a named collision) appear in the theorem statements and are met by a
  concrete toy environment in the examples.

## Trusted base

1. The Coq 8.16.1 kernel (including its bytecode virtual machine, used by `vm_compute` in examples and refutations).
2. `Print Assumptions` stands under every property theorem.  Every one of them reports **Closed under the global context**:
   no axiom of the standard library is used by any of them.  (A whole-library listing also shows the four opaque constants
   `Coq.ssr.ssrunder.Under_rel.*`, which come with loading the standard ssreflect plugin files and are used nowhere here.)
3. The reading of the Go code: every definition in `Model/` cites the lines it transcribes and says what it simplifies.
4. The modelling conventions above, and the `Spec/` files, which say what the properties mean.

### What is modelled

| Go | Coq |
|----|-----|
| `apilevel/levels.go` | `Model/ApiLevel.v` |
| `apkverifier.go` (Verify..., ExtractCerts, attribute encoder for AndroidManifest.xml) | `Model/ApkVerifier.v` |
| `schemev1.go` | `Model/SchemeV1.v`, `Model/PkixName.v` (canonical names) |
| `manifest.go` | `Model/Manifest.v`, `Model/GoStrings.v` |
| `certinfo.go` | `Model/CertInfo.v` |
| `signingblock/signingblock.go` | `Model/SigBlock.v` (finding and cutting the block), `Model/Verify.v` (entry points) |
| `signingblock/utils.go`, `signer.go`, `verificationresult.go` | `Model/Utils.v`, `Model/Signer.v`, `Model/Result.v` |
| `signingblock/schemev2.go`, `schemev3.go`, `schemev31.go`, `schemev3lineage.go` | `Model/SchemeV2.v`, `Model/SchemeV3.v` |
| `signingblock/datasource.go`, `verity.go`, digest computation | `Model/DataSource.v`, `Model/Digest.v` |
| `signingblock/frosting.go`, `sourcestamp.go` | `Model/Frosting.v`, `Model/SourceStamp.v` |
| `fullsailor/pkcs7/ber.go` | `Model/Ber.v` |
| `fullsailor/pkcs7/pkcs7.go` (parsing of SignedData, signer infos, attributes) | `Model/Pkcs7.v` |
| `fullsailor/pkcs7/pkcs7.go` (Verify, GetOnlySigner, UnmarshalSignedAttribute; signing) | `Model/Pkcs7Verify.v`, `Model/Pkcs7Sign.v` |
| `fullsailor/pkcs7/pkcs7.go` (Decrypt, Encrypt, padding; the ciphers themselves are parameters) | `Model/Pkcs7Envelope.v` |
| `internal/asn1andr/asn1.go`, `marshal.go`, `common.go` | `Model/Asn1.v`, `Model/MarshalTime.v`, `Model/FieldTags.v` (struct tags) |
| `certinfo.go` String, `signingblock/schemev3lineage.go` Dump, `time.Format` RFC3339 | `Model/CertPrint.v` |
| `time`, `unicode/utf8`, `unicode/utf16` as used by asn1andr | `Model/GoTime.v`, `Model/GoUtf8.v` |
| `internal/x509andr/x509.go` (ParsePKIXPublicKey, ParseCertificate(s)) | `Model/X509.v`, `Model/CertExt.v` (extension values, buildExtensions) |
| `internal/x509andr/pem_decrypt.go` | `Model/Pem.v` |
| `internal/x509andr/pkcs1.go`, `sec1.go`, `pkcs8.go`, x509.go MarshalPKIXPublicKey | `Model/Keys.v` |
| `internal/x509andr/verify.go`, `cert_pool.go`, `x509.go` (CheckSignature, CheckSignatureFrom) | `Model/Chain.v` |

The oracles of `env` for PKCS#7, ASN.1 and X.509 are replaced by these models in `withPkcs7`, `withX509` and `concrete`; theorems about
the verifier hold for every `env`, in particular for those.

### What is not modelled

* Cryptographic primitives, `crypto/x509.Certificate.CheckSignature`, `crypto/x509.ParseCertificate` and `ParsePKIXPublicKey` of the
  standard library, base64, `strings.ToLower` of non-ASCII text, `elliptic.IsOnCurve`, `fmt` of attribute values: oracles.
* `github.com/avast/apkparser`: ZIP reading (an APK is a list of entries, each with its candidate streams) and binary XML
  (`ParseXml` is an oracle giving the start elements; it is assumed to pass them to the encoder in order and to stop when the encoder returns an error).
* `os.Open`, closing files, memory limits, running time.  I/O errors inside the ZIP reader are part of the given `zip`; those of the
  verifier's own reads are in `Model/Reader.v`.
* Oracles are assumed to return; only `e_pkcs7` may panic, and the model of pkcs7 says when.
* Standard-library functions modelled from their published source: `encoding/binary` readers, `strings`/`bytes` helpers, `strconv`, `crypto/x509/pkix.Name`
  (FillFromRDNSequence, ToRDNSequence), `asn1.BitString.RightAlign`, `elliptic.Unmarshal`, `sort`, `utf8.Valid`, `utf16.Decode`, `time.Parse`/`Format`/`Date` for the layouts of asn1andr
  (the last four in `goText`; most theorems quantify over all such functions, C82 and C83 fix them).
* In x509andr: system roots, the PEM format itself (encoding/pem), ExtraExtensions, signing certificates and requests (nothing in the verifier calls them; the extensions of a created certificate are modelled); strings.EqualFold, net.ParseIP and net.IP.Equal are parameters of the chain model.

## Method

Each `Props/` theorem is stated over the entry points of the model (`verifyWithSdk`, `verifySigningBlock`, `extractCerts`, ...) and `Spec/` predicates.
Properties that the code does not have are marked `partial` in MANIFEST.json: a `_refuted` theorem gives the concrete counterexample and a `_partial` theorem
the strongest true version found.  Mutation experiments are in `seeded/LOG.jsonl`.

## Plan per property

* **C01 EOCD record is located correctly and unambiguously** — Model findEocd/findEocdMaxCommentSize; spec `eocd_at`; prove iff by induction on the comment-size loop.
* **C02 APK Signing Block is exactly the framed region before the central directory** — Model findApkSigningBlock; spec `file = pre ++ le64 n ++ body ++ le64 n ++ magic ++ rest`; prove iff.
* **C03 Signing-block entries are decoded faithfully** — Model the entry loop; spec is the list of entries; prove decode(encode entries) and soundness (success -> bytes are an encoding of entries).
* **C04 Scheme precedence v3.1 > v3 > v2** — Model pickScheme/pickAndVerify; decision-table theorem.
* **C05 Chunked content digest follows the APK Signature Scheme v2 definition** — Model computeOneMbChunkContentDigests over data sources; spec `chunked_digest`; equality for all contents by induction.
* **C06 Content digest commits to every protected byte** — Equal digests of different contents give an explicit collision among the messages hashed (or equal contents); from the C05/C07 specs.
* **C07 Verity digest is the Merkle-tree root of the contents** — Model generateTreeRootHash with byteWriter and level offsets; spec recursive Merkle root; equality by well-founded induction on size.
* **C08 Chained data source reads exactly the slice of the concatenation** — Model writeTo of the three sources; slice-of-concatenation theorem.
* **C09 Length-prefixed fields are parsed injectively and in bounds** — Model getLenghtPrefixedSlice; iff with the encoder.
* **C10 Best signature algorithm is the strongest supported one** — Model parseSignatures; spec by rank; induction over records.
* **C11 v2 soundness: success means every signer really signed these contents** — Soundness: declarative v2 signer predicate, invariant over the signer fold, combined with C05.
* **C12 v2 completeness: honestly signed APKs verify** — Completeness on built APKs: builder in Spec, run of the model computed symbolically.
* **C13 All signers agree on each content digest** — Invariant over signer fold on the digest map.
* **C14 v2 stripping protection** — Contrapositive through the attribute fold.
* **C15 At most 10 signers** — From parseSigners end check and verify.
* **C16 v3 signer SDK ranges are contiguous and cover the requested range** — Fold invariant over the sorted signers; any sorted permutation.
* **C17 v3 SDK range that is used was signed** — Expected false (code compares parsedMax with itself): refutation witness; the min half is proved.
* **C18 Proof-of-rotation lineage is a verified certificate chain** — Inductive lineage predicate; induction over nodes.
* **C19 Consolidated lineage extends all signers' lineages** — Model consolidateLineages; prefix theorem.
* **C20 v3.1 soundness: reported signer signed these contents** — Expected false (v3.1 digests never compared when a v3.0 block exists): refutation witness on an ideal-crypto environment; partial positive theorem.
* **C21 v3.1 requires a matching v3.0 block** — Soundness through parseSigners/finalizeResult of both backends.
* **C22 Fallback from v3 to v2 is only used below API 28** — Case analysis of VerifySigningBlockReaderWithZip.
* **C23 Reported certificates belong to the scheme that verified** — Expected false (Certs not reset on fallback): refutation; proved when no fallback happened.
* **C24 Nil error means authenticated** — Case analysis of VerifyWithSdkVersionReader.
* **C25 Janus protection** — Same.
* **C26 Sandbox / target-SDK rules** — Same plus EncodeToken model.
* **C27 v1 downgrade protection** — Fold over signatures, for all orders.
* **C28 v1 soundness: every regular file is covered** — Fold invariants over required files and signatures.
* **C29 v1 protects AndroidManifest.xml** — Expected false: refutation witness.
* **C30 v1 verdict does not depend on map iteration order** — Acceptance characterised by an order-free predicate; chains equal as sets.
* **C31 v1 signature file binds the manifest** — Characterise validity of one signature.
* **C32 Manifest sections partition the manifest** — Loop invariant on parser positions.
* **C33 Manifest encode/parse round trip** — Round trip by induction over attributes and split lines.
* **C34 Parsers never crash on hostile input** — Expected false: refutation witnesses per crash; positive theorems for the parsers that cannot panic.
* **C35 Frosting varint decoding** — Round trip by arithmetic; negative values expected possible: refutation.
* **C36 Frosting soundness** — Soundness of the entry loop.
* **C37 Source stamp soundness** — Soundness.
* **C38 Source stamp verdict does not depend on map iteration order** — Expected false on ties: refutation; proved without ties.
* **C39 Stamp digest encoding is canonical and injective** — Sort uniqueness + injective encoding.
* **C40 BER to DER transcoding** — Tree induction.
* **C41 ASN.1 tag/length/base-128/integer codecs round trip** — Arithmetic inductions.
* **C42 PickBestApkCert** — Any sorted permutation; maximality.
* **C43 ExtraBlocks never contains parsed schemes** — Expected false for max SDK >= 33: refutation; exact characterisation proved.
* **C44 Certificate extraction agrees with verification** — Relate both entry points.
* **C45 Issuer matching by canonical name** — Expected false (escape branch drops the character): refutation.
* **C46 Supported-algorithm and API-level tables** — Case analysis over all Z.
* **C47 v3 soundness: success means every signer really signed these contents** — As C11.
* **C48 v3 completeness** — As C12.
* **C49 v1 certificate chain building terminates** — Loop bound.
* **C50 v1 digest selection per platform** — Case analysis over lists.
* **C51 Minimum platform of lineage algorithms** — Compare the table of supported algorithms with the platform's; refutation for 0x0101.
* **C52 Verdict does not depend on the schedule** — Digest workers over any schedule; equality of results.
* **C53 Source stamp lineage and time are signed** — Characterise the attributes of the source stamp that are reported.
* **C54 v1 completeness** — Honest JAR builder in Spec (`HonestJar`); run of the model on it.
* **C55 Reported v1 chains belong to binding signatures** — Which chains are reported for v1; refutation with two signatures.
* **C56 Minimum SDK from the manifest** — Case analysis of the manifest attributes; EncodeToken fold.
* **C57 Top-level completeness** — Top-level completeness from the outcomes of the parts.
* **C58 PickBestApkCert prefers currently valid certificates** — Expected false (`||` in certinfo.go:41): refutation; what the comparison does is proved.
* **C59 NewCertInfo shows the certificate** — Spec of hexadecimal digests and of the printed name.
* **C60 BER transcoding is not amplifying** — Expected false: a family of inputs with exponential output; linear bound for genuine BER.
* **C61 Signed attributes: what the signature covers** — marshalAuthenticatedAttributes is the DER SET; injectivity through decoding.
* **C62 Malformed SignedData is rejected** — Expected false (dropped error): refutation; a signer implies complete decoding.
* **C63 No unsigned bytes inside the signed attributes** — Expected false (trailing bytes in an attribute): refutation; proved for DER.
* **C64 Honest PKCS#7 objects are parsed** — Declarative SignedData documents; induction over elements, composed with C40.
* **C65 ASN.1 values round trip** — Mutual induction over type descriptions.
* **C66 v1 tamper evidence** — Compare original and changed APK section by section; explicit collision as the alternative.
* **C67 ExtractCerts: meaning and agreement with Verify** — Soundness and completeness of ExtractCerts; comparison with Verify.
* **C68 No fallback to JAR signatures beside a signature block** — Case analysis of the not-found errors.
* **C69 Certificates carry their bytes** — Inversion of parseField on the certificate type.
* **C70 The signature was checked with the certificate's key** — The recorded SPKI is the re-marshalled one; round trip through MarshalPKIXPublicKey; composed with C11/C47.
* **C71 Negative RSA moduli are read as unsigned** — Arithmetic of two's complement; refutations for 0xff and 0.
* **C72 Unhandled critical extensions** — Fold over the extensions against a declarative list.
* **C73 Certificates are read as written** — Declarative certificate documents; field by field through the decoder lemmas. Name constraints and CRL distribution points are read by their own forward lemmas (`Proofs/X509Ext.v`); names relative to the CRL issuer are refuted.
* **C74 Signature algorithm of a certificate** — Table lookup; PSS parameters decoded exactly.
* **C75 Issuer names compared by decoded fields** — pkix.Name round trip characterised; refutation with e-mail addresses.
* **C76 DSA and ECDSA signature values of JAR signatures** — Inversion of the decoder; refutation with trailing bytes inside the SEQUENCE.
* **C77 Verdict independent of map iteration order** — Case analysis of the top level; the signing-block part is order-free by SchedFacts, the JAR part by C30. Assumes a deterministic sort.Slice and that the second run returns.
* **C78 An honestly JAR-signed APK verifies, from its bytes** — Composition of C54 (files), C61/C64 (BER and PKCS#7), C69/C72/C73 (certificates) with no parser left abstract; primitives (hashes, signature checks) stay parameters.
* **C79 Which public keys are accepted** — Both directions, field by field, against a specification of the loose encodings the decoder allows (non-minimal lengths, bytes after the last field, unused bits).
* **C80 Accepted certificates have the X.509 layout** — Inversion of the decoder along the certificate type.
* **C81 An honestly v2- or v3-signed APK verifies, from its bytes** — C12 and C48 with the certificate and key parsers of C73/C79 in place of the oracles.
* **C82 Times are read by the calendar** — `Model/GoTime.v` models time.Parse, Format and Date for the three layouts; the calendar is specified by the successor of a day (`Spec/Time.v`) and shown equal to the closed formula by induction over days, months and years.
* **C83 Text is read as Unicode** — `Model/GoUtf8.v` models utf8.Valid and utf16.Decode; the specification encodes scalar values.
* **C84 An honest source stamp verifies** — `Spec/HonestStamp.v` describes what a stamp signer writes; forward lemmas for every loop of sourcestamp.go, any iteration order (`Proofs/StampHonest.v`).
* **C85 PKCS7.Verify accepts exactly signed content** — `Model/Pkcs7Verify.v` models Verify, GetOnlySigner and the algorithm table over Parse of bytes; `Spec/Pkcs7Verify.v` says what a signature of a content is; equivalence by inversion of the model and the marshaller's SET order (`Proofs/Pkcs7VerifyFacts.v`). The PSS parameters are read by Go's encoding/asn1, a parameter of the model (`stdDecoder`).
* **C86 Parse reads a SignedData document as written** — forward lemmas for the ASN.1 reader over the document grammar `content_der` (`Proofs/Pkcs7Doc.v`).
* **C87 What is signed can be read and verifies** — `Model/Pkcs7Sign.v` models the signing calls and encoding/asn1.Marshal (sorted SETs); induction over the calls gives the state, the writer's output is shown to be a `content_der` document and an object tree, then C86 and the verification lemmas (`Proofs/Pkcs7SignFacts.v`, `Proofs/Pkcs7Made.v`). RSA signing is a parameter that fits the certificate check (`keys_fit`).
* **C88 DegenerateCertificate carries exactly the certificates** — the same writer lemmas without signers.
* **C89 What is encrypted can be read by every recipient** — `Model/Pkcs7Envelope.v`; the ciphers, RSA encryption and the random bytes are parameters with the inverse laws as hypotheses; the bytes written are computed, shown to be a document (`Spec/Pkcs7Envelope.v`), parsed by C90's lemma; sorting of the SET of recipients by permutation.
* **C90 Decrypt returns only what the key opens** — documents as a relation (`envelope_der`), Parse gives exactly their fields, `decryptContent` is equivalent to the relation `opens`; partial because the code's padding rule is weaker (refuted with a concrete document).
* **C91 Decrypt and Encrypt do not panic** — false; exact characterisation of the panics, and refutation.
* **C92 Raising the minimum SDK level** — relational: soundness of the verdict at the lower level (C10, C15, C20) combined with completeness at the higher one (C12, C48, C20); `v3_covering` is monotone.  The fallback case is refuted by example.
* **C93 Steps of the minimum SDK level** — equality of the two outcomes, function by function, from the comparisons the code makes (Proofs/LevelFacts.v).
* **C94 Printed ids, algorithms and capabilities** — the String methods are modelled over a model of fmt's `%x` (fmt itself is trusted to print lower case digits without leading zeros and to pad with zeros); injectivity by decoding.  False for bit 31 of the capability flags (refuted), which the loop skips.
* **C95 Level of a reported lineage** — invariant over all the scheme parsers, the sort, the consolidation and the fallback: the level of a stored lineage is the maximum over its own nodes.  Exact value in every call (partial); false as stated when a node uses 0x0101 (refuted), because getMinSdkVersion lacks it.
* **C96 No false acceptance by I/O errors** — `Model/Reader.v`: all reading functions over a reader with failures at named places; `FaultFacts`: each step gives the reliable answer or an error; `FaultRun`: an accepting run with failures is sound for the block's specification and the reliable run accepts by completeness (C41); `FaultPanic` for crashes. Refuted for ZIP64 files.
* **C97 ... for APKs** — from C96 and `not_found_locates` ("not found" is the same with and without failures if the locating reads work); refuted when the footer read fails.
* **C98 ... for ExtractCerts** — same, with the JAR extraction of C67.
* **C99 Marshal writes DER** — `Spec/Asn1Der.v` gives the encoding of a typed value as a relation; `Asn1DerFacts` proves makeField equivalent to it by induction over types; `Model/MarshalTime.v` adds time.Time, whose text is matched with C82's grammar.
* **C100 Lowering the maximum level** — `MaxLevelFacts`: the predicates `v2_verified`, `v3_verified`, `v31_verified` of `Spec/Verified.v` are monotone in the maximum (blocks by weakening the attribute rules, ranges because a tiling contains shorter intervals); with soundness and completeness (C12, C20, C48) this carries acceptance over. The gap between 33 and the first v3.1 level is proved to be an error always.
* **C101 Steps of the maximum level** — `MaxStepFacts`: every function with a maximum parameter is rewritten to the other level, as for C93; without v3 blocks `pickScheme` never reaches the range checks.
* **C102 Genuine frosting is recognised** — converse of C36: `frosting_genuine` (Spec/Frosting.v) is the documented format as encoders; Proofs/FrostingMade.v shows by induction over the disabled entries that the readers (varints, array items, signed region) find the parts, then composes with the entry loop. C102_frosting_levels: the frosting verdict is the same at all levels.
* **C103 Chains that Verify returns are valid** — `Model/Chain.v` with the cache threaded through the search; invariant: the current path is a valid partial chain and every cached chain is a valid chain from the leaf (Proofs/ChainBuild.v); termination by the number of intermediates not on the path.
* **C104 Verify finds a chain if there is one** — false of the code (two counterexamples); the partial theorem is a depth-first-search closure argument: if nothing is found then every explored certificate has no root edge and all its valid parents are explored or on the path (Proofs/ChainFind.v).
* **C105 VerifyHostname accepts exactly the names of the certificate** — iff with `for_host`/`host_covered` (labels joined by dots), Proofs/ChainFacts.v.
* **C106 Name constraints** — iff with `constraint_covers` (split of the name at a label boundary).
* **C107 Certificate signature checks** — iff with `x_signature`/`signed_by`; counterexamples for the kind of key and for the Entrust exemption.
* **C108 Certificate pools** — index invariant under AddCert (`pool_ok`): both maps list exactly the positions with that key.
* **C109 Unmarshal reads exactly the values of the type** — relational specification `reads` (Spec/Asn1Read.v) over identifier, length and contents octets; `parseField` succeeds with v and rest iff `reads` holds, by mutual induction on types and field lists (Proofs/Asn1ReadFacts.v); field parameters `set` only on structs and lists (as Go code can sensibly have them).
* **C110 Optional and explicitly tagged fields** — corollaries of C109, and two concrete inputs for the parts that fail.
* **C111 Reading a signed attribute** — search for the first attribute of a type (induction on the list), then C109.
* **C112 What genuine signers write is accepted** — composition of C78 (JAR), C81 (v2 and v3 blocks from bytes), C01/C02 (a file without a block) and C57 (the entry point), with the ASN.1, PKCS#7 and X.509 parsers concrete; the remaining parameters are the hash functions, the signature checks and the XML reader.
* **C113 An accepted APK is one that the reported signer signed** — C24 gives the signer records of the accepted block, injectivity of the length-prefixed layout ties each record to what the owner made, C06 turns equal digests into equal contents or a collision; the v3.1 counterexample transplants a genuine v3.1 block.
* **C114 Struct tags mean what they say** — `Model/FieldTags.v` models parseFieldParameters; an invariant over the options read so far (induction at the end of the list); the types of the model are compared with the tag strings of the source by computation, so that their parameters are no longer part of what has to be believed.
* **C115 Printed certificates and lineage nodes identify what they print** — `Model/CertPrint.v` models CertInfo.String, Time.Format(RFC3339) with Go's calendar computation (absDate), and Dump; the calendar is the relation `day_number` of C82; injectivity by splitting the texts at the first separator that a field cannot contain.
* **C116 round trip** — Spec/RoundTrip.v says when a value can be read back (`recoverable`) and when two are the same; proved by induction on types from C99 (encoder = `der_of`) and C109 (decoder = `reads`), i.e. between the two specifications (Proofs/RoundTripFacts.v).
* **C117 certificate extensions** — Model/CertExt.v models the values the loop of parseCertificate stores and the encoder buildExtensions; C117_verdict ties it to the accept/reject model of Model/X509.v; each value goes through C116 (encoder and decoder agree for its type), the key usage octets by computation over the 511 usages, all ten blocks composed from left to right (Proofs/CertExtFacts.v). Templates without ExtraExtensions.
* **C118 keys, written and read** — Model/Keys.v models MarshalPKIXPublicKey, the PKCS#1, SEC 1 and PKCS#8 readers and writers (rsa.PrivateKey.Validate/Precompute and the curve's ScalarBaseMult are arguments of the theorems: ke_validate, ke_precompute, ke_base); the structures go through C116, the scalar through an induction over its padding.
* **C119 password-encrypted PEM blocks** — Model/Pem.v models pem_decrypt.go with CBC mode and encoding/hex written out; MD5 and the block ciphers are arguments (ciphers_ok: 16-byte digests, block sizes, decryption undoes encryption). Spec/Pem.v gives key derivation, hexadecimal, chaining and padding as relations; the functions are proved to compute them, the relations to be functional.
