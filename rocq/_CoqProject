-Q theories Verif
theories/Examples/DerToy.v
theories/Examples/Toy.v
theories/Examples/ToyApk.v
theories/Examples/ToyJar.v
theories/Examples/ToyPkcs7.v
theories/Examples/ToySigned.v
theories/Examples/ToyWith.v
theories/Examples/ToyX509.v
theories/Model/ApiLevel.v
theories/Model/ApkVerifier.v
theories/Model/Asn1.v
theories/Model/Ber.v
theories/Model/Bytes.v
theories/Model/CertExt.v
theories/Model/CertInfo.v
theories/Model/CertPrint.v
theories/Model/Chain.v
theories/Model/DataSource.v
theories/Model/Digest.v
theories/Model/Env.v
theories/Model/FieldTags.v
theories/Model/Frosting.v
theories/Model/GoStrings.v
theories/Model/GoTime.v
theories/Model/GoUtf8.v
theories/Model/Keys.v
theories/Model/Manifest.v
theories/Model/MarshalTime.v
theories/Model/Pem.v
theories/Model/Pkcs7.v
theories/Model/Pkcs7Envelope.v
theories/Model/Pkcs7Sign.v
theories/Model/Pkcs7Verify.v
theories/Model/PkixName.v
theories/Model/Printing.v
theories/Model/Reader.v
theories/Model/Result.v
theories/Model/SchemeV1.v
theories/Model/SchemeV2.v
theories/Model/SchemeV3.v
theories/Model/SigBlock.v
theories/Model/Signer.v
theories/Model/SourceStamp.v
theories/Model/Utils.v
theories/Model/Verify.v
theories/Model/X509.v
theories/Proofs/AlgorithmFacts.v
theories/Proofs/AnyFacts.v
theories/Proofs/ApkFacts.v
theories/Proofs/Asn1Codec.v
theories/Proofs/Asn1Decode.v
theories/Proofs/Asn1DerFacts.v
theories/Proofs/Asn1Header.v
theories/Proofs/Asn1ReadFacts.v
theories/Proofs/Asn1Value.v
theories/Proofs/BerFacts.v
theories/Proofs/BytesFacts.v
theories/Proofs/CallFacts.v
theories/Proofs/CertExtFacts.v
theories/Proofs/CertInfoFacts.v
theories/Proofs/ChainBuild.v
theories/Proofs/ChainFacts.v
theories/Proofs/ChainFind.v
theories/Proofs/CollectFacts.v
theories/Proofs/CollisionFacts.v
theories/Proofs/CoveringFacts.v
theories/Proofs/DataSourceFacts.v
theories/Proofs/DerFacts.v
theories/Proofs/DerSize.v
theories/Proofs/DescribeFacts.v
theories/Proofs/DigestFacts.v
theories/Proofs/EntriesFacts.v
theories/Proofs/FaultFacts.v
theories/Proofs/FaultPanic.v
theories/Proofs/FaultRun.v
theories/Proofs/FaultTop.v
theories/Proofs/FieldTagsFacts.v
theories/Proofs/FrostingApkFacts.v
theories/Proofs/FrostingFacts.v
theories/Proofs/FrostingMade.v
theories/Proofs/GoStringsFacts.v
theories/Proofs/HonestFacts.v
theories/Proofs/IntegrityFacts.v
theories/Proofs/KeyFacts.v
theories/Proofs/LevelFacts.v
theories/Proofs/LineageFacts.v
theories/Proofs/LineageLevel.v
theories/Proofs/ManifestFacts.v
theories/Proofs/ManifestPanic.v
theories/Proofs/ManifestSections.v
theories/Proofs/MarshalTimeFacts.v
theories/Proofs/MaxLevelFacts.v
theories/Proofs/MaxStepFacts.v
theories/Proofs/NameFacts.v
theories/Proofs/PanicBlock.v
theories/Proofs/PanicV1.v
theories/Proofs/PemFacts.v
theories/Proofs/Pkcs7Doc.v
theories/Proofs/Pkcs7EnvDoc.v
theories/Proofs/Pkcs7EnvFacts.v
theories/Proofs/Pkcs7EnvMade.v
theories/Proofs/Pkcs7Facts.v
theories/Proofs/Pkcs7Honest.v
theories/Proofs/Pkcs7Made.v
theories/Proofs/Pkcs7Parse.v
theories/Proofs/Pkcs7SignFacts.v
theories/Proofs/Pkcs7VerifyFacts.v
theories/Proofs/PlainApkFacts.v
theories/Proofs/PlainFacts.v
theories/Proofs/PrintFacts.v
theories/Proofs/PropFacts.v
theories/Proofs/RangeFacts.v
theories/Proofs/ReaderFacts.v
theories/Proofs/RevocationFacts.v
theories/Proofs/RoundTripFacts.v
theories/Proofs/SchedFacts.v
theories/Proofs/SchemeV2Facts.v
theories/Proofs/SchemeV3Facts.v
theories/Proofs/SectionFacts.v
theories/Proofs/SigBlockFacts.v
theories/Proofs/SignerFacts.v
theories/Proofs/StampApkFacts.v
theories/Proofs/StampFacts.v
theories/Proofs/StampHonest.v
theories/Proofs/StampSchedFacts.v
theories/Proofs/TextFacts.v
theories/Proofs/TimeFacts.v
theories/Proofs/TopFacts.v
theories/Proofs/TotalFacts.v
theories/Proofs/UtilsFacts.v
theories/Proofs/V1BindFacts.v
theories/Proofs/V1DigestFacts.v
theories/Proofs/V1ExtractFacts.v
theories/Proofs/V1FilesFacts.v
theories/Proofs/V1HonestFacts.v
theories/Proofs/V1MainFacts.v
theories/Proofs/V1ScanFacts.v
theories/Proofs/V1SigFacts.v
theories/Proofs/V1SoundFacts.v
theories/Proofs/V1TamperFacts.v
theories/Proofs/V1VerifyFacts.v
theories/Proofs/V2BlockFacts.v
theories/Proofs/V3BlockFacts.v
theories/Proofs/VerifyFacts.v
theories/Proofs/VerityFacts.v
theories/Proofs/X509Cert.v
theories/Proofs/X509Ext.v
theories/Proofs/X509Facts.v
theories/Proofs/X509Honest.v
theories/Proofs/X509Keys.v
theories/Proofs/X509Loose.v
theories/Proofs/X509Names.v
theories/Props/Algorithms.v
theories/Props/Asn1.v
theories/Props/Ber.v
theories/Props/BlockTamper.v
theories/Props/CertExt.v
theories/Props/CertInfo.v
theories/Props/Chain.v
theories/Props/ContentDigests.v
theories/Props/Describe.v
theories/Props/EndToEnd.v
theories/Props/Entries.v
theories/Props/Extract.v
theories/Props/Fallback.v
theories/Props/Faults.v
theories/Props/FieldTags.v
theories/Props/Frosting.v
theories/Props/HonestBlock.v
theories/Props/HonestDer.v
theories/Props/HonestStamp.v
theories/Props/Keys.v
theories/Props/Layout.v
theories/Props/Levels.v
theories/Props/Manifest.v
theories/Props/Marshal.v
theories/Props/MaxLevel.v
theories/Props/Names.v
theories/Props/Panics.v
theories/Props/Pem.v
theories/Props/Pkcs7.v
theories/Props/Pkcs7Envelope.v
theories/Props/Pkcs7Sign.v
theories/Props/Pkcs7Verify.v
theories/Props/Printing.v
theories/Props/RoundTrip.v
theories/Props/Schedule.v
theories/Props/SchemeV1.v
theories/Props/SchemeV2.v
theories/Props/SchemeV3.v
theories/Props/Signatures.v
theories/Props/SignedAttributes.v
theories/Props/Stamp.v
theories/Props/Tamper.v
theories/Props/Text.v
theories/Props/TopLevel.v
theories/Props/Unmarshal.v
theories/Props/X509.v
theories/Spec/Algorithms.v
theories/Spec/AndroidManifest.v
theories/Spec/ApkLayout.v
theories/Spec/Asn1.v
theories/Spec/Asn1Der.v
theories/Spec/Asn1Read.v
theories/Spec/Asn1Value.v
theories/Spec/Ber.v
theories/Spec/Calls.v
theories/Spec/CertExt.v
theories/Spec/CertPick.v
theories/Spec/Chain.v
theories/Spec/Describe.v
theories/Spec/Digests.v
theories/Spec/Encoding.v
theories/Spec/EndToEnd.v
theories/Spec/Entries.v
theories/Spec/Faults.v
theories/Spec/FieldTags.v
theories/Spec/Frosting.v
theories/Spec/Honest.v
theories/Spec/HonestBlock.v
theories/Spec/HonestDer.v
theories/Spec/HonestJar.v
theories/Spec/HonestStamp.v
theories/Spec/JarManifest.v
theories/Spec/JarOriginal.v
theories/Spec/JarSigned.v
theories/Spec/Levels.v
theories/Spec/Names.v
theories/Spec/Nondet.v
theories/Spec/Original.v
theories/Spec/Panics.v
theories/Spec/Pem.v
theories/Spec/Pkcs7.v
theories/Spec/Pkcs7Envelope.v
theories/Spec/Pkcs7Sign.v
theories/Spec/Pkcs7Verify.v
theories/Spec/Printing.v
theories/Spec/Ranges.v
theories/Spec/Revocation.v
theories/Spec/RoundTrip.v
theories/Spec/Signer.v
theories/Spec/SignerV3.v
theories/Spec/Sources.v
theories/Spec/Stamp.v
theories/Spec/Text.v
theories/Spec/Time.v
theories/Spec/TopLevel.v
theories/Spec/Verified.v
theories/Spec/X509.v
