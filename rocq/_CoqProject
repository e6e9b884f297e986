-Q theories Verif
theories/Bytes.v
theories/Words.v
theories/KeccakModel.v
theories/KeccakSpec.v
theories/KeccakProof.v
theories/SpongeSpec.v
theories/Sha3Model.v
theories/Sha3Proof.v
theories/KeccakBytes.v
theories/Fips202.v
theories/Sha3Top.v
theories/PropHash.v
theories/Sha2Spec.v
theories/Sha2Model.v
theories/Sha2Proof.v
theories/PropSha2.v
theories/AsconSpec.v
theories/AsconModel.v
theories/AsconPerm.v
theories/AsconProof.v
theories/PropAscon.v
theories/KmacSpec.v
theories/KmacModel.v
theories/KmacProof.v
theories/PropKmac.v
theories/ZUtil.v
theories/HashIface.v
theories/MacSpec.v
theories/MacModel.v
theories/MacProof.v
theories/PropMac.v
theories/AesSpec.v
theories/AesModel.v
theories/AesProof.v
theories/AesScr.v
theories/ModesSpec.v
theories/ModesModel.v
theories/ModesProof.v
theories/KwProof.v
theories/ChaChaProof.v
theories/SymTop.v
theories/PropSym.v
theories/UtilModel.v
theories/UtilProof.v
theories/PropUtil.v
theories/DrbgSpec.v
theories/DrbgModel.v
theories/DrbgProof.v
theories/XofDrngSpec.v
theories/XofDrngModel.v
theories/XofDrngProof.v
theories/CcDrngSpec.v
theories/CcDrngModel.v
theories/CcDrngProof.v
theories/SeededModel.v
theories/SeededProof.v
theories/DrbgVectors.v
theories/PropDrbg.v
theories/AeadAsconModel.v
theories/AeadAsconSpec.v
theories/AeadAsconProof.v
theories/AeadAsconTop.v
theories/AeadAsconNist.v
theories/AeadEtmModel.v
theories/AeadEtmProof.v
theories/AeadEtmTop.v
theories/AeadSymTop.v
theories/AeadVectors.v
theories/PropAeadAscon.v
theories/PropAead.v
theories/PolyRing.v
theories/NttLoop.v
theories/NttSim.v
theories/KyberModel.v
theories/KyberVectors.v
theories/KyberSpec.v
theories/KyberArith.v
theories/KyberNtt.v
theories/KyberNttModel.v
theories/KyberCodec.v
theories/KyberCodec2.v
theories/KyberSample.v
theories/KyberVec.v
theories/KyberPke.v
theories/KyberKem.v
theories/KyberNoise.v
theories/KyberKexModel.v
theories/KyberKexProof.v
theories/KyberKat.v
theories/KyberLowNoise.v
theories/PropKyber.v
theories/PropKyberKem.v
theories/DilithiumVectors.v
theories/DilithiumModel.v
theories/DilithiumSpec.v
theories/DilithiumArith.v
theories/DilithiumNtt.v
theories/DilithiumNttModel.v
theories/PropDil.v
theories/DilithiumCodec.v
theories/DilithiumHint.v
theories/PropDilCodec.v
theories/DilithiumSample.v
theories/PropDilSample.v
theories/DilithiumRing.v
theories/DilithiumScheme.v
theories/DilithiumSign.v
theories/DilithiumVerify.v
theories/DilithiumKat.v
theories/PropDilScheme.v
theories/DilithiumApiModel.v
theories/DilithiumCache.v
theories/PropDilCache.v
theories/SlhSpec.v
theories/SphincsModel.v
theories/SlhVectors.v
theories/SphincsApiModel.v
theories/SphincsKat.v
theories/SphincsAddr.v
theories/SlhCorrect.v
theories/SphincsWots.v
theories/SphincsTree.v
theories/SphincsProof.v
theories/PropSphincs.v
theories/PropSphincs2.v
theories/Asn1Tables.v
theories/Asn1Model.v
theories/Asn1Proof.v
theories/Asn1DerSpec.v
theories/Asn1Der.v
theories/PropAsn1.v
theories/OidTables.v
theories/AlgoModel.v
theories/OidModel.v
theories/OidSpec.v
theories/PropOid.v
theories/X509Model.v
theories/Pkcs7Model.v
theories/PropPkcs7.v
theories/PropX509.v
theories/PropPkcs7b.v
theories/PropAlgo.v
theories/Asn1EncModel.v
theories/Asn1EncSpec.v
theories/Asn1EncProof.v
theories/PropAsn1Enc.v
theories/X509GenModel.v
theories/PropX509Gen.v
theories/X25519Spec.v
theories/Curve25519Model.v
theories/Curve25519Proof.v
theories/Curve25519Bytes.v
theories/PropX25519.v
theories/ScModel.v
theories/ScProof.v
theories/ScTop.v
theories/ScCanon.v
theories/PropScalar.v
theories/Ed25519Spec.v
theories/Ed25519Model.v
theories/PropEd25519.v
theories/GeSmallModel.v
theories/PrimeCert.v
theories/Pocklington.v
theories/Prime25519.v
theories/PropSmallOrder.v
theories/AllocModel.v
theories/PropAlloc.v
theories/GeDecodeModel.v
theories/PropGeDecode.v
theories/GeAddModel.v
theories/PropGeAdd.v
theories/GeAdd2Model.v
theories/PropGeAdd2.v
theories/GeScalarModel.v
theories/PropGeScalar.v
theories/GeBaseModel.v
theories/PropGeBase.v
theories/GeBaseTable.v
theories/GeBaseWit.v
theories/PropGeTable.v
