-Q theories Verif
theories/Base.v
theories/BaseLemmas.v
theories/Model_Absorb.v
theories/Model_AsymmetricSecureKey.v
theories/Model_BCG.v
theories/Model_Blake.v
theories/Model_BlakeGen.v
theories/Model_BlakeParams.v
theories/Model_BlakeTree.v
theories/Model_CMAC.v
theories/Model_CSG.v
theories/Model_CSX.v
theories/Model_ChaCha.v
theories/Model_ChaChaGen.v
theories/Model_CipherStream.v
theories/Model_GCM.v
theories/Model_GHASH.v
theories/Model_GMAC.v
theories/Model_HBA.v
theories/Model_HCG.v
theories/Model_HMAC.v
theories/Model_HashStream.v
theories/Model_IntegerTools.v
theories/Model_KDF.v
theories/Model_KPA.v
theories/Model_Keccak.v
theories/Model_KeccakGen.v
theories/Model_Keys.v
theories/Model_Kyber.v
theories/Model_MemoryTools.v
theories/Model_Modes.v
theories/Model_Padding.v
theories/Model_ParallelOptions.v
theories/Model_Poly1305.v
theories/Model_Prng.v
theories/Model_RCS.v
theories/Model_RHX.v
theories/Model_Rijndael.v
theories/Model_RijndaelGen.v
theories/Model_SCBKDF.v
theories/Model_SHA2.v
theories/Model_SHA2Gen.v
theories/Model_SHA2Par.v
theories/Model_SHA3.v
theories/Model_SHAKE.v
theories/Model_SecureRandom.v
theories/Model_SecureStream.v
theories/Model_Serpent.v
theories/Model_SerpentGen.v
theories/Model_Skein.v
theories/Model_Straight.v
theories/Model_Stream.v
theories/Model_SymKeyGen.v
theories/Model_TSX.v
theories/Model_Threefish.v
theories/Model_ThreefishGen.v
theories/ProofsP_AsymmetricSecureKey.v
theories/ProofsP_BCG.v
theories/ProofsP_Blake.v
theories/ProofsP_BlakeParams.v
theories/ProofsP_BlakeTree.v
theories/ProofsP_CSG.v
theories/ProofsP_CSX.v
theories/ProofsP_CSX2.v
theories/ProofsP_CSX3.v
theories/ProofsP_CipherStream.v
theories/ProofsP_GCM.v
theories/ProofsP_HBA.v
theories/ProofsP_HCG.v
theories/ProofsP_HashStream.v
theories/ProofsP_IntegerTools.v
theories/ProofsP_KDF.v
theories/ProofsP_KMAC.v
theories/ProofsP_KPA.v
theories/ProofsP_Keccak.v
theories/ProofsP_Keys.v
theories/ProofsP_Kyber.v
theories/ProofsP_MAC.v
theories/ProofsP_MemoryTools.v
theories/ProofsP_Modes.v
theories/ProofsP_Modes2.v
theories/ProofsP_Modes3.v
theories/ProofsP_Modes4.v
theories/ProofsP_Padding.v
theories/ProofsP_Poly1305.v
theories/ProofsP_Prng.v
theories/ProofsP_RCS.v
theories/ProofsP_RCS2.v
theories/ProofsP_RCS3.v
theories/ProofsP_RHX.v
theories/ProofsP_Random.v
theories/ProofsP_SHA2.v
theories/ProofsP_SHX.v
theories/ProofsP_SecureStream.v
theories/ProofsP_Skein.v
theories/ProofsP_Stream.v
theories/ProofsP_SymKeyGen.v
theories/ProofsP_TSX.v
theories/ProofsP_TSX2.v
theories/ProofsP_Threefish.v
theories/Proofs_AES.v
theories/Proofs_Absorb.v
theories/Proofs_AsymmetricSecureKey.v
theories/Proofs_BCG.v
theories/Proofs_Blake.v
theories/Proofs_Blake2.v
theories/Proofs_BlakeConf.v
theories/Proofs_BlakeTree.v
theories/Proofs_Block.v
theories/Proofs_CMAC.v
theories/Proofs_CMUL.v
theories/Proofs_CSG.v
theories/Proofs_CSX.v
theories/Proofs_CSX2.v
theories/Proofs_CSX3.v
theories/Proofs_ChaCha.v
theories/Proofs_ChaCha2.v
theories/Proofs_CipherStream.v
theories/Proofs_CipherStream2.v
theories/Proofs_CipherStream3.v
theories/Proofs_Common.v
theories/Proofs_Digest.v
theories/Proofs_Donna.v
theories/Proofs_GCM.v
theories/Proofs_GF.v
theories/Proofs_GHASH.v
theories/Proofs_GMAC.v
theories/Proofs_HBA.v
theories/Proofs_HBA2.v
theories/Proofs_HBA3.v
theories/Proofs_HCG.v
theories/Proofs_HMAC.v
theories/Proofs_HMAC2.v
theories/Proofs_HashStream.v
theories/Proofs_IntegerTools.v
theories/Proofs_IntegerTools2.v
theories/Proofs_KDF.v
theories/Proofs_KDF2.v
theories/Proofs_KMAC.v
theories/Proofs_KMAC2.v
theories/Proofs_KMAC3.v
theories/Proofs_KPA.v
theories/Proofs_KPA2.v
theories/Proofs_Keccak.v
theories/Proofs_KeccakInv.v
theories/Proofs_Keys.v
theories/Proofs_Kyber.v
theories/Proofs_Kyber10.v
theories/Proofs_Kyber11.v
theories/Proofs_Kyber12.v
theories/Proofs_Kyber13.v
theories/Proofs_Kyber14.v
theories/Proofs_Kyber15.v
theories/Proofs_Kyber16.v
theories/Proofs_Kyber17.v
theories/Proofs_Kyber18.v
theories/Proofs_Kyber19.v
theories/Proofs_Kyber2.v
theories/Proofs_Kyber20.v
theories/Proofs_Kyber3.v
theories/Proofs_Kyber4.v
theories/Proofs_Kyber5.v
theories/Proofs_Kyber6.v
theories/Proofs_Kyber7.v
theories/Proofs_Kyber8.v
theories/Proofs_Kyber9.v
theories/Proofs_KyberCase.v
theories/Proofs_Mac.v
theories/Proofs_MemoryTools.v
theories/Proofs_Modes.v
theories/Proofs_Modes2.v
theories/Proofs_Modes3.v
theories/Proofs_Modes4.v
theories/Proofs_Modes5.v
theories/Proofs_Padding.v
theories/Proofs_ParallelOptions.v
theories/Proofs_Poly1305.v
theories/Proofs_Poly2.v
theories/Proofs_Prng.v
theories/Proofs_RCS.v
theories/Proofs_RCS2.v
theories/Proofs_RCS3.v
theories/Proofs_RCS4.v
theories/Proofs_RHX.v
theories/Proofs_Rijndael.v
theories/Proofs_Rijndael2.v
theories/Proofs_SCBKDF.v
theories/Proofs_SHA2.v
theories/Proofs_SHA256.v
theories/Proofs_SHA2Par.v
theories/Proofs_SHA2Par2.v
theories/Proofs_SHA2cmp.v
theories/Proofs_SHA2obj.v
theories/Proofs_SHA3.v
theories/Proofs_SHA512.v
theories/Proofs_SHAKE.v
theories/Proofs_SHX.v
theories/Proofs_SecureRandom.v
theories/Proofs_SecureRandom2.v
theories/Proofs_SecureStream.v
theories/Proofs_Serpent.v
theories/Proofs_Serpent2.v
theories/Proofs_Serpent3.v
theories/Proofs_Skein.v
theories/Proofs_Skein2.v
theories/Proofs_Skein3.v
theories/Proofs_Sponge.v
theories/Proofs_Stream.v
theories/Proofs_SymKeyGen.v
theories/Proofs_TSX.v
theories/Proofs_TSX2.v
theories/Proofs_TSX3.v
theories/Proofs_Threefish.v
theories/Proofs_Threefish2.v
theories/Proofs_Threefish3.v
theories/Proofs_Windows.v
theories/Proofs_XOF.v
theories/Properties_AsymmetricSecureKey.v
theories/Properties_BCG.v
theories/Properties_Blake.v
theories/Properties_BlakeConf.v
theories/Properties_BlakeParams.v
theories/Properties_CSG.v
theories/Properties_CSX.v
theories/Properties_CipherStream.v
theories/Properties_GCM.v
theories/Properties_GMAC.v
theories/Properties_HBA.v
theories/Properties_HCG.v
theories/Properties_HashStream.v
theories/Properties_IntegerTools.v
theories/Properties_KDF.v
theories/Properties_KMAC.v
theories/Properties_KPA.v
theories/Properties_Keccak.v
theories/Properties_Keys.v
theories/Properties_Kyber.v
theories/Properties_MAC.v
theories/Properties_MemoryTools.v
theories/Properties_Modes.v
theories/Properties_Padding.v
theories/Properties_ParallelOptions.v
theories/Properties_Poly1305.v
theories/Properties_Prng.v
theories/Properties_RCS.v
theories/Properties_Random.v
theories/Properties_Rijndael.v
theories/Properties_SCBKDF.v
theories/Properties_SHA2.v
theories/Properties_SecureStream.v
theories/Properties_Serpent.v
theories/Properties_Skein.v
theories/Properties_Stream.v
theories/Properties_SymKeyGen.v
theories/Properties_TSX.v
theories/Properties_Threefish.v
theories/Session_BCG.v
theories/Session_Blake.v
theories/Session_Block.v
theories/Session_CSG.v
theories/Session_CSX.v
theories/Session_CipherStream.v
theories/Session_Digest.v
theories/Session_GCM.v
theories/Session_GMAC.v
theories/Session_HBA.v
theories/Session_HCG.v
theories/Session_HashStream.v
theories/Session_KMAC.v
theories/Session_KPA.v
theories/Session_Kdf.v
theories/Session_KdfObjs.v
theories/Session_Kyber.v
theories/Session_Mac.v
theories/Session_MacObjs.v
theories/Session_ParallelOptions.v
theories/Session_Poly.v
theories/Session_Prng.v
theories/Session_RCS.v
theories/Session_Random.v
theories/Session_SCBKDF.v
theories/Session_SHA2.v
theories/Session_SHAKE.v
theories/Session_SHX.v
theories/Session_SecureStream.v
theories/Session_Skein.v
theories/Session_Stream.v
theories/Session_TSX.v
theories/Spec_AES.v
theories/Spec_AsymmetricSecureKey.v
theories/Spec_BCG.v
theories/Spec_Blake.v
theories/Spec_BlakeConf.v
theories/Spec_BlakeParams.v
theories/Spec_CSG.v
theories/Spec_ChaCha.v
theories/Spec_CipherStream.v
theories/Spec_Common.v
theories/Spec_Feed.v
theories/Spec_File.v
theories/Spec_GCM.v
theories/Spec_HBA.v
theories/Spec_HCG.v
theories/Spec_KDF.v
theories/Spec_KPA.v
theories/Spec_Keccak.v
theories/Spec_Keys.v
theories/Spec_Kyber.v
theories/Spec_MAC.v
theories/Spec_Modes.v
theories/Spec_Poly1305.v
theories/Spec_RCS.v
theories/Spec_Random.v
theories/Spec_SCBKDF.v
theories/Spec_SHA2.v
theories/Spec_SecureStream.v
theories/Spec_Serpent.v
theories/Spec_Skein.v
theories/Spec_Stream.v
theories/Spec_SymKeyGen.v
theories/Spec_TSX.v
theories/Spec_Threefish.v
