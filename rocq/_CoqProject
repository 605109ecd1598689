-Q theories Verif
theories/Base.v
theories/Lib.v
theories/Model_Gost89.v
theories/Spec_Gost89.v
theories/Proof_Gost89.v
theories/Proof_Gost89Modes.v
theories/Prop_Gost89.v
theories/Model_Params.v
theories/Spec_Params.v
theories/Proof_Params.v
theories/Prop_Params.v
theories/Model_Cipher.v
theories/Spec_Cipher.v
theories/Proof_Cipher.v
theories/Proof_CipherApi.v
theories/Prop_Cipher.v
theories/Model_Hash.v
theories/Spec_Hash.v
theories/Spec_Md.v
theories/Proof_Hash.v
theories/Proof_HashStream.v
theories/Proof_Md.v
theories/Prop_Hash.v
theories/Model_Rbg.v
theories/Spec_Rbg.v
theories/Spec_RbgApi.v
theories/Proof_Rbg.v
theories/Proof_RbgThreads.v
theories/Model_RbgMt.v
theories/Spec_RbgMt.v
theories/Proof_RbgMt.v
theories/Prop_RbgMt.v
theories/Prop_Rbg.v
theories/Spec_RbgBack.v
theories/Proof_RbgBack.v
theories/Prop_RbgBack.v
theories/Model_KeyStore.v
theories/Spec_KeyStore.v
theories/Proof_KeyStore.v
theories/Prop_KeyStore.v
theories/Model_Pkcs12.v
theories/Spec_Pkcs12.v
theories/Proof_Pkcs12.v
theories/Prop_Pkcs12.v
theories/Model_Utils.v
theories/Model_ReadBio.v
theories/Model_Utf16.v
theories/Spec_Keylib.v
theories/Proof_Keylib.v
theories/Prop_Keylib.v
theories/Model_Jks.v
theories/Spec_Jks.v
theories/Proof_Jks.v
theories/Prop_Jks.v
theories/Model_Key6.v
theories/Spec_Key6.v
theories/Proof_Key6.v
theories/Prop_Key6.v
theories/Model_Err.v
theories/Spec_Err.v
theories/Proof_Err.v
theories/Prop_Err.v
theories/Model_Engine.v
theories/Spec_Engine.v
theories/Proof_Engine.v
theories/Prop_Engine.v
theories/Model_Gf2m.v
theories/Spec_Gf2m.v
theories/Proof_Gf2.v
theories/Proof_Field.v
theories/Proof_Irr.v
theories/Model_Compress.v
theories/Spec_Compress.v
theories/Proof_Compress.v
theories/Proof_Compress2.v
theories/Model_Ec.v
theories/Model_Curves.v
theories/Proof_Ec.v
theories/Proof_Ec2.v
theories/Proof_Hex.v
theories/Proof_Order.v
theories/Proof_Cert1.v
theories/Proof_Cert2.v
theories/Proof_Cert3.v
theories/Proof_Cert4.v
theories/Spec_Curves.v
theories/Proof_Curves.v
theories/Proof_Curves2.v
theories/Proof_Curves3.v
theories/Proof_Curves4.v
theories/Spec_Toy.v
theories/Proof_Toy.v
theories/Prop_Compress.v
theories/Proof_Digits.v
theories/Proof_Prime.v
theories/Proof_Prime1.v
theories/Proof_Prime2.v
theories/Proof_Prime3.v
theories/Proof_Prime4.v
theories/Proof_Primes.v
theories/Prop_Curves.v
theories/Model_Sign.v
theories/Spec_Sign.v
theories/Proof_Sign.v
theories/Proof_Sign2.v
theories/Prop_Sign.v
theories/Model_Asn1.v
theories/Spec_Asn1.v
theories/Proof_Asn1.v
theories/Model_Pmeth.v
theories/Spec_Pmeth.v
theories/Proof_Pmeth.v
theories/Proof_Hextext.v
theories/Prop_Pmeth.v
theories/Model_Key.v
theories/Model_Ameth.v
theories/Model_Ctx.v
theories/Model_Iit.v
theories/Spec_Key.v
theories/Spec_Ctx.v
theories/Proof_Ctx.v
theories/Proof_Ctx2.v
theories/Proof_Ctx3.v
theories/Proof_Ctx4.v
theories/Proof_Ctx5.v
theories/Proof_Ctx6.v
theories/Spec_Hist.v
theories/Proof_Ctx7.v
theories/Proof_Ctx8.v
theories/Prop_Ctx.v
theories/Model_Print.v
theories/Proof_Print.v
theories/Prop_Print.v
theories/Proof_Key.v
theories/Proof_Key2.v
theories/Proof_Cert5.v
theories/Proof_Key3.v
theories/Prop_Key.v
theories/Spec_Iit.v
theories/Proof_Iit.v
theories/Prop_Iit.v
theories/Spec_Wire.v
theories/Proof_Wire.v
theories/Prop_Wire.v
theories/Proof_Life.v
theories/Prop_Life.v
theories/Model_Oom.v
theories/Spec_Oom.v
theories/Proof_Oom.v
theories/Proof_Oom2.v
theories/Proof_Oom3.v
theories/Prop_Oom.v
theories/Model_Kmem.v
theories/Spec_Kmem.v
theories/Proof_Kmem.v
theories/Proof_Kmem2.v
theories/Proof_Kmem3.v
theories/Proof_Kmem4.v
theories/Proof_Kmem5.v
theories/Proof_Kmem6.v
theories/Prop_Kmem.v
theories/Model_Evp.v
theories/Proof_Evp.v
theories/Prop_Evp.v
theories/Spec_Flat.v
theories/Proof_Flat.v
theories/Proof_Flat2.v
theories/Prop_Flat.v
theories/Model_Wipe.v
theories/Proof_Wipe.v
theories/Prop_Wipe.v
theories/Spec_Locality.v
theories/Proof_Locality.v
theories/Prop_Locality.v
theories/Proof_MacBind.v
theories/Prop_MacBind.v
theories/Proof_SignBind.v
theories/Prop_SignBind.v
theories/Proof_Forge.v
theories/Prop_Forge.v
theories/Model_CipherHist.v
theories/Spec_CipherHist.v
theories/Proof_CipherHist.v
theories/Prop_CipherHist.v
theories/Model_RbgSys.v
theories/Spec_RbgSys.v
theories/Proof_RbgSys.v
theories/Prop_RbgSys.v
theories/Spec_Stored.v
theories/Proof_Stored.v
theories/Prop_Stored.v
theories/Spec_Trunc.v
theories/Proof_Trunc.v
theories/Prop_Trunc.v
theories/Spec_Exact.v
theories/Proof_Exact.v
theories/Prop_Exact.v
theories/Model_Sboxes.v
theories/Spec_Magma.v
theories/Proof_Magma.v
theories/Prop_Magma.v
theories/Spec_EngineMem.v
theories/Proof_EngineMem.v
theories/Prop_EngineMem.v
theories/Spec_Ber.v
theories/Proof_Ber.v
theories/Proof_BerKeys.v
theories/Prop_Ber.v
theories/Spec_Copy.v
theories/Proof_Copy.v
theories/Prop_Copy.v
theories/Model_KeyFile.v
theories/Spec_KeyFile.v
theories/Proof_KeyFile.v
theories/Prop_KeyFile.v
theories/Model_P8.v
theories/Spec_P8.v
theories/Proof_P8.v
theories/Proof_P8b.v
theories/Prop_P8.v
theories/Model_File.v
theories/Spec_File.v
theories/Proof_File.v
theories/Prop_File.v
theories/Model_CipherMem.v
theories/Spec_CipherMem.v
theories/Proof_CipherMem.v
theories/Proof_CipherMem2.v
theories/Prop_CipherMem.v
theories/Model_Pbe.v
theories/Spec_Pbe.v
theories/Proof_Pbe.v
theories/Proof_Pbe2.v
theories/Prop_Pbe.v
theories/Model_P12.v
theories/Spec_P12.v
theories/Proof_P12.v
theories/Proof_P12b.v
theories/Prop_P12.v
theories/Spec_Mirror.v
theories/Proof_Mirror.v
theories/Prop_Mirror.v
