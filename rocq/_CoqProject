-Q theories Verif
theories/M_Base.v
theories/M_Proto.v
theories/M_Utf8.v
theories/M_Wire.v
theories/M_JwtTypes.v
theories/M_StreamTypes.v
theories/M_Prims.v
theories/M_PrimitiveSet.v
theories/M_Registry.v
theories/M_KeysetHandle.v
theories/M_KeysetIO.v
theories/M_Wrappers.v
theories/M_Base64.v
theories/M_Kms.v
theories/M_KmsIntegrations.v
theories/M_Json.v
theories/M_RawJwt.v
theories/M_JwtValidator.v
theories/M_JwtFormat.v
theories/M_JwtPrims.v
theories/M_JwtWrappers.v
theories/M_JwtKeys.v
theories/S_Keyset.v
theories/S_Wrappers.v
theories/L_Base.v
theories/L_Utf8.v
theories/S_Wire.v
theories/L_Wire.v
theories/S_PrimitiveSet.v
theories/L_PrimitiveSet.v
theories/L_Keyset.v
theories/L_Wrappers.v
theories/L_Wrappers2.v
theories/S_Registry.v
theories/S_Handle.v
theories/L_Handle.v
theories/L_Registry.v
theories/L_Wrappers3.v
theories/S_Base64.v
theories/L_Base64.v
theories/S_Kms.v
theories/L_Kms.v
theories/S_KmsIntegrations.v
theories/L_KmsIntegrations.v
theories/S_Json.v
theories/L_Json.v
theories/L_Json2.v
theories/L_Json3.v
theories/L_Json4.v
theories/S_Jwt.v
theories/L_Jwt.v
theories/L_Jwt2.v
theories/L_Jwt3.v
theories/L_Jwt4.v
theories/L_Jwt5.v
theories/L_Jwt6.v
theories/X_Rt.v
theories/X_Toy.v
theories/L_Toy.v
theories/P_Prefix.v
theories/P_Aead.v
theories/P_Wrappers.v
theories/P_Registry.v
theories/P_Keyset.v
theories/P_Base64.v
theories/P_Kms.v
theories/P_Json.v
theories/S_JwtKeys.v
theories/L_Jwt7.v
theories/M_JwtRegister.v
theories/X_Jwt.v
theories/L_Jwt8.v
theories/P_Jwt.v
theories/P_JwtClaims.v
theories/M_Stream.v
theories/S_Stream.v
theories/L_Stream.v
theories/L_Stream2.v
theories/L_Stream3.v
theories/L_Stream4.v
theories/M_CcStream.v
theories/S_CcStream.v
theories/L_CcStream.v
theories/L_CcStream2.v
theories/L_CcStream3.v
theories/L_CcStream4.v
theories/L_CcStream5.v
theories/L_CcStream6.v
theories/M_RawFile.v
theories/S_RawFile.v
theories/L_RawFile.v
theories/X_Stream.v
theories/L_XStream.v
theories/P_Stream.v
theories/M_JsonKeyset.v
theories/S_JsonKeyset.v
theories/L_JsonKeyset.v
theories/L_JsonKeyset2.v
theories/L_JsonKeyset3.v
theories/P_JsonKeyset.v
theories/M_Jwk.v
theories/S_Jwk.v
theories/L_Jwk.v
theories/L_Jwk2.v
theories/L_Jwk3.v
theories/L_Jwk4.v
theories/L_Jwk5.v
theories/L_Jwk6.v
theories/L_Jwk7.v
theories/P_Jwk.v
theories/L_JwkVerify.v
theories/P_JwkVerify.v
theories/M_KeysetBuilder.v
theories/S_KeysetBuilder.v
theories/L_KeysetBuilder.v
theories/M_BigInt.v
theories/S_BigInt.v
theories/L_BigInt.v
theories/P_Builder.v
theories/M_ProtoMsg.v
theories/M_KeyFormats.v
theories/M_Templates.v
theories/S_ProtoMsg.v
theories/S_Templates.v
theories/L_ProtoMsg.v
theories/L_Templates.v
theories/P_Templates.v
theories/M_CcManagers.v
theories/S_Config.v
theories/L_Config.v
theories/L_Config2.v
theories/L_Config3.v
theories/S_CcLaws.v
theories/L_Config4.v
theories/X_Config.v
theories/P_Config.v
theories/M_KeysetStream.v
theories/S_Torn.v
theories/L_Torn.v
theories/L_Torn2.v
theories/P_Torn.v
theories/M_Threads.v
theories/S_Threads.v
theories/L_Threads.v
theories/L_Threads2.v
theories/L_Threads3.v
theories/L_Threads4.v
theories/L_Threads5.v
theories/P_Threads.v
theories/M_Objects.v
theories/S_Objects.v
theories/L_Objects.v
theories/L_Objects2.v
theories/L_Objects3.v
theories/L_Objects4.v
theories/L_Objects5.v
theories/L_Objects6.v
theories/P_Objects.v
theories/M_Cli.v
theories/S_Cli.v
theories/L_Cli.v
theories/L_Cli2.v
theories/L_Cli3.v
theories/L_Cli4.v
theories/L_Cli5.v
theories/L_Cli6.v
theories/P_Cli.v
theories/S_CliJwt.v
theories/L_JsonText.v
theories/L_Cli7.v
theories/P_CliJwt.v
theories/M_Buffered.v
theories/S_Buffered.v
theories/L_Buffered.v
theories/L_Buffered2.v
theories/L_Buffered3.v
theories/L_Buffered4.v
theories/L_Buffered5.v
theories/X_Buffered.v
theories/L_XBuffered.v
theories/P_Buffered.v
theories/M_CliStream.v
theories/S_CliStream.v
theories/L_CliStream.v
theories/L_CliStream2.v
theories/X_CliStream.v
theories/P_CliStream.v
theories/M_CcSegments.v
theories/S_CcSegments.v
theories/L_CcSegments.v
theories/L_CcSegments2.v
theories/L_CcSegments3.v
theories/L_CcSegments4.v
theories/M_CcAes.v
theories/S_CcAes.v
theories/L_CcAes.v
theories/L_CcAes2.v
theories/L_CcAes3.v
theories/L_CcAes4.v
theories/X_CcAes.v
theories/L_XCcAes.v
theories/P_CcAes.v
theories/M_CcStreamKeys.v
theories/S_CcStreamKeys.v
theories/L_CcStreamKeys.v
theories/L_CcStreamKeys2.v
theories/L_CcStreamKeys3.v
theories/X_CcStreamKeys.v
theories/P_CcStreamKeys.v
theories/M_Walkthrough.v
theories/S_Walkthrough.v
theories/L_Walkthrough.v
theories/S_Basic.v
theories/L_Basic.v
theories/P_Walkthrough.v
theories/M_FakeKms.v
theories/S_FakeKms.v
theories/L_FakeKms.v
theories/P_FakeKms.v
theories/M_TestFakes.v
theories/S_TestFakes.v
theories/L_TestFakes.v
theories/P_TestFakes.v
theories/M_CcModes.v
theories/S_CcModes.v
theories/L_CcModes.v
theories/L_CcModes2.v
theories/L_CcModes3.v
theories/L_CcModes4.v
theories/X_Aes.v
theories/P_CcModes.v
theories/M_CcSymmetric.v
theories/S_CcSymmetric.v
theories/L_CcSymmetric.v
theories/L_CcSymmetric2.v
theories/X_CcSymmetric.v
theories/P_CcSymmetric.v
theories/M_CcSymKeys.v
theories/S_CcSymKeys.v
theories/L_CcSymKeys.v
theories/L_CcSymKeys2.v
theories/X_CcSymKeys.v
theories/P_CcSymKeys.v
theories/S_CcSymHandles.v
theories/L_CcSymHandles.v
theories/L_CcSymHandles2.v
theories/L_CcSymHandles3.v
theories/L_CcSymHandles4.v
theories/P_CcSymHandles.v
theories/S_CcSymPrograms.v
theories/L_CcSymPrograms.v
theories/L_CcSymPrograms2.v
theories/L_CcSymPrograms3.v
theories/P_CcSymPrograms.v
theories/M_CcEcies.v
theories/S_CcEcies.v
theories/L_CcEcies.v
theories/L_CcEcies2.v
theories/L_CcEcies3.v
theories/L_CcEcies4.v
theories/L_CcEcies5.v
theories/X_CcEcies.v
theories/P_CcEcies.v
theories/M_CcEciesKeys.v
theories/S_CcEciesKeys.v
theories/L_CcEciesKeys.v
theories/L_CcEciesKeys2.v
theories/P_CcEciesKeys.v
theories/S_CcEciesHandles.v
theories/L_CcEciesHandles.v
theories/L_CcEciesHandles2.v
theories/L_CcEciesHandles3.v
theories/P_CcEciesHandles.v
theories/M_CcSignatures.v
theories/S_CcSignatures.v
theories/L_CcSigDer.v
theories/L_CcSignatures.v
theories/L_CcSigKeys.v
theories/L_CcSigKeys2.v
theories/L_CcSigNew.v
theories/L_CcSigNew2.v
theories/X_CcSignatures.v
theories/P_CcSignatures.v
theories/S_CcSigHandles.v
theories/L_CcSigHandles.v
theories/L_CcSigHandles2.v
theories/L_CcSigHandles3.v
theories/L_CcSigHandles4.v
theories/P_CcSigHandles.v
theories/M_CcJwt.v
theories/S_CcJwt.v
theories/L_CcJwt.v
theories/L_CcJwt2.v
theories/P_CcJwt.v
theories/S_CcJwtHandles.v
theories/L_CcJwtParse.v
theories/L_CcJwtHandles.v
theories/L_CcJwtHandles2.v
theories/L_CcJwtHandles3.v
theories/L_CcJwtHandles4.v
theories/P_CcJwtHandles.v
theories/M_CcHpke.v
theories/S_CcHpke.v
theories/L_CcHpke.v
theories/L_CcHpke2.v
theories/X_CcHpke.v
theories/P_CcHpke.v
theories/S_CcHpkeHandles.v
theories/L_CcHpkeHandles.v
theories/L_CcHpkeHandles2.v
theories/P_CcHpkeHandles.v
theories/S_CcHybrid.v
theories/L_CcHybrid.v
theories/L_CcHybrid2.v
theories/P_CcHybrid.v
theories/S_CcSigPrograms.v
theories/L_CcSigPrograms.v
theories/P_CcSigPrograms.v
theories/S_CcJwtPrograms.v
theories/L_CcJwtPrograms.v
theories/P_CcJwtPrograms.v
theories/S_CcJwk.v
theories/L_CcJwk.v
theories/P_CcJwk.v
theories/S_CcMaster.v
theories/L_CcMaster.v
theories/P_CcMaster.v
theories/S_CcPublish.v
theories/L_CcPublish.v
theories/L_CcPublish2.v
theories/L_CcPublish3.v
theories/P_CcPublish.v
theories/P_CcPublish2.v
theories/S_CcBuilder.v
theories/L_CcBuilder.v
theories/L_CcBuilder2.v
theories/P_CcBuilder.v
theories/S_CcBuilder2.v
theories/L_CcBuilder3.v
theories/P_CcBuilder2.v
theories/L_CcBuilder4.v
theories/P_CcBuilder3.v
theories/S_CcBuilder3.v
theories/L_CcBuilder5.v
theories/P_CcBuilder4.v
