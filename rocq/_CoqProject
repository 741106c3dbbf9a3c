-Q theories Verif
theories/Base/Bytes.v
theories/Proofs/BytesFacts.v
theories/Model/Buffer.v
theories/Proofs/BufferFacts.v
theories/Model/CString.v
theories/Model/Base64.v
theories/Model/Hex.v
theories/Model/Base32.v
theories/Spec/TextSpec.v
theories/Proofs/TextFacts.v
theories/Proofs/TextSafety.v
theories/Proofs/Base32Facts.v
theories/Spec/BufferSpec.v
theories/Proofs/BufferProps.v
theories/Props/PropsBuffer.v
theories/Model/Array.v
theories/Spec/ArraySpec.v
theories/Proofs/ArrayFacts.v
theories/Proofs/TextProps.v
theories/Props/PropsArray.v
theories/Props/PropsText.v
theories/Model/Cipher.v
theories/Model/Ecdsa.v
theories/Model/Kdf.v
theories/Spec/CodecSpec.v
theories/Proofs/CodecFacts.v
theories/Props/PropsCodec.v
theories/Base/Monad.v
theories/Model/Prims.v
theories/Model/Proto.v
theories/Model/Engine.v
theories/Spec/EngineSpec.v
theories/Proofs/ToyPrims.v
theories/Proofs/EngineFacts.v
theories/Props/PropsEngine.v
theories/Model/Fingerprint.v
theories/Model/Identity.v
theories/Model/Node.v
theories/Proofs/ProtoFacts.v
theories/Spec/IdentitySpec.v
theories/Proofs/FingerprintFacts.v
theories/Proofs/IdentityFacts.v
theories/Proofs/CacheFacts.v
theories/Proofs/IdentityProps.v
theories/Proofs/ToyObjects.v
theories/Props/PropsIdentity.v
theories/Model/Stream.v
theories/Spec/StreamSpec.v
theories/Proofs/StreamFacts.v
theories/Props/PropsStream.v
theories/Model/TransportPacket.v
theories/Spec/TransportSpec.v
theories/Proofs/TransportPacketFacts.v
theories/Props/PropsTransportPacket.v
theories/Model/EcdhCipher.v
theories/Model/Handshake.v
theories/Model/Transport.v
theories/Model/Ctx.v
theories/Model/Files.v
theories/Spec/KeysSpec.v
theories/Spec/MessageSpec.v
theories/Spec/CtxSpec.v
theories/Spec/FileSpec.v
theories/Spec/CopySpec.v
theories/Proofs/CopyFacts.v
theories/Props/PropsCopies.v
theories/Proofs/ParserFacts.v
theories/Props/PropsParsers.v
theories/Props/PropsEncode.v
theories/Model/Packet.v
theories/Model/Exchange.v
theories/Model/Payload.v
theories/Model/Keys.v
theories/Spec/HandshakeSpec.v
theories/Proofs/HandshakeFacts.v
theories/Proofs/AgreementFacts.v
theories/Proofs/TransportFacts.v
theories/Proofs/EndToEnd.v
theories/Proofs/SafetyFacts.v
theories/Proofs/ToyTransport.v
theories/Props/PropsTransport.v
theories/Proofs/KeysFacts.v
theories/Proofs/MessageFacts.v
theories/Proofs/PacketFacts.v
theories/Proofs/CtxFacts.v
theories/Proofs/CtxSafety.v
theories/Proofs/EncodeFacts.v
theories/Proofs/FileFacts.v
theories/Proofs/FileProps.v
theories/Props/PropsMessage.v
theories/Props/PropsCtx.v
theories/Props/PropsFiles.v
theories/Model/Heap.v
theories/Model/HeapObjects.v
theories/Model/HeapMessages.v
theories/Model/HeapParse.v
theories/Spec/HeapParseSpec.v
theories/Spec/HeapSpec.v
theories/Spec/HeapObjectSpec.v
theories/Proofs/HeapFacts.v
theories/Proofs/HeapObjectFacts.v
theories/Proofs/HeapMessageFacts.v
theories/Proofs/HeapTransportFacts.v
theories/Proofs/HeapCtxFacts.v
theories/Proofs/HeapExamples.v
theories/Props/PropsHeap.v
theories/Proofs/HeapParseFacts.v
theories/Proofs/HeapParseExamples.v
theories/Props/PropsHeapParse.v
theories/Model/RawSig.v
theories/Spec/RawSigSpec.v
theories/Spec/HashSpec.v
theories/Proofs/RawSigFacts.v
theories/Proofs/HashFacts.v
theories/Props/PropsMore.v
theories/Model/HeapWrite.v
theories/Spec/DeriveSpec.v
theories/Spec/HeapWriteSpec.v
theories/Proofs/HeapWriteFacts.v
theories/Proofs/HeapWriteExamples.v
theories/Proofs/DeriveFacts.v
theories/Props/PropsHeapWrite.v
theories/Props/PropsDerive.v
theories/Model/HeapEngine.v
theories/Spec/HeapEngineSpec.v
theories/Proofs/HeapEngineFacts.v
theories/Proofs/HeapKdfFacts.v
theories/Proofs/HeapEngineExamples.v
theories/Props/PropsHeapEngine.v
theories/Model/HeapProtocol.v
theories/Spec/HeapProtocolSpec.v
theories/Proofs/HeapProtocolFacts.v
theories/Proofs/HeapExchangeFacts.v
theories/Proofs/HeapPacketFacts.v
theories/Proofs/HeapReadingFacts.v
theories/Proofs/HeapDecodingFacts.v
theories/Proofs/HeapProtocolExamples.v
theories/Props/PropsHeapProtocol.v
theories/Model/HeapGenerate.v
theories/Spec/HeapGenerateSpec.v
theories/Proofs/HeapGenerateFacts.v
theories/Proofs/HeapGenerateExamples.v
theories/Props/PropsHeapGenerate.v
theories/Model/HeapContext.v
theories/Model/HeapStream.v
theories/Spec/HeapContextSpec.v
theories/Spec/HeapStreamSpec.v
theories/Proofs/HeapContextFacts.v
theories/Proofs/HeapContextExamples.v
theories/Props/PropsHeapContext.v
theories/Proofs/HeapStreamFacts.v
theories/Proofs/HeapStreamExamples.v
theories/Props/PropsHeapStream.v
theories/Model/HeapSending.v
theories/Spec/HeapSendingSpec.v
theories/Proofs/HeapSendingFacts.v
theories/Proofs/HeapSendingExamples.v
theories/Props/PropsHeapSending.v
theories/Model/HeapSigning.v
theories/Spec/HeapSigningSpec.v
theories/Proofs/HeapSigningFacts.v
theories/Proofs/HeapSigningExamples.v
theories/Props/PropsHeapSigning.v
theories/Model/HeapChannel.v
theories/Spec/HeapChannelSpec.v
theories/Proofs/HeapChannelFacts.v
theories/Proofs/HeapChannelExamples.v
theories/Props/PropsHeapChannel.v
theories/Model/HeapText.v
theories/Spec/HeapTextSpec.v
theories/Proofs/HeapTextFacts.v
theories/Proofs/HeapTextExamples.v
theories/Props/PropsHeapText.v
theories/Model/HeapJoin.v
theories/Spec/HeapJoinSpec.v
theories/Proofs/HeapJoinFacts.v
theories/Props/PropsHeapJoin.v
