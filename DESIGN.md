# Design

Machine-checked model of WickrInc/wickr-crypto-c in Rocq (Coq 8.16.1). Sources were read as text from /repo; nothing was built or run.

## Approach

* Bytes are `Coq.Init.Byte.byte`, buffers are `list byte`, pointers that may be NULL are `option`.
* `size_t` / `uint64_t` values are `N` with explicit wrap-around wherever the C code adds or subtracts unchecked.
* A C function that returns NULL on failure becomes `res A` (`Val a`, `Null`, `UB`); undefined behaviour (out-of-bounds access, NULL dereference, wrong union member) is the distinct outcome `UB`.
* Functions that draw random bytes or keys are in the monad `M` (a counter into an arbitrary infinite stream of random answers, which includes failing draws).
* Cryptographic primitives (AES-GCM, AES-CTR, SHA-2, HMAC, HKDF, ECDSA, ECDH, scrypt, bcrypt, the random source) are fields of the record `prims` (Model/Prims.v) that every theorem quantifies over. Their correctness laws are named hypotheses in the statements, never axioms. Proofs/ToyPrims.v has a concrete instance that meets every law, and the Examples beside the theorems use it. Statements that need "no collision" or "no forgery" say so about the explicit inputs of the history in question, not about the whole primitive.
* Each model file follows one or a few C files, function by function; each definition cites file and lines and says what it leaves out.
* Layout: `Base/` bytes and the two monads; `Model/` the code; `Spec/` small specifications that do not use the model's helpers; `Proofs/` lemmas; `Props/` the property theorems, each with an Example that meets its hypotheses and `Print Assumptions`.
* Where a property is false of the code, the property keeps its statement, the counterexample is a theorem named `..._refuted`, the strongest true version proved is named `..._partial`, and the manifest says "partial".

## Trusted base

* The kernel of Coq 8.16.1 (and `coqchk`, which re-checks every compiled file), including `vm_compute`, which closes the concrete Examples and counterexamples and some finite byte sweeps.
* `Print Assumptions` answers "Closed under the global context" for every one of the 952 theorems named in MANIFEST.json: no axioms at all, not even those of the standard library. (`coqchk` also lists seven constants of the standard library's `Coq.ssr.ssrunder`, a module that is loaded indirectly. No theorem depends on them.)
* That the model says what the C code does. This was checked by reading, and by the edits logged in seeded/LOG.jsonl; it is not machine-checked.
* The statements and the files in `Spec/`.

## What is modelled

| Model file | Code |
|---|---|
| Buffer.v, CString.v | buffer.c, buffer_priv.c; strlen and C strings |
| Base64.v, Hex.v, Base32.v | util.c (base64 and hex), b32.c |
| Array.v | array.c, with ownership of items and an explicit use-after-free outcome |
| Cipher.v, Ecdsa.v, Kdf.v | cipher.c, cipher_priv.c, ecdsa.c, eckey.c, digest.c, kdf.c |
| Prims.v, Engine.v | openssl_suite.c (wrappers around OpenSSL), crypto_engine.c |
| Fingerprint.v | fingerprint.c |
| Proto.v | the wire format of protobuf-c (see below) and the generated descriptors |
| Identity.v, Node.v | identity.c, identity_priv.c, node.c, node_priv.c, ephemeral_keypair.c, ephemeral_keypair_priv.c |
| Stream.v | stream_iv.c, stream_key.c, stream_key_priv.c, stream_ctx.c |
| TransportPacket.v, EcdhCipher.v, Handshake.v, Transport.v | transport_packet.c, ecdh_cipher_ctx.c, transport_root_key.c, transport_handshake.c, transport_handshake_priv.c, transport_ctx.c |
| Keys.v | root_keys.c, storage.c, storage_priv.c, devinfo.c |
| Payload.v, Exchange.v, Packet.v | packet_meta.c, payload.c, key_exchange.c, protocol.c, encoder_result.c |
| Ctx.v | wickr_ctx.c |
| Files.v | the file functions of openssl_suite.c and openssl_file_suite.c over a file system with failing and partial system calls and a log of every intermediate state |
| RawSig.v | openssl_ecdsa_to_raw and openssl_ecdsa_from_raw (openssl_suite.c:942-1085) for AWS-LC, OpenSSL 1.1+ and before 1.1; the DER functions of OpenSSL are the record `der` |
| Heap.v, HeapObjects.v, HeapMessages.v | the copy and destroy functions of every object (and the constructors they call) once more, as operations on a heap of blocks with failing allocations, wiping and release; `None` is undefined behaviour (write through NULL, use after free, double free). A block holds the bytes of a data block; structs are blocks whose members are the fields of the Coq record |
| HeapParse.v | the functions that make objects from bytes or from decoded messages, as operations on the same heap. Unpacking a protobuf message allocates one block per message and per non-empty bytes field (protobuf-c), decoding an EC key two blocks (EC_KEY, EVP_PKEY); `ctx_create_from_buffer` is in HeapContext.v; handshake and header messages are not modelled at this level |
| HeapWrite.v | the functions that turn objects into bytes or into protobuf messages, as operations on the same heap. A message owns blocks and borrows those of the object; packing reads both and fills one new buffer, releasing a message releases its own blocks unwiped. Filling a buffer piece by piece is one step |
| HeapEngine.v | the operations of the default engine and the hashing part of kdf.c, as operations on the same heap: what they allocate, release and leave behind around the primitives. An OpenSSL context is one block without contents (OpenSSL clears what it releases) |
| HeapProtocol.v | key agreement, key exchanges, encryption of headers, payloads and root keys, signing, reading and decoding packets, storage encryption, export and import of keys, as operations on the same heap. Encoding packets is in HeapSending.v, streams are in HeapStream.v, signed transport packets in HeapSigning.v, data over an active transport in HeapChannel.v; the handshake and the states of the transport are not modelled at this level |
| HeapGenerate.v | signing with an identity, generation of identities, key pairs, root keys, devices, transport and stream keys, localization and fingerprints, as operations on the same heap |
| HeapContext.v | validation of chains and nodes (which changes them in place), making, reading, importing and generating contexts, as operations on the same heap |
| HeapStream.v | making a stream context, evolving its key, encoding and decoding packets, as operations on the same heap. The buffer of a nonce holds the nonce alone: the rest of the digest it is cut from is not modelled |
| HeapSending.v | validating the recipients, making their exchanges, `wickr_packet_create_from_components` and `wickr_ctx_encode_packet`, as operations on the same heap. The array of recipients is returned with the answer, since validation changes the cached results inside it |
| HeapSigning.v | `wickr_transport_packet_sign` and `wickr_transport_packet_verify`, as operations on the same heap. The packet and the chain are returned with the answer, since both may change. The verified bytes are a prefix of a buffer that is not copied |
| HeapChannel.v | sending and receiving data over an active transport (`transport_ctx.c:140-208`, `351-367`, `427-454`), as operations on the same heap. The stream is returned with the answer. The other members of the transport context and the callbacks are left out: no answer means that the context goes to the error state |
| HeapText.v | base32, base64 and hexadecimal texts and the texts of fingerprints, as operations on the same heap. A text is a buffer with a length of its own, since its allocation is longer than its length |
| HeapJoin.v | sections and concatenations of buffers, as operations on the same heap, with the 64-bit arithmetic of the code. Arguments are read before the result is allocated |

## What is not modelled

* OpenSSL, bcrypt, scrypt and the C library: they are the fields of `prims`, or (fopen, fread, fwrite, fclose, rename, remove) the record `os` of Files.v.
* protobuf-c is not in the repository. Proto.v models the behaviour of protobuf-c 1.3/1.4 as known: unknown fields skipped, last scalar wins, repeated sub-messages merged, groups refused, missing required fields refused.
* Outside Heap*.v and Array.v, memory allocation succeeds for every size the library accepts, and freeing and leaks are not modelled. Heap*.v covers the copy and destroy functions, the functions that read objects from bytes and write them, the operations of the engine and those of the messaging protocol and the generators listed in the table: what other functions do when an allocation inside them fails is not modelled.
* The user's callbacks of a transport context do not call back into the context, except to answer about an identity from inside the identity callback.
* Engines other than the default one (curve P-521, cipher AES-256-GCM); NULL engine pointers; structures with NULL mandatory members (the library never makes them).
* Threads. The library has no locks and does not document concurrent use of one object.
* Files: a crash is the end of the process. Nothing is synced by the code, so power loss is outside the model. stdio buffering is not modelled except that a failing fclose may leave any contents. Other processes do not touch the files.
* Timing, side channels, memory wiping by the compiler.
* The bindings in /repo/wickr-crypto-sys and the tests.
* C30–C33 speak about histories in which no call hit undefined behaviour; C61 says exactly when that happens.

## Properties: what is modelled and how it is proved

* **C01** Buffer sections never read or write outside the source — Model/Buffer.v, buffers as byte lists, size_t as N below 2^64 with explicit wrap-around addition; equivalence with firstn/skipn; modify as pointwise statement. **proved**: `C01_copy_section`, `C01_modify_section`.
* **C02** Joining buffers yields the bytes in order — Model/Buffer.v two-pass loops (uint8 counter) ; equality with flat concatenation by induction. **proved**: `C02_concat_multi`, `C02_concat`.
* **C03** An array behaves as a fixed-size map of owned items — Model/Array.v; refinement to a total map, induction over op lists. **proved**: `C03_array_refines_list`, `C03_mixed_ownership_refuted`.
* **C04** Base64 decoding undoes base64 encoding — Model/Base64.v with output cursor over result memory; spec = RFC 4648 as bit regrouping. **proved**: `C04_base64_text`, `C04_base64_roundtrip`.
* **C05** Base64 decoding is memory safe on C strings — Model/Base64.v over (allocation, length field) memory with an explicit undefined outcome; positive theorem under stated conditions, counterexamples for the rest. **partial**: `C05_base64_decode_safe_partial`, `C05_high_byte_refuted`, `C05_overflow_refuted`, `C05_unterminated_refuted`.
* **C06** Hex text decodes to the bytes it was made from — Model/Hex.v incl. strtol base-16 on two characters; byte sweep + induction. **proved**: `C06_hex_text`, `C06_hex_roundtrip`.
* **C07** Malformed hex text is rejected — Expected to be false of the code: counterexample theorem and exact characterisation. **partial**: `C07_hex_decode_partial`, `C07_malformed_refuted`.
* **C08** Base32 decoding undoes base32 encoding — Model/Base32.v; blocks of 5 bytes; bit-list spec. **proved**: `C08_base32_text`, `C08_base32_roundtrip`.
* **C09** Base32 decoding rejects foreign characters and stays in bounds — Model/Base32.v. **proved**: `C09_base32_decode`.
* **C10** Both parties compute the same bilateral fingerprint — Model/Fingerprint.v; symmetry of combine. **proved**: `C10_bilateral_symmetric`, `C10_identity_bilateral_symmetric`, `C10_bilateral_value`, `C10_bilateral_of_equals`.
* **C11** A fingerprint binds identifier and key — Model/Fingerprint.v; injectivity of the digested pre-image under an injective digest hypothesis. **proved**: `C11_fingerprint_binds`, `C11_fingerprint_exists`, `C11_bilateral_binds`, `C11_short_keys_refuted`.
* **C12** Cipher results survive serialization — Model/Cipher.v; parser/printer both directions. **proved**: `C12_result_roundtrip`, `C12_result_too_big`, `C12_result_accept`.
* **C13** Cipher keys survive serialization — Model/Cipher.v. **proved**: `C13_key_roundtrip`, `C13_key_accept`.
* **C14** Decryption inverts encryption — Model/Engine.v: openssl wrappers over a record of primitives (GCM, CTR, ...) with correctness laws as hypotheses. **proved**: `C14_decrypt_encrypt`, `C14_through_serialization`, `C14_encrypt_succeeds`, `C14_empty_plaintext_refuted`, `C14_short_iv_refuted`.
* **C15** Unauthenticated ciphertext is never accepted where authentication is required — Model/Engine.v and every caller. **proved**: `C15_decrypt_refuses_unauthenticated`, `C15_decrypt_authenticated`, `C15_kdf_decipher_authenticated`, `C15_stream_decode_authenticated`, `C15_payload_authenticated`, `C47_header_opened`, `C52_local_authenticated`, `C52_remote_authenticated`, `C52_unauthenticated_rejected`, `C15_recovery_authenticated`.
* **C16** ECDSA signatures have one fixed wire size and survive it — Model/Ecdsa.v. **proved**: `C16_signature_roundtrip`, `C16_signature_size`, `C16_long_signature_refused`, `C16_parser_safe`.
* **C17** A serialized signature has one representation — Expected false (padding bytes are ignored): counterexample plus canonical-form theorem. **partial**: `C17_padding_refuted`, `C17_signature_form_partial`.
* **C18** KDF parameters survive serialization and never over-read — Model/Kdf.v. **proved**: `C18_kdf_roundtrip`, `C18_kdf_accept`, `C18_kdf_created`.
* **C19** Passphrase-wrapped data unwraps with the same passphrase — Model/Kdf.v + Model/Engine.v. **proved**: `C19_unwrap_wrap`, `C19_wrap_succeeds`.
* **C20** Sequence numbers are accepted at most once and only in increasing order — Model/Stream.v; invariant over op lists. **proved**: `C20_accepted_increasing`.
* **C21** A receiver stays in step with the sender across gaps — Model/Stream.v; simulation between two contexts. **proved**: `C21_receiver_in_step`, `C21_sender_sends`.
* **C22** The stream key in use depends only on the sequence number — Model/Stream.v; evolution composes. **proved**: `C22_key_of_packet`, `C22_key_held`.
* **C23** A stream never uses one IV twice under one key — Model/Stream.v; counter invariant. **proved**: `C23_iv_counters`, `C23_iv_distinct`.
* **C24** Copying a stream context does not lead to nonce reuse — Expected false: counterexample by two contexts sharing seed and counter. **partial**: `C24_copy_reuses_nonce`, `C24_no_nonce_reuse_refuted`, `C24_copy_behaves_alike_partial`.
* **C25** A rejected packet does not disturb the stream — Expected false: state advances before authentication; counterexample plus what does hold. **partial**: `C25_forgery_disturbs_refuted`, `C25_later_packets_decode_partial`, `C25_stale_packet_harmless_partial`.
* **C26** Stream keys survive serialization — Model/Proto.v (protobuf wire format) + Model/Stream.v. **proved**: `C26_stream_key_roundtrip`, `C26_stream_key_serializes`, `C26_stream_key_parsed`, `C26_evolution_keeps_user_data_refuted`.
* **C27** Transport packets survive the network format — Model/TransportPacket.v. **proved**: `C27_packet_roundtrip`, `C27_packet_serializes`, `C27_parsed_packet_reserializes`, `C27_parse_defined`.
* **C28** Transport packet signatures cover every byte — Model/TransportPacket.v. **proved**: `C28_signed_packet_verifies`, `C28_signature_covers_all_bytes`, `C28_copy_verifies_alike`, `C28_signed_again_refuted`.
* **C29** Both ends of a handshake agree on the keys — Model/Handshake.v both roles, ECDH commutation as hypothesis. **proved**: `C29_both_ends_agree`, `C29_directions_differ`, `C29_contexts_agree`.
* **C30** No handshake completes without an accepted remote identity — Model/Handshake.v; invariant over event lists. **proved**: `C30_keys_only_after_acceptance`, `C30_complete_only_after_acceptance`, `C30_bad_signature_fails`, `C30_failure_is_final`.
* **C31** Application data flows only on an active transport — Model/Transport.v; invariant over event lists, outputs as a trace. **proved**: `C31_data_only_when_active`, `C31_active_is_authenticated`, `C31_active_has_new_streams`.
* **C32** A failed transport stays failed — Model/Transport.v. **partial**: `C32_error_absorbing_refuted`, `C32_error_absorbing_partial`, `C32_pinned_never_asks_partial`.
* **C33** Delivered data is an in-order duplicate-free subsequence of sent data — Model/Transport.v + Model/Stream.v; trace induction with an unforgeability hypothesis on the log. **proved**: `C33_delivered_in_order`, `C33_connected_contexts`.
* **C34** Cached chain validation never changes the answer — Model/Identity.v. **proved**: `C34_chain_cache_transparent`, `C34_unedited_chain`, `C34_digest_type_refuted`.
* **C35** Cached node validation never changes the answer — Model/Node.v; true for API histories, false after replacing the chain (counterexample). **partial**: `C35_node_cache_transparent_partial`, `C35_replaced_chain_refuted`.
* **C36** Serialized public identities never contain private keys — Model/Identity.v, Node.v; equality of outputs for objects differing in private data. **proved**: `C36_identity_serialization_public`, `C36_chain_serialization_public`, `C36_keypair_serialization_public`, `C36_node_serialization_public`, `C36_chain_parsed_public`, `C36_keypair_parsed_public`.
* **C37** Identities, chains, nodes and keypairs survive serialization — Model/Identity.v, Node.v over Model/Proto.v. **proved**: `C37_identity_roundtrip`, `C37_chain_roundtrip`, `C37_private_chain_roundtrip`, `C37_keypair_roundtrip`, `C37_node_roundtrip`, `C37_engine_keys_importable`.
* **C38** Message packets survive the wire format — Model/Packet.v. **proved**: `C38_packet_roundtrip`, `C38_packet_serializes`, `C38_packet_rejects`, `C38_packet_safe`.
* **C39** Only the sender's node key can make a packet parse successfully — Model/Packet.v. **proved**: `C39_valid_means_verified`, `C39_bad_signature`, `C39_success_authenticated`, `C39_parse_safe`, `C39_decode_only_verified`.
* **C40** Every recipient can decode the message — Model/Packet.v; induction over recipients. **partial**: `C40_recipients_decode_partial`, `C40_contexts_decode_partial`, `C40_same_identifier_refuted`.
* **C41** A node that is not a recipient finds no key — Model/Packet.v. **proved**: `C41_stranger_not_found`, `C41_context_stranger`.
* **C42** Messages are only encrypted to verified recipients — Model/Packet.v. **proved**: `C42_recipients_checked`, `C42_recipients_verified`, `C42_fresh_recipients`.
* **C43** The packet signature covers the whole packet — Expected false for the version byte; counterexample plus theorem for the content. **partial**: `C43_version_byte_refuted`, `C43_curve_nibble_refuted`, `C43_signature_covers_content_partial`.
* **C44** Payloads survive encoding — Model/Payload.v. **proved**: `C44_payload_roundtrip`, `C44_payload_serializes`.
* **C45** Key exchange sets survive encoding and keep every exchange — Model/Exchange.v. **proved**: `C45_exchange_set_roundtrip`, `C45_find_first`, `C45_find_none`.
* **C46** Key exchanges agree on the packet key — Model/Exchange.v with Model/EcdhCipher.v. **proved**: `C46_packet_key_agrees`.
* **C47** Only authenticated header bytes select the exchange — Model/Ctx.v; expected ambiguity of root||node identifiers. **partial**: `C47_header_opened`, `C47_separated_partial`, `C47_ambiguous_refuted`.
* **C48** Root keys, storage keys and contexts survive storage — Model/Keys.v, Ctx.v. **partial**: `C48_root_keys`, `C48_generated_root_keys`, `C48_storage_keys`, `C48_context_partial`, `C48_context_export_partial`, `C48_storage_export`, `C48_storage_keys_accepted`, `C48_root_keys_accepted`, `C48_context_version_refuted`.
* **C49** Account recovery restores the root keys — Model/Ctx.v. **proved**: `C49_recovery_restores`, `C49_recovery_succeeds`, `C49_passphrase`.
* **C50** Context generation reports failure instead of crashing — Model/Ctx.v with explicit NULL-dereference outcome; expected counterexample. **partial**: `C50_generation_safe`, `C50_import_safe`, `C50_recovery_refuted`, `C50_recovery_partial`, `C50_passphrase_partial`.
* **C51** Local storage keys are bound to the device, remote ones are not — Model/Keys.v. **proved**: `C51_localize`, `C51_localize_succeeds`, `C51_two_devices`.
* **C52** Storage encryption keeps local and remote data apart and authenticated — Model/Ctx.v. **proved**: `C52_local_roundtrip`, `C52_remote_roundtrip`, `C52_local_authenticated`, `C52_remote_authenticated`, `C52_unauthenticated_rejected`, `C52_generated_ciphers`.
* **C53** Device ids derive deterministically from salt and system id — Model/Keys.v. **proved**: `C53_derive`, `C53_derive_succeeds`, `C53_deterministic`, `C53_copy`, `C53_create_new`.
* **C54** Encrypted files decrypt to the original, whatever their size — Model/Files.v. **proved**: `C54_file_contents`, `C54_any_chunk_size`, `C54_same_as_in_memory`, `C54_round_trip`.
* **C55** A destination file is replaced only after complete success — Model/Files.v: file system as map, list of atomic steps, every prefix. **partial**: `C55_encrypt_crash_partial`, `C55_decrypt_crash_partial`, `C55_failure`, `C55_no_temporary_file`, `C55_other_files`, `C55_answers`, `C55_close_refuted`.
* **C56** File encryption that reports success encrypted the whole file — Expected false on read errors and on source == dest.temp: counterexamples plus theorem for the good case. **partial**: `C56_success_is_complete_partial`, `C56_read_error_refuted`, `C56_overlap_refuted`, `C56_close_refuted`.
* **C57** Copies are faithful — per type, with the types above. **partial**: `C57_buffer`, `C57_cipher_key`, `C57_cipher_result`, `C57_ec_key`, `C57_signature`, `C57_kdf`, `C57_fingerprint`, `C57_ecdh_context`, `C57_identity`, `C57_node`, `C57_stored_keys`, `C57_messages`, `C57_streams`, `C57_handshake_keys`, `C57_transport_packet_partial`, `C57_handshake_partial`, `C57_transport_packet_refuted`, `C57_transport_partial`, `C57_transport_refuted`, `C57_context`, `C57_generation_result`.
* **C58** Parsing never fails unsafely — per parser, with the undefined outcome. **proved**: `C58_cipher_objects`, `C58_signature`, `C58_kdf_parameters`, `C58_packet`, `C58_transport_packet`, `C58_ec_key`, `C58_identities`, `C58_stored_keys`, `C58_message_parts`, `C58_context`.
* **C59** What the library generates and signs verifies — Model/Identity.v, Node.v, Engine.v: what the generators return is run through the verifiers, under the law that verifying inverts signing. **proved**: `C59_generated_node_identity`, `C59_generated_chain_validates`, `C59_generated_keypair`, `C59_signatures_verify`, `C59_generated_with_key`, `C59_context_keypair`.
* **C60** Stream contexts are freed exactly at the last release — Model/Stream.v; induction over lists of ref_up / destroy calls. **proved**: `C60_references`, `C60_granted`.
* **C61** No packet makes a handshake or transport misuse memory — Model/Handshake.v, Transport.v: the undefined outcome over every list of calls. Expected false (the union of the handshake message is read without looking at its tag). **partial**: `C61_transport_memory_safe_refuted`, `C61_only_a_wrong_variant_partial`.
* **C62** Encoding a packet never crashes — Model/Packet.v, Ctx.v: the undefined outcome of encoding. Expected false next to the buffer limit. **partial**: `C62_encode_partial`, `C62_small_payload_partial`, `C62_components_partial`, `C62_crash`, `C62_encode_refuted`.
* **C63** The digest of a file is the digest of its contents — Model/Files.v; induction over the chunks read. **proved**: `C63_file_digest`.
* **C64** Copying is safe whichever allocations fail — Model/Heap*.v: a heap of blocks, an allocator that fails according to an arbitrary schedule, every copy function step by step; a weakest-precondition calculus with a separation-style invariant (Proofs/HeapFacts.v), one rule per function, composed. **partial**: `C64_buffer`, `C64_ec_key_partial`, `C64_ec_key_crashes_refuted`, `C64_ecdsa_result_partial`, `C64_ecdsa_result_crashes_refuted`, `C64_cipher_key_partial`, `C64_cipher_key_crashes_refuted`, `C64_cipher_result_partial`, `C64_cipher_result_crashes_refuted`, `C64_cipher_result_leaks_refuted`, `C64_cipher_result_drops_refuted`, `C64_kdf_meta_partial`, `C64_kdf_meta_leaks_refuted`, `C64_kdf_result_partial`, `C64_kdf_result_leaks_refuted`, `C64_fingerprint`, `C64_identity_partial`, `C64_identity_drops_refuted`, `C64_chain_partial`, `C64_keypair_partial`, `C64_node_partial`, `C64_node_array_partial`, `C64_packet_meta_partial`, `C64_packet_meta_crashes_refuted`, `C64_payload_partial`, `C64_key_exchange_partial`, `C64_key_exchange_crashes_refuted`, `C64_exchange_array_partial`, `C64_exchange_set_partial`, `C64_packet_partial`, `C64_parse_result_partial`, `C64_parse_result_drops_refuted`, `C64_decode_result_partial`, `C64_decode_result_leaks_refuted`, `C64_decode_result_drops_refuted`, `C64_encoder_result_partial`, `C64_root_keys_partial`, `C64_storage_keys_partial`, `C64_dev_info`, `C64_stream_key_partial`, `C64_stream_iv`, `C64_stream_ctx_partial`, `C64_root_key`, `C64_tpacket`, `C64_ecdh_ctx_partial`, `C64_handshake_res_partial`, `C64_packet_list`, `C64_handshake_partial`, `C64_transport_partial`, `C64_ctx_partial`, `C64_ctx_crashes_refuted`, `C64_gen_result_partial`.
* **C65** Destroying releases exactly what the object owns and wipes its secrets — The same; one destroy rule per function. **proved**: `C65_buffer`, `C65_ec_key`, `C65_ecdsa_result`, `C65_cipher_key`, `C65_cipher_result`, `C65_kdf_meta`, `C65_kdf_result`, `C65_fingerprint`, `C65_identity`, `C65_chain`, `C65_keypair`, `C65_node`, `C65_node_array`, `C65_packet_meta`, `C65_payload`, `C65_key_exchange`, `C65_exchange_array`, `C65_exchange_set`, `C65_packet`, `C65_parse_result`, `C65_decode_result`, `C65_encoder_result`, `C65_root_keys`, `C65_storage_keys`, `C65_dev_info`, `C65_stream_key`, `C65_stream_iv`, `C65_stream_ctx`, `C65_root_key`, `C65_tpacket`, `C65_ecdh_ctx`, `C65_handshake_res`, `C65_packet_list`, `C65_handshake`, `C65_transport`, `C65_ctx`, `C65_gen_result`, `C65_buffer_zero`, `C65_ctx_packet`, `C65_node_array_shallow`.
* **C66** A copy is independent of the original — From the rules of C64 and C65 with the schedule in which nothing fails. **proved**: `C66_buffer`, `C66_ec_key`, `C66_ecdsa_result`, `C66_cipher_key`, `C66_cipher_result`, `C66_kdf_meta`, `C66_kdf_result`, `C66_fingerprint`, `C66_identity`, `C66_chain`, `C66_keypair`, `C66_node`, `C66_node_array`, `C66_packet_meta`, `C66_payload`, `C66_key_exchange`, `C66_exchange_array`, `C66_exchange_set`, `C66_packet`, `C66_parse_result`, `C66_decode_result`, `C66_encoder_result`, `C66_root_keys`, `C66_storage_keys`, `C66_dev_info`, `C66_stream_key`, `C66_stream_iv`, `C66_stream_ctx`, `C66_root_key`, `C66_tpacket`, `C66_ecdh_ctx`, `C66_handshake_res`, `C66_packet_list`, `C66_handshake`, `C66_transport`, `C66_ctx`, `C66_gen_result`.
* **C67** Raw signatures and DER signatures are converted faithfully — The two conversions as functions over integers, the DER functions of OpenSSL as a record; big-endian encoding of fixed width is inverted by induction. Over-long and negative numbers are computed. **partial**: `C67_raw_roundtrip`, `C67_from_raw_safe`, `C67_der_roundtrip_partial`, `C67_aws_partial`, `C67_too_long_refuted`, `C67_overflow_refuted`, `C67_sign_refuted`, `C67_zero_refuted`.
* **C68** A MAC is accepted exactly when it is the right one — hmac_verify unfolds to equality of byte strings because the length is that of the digest. **proved**: `C68_mac_exact`, `C68_mac_created`, `C68_mac_null`.
* **C69** A derived hash is what its metadata advertises — A separate relation (Spec/HashSpec.v) says which primitive, cost and output each algorithm number means; case analysis over the algorithms of kdf.h. **proved**: `C69_advertised`, `C69_fresh`.
* **C70** The texts of a fingerprint — From the theorems on base32 and hex (C06-C09) and the length 64. **proved**: `C70_base32_texts`, `C70_hex_texts`.
* **C71** Rotating a device key replaces the key and nothing else — Direct from the model and the theorem that copies of key pairs are equal (C57). **proved**: `C71_rotation`, `C71_rotation_null`, `C71_make_public`.
* **C72** Imported keys are the keys that were given — Inversion of the import; generated keys via the laws of the EC primitives (ec_ok, gen_ok). **proved**: `C72_private`, `C72_public`, `C72_generated`.
* **C73** Reading an object from bytes takes only the memory of the object — The readers once more as operations on the heap (Model/HeapParse.v), related to the functional model by one rule per reader (parse_rule), composed along the calls; loops over exchange lists and message fields by induction. **partial**: `C73_cipher_key`, `C73_cipher_result`, `C73_ecdsa_result`, `C73_kdf_meta`, `C73_public_key`, `C73_private_key`, `C73_identity`, `C73_chain`, `C73_keypair`, `C73_node`, `C73_root_keys`, `C73_exchange_set`, `C73_storage_keys`, `C73_stream_key_partial`, `C73_payload`, `C73_packet_partial`, `C73_tpacket`, `C73_packet_leaks_refuted`, `C73_stream_key_leaks_refuted`.
* **C74** Reading an object from bytes survives failing allocations — The same rules: they hold for every schedule of failing allocations. **partial**: `C74_cipher_key_partial`, `C74_cipher_key_crashes_refuted`, `C74_cipher_result_partial`, `C74_cipher_result_crashes_refuted`, `C74_ecdsa_result_partial`, `C74_ecdsa_result_crashes_refuted`, `C74_kdf_meta_partial`, `C74_public_key_partial`, `C74_public_key_crashes_refuted`, `C74_private_key_partial`, `C74_identity_partial`, `C74_chain_partial`, `C74_keypair_partial`, `C74_node_partial`, `C74_root_keys_partial`, `C74_exchange_set_partial`, `C74_exchange_set_crashes_refuted`, `C74_storage_keys_partial`, `C74_stream_key_partial`, `C74_payload_partial`, `C74_payload_crashes_refuted`, `C74_packet_partial`, `C74_packet_crashes_refuted`, `C74_tpacket`, `C74_kdf_meta_leaks_refuted`, `C74_private_key_leaks_refuted`.
* **C75** Reading a secret leaves no readable copy of it — The wiping part of the same rules, with nothing or only the public key allowed to stay readable; counterexamples by evaluation. **partial**: `C75_root_keys_exposed_refuted`, `C75_storage_keys_exposed_refuted`, `C75_stream_key_exposed_refuted`, `C75_payload_exposed_refuted`, `C75_chain_exposed_refuted`, `C75_partial`.
* **C76** Turning an object into bytes takes only the memory of the bytes — The writers once more as operations on the heap (Model/HeapWrite.v), related to the functional model by one rule per writer (write_rule) or message builder (build_rule), composed along the calls; lists of exchanges by induction. **proved**: `C76_cipher_result`, `C76_cipher_key`, `C76_kdf_meta`, `C76_ecdsa_result`, `C76_identity`, `C76_chain`, `C76_chain_private`, `C76_keypair`, `C76_node`, `C76_exchange_set`, `C76_payload`, `C76_packet`, `C76_tpacket`, `C76_root_keys`, `C76_storage_keys`, `C76_stream_key`, `C76_ctx`.
* **C77** Turning an object into bytes survives failing allocations — The same rules: they hold for every schedule of failing allocations; counterexamples by evaluation of one schedule. **partial**: `C77_cipher_result`, `C77_cipher_key`, `C77_kdf_meta`, `C77_ecdsa_result_partial`, `C77_identity_partial`, `C77_chain_partial`, `C77_chain_private_partial`, `C77_keypair_partial`, `C77_node_partial`, `C77_exchange_set`, `C77_payload`, `C77_packet_partial`, `C77_tpacket`, `C77_root_keys_partial`, `C77_storage_keys_partial`, `C77_stream_key_partial`, `C77_ctx_partial`, `C77_ecdsa_result_spoiled_refuted`, `C77_identity_spoiled_refuted`, `C77_chain_spoiled_refuted`, `C77_chain_private_spoiled_refuted`, `C77_keypair_spoiled_refuted`, `C77_node_spoiled_refuted`, `C77_ctx_spoiled_refuted`, `C77_packet_leaks_refuted`, `C77_node_leaks_refuted`, `C77_storage_keys_crashes_refuted`, `C77_storage_keys_data_crashes_refuted`, `C77_stream_key_crashes_refuted`, `C77_stream_key_buffer_crashes_refuted`, `C77_ctx_crashes_refuted`, `C77_root_keys_null_refuted`, `C77_root_keys_public_crashes_refuted`.
* **C78** Turning a secret into bytes leaves no other readable copy of it — The wiping part of the same rules, with nothing or only signatures allowed to stay readable; counterexamples by evaluation. **partial**: `C78_storage_keys_exposed_refuted`, `C78_stream_key_exposed_refuted`, `C78_ctx_exposed_refuted`, `C78_cipher_key_partial`, `C78_root_keys_partial`, `C78_payload_partial`, `C78_chain_private_partial`, `C78_kdf_meta_partial`.
* **C79** Key agreement binds the parties, the pre-shared key and the version — Inversion of the model of ecdh_cipher_ctx.c and protocol.c down to the HKDF primitive; the derivations are stated in Spec/DeriveSpec.v as relations over the primitives. **proved**: `C79_agreed_key`, `C79_sender`, `C79_recipient`.
* **C80** Cryptographic operations take only the memory of their result — Each operation is written once more as a program on the heap (Model/HeapEngine.v); a rule per program (Proofs/HeapEngineFacts.v, HeapKdfFacts.v) relates it to the functional model for every schedule, and C80 is the case without failures. Counterexamples by evaluation. **partial**: `C80_random`, `C80_random_key`, `C80_encrypt_partial`, `C80_decrypt`, `C80_hash`, `C80_hmac`, `C80_hmac_verify_partial`, `C80_hkdf`, `C80_generate_key`, `C80_sign_partial`, `C80_verify`, `C80_shared_secret`, `C80_kdf_partial`, `C80_kdf_meta_partial`, `C80_kdf_cipher`, `C80_kdf_decipher_partial`, `C80_encrypt_refuted`, `C80_hmac_verify_refuted`, `C80_sign_refuted`, `C80_kdf_refuted`, `C80_kdf_decipher_refuted`.
* **C81** Cryptographic operations survive failing allocations — The same rules for every schedule: strict where no untested allocation and no leak occurs, otherwise with both named. **partial**: `C81_random_partial`, `C81_random_key_partial`, `C81_encrypt_partial`, `C81_decrypt`, `C81_hash_partial`, `C81_hmac`, `C81_hmac_verify_partial`, `C81_hkdf`, `C81_generate_key_partial`, `C81_sign_partial`, `C81_verify_partial`, `C81_shared_secret_partial`, `C81_kdf_partial`, `C81_kdf_meta_partial`, `C81_kdf_cipher_partial`, `C81_kdf_decipher_partial`, `C81_random_refuted`, `C81_random_key_refuted`, `C81_encrypt_refuted`, `C81_hash_refuted`, `C81_generate_key_refuted`, `C81_sign_refuted`, `C81_verify_refuted`, `C81_shared_secret_refuted`, `C81_kdf_meta_refuted`, `C81_kdf_cipher_refuted`, `C81_kdf_decipher_refuted`.
* **C82** Cryptographic operations leave no readable copy of a key, a passphrase or a text — The wiping part of the same rules; counterexamples by evaluation. **partial**: `C82_random`, `C82_random_key`, `C82_encrypt`, `C82_decrypt`, `C82_hash`, `C82_hmac`, `C82_hmac_verify`, `C82_hkdf`, `C82_generate_key`, `C82_sign`, `C82_verify`, `C82_shared_secret`, `C82_kdf_partial`, `C82_kdf_meta_partial`, `C82_kdf_cipher_partial`, `C82_kdf_decipher_partial`, `C82_kdf_refuted`, `C82_kdf_decipher_refuted`, `C82_kdf_meta_refuted`.
* **C83** Protocol operations take only the memory of their result — The operations of the protocol as programs on the heap (Model/HeapProtocol.v), composed from those of the engine, the readers and the writers; a rule per program from the rules of its parts (Proofs/HeapProtocolFacts.v, HeapExchangeFacts.v, HeapPacketFacts.v, HeapReadingFacts.v, HeapDecodingFacts.v); C83 is the case without failures. Counterexamples by evaluation. **partial**: `C83_agreement_create`, `C83_agreement_key`, `C83_agreement_encrypt`, `C83_agreement_decrypt`, `C83_exchange_data`, `C83_exchange_key`, `C83_derive_data`, `C83_derive_key`, `C83_header_encrypt`, `C83_header_decrypt`, `C83_exchange_find`, `C83_payload_encrypt`, `C83_payload_decrypt`, `C83_packet_sign_partial`, `C83_packet_read`, `C83_ctx_read_partial`, `C83_ctx_parse_partial`, `C83_ctx_parse_no_decode_partial`, `C83_packet_decode`, `C83_ctx_decode`, `C83_cipher_local`, `C83_decipher_local`, `C83_cipher_remote`, `C83_decipher_remote`, `C83_export_recovery_key`, `C83_import_recovery_key_partial`, `C83_export_storage_keys`, `C83_import_storage_keys_partial`, `C83_export_root_keys`, `C83_make_recovery`, `C83_import_recovery`, `C83_import_recovery_key_refuted`, `C83_import_storage_keys_refuted`, `C83_packet_sign_refuted`, `C83_ctx_read_refuted`, `C83_ctx_parse_refuted`.
* **C84** Protocol operations survive failing allocations — The same rules for every schedule; for reading and decoding a weaker answer after a failure is described (performs_or_worse). **partial**: `C84_agreement_create_partial`, `C84_agreement_key_partial`, `C84_agreement_encrypt_partial`, `C84_agreement_decrypt_partial`, `C84_exchange_data_partial`, `C84_exchange_key_partial`, `C84_derive_data_partial`, `C84_derive_key_partial`, `C84_header_encrypt_partial`, `C84_header_decrypt_partial`, `C84_exchange_find_partial`, `C84_payload_encrypt_partial`, `C84_payload_decrypt_partial`, `C84_packet_sign_partial`, `C84_packet_read_partial`, `C84_ctx_read_partial`, `C84_ctx_parse_partial`, `C84_ctx_parse_no_decode_partial`, `C84_packet_decode_partial`, `C84_ctx_decode_partial`, `C84_cipher_local_partial`, `C84_decipher_local`, `C84_cipher_remote_partial`, `C84_decipher_remote`, `C84_export_recovery_key_partial`, `C84_import_recovery_key_partial`, `C84_export_storage_keys_partial`, `C84_import_storage_keys_partial`, `C84_export_root_keys_partial`, `C84_make_recovery_partial`, `C84_import_recovery_partial`, `C84_agreement_create_refuted`, `C84_agreement_key_refuted`, `C84_agreement_encrypt_refuted`, `C84_agreement_decrypt_refuted`, `C84_exchange_data_refuted`, `C84_exchange_key_refuted`, `C84_derive_data_refuted`, `C84_derive_key_refuted`, `C84_header_encrypt_refuted`, `C84_header_decrypt_refuted`, `C84_exchange_find_refuted`, `C84_payload_encrypt_refuted`, `C84_payload_decrypt_refuted`, `C84_packet_sign_refuted`, `C84_packet_read_refuted`, `C84_ctx_read_refuted`, `C84_ctx_parse_refuted`, `C84_ctx_parse_no_decode_refuted`, `C84_packet_decode_refuted`, `C84_ctx_decode_refuted`, `C84_cipher_local_refuted`, `C84_cipher_remote_refuted`, `C84_export_recovery_key_refuted`, `C84_import_recovery_key_refuted`, `C84_export_storage_keys_refuted`, `C84_import_storage_keys_refuted`, `C84_export_root_keys_refuted`, `C84_make_recovery_refuted`, `C84_import_recovery_refuted`, `C84_agreement_key_leaks_refuted`, `C84_exchange_data_leaks_refuted`, `C84_derive_data_leaks_refuted`.
* **C85** Protocol operations leave no readable copy of a key, a message or a passphrase — The wiping part of the same rules; counterexamples by evaluation. **partial**: `C85_agreement_create`, `C85_agreement_key_partial`, `C85_agreement_encrypt_partial`, `C85_agreement_decrypt_partial`, `C85_exchange_data_partial`, `C85_exchange_key_partial`, `C85_derive_data_partial`, `C85_derive_key_partial`, `C85_header_encrypt`, `C85_header_decrypt`, `C85_exchange_find`, `C85_payload_encrypt`, `C85_payload_decrypt_partial`, `C85_packet_sign`, `C85_packet_read`, `C85_ctx_read`, `C85_ctx_parse`, `C85_ctx_parse_no_decode`, `C85_packet_decode_partial`, `C85_ctx_decode_partial`, `C85_cipher_local`, `C85_decipher_local`, `C85_cipher_remote`, `C85_decipher_remote`, `C85_export_recovery_key_partial`, `C85_import_recovery_key_partial`, `C85_export_storage_keys_partial`, `C85_import_storage_keys_partial`, `C85_export_root_keys`, `C85_make_recovery`, `C85_import_recovery_partial`, `C85_agreement_key_refuted`, `C85_agreement_encrypt_refuted`, `C85_agreement_decrypt_refuted`, `C85_exchange_data_refuted`, `C85_exchange_key_refuted`, `C85_derive_data_refuted`, `C85_derive_key_refuted`, `C85_payload_decrypt_refuted`, `C85_packet_decode_refuted`, `C85_ctx_decode_refuted`, `C85_export_storage_keys_refuted`, `C85_import_storage_keys_refuted`, `C85_import_recovery_refuted`, `C85_import_recovery_private_refuted`.
* **C86** Making keys, identities and devices takes only the memory of the result — The generators as programs on the heap (Model/HeapGenerate.v), composed from those of the engine and the constructors; a rule per program (Proofs/HeapGenerateFacts.v); C86 is the case without failures. Counterexamples by evaluation. **partial**: `C86_identity_sign_partial`, `C86_node_identity_partial`, `C86_keypair_partial`, `C86_ctx_keypair_partial`, `C86_root_keys`, `C86_localize`, `C86_dev_info`, `C86_public_key`, `C86_fingerprint`, `C86_fingerprint_pair`, `C86_identity_fingerprint`, `C86_identity_fingerprint_pair`, `C86_transport_key`, `C86_stream_key_derived`, `C86_stream_key`, `C86_stream_iv`, `C86_identity_sign_refuted`, `C86_node_identity_refuted`, `C86_keypair_refuted`, `C86_ctx_keypair_refuted`.
* **C87** Making keys, identities and devices survives failing allocations — The same rules for every schedule; counterexamples by evaluation. **partial**: `C87_identity_sign_partial`, `C87_node_identity_partial`, `C87_keypair_partial`, `C87_ctx_keypair_partial`, `C87_root_keys_partial`, `C87_localize_partial`, `C87_dev_info_partial`, `C87_public_key`, `C87_fingerprint_partial`, `C87_fingerprint_pair_partial`, `C87_identity_fingerprint_partial`, `C87_identity_fingerprint_pair_partial`, `C87_transport_key_partial`, `C87_stream_key_derived_partial`, `C87_stream_key_partial`, `C87_stream_iv_partial`, `C87_identity_sign_refuted`, `C87_node_identity_refuted`, `C87_keypair_refuted`, `C87_ctx_keypair_refuted`, `C87_root_keys_refuted`, `C87_localize_refuted`, `C87_dev_info_refuted`, `C87_fingerprint_refuted`, `C87_fingerprint_pair_refuted`, `C87_identity_fingerprint_refuted`, `C87_identity_fingerprint_pair_refuted`, `C87_transport_key_refuted`, `C87_stream_key_derived_refuted`, `C87_stream_key_refuted`, `C87_stream_iv_refuted`, `C87_stream_key_derived_leaks_refuted`.
* **C88** Making keys, identities and devices leaves no readable copy of a secret — The wiping part of the same rules; counterexamples by evaluation. **partial**: `C88_identity_sign`, `C88_node_identity`, `C88_keypair`, `C88_ctx_keypair`, `C88_root_keys`, `C88_localize`, `C88_dev_info_partial`, `C88_public_key`, `C88_fingerprint`, `C88_fingerprint_pair`, `C88_identity_fingerprint`, `C88_identity_fingerprint_pair`, `C88_transport_key`, `C88_stream_key_derived_partial`, `C88_stream_key`, `C88_stream_iv_partial`, `C88_stream_key_derived_refuted`, `C88_stream_iv_refuted`, `C88_dev_info_refuted`.
* **C89** Validating and making contexts takes only the memory of the result — Operations that change an object in place or take it over: the blocks owned before, the blocks left after, nothing else changed (HeapContextSpec.v); the same separation-style rules as C74; counterexamples by evaluation. **partial**: `C89_chain_validate`, `C89_node_verify`, `C89_ctx_create`, `C89_ctx_parse`, `C89_ctx_import_partial`, `C89_ctx_with_keys_partial`, `C89_ctx_new`, `C89_ctx_with_sig_key_partial`, `C89_ctx_with_recovery_partial`, `C89_ctx_with_passphrase_partial`, `C89_ctx_import_refuted`, `C89_ctx_with_keys_undecodable_refuted`, `C89_ctx_with_keys_refuted`, `C89_ctx_with_sig_key_refuted`, `C89_ctx_with_recovery_refuted`, `C89_ctx_with_passphrase_refuted`, `C89_ctx_with_passphrase_leaks_refuted`.
* **C90** Validating and making contexts survives failing allocations — The same rules under every schedule; counterexamples by evaluation. **partial**: `C90_chain_validate_partial`, `C90_node_verify_partial`, `C90_ctx_create_partial`, `C90_ctx_parse_partial`, `C90_ctx_import_partial`, `C90_ctx_with_keys_partial`, `C90_ctx_new_partial`, `C90_ctx_with_sig_key_partial`, `C90_ctx_with_recovery_partial`, `C90_ctx_with_passphrase_partial`, `C90_chain_validate_refuted`, `C90_node_verify_refuted`, `C90_ctx_create_refuted`, `C90_ctx_create_leaks_refuted`, `C90_ctx_parse_refuted`, `C90_ctx_parse_leaks_refuted`, `C90_ctx_import_refuted`, `C90_ctx_import_leaks_refuted`, `C90_ctx_with_keys_refuted`, `C90_ctx_with_keys_leaks_refuted`, `C90_ctx_new_refuted`, `C90_ctx_new_leaks_refuted`, `C90_ctx_with_sig_key_refuted`, `C90_ctx_with_sig_key_leaks_refuted`, `C90_ctx_with_recovery_refuted`, `C90_ctx_with_passphrase_refuted`, `C90_ctx_with_passphrase_leaks_refuted`.
* **C91** Validating and making contexts leaves no readable copy of a key or a passphrase — The wiping part of the same rules; counterexamples by evaluation. **partial**: `C91_chain_validate`, `C91_node_verify`, `C91_ctx_create`, `C91_ctx_parse_partial`, `C91_ctx_import_partial`, `C91_ctx_with_keys`, `C91_ctx_new`, `C91_ctx_with_sig_key`, `C91_ctx_with_recovery_partial`, `C91_ctx_with_passphrase_partial`, `C91_ctx_parse_refuted`, `C91_ctx_import_refuted`, `C91_ctx_import_derived_refuted`, `C91_ctx_with_recovery_refuted`, `C91_ctx_with_passphrase_refuted`, `C91_ctx_with_passphrase_derived_refuted`.
* **C92** Running out of memory does not change what is trusted — From the rules of C90: what the answer yes implies under every schedule; the counterexample runs validation twice. **partial**: `C92_chain_accepted_partial`, `C92_node_accepted_partial`, `C92_chain_verdict_refuted`, `C92_node_verdict_refuted`.
* **C93** Using a stream takes only the memory of its answers — Separation-style rules for each call (HeapStreamFacts.v), then induction over the calls of a session; the loop that evolves the key by induction over its turns. **proved**: `C93_create`, `C93_encode`, `C93_decode`, `C93_encode_session`, `C93_decode_session`.
* **C94** Using a stream survives failing allocations — The same rules under every schedule; counterexamples by evaluation. **partial**: `C94_create_partial`, `C94_create_decoder`, `C94_encode_partial`, `C94_decode_partial`, `C94_encode_session_partial`, `C94_decode_session_partial`, `C94_create_refuted`, `C94_encode_refuted`, `C94_encode_key_refuted`, `C94_decode_refuted`, `C94_encode_session_refuted`, `C94_decode_session_refuted`, `C94_create_leaks_refuted`.
* **C95** Using a stream leaves no readable copy of a key — The wiping part of the same rules; counterexamples by evaluation. **partial**: `C95_create_partial`, `C95_encode`, `C95_decode`, `C95_encode_session`, `C95_decode_session`, `C95_create_refuted`, `C95_user_data_refuted`.
* **C96** Running out of memory does not make a stream repeat a nonce — Induction over the calls, from the states a refused call may leave; the positions of the nonces used increase. **proved**: `C96_nonces_in_order`, `C96_no_nonce_repeats`.
* **C97** Running out of memory does not make a stream accept a replay — Induction over the calls, from the states a refused call may leave. **proved**: `C97_encode_numbers_rise`, `C97_decode_numbers_rise`.
* **C98** Sending a packet takes only the memory of the packet — Rules for each function (HeapSendingFacts.v), by induction over the recipients for validation and for the exchanges; specialised to the schedule in which nothing fails. **partial**: `C98_packet_partial`, `C98_encode_partial`, `C98_packet_refuted`, `C98_encode_refuted`.
* **C99** Sending a packet survives failing allocations — The same rules under every schedule; counterexamples by evaluation. **partial**: `C99_packet_partial`, `C99_encode_partial`, `C99_packet_refuted`, `C99_packet_exchange_refuted`, `C99_packet_key_refuted`, `C99_encode_refuted`, `C99_packet_leaks_refuted`, `C99_recipient_refuted`.
* **C100** Sending a packet leaves no readable copy of a key — The wiping part of the same rules; counterexample by evaluation. **partial**: `C100_packet_partial`, `C100_encode_partial`, `C100_packet_refuted`.
* **C101** Running out of memory does not make a packet go to an untrusted recipient — From the rules of C99: what a packet that comes out implies under every schedule, by induction over the recipients. **proved**: `C101_packet`, `C101_encode`.
* **C102** Signing and verifying a transport packet takes only the memory of the packet and the cached result — Rules for signing and verifying (HeapSigningFacts.v), specialised to the schedule in which nothing fails; counterexamples by evaluation. **partial**: `C102_sign_partial`, `C102_verify`, `C102_resign_refuted`, `C102_network_refuted`, `C102_key_refuted`.
* **C103** Signing and verifying a transport packet survive failing allocations — The same rules under every schedule; counterexamples by evaluation, some over two calls. **partial**: `C103_sign_partial`, `C103_verify_partial`, `C103_sign_refuted`, `C103_sign_result_refuted`, `C103_verify_refuted`, `C103_sign_leaks_refuted`, `C103_spoiled_refuted`, `C103_half_signed_refuted`, `C103_chain_refuted`.
* **C104** Signing and verifying a transport packet leave no readable copy of a key — The wiping part of the same rules. **proved**: `C104_sign`, `C104_verify`.
* **C105** Running out of memory does not make a forged transport packet pass — From the rule for verifying: what a yes implies under every schedule. **proved**: `C105_verified`.
* **C106** Sending and receiving over an active transport takes only the memory of what is handed over — Rules for the two operations (HeapChannelFacts.v), built from those for streams, cipher results and packets, specialised to the schedule in which nothing fails. **proved**: `C106_send`, `C106_receive`.
* **C107** Sending and receiving over an active transport survive failing allocations — The same rules under every schedule; counterexamples by evaluation. **partial**: `C107_send_partial`, `C107_receive_partial`, `C107_send_refuted`, `C107_send_key_refuted`, `C107_receive_refuted`, `C107_receive_key_refuted`.
* **C108** Sending and receiving over an active transport leave no readable copy of keys or data — The wiping part of the same rules. **proved**: `C108_send`, `C108_receive`.
* **C109** Running out of memory does not corrupt, repeat or reorder what is sent over a transport — Induction over the calls on either side: numbers of packets rise whatever fails, and the number, with the key it stands for, is bound to the header by the cipher. The steps are the rules of C107, the pure part is shared with the proofs about the transport. **proved**: `C109_delivered`, `C109_in_order`.
* **C110** Making and reading texts takes only the memory of the result — Rules for the eight functions (HeapTextFacts.v), specialised to the schedule in which nothing fails. The lengths of what is written are shown to be those of the allocations. **proved**: `C110_base32_encode`, `C110_base32_decode`, `C110_base64_encode`, `C110_base64_decode`, `C110_hex_encode`, `C110_hex_decode`, `C110_fingerprint_base32`, `C110_fingerprint_hex`.
* **C111** Making and reading texts survives failing allocations — The same rules under every schedule; counterexamples by evaluation. **partial**: `C111_base32_encode`, `C111_base32_decode`, `C111_base64_encode`, `C111_base64_decode`, `C111_hex_encode`, `C111_hex_decode`, `C111_fingerprint_base32_long`, `C111_fingerprint_base32_partial`, `C111_fingerprint_hex_long`, `C111_fingerprint_hex_partial`, `C111_fingerprint_base32_refuted`, `C111_fingerprint_hex_refuted`.
* **C112** Making and reading texts leaves no readable copy of what they stand for — The wiping part of the same rules; counterexamples by evaluation. **partial**: `C112_base32_encode`, `C112_base32_decode_partial`, `C112_base64_encode`, `C112_base64_decode_partial`, `C112_hex_encode`, `C112_hex_decode`, `C112_fingerprint_base32`, `C112_fingerprint_hex`, `C112_base32_decode_refuted`, `C112_base64_decode_refuted`.
* **C113** Joining and cutting buffers takes only the memory of the result — Rules for the three functions against Model/Buffer.v with its 64-bit arithmetic (HeapJoinFacts.v), carried over to Spec/HeapJoinSpec.v by the lemmas of C01 and C02, specialised to the schedule in which nothing fails. **proved**: `C113_section`, `C113_concat`, `C113_concat_multi`.
* **C114** Joining and cutting buffers survives failing allocations — The same rules under every schedule. **proved**: `C114_section`, `C114_concat`, `C114_concat_multi`.

## Findings

Facts about the code met while modelling. Those with a theorem name are proved about the model; the others were seen when reading and are recorded in the comments of the model.

Text codecs and buffers
* Base64 decoding writes one byte past its result for input such as "QQ==" with length field 2 (`C05_overflow_refuted`); bytes from 0x80 up index the table negatively (`C05_high_byte_refuted`); it calls strlen on the argument (`C05_unterminated_refuted`).
* Hex decoding validates nothing and ignores the length field (`C07_malformed_refuted`).
* Base32 decoding is not injective: the unused low bits are dropped.
* An array whose item was stored with copy = false and then replaced with copy = true frees the caller's object; shallow copies share ownership (`C03_mixed_ownership_refuted`).

Ciphers, signatures, KDF
* `openssl_crypto_random(0)` dereferences NULL.
* An empty plaintext encrypts but can never be decrypted (`C14_empty_plaintext_refuted`). A caller IV that is too short is over-read (`C14_short_iv_refuted`). AAD above INT_MAX is silently skipped on decryption. The key length is not compared with the cipher on decryption.
* The padding bytes of a serialized signature are not checked (`C17_padding_refuted`).
* `ec_key_get_pubdata_fixed_len` tests for NULL after the use; short public keys are zero padded without their length, so fingerprints of imported short keys may collide (`C11_short_keys_refuted`).
* Two equal fingerprints have no bilateral fingerprint (`C10_bilateral_of_equals`).
* HKDF expansion truncates its counter to 8 bits; bcrypt stops at a NUL byte of the passphrase.
* The cipher key parser ignores trailing bytes (`C13_key_accept`).

Streams
* A packet that fails authentication still advances the sequence number and the key of the receiver (`C25_forgery_disturbs_refuted`). A forged packet with a huge sequence number makes the receiver compute up to 2^64 key evolutions before it checks anything.
* A copied encoding context repeats key and IV (`C24_no_nonce_reuse_refuted`).
* Key evolution drops the user data (`C26_evolution_keeps_user_data_refuted`).
* `stream_key_serialize` tests the wrong variable for NULL.

Transport
* A handshake message with the wrong member of the union set is read through the other member; two contexts that start simultaneously are enough (`C61_transport_memory_safe_refuted`).
* A transport in ERROR becomes ACTIVE when a pending identity question is answered yes (`C32_error_absorbing_refuted`). Answers are not bound to the identity asked about.
* ACTIVE is reported before the handshake response is sent.
* In ACTIVE, a handshake packet with mac type AUTH_CIPHER has its sequence number read from uninitialised padding (`pad` in Model/Transport.v).
* A pinned remote identity that cannot be copied is silently forgotten; after a failed finalization the transport is stuck without an error.
* Copies of transport packets lose the received bytes, copies of transports lose the handshake and the error (`C57_transport_packet_refuted`, `C57_transport_refuted`).
* Signing a signed packet gives one that does not verify (`C28_signed_again_refuted`).
* The cipher id of a root key is truncated to 8 bits. A peer may choose CTR in the root key; the handshake then cannot finish.

Identities
* The validity cache of a node is not bound to its chain (`C35_replaced_chain_refuted`). The caches join their inputs without lengths and do not cover the digest type of the signature (`C34_digest_type_refuted`). A chain's signature does not cover identifiers.
* `identity_copy` silently drops a signature it cannot copy.

Messages and contexts
* The version byte of a packet, and in version 2 the upper half of byte 1, are not covered by the signature (`C43_version_byte_refuted`, `C43_curve_nibble_refuted`).
* Of two recipients with one node identifier only the first can decode (`C40_same_identifier_refuted`).
* The header key is the digest of root and node identifier joined without lengths (`C47_ambiguous_refuted`).
* Encoding dereferences NULL for payloads within 29 bytes of the 2 GiB buffer limit (`C62_encode_refuted`).
* Recovery dereferences NULL when the context cannot be built, e.g. for an identifier of 128 bytes (`C50_recovery_refuted`).
* A stored context forgets its packet version (`C48_context_version_refuted`).
* Payload content types from 65536 up are truncated when parsed. `root_keys_serialize` dereferences a NULL private key; root keys of version 0 are accepted.
* Parsing a packet does not validate the sender's chain.

Files
* A read error during encryption is taken for the end of the file: a truncated file is reported as success (`C56_read_error_refuted`). Errors of fclose are ignored (`C55_close_refuted`, `C56_close_refuted`). A source named `<destination>.temp` is truncated before it is read (`C56_overlap_refuted`).
* The handle-based decryption writes plaintext before the tag is checked, and does not compare the cipher of the key.

Raw signatures
* BN_bn2binpad returns -1 for a number that does not fit, which the code takes for success: openssl_ecdsa_to_raw of a DER signature with a number above 2^528 gives a raw signature of zeros (`C67_too_long_refuted`). Before OpenSSL 1.1 the same input is written outside the buffer (`C67_overflow_refuted`).
* The sign of the numbers is dropped (`C67_sign_refuted`).

Memory (all but the last three lines proved by `C64_..._refuted`)
* The structs allocated in ec_key_create, ecdsa_result_create, cipher_result_create, cipher_key_create, key_exchange_create and packet_meta_create are written to without testing for NULL. ctx_copy writes to the result of ctx_create without testing it.
* cipher_result_copy leaks its parts when the struct cannot be made, and gives a result without ciphertext or tag when one of them cannot be copied. identity_copy drops the signature, parse_result_copy and decode_result_copy any part; decode_result_copy also leaks the key, kdf_meta_copy and kdf_result_copy their parts.
* kdf_meta_copy releases the salt unwiped on its failure path; the seed of a nonce generator is never wiped.
* stream_ctx_copy of a decoding stream may drop the nonce generator.
* ctx_create leaks the header key, stream_ctx_create the nonce generator, root_key_to_stream_key the KDF result, when a later step fails.
* ecdsa_result_serialize gives a short signature when the padding cannot be allocated, and identities, chains, key pairs, nodes and contexts are then written with it (`C77_..._spoiled_refuted`). A packet with it is refused, and the signature leaks (`C77_packet_leaks_refuted`); node_to_proto leaks the chain message (`C77_node_leaks_refuted`).
* storage_keys_to_proto does not test its allocation, storage_keys_serialize and stream_key_serialize do not test the message they get (`C77_..._crashes_refuted`); root_keys_serialize tests neither its argument nor the private key (`C77_root_keys_null_refuted`, `C77_root_keys_public_crashes_refuted`).
* crypto_engine.c:124-190: decryption under a passphrase derives the key before it looks at the ciphertext; for a blob whose rest is not a ciphertext the derived key is never released (`C80_kdf_decipher_refuted`). A blob that names bcrypt makes it run bcrypt, which leaves the passphrase readable (`C82_kdf_decipher_refuted`).
* kdf.c:269-327: bcrypt releases its copy of the passphrase without wiping it (`C82_kdf_refuted`) and does not release it for an empty passphrase (`C80_kdf_refuted`).
* kdf.c:449-469: the derived key is released without wiping when the metadata cannot be copied, and stays behind when the result cannot be made (`C82_kdf_meta_refuted`, `C81_kdf_meta_refuted`).
* openssl_suite.c:388-498: encryption with a nonce longer than the cipher's leaves nonce, ciphertext and tag behind (`C80_encrypt_refuted`); HMAC verification against NULL leaves the computed HMAC, a correct tag for the data (`C80_hmac_verify_refuted`); signing with a key that cannot be decoded leaves the digest context (`C80_sign_refuted`).
* openssl_suite.c uses the results of several allocations untested: random bytes, digests, key pairs, signatures, verification (`C81_..._refuted`).
* Reading a message leaves its body readable in released memory (`C85_ctx_decode_refuted`), importing a recovery its root keys (`C85_import_recovery_refuted`, `C85_import_recovery_private_refuted`), exporting and importing storage keys the keys (`C85_export_storage_keys_refuted`, `C85_import_storage_keys_refuted`).
* When an allocation fails, key agreement leaves the agreed key behind or readable (`C84_agreement_key_leaks_refuted`, `C85_agreement_key_refuted`), and wrapping or unwrapping a key the pre-shared key (`C84_exchange_data_leaks_refuted`, `C85_exchange_data_refuted`, `C85_derive_data_refuted`).
* Every operation of C83 but decryption from storage crashes for some failing allocation (`C84_..._refuted`). protocol.c:272 uses the serialized payload untested.
* storage_keys_proto_free and stream_key_proto_free release the encoded keys unwiped (`C78_..._exposed_refuted`).
* node_rotate_keypair destroys the old key before it copies the new one.
* node_array_copy copies the nodes, node_array_destroy does not destroy them.
* wickr_packet_create_from_buffer does not release the signature when its digest or curve is not the one the packet names: whoever sends packets makes the receiver leak (`C73_packet_leaks_refuted`). wickr_stream_key_create_from_proto does not release the user data of a key it refuses (`C73_stream_key_leaks_refuted`).
* protobuf messages that held keys or message bodies are released without wiping (`C75_..._exposed_refuted`).
* kdf_meta_create_with_buffer leaks the salt, the private-key import the EC_KEY, when an allocation fails (`C74_kdf_meta_leaks_refuted`, `C74_private_key_leaks_refuted`).
* A stream's nonce seed, a new device's salt and identifiers, and the bytes stream keys are cut from are released unwiped when an allocation fails (`C88_stream_iv_refuted`, `C88_dev_info_refuted`, `C88_stream_key_derived_refuted`); the derived bytes can also stay behind (`C87_stream_key_derived_leaks_refuted`). wickr_root_keys_generate tests the wrong variable after generating the signature key (root_keys.c:49-55), which is harmless only because wickr_root_keys_create refuses NULL.
* A failing allocation during validation is taken for a wrong signature: a good chain is marked invalid, the mark is cached, and later validations refuse the chain although there is memory again (`C92_chain_verdict_refuted`, `C92_node_verdict_refuted`).
* Generating a context from a recovery uses the generated result without testing it: an identifier of 128 bytes or more, or a failing allocation, makes it read through a null pointer (`C89_ctx_with_recovery_refuted`, `C89_ctx_with_passphrase_refuted`, `C90_ctx_with_recovery_refuted`).
* When the context structure cannot be allocated its header key stays behind (`C90_ctx_create_leaks_refuted` and the like). When the new chain is not valid, because the two halves of the given key do not belong together, the chain and its cached status stay behind (`C89_ctx_with_keys_refuted`, `C89_ctx_with_sig_key_refuted`).
* Reading a stored or exported context leaves its storage keys readable in released memory, since the decoded message is released as it is (`C91_ctx_parse_refuted`, `C91_ctx_import_refuted`); generating from a recovery leaves the root keys readable in the same way (`C91_ctx_with_recovery_refuted`).
* When the structure of an encoding stream context cannot be allocated its nonce generator stays behind (`C94_create_leaks_refuted`), and when the structure of the generator cannot be allocated the seed is released unwiped (`C95_create_refuted`).
* While a stream key evolves the new cipher key is used without testing its allocation, and so is the result of a failed encryption (`C94_encode_refuted`, `C94_encode_key_refuted`, `C94_decode_refuted`): with too little memory both ends crash.
* The first evolution of a stream key drops its user data, and releases it unwiped (`C95_user_data_refuted`).
* Seen when reading: a nonce is a digest of 64 bytes whose length is set to 12; the other 52 bytes are released unwiped.
* Sending with too little memory can crash (`C99_packet_refuted` and the like), and can leave the key agreed on with a recipient behind (`C99_packet_leaks_refuted`) or readable in released memory (`C100_packet_refuted`). A single failure while a good recipient is validated is cached as its verdict, so later packets to it are refused too (`C99_recipient_refuted`). A packet never goes to a recipient that is not trusted (`C101_packet`, `C101_encode`).
* Sending with a private key that cannot be decoded leaves the digest context behind (`C98_packet_refuted`, `C98_encode_refuted`).
* Signing a transport packet that has a mac or bytes for the network already leaves the old ones behind (`C102_resign_refuted`, `C102_network_refuted`).
* When an allocation fails while a transport packet is signed, the answer can be yes for a packet no receiver accepts (`C103_spoiled_refuted`), or no for a packet that now has a mac and cannot be signed properly any more (`C103_half_signed_refuted`). While one is verified, the failure can be cached as the verdict on a good chain (`C103_chain_refuted`). A forged packet never passes (`C105_verified`).
* Showing half a fingerprint crashes when there is no memory for its text (`C111_fingerprint_base32_refuted`, `C111_fingerprint_hex_refuted`). base32_decode releases the values of the characters, which are the text in another alphabet, without wiping them (`C112_base32_decode_refuted`); getDataFromBase64 does so with what it has decoded when it rejects a character (`C112_base64_decode_refuted`).
* Seen when reading: openssl_sha2 writes to a result buffer it has not tested; __openssl_digest_sign_ctx_create leaks its context for a bad key; stream_key_to_proto leaks its message; ctx_gen_with_recovery uses its result untested; transport_packet_sign overwrites an old mac and network buffer without releasing them.
