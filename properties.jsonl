{"id": "C01", "title": "Buffer sections never read or write outside the source", "statement": "wickr_buffer_copy_section(b,start,len) returns either NULL or a new buffer holding exactly bytes [start,start+len) of b, and succeeds exactly when 0<len, start+len<=b.length and start, len and start+len stay within the library size limit; wickr_buffer_modify_section replaces exactly that range, leaves every other byte alone and returns false without touching the buffer otherwise. No size_t value of start or len, however large, makes it wrap around and touch other memory.", "quantifier": "every buffer and every pair of 64-bit start and length values, including those whose sum overflows", "why_tests_cant": "the guard is an arithmetic condition over two 64-bit numbers; tests sample a few of 2^128 pairs", "anchors": ["src/wickrcrypto/src/buffer.c: wickr_buffer_copy_section, wickr_buffer_modify_section, __validate_buffer_range"]}
{"id": "C02", "title": "Joining buffers yields the bytes in order", "statement": "wickr_buffer_concat and wickr_buffer_concat_multi return the inputs' bytes one after the other, in argument order, with nothing added or lost; NULL and zero-length entries given to concat_multi contribute nothing; the result is NULL exactly when nothing is left or the total exceeds the library size limit.", "quantifier": "every list of up to 255 optional buffers of every size", "why_tests_cant": "the size computation and the copy loop are two separate passes that must agree for every combination of lengths", "anchors": ["src/wickrcrypto/src/buffer.c: wickr_buffer_concat, wickr_buffer_concat_multi"]}
{"id": "C03", "title": "An array behaves as a fixed-size map of owned items", "statement": "After any sequence of wickr_array_set_item calls, wickr_array_fetch_item(i) returns the item of the last successful set at index i (a copy of it when copying is asked for) or NULL if there was none; out-of-range indices never read or write; a failing set leaves the array unchanged; a deep copy of the array is independent of later changes to the original.", "quantifier": "every array size, every item copy behaviour and every finite history of set/fetch/copy calls", "why_tests_cant": "it is a statement about all call histories and all failing copies", "anchors": ["src/wickrcrypto/src/array.c: wickr_array_new, wickr_array_set_item, wickr_array_fetch_item, wickr_array_copy"]}
{"id": "C04", "title": "Base64 decoding undoes base64 encoding", "statement": "getDataFromBase64(getBase64FromData(d)) returns a buffer equal to d for every non-empty d the encoder accepts, and the encoder output is the RFC 4648 base64 text of d, NUL-terminated, with a length that excludes the NUL.", "quantifier": "every byte string of every length", "why_tests_cant": "bit regrouping depends on length mod 3 and on every byte value", "anchors": ["src/wickrcrypto/src/util.c: getBase64FromData, getDataFromBase64"]}
{"id": "C05", "title": "Base64 decoding is memory safe on C strings", "statement": "getDataFromBase64 never reads outside the NUL-terminated input, never indexes its decoding table out of range, and never writes outside its result.", "quantifier": "every input memory block and every length field", "why_tests_cant": "out-of-range accesses only show for particular byte values and length fields; they rarely crash a test", "anchors": ["src/wickrcrypto/src/util.c: getDataFromBase64"]}
{"id": "C06", "title": "Hex text decodes to the bytes it was made from", "statement": "getDataFromHexString(getHexStringFromData(d)) equals d for every non-empty d; the text has two lower-case hexadecimal digits per byte, most significant first.", "quantifier": "every byte string of every length", "why_tests_cant": "holds per byte and per position; a test sees one string", "anchors": ["src/wickrcrypto/src/util.c: getHexStringFromData, getDataFromHexString, strToChar"]}
{"id": "C07", "title": "Malformed hex text is rejected", "statement": "getDataFromHexString returns NULL unless its input is an even number of hexadecimal digits.", "quantifier": "every NUL-terminated input", "why_tests_cant": "it quantifies over all malformed inputs", "anchors": ["src/wickrcrypto/src/util.c: getDataFromHexString, strToChar"]}
{"id": "C08", "title": "Base32 decoding undoes base32 encoding", "statement": "base32_decode(base32_encode(d)) equals d for every non-empty d, and the text has ceil(8n/5) characters all drawn from the Crockford alphabet.", "quantifier": "every byte string of every length", "why_tests_cant": "blocks of five bytes are regrouped, and the final partial block has five shapes", "anchors": ["src/wickrcrypto/src/b32.c: base32_encode, base32_decode"]}
{"id": "C09", "title": "Base32 decoding rejects foreign characters and stays in bounds", "statement": "base32_decode returns NULL for every text with a character outside the alphabet, and for every input writes only inside its result buffer.", "quantifier": "every byte string given as text", "why_tests_cant": "quantifies over every text and position", "anchors": ["src/wickrcrypto/src/b32.c: base32_decode"]}
{"id": "C10", "title": "Both parties compute the same bilateral fingerprint", "statement": "wickr_identity_get_bilateral_fingerprint(a,b) and (b,a) give the same result, for every pair of identities.", "quantifier": "every pair of identities and every digest function", "why_tests_cant": "symmetry over all pairs", "anchors": ["src/wickrcrypto/src/fingerprint.c: wickr_fingerprint_gen_bilateral", "src/wickrcrypto/src/identity.c: wickr_identity_get_bilateral_fingerprint"]}
{"id": "C11", "title": "A fingerprint binds identifier and key", "statement": "The data digested for a fingerprint determines the identifier and the (full-size) public key: two identities whose fingerprints agree under a collision-free digest have the same identifier and the same key; the bilateral fingerprint determines the unordered pair of fingerprints.", "quantifier": "every pair of identities", "why_tests_cant": "an encoding ambiguity exists or not for all inputs; tests cannot search for it", "anchors": ["src/wickrcrypto/src/fingerprint.c: wickr_fingerprint_encode, wickr_fingerprint_combine", "src/wickrcrypto/src/eckey.c: wickr_ec_key_get_pubdata_fixed_len"]}
{"id": "C12", "title": "Cipher results survive serialization", "statement": "wickr_cipher_result_from_buffer(wickr_cipher_result_serialize(r)) returns a result equal to r for every valid result; from_buffer of any byte string returns NULL or a well-formed result whose serialization is that byte string.", "quantifier": "every cipher result and every byte string", "why_tests_cant": "parser/printer inverse over all inputs", "anchors": ["src/wickrcrypto/src/cipher.c: wickr_cipher_result_serialize, wickr_cipher_result_from_buffer"]}
{"id": "C13", "title": "Cipher keys survive serialization", "statement": "wickr_cipher_key_from_buffer(wickr_cipher_key_serialize(k)) equals k for every key; a byte string that names no supported cipher or is shorter than its key is rejected.", "quantifier": "every key and every byte string", "why_tests_cant": "parser/printer inverse over all inputs", "anchors": ["src/wickrcrypto/src/cipher.c: wickr_cipher_key_serialize, wickr_cipher_key_from_buffer"]}
{"id": "C14", "title": "Decryption inverts encryption", "statement": "Whatever the default engine encrypts with a key, optional AAD and optional caller IV decrypts under the same key and AAD to the same plaintext, also after a serialization round trip of the result.", "quantifier": "every plaintext, key, AAD, IV and both ciphers", "why_tests_cant": "quantifies over all inputs of the wrapper code around the cipher", "anchors": ["src/wickrcrypto/src/openssl_suite.c: openssl_aes256_encrypt, openssl_aes256_decrypt"]}
{"id": "C15", "title": "Unauthenticated ciphertext is never accepted where authentication is required", "statement": "Decrypting with only_auth_ciphers set returns NULL for every cipher result whose cipher is not authenticated, and so do payload, header, storage, KDF-wrapped, stream and recovery decoding for every byte string an attacker supplies.", "quantifier": "every attacker-chosen cipher result or byte string and every key", "why_tests_cant": "downgrade attacks are inputs nobody wrote a test for", "anchors": ["src/wickrcrypto/src/openssl_suite.c: openssl_aes256_decrypt", "src/wickrcrypto/src/payload.c: wickr_payload_create_from_cipher", "src/wickrcrypto/src/key_exchange.c: wickr_key_exchange_set_create_from_cipher", "src/wickrcrypto/src/crypto_engine.c: wickr_crypto_engine_kdf_decipher", "src/wickrcrypto/src/wickr_ctx.c: wickr_ctx_decipher_local"]}
{"id": "C16", "title": "ECDSA signatures have one fixed wire size and survive it", "statement": "wickr_ecdsa_result_serialize gives exactly 143 bytes or NULL, and wickr_ecdsa_result_create_from_buffer of it returns an equal result; no byte string makes the parser read outside it.", "quantifier": "every signature length and content, every byte string", "why_tests_cant": "padding arithmetic over every length", "anchors": ["src/wickrcrypto/src/ecdsa.c: wickr_ecdsa_result_serialize, wickr_ecdsa_result_create_from_buffer"]}
{"id": "C17", "title": "A serialized signature has one representation", "statement": "Two different byte strings never parse as the same signature (no malleability of the 143-byte form).", "quantifier": "every pair of byte strings", "why_tests_cant": "quantifies over all pairs of byte strings", "anchors": ["src/wickrcrypto/src/ecdsa.c: wickr_ecdsa_result_create_from_buffer"]}
{"id": "C18", "title": "KDF parameters survive serialization and never over-read", "statement": "For every supported password KDF, wickr_kdf_meta_create_with_buffer(wickr_kdf_meta_serialize(m)) equals m, wickr_kdf_meta_size_with_buffer gives the size consumed, and truncated or unknown input yields NULL/0.", "quantifier": "every KDF, salt and trailing data, every byte string", "why_tests_cant": "framing must hold for all trailing data", "anchors": ["src/wickrcrypto/src/kdf.c: wickr_kdf_meta_serialize, wickr_kdf_meta_create_with_buffer, wickr_kdf_meta_size_with_buffer"]}
{"id": "C19", "title": "Passphrase-wrapped data unwraps with the same passphrase", "statement": "wickr_crypto_engine_kdf_decipher(wickr_crypto_engine_kdf_cipher(d,p),p) equals d; hence exported recovery keys, exported storage keys and exported contexts can be imported again with the same passphrase.", "quantifier": "every plaintext, passphrase, salt and IV, every scrypt strength", "why_tests_cant": "compositional framing of salt, IV, tag and text over all inputs", "anchors": ["src/wickrcrypto/src/crypto_engine.c: wickr_crypto_engine_kdf_cipher, wickr_crypto_engine_kdf_decipher", "src/wickrcrypto/src/wickr_ctx.c: wickr_ctx_export_recovery_key_passphrase, wickr_ctx_import_recovery_key_passphrase"]}
{"id": "C20", "title": "Sequence numbers are accepted at most once and only in increasing order", "statement": "Over any history of encode/decode calls on a stream context the sequence numbers of successful calls are strictly increasing; a replayed or reordered packet is always rejected.", "quantifier": "every history of calls with every sequence number and every cipher result", "why_tests_cant": "replay protection is a property of all histories", "anchors": ["src/wickrcrypto/src/stream_ctx.c: wickr_stream_ctx_encode, wickr_stream_ctx_decode"]}
{"id": "C21", "title": "A receiver stays in step with the sender across gaps", "statement": "If sender and receiver start from the same stream key, every packet the sender encodes decodes to the original data at a receiver that has seen any subset of the earlier packets in order, however many were lost and however many key evolutions lie between.", "quantifier": "every increasing sequence of sequence numbers, every subset delivered, every packets-per-evolution setting", "why_tests_cant": "the two sides evolve keys along different paths which must meet for all gaps", "anchors": ["src/wickrcrypto/src/stream_ctx.c: wickr_stream_ctx_encode, wickr_stream_ctx_decode, __wickr_stream_ctx_evolve"]}
{"id": "C22", "title": "The stream key in use depends only on the sequence number", "statement": "Packet n is encrypted under the initial key evolved exactly n / packets_per_evolution times, whatever calls came before; each evolution is HMAC-SHA-512 of the previous cipher key under the previous evolution key, and the context holds only the keys of its latest packet.", "quantifier": "every history reaching sequence number n and every packets-per-evolution value", "why_tests_cant": "boundary behaviour for every multiple and every path to it", "anchors": ["src/wickrcrypto/src/stream_ctx.c: __wickr_stream_ctx_evolve"]}
{"id": "C23", "title": "A stream never uses one IV twice under one key", "statement": "The values fed to the IV generator of a stream context are pairwise different for all packets it ever encodes (up to 2^64 packets), so IVs repeat only if the keyed hash truncation collides.", "quantifier": "every history of encode calls, successful or not", "why_tests_cant": "nonce reuse appears only over long histories", "anchors": ["src/wickrcrypto/src/stream_iv.c: wickr_stream_iv_generate", "src/wickrcrypto/src/stream_ctx.c: wickr_stream_ctx_encode"]}
{"id": "C24", "title": "Copying a stream context does not lead to nonce reuse", "statement": "A copied encoding context and its original never encrypt two packets with the same key and IV.", "quantifier": "every copy point in every history", "why_tests_cant": "involves two objects and all interleavings", "anchors": ["src/wickrcrypto/src/stream_ctx.c: wickr_stream_ctx_copy", "src/wickrcrypto/src/stream_iv.c: wickr_stream_iv_copy"]}
{"id": "C25", "title": "A rejected packet does not disturb the stream", "statement": "If decoding a packet fails authentication, the stream context is unchanged, so later genuine packets still decode.", "quantifier": "every forged packet at every point of every history", "why_tests_cant": "denial of service by one forged packet depends on its sequence number and position", "anchors": ["src/wickrcrypto/src/stream_ctx.c: wickr_stream_ctx_decode"]}
{"id": "C26", "title": "Stream keys survive serialization", "statement": "wickr_stream_key_create_from_buffer(wickr_stream_key_serialize(k)) equals k for every key with supported parameters, including its user data; evolution keeps the packets-per-evolution setting.", "quantifier": "every stream key", "why_tests_cant": "parser/printer inverse over all inputs", "anchors": ["src/wickrcrypto/src/stream_key.c: wickr_stream_key_serialize, wickr_stream_key_create_from_buffer"]}
{"id": "C27", "title": "Transport packets survive the network format", "statement": "wickr_transport_packet_create_from_buffer(wickr_transport_packet_serialize(p)) gives back p's metadata, body and MAC for every packet whose MAC matches its MAC type; every byte string is either rejected or parses to a packet that serializes to that byte string.", "quantifier": "every packet and every byte string", "why_tests_cant": "parser/printer inverse over all inputs", "anchors": ["src/wickrcrypto/src/transport_packet.c: wickr_transport_packet_serialize, wickr_transport_packet_create_from_buffer"]}
{"id": "C28", "title": "Transport packet signatures cover every byte", "statement": "A freshly signed packet verifies; and a parsed packet verifies only if the signature in its last 143 bytes verifies, under the node key of a valid identity chain, over all preceding bytes including type, sequence number and flags.", "quantifier": "every packet, every byte string, every identity chain", "why_tests_cant": "coverage of every header byte cannot be sampled", "anchors": ["src/wickrcrypto/src/transport_packet.c: wickr_transport_packet_sign, wickr_transport_packet_verify"]}
{"id": "C29", "title": "Both ends of a handshake agree on the keys", "statement": "If an initiator and a responder exchange handshake packets over a faithful network and both accept, the initiator's send key equals the responder's receive key and vice versa, and each direction has different derivation inputs.", "quantifier": "every pair of identities, random choices, and evolution parameters", "why_tests_cant": "agreement must hold for all random choices and settings", "anchors": ["src/wickrcrypto/src/transport_handshake.c: wickr_transport_handshake_start, wickr_transport_handshake_process, wickr_transport_handshake_finalize", "src/wickrcrypto/src/transport_root_key.c: wickr_transport_root_key_to_stream_key"]}
{"id": "C30", "title": "No handshake completes without an accepted remote identity", "statement": "A handshake that did not start with a known remote identity can only reach its complete state after the application's identity callback has answered valid; and any packet that fails its signature check leads to failure.", "quantifier": "every sequence of packets and identity answers, in any order", "why_tests_cant": "it must hold along every path through the state machine", "anchors": ["src/wickrcrypto/src/transport_handshake.c: wickr_transport_handshake_process, wickr_transport_handshake_verify_identity"]}
{"id": "C31", "title": "Application data flows only on an active transport", "statement": "wickr_transport_ctx hands data to the receive callback, or an encoded application packet to the transmit callback, only while its status is ACTIVE, which is reached only through a completed handshake.", "quantifier": "every sequence of API calls and incoming packets", "why_tests_cant": "quantifies over all schedules", "anchors": ["src/wickrcrypto/src/transport_ctx.c: wickr_transport_ctx_process_tx_buffer, wickr_transport_ctx_process_rx_buffer"]}
{"id": "C32", "title": "A failed transport stays failed", "statement": "Once a transport context is in the ERROR state no later call or packet makes it leave that state, deliver data or emit data packets.", "quantifier": "every continuation of every history", "why_tests_cant": "quantifies over all continuations", "anchors": ["src/wickrcrypto/src/transport_ctx.c: wickr_transport_ctx_process_rx_buffer, __wickr_transport_ctx_update_status"]}
{"id": "C33", "title": "Delivered data is an in-order duplicate-free subsequence of sent data", "statement": "Over an arbitrary network that drops, duplicates, reorders or injects packets, the messages a transport delivers are, in order and without duplicates, among those its peer sent, provided the authenticated cipher admits no forgeries.", "quantifier": "every network schedule and every number of messages", "why_tests_cant": "quantifies over all adversarial schedules", "anchors": ["src/wickrcrypto/src/transport_ctx.c: wickr_transport_ctx_process_rx_buffer", "src/wickrcrypto/src/stream_ctx.c: wickr_stream_ctx_decode"]}
{"id": "C34", "title": "Cached chain validation never changes the answer", "statement": "After any history of validations, wickr_identity_chain_validate answers exactly whether the root key's signature over the node public key verifies, if the chain's keys are unchanged (and, with a collision-free digest, also if they were changed in place to other full-size keys).", "quantifier": "every history of validations and changes", "why_tests_cant": "staleness of a cache is a property of histories", "anchors": ["src/wickrcrypto/src/identity.c: wickr_identity_chain_validate", "src/wickrcrypto/include/wickrcrypto/private/identity_priv.h", "src/wickrcrypto/src/identity_priv.c: wickr_identity_chain_has_valid_cache"]}
{"id": "C35", "title": "Cached node validation never changes the answer", "statement": "After any history of validations and key rotations, wickr_node_verify_signature_chain answers exactly whether the chain is valid and the current ephemeral key is signed by the chain's node key.", "quantifier": "every history of validation, rotation and chain replacement", "why_tests_cant": "staleness of a cache is a property of histories", "anchors": ["src/wickrcrypto/src/node.c: wickr_node_verify_signature_chain, wickr_node_rotate_keypair", "src/wickrcrypto/src/node_priv.c: wickr_node_has_valid_cache"]}
{"id": "C36", "title": "Serialized public identities never contain private keys", "statement": "The serialization of an identity chain, node or ephemeral keypair does not depend on private key material; identities parsed back have public keys only (except an identity explicitly serialized as private).", "quantifier": "every identity, node and keypair", "why_tests_cant": "non-interference quantifies over all pairs of private keys", "anchors": ["src/wickrcrypto/src/identity_priv.c: __wickr_identity_to_private_proto", "src/wickrcrypto/src/node_priv.c: wickr_node_to_proto", "src/wickrcrypto/src/ephemeral_keypair_priv.c"]}
{"id": "C37", "title": "Identities, chains, nodes and keypairs survive serialization", "statement": "Deserializing the serialization of an identity chain, node or ephemeral keypair gives the same public contents.", "quantifier": "every such object with importable public keys", "why_tests_cant": "parser/printer inverse over all inputs", "anchors": ["src/wickrcrypto/src/identity.c: wickr_identity_chain_serialize, wickr_identity_chain_create_from_buffer", "src/wickrcrypto/src/node.c: wickr_node_serialize, wickr_node_create_from_buffer", "src/wickrcrypto/src/ephemeral_keypair.c: wickr_ephemeral_keypair_serialize"]}
{"id": "C38", "title": "Message packets survive the wire format", "statement": "wickr_packet_create_from_buffer(wickr_packet_serialize(p)) equals p for every packet of every supported version; byte strings with unsupported version, curve or a short body are rejected.", "quantifier": "every packet and byte string", "why_tests_cant": "parser/printer inverse over all inputs", "anchors": ["src/wickrcrypto/src/protocol.c: wickr_packet_serialize, wickr_packet_create_from_buffer"]}
{"id": "C39", "title": "Only the sender's node key can make a packet parse successfully", "statement": "wickr_parse_result_from_packet reports a valid signature only if the packet's signature verifies over its content under the sender's node key; whenever it reports success it also found this receiver's exchange in an authenticated header; a bad signature is always reported as INVALID with no key exchange exposed.", "quantifier": "every packet, every key and every receiver", "why_tests_cant": "must hold for every forged packet", "anchors": ["src/wickrcrypto/src/protocol.c: wickr_parse_result_from_packet"]}
{"id": "C40", "title": "Every recipient can decode the message", "statement": "If wickr_packet_create_from_components succeeds, every recipient node in the list, given its ephemeral private key and the sender chain, parses the serialized packet and decodes exactly the payload that was sent, for every protocol version.", "quantifier": "every payload, sender, recipient list of any length, version and random choice", "why_tests_cant": "end-to-end over all recipient lists", "anchors": ["src/wickrcrypto/src/protocol.c: wickr_packet_create_from_components, wickr_decode_result_from_parse_result"]}
{"id": "C41", "title": "A node that is not a recipient finds no key", "statement": "Parsing a packet as a node whose identifier is not among the recipients reports NODE_NOT_FOUND and yields no key exchange.", "quantifier": "every recipient list and every other node", "why_tests_cant": "negative property over all lists", "anchors": ["src/wickrcrypto/src/protocol.c: wickr_parse_result_from_packet", "src/wickrcrypto/src/key_exchange.c: wickr_exchange_set_find"]}
{"id": "C42", "title": "Messages are only encrypted to verified recipients", "statement": "wickr_packet_create_from_components returns NULL unless the list is non-empty and every recipient's identity chain and ephemeral key signature verify.", "quantifier": "every recipient list, one bad entry at any position", "why_tests_cant": "one bad node anywhere in any list", "anchors": ["src/wickrcrypto/src/protocol.c: __wickr_node_array_validate, wickr_packet_create_from_components"]}
{"id": "C43", "title": "The packet signature covers the whole packet", "statement": "If a serialized packet parses with a valid signature, changing any byte of it other than the signature makes the signature check fail (assuming signatures cannot be forged).", "quantifier": "every packet and every changed byte", "why_tests_cant": "every byte position and value", "anchors": ["src/wickrcrypto/src/protocol.c: wickr_packet_create_with_components, wickr_parse_result_from_packet"]}
{"id": "C44", "title": "Payloads survive encoding", "statement": "wickr_payload_create_from_buffer(wickr_payload_serialize(p)) equals p for every payload with a non-empty channel tag and body, for all 64-bit times and 16-bit content types.", "quantifier": "every payload", "why_tests_cant": "varint encoding over all 64-bit values", "anchors": ["src/wickrcrypto/src/payload.c: wickr_payload_serialize, wickr_payload_create_from_buffer"]}
{"id": "C45", "title": "Key exchange sets survive encoding and keep every exchange", "statement": "wickr_key_exchange_set_create_from_buffer(wickr_key_exchange_set_serialize(s)) gives the sender public key and the same exchanges in order; finding a listed identifier returns the first exchange with it and otherwise NULL.", "quantifier": "every set of any size", "why_tests_cant": "lists of any length", "anchors": ["src/wickrcrypto/src/key_exchange.c: wickr_key_exchange_set_serialize, wickr_key_exchange_set_create_from_buffer, wickr_key_exchange_set_find"]}
{"id": "C46", "title": "Key exchanges agree on the packet key", "statement": "The key a receiver derives from an exchange equals the packet key the sender wrapped, for every protocol version, when both use the same identities and optional pre-shared key.", "quantifier": "every key, version, identity pair and PSK", "why_tests_cant": "agreement of two separately written derivations for all inputs", "anchors": ["src/wickrcrypto/src/protocol.c: wickr_key_exchange_create_with_packet_key, wickr_key_exchange_derive_packet_key, wickr_ecdh_cipher_ctx_cipher"]}
{"id": "C47", "title": "Only authenticated header bytes select the exchange", "statement": "The key-exchange header is opened only under the key derived from the sender's root and node identifiers, so a header moved to another sender with different identifiers is opened with a different key (the derivation input separates identifiers).", "quantifier": "every pair of identity chains", "why_tests_cant": "ambiguity of concatenated identifiers cannot be sampled", "anchors": ["src/wickrcrypto/src/wickr_ctx.c: wickr_ctx_gen_header_key / wickr_ctx_packet"]}
{"id": "C48", "title": "Root keys, storage keys and contexts survive storage", "statement": "Exporting and importing root keys, storage keys and a whole context gives equal objects. Stored keys of a newer version are refused, and what is accepted is exactly what the stored message holds.", "quantifier": "every key set and context", "why_tests_cant": "parser/printer inverse over all inputs", "anchors": ["src/wickrcrypto/src/root_keys.c: wickr_root_keys_serialize, wickr_root_keys_create_from_buffer", "src/wickrcrypto/src/storage.c: wickr_storage_keys_serialize", "src/wickrcrypto/src/wickr_ctx.c: wickr_ctx_serialize, wickr_ctx_create_from_buffer"]}
{"id": "C49", "title": "Account recovery restores the root keys", "statement": "The recovery data and recovery key of a generated context restore root keys equal to the originals, with which a new context of the same root identity and remote storage key is built.", "quantifier": "every generated context and new device", "why_tests_cant": "end-to-end over all keys", "anchors": ["src/wickrcrypto/src/wickr_ctx.c: wickr_ctx_make_recovery, wickr_ctx_gen_with_recovery, wickr_ctx_gen_import_recovery"]}
{"id": "C50", "title": "Context generation reports failure instead of crashing", "statement": "Every wickr_ctx_gen* function returns NULL, and never dereferences NULL, when a step fails, e.g. for an identifier that is too long.", "quantifier": "every combination of arguments and failing step", "why_tests_cant": "each failing step is a separate path", "anchors": ["src/wickrcrypto/src/wickr_ctx.c: wickr_ctx_gen_with_root_keys, wickr_ctx_gen_with_recovery"]}
{"id": "C51", "title": "Local storage keys are bound to the device, remote ones are not", "statement": "Localizing the same root keys with the same device gives the same keys; the local key is a digest of the root storage key and the device salt, the remote key is the root remote key on every device.", "quantifier": "every root key set and pair of devices", "why_tests_cant": "relational property over pairs of devices", "anchors": ["src/wickrcrypto/src/root_keys.c: wickr_root_keys_localize", "src/wickrcrypto/src/devinfo.c: wickr_dev_info_derive"]}
{"id": "C52", "title": "Storage encryption keeps local and remote data apart and authenticated", "statement": "Data ciphered with the local (remote) storage key deciphers to itself with the same key, and tampered or unauthenticated input is rejected.", "quantifier": "every plaintext and every context", "why_tests_cant": "all inputs", "anchors": ["src/wickrcrypto/src/wickr_ctx.c: wickr_ctx_cipher_local, wickr_ctx_decipher_local, wickr_ctx_cipher_remote, wickr_ctx_decipher_remote"]}
{"id": "C53", "title": "Device ids derive deterministically from salt and system id", "statement": "wickr_dev_info_derive gives the same three 32-byte identifiers for the same salt and system id; they are the two halves of one digest and a digest of the system id, and survive copying.", "quantifier": "every salt and system id", "why_tests_cant": "all inputs", "anchors": ["src/wickrcrypto/src/devinfo.c: wickr_dev_info_derive, wickr_dev_info_copy"]}
{"id": "C54", "title": "Encrypted files decrypt to the original, whatever their size", "statement": "Decrypting the file produced by encrypting a file gives back its bytes for every size; the result does not depend on how reads are split into 4096-byte chunks; and the encrypted file is the same as the serialized in-memory result.", "quantifier": "every file content and size", "why_tests_cant": "chunk boundaries at every multiple of 4096", "anchors": ["src/wickrcrypto/src/openssl_suite.c: openssl_encrypt_file, openssl_decrypt_file"]}
{"id": "C55", "title": "A destination file is replaced only after complete success", "statement": "At every crash point of file encryption or decryption the destination is either untouched or complete; if the operation fails, the destination is unchanged and no temporary file remains; decryption renames only after the tag was verified.", "quantifier": "every crash point, every failing I/O operation and every file content", "why_tests_cant": "crash points and I/O failures cannot be enumerated by tests", "anchors": ["src/wickrcrypto/src/openssl_file_suite.c: openssl_aes256_file_encrypt, openssl_aes256_file_decrypt, moveTempFile"]}
{"id": "C56", "title": "File encryption that reports success encrypted the whole file", "statement": "If openssl_aes256_file_encrypt returns true, decrypting the destination gives the complete original source.", "quantifier": "every file and every read outcome, including read errors and overlapping path names", "why_tests_cant": "I/O errors and name collisions at every position", "anchors": ["src/wickrcrypto/src/openssl_suite.c: openssl_encrypt_file", "src/wickrcrypto/src/openssl_file_suite.c: createFileOperation"]}
{"id": "C57", "title": "Copies are faithful", "statement": "Every copy function of the library returns NULL or an object with the same observable contents as its argument.", "quantifier": "every object of every type", "why_tests_cant": "each optional field doubles the cases", "anchors": ["src/wickrcrypto/src/*_copy functions"]}
{"id": "C58", "title": "Parsing never fails unsafely", "statement": "Every deserializer returns NULL or a well-formed object for every byte string: no input makes it read out of bounds, dereference NULL or return an object that violates the constructors' size rules.", "quantifier": "every byte string", "why_tests_cant": "all inputs", "anchors": ["src/wickrcrypto/src/*_create_from_buffer functions"]}
{"id": "C59", "title": "What the library generates and signs verifies", "statement": "A node identity generated under a root, and an ephemeral keypair generated for an identity, verify against their signer; the chain made of root and node validates; the objects carry the identifier asked for and can be serialized and parsed.", "quantifier": "every root key the engine generated or imported, every identifier, every outcome of the random generator", "why_tests_cant": "depends on the random draws and on keys that come from imports", "anchors": ["src/wickrcrypto/src/identity.c: wickr_node_identity_gen, wickr_identity_sign; ephemeral_keypair.c: wickr_ephemeral_keypair_generate_identity"]}
{"id": "C60", "title": "Stream contexts are freed exactly at the last release", "statement": "A stream context starts with one reference; after any sequence of wickr_stream_ctx_ref_up and wickr_stream_ctx_destroy calls it is freed exactly at the call that releases the last reference, and until then taking or releasing references does not change its keys, counters or direction.", "quantifier": "every sequence of reference operations", "why_tests_cant": "all interleavings of take and release", "anchors": ["src/wickrcrypto/src/stream_ctx.c: wickr_stream_ctx_ref_up, wickr_stream_ctx_destroy"]}
{"id": "C61", "title": "No packet makes a handshake or transport misuse memory", "statement": "Whatever bytes a peer sends, in whatever state a transport context or its handshake is, wickr_transport_ctx_process_rx_buffer and the other calls on the context return without reading outside an object, dereferencing NULL or reading a union through a member that is not set.", "quantifier": "every history of a context, every next call and every byte string", "why_tests_cant": "all states times all inputs of an attacker", "anchors": ["src/wickrcrypto/src/transport_ctx.c: wickr_transport_ctx_process_rx_buffer; transport_handshake.c: __wickr_transport_handshake_process_response, __wickr_transport_handshake_process_initial"]}
{"id": "C62", "title": "Encoding a packet never crashes", "statement": "Encoding a packet from a context, sender, payload and recipients returns NULL or a packet for every payload and every recipient list: no size of payload or header, and no failing key agreement, makes it dereference NULL or read out of bounds.", "quantifier": "every payload, every recipient list, every outcome of the random generator and of key agreement", "why_tests_cant": "needs payloads near 2 GiB and failing primitives at every step", "anchors": ["src/wickrcrypto/src/protocol.c: wickr_packet_create_from_components, wickr_packet_create_with_components; wickr_ctx.c: wickr_ctx_encode_packet"]}
{"id": "C63", "title": "The digest of a file is the digest of its contents", "statement": "openssl_sha2_file returns the digest of the complete contents of the file, for every size, and NULL exactly when a read failed; it never returns the digest of a part.", "quantifier": "every file content and size, every read outcome", "why_tests_cant": "chunk boundaries and read errors at every position", "anchors": ["src/wickrcrypto/src/openssl_suite.c: openssl_sha2_file"]}
{"id": "C64", "title": "Copying is safe whichever allocations fail", "statement": "Every copy function, given an object the library makes and any pattern of failing allocations, either returns NULL and leaves memory exactly as it was, or returns an object with the same value in fresh blocks of its own; it has no undefined behaviour, frees nothing it does not own, and releases no block that still holds secret bytes.", "quantifier": "every object of every kind, every heap it lives in and every schedule of allocation failures", "why_tests_cant": "the failing allocation can be any of them, and the leak or the write through NULL is invisible in the result", "anchors": ["src/wickrcrypto/src/buffer.c, eckey.c, ecdsa.c, cipher.c, kdf.c, fingerprint.c, identity.c, node.c, array.c, payload.c, key_exchange.c, protocol.c, root_keys.c, storage.c, devinfo.c, stream_*.c, transport_*.c, ecdh_cipher_ctx.c, wickr_ctx.c: the *_copy and *_create functions"]}
{"id": "C65", "title": "Destroying releases exactly what the object owns and wipes its secrets", "statement": "Every destroy function releases each block of the object exactly once and no other block, never touches a released block, accepts NULL, and no private key, symmetric key, message body or device salt is still readable in a block when it is released.", "quantifier": "every object of every kind and every heap it lives in", "why_tests_cant": "a double free, a leak or an unwiped key is not visible in any result", "anchors": ["src/wickrcrypto/src/the *_destroy functions of the same files"]}
{"id": "C66", "title": "A copy is independent of the original", "statement": "With enough memory, the copy of an object the library makes succeeds and has the value it should; releasing the copy restores memory to what it was before, and releasing the original leaves the copy and everything else intact.", "quantifier": "every object of every kind and every heap it lives in", "why_tests_cant": "sharing of one block is only visible under particular orders of release", "anchors": ["src/wickrcrypto/src/the *_copy and *_destroy functions of the same files"]}
{"id": "C67", "title": "Raw signatures and DER signatures are converted faithfully", "statement": "A raw signature of 132 bytes becomes a DER signature with the two numbers it denotes, and converting that back gives the same bytes; a DER signature whose numbers have a raw form becomes that raw form and comes back; a signature without a raw form, or a raw signature of another size, is refused.", "quantifier": "every raw signature, every signature object, all three OpenSSL flavours the code has branches for", "why_tests_cant": "leading zero bytes occur in one signature of 256, and over-long or negative numbers are never made by signing: only an attacker sends them", "anchors": ["src/wickrcrypto/src/openssl_suite.c: openssl_ecdsa_to_raw, openssl_ecdsa_from_raw"]}
{"id": "C68", "title": "A MAC is accepted exactly when it is the right one", "statement": "Verifying an HMAC answers yes if and only if the MAC equals the HMAC of the data under the key with the digest asked for; a created MAC is that value; missing arguments are refused.", "quantifier": "all data, keys, digests and MACs of any length", "why_tests_cant": "a test can only show that some wrong MACs are refused", "anchors": ["src/wickrcrypto/src/openssl_suite.c: openssl_hmac_create, openssl_hmac_verify"]}
{"id": "C69", "title": "A derived hash is what its metadata advertises", "statement": "The result of a key derivation is the hash of the passphrase under the algorithm, work factor, salt, info and output length in its metadata; a derivation without given metadata uses a fresh random salt of the advertised size and can be repeated from the returned metadata to get the same hash.", "quantifier": "every algorithm of the library, every passphrase, salt, info and random source", "why_tests_cant": "a wrong work factor or an ignored salt gives perfectly consistent results in every round-trip test", "anchors": ["src/wickrcrypto/src/kdf.c: wickr_perform_kdf, wickr_perform_kdf_meta, __scrypt_generate_hash, __bcrypt_generate_hash, __hkdf_generate_hash", "src/wickrcrypto/src/openssl_suite.c: openssl_hkdf"]}
{"id": "C70", "title": "The texts of a fingerprint", "statement": "The long base32 and hex texts are the encoding of the whole fingerprint, the short ones the first half of the long ones, and each has the advertised length and a terminating zero.", "quantifier": "every 64-byte fingerprint", "why_tests_cant": "people compare these texts by eye: two prefixes may agree on the samples of a test and be cut at the wrong place", "anchors": ["src/wickrcrypto/src/fingerprint.c: wickr_fingerprint_get_b32, wickr_fingerprint_get_hex"]}
{"id": "C71", "title": "Rotating a device key replaces the key and nothing else", "statement": "Rotation makes the given key pair the key pair of the device, keeps its id and chain, and demands a new verification; without a key pair it fails and changes nothing. The public half of a key pair keeps everything but the private key.", "quantifier": "every device, every key pair, with and without copying", "why_tests_cant": "the old verdict surviving rotation shows only when the new key pair is not validly signed", "anchors": ["src/wickrcrypto/src/node.c: wickr_node_rotate_keypair", "src/wickrcrypto/src/ephemeral_keypair.c: wickr_ephemeral_keypair_make_public"]}
{"id": "C72", "title": "Imported keys are the keys that were given", "statement": "A successful import of a private or public key gives the key the cryptography library decoded, never one with the point at infinity, and a public import never has a private part; importing what key generation made gives the generated key back.", "quantifier": "every byte string, both kinds of import, every generated key", "why_tests_cant": "malformed keys come from the peer; no list of samples covers them", "anchors": ["src/wickrcrypto/src/openssl_suite.c: openssl_ec_key_import, openssl_ec_rand_key, __openssl_evp_private_key_from_buffer, __openssl_evp_public_key_from_buffer"]}
{"id": "C73", "title": "Reading an object from bytes takes only the memory of the object", "statement": "With enough memory, reading an object from bytes gives what the decoder specifies: the object, in new memory of its own, or NULL with memory as it was. The bytes given and everything else in memory are untouched, nothing is left behind, and no memory that holds a secret is released as it is, apart from what the decoded message itself held.", "quantifier": "every byte string, every kind of object that can be read, every heap", "why_tests_cant": "what is left behind is invisible to the caller, and the bytes come from the peer", "anchors": ["src/wickrcrypto/src/cipher.c, ecdsa.c, kdf.c, openssl_suite.c, identity.c, identity_priv.c, node.c, node_priv.c, ephemeral_keypair.c, ephemeral_keypair_priv.c, root_keys.c, storage.c, storage_priv.c, stream_key.c, stream_key_priv.c, payload.c, key_exchange.c, protocol.c, transport_packet.c: the *_from_buffer, *_from_proto and *_import functions"]}
{"id": "C74", "title": "Reading an object from bytes survives failing allocations", "statement": "Whichever allocations fail, reading an object from bytes either gives the object or gives NULL and leaves memory as it was, without undefined behaviour; NULL only if the bytes are refused or an allocation failed.", "quantifier": "every byte string, every kind of object that can be read, every schedule of failing allocations", "why_tests_cant": "each of the allocations would have to fail in turn", "anchors": ["src/wickrcrypto/src/the functions of C73"]}
{"id": "C75", "title": "Reading a secret leaves no readable copy of it", "statement": "After reading an object that holds a secret (a key, a message body), the secret is in the object and in the bytes given, and in no released memory.", "quantifier": "every byte string and every heap", "why_tests_cant": "released memory is not observable through the API", "anchors": ["src/wickrcrypto/src/the functions of C73", "src/wickrcrypto/src/the protobuf-c *__free_unpacked calls in them"]}
{"id": "C76", "title": "Turning an object into bytes takes only the memory of the bytes", "statement": "With enough memory, turning an object into bytes gives what the encoder specifies: the bytes in a new buffer, or NULL with memory as it was. The object and everything else in memory are untouched, nothing is left behind, and no memory that holds a secret is released as it is, apart from the encodings made on the way.", "quantifier": "every object of every kind that can be turned into bytes, every heap", "why_tests_cant": "what is left behind or scribbled over is invisible to a test that looks at the bytes", "anchors": ["src/wickrcrypto/src/cipher.c, ecdsa.c, kdf.c, identity.c, identity_priv.c, ephemeral_keypair.c, ephemeral_keypair_priv.c, node.c, node_priv.c, storage.c, storage_priv.c, stream_key.c, stream_key_priv.c, root_keys.c, payload.c, key_exchange.c, protocol.c, transport_packet.c, wickr_ctx.c: the *_serialize, *_to_proto and *_create_proto functions"]}
{"id": "C77", "title": "Turning an object into bytes survives failing allocations", "statement": "Whichever allocations fail, turning an object into bytes either gives the right bytes or gives NULL and leaves memory as it was, without undefined behaviour; NULL only if the object is refused or an allocation failed. NULL is accepted.", "quantifier": "every object of every kind that can be turned into bytes, every schedule of failing allocations", "why_tests_cant": "each of the allocations would have to fail in turn", "anchors": ["src/wickrcrypto/src/the functions of C76"]}
{"id": "C78", "title": "Turning a secret into bytes leaves no other readable copy of it", "statement": "After turning an object that holds a secret into bytes, the secret is in the object and in the bytes given back, and in no released memory, whichever allocations fail.", "quantifier": "every object, every heap, every schedule of failing allocations", "why_tests_cant": "released memory is not observable through the API", "anchors": ["src/wickrcrypto/src/the functions of C76", "src/wickrcrypto/src/storage_priv.c, stream_key_priv.c: the *_proto_free functions"]}
{"id": "C79", "title": "Key agreement binds the parties, the pre-shared key and the version", "statement": "A key derived with an ECDH context depends on the shared secret of the two keys, the salt, the information and the algorithm given, and has the cipher of the context. The key that wraps a packet key is HKDF of the shared secret of the exchange key and the recipient's ephemeral key, salted with the pre-shared key; SHA-256 for packet versions 2 and 3 and SHA-512 for 4; bound to the recipient's device for version 2 and to both root keys and the device for versions 3 and 4. Sender and recipient use the same derivation.", "quantifier": "every pair of keys, algorithm, salt, information, sender, recipient, pre-shared key and version", "why_tests_cant": "a derivation that leaves out an input still lets both sides agree, so a round trip does not show it", "anchors": ["src/wickrcrypto/src/ecdh_cipher_ctx.c: wickr_ecdh_cipher_ctx_cipher, wickr_ecdh_cipher_ctx_decipher", "src/wickrcrypto/src/protocol.c: wickr_key_exchange_create_with_packet_key, wickr_key_exchange_derive_packet_key", "src/wickrcrypto/src/kdf.c: wickr_perform_kdf_meta"]}
{"id": "C80", "title": "Cryptographic operations take only the memory of their result", "statement": "With enough memory, drawing random bytes or a key, encrypting, decrypting, hashing, HMAC, HKDF, generating a key pair, signing, verifying, agreeing on a secret, deriving a key from a passphrase, and encrypting or decrypting under a passphrase give the answer the operation specifies: an object in memory of its own, a yes or no, or NULL. The arguments and everything else in memory are untouched and nothing is left behind.", "quantifier": "every argument of each operation (NULL included), every heap, every set of primitives", "why_tests_cant": "what is left behind or scribbled over is invisible to a test that looks at the answer", "anchors": ["src/wickrcrypto/src/openssl_suite.c: openssl_crypto_random, openssl_cipher_key_random, openssl_aes256_encrypt, openssl_aes256_decrypt, openssl_sha2, openssl_hmac_create, openssl_hmac_verify, openssl_hkdf, openssl_ec_rand_key, openssl_ec_sign, openssl_ec_verify, openssl_gen_shared_secret", "src/wickrcrypto/src/kdf.c: wickr_perform_kdf, wickr_perform_kdf_meta", "src/wickrcrypto/src/crypto_engine.c: wickr_crypto_engine_kdf_cipher, wickr_crypto_engine_kdf_decipher"]}
{"id": "C81", "title": "Cryptographic operations survive failing allocations", "statement": "Whichever allocations fail, each of the operations of C80 either gives the right answer or refuses and leaves memory as it was, without undefined behaviour; it refuses only if the operation would or an allocation failed.", "quantifier": "every argument of each operation, every heap, every schedule of failing allocations", "why_tests_cant": "each of the allocations would have to fail in turn", "anchors": ["src/wickrcrypto/src/the functions of C80"]}
{"id": "C82", "title": "Cryptographic operations leave no readable copy of a key, a passphrase or a text", "statement": "After each of the operations of C80, whichever allocations fail, no released memory holds a key, a passphrase, a shared secret, a derived key or a plain text; only nonces, salts, ciphertexts and tags may stay readable.", "quantifier": "every argument of each operation, every heap, every schedule of failing allocations", "why_tests_cant": "released memory is not observable through the API", "anchors": ["src/wickrcrypto/src/the functions of C80"]}
{"id": "C83", "title": "Protocol operations take only the memory of their result", "statement": "With enough memory, agreeing on a key, encrypting and decrypting with an agreed key, wrapping and unwrapping packet keys, encrypting and decrypting headers and payloads, finding an exchange, signing a packet, reading and decoding one, encrypting for storage, and exporting and importing recovery keys, storage keys and root keys give what the operation specifies: an object in memory of its own, or NULL. The arguments and everything else in memory are untouched and nothing is left behind.", "quantifier": "every argument of each operation (NULL included) that the library can make, every heap, every set of primitives", "why_tests_cant": "what is left behind or scribbled over is invisible to a test that looks at the answer", "anchors": ["src/wickrcrypto/src/ecdh_cipher_ctx.c", "src/wickrcrypto/src/protocol.c: wickr_key_exchange_create_with_packet_key, wickr_key_exchange_derive_packet_key, wickr_packet_create_with_components (static), wickr_parse_result_from_packet, wickr_decode_result_from_parse_result", "src/wickrcrypto/src/key_exchange.c, payload.c, root_keys.c: encryption", "src/wickrcrypto/src/wickr_ctx.c: wickr_ctx_parse_packet, wickr_ctx_parse_packet_no_decode, wickr_ctx_decode_packet, wickr_ctx_cipher_local, wickr_ctx_decipher_local, wickr_ctx_cipher_remote, wickr_ctx_decipher_remote, wickr_ctx_export_storage_keys, wickr_ctx_import_storage_keys, wickr_ctx_gen_import_recovery, wickr_ctx_gen_result_make_recovery, wickr_ctx_gen_export_recovery_key_passphrase, wickr_ctx_gen_import_recovery_key_passphrase"]}
{"id": "C84", "title": "Protocol operations survive failing allocations", "statement": "Whichever allocations fail, each of the operations of C83 either gives the right answer or refuses and leaves memory as it was, without undefined behaviour; it refuses only if the operation would or an allocation failed. Reading and decoding a packet may instead report an error, but never call a signature valid that is not.", "quantifier": "every argument of each operation, every heap, every schedule of failing allocations", "why_tests_cant": "each of the allocations would have to fail in turn", "anchors": ["src/wickrcrypto/src/the functions of C83"]}
{"id": "C85", "title": "Protocol operations leave no readable copy of a key, a message or a passphrase", "statement": "After each of the operations of C83, whichever allocations fail, no released memory holds a private key, an agreed key, a pre-shared key, a packet key, a storage key or a message; only public keys, identifiers, nonces, ciphertexts and what travels in the clear may stay readable.", "quantifier": "every argument of each operation, every heap, every schedule of failing allocations", "why_tests_cant": "released memory is not observable through the API", "anchors": ["src/wickrcrypto/src/the functions of C83"]}
{"id": "C86", "title": "Making keys, identities and devices takes only the memory of the result", "statement": "With enough memory, signing with an identity, generating a node identity, an ephemeral key pair, root keys, a transport root key, a stream key or a source of stream nonces, localizing root keys to a device, making the information of a new device, deriving the stream keys of a transport, and computing the fingerprints of a key, an identity or a pair of identities give what the operation specifies: an object in memory of its own, or NULL. The arguments and everything else in memory are untouched and nothing is left behind.", "quantifier": "every argument of each operation (NULL included) that the library can make, every heap, every set of primitives", "why_tests_cant": "what is left behind or scribbled over is invisible to a test that looks at the answer", "anchors": ["src/wickrcrypto/src/identity.c: wickr_identity_sign, wickr_node_identity_gen, wickr_identity_get_fingerprint, wickr_identity_get_bilateral_fingerprint", "src/wickrcrypto/src/ephemeral_keypair.c: wickr_ephemeral_keypair_generate_identity", "src/wickrcrypto/src/root_keys.c: wickr_root_keys_generate, wickr_root_keys_localize", "src/wickrcrypto/src/devinfo.c: wickr_dev_info_create_new", "src/wickrcrypto/src/fingerprint.c: wickr_fingerprint_gen, wickr_fingerprint_gen_bilateral", "src/wickrcrypto/src/eckey.c: wickr_ec_key_get_pubdata_fixed_len", "src/wickrcrypto/src/transport_root_key.c: wickr_transport_root_key_create_random, wickr_transport_root_key_to_stream_key", "src/wickrcrypto/src/stream_key.c: wickr_stream_key_create_rand", "src/wickrcrypto/src/stream_iv.c: wickr_stream_iv_create", "src/wickrcrypto/src/wickr_ctx.c: wickr_ctx_ephemeral_keypair_gen"]}
{"id": "C87", "title": "Making keys, identities and devices survives failing allocations", "statement": "Whichever allocations fail, each of the operations of C86 either gives the right answer or refuses and leaves memory as it was, without undefined behaviour; it refuses only if the operation would or an allocation failed.", "quantifier": "every argument of each operation, every heap, every schedule of failing allocations", "why_tests_cant": "each of the allocations would have to fail in turn", "anchors": ["src/wickrcrypto/src/the functions of C86"]}
{"id": "C88", "title": "Making keys, identities and devices leaves no readable copy of a secret", "statement": "After each of the operations of C86, whichever allocations fail, no released memory holds a private key, a root key, a transport secret, a stream key, the seed of stream nonces or the salt of a device; only public keys, signatures, identifiers and digests of public strings may stay readable.", "quantifier": "every argument of each operation, every heap, every schedule of failing allocations", "why_tests_cant": "released memory is not observable through the API", "anchors": ["src/wickrcrypto/src/the functions of C86"]}
{"id": "C89", "title": "Validating and making contexts takes only the memory of the result", "statement": "With enough memory, validating a chain or a node changes only its status and its cached digest, in place, to what validation specifies. Making a context takes over the device, chain and keys it is given when it succeeds and leaves them to the caller when it does not; reading a stored or exported context takes over the device in the same way. Generating a context with new keys, given keys, a recovery or a recovery and a passphrase gives what the operation specifies, in memory of its own. Everything else in memory is untouched and nothing is left behind.", "quantifier": "every chain, node, device, key, identifier, stored context, recovery and passphrase the library can make, every heap, every set of primitives", "why_tests_cant": "what is left behind or scribbled over is invisible to a test that looks at the answer", "anchors": ["src/wickrcrypto/src/identity.c: wickr_identity_chain_validate", "src/wickrcrypto/src/node.c: wickr_node_verify_signature_chain", "src/wickrcrypto/src/wickr_ctx.c: wickr_ctx_create, wickr_ctx_create_from_buffer, wickr_ctx_import, wickr_ctx_gen_new, wickr_ctx_gen_new_with_sig_key, wickr_ctx_gen_with_root_keys, wickr_ctx_gen_with_recovery, wickr_ctx_gen_with_passphrase"]}
{"id": "C90", "title": "Validating and making contexts survives failing allocations", "statement": "Whichever allocations fail, each of the operations of C89 either gives the right answer or refuses and leaves memory as it was, without undefined behaviour; it refuses only if the operation would or an allocation failed.", "quantifier": "every argument of each operation, every heap, every schedule of failing allocations", "why_tests_cant": "each of the allocations would have to fail in turn", "anchors": ["src/wickrcrypto/src/the functions of C89"]}
{"id": "C91", "title": "Validating and making contexts leaves no readable copy of a key or a passphrase", "statement": "After each of the operations of C89, whichever allocations fail, no released memory holds a private key, a storage key, a root key, a derived key or a passphrase; only public keys, identifiers, signatures and digests of them may stay readable.", "quantifier": "every argument of each operation, every heap, every schedule of failing allocations", "why_tests_cant": "released memory is not observable through the API", "anchors": ["src/wickrcrypto/src/the functions of C89"]}
{"id": "C92", "title": "Running out of memory does not change what is trusted", "statement": "Whichever allocations fail during the validation of a chain or a node, a chain or node that does not carry the right signatures is not accepted, and one that does is accepted again once there is memory.", "quantifier": "every chain and node, every heap, every schedule of failing allocations", "why_tests_cant": "each of the allocations would have to fail in turn, and the effect shows only in a later call", "anchors": ["src/wickrcrypto/src/identity.c: wickr_identity_chain_validate, wickr_identity_chain_update_status_cache (static)", "src/wickrcrypto/src/node.c: wickr_node_verify_signature_chain"]}
{"id": "C93", "title": "Using a stream takes only the memory of its answers", "statement": "With enough memory, making a stream context takes over the key it is given when it succeeds and leaves it to the caller when it does not. Encoding and decoding packets, one or any number of them on one context, gives what the operations specify, leaves the context in place with the state they specify, and takes memory for the answers alone; everything else is untouched and nothing is left behind, however often the key evolves.", "quantifier": "every stream key and context the library can make, every sequence of calls with any data, associated data and sequence numbers, every heap, every set of primitives", "why_tests_cant": "what is left behind or scribbled over is invisible to a test that looks at the answer", "anchors": ["src/wickrcrypto/src/stream_ctx.c: wickr_stream_ctx_create, wickr_stream_ctx_encode, wickr_stream_ctx_decode", "src/wickrcrypto/src/stream_iv.c: wickr_stream_iv_create, wickr_stream_iv_generate"]}
{"id": "C94", "title": "Using a stream survives failing allocations", "statement": "Whichever allocations fail, each of the operations of C93 either gives the right answer or refuses, without undefined behaviour and without leaving anything behind; after a refusal the context is as before, or as after the call, or has used up one nonce, so that it can go on being used.", "quantifier": "every argument of each operation, every sequence of calls, every heap, every schedule of failing allocations", "why_tests_cant": "each of the allocations would have to fail in turn, in every position of the stream", "anchors": ["src/wickrcrypto/src/the functions of C93"]}
{"id": "C95", "title": "Using a stream leaves no readable copy of a key", "statement": "After each of the operations of C93, whichever allocations fail, no released memory holds a stream key, an evolution key, a key that was evolved away, the seed of the nonces or a plaintext; only nonces and the user data of the key may stay readable.", "quantifier": "every argument of each operation, every sequence of calls, every heap, every schedule of failing allocations", "why_tests_cant": "released memory is not observable through the API", "anchors": ["src/wickrcrypto/src/the functions of C93"]}
{"id": "C96", "title": "Running out of memory does not make a stream repeat a nonce", "statement": "Whichever allocations fail during any sequence of encodings on one context, the packets that come out carry nonces of the sequence of the context in order, each later than those before it; so no two packets have the same nonce unless that sequence itself repeats within as many steps as there were calls.", "quantifier": "every stream context, every sequence of calls, every heap, every schedule of failing allocations", "why_tests_cant": "each of the allocations would have to fail in turn, and the effect shows only in a later packet", "anchors": ["src/wickrcrypto/src/stream_ctx.c: wickr_stream_ctx_encode", "src/wickrcrypto/src/stream_iv.c: wickr_stream_iv_generate"]}
{"id": "C97", "title": "Running out of memory does not make a stream accept a replay", "statement": "Whichever allocations fail during any sequence of encodings or decodings on one context, the sequence numbers of the packets that are answered rise strictly, starting above the last number of the context; so a packet that was decoded is never decoded again.", "quantifier": "every stream context, every sequence of calls, every heap, every schedule of failing allocations", "why_tests_cant": "each of the allocations would have to fail in turn, and the effect shows only in a later packet", "anchors": ["src/wickrcrypto/src/stream_ctx.c: wickr_stream_ctx_encode, wickr_stream_ctx_decode"]}
{"id": "C98", "title": "Sending a packet takes only the memory of the packet", "statement": "With enough memory, building a packet from its keys, payload, recipients and sender, and encoding one with a context, gives what the operations specify (no packet unless every recipient validates) and takes memory for the answer alone. The keys, the payload and the sender are untouched. Of the recipients only the cached results of validation change, and everything else in memory is as before.", "quantifier": "all header, payload and exchange keys, payloads, senders, contexts and arrays of any number of recipients, every heap, every set of primitives", "why_tests_cant": "what is left behind or scribbled over is invisible to a test that looks at the answer", "anchors": ["src/wickrcrypto/src/protocol.c: wickr_packet_create_from_components, __wickr_recipients_validate", "src/wickrcrypto/src/wickr_ctx.c: wickr_ctx_encode_packet"]}
{"id": "C99", "title": "Sending a packet survives failing allocations", "statement": "Whichever allocations fail, each of the operations of C98 either gives the right packet or none, without undefined behaviour and without leaving anything behind, and the recipients can go on being used.", "quantifier": "every argument of each operation, any number of recipients, every heap, every schedule of failing allocations", "why_tests_cant": "each of the allocations would have to fail in turn, for every number of recipients", "anchors": ["src/wickrcrypto/src/the functions of C98"]}
{"id": "C100", "title": "Sending a packet leaves no readable copy of a key", "statement": "After each of the operations of C98, whichever allocations fail, no released memory holds a payload key, a header key, a private key, a key agreed on with a recipient or the plaintext; only public keys, names, nonces, signatures and ciphertexts may stay readable.", "quantifier": "every argument of each operation, any number of recipients, every heap, every schedule of failing allocations", "why_tests_cant": "released memory is not observable through the API", "anchors": ["src/wickrcrypto/src/the functions of C98"]}
{"id": "C101", "title": "Running out of memory does not make a packet go to an untrusted recipient", "statement": "Whichever allocations fail, a packet comes out of the operations of C98 only if every recipient in the array is trusted: the key pair is signed by its node and the node by its root, or a cached result that matches the recipient says so. The packet is then the one the operation specifies for all these recipients: none is left out and no key is replaced.", "quantifier": "every argument of each operation, any number of recipients, every heap, every schedule of failing allocations that does not crash the process", "why_tests_cant": "each of the allocations would have to fail in turn, and a packet that wrongly comes out looks like any other", "anchors": ["src/wickrcrypto/src/protocol.c: wickr_packet_create_from_components, __wickr_recipients_validate", "src/wickrcrypto/src/wickr_ctx.c: wickr_ctx_encode_packet"]}
{"id": "C102", "title": "Signing and verifying a transport packet takes only the memory of the packet and the cached result", "statement": "With enough memory, signing a transport packet gives the answer and the packet the operation specifies, leaves its body and the chain untouched, and takes memory for the mac and the bytes for the network alone: what they replace is released. Verifying one gives the specified answer and takes memory only for the bytes for the network, if the packet had none, and for the cached result of the chain.", "quantifier": "all transport packets, all chains, every heap, every set of primitives", "why_tests_cant": "what is left behind or scribbled over is invisible to a test that looks at the answer", "anchors": ["src/wickrcrypto/src/transport_packet.c: wickr_transport_packet_sign, wickr_transport_packet_verify"]}
{"id": "C103", "title": "Signing and verifying a transport packet survive failing allocations", "statement": "Whichever allocations fail, signing a transport packet either signs it or refuses and leaves it as it was, and verifying one gives the right answer or no; both without undefined behaviour and without leaving anything behind. A packet said to be signed can be verified by the receiver, and after a refusal the packet and the chain can be used again.", "quantifier": "all transport packets, all chains, every heap, every schedule of failing allocations", "why_tests_cant": "each of the allocations would have to fail in turn, and the effect shows only at the receiver or in a later call", "anchors": ["src/wickrcrypto/src/the functions of C102"]}
{"id": "C104", "title": "Signing and verifying a transport packet leave no readable copy of a key", "statement": "After signing or verifying a transport packet, whichever allocations fail, no released memory holds a private key or anything else but the header of the packet, what is sent in the clear, signatures and what the digests of the chain are made of.", "quantifier": "all transport packets, all chains, every heap, every schedule of failing allocations", "why_tests_cant": "released memory is not observable through the API", "anchors": ["src/wickrcrypto/src/the functions of C102"]}
{"id": "C105", "title": "Running out of memory does not make a forged transport packet pass", "statement": "Whichever allocations fail, a transport packet is verified only if it has a mac of the right type, the chain is good (or a cached result that matches it says so) and the signature in the mac was made with the key of its node over all the other bytes of the packet.", "quantifier": "all transport packets, all chains, every heap, every schedule of failing allocations that does not crash the process", "why_tests_cant": "each of the allocations would have to fail in turn, for forged packets of every kind", "anchors": ["src/wickrcrypto/src/transport_packet.c: wickr_transport_packet_verify", "src/wickrcrypto/src/identity.c: wickr_identity_chain_validate"]}
{"id": "C106", "title": "Sending and receiving over an active transport takes only the memory of what is handed over", "statement": "With enough memory, sending data over an active transport gives the bytes for the network that the protocol specifies, and receiving bytes gives the data the protocol specifies or refuses them; the stream moves on as specified, what was given is untouched, and nothing is allocated in the end but the bytes handed over and what the stream holds.", "quantifier": "all data, all bytes that come in, streams in every state that creation and use can produce, every heap, every set of primitives", "why_tests_cant": "what is left behind or scribbled over is invisible to a test that looks at the answer", "anchors": ["src/wickrcrypto/src/transport_ctx.c: wickr_transport_ctx_process_tx_buffer, wickr_transport_ctx_process_rx_buffer, __wickr_transport_ctx_encode_pkt, __wickr_transport_ctx_decode_pkt"]}
{"id": "C107", "title": "Sending and receiving over an active transport survive failing allocations", "statement": "Whichever allocations fail, sending gives the specified bytes or nothing and receiving gives the specified data or nothing, without undefined behaviour and without leaving anything behind. After a failure the stream is as it was, or has used up a nonce, or has moved on by one packet.", "quantifier": "all data, all bytes that come in, streams in every state that creation and use can produce, every heap, every schedule of failing allocations", "why_tests_cant": "each of the allocations would have to fail in turn, and what is left behind is invisible", "anchors": ["src/wickrcrypto/src/the functions of C106"]}
{"id": "C108", "title": "Sending and receiving over an active transport leave no readable copy of keys or data", "statement": "After sending or receiving, whichever allocations fail, no released memory holds a key of the stream, data that was sent or data that was received: only what went over the network, the nonce, and the user data of a stream key that was replaced.", "quantifier": "all data, all bytes that come in, streams in every state that creation and use can produce, every heap, every schedule of failing allocations", "why_tests_cant": "released memory is not observable through the API", "anchors": ["src/wickrcrypto/src/the functions of C106"]}
{"id": "C109", "title": "Running out of memory does not corrupt, repeat or reorder what is sent over a transport", "statement": "Two streams start with the same key. Any number of pieces of data are sent over one of them, and any bytes are presented to the other, any number of times and in any order, with any allocations failing in each call. Whenever bytes that were sent are accepted, the data handed over is the data they were sent for; what is accepted comes in the order in which it was sent, and nothing is accepted twice.", "quantifier": "all keys, every sequence of calls on both sides, everything that may come in, every heap and every schedule of failing allocations in each call, except those that crash the process", "why_tests_cant": "sequences of calls, losses, repetitions and failures multiply", "anchors": ["src/wickrcrypto/src/the functions of C106", "src/wickrcrypto/src/stream_ctx.c: wickr_stream_ctx_encode, wickr_stream_ctx_decode"]}
{"id": "C110", "title": "Making and reading texts takes only the memory of the result", "statement": "With enough memory, turning bytes into base32, base64 or hexadecimal text, turning such text into bytes, and showing a fingerprint as base32 or hexadecimal, in full or in half, gives the result the format specifies; what was given is untouched, and nothing is allocated in the end but the result.", "quantifier": "all bytes, all texts whether well-formed or not, all fingerprints, every heap", "why_tests_cant": "what is left behind or scribbled over is invisible to a test that looks at the answer", "anchors": ["src/wickrcrypto/src/b32.c: base32_encode, base32_decode", "src/wickrcrypto/src/util.c: getBase64FromData, getDataFromBase64, getHexStringFromData, getDataFromHexString", "src/wickrcrypto/src/fingerprint.c: wickr_fingerprint_get_b32, wickr_fingerprint_get_hex"]}
{"id": "C111", "title": "Making and reading texts survives failing allocations", "statement": "Whichever allocations fail, the functions of C110 give the specified result or nothing, without undefined behaviour and without leaving anything behind.", "quantifier": "all bytes, all texts whether well-formed or not, all fingerprints, every heap, every schedule of failing allocations", "why_tests_cant": "each of the allocations would have to fail in turn, and what is left behind is invisible", "anchors": ["src/wickrcrypto/src/the functions of C110"]}
{"id": "C112", "title": "Making and reading texts leaves no readable copy of what they stand for", "statement": "After any of the functions of C110, whichever allocations fail, no released memory holds the bytes, the text or a part of them.", "quantifier": "all bytes, all texts whether well-formed or not, all fingerprints, every heap, every schedule of failing allocations", "why_tests_cant": "released memory is not observable through the API", "anchors": ["src/wickrcrypto/src/the functions of C110"]}
{"id": "C113", "title": "Joining and cutting buffers takes only the memory of the result", "statement": "With enough memory, wickr_buffer_copy_section, wickr_buffer_concat and wickr_buffer_concat_multi give a new buffer with exactly the bytes asked for, or NULL where the section does not lie in the buffer, the result would be empty or larger than the library allows. The buffers given are untouched, also when one is given several times, and nothing is allocated but the result.", "quantifier": "all buffers, missing ones among them, any number of them, all offsets and lengths of type size_t, every heap", "why_tests_cant": "all contents, sizes and overlaps of arguments; what is left behind is invisible to a test that looks at the answer", "anchors": ["src/wickrcrypto/src/buffer.c: wickr_buffer_copy_section, wickr_buffer_concat, wickr_buffer_concat_multi"]}
{"id": "C114", "title": "Joining and cutting buffers survives failing allocations", "statement": "Whichever allocations fail, the functions of C113 give the buffer of C113 or NULL, and NULL only for the reasons of C113 or because an allocation failed. There is no undefined behaviour, nothing is left behind, the buffers given are untouched, and no released memory holds their bytes.", "quantifier": "all buffers, missing ones among them, any number of them, all offsets and lengths of type size_t, every heap, every schedule of failing allocations", "why_tests_cant": "each allocation would have to fail in turn, and released memory is not observable through the API", "anchors": ["src/wickrcrypto/src/the functions of C113"]}
