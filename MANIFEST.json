{
 "claims": [
  {
   "property": "C01",
   "status": "proved",
   "theorems": [
    "C01_copy_section",
    "C01_modify_section"
   ],
   "note": "All 64-bit start/len values; every content of fresh memory."
  },
  {
   "property": "C02",
   "status": "proved",
   "theorems": [
    "C02_concat_multi",
    "C02_concat"
   ],
   "note": ""
  },
  {
   "property": "C03",
   "status": "proved",
   "theorems": [
    "C03_array_refines_list",
    "C03_mixed_ownership_refuted"
   ],
   "note": "For histories in which every item is stored with a copy. The companion counterexample shows what happens when an uncopied item is later replaced with copy = true."
  },
  {
   "property": "C04",
   "status": "proved",
   "theorems": [
    "C04_base64_text",
    "C04_base64_roundtrip"
   ],
   "note": "Objects below 2^63 bytes."
  },
  {
   "property": "C05",
   "status": "partial",
   "theorems": [
    "C05_base64_decode_safe_partial",
    "C05_high_byte_refuted",
    "C05_overflow_refuted",
    "C05_unterminated_refuted"
   ],
   "note": "False of the code in three ways, each with a counterexample; safe otherwise."
  },
  {
   "property": "C06",
   "status": "proved",
   "theorems": [
    "C06_hex_text",
    "C06_hex_roundtrip"
   ],
   "note": ""
  },
  {
   "property": "C07",
   "status": "partial",
   "theorems": [
    "C07_hex_decode_partial",
    "C07_malformed_refuted"
   ],
   "note": "False of the code: malformed text is accepted. Proved: well-formed text decodes correctly, memory safety, exact acceptance condition."
  },
  {
   "property": "C08",
   "status": "proved",
   "theorems": [
    "C08_base32_text",
    "C08_base32_roundtrip"
   ],
   "note": ""
  },
  {
   "property": "C09",
   "status": "proved",
   "theorems": [
    "C09_base32_decode"
   ],
   "note": ""
  },
  {
   "property": "C10",
   "status": "proved",
   "theorems": [
    "C10_bilateral_symmetric",
    "C10_identity_bilateral_symmetric",
    "C10_bilateral_value",
    "C10_bilateral_of_equals"
   ],
   "note": ""
  },
  {
   "property": "C100",
   "status": "partial",
   "theorems": [
    "C100_packet_partial",
    "C100_encode_partial",
    "C100_packet_refuted"
   ],
   "note": "hides_change with the strings that may stay readable listed (sending_public, encoding_public). False: the key agreed on with a recipient is released as it is when an allocation fails (C100_packet_refuted). The _partial theorems say that nothing else stays readable."
  },
  {
   "property": "C101",
   "status": "proved",
   "theorems": [
    "C101_packet",
    "C101_encode"
   ],
   "note": "For every run that does not crash, under any schedule. all_trusted and packet_to are in Spec/HeapSendingSpec.v. C101_failing_case: a packet that comes out although an allocation failed."
  },
  {
   "property": "C102",
   "status": "partial",
   "theorems": [
    "C102_sign_partial",
    "C102_verify",
    "C102_resign_refuted",
    "C102_network_refuted",
    "C102_key_refuted"
   ],
   "note": "changes_cleanly with sign_ok_after / verify_ok (Spec/HeapSigningSpec.v). Full for verifying. False for signing: an old mac (C102_resign_refuted) or old bytes for the network (C102_network_refuted) stay behind, and so does the digest context for a private key that cannot be decoded (C102_key_refuted). C102_sign_partial covers all other packets and chains."
  },
  {
   "property": "C103",
   "status": "partial",
   "theorems": [
    "C103_sign_partial",
    "C103_verify_partial",
    "C103_sign_refuted",
    "C103_sign_result_refuted",
    "C103_verify_refuted",
    "C103_sign_leaks_refuted",
    "C103_spoiled_refuted",
    "C103_half_signed_refuted",
    "C103_chain_refuted"
   ],
   "note": "changes_in_memory. False: untested allocations crash; a context stays behind; a packet said to be signed may carry a signature without its padding, which no receiver accepts (C103_spoiled_refuted); a refused packet may keep a mac and then cannot be signed properly any more (C103_half_signed_refuted); a failure while a good chain is validated is cached as its verdict (C103_chain_refuted). The _partial theorems say which kinds of allocation crash and which packets, chains and answers are possible otherwise."
  },
  {
   "property": "C104",
   "status": "proved",
   "theorems": [
    "C104_sign",
    "C104_verify"
   ],
   "note": "hides_change with the strings that may stay readable listed (packet_sign_public, verify_public)."
  },
  {
   "property": "C105",
   "status": "proved",
   "theorems": [
    "C105_verified"
   ],
   "note": "For every run that does not crash, under any schedule. vouched is in Spec/HeapSigningSpec.v. C105_failing_case: a packet that is verified although an allocation failed."
  },
  {
   "property": "C106",
   "status": "proved",
   "theorems": [
    "C106_send",
    "C106_receive"
   ],
   "note": "changes_cleanly with send_ok / receive_ok (Spec/HeapChannelSpec.v), which say that the answer and the stream are those of the functional model of Model/Transport.v. The state of the transport context other than its streams, and the callbacks, are not part of the heap model."
  },
  {
   "property": "C107",
   "status": "partial",
   "theorems": [
    "C107_send_partial",
    "C107_receive_partial",
    "C107_send_refuted",
    "C107_send_key_refuted",
    "C107_receive_refuted",
    "C107_receive_key_refuted"
   ],
   "note": "changes_in_memory. False: untested allocations of cipher keys and cipher results crash. The _partial theorems allow crashes only where such an allocation fails, and say which states the stream can be in after a failure."
  },
  {
   "property": "C108",
   "status": "proved",
   "theorems": [
    "C108_send",
    "C108_receive"
   ],
   "note": "hides_change with the strings that may stay readable listed (send_public, receive_public)."
  },
  {
   "property": "C109",
   "status": "proved",
   "theorems": [
    "C109_delivered",
    "C109_in_order"
   ],
   "note": "Sessions are channel_sent and channel_received of Spec/HeapChannelSpec.v: each call has its own heap and schedule. A context refuses data after an error; the theorems hold of sessions that go on after one as well. That nothing is accepted twice is C109_in_order with a = b. C109_case: a session with failures on both sides and a replay."
  },
  {
   "property": "C11",
   "status": "proved",
   "theorems": [
    "C11_fingerprint_binds",
    "C11_fingerprint_exists",
    "C11_bilateral_binds",
    "C11_short_keys_refuted"
   ],
   "note": "For keys of the size the library generates, and no SHA-512 collision between the two explicit inputs. C11_short_keys_refuted: shorter imported keys are zero padded, and trailing zeros are not distinguished."
  },
  {
   "property": "C110",
   "status": "proved",
   "theorems": [
    "C110_base32_encode",
    "C110_base32_decode",
    "C110_base64_encode",
    "C110_base64_decode",
    "C110_hex_encode",
    "C110_hex_decode",
    "C110_fingerprint_base32",
    "C110_fingerprint_hex"
   ],
   "note": "performs_cleanly (Spec/HeapEngineSpec.v): the result is that of the functional models of Model/Base32.v, Base64.v, Hex.v and Fingerprint.v, about which C04-C09 and C70 speak. Where those say that the behaviour is undefined, it is so here."
  },
  {
   "property": "C111",
   "status": "partial",
   "theorems": [
    "C111_base32_encode",
    "C111_base32_decode",
    "C111_base64_encode",
    "C111_base64_decode",
    "C111_hex_encode",
    "C111_hex_decode",
    "C111_fingerprint_base32_long",
    "C111_fingerprint_base32_partial",
    "C111_fingerprint_hex_long",
    "C111_fingerprint_hex_partial",
    "C111_fingerprint_base32_refuted",
    "C111_fingerprint_hex_refuted"
   ],
   "note": "performs_safely for all but half a fingerprint. False for that: the text is used without a test, so that showing half a fingerprint crashes when there is no memory for its text. The _partial theorems allow crashes only there."
  },
  {
   "property": "C112",
   "status": "partial",
   "theorems": [
    "C112_base32_encode",
    "C112_base32_decode_partial",
    "C112_base64_encode",
    "C112_base64_decode_partial",
    "C112_hex_encode",
    "C112_hex_decode",
    "C112_fingerprint_base32",
    "C112_fingerprint_hex",
    "C112_base32_decode_refuted",
    "C112_base64_decode_refuted"
   ],
   "note": "hides_op. Full for making texts, for hexadecimal and for fingerprints. False for base32_decode, which releases the values of all characters without wiping them, and for getDataFromBase64, which releases what it has decoded when it rejects a character. The _partial theorems list these strings (base32_decode_public, base64_decode_public) and say that nothing else stays."
  },
  {
   "property": "C113",
   "status": "proved",
   "theorems": [
    "C113_section",
    "C113_concat",
    "C113_concat_multi"
   ],
   "note": "performs_cleanly (Spec/HeapEngineSpec.v) with the results of Spec/HeapJoinSpec.v. The premises say that sizes fit in size_t."
  },
  {
   "property": "C114",
   "status": "proved",
   "theorems": [
    "C114_section",
    "C114_concat",
    "C114_concat_multi"
   ],
   "note": "performs_safely with the same results; wiping is part of it."
  },
  {
   "property": "C12",
   "status": "proved",
   "theorems": [
    "C12_result_roundtrip",
    "C12_result_too_big",
    "C12_result_accept"
   ],
   "note": "Well-formed = what the constructor accepts, with a non-empty ciphertext if there is one."
  },
  {
   "property": "C13",
   "status": "proved",
   "theorems": [
    "C13_key_roundtrip",
    "C13_key_accept"
   ],
   "note": "Trailing bytes after a key are ignored by the parser, as the theorem shows."
  },
  {
   "property": "C14",
   "status": "proved",
   "theorems": [
    "C14_decrypt_encrypt",
    "C14_through_serialization",
    "C14_encrypt_succeeds",
    "C14_empty_plaintext_refuted",
    "C14_short_iv_refuted"
   ],
   "note": "For every non-empty plaintext (the library cannot create an empty buffer). Companion counterexamples: an empty plaintext encrypts but never decrypts; a short caller IV is over-read."
  },
  {
   "property": "C15",
   "status": "proved",
   "theorems": [
    "C15_decrypt_refuses_unauthenticated",
    "C15_decrypt_authenticated",
    "C15_kdf_decipher_authenticated",
    "C15_stream_decode_authenticated",
    "C15_payload_authenticated",
    "C47_header_opened",
    "C52_local_authenticated",
    "C52_remote_authenticated",
    "C52_unauthenticated_rejected",
    "C15_recovery_authenticated"
   ],
   "note": "Each decoder answers only after the tag verified (opened): engine, passphrase-wrapped data, stream, payload, header, storage, recovery. The wrapped packet key itself uses CTR by design; it is covered by the packet signature (C39)."
  },
  {
   "property": "C16",
   "status": "proved",
   "theorems": [
    "C16_signature_roundtrip",
    "C16_signature_size",
    "C16_long_signature_refused",
    "C16_parser_safe"
   ],
   "note": ""
  },
  {
   "property": "C17",
   "status": "partial",
   "theorems": [
    "C17_padding_refuted",
    "C17_signature_form_partial"
   ],
   "note": "False of the code: the parser does not check padding bytes. Proved: nothing but the padding can differ."
  },
  {
   "property": "C18",
   "status": "proved",
   "theorems": [
    "C18_kdf_roundtrip",
    "C18_kdf_accept",
    "C18_kdf_created"
   ],
   "note": "scrypt 2^17..2^20 and bcrypt 15, the algorithms that have a wire form."
  },
  {
   "property": "C19",
   "status": "proved",
   "theorems": [
    "C19_unwrap_wrap",
    "C19_wrap_succeeds"
   ],
   "note": ""
  },
  {
   "property": "C20",
   "status": "proved",
   "theorems": [
    "C20_accepted_increasing"
   ],
   "note": ""
  },
  {
   "property": "C21",
   "status": "proved",
   "theorems": [
    "C21_receiver_in_step",
    "C21_sender_sends"
   ],
   "note": "Empty messages are excluded: they encrypt but can never be decrypted (finding)."
  },
  {
   "property": "C22",
   "status": "proved",
   "theorems": [
    "C22_key_of_packet",
    "C22_key_held"
   ],
   "note": ""
  },
  {
   "property": "C23",
   "status": "proved",
   "theorems": [
    "C23_iv_counters",
    "C23_iv_distinct"
   ],
   "note": "Distinctness of the IVs is relative to the truncated HMAC not mapping two of the counters used to one value."
  },
  {
   "property": "C24",
   "status": "partial",
   "theorems": [
    "C24_copy_reuses_nonce",
    "C24_no_nonce_reuse_refuted",
    "C24_copy_behaves_alike_partial"
   ],
   "note": "False of the code: a context and its copy encrypt under the same key and IV. Proved in general (C24_copy_reuses_nonce) and on a concrete case."
  },
  {
   "property": "C25",
   "status": "partial",
   "theorems": [
    "C25_forgery_disturbs_refuted",
    "C25_later_packets_decode_partial",
    "C25_stale_packet_harmless_partial"
   ],
   "note": "False of the code: a packet that fails authentication still advances the receiver. Proved: genuine packets with larger numbers still decode; packets refused for their number change nothing."
  },
  {
   "property": "C26",
   "status": "proved",
   "theorems": [
    "C26_stream_key_roundtrip",
    "C26_stream_key_serializes",
    "C26_stream_key_parsed",
    "C26_evolution_keeps_user_data_refuted"
   ],
   "note": "C26_evolution_keeps_user_data_refuted: the evolved key has lost its user data."
  },
  {
   "property": "C27",
   "status": "proved",
   "theorems": [
    "C27_packet_roundtrip",
    "C27_packet_serializes",
    "C27_parsed_packet_reserializes",
    "C27_parse_defined"
   ],
   "note": ""
  },
  {
   "property": "C28",
   "status": "proved",
   "theorems": [
    "C28_signed_packet_verifies",
    "C28_signature_covers_all_bytes",
    "C28_copy_verifies_alike",
    "C28_signed_again_refuted"
   ],
   "note": "C28_signed_again_refuted: signing an already signed packet gives one that does not verify."
  },
  {
   "property": "C29",
   "status": "proved",
   "theorems": [
    "C29_both_ends_agree",
    "C29_directions_differ",
    "C29_contexts_agree"
   ],
   "note": ""
  },
  {
   "property": "C30",
   "status": "proved",
   "theorems": [
    "C30_keys_only_after_acceptance",
    "C30_complete_only_after_acceptance",
    "C30_bad_signature_fails",
    "C30_failure_is_final"
   ],
   "note": "Histories in which no call crashed (see C61)."
  },
  {
   "property": "C31",
   "status": "proved",
   "theorems": [
    "C31_data_only_when_active",
    "C31_active_is_authenticated",
    "C31_active_has_new_streams"
   ],
   "note": "Histories in which no call crashed (see C61)."
  },
  {
   "property": "C32",
   "status": "partial",
   "theorems": [
    "C32_error_absorbing_refuted",
    "C32_error_absorbing_partial",
    "C32_pinned_never_asks_partial"
   ],
   "note": "False of the code: a context that fails while a question about an identity is open becomes ACTIVE when the answer is yes. Proved: the state stays unless that happens; it never happens when the remote identity is given at creation."
  },
  {
   "property": "C33",
   "status": "proved",
   "theorems": [
    "C33_delivered_in_order",
    "C33_connected_contexts"
   ],
   "note": "The absence of forgeries is a hypothesis about the packets of the history."
  },
  {
   "property": "C34",
   "status": "proved",
   "theorems": [
    "C34_chain_cache_transparent",
    "C34_unedited_chain",
    "C34_digest_type_refuted"
   ],
   "note": "For SHA-512 signatures, the only ones the library makes. C34_digest_type_refuted: changing only the digest type of a signature in place keeps the cached answer."
  },
  {
   "property": "C35",
   "status": "partial",
   "theorems": [
    "C35_node_cache_transparent_partial",
    "C35_replaced_chain_refuted"
   ],
   "note": "False of the code when node->id_chain is replaced by another validated chain (counterexample). Proved for all other histories."
  },
  {
   "property": "C36",
   "status": "proved",
   "theorems": [
    "C36_identity_serialization_public",
    "C36_chain_serialization_public",
    "C36_keypair_serialization_public",
    "C36_node_serialization_public",
    "C36_chain_parsed_public",
    "C36_keypair_parsed_public"
   ],
   "note": ""
  },
  {
   "property": "C37",
   "status": "proved",
   "theorems": [
    "C37_identity_roundtrip",
    "C37_chain_roundtrip",
    "C37_private_chain_roundtrip",
    "C37_keypair_roundtrip",
    "C37_node_roundtrip",
    "C37_engine_keys_importable"
   ],
   "note": ""
  },
  {
   "property": "C38",
   "status": "proved",
   "theorems": [
    "C38_packet_roundtrip",
    "C38_packet_serializes",
    "C38_packet_rejects",
    "C38_packet_safe"
   ],
   "note": ""
  },
  {
   "property": "C39",
   "status": "proved",
   "theorems": [
    "C39_valid_means_verified",
    "C39_bad_signature",
    "C39_success_authenticated",
    "C39_parse_safe",
    "C39_decode_only_verified"
   ],
   "note": ""
  },
  {
   "property": "C40",
   "status": "partial",
   "theorems": [
    "C40_recipients_decode_partial",
    "C40_contexts_decode_partial",
    "C40_same_identifier_refuted"
   ],
   "note": "Proved for every list of recipients whose node identifiers are pairwise distinct; with two recipients sharing an identifier only the first one can decode (refuted by a concrete run)."
  },
  {
   "property": "C41",
   "status": "proved",
   "theorems": [
    "C41_stranger_not_found",
    "C41_context_stranger"
   ],
   "note": ""
  },
  {
   "property": "C42",
   "status": "proved",
   "theorems": [
    "C42_recipients_checked",
    "C42_recipients_verified",
    "C42_fresh_recipients"
   ],
   "note": ""
  },
  {
   "property": "C43",
   "status": "partial",
   "theorems": [
    "C43_version_byte_refuted",
    "C43_curve_nibble_refuted",
    "C43_signature_covers_content_partial"
   ],
   "note": "The version byte, and in version 2 the upper half of byte 1, are outside the signature (refuted); every other byte is covered."
  },
  {
   "property": "C44",
   "status": "proved",
   "theorems": [
    "C44_payload_roundtrip",
    "C44_payload_serializes"
   ],
   "note": ""
  },
  {
   "property": "C45",
   "status": "proved",
   "theorems": [
    "C45_exchange_set_roundtrip",
    "C45_find_first",
    "C45_find_none"
   ],
   "note": ""
  },
  {
   "property": "C46",
   "status": "proved",
   "theorems": [
    "C46_packet_key_agrees"
   ],
   "note": ""
  },
  {
   "property": "C47",
   "status": "partial",
   "theorems": [
    "C47_header_opened",
    "C47_separated_partial",
    "C47_ambiguous_refuted"
   ],
   "note": "The header is opened only under the digest of the two identifiers. They are joined without lengths, so different pairs can share a key (refuted); proved to separate for root identifiers of equal length, given no SHA-256 collision on the two explicit inputs."
  },
  {
   "property": "C48",
   "status": "partial",
   "theorems": [
    "C48_root_keys",
    "C48_generated_root_keys",
    "C48_storage_keys",
    "C48_context_partial",
    "C48_context_export_partial",
    "C48_storage_export",
    "C48_storage_keys_accepted",
    "C48_root_keys_accepted",
    "C48_context_version_refuted"
   ],
   "note": "Root and storage keys come back equal. A context comes back with the default packet version 4 whatever version it had (refuted), otherwise equal, with the validation cache reset."
  },
  {
   "property": "C49",
   "status": "proved",
   "theorems": [
    "C49_recovery_restores",
    "C49_recovery_succeeds",
    "C49_passphrase"
   ],
   "note": ""
  },
  {
   "property": "C50",
   "status": "partial",
   "theorems": [
    "C50_generation_safe",
    "C50_import_safe",
    "C50_recovery_refuted",
    "C50_recovery_partial",
    "C50_passphrase_partial"
   ],
   "note": "Recovery dereferences NULL when building the context fails, e.g. for an identifier of 128 bytes (refuted); proved that this is the only way, and that the other generation functions never do."
  },
  {
   "property": "C51",
   "status": "proved",
   "theorems": [
    "C51_localize",
    "C51_localize_succeeds",
    "C51_two_devices"
   ],
   "note": ""
  },
  {
   "property": "C52",
   "status": "proved",
   "theorems": [
    "C52_local_roundtrip",
    "C52_remote_roundtrip",
    "C52_local_authenticated",
    "C52_remote_authenticated",
    "C52_unauthenticated_rejected",
    "C52_generated_ciphers"
   ],
   "note": "For the non-empty plaintexts a library buffer can hold; see C14_empty_plaintext_refuted."
  },
  {
   "property": "C53",
   "status": "proved",
   "theorems": [
    "C53_derive",
    "C53_derive_succeeds",
    "C53_deterministic",
    "C53_copy",
    "C53_create_new"
   ],
   "note": ""
  },
  {
   "property": "C54",
   "status": "proved",
   "theorems": [
    "C54_file_contents",
    "C54_any_chunk_size",
    "C54_same_as_in_memory",
    "C54_round_trip"
   ],
   "note": ""
  },
  {
   "property": "C55",
   "status": "partial",
   "theorems": [
    "C55_encrypt_crash_partial",
    "C55_decrypt_crash_partial",
    "C55_failure",
    "C55_no_temporary_file",
    "C55_other_files",
    "C55_answers",
    "C55_close_refuted"
   ],
   "note": "The answer of fclose is ignored, so a failed flush is renamed into place (refuted). Proved otherwise: a failure never changes the destination; every crash point leaves it untouched or complete when no read (encryption only) or close fails and the temporary name is no other name of source or destination. A crash is the end of the process: nothing is synced, so power loss is not covered."
  },
  {
   "property": "C56",
   "status": "partial",
   "theorems": [
    "C56_success_is_complete_partial",
    "C56_read_error_refuted",
    "C56_overlap_refuted",
    "C56_close_refuted"
   ],
   "note": "False for read errors, a source named <destination>.temp and failing closes (three counterexamples); proved for the rest."
  },
  {
   "property": "C57",
   "status": "partial",
   "theorems": [
    "C57_buffer",
    "C57_cipher_key",
    "C57_cipher_result",
    "C57_ec_key",
    "C57_signature",
    "C57_kdf",
    "C57_fingerprint",
    "C57_ecdh_context",
    "C57_identity",
    "C57_node",
    "C57_stored_keys",
    "C57_messages",
    "C57_streams",
    "C57_handshake_keys",
    "C57_transport_packet_partial",
    "C57_handshake_partial",
    "C57_transport_packet_refuted",
    "C57_transport_partial",
    "C57_transport_refuted",
    "C57_context",
    "C57_generation_result"
   ],
   "note": "Proved for every type except three: the copy of a transport packet (and of a packet pending in a handshake) loses the received bytes, and the copy of a transport loses its running handshake and its error (counterexamples given; the rest of their fields proved equal). Allocation never fails in the model."
  },
  {
   "property": "C58",
   "status": "proved",
   "theorems": [
    "C58_cipher_objects",
    "C58_signature",
    "C58_kdf_parameters",
    "C58_packet",
    "C58_transport_packet",
    "C58_ec_key",
    "C58_identities",
    "C58_stored_keys",
    "C58_message_parts",
    "C58_context"
   ],
   "note": "The decoders of base64, hex and base32 text are the subject of C05-C09."
  },
  {
   "property": "C59",
   "status": "proved",
   "theorems": [
    "C59_generated_node_identity",
    "C59_generated_chain_validates",
    "C59_generated_keypair",
    "C59_signatures_verify",
    "C59_generated_with_key",
    "C59_context_keypair"
   ],
   "note": ""
  },
  {
   "property": "C60",
   "status": "proved",
   "theorems": [
    "C60_references",
    "C60_granted"
   ],
   "note": ""
  },
  {
   "property": "C61",
   "status": "partial",
   "theorems": [
    "C61_transport_memory_safe_refuted",
    "C61_only_a_wrong_variant_partial"
   ],
   "note": "False of the code: a handshake packet with the wrong member of the union set is read through the other member; two contexts that start at the same time are enough. Proved: no other call on any reachable context is undefined."
  },
  {
   "property": "C62",
   "status": "partial",
   "theorems": [
    "C62_encode_partial",
    "C62_small_payload_partial",
    "C62_components_partial",
    "C62_crash",
    "C62_encode_refuted"
   ],
   "note": "Missing: payloads whose encoding is within 29 bytes of the 2 GiB buffer limit. The code dereferences NULL on each of them (C62_crash, C62_encode_refuted), so the statement is proved with that one size range excluded."
  },
  {
   "property": "C63",
   "status": "proved",
   "theorems": [
    "C63_file_digest"
   ],
   "note": ""
  },
  {
   "property": "C64",
   "status": "partial",
   "theorems": [
    "C64_buffer",
    "C64_ec_key_partial",
    "C64_ec_key_crashes_refuted",
    "C64_ecdsa_result_partial",
    "C64_ecdsa_result_crashes_refuted",
    "C64_cipher_key_partial",
    "C64_cipher_key_crashes_refuted",
    "C64_cipher_result_partial",
    "C64_cipher_result_crashes_refuted",
    "C64_cipher_result_leaks_refuted",
    "C64_cipher_result_drops_refuted",
    "C64_kdf_meta_partial",
    "C64_kdf_meta_leaks_refuted",
    "C64_kdf_result_partial",
    "C64_kdf_result_leaks_refuted",
    "C64_fingerprint",
    "C64_identity_partial",
    "C64_identity_drops_refuted",
    "C64_chain_partial",
    "C64_keypair_partial",
    "C64_node_partial",
    "C64_node_array_partial",
    "C64_packet_meta_partial",
    "C64_packet_meta_crashes_refuted",
    "C64_payload_partial",
    "C64_key_exchange_partial",
    "C64_key_exchange_crashes_refuted",
    "C64_exchange_array_partial",
    "C64_exchange_set_partial",
    "C64_packet_partial",
    "C64_parse_result_partial",
    "C64_parse_result_drops_refuted",
    "C64_decode_result_partial",
    "C64_decode_result_leaks_refuted",
    "C64_decode_result_drops_refuted",
    "C64_encoder_result_partial",
    "C64_root_keys_partial",
    "C64_storage_keys_partial",
    "C64_dev_info",
    "C64_stream_key_partial",
    "C64_stream_iv",
    "C64_stream_ctx_partial",
    "C64_root_key",
    "C64_tpacket",
    "C64_ecdh_ctx_partial",
    "C64_handshake_res_partial",
    "C64_packet_list",
    "C64_handshake_partial",
    "C64_transport_partial",
    "C64_ctx_partial",
    "C64_ctx_crashes_refuted",
    "C64_gen_result_partial"
   ],
   "note": "The full statement (copies_safely) is proved for buffers, fingerprints, device info, nonce generators, transport root keys and packet lists, and for transport packets with the received bytes left out. For the others it is false: the _partial theorems (copies_in_memory) name for each kind exactly which untested allocations can crash it, whether it can leave blocks behind and what the copy can lack; the _refuted theorems give concrete crashes, leaks and silent losses. Contexts are for every record of primitives with 32-byte SHA-256."
  },
  {
   "property": "C65",
   "status": "proved",
   "theorems": [
    "C65_buffer",
    "C65_ec_key",
    "C65_ecdsa_result",
    "C65_cipher_key",
    "C65_cipher_result",
    "C65_kdf_meta",
    "C65_kdf_result",
    "C65_fingerprint",
    "C65_identity",
    "C65_chain",
    "C65_keypair",
    "C65_node",
    "C65_node_array",
    "C65_packet_meta",
    "C65_payload",
    "C65_key_exchange",
    "C65_exchange_array",
    "C65_exchange_set",
    "C65_packet",
    "C65_parse_result",
    "C65_decode_result",
    "C65_encoder_result",
    "C65_root_keys",
    "C65_storage_keys",
    "C65_dev_info",
    "C65_stream_key",
    "C65_stream_iv",
    "C65_stream_ctx",
    "C65_root_key",
    "C65_tpacket",
    "C65_ecdh_ctx",
    "C65_handshake_res",
    "C65_packet_list",
    "C65_handshake",
    "C65_transport",
    "C65_ctx",
    "C65_gen_result",
    "C65_buffer_zero",
    "C65_ctx_packet",
    "C65_node_array_shallow"
   ],
   "note": "destroys_in_memory, for every kind of object; Spec/HeapObjectSpec.v lists per kind which strings may stay readable (identifiers, nonces, ciphertexts, signatures, public keys). The destroy function of node arrays leaves the nodes (C65_node_array_shallow). A stream context with several references is C60."
  },
  {
   "property": "C66",
   "status": "proved",
   "theorems": [
    "C66_buffer",
    "C66_ec_key",
    "C66_ecdsa_result",
    "C66_cipher_key",
    "C66_cipher_result",
    "C66_kdf_meta",
    "C66_kdf_result",
    "C66_fingerprint",
    "C66_identity",
    "C66_chain",
    "C66_keypair",
    "C66_node",
    "C66_node_array",
    "C66_packet_meta",
    "C66_payload",
    "C66_key_exchange",
    "C66_exchange_array",
    "C66_exchange_set",
    "C66_packet",
    "C66_parse_result",
    "C66_decode_result",
    "C66_encoder_result",
    "C66_root_keys",
    "C66_storage_keys",
    "C66_dev_info",
    "C66_stream_key",
    "C66_stream_iv",
    "C66_stream_ctx",
    "C66_root_key",
    "C66_tpacket",
    "C66_ecdh_ctx",
    "C66_handshake_res",
    "C66_packet_list",
    "C66_handshake",
    "C66_transport",
    "C66_ctx",
    "C66_gen_result"
   ],
   "note": "independent, for every kind of object. Transport copies leave out the pending handshake and the error, copies of transport packets the received bytes (keep). A transport that does not know its peer yet, and device info without a system salt, are not copyable and are excluded by fits_transport and made_dev_info."
  },
  {
   "property": "C67",
   "status": "partial",
   "theorems": [
    "C67_raw_roundtrip",
    "C67_from_raw_safe",
    "C67_der_roundtrip_partial",
    "C67_aws_partial",
    "C67_too_long_refuted",
    "C67_overflow_refuted",
    "C67_sign_refuted",
    "C67_zero_refuted"
   ],
   "note": "From raw to DER and back is proved for every raw signature and every backend. From DER to raw is proved for numbers of at most 528 bits; that other signatures are refused is false: with OpenSSL 1.1 an over-long number becomes zeros, with 1.0 it is written out of bounds, with all of them the sign is dropped. The DER functions are a record with their round trip as hypothesis; toy_der is a concrete DER codec that meets it."
  },
  {
   "property": "C68",
   "status": "proved",
   "theorems": [
    "C68_mac_exact",
    "C68_mac_created",
    "C68_mac_null"
   ],
   "note": "For every record of primitives whose HMAC has the length of the digest."
  },
  {
   "property": "C69",
   "status": "proved",
   "theorems": [
    "C69_advertised",
    "C69_fresh"
   ],
   "note": "hash_of in Spec/HashSpec.v says which primitive with which cost each algorithm number stands for. The algorithms are those of kdf.h."
  },
  {
   "property": "C70",
   "status": "proved",
   "theorems": [
    "C70_base32_texts",
    "C70_hex_texts"
   ],
   "note": ""
  },
  {
   "property": "C71",
   "status": "proved",
   "theorems": [
    "C71_rotation",
    "C71_rotation_null",
    "C71_make_public"
   ],
   "note": "made_keypair: the buffers of the key pair are within the size limit. That the next verification is answered afresh is C35."
  },
  {
   "property": "C72",
   "status": "proved",
   "theorems": [
    "C72_private",
    "C72_public",
    "C72_generated"
   ],
   "note": ""
  },
  {
   "property": "C73",
   "status": "partial",
   "theorems": [
    "C73_cipher_key",
    "C73_cipher_result",
    "C73_ecdsa_result",
    "C73_kdf_meta",
    "C73_public_key",
    "C73_private_key",
    "C73_identity",
    "C73_chain",
    "C73_keypair",
    "C73_node",
    "C73_root_keys",
    "C73_exchange_set",
    "C73_storage_keys",
    "C73_stream_key_partial",
    "C73_payload",
    "C73_packet_partial",
    "C73_tpacket",
    "C73_packet_leaks_refuted",
    "C73_stream_key_leaks_refuted"
   ],
   "note": "parses_cleanly (Spec/HeapParseSpec.v) for every reader but two. False of wickr_packet_create_from_buffer, which does not release a signature of another digest than SHA-512 (C73_packet_leaks_refuted), and of wickr_stream_key_create_from_buffer, which does not release the user data of a key it refuses (C73_stream_key_leaks_refuted); proved for all other inputs of these two (parses_cleanly_on)."
  },
  {
   "property": "C74",
   "status": "partial",
   "theorems": [
    "C74_cipher_key_partial",
    "C74_cipher_key_crashes_refuted",
    "C74_cipher_result_partial",
    "C74_cipher_result_crashes_refuted",
    "C74_ecdsa_result_partial",
    "C74_ecdsa_result_crashes_refuted",
    "C74_kdf_meta_partial",
    "C74_public_key_partial",
    "C74_public_key_crashes_refuted",
    "C74_private_key_partial",
    "C74_identity_partial",
    "C74_chain_partial",
    "C74_keypair_partial",
    "C74_node_partial",
    "C74_root_keys_partial",
    "C74_exchange_set_partial",
    "C74_exchange_set_crashes_refuted",
    "C74_storage_keys_partial",
    "C74_stream_key_partial",
    "C74_payload_partial",
    "C74_payload_crashes_refuted",
    "C74_packet_partial",
    "C74_packet_crashes_refuted",
    "C74_tpacket",
    "C74_kdf_meta_leaks_refuted",
    "C74_private_key_leaks_refuted"
   ],
   "note": "The full statement (parses_safely) is proved for transport packets. For the others it is false: the _partial theorems (parses_in_memory) say that undefined behaviour needs the failure of an allocation of the kinds listed, whose results are written to untested, and name the conditions under which blocks stay behind; the _refuted theorems show that both happen."
  },
  {
   "property": "C75",
   "status": "partial",
   "theorems": [
    "C75_root_keys_exposed_refuted",
    "C75_storage_keys_exposed_refuted",
    "C75_stream_key_exposed_refuted",
    "C75_payload_exposed_refuted",
    "C75_chain_exposed_refuted",
    "C75_partial"
   ],
   "note": "False of everything that is read from a protobuf message: the message is released without being wiped (five counterexamples). Proved for symmetric and private keys read from their own formats. What C73 says of the others is that nothing but the fields of the message and public parts stays readable."
  },
  {
   "property": "C76",
   "status": "proved",
   "theorems": [
    "C76_cipher_result",
    "C76_cipher_key",
    "C76_kdf_meta",
    "C76_ecdsa_result",
    "C76_identity",
    "C76_chain",
    "C76_chain_private",
    "C76_keypair",
    "C76_node",
    "C76_exchange_set",
    "C76_payload",
    "C76_packet",
    "C76_tpacket",
    "C76_root_keys",
    "C76_storage_keys",
    "C76_stream_key",
    "C76_ctx"
   ],
   "note": "writes_cleanly (Spec/HeapWriteSpec.v) for the seventeen writers."
  },
  {
   "property": "C77",
   "status": "partial",
   "theorems": [
    "C77_cipher_result",
    "C77_cipher_key",
    "C77_kdf_meta",
    "C77_ecdsa_result_partial",
    "C77_identity_partial",
    "C77_chain_partial",
    "C77_chain_private_partial",
    "C77_keypair_partial",
    "C77_node_partial",
    "C77_exchange_set",
    "C77_payload",
    "C77_packet_partial",
    "C77_tpacket",
    "C77_root_keys_partial",
    "C77_storage_keys_partial",
    "C77_stream_key_partial",
    "C77_ctx_partial",
    "C77_ecdsa_result_spoiled_refuted",
    "C77_identity_spoiled_refuted",
    "C77_chain_spoiled_refuted",
    "C77_chain_private_spoiled_refuted",
    "C77_keypair_spoiled_refuted",
    "C77_node_spoiled_refuted",
    "C77_ctx_spoiled_refuted",
    "C77_packet_leaks_refuted",
    "C77_node_leaks_refuted",
    "C77_storage_keys_crashes_refuted",
    "C77_storage_keys_data_crashes_refuted",
    "C77_stream_key_crashes_refuted",
    "C77_stream_key_buffer_crashes_refuted",
    "C77_ctx_crashes_refuted",
    "C77_root_keys_null_refuted",
    "C77_root_keys_public_crashes_refuted"
   ],
   "note": "The full statement (writes_safely) is proved for cipher results, cipher keys, KDF metadata, exchange sets, payloads and transport packets. For the others it is false: a signature is written without its padding when the padding cannot be allocated (seven _spoiled_refuted counterexamples, through identities, chains, key pairs, nodes and contexts), two writers leave blocks behind, and storage keys, stream keys and contexts use the result of an allocation untested; root keys are written without testing for NULL or for a private key. The _partial theorems (writes_in_memory) bound all of this: which allocations make the behaviour undefined, what the wrong bytes are, where blocks stay behind."
  },
  {
   "property": "C78",
   "status": "partial",
   "theorems": [
    "C78_storage_keys_exposed_refuted",
    "C78_stream_key_exposed_refuted",
    "C78_ctx_exposed_refuted",
    "C78_cipher_key_partial",
    "C78_root_keys_partial",
    "C78_payload_partial",
    "C78_chain_private_partial",
    "C78_kdf_meta_partial"
   ],
   "note": "False of storage keys, stream keys and contexts: the encoded keys inside the protobuf message are released without being wiped. Proved for cipher keys, root keys, payloads, private identity chains and KDF metadata, whichever allocations fail."
  },
  {
   "property": "C79",
   "status": "proved",
   "theorems": [
    "C79_agreed_key",
    "C79_sender",
    "C79_recipient"
   ],
   "note": "Stated over the HKDF, ECDH and AES primitives."
  },
  {
   "property": "C80",
   "status": "partial",
   "theorems": [
    "C80_random",
    "C80_random_key",
    "C80_encrypt_partial",
    "C80_decrypt",
    "C80_hash",
    "C80_hmac",
    "C80_hmac_verify_partial",
    "C80_hkdf",
    "C80_generate_key",
    "C80_sign_partial",
    "C80_verify",
    "C80_shared_secret",
    "C80_kdf_partial",
    "C80_kdf_meta_partial",
    "C80_kdf_cipher",
    "C80_kdf_decipher_partial",
    "C80_encrypt_refuted",
    "C80_hmac_verify_refuted",
    "C80_sign_refuted",
    "C80_kdf_refuted",
    "C80_kdf_decipher_refuted"
   ],
   "note": "performs_cleanly / answers_cleanly (Spec/HeapEngineSpec.v). False in five cases, each with a counterexample: encryption with a nonce longer than the cipher's leaves the nonce, the ciphertext and the tag; HMAC verification against NULL leaves the computed HMAC; signing with a private key that cannot be decoded leaves the digest context; bcrypt of an empty passphrase leaves its copy; decryption under a passphrase of a blob whose rest is not a ciphertext leaves the derived key. The _partial theorems cover all other arguments."
  },
  {
   "property": "C81",
   "status": "partial",
   "theorems": [
    "C81_random_partial",
    "C81_random_key_partial",
    "C81_encrypt_partial",
    "C81_decrypt",
    "C81_hash_partial",
    "C81_hmac",
    "C81_hmac_verify_partial",
    "C81_hkdf",
    "C81_generate_key_partial",
    "C81_sign_partial",
    "C81_verify_partial",
    "C81_shared_secret_partial",
    "C81_kdf_partial",
    "C81_kdf_meta_partial",
    "C81_kdf_cipher_partial",
    "C81_kdf_decipher_partial",
    "C81_random_refuted",
    "C81_random_key_refuted",
    "C81_encrypt_refuted",
    "C81_hash_refuted",
    "C81_generate_key_refuted",
    "C81_sign_refuted",
    "C81_verify_refuted",
    "C81_shared_secret_refuted",
    "C81_kdf_meta_refuted",
    "C81_kdf_cipher_refuted",
    "C81_kdf_decipher_refuted"
   ],
   "note": "The full statement (performs_safely) is proved for decryption, HMAC, HKDF, and HMAC verification against a given value. For the others it is false: random bytes, digests, key pairs, signatures and cipher results are made without testing an allocation, and shared secrets and KDF results leave blocks behind. The _partial theorems (performs_in_memory) say that nothing else can go wrong."
  },
  {
   "property": "C82",
   "status": "partial",
   "theorems": [
    "C82_random",
    "C82_random_key",
    "C82_encrypt",
    "C82_decrypt",
    "C82_hash",
    "C82_hmac",
    "C82_hmac_verify",
    "C82_hkdf",
    "C82_generate_key",
    "C82_sign",
    "C82_verify",
    "C82_shared_secret",
    "C82_kdf_partial",
    "C82_kdf_meta_partial",
    "C82_kdf_cipher_partial",
    "C82_kdf_decipher_partial",
    "C82_kdf_refuted",
    "C82_kdf_decipher_refuted",
    "C82_kdf_meta_refuted"
   ],
   "note": "hides_op, with the strings that may stay readable listed. False for bcrypt, which releases its copy of the passphrase as it is (also when a blob to decrypt names bcrypt), and for key derivation when the metadata cannot be copied, which releases the derived key as it is. The _partial theorems say that nothing else stays readable."
  },
  {
   "property": "C83",
   "status": "partial",
   "theorems": [
    "C83_agreement_create",
    "C83_agreement_key",
    "C83_agreement_encrypt",
    "C83_agreement_decrypt",
    "C83_exchange_data",
    "C83_exchange_key",
    "C83_derive_data",
    "C83_derive_key",
    "C83_header_encrypt",
    "C83_header_decrypt",
    "C83_exchange_find",
    "C83_payload_encrypt",
    "C83_payload_decrypt",
    "C83_packet_sign_partial",
    "C83_packet_read",
    "C83_ctx_read_partial",
    "C83_ctx_parse_partial",
    "C83_ctx_parse_no_decode_partial",
    "C83_packet_decode",
    "C83_ctx_decode",
    "C83_cipher_local",
    "C83_decipher_local",
    "C83_cipher_remote",
    "C83_decipher_remote",
    "C83_export_recovery_key",
    "C83_import_recovery_key_partial",
    "C83_export_storage_keys",
    "C83_import_storage_keys_partial",
    "C83_export_root_keys",
    "C83_make_recovery",
    "C83_import_recovery",
    "C83_import_recovery_key_refuted",
    "C83_import_storage_keys_refuted",
    "C83_packet_sign_refuted",
    "C83_ctx_read_refuted",
    "C83_ctx_parse_refuted"
   ],
   "note": "performs_cleanly (Spec/HeapEngineSpec.v) for 31 operations. False in four cases, each with a counterexample: importing a recovery key or storage keys from a blob whose rest is not a ciphertext leaves the derived key behind; signing a packet with a private key that cannot be decoded leaves the digest context; reading a packet whose signature is not by SHA-512 leaves the signature. The _partial theorems cover all other arguments."
  },
  {
   "property": "C84",
   "status": "partial",
   "theorems": [
    "C84_agreement_create_partial",
    "C84_agreement_key_partial",
    "C84_agreement_encrypt_partial",
    "C84_agreement_decrypt_partial",
    "C84_exchange_data_partial",
    "C84_exchange_key_partial",
    "C84_derive_data_partial",
    "C84_derive_key_partial",
    "C84_header_encrypt_partial",
    "C84_header_decrypt_partial",
    "C84_exchange_find_partial",
    "C84_payload_encrypt_partial",
    "C84_payload_decrypt_partial",
    "C84_packet_sign_partial",
    "C84_packet_read_partial",
    "C84_ctx_read_partial",
    "C84_ctx_parse_partial",
    "C84_ctx_parse_no_decode_partial",
    "C84_packet_decode_partial",
    "C84_ctx_decode_partial",
    "C84_cipher_local_partial",
    "C84_decipher_local",
    "C84_cipher_remote_partial",
    "C84_decipher_remote",
    "C84_export_recovery_key_partial",
    "C84_import_recovery_key_partial",
    "C84_export_storage_keys_partial",
    "C84_import_storage_keys_partial",
    "C84_export_root_keys_partial",
    "C84_make_recovery_partial",
    "C84_import_recovery_partial",
    "C84_agreement_create_refuted",
    "C84_agreement_key_refuted",
    "C84_agreement_encrypt_refuted",
    "C84_agreement_decrypt_refuted",
    "C84_exchange_data_refuted",
    "C84_exchange_key_refuted",
    "C84_derive_data_refuted",
    "C84_derive_key_refuted",
    "C84_header_encrypt_refuted",
    "C84_header_decrypt_refuted",
    "C84_exchange_find_refuted",
    "C84_payload_encrypt_refuted",
    "C84_payload_decrypt_refuted",
    "C84_packet_sign_refuted",
    "C84_packet_read_refuted",
    "C84_ctx_read_refuted",
    "C84_ctx_parse_refuted",
    "C84_ctx_parse_no_decode_refuted",
    "C84_packet_decode_refuted",
    "C84_ctx_decode_refuted",
    "C84_cipher_local_refuted",
    "C84_cipher_remote_refuted",
    "C84_export_recovery_key_refuted",
    "C84_import_recovery_key_refuted",
    "C84_export_storage_keys_refuted",
    "C84_import_storage_keys_refuted",
    "C84_export_root_keys_refuted",
    "C84_make_recovery_refuted",
    "C84_import_recovery_refuted",
    "C84_agreement_key_leaks_refuted",
    "C84_exchange_data_leaks_refuted",
    "C84_derive_data_leaks_refuted"
   ],
   "note": "The full statement (performs_safely) is proved for decryption from storage. For the others it is false: an object on the way is made without testing an allocation (a crash for each operation), and when the derivation cannot be finished the agreed key or the pre-shared key stays behind. The _partial theorems (performs_in_memory; performs_or_worse for reading and decoding packets, Spec/HeapProtocolSpec.v) say that nothing else can go wrong."
  },
  {
   "property": "C85",
   "status": "partial",
   "theorems": [
    "C85_agreement_create",
    "C85_agreement_key_partial",
    "C85_agreement_encrypt_partial",
    "C85_agreement_decrypt_partial",
    "C85_exchange_data_partial",
    "C85_exchange_key_partial",
    "C85_derive_data_partial",
    "C85_derive_key_partial",
    "C85_header_encrypt",
    "C85_header_decrypt",
    "C85_exchange_find",
    "C85_payload_encrypt",
    "C85_payload_decrypt_partial",
    "C85_packet_sign",
    "C85_packet_read",
    "C85_ctx_read",
    "C85_ctx_parse",
    "C85_ctx_parse_no_decode",
    "C85_packet_decode_partial",
    "C85_ctx_decode_partial",
    "C85_cipher_local",
    "C85_decipher_local",
    "C85_cipher_remote",
    "C85_decipher_remote",
    "C85_export_recovery_key_partial",
    "C85_import_recovery_key_partial",
    "C85_export_storage_keys_partial",
    "C85_import_storage_keys_partial",
    "C85_export_root_keys",
    "C85_make_recovery",
    "C85_import_recovery_partial",
    "C85_agreement_key_refuted",
    "C85_agreement_encrypt_refuted",
    "C85_agreement_decrypt_refuted",
    "C85_exchange_data_refuted",
    "C85_exchange_key_refuted",
    "C85_derive_data_refuted",
    "C85_derive_key_refuted",
    "C85_payload_decrypt_refuted",
    "C85_packet_decode_refuted",
    "C85_ctx_decode_refuted",
    "C85_export_storage_keys_refuted",
    "C85_import_storage_keys_refuted",
    "C85_import_recovery_refuted",
    "C85_import_recovery_private_refuted"
   ],
   "note": "hides_op, with the strings that may stay readable listed. False: decoding a message leaves its body readable, importing and exporting storage keys and importing a recovery leave the keys readable (all with enough memory), and agreeing on a key leaves the agreed key or the pre-shared key when an allocation fails. The _partial theorems say that nothing else stays readable."
  },
  {
   "property": "C86",
   "status": "partial",
   "theorems": [
    "C86_identity_sign_partial",
    "C86_node_identity_partial",
    "C86_keypair_partial",
    "C86_ctx_keypair_partial",
    "C86_root_keys",
    "C86_localize",
    "C86_dev_info",
    "C86_public_key",
    "C86_fingerprint",
    "C86_fingerprint_pair",
    "C86_identity_fingerprint",
    "C86_identity_fingerprint_pair",
    "C86_transport_key",
    "C86_stream_key_derived",
    "C86_stream_key",
    "C86_stream_iv",
    "C86_identity_sign_refuted",
    "C86_node_identity_refuted",
    "C86_keypair_refuted",
    "C86_ctx_keypair_refuted"
   ],
   "note": "performs_cleanly (Spec/HeapEngineSpec.v) for 16 operations. False of an identity whose private key cannot be decoded: signing leaves the digest context behind, and so do the operations that sign. The _partial theorems cover all other arguments."
  },
  {
   "property": "C87",
   "status": "partial",
   "theorems": [
    "C87_identity_sign_partial",
    "C87_node_identity_partial",
    "C87_keypair_partial",
    "C87_ctx_keypair_partial",
    "C87_root_keys_partial",
    "C87_localize_partial",
    "C87_dev_info_partial",
    "C87_public_key",
    "C87_fingerprint_partial",
    "C87_fingerprint_pair_partial",
    "C87_identity_fingerprint_partial",
    "C87_identity_fingerprint_pair_partial",
    "C87_transport_key_partial",
    "C87_stream_key_derived_partial",
    "C87_stream_key_partial",
    "C87_stream_iv_partial",
    "C87_identity_sign_refuted",
    "C87_node_identity_refuted",
    "C87_keypair_refuted",
    "C87_ctx_keypair_refuted",
    "C87_root_keys_refuted",
    "C87_localize_refuted",
    "C87_dev_info_refuted",
    "C87_fingerprint_refuted",
    "C87_fingerprint_pair_refuted",
    "C87_identity_fingerprint_refuted",
    "C87_identity_fingerprint_pair_refuted",
    "C87_transport_key_refuted",
    "C87_stream_key_derived_refuted",
    "C87_stream_key_refuted",
    "C87_stream_iv_refuted",
    "C87_stream_key_derived_leaks_refuted"
   ],
   "note": "The full statement (performs_safely) is proved for the padded public key. For the others it is false: a buffer, a key or a signature is made without testing an allocation (a crash for each operation), and when a stream key cannot be made the derived bytes stay behind. The _partial theorems (performs_in_memory) say that nothing else can go wrong."
  },
  {
   "property": "C88",
   "status": "partial",
   "theorems": [
    "C88_identity_sign",
    "C88_node_identity",
    "C88_keypair",
    "C88_ctx_keypair",
    "C88_root_keys",
    "C88_localize",
    "C88_dev_info_partial",
    "C88_public_key",
    "C88_fingerprint",
    "C88_fingerprint_pair",
    "C88_identity_fingerprint",
    "C88_identity_fingerprint_pair",
    "C88_transport_key",
    "C88_stream_key_derived_partial",
    "C88_stream_key",
    "C88_stream_iv_partial",
    "C88_stream_key_derived_refuted",
    "C88_stream_iv_refuted",
    "C88_dev_info_refuted"
   ],
   "note": "hides_op, with the strings that may stay readable listed. False when an allocation fails: the seed of stream nonces, the salt and identifiers of a device, and the bytes stream keys are derived from are released as they are. The _partial theorems say that nothing else stays readable."
  },
  {
   "property": "C89",
   "status": "partial",
   "theorems": [
    "C89_chain_validate",
    "C89_node_verify",
    "C89_ctx_create",
    "C89_ctx_parse",
    "C89_ctx_import_partial",
    "C89_ctx_with_keys_partial",
    "C89_ctx_new",
    "C89_ctx_with_sig_key_partial",
    "C89_ctx_with_recovery_partial",
    "C89_ctx_with_passphrase_partial",
    "C89_ctx_import_refuted",
    "C89_ctx_with_keys_undecodable_refuted",
    "C89_ctx_with_keys_refuted",
    "C89_ctx_with_sig_key_refuted",
    "C89_ctx_with_recovery_refuted",
    "C89_ctx_with_passphrase_refuted",
    "C89_ctx_with_passphrase_leaks_refuted"
   ],
   "note": "changes_cleanly / performs_cleanly. Full for validation, making a context, reading a stored one and generating one with new keys. False: generating a context with given keys leaves the chain behind when the key halves do not belong together or the private key cannot be decoded; importing an exported context leaves the derived key behind when no ciphertext follows the parameters; generating from a recovery reads through a null pointer when the identifier is too long. The _partial theorems carry those conditions."
  },
  {
   "property": "C90",
   "status": "partial",
   "theorems": [
    "C90_chain_validate_partial",
    "C90_node_verify_partial",
    "C90_ctx_create_partial",
    "C90_ctx_parse_partial",
    "C90_ctx_import_partial",
    "C90_ctx_with_keys_partial",
    "C90_ctx_new_partial",
    "C90_ctx_with_sig_key_partial",
    "C90_ctx_with_recovery_partial",
    "C90_ctx_with_passphrase_partial",
    "C90_chain_validate_refuted",
    "C90_node_verify_refuted",
    "C90_ctx_create_refuted",
    "C90_ctx_create_leaks_refuted",
    "C90_ctx_parse_refuted",
    "C90_ctx_parse_leaks_refuted",
    "C90_ctx_import_refuted",
    "C90_ctx_import_leaks_refuted",
    "C90_ctx_with_keys_refuted",
    "C90_ctx_with_keys_leaks_refuted",
    "C90_ctx_new_refuted",
    "C90_ctx_new_leaks_refuted",
    "C90_ctx_with_sig_key_refuted",
    "C90_ctx_with_sig_key_leaks_refuted",
    "C90_ctx_with_recovery_refuted",
    "C90_ctx_with_passphrase_refuted",
    "C90_ctx_with_passphrase_leaks_refuted"
   ],
   "note": "changes_in_memory / performs_or_worse. False: untested allocations crash and the header key stays behind when the context cannot be allocated. The _partial theorems say which kinds of allocation crash and that otherwise the answer is right or a refusal."
  },
  {
   "property": "C91",
   "status": "partial",
   "theorems": [
    "C91_chain_validate",
    "C91_node_verify",
    "C91_ctx_create",
    "C91_ctx_parse_partial",
    "C91_ctx_import_partial",
    "C91_ctx_with_keys",
    "C91_ctx_new",
    "C91_ctx_with_sig_key",
    "C91_ctx_with_recovery_partial",
    "C91_ctx_with_passphrase_partial",
    "C91_ctx_parse_refuted",
    "C91_ctx_import_refuted",
    "C91_ctx_import_derived_refuted",
    "C91_ctx_with_recovery_refuted",
    "C91_ctx_with_passphrase_refuted",
    "C91_ctx_with_passphrase_derived_refuted"
   ],
   "note": "hides_change / hides_op with the strings that may stay readable listed. Full for validation, making a context and generating one with new or given keys. False: reading a stored or exported context leaves the storage keys readable, generating from a recovery the root keys (with enough memory), and importing the derived key when an allocation fails."
  },
  {
   "property": "C92",
   "status": "partial",
   "theorems": [
    "C92_chain_accepted_partial",
    "C92_node_accepted_partial",
    "C92_chain_verdict_refuted",
    "C92_node_verdict_refuted"
   ],
   "note": "The first half is proved (C92_chain_accepted_partial, C92_node_accepted_partial): whatever fails, nothing is accepted without the signatures. The second half is false: a single failing allocation marks a good chain invalid and caches that, so later validations refuse it too."
  },
  {
   "property": "C93",
   "status": "proved",
   "theorems": [
    "C93_create",
    "C93_encode",
    "C93_decode",
    "C93_encode_session",
    "C93_decode_session"
   ],
   "note": "changes_cleanly for one call and for sessions of any length. Associated data must not be empty and a packet to decode must be one the library can make."
  },
  {
   "property": "C94",
   "status": "partial",
   "theorems": [
    "C94_create_partial",
    "C94_create_decoder",
    "C94_encode_partial",
    "C94_decode_partial",
    "C94_encode_session_partial",
    "C94_decode_session_partial",
    "C94_create_refuted",
    "C94_encode_refuted",
    "C94_encode_key_refuted",
    "C94_decode_refuted",
    "C94_encode_session_refuted",
    "C94_decode_session_refuted",
    "C94_create_leaks_refuted"
   ],
   "note": "changes_in_memory; full for making a decoder (C94_create_decoder). False otherwise: untested allocations crash while the key evolves, an encoder that cannot be allocated leaves its nonce generator behind. The _partial theorems say which kinds of allocation crash and that otherwise the answer is right or a refusal that leaves the context in one of the listed states."
  },
  {
   "property": "C95",
   "status": "partial",
   "theorems": [
    "C95_create_partial",
    "C95_encode",
    "C95_decode",
    "C95_encode_session",
    "C95_decode_session",
    "C95_create_refuted",
    "C95_user_data_refuted"
   ],
   "note": "hides_change with the strings that may stay readable listed. Full for encoding, decoding and sessions. False for making an encoder: the seed stays readable when the generator cannot be allocated. C95_user_data_refuted shows that the exception for user data is needed. The rest of the digest a nonce is cut from is not modelled."
  },
  {
   "property": "C96",
   "status": "proved",
   "theorems": [
    "C96_nonces_in_order",
    "C96_no_nonce_repeats"
   ],
   "note": "For every session that does not crash under any schedule. The hypothesis of C96_no_nonce_repeats is about the positions of this sequence only."
  },
  {
   "property": "C97",
   "status": "proved",
   "theorems": [
    "C97_encode_numbers_rise",
    "C97_decode_numbers_rise"
   ],
   "note": "For every session that does not crash under any schedule."
  },
  {
   "property": "C98",
   "status": "partial",
   "theorems": [
    "C98_packet_partial",
    "C98_encode_partial",
    "C98_packet_refuted",
    "C98_encode_refuted"
   ],
   "note": "changes_cleanly with sends_ok / encodes_ok (Spec/HeapSendingSpec.v), for arrays of any length below 2^32 and payloads within the size limit of the library. False of a sender whose private key cannot be decoded: signing leaves the digest context behind (C98_packet_refuted, C98_encode_refuted). The _partial theorems cover all other senders."
  },
  {
   "property": "C99",
   "status": "partial",
   "theorems": [
    "C99_packet_partial",
    "C99_encode_partial",
    "C99_packet_refuted",
    "C99_packet_exchange_refuted",
    "C99_packet_key_refuted",
    "C99_encode_refuted",
    "C99_packet_leaks_refuted",
    "C99_recipient_refuted"
   ],
   "note": "changes_in_memory. False: untested allocations crash, when the derivation cannot be finished the key agreed on with a recipient stays behind, and a single failure while a good recipient is validated makes later packets to it be refused as well (C99_recipient_refuted). The _partial theorems say which kinds of allocation crash, and that otherwise the answer is the right packet or none and the recipients are in place, each judged on its own up to the first that is refused."
  }
 ]
}