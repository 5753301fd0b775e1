{
 "claims": [
  {
   "property": "C01",
   "status": "proved",
   "theorems": [
    "C01_cbor_round_trip",
    "C01_loads_round_trip"
   ],
   "note": ""
  },
  {
   "property": "C02",
   "status": "proved",
   "theorems": [
    "C02_prefix_free"
   ],
   "note": ""
  },
  {
   "property": "C03",
   "status": "proved",
   "theorems": [
    "C03_sign1_injective"
   ],
   "note": ""
  },
  {
   "property": "C04",
   "status": "proved",
   "theorems": [
    "C04_signer_injective"
   ],
   "note": ""
  },
  {
   "property": "C05",
   "status": "proved",
   "theorems": [
    "C05_enc_aad_injective"
   ],
   "note": ""
  },
  {
   "property": "C06",
   "status": "proved",
   "theorems": [
    "C06_mac_input_injective"
   ],
   "note": ""
  },
  {
   "property": "C07",
   "status": "proved",
   "theorems": [
    "C07_domain_separation"
   ],
   "note": ""
  },
  {
   "property": "C08",
   "status": "proved",
   "theorems": [
    "C08_zero_padding",
    "C08_padding_is_shortest",
    "C08_padded_inputs_distinct"
   ],
   "note": ""
  },
  {
   "property": "C09",
   "status": "proved",
   "theorems": [
    "C09_hmac",
    "C09_aes_mac",
    "C09_verification"
   ],
   "note": ""
  },
  {
   "property": "C10",
   "status": "proved",
   "theorems": [
    "C10_constructed_headers",
    "C10_sign1_round_trip"
   ],
   "note": "Headers are assumed legal (headers_ok); C10_constructed_headers shows that the constructors produce such headers. The key pair and the signature primitives' correctness are hypotheses."
  },
  {
   "property": "C11",
   "status": "proved",
   "theorems": [
    "C11_detached_same_signature",
    "C11_detached_same_verdict",
    "C11_signer_detached_same_signature",
    "C11_sign1_rejected",
    "C11_sign1_rejected_exception",
    "C11_signer_rejected"
   ],
   "note": ""
  },
  {
   "property": "C12",
   "status": "proved",
   "theorems": [
    "C12_sign_round_trip",
    "C12_construction"
   ],
   "note": "Legal headers of the message and of every signer; each signer has its own key, algorithm and external data."
  },
  {
   "property": "C13",
   "status": "proved",
   "theorems": [
    "C13_enc0_round_trip"
   ],
   "note": ""
  },
  {
   "property": "C14",
   "status": "proved",
   "theorems": [
    "C14_mac0_round_trip"
   ],
   "note": ""
  },
  {
   "property": "C15",
   "status": "partial",
   "theorems": [
    "C15_unknown_class_refuted",
    "C15_mac_direct_round_trip_partial"
   ],
   "note": "REFUTED for recipients with direct+HKDF-SHA-512 or direct+HKDF-AES-128: the message is encoded, decode raises KeyError. Proved for the algorithms the decoder knows for the class."
  },
  {
   "property": "C16",
   "status": "partial",
   "theorems": [
    "C16_unknown_class_refuted",
    "C16_enc_direct_round_trip_partial"
   ],
   "note": "REFUTED as C15. Proved for every recipient list with the algorithms the decoder knows for the class."
  },
  {
   "property": "C17",
   "status": "partial",
   "theorems": [
    "C17_preset_keys_refuted",
    "C17_enc_wrap_round_trip_partial"
   ],
   "note": "REFUTED for recipients given different content keys beforehand: only the last key is used. Proved for recipients with no content key or all the same, with AES key wrap, RSA-OAEP and ECDH+key wrap in any mix and number. Missing: nested recipients (C46, C59 show they do not work)."
  },
  {
   "property": "C18",
   "status": "partial",
   "theorems": [
    "C18_unannounced_key_refuted",
    "C18_enc_agree_round_trip_partial"
   ],
   "note": "REFUTED when the static sender key is not in a header, which encoding allows. Proved with the sender's key in the header of its algorithm, for every curve of the library; generated ephemeral keys never get this far (C60)."
  },
  {
   "property": "C19",
   "status": "partial",
   "theorems": [
    "C19_unannounced_key_refuted",
    "C19_enc_agree_wrap_round_trip_partial"
   ],
   "note": "REFUTED when the caller's own sender key is not in a header. Proved for generated ephemeral keys and for announced sender keys. Sender keys among the protected headers never work (C81)."
  },
  {
   "property": "C20",
   "status": "proved",
   "theorems": [
    "C20_received_bytes_authenticated",
    "C20_signers_received_bytes",
    "C20_reencoding_emits_them"
   ],
   "note": ""
  },
  {
   "property": "C21",
   "status": "partial",
   "theorems": [
    "C21_bytes_follow_map_partial",
    "C21_assignments_partial",
    "C21_in_place_refuted"
   ],
   "note": "REFUTED for in-place changes (msg.phdr[k] = v) of a decoded message: the received bytes are kept and authenticated. Proved for locally built messages and every history, and for decoded messages and every history of assignments and updates."
  },
  {
   "property": "C22",
   "status": "proved",
   "theorems": [
    "C22_only_selects",
    "C22_dispatch",
    "C22_other_input_rejected",
    "C22_expected_class"
   ],
   "note": ""
  },
  {
   "property": "C23",
   "status": "partial",
   "theorems": [
    "C23_whole_input_refuted",
    "C23_one_item_partial"
   ],
   "note": "REFUTED: decode ignores anything after the first CBOR item, for every accepted input. Proved: the input starts with one complete item, and the result depends on nothing else."
  },
  {
   "property": "C24",
   "status": "partial",
   "theorems": [
    "C24_lookup_partial",
    "C24_lookup_by_id_exact_partial",
    "C24_lookup_by_name_exact_partial",
    "C24_unknown_partial",
    "C24_sound_partial",
    "C24_foreign_class_refuted"
   ],
   "note": "REFUTED for classes of a foreign family whose id is registered (header KID as algorithm gives HMAC 256/64): the class is not checked, only its id. Everything else is proved."
  },
  {
   "property": "C25",
   "status": "proved",
   "theorems": [
    "C25_iana_ids",
    "C25_iana_complete",
    "C25_ids_unique",
    "C25_names_unique",
    "C25_lengths",
    "C25_lengths_cover"
   ],
   "note": ""
  },
  {
   "property": "C26",
   "status": "proved",
   "theorems": [
    "C26_constructed_normal",
    "C26_decoded_normal"
   ],
   "note": ""
  },
  {
   "property": "C27",
   "status": "partial",
   "theorems": [
    "C27_given_values_partial",
    "C27_stored_values_partial",
    "C27_decoded_values_partial",
    "C27_typed_values_refuted"
   ],
   "note": "REFUTED: content type true, alg [] or a list, and alg true (taken for A128GCM) are accepted. Every other rule is proved for construction and decoding."
  },
  {
   "property": "C28",
   "status": "proved",
   "theorems": [
    "C28_rejected",
    "C28_decode_rejected",
    "C28_kept",
    "C28_survives",
    "C28_enc_recipients",
    "C28_mac_recipients",
    "C28_signers"
   ],
   "note": "Survival is proved for the headers of all six kinds of messages, and for those of signers and of recipients without nested ones."
  },
  {
   "property": "C29",
   "status": "partial",
   "theorems": [
    "C29_get_attr_partial",
    "C29_default_refuted"
   ],
   "note": "REFUTED for every default other than None: the default stands in for the missing value in each bucket, so a header that is in neither or in only one bucket raises CoseException. Proved for the default None."
  },
  {
   "property": "C30",
   "status": "proved",
   "theorems": [
    "C30_protected_algorithm",
    "C30_unprotected_algorithm",
    "C30_same_headers",
    "C30_enc_recipients",
    "C30_mac_recipients",
    "C30_signers"
   ],
   "note": ""
  },
  {
   "property": "C31",
   "status": "proved",
   "theorems": [
    "C31_authorisation"
   ],
   "note": ""
  },
  {
   "property": "C32",
   "status": "partial",
   "theorems": [
    "C32_signing_partial",
    "C32_verifying_partial",
    "C32_signers_partial",
    "C32_encryption_partial",
    "C32_decryption_partial",
    "C32_mac_partial",
    "C32_mac_verification_partial",
    "C32_direct_recipients_partial",
    "C32_key_type_refuted"
   ],
   "note": "REFUTED for the distinction between asymmetric key types: ES256 signs with an RSA or OKP key. Missing keys, symmetric/asymmetric mix-ups, other algorithms and missing operations are proved to fail before any primitive is used, for all message classes."
  },
  {
   "property": "C33",
   "status": "partial",
   "theorems": [
    "C33_symmetric_sizes_partial",
    "C33_item_assignment_refuted"
   ],
   "note": "REFUTED for item assignment (key['K'] = b'x' is stored unchecked). Holds for every history of property assignments (other than kty), deletions, pop, popitem, clear, and item assignments of legal values."
  },
  {
   "property": "C34",
   "status": "partial",
   "theorems": [
    "C34_ec2_histories_partial",
    "C34_kty_assignment_refuted"
   ],
   "note": "REFUTED for key.kty = ...: the setter looks the value up among key parameters, so assigning EC2's own id stores KID as key type. Everything else is proved for all histories."
  },
  {
   "property": "C35",
   "status": "partial",
   "theorems": [
    "C35_okp_histories_partial",
    "C35_deletions_refuted"
   ],
   "note": "REFUTED: deleting x and then d leaves an OKP key with neither. Key type and curve survive every history; x or d survives histories that do not delete d (kty assignment as in C34)."
  },
  {
   "property": "C36",
   "status": "partial",
   "theorems": [
    "C36_key_ops_accepted_partial",
    "C36_key_ops_rejected_partial",
    "C36_first_unsupported_partial",
    "C36_not_atomic_refuted",
    "C36_empty_list_refuted"
   ],
   "note": "REFUTED: a list starting with a supported operation and containing an unsupported one raises but is stored; assigning [] leaves the old operations. Acceptance, rejection and the exact stored value are proved; unchanged is proved when the first operation is the unsupported one."
  },
  {
   "property": "C37",
   "status": "partial",
   "theorems": [
    "C37_encode_decode_partial",
    "C37_portable_partial",
    "C37_rsa_optional_refuted"
   ],
   "note": "REFUTED for RSA keys given a type-specific parameter as an optional one (and for multi-prime keys, C62). Proved for every key the four constructors build from arguments and optional parameters that are common parameters in any spelling or unregistered labels with plain data, and for every well-typed complete key however it came about."
  },
  {
   "property": "C38",
   "status": "proved",
   "theorems": [
    "C38_rsa_forms"
   ],
   "note": ""
  },
  {
   "property": "C39",
   "status": "partial",
   "theorems": [
    "C39_spelling_partial",
    "C39_precedence_partial",
    "C39_precedence_refuted"
   ],
   "note": "REFUTED for the common parameters, where the last spelling wins. Proved: any respelling gives the same result; class over id over name for each type's own parameters."
  },
  {
   "property": "C40",
   "status": "partial",
   "theorems": [
    "C40_nonce_partial",
    "C40_leading_zero_refuted",
    "C40_missing_refuted"
   ],
   "note": "REFUTED: leading zero bytes of base IV xor partial IV are dropped (nonce shorter than the base IV); a missing partial IV raises TypeError and a missing key AttributeError. IV header, missing base IV, and every combination whose first byte is not zero are proved."
  },
  {
   "property": "C41",
   "status": "proved",
   "theorems": [
    "C41_base64"
   ],
   "note": ""
  },
  {
   "property": "C42",
   "status": "proved",
   "theorems": [
    "C42_okp_import",
    "C42_ec2_import_succeeds",
    "C42_rsa_public_import",
    "C42_rsa_private_import",
    "C42_ec2_import"
   ],
   "note": ""
  },
  {
   "property": "C43",
   "status": "partial",
   "theorems": [
    "C43_private_consistent_partial",
    "C43_decompressed_partial",
    "C43_public_unchecked_refuted"
   ],
   "note": "REFUTED for EC2Key(crv, x, y): without d no check relates y to x, for any curve implementation. Proved with d and for x alone."
  },
  {
   "property": "C44",
   "status": "proved",
   "theorems": [
    "C44_roundtrip",
    "C44_matches_own",
    "C44_matches_only",
    "C44_equal"
   ],
   "note": ""
  },
  {
   "property": "C45",
   "status": "partial",
   "theorems": [
    "C45_own_list_refuted",
    "C45_appends_refuted",
    "C45_history_partial",
    "C45_accepts_partial"
   ],
   "note": "REFUTED: EncMessage.recipients = rs appends to the current list, a rejected assignment keeps the elements before the bad one, and assigning the message's own list never returns. The exact list after any history of assignments is proved. (MacMessage.recipients is a plain attribute.)"
  },
  {
   "property": "C46",
   "status": "partial",
   "theorems": [
    "C46_nested_refuted"
   ],
   "note": "REFUTED for every received message: no decoded recipient has nested recipients."
  },
  {
   "property": "C47",
   "status": "partial",
   "theorems": [
    "C47_missed_refuted",
    "C47_sound_partial",
    "C47_top_level_partial",
    "C47_found_exactly_partial",
    "C47_chains_partial",
    "C47_foreign_recipient_partial",
    "C47_received_distinct_partial"
   ],
   "note": "REFUTED: the result of an earlier subtree is overwritten by a later one. Proved: soundness, completeness for top-level recipients, the exact set of recipients found, and exactness for trees where at most one recipient per level has nested ones."
  },
  {
   "property": "C48",
   "status": "proved",
   "theorems": [
    "C48_mixing",
    "C48_refused",
    "C48_messages"
   ],
   "note": ""
  },
  {
   "property": "C49",
   "status": "partial",
   "theorems": [
    "C49_dropped_refuted",
    "C49_all_or_none_partial",
    "C49_well_formed_partial"
   ],
   "note": "REFUTED: a recipient with fewer than two fields (IndexError) makes decode return the message without recipients. Proved: all-or-none, and every recipient that is returned was read from a well-formed array declaring an algorithm of its class."
  },
  {
   "property": "C50",
   "status": "proved",
   "theorems": [
    "C50_kdf_context_injective"
   ],
   "note": ""
  },
  {
   "property": "C51",
   "status": "proved",
   "theorems": [
    "C51_generated_key_stays",
    "C51_encrypt_then_encode"
   ],
   "note": ""
  },
  {
   "property": "C52",
   "status": "proved",
   "theorems": [
    "C52_key_wrap_sizes",
    "C52_key_wrap_output"
   ],
   "note": ""
  },
  {
   "property": "C53",
   "status": "partial",
   "theorems": [
    "C53_content_encryption_partial",
    "C53_key_size_refuted"
   ],
   "note": "REFUTED: key length is not compared with the algorithm's (A128GCM with a 32-byte key encrypts). Proved: the primitive receives exactly the key's secret and the registered tag length."
  },
  {
   "property": "C54",
   "status": "partial",
   "theorems": [
    "C54_ecdsa_partial",
    "C54_curve_refuted"
   ],
   "note": "REFUTED: the curve is taken from the algorithm, never from the key. Proved for keys on the algorithm's curve."
  },
  {
   "property": "C55",
   "status": "partial",
   "theorems": [
    "C55_critical_refuted"
   ],
   "note": "REFUTED: crit is never enforced."
  },
  {
   "property": "C56",
   "status": "partial",
   "theorems": [
    "C56_enc0_partial",
    "C56_enc_partial",
    "C56_existing_signature_partial",
    "C56_unsigned_refuted",
    "C56_mac0_refuted",
    "C56_no_signers_refuted",
    "C56_mac_refuted",
    "C56_enc_recipients_partial",
    "C56_mac_recipients_partial"
   ],
   "note": "REFUTED: encode(sign=False) without an existing signature, Mac0/MacMessage encode(mac=False) and a SignMessage without signers give bytes that decode rejects with IndexError. Proved for Encrypt0, Encrypt with or without recipients and Sign1 with an existing signature. A MacMessage with recipients and mac=False decodes with its headers and payload, but without its recipients: they are taken for the tag."
  },
  {
   "property": "C57",
   "status": "partial",
   "theorems": [
    "C57_preset_keys_refuted",
    "C57_same_content_key_partial",
    "C57_every_encoding_partial"
   ],
   "note": "REFUTED when recipients were given different content keys: they never agree. Proved: the content keys stay through any further calls, and for recipients without or with the same content key every recipient reads every encoding."
  },
  {
   "property": "C58",
   "status": "partial",
   "theorems": [
    "C58_mac_key_wrap_refuted"
   ],
   "note": "REFUTED for every COSE_Mac message with key-wrap recipients: encoding always raises (NameError at the latest)."
  },
  {
   "property": "C59",
   "status": "partial",
   "theorems": [
    "C59_layered_refuted"
   ],
   "note": "REFUTED for every such recipient: wrapping and unwrapping always raise."
  },
  {
   "property": "C60",
   "status": "partial",
   "theorems": [
    "C60_direct_ephemeral_refuted"
   ],
   "note": "REFUTED for every such message: encoding always raises, although encoding the recipient alone generates a key."
  },
  {
   "property": "C61",
   "status": "partial",
   "theorems": [
    "C61_properties_read_back_partial",
    "C61_kty_refuted"
   ],
   "note": "REFUTED for kty: no assignment ever stores a key type. Every other property is proved (key_ops: see C36)."
  },
  {
   "property": "C62",
   "status": "partial",
   "theorems": [
    "C62_multi_prime_refuted",
    "C62_two_prime_partial"
   ],
   "note": "REFUTED for every multi-prime key: other, r_i, d_i, t_i are never encoded. Keys without them round-trip."
  },
  {
   "property": "C63",
   "status": "partial",
   "theorems": [
    "C63_set_item_partial",
    "C63_set_item_other_partial",
    "C63_del_item_partial",
    "C63_optional_deletable_partial",
    "C63_unknown_not_deletable_refuted"
   ],
   "note": "REFUTED: unregistered parameters can be set but not deleted on Symmetric, OKP and EC2 keys. Set/get/in under all spellings, deletion after any history and deletability of the optional parameters are proved."
  },
  {
   "property": "C64",
   "status": "partial",
   "theorems": [
    "C64_sign1_signs_rfc_structure",
    "C64_sign1_verifies_rfc_structure",
    "C64_encrypts_with_rfc_structure",
    "C64_decrypts_with_rfc_structure",
    "C64_macs_rfc_structure",
    "C64_checks_mac_of_rfc_structure",
    "C64_signer_signs_rfc_structure_partial",
    "C64_signer_verifies_rfc_structure_partial",
    "C64_empty_signer_header_refuted",
    "C64_explicit_empty_body_refuted"
   ],
   "note": "REFUTED for COSE_Sign signers without protected headers (sign_protected omitted) and for a body header received as an explicit empty map (a0 signed). Holds for Sign1, Enc, Mac, and for all other signers."
  },
  {
   "property": "C65",
   "status": "partial",
   "theorems": [
    "C65_kdf_context_rfc_partial",
    "C65_empty_header_refuted",
    "C65_received_header_refuted"
   ],
   "note": "REFUTED for recipients without protected headers (a0 instead of the empty string) and for headers received in a non-preferred encoding (re-encoded). Holds for locally built recipients with protected headers."
  },
  {
   "property": "C66",
   "status": "proved",
   "theorems": [
    "C66_items_determined",
    "C66_sign1",
    "C66_enc0",
    "C66_mac0",
    "C66_sign",
    "C66_enc",
    "C66_mac"
   ],
   "note": ""
  },
  {
   "property": "C67",
   "status": "partial",
   "theorems": [
    "C67_hash_partial",
    "C67_curve_size_partial",
    "C67_x448_size_refuted",
    "C67_key_length_partial",
    "C67_key_wrap_partial"
   ],
   "note": "REFUTED for X448 (size 57, RFC 7748 says 56). SHA-512/256 (id -17) has no entry in the hash table of the specification: the code truncates SHA-512, which differs from the FIPS 180-4 function only in the primitive. Everything else is proved."
  },
  {
   "property": "C68",
   "status": "partial",
   "theorems": [
    "C68_chain_partial",
    "C68_single_certificate_refuted"
   ],
   "note": "REFUTED for chains of one certificate. Proved for two and more."
  },
  {
   "property": "C69",
   "status": "partial",
   "theorems": [
    "C69_hashes_partial",
    "C69_shake_refuted"
   ],
   "note": "REFUTED for SHAKE128 and SHAKE256 (TypeError for every input). Proved for the others."
  },
  {
   "property": "C70",
   "status": "partial",
   "theorems": [
    "C70_algorithm_tags_partial",
    "C70_empty_input_refuted"
   ],
   "note": "REFUTED for AES-MAC of the empty string (empty tag). Proved for HMAC and for AES-MAC of non-empty data; messages never MAC the empty string (C09)."
  },
  {
   "property": "C71",
   "status": "partial",
   "theorems": [
    "C71_field_types_partial",
    "C71_field_types_refuted"
   ],
   "note": "REFUTED: null header fields and signatures of any type are accepted. The rest is proved."
  },
  {
   "property": "C72",
   "status": "partial",
   "theorems": [
    "C72_restrictions_ignored_refuted",
    "C72_oaep_partial"
   ],
   "note": "REFUTED for AES key wrap: only the secret of the key is read. Proved for RSA-OAEP."
  },
  {
   "property": "C73",
   "status": "partial",
   "theorems": [
    "C73_private_part_sent_refuted"
   ],
   "note": "REFUTED: EphemeralKey holding a key pair is sent with its private part."
  },
  {
   "property": "C74",
   "status": "partial",
   "theorems": [
    "C74_secret_hidden_partial",
    "C74_rsa_refuted"
   ],
   "note": "REFUTED for RSA keys: every private parameter is printed in full. Proved for symmetric, EC2 and OKP keys."
  },
  {
   "property": "C75",
   "status": "partial",
   "theorems": [
    "C75_repr_partial",
    "C75_no_payload_refuted",
    "C75_hostile_key_refuted",
    "C75_lower_case_refuted"
   ],
   "note": "REFUTED for messages without payload (TypeError), for a hostile ephemeral key with a text parameter named like a registered Python class, and for one whose private number is given as an integer under a lower-case label. Proved for all other decoded messages with byte-string seals, including those whose headers hold ordinary keys."
  },
  {
   "property": "C76",
   "status": "proved",
   "theorems": [
    "C76_symmetric",
    "C76_ec2",
    "C76_okp",
    "C76_rsa",
    "C76_other_curve",
    "C76_unknown_curve",
    "C76_signs"
   ],
   "note": ""
  },
  {
   "property": "C77",
   "status": "proved",
   "theorems": [
    "C77_message_kept",
    "C77_repeatable"
   ],
   "note": ""
  },
  {
   "property": "C78",
   "status": "proved",
   "theorems": [
    "C78_enc",
    "C78_mac",
    "C78_mac0"
   ],
   "note": ""
  },
  {
   "property": "C79",
   "status": "partial",
   "theorems": [
    "C79_enc_direct_partial",
    "C79_enc_recipient_refuted",
    "C79_rewrapped_refuted",
    "C79_mac_tag_refuted",
    "C79_mac_refuted",
    "C79_enc0_partial",
    "C79_sign1_partial",
    "C79_sign_refuted",
    "C79_mac0_refuted",
    "C79_text_algorithm_refuted"
   ],
   "note": "REFUTED for COSE_Mac0 and COSE_Mac (the tag is dropped: the result cannot be decoded, or has the recipients in place of the tag), for COSE_Sign (received signers cannot be encoded without signing again), for COSE_Encrypt with any recipient that is not a direct one (encode raises, and with the key-encryption key it wraps the wrapped key) and for unprotected algorithms sent as text. Proved for COSE_Encrypt0, COSE_Sign1 and COSE_Encrypt with direct recipients or none, with any headers but keys."
  },
  {
   "property": "C80",
   "status": "partial",
   "theorems": [
    "C80_exceptions_partial",
    "C80_undocumented_refuted"
   ],
   "note": "REFUTED: eight more exceptions occur (EOF, IndexError, AssertionError and five COSE exceptions), each for some bytes. Proved: no others occur, except those of the elliptic curve library."
  },
  {
   "property": "C81",
   "status": "partial",
   "theorems": [
    "C81_send_refuted",
    "C81_receive_refuted"
   ],
   "note": "REFUTED for every recipient and message: sending and receiving with a protected sender key always fails. Nothing remains to be proved positively."
  },
  {
   "property": "C82",
   "status": "partial",
   "theorems": [
    "C82_hmac_refuted",
    "C82_roundtrip_partial"
   ],
   "note": "REFUTED for the HMAC algorithms: neither side can compute the key. Proved for the AES-MAC algorithms with an announced sender key."
  },
  {
   "property": "C83",
   "status": "proved",
   "theorems": [
    "C83_no_effect"
   ],
   "note": ""
  },
  {
   "property": "C84",
   "status": "partial",
   "theorems": [
    "C84_unprotected_refuted",
    "C84_protected_refuted",
    "C84_origin_partial"
   ],
   "note": "REFUTED for every message and label, in both maps. Proved: the value of a header comes from an entry with its label, the only one if there is one."
  },
  {
   "property": "C85",
   "status": "partial",
   "theorems": [
    "C85_extra_refuted",
    "C85_recipients_refuted",
    "C85_too_few_partial"
   ],
   "note": "REFUTED: any further elements are accepted, for every message, and a COSE_Encrypt array without its recipients. Proved: fewer elements are refused but for the recipients."
  },
  {
   "property": "C86",
   "status": "partial",
   "theorems": [
    "C86_constructor_refuted",
    "C86_setter_partial"
   ],
   "note": "REFUTED: the constructor accepts every number (the check is in __attrs_post__init__, which attrs never calls), in every state. Proved: the setter refuses other lengths, changing nothing, and a proper length stays proper through every history."
  },
  {
   "property": "C87",
   "status": "partial",
   "theorems": [
    "C87_default_party_refuted",
    "C87_frame_partial",
    "C87_recipients_partial",
    "C87_assignments_partial",
    "C87_party_v_partial",
    "C87_new_partial",
    "C87_default_silent_partial",
    "C87_encoding_partial"
   ],
   "note": "REFUTED: any two contexts made without party information share one PartyInfo object (default=PartyInfo() is evaluated once), so an assignment for one shows in the other. Proved: only assignments to a context or to objects it was made of change its encoding, and contexts made for recipients are independent; every assignment changes exactly the attribute it names, a new context shows the parts it was given, and the encoding is that of the values shown."
  },
  {
   "property": "C88",
   "status": "partial",
   "theorems": [
    "C88_shared_recipient_refuted",
    "C88_alone_partial",
    "C88_others_partial"
   ],
   "note": "REFUTED: two messages for the same key wrap recipient objects are encrypted under one content key. Proved: for messages without common recipient objects, every history of a program is for each message a history of a program that has only this message."
  },
  {
   "property": "C89",
   "status": "partial",
   "theorems": [
    "C89_shared_signers_refuted",
    "C89_appended_refuted",
    "C89_own_partial",
    "C89_not_list_partial"
   ],
   "note": "REFUTED: signers assigned to two messages sign the second in both, so the first is sent with the other's signatures; and a signer appended to the list makes encode fail. Proved: as long as its signers are given to no other message and its list changes by assignment or removal only, a message signs itself."
  },
  {
   "property": "C90",
   "status": "proved",
   "theorems": [
    "C90_sign1",
    "C90_signer",
    "C90_mac0",
    "C90_mac",
    "C90_enc0",
    "C90_enc"
   ],
   "note": ""
  },
  {
   "property": "C91",
   "status": "partial",
   "theorems": [
    "C91_iteration_partial",
    "C91_get_partial",
    "C91_delete_partial",
    "C91_pop_partial",
    "C91_rsa_emptied_partial",
    "C91_setdefault_partial",
    "C91_update_partial",
    "C91_equality_partial",
    "C91_clear_refuted",
    "C91_failed_deletion_refuted",
    "C91_rsa_equality_refuted",
    "C91_equal_encodings_refuted"
   ],
   "note": "REFUTED: popitem() and clear() always raise CoseInvalidKey on keys that are not RSA keys; deleting the x of an EC2 key that has d but no y removes it and raises KeyError; == ignores the additional primes of RSA keys; equal keys may encode to different bytes (insertion order). Proved for every history: iteration, len, in, items, values, get, del, pop, setdefault, update, popitem/clear of RSA keys, and == as comparison of all parameters."
  },
  {
   "property": "C92",
   "status": "partial",
   "theorems": [
    "C92_verify_tag_partial",
    "C92_verify_signature_partial",
    "C92_decrypt_partial",
    "C92_constructed_keys_partial",
    "C92_cose_exceptions_refuted",
    "C92_decrypt_recipient_partial",
    "C92_decrypt_direct_partial",
    "C92_recipient_exceptions_refuted"
   ],
   "note": "REFUTED: AttributeError without an algorithm or with one the key type has no numbers for, ValueError for a MAC with nil payload, TypeError for a signature that is not a byte string, for a nil ciphertext and for a base IV without Partial IV. Proved: no others (but OverflowError beyond 2^63 bytes) for Mac0, Mac, Sign1, signers of COSE_Sign, Encrypt0 and Encrypt. For recipients of COSE_Encrypt: AttributeError, ValueError or TypeError exactly when the receiver's key or the sender's key in the header does not fit the recipient's algorithm, a nil wrapped key, or a key among the protected headers of a key agreement recipient; constructed keys are well-formed."
  },
  {
   "property": "C93",
   "status": "partial",
   "theorems": [
    "C93_symmetric",
    "C93_okp",
    "C93_ec2",
    "C93_rsa",
    "C93_key_as_options",
    "C93_import_partial",
    "C93_pem_partial",
    "C93_generate_symmetric",
    "C93_generate_okp_partial",
    "C93_generate_ec2_partial",
    "C93_generate_rsa_partial",
    "C93_options_replace_numbers_refuted",
    "C93_generated_pair_split_refuted"
   ],
   "note": "REFUTED: optional parameters that name a number of the key replace the imported or generated one, so an OKP key can be generated with a public key that does not belong to its private key. Proved: constructors hold all they are given, and imports and generation do for optional parameters that name no number of the key."
  },
  {
   "property": "C94",
   "status": "partial",
   "theorems": [
    "C94_enc_partial",
    "C94_mac_partial",
    "C94_sign_partial",
    "C94_enc_refuted",
    "C94_mac_refuted",
    "C94_sign_refuted"
   ],
   "note": "REFUTED: the unprotected headers of signers and recipients are serialised by the message, so their algorithm follows the message's setting, not their own (all messages where the two differ). Proved: the protected ones follow the part's own setting."
  },
  {
   "property": "C95",
   "status": "partial",
   "theorems": [
    "C95_sign1",
    "C95_signer",
    "C95_mac0",
    "C95_mac",
    "C95_enc0",
    "C95_enc",
    "C95_content_key_partial",
    "C95_recipient_partial",
    "C95_enc_sent_partial",
    "C95_mac_sent_partial",
    "C95_enc_agreement_partial",
    "C95_mac_agreement_partial",
    "C95_salt_refuted"
   ],
   "note": "REFUTED: the salt header has no effect on any key agreement. Proved: signatures, tags and ciphertexts of the six kinds of messages; content keys of key wrap, OAEP and key agreement recipients of COSE_Encrypt and COSE_Mac, sender and receiver, with everything but the salt (verify_tag of COSE_Mac takes no content key from its recipients at all)."
  },
  {
   "property": "C96",
   "status": "partial",
   "theorems": [
    "C96_read",
    "C96_same_message",
    "C96_written",
    "C96_text",
    "C96_float",
    "C96_only_partial",
    "C96_malformed_refuted"
   ],
   "note": "REFUTED: a stop code in place of an item and simple values below 24 in two bytes are malformed but accepted. Proved: every well-formed encoding is read as its item, text exactly when UTF-8, floats with the same value, what is emitted is well-formed; items without stop codes and small simple values are read only from well-formed encodings. cbor2 is modelled, not part of the repository."
  },
  {
   "property": "C97",
   "status": "partial",
   "theorems": [
    "C97_found_partial",
    "C97_others_partial",
    "C97_import_partial",
    "C97_common_parameter_refuted",
    "C97_replaced_refuted"
   ],
   "note": "REFUTED: a parameter registered with KeyParam after import is unknown to the four kinds of keys, which copied its registry; a class replaced under its identifier is still found by its name. Proved: a registered class is found until replaced, other lookups and other base classes do not change, and without registrations lookups are those of C24 (lists of attributes: C24)."
  },
  {
   "property": "C98",
   "status": "partial",
   "theorems": [
    "C98_enc_refuted",
    "C98_mac_refuted",
    "C98_decrypt_refuted",
    "C98_compute_refuted",
    "C98_direct_partial"
   ],
   "note": "REFUTED: nothing is derived. Ciphertexts and tags are the same for all recipients of this class, whatever their algorithm, salt and parties, and compute_cek raises NotImplementedError for direct+HKDF. Proved: with direct, the shared secret itself is the key."
  },
  {
   "property": "C99",
   "status": "partial",
   "theorems": [
    "C99_not_found_refuted",
    "C99_not_checked_refuted",
    "C99_assign_partial",
    "C99_assign_unprotected_partial",
    "C99_other_headers_partial",
    "C99_reassign_partial"
   ],
   "note": "REFUTED: assignments and updates check and normalise nothing, so a header assigned under its number or name is not found under its class, and values the constructor refuses are kept. Proved: for maps already written the way messages keep them (classes, settled values, no keys inside), assignment and construction give the same message; which headers assignments and updates replace; what else they leave alone."
  },
  {
   "property": "C100",
   "status": "partial",
   "theorems": [
    "C100_exceptions_partial",
    "C100_other_exceptions_refuted",
    "C100_no_type_partial",
    "C100_unknown_type_refuted",
    "C100_only_maps_partial",
    "C100_other_type_partial",
    "C100_constructor_type_partial"
   ],
   "note": "REFUTED: eight exceptions that are not CoseExceptions are raised for some bytes, e.g. KeyError for every map with an unknown key type. Proved: the full list of exceptions, whatever the input (plus failures of the elliptic curve library); CoseIllegalKeyType without a key type and for keys that name two; only maps with a key type are keys."
  },
  {
   "property": "C101",
   "status": "partial",
   "theorems": [
    "C101_sign1_partial",
    "C101_sign1_verifies_partial",
    "C101_enc0_partial",
    "C101_enc_partial",
    "C101_mac0_own_partial",
    "C101_mac_own_partial",
    "C101_mac0_refuted",
    "C101_sign1_own_refuted",
    "C101_signature_type_partial"
   ],
   "note": "REFUTED: encode(mac=False) drops a tag computed before, so the message does not decode; a Sign1 object that encode() has signed holds no signature and fails to verify. Proved: the two-step encoding of Sign1, Encrypt0 and Encrypt messages with any recipients; the sender's own object verifies (Sign1 with a stored signature, Mac0, Mac) and decrypts (Encrypt0)."
  },
  {
   "property": "C102",
   "status": "partial",
   "theorems": [
    "C102_read_partial",
    "C102_assign_attribute_partial",
    "C102_assign_elsewhere_partial",
    "C102_assign_item_partial",
    "C102_assign_private_partial",
    "C102_delete_partial",
    "C102_unchecked_refuted",
    "C102_foreign_attribute_refuted"
   ],
   "note": "REFUTED: items take any value although the attributes refuse everything but byte strings, and an attribute the class does not document (key.k of an EC2 key) is accepted, can be read back and is in neither the items nor the encoding. Proved: reading, assigning and deleting agree for all documented attributes; the value of an assigned kty and of key_ops is left to C61 and C36."
  },
  {
   "property": "C103",
   "status": "partial",
   "theorems": [
    "C103_sign1_partial",
    "C103_sign_partial",
    "C103_encrypt0_partial",
    "C103_mac0_partial",
    "C103_encrypt_direct_partial",
    "C103_encrypt_wrapped_partial",
    "C103_mac_direct_partial",
    "C103_unprotected_partial",
    "C103_mac_wrapped_refuted",
    "C103_mac_complete_refuted",
    "C103_encrypt_agree_wrap_partial",
    "C103_encrypt_agree_partial",
    "C103_mac_agree_partial",
    "C103_mac_agree_wrap_refuted"
   ],
   "note": "REFUTED: a complete COSE_Mac message for key-wrap recipients is never encoded (NameError). So is none for recipients with key agreement and key wrap, or with HMAC and direct key agreement (C82). Proved for Sign1, Sign, Encrypt0, Mac0, Encrypt with every kind of recipient, and Mac with direct recipients or, for AES-MAC, direct key agreement. OverflowError stands for byte strings of 2^63 bytes and malformed text."
  },
  {
   "property": "C104",
   "status": "partial",
   "theorems": [
    "C104_headers_partial",
    "C104_twice_refuted",
    "C104_received_partial",
    "C104_dropped_refuted",
    "C104_checks",
    "C104_keys_partial",
    "C104_key_use",
    "C104_key_twice_refuted"
   ],
   "note": "REFUTED: a map that names one parameter twice, in two spellings, means different things in different orders; a recipient whose headers have two errors is dropped or refused depending on their order. Proved for maps that name each parameter at most once, and for messages whose recipients were all read."
  },
  {
   "property": "C105",
   "status": "partial",
   "theorems": [
    "C105_mac0",
    "C105_encrypt0",
    "C105_sign1_partial",
    "C105_sign_partial",
    "C105_encrypt",
    "C105_mac",
    "C105_mac0_exceptions_partial",
    "C105_encrypt0_exceptions_partial",
    "C105_sign1_exceptions_partial",
    "C105_sign_exceptions_partial",
    "C105_no_key",
    "C105_no_signers_refuted",
    "C105_key_type_refuted",
    "C105_exceptions_refuted",
    "C105_encrypt_direct_exceptions_partial",
    "C105_mac_direct_exceptions_partial",
    "C105_encrypt_wrap_exceptions_partial",
    "C105_recipient_exceptions_refuted",
    "C105_encrypt_exceptions_partial",
    "C105_mac_exceptions_partial",
    "C105_agreement_exceptions_refuted"
   ],
   "note": "REFUTED: a COSE_Sign message without signers is encoded unsigned; ES256 signs with the private key of another key type; a missing payload, algorithm, partial IV or private part raises ValueError, AttributeError or TypeError. Proved: the parts every encoded message had, with the signer complete when its algorithm belongs to its key type and the primitives refuse empty numbers, and the full list of other exceptions for messages without recipients, with direct recipients and with key wrap recipients, and, for recipients of any class, mixture and depth, that no exception outside a short list comes out."
  },
  {
   "property": "C106",
   "status": "partial",
   "theorems": [
    "C106_copy_partial",
    "C106_built_partial",
    "C106_object_or_items_partial",
    "C106_header_partial",
    "C106_multi_prime_refuted",
    "C106_deleted_refuted"
   ],
   "note": "REFUTED: the copy of a multi-prime RSA key (also the one in a header) loses the additional primes, for every such key; an RSA key from which a private number was deleted cannot be copied. Proved for every complete, well-typed key without additional primes."
  },
  {
   "property": "C107",
   "status": "partial",
   "theorems": [
    "C107_order_partial",
    "C107_same_kind_partial",
    "C107_lookup_partial",
    "C107_repr",
    "C107_other_kind_refuted",
    "C107_compare_raises_refuted",
    "C107_not_hashable_refuted",
    "C107_wrong_kind_refuted"
   ],
   "note": "REFUTED: objects of different kinds with the same number are equal, and one is taken for the other when looked up; comparing with anything that is no attribute raises AttributeError, even == and !=; attribute objects cannot be hashed, so they cannot name a header. Proved: the order, equality within one kind, the lookup and the printing."
  },
  {
   "property": "C108",
   "status": "partial",
   "theorems": [
    "C108_from_dict_partial",
    "C108_forward_partial",
    "C108_header_partial",
    "C108_lower_case_refuted",
    "C108_not_received_again_refuted",
    "C108_unrelated_private_refuted",
    "C108_algorithms_refuted",
    "C108_multi_prime_refuted"
   ],
   "note": "REFUTED: a number of the key under its name in lower case ('x', 'd') is stored unchecked, so a received key can have any x, or a private number that does not belong to its point, for every curve implementation, and then cannot be decoded again; a list of algorithms is accepted; additional RSA primes are not sent on. Proved for maps labelled by integers, classes, full names or unregistered texts, without those."
  },
  {
   "property": "C109",
   "status": "proved",
   "theorems": [
    "C109_values",
    "C109_length",
    "C109_keys",
    "C109_sign1",
    "C109_sign",
    "C109_encrypt0",
    "C109_mac0",
    "C109_encrypt_direct",
    "C109_mac_direct",
    "C109_encrypt_wrapped",
    "C109_encrypt_agree_wrap",
    "C109_encrypt_agree",
    "C109_mac_agree"
   ],
   "note": "Sharpens C01, C37, C103 and C108, which leave OverflowError open: it stands for objects that no CPython process can hold. What a message needs to be complete is C103. Recipients of recipients are not covered."
  },
  {
   "property": "C110",
   "status": "partial",
   "theorems": [
    "C110_reflexive_partial",
    "C110_symmetric_partial",
    "C110_transitive_partial",
    "C110_answers_partial",
    "C110_interchangeable_partial",
    "C110_messages_partial",
    "C110_round_trip_partial",
    "C110_nested_partial",
    "C110_attributes_refuted",
    "C110_sent_refuted"
   ],
   "note": "REFUTED: attributes set on a key object (key.k on an EC2 key) are not compared although algorithms use them; equal keys may be sent as different maps (True == 1). Proved: ==, on all reachable keys, is total and an equivalence; equal complete keys are interchangeable in every operation and message; a round trip gives an equal key; a key inside a value equals the map of its parameters."
  },
  {
   "property": "C111",
   "status": "partial",
   "theorems": [
    "C111_messages_definite",
    "C111_structures_definite",
    "C111_context_definite",
    "C111_keys_definite",
    "C111_one_form",
    "C111_one_item",
    "C111_sign1_partial",
    "C111_sign_partial",
    "C111_enc0_partial",
    "C111_mac0_partial",
    "C111_enc_partial",
    "C111_mac_partial",
    "C111_protected_partial",
    "C111_keys_partial",
    "C111_protected_update_refuted",
    "C111_unprotected_update_refuted"
   ],
   "note": "REFUTED: a header added under its number with phdr_update or uhdr_update is written beside the same header under its class, so the map has the label twice, for every registered header. Proved: definite lengths and shortest heads for everything that is encoded; no label twice for messages whose headers are as constructor and decoder make them, and for keys; one form for each item. Floats are written as doubles, as cbor2 does."
  },
  {
   "property": "C112",
   "status": "partial",
   "theorems": [
    "C112_keys_partial",
    "C112_assignments",
    "C112_update_refuted",
    "C112_coordinate_refuted",
    "C112_key_ops_refuted",
    "C112_headers",
    "C112_local_attributes",
    "C112_signature",
    "C112_recipients_refuted",
    "C112_mac0",
    "C112_enc_partial",
    "C112_mac_partial",
    "C112_content_key_refuted",
    "C112_key_pair_refuted",
    "C112_second_attempt_refuted"
   ],
   "note": "REFUTED: for every key, the entries of an update before the refused one stay; for every private EC2 key with x and no y, deleting a coordinate raises KeyError and x is gone; every refused list of key operations whose first one is supported is stored; recipients before a refused one are appended; a failed encode leaves its content key in the first key-wrap recipient, and with an ephemeral key already in the headers it leaves a generated private key in the recipient, so that the second attempt sends a message its recipient cannot read. PROVED: these are the only exceptions for reachable keys; header, local attribute and signature setters are atomic; COSE_Mac0, and COSE_Encrypt and COSE_Mac with prepared recipients, behave after any encode as if it had not happened."
  },
  {
   "property": "C113",
   "status": "partial",
   "theorems": [
    "C113_key_partial",
    "C113_headers_partial",
    "C113_clash_refuted"
   ],
   "note": "REFUTED: for every key with a private label that is the Python name of another of its parameters (\"KpKid\"), the text has fewer entries than the key. Proved for all other keys and header maps: the lines are exactly the parameters, in order, with names and values. The base IV and partial IV are never abbreviated although the code means to: it looks for names that no parameter has."
  },
  {
   "property": "C114",
   "status": "partial",
   "theorems": [
    "C114_assigned",
    "C114_shape",
    "C114_assignable",
    "C114_separate",
    "C114_elsewhere",
    "C114_constructed_partial",
    "C114_nested_refuted",
    "C114_update_partial",
    "C114_update_nested_refuted"
   ],
   "note": "REFUTED: only assignment to phdr and uhdr copies deeply. The constructor, the update methods and local_attrs put the very lists, dicts and keys of the caller's dict into the message (all headers except the algorithm and the two parsed keys), so for every such header a later change of the object is a change of the header. Proved: assigned headers keep their value under all later histories; the outer dicts are never shared between messages or with the program's dicts; updates merge entry by entry, and so does assigning local_attrs, which drops no earlier entry."
  },
  {
   "property": "C115",
   "status": "partial",
   "theorems": [
    "C115_from_dict",
    "C115_from_dict_type_partial",
    "C115_other_type_refused",
    "C115_dispatch",
    "C115_generate",
    "C115_decode_partial",
    "C115_pem_partial",
    "C115_decode_refuted",
    "C115_decode_other_refuted",
    "C115_pem_other_refuted",
    "C115_two_types_refuted"
   ],
   "note": "REFUTED: decode and the PEM methods ignore the class they are called on (EC2Key.decode returns symmetric, OKP and RSA keys), for every key that can be sent. A map with two key types is accepted by the class that the last one names. Proved: from_dict and generate_key on a key class; dispatch of CoseKey.from_dict on the type in the map; the key type of every result agrees with its class."
  },
  {
   "property": "C116",
   "status": "partial",
   "theorems": [
    "C116_tag",
    "C116_other_tags",
    "C116_expected",
    "C116_wrong_kind",
    "C116_key_type_partial",
    "C116_other_key_types",
    "C116_import_key_partial",
    "C116_import_replaced",
    "C116_recipient_partial",
    "C116_other_recipients",
    "C116_import_tags",
    "C116_import_keys",
    "C116_import_recipients",
    "C116_import_mixing",
    "C116_type_class_refuted",
    "C116_import_refuted",
    "C116_algorithm_replaced_refuted",
    "C116_half_registered_refuted",
    "C116_mixing_refuted"
   ],
   "note": "REFUTED: a key class registered for a program's own class of a library key type is not used for maps that name the library's class; a class for a new key type is never used to import a key that a library class supports; re-registering a recipient algorithm leaves it without a recipient class (KeyError); record_rc with a list that holds a non-class raises TypeError after registering the algorithms before it; a class derived from DirectEncryption or DirectKeyAgreement is not subject to the mixing rules. Proved: everything on tags, the lookups by identifier, name and class until replaced, no effect on others, refusal of wrong classes, agreement with the tables of the other properties after the import."
  },
  {
   "property": "C117",
   "status": "partial",
   "theorems": [
    "C117_by_position",
    "C117_twice",
    "C117_taken",
    "C117_meaning",
    "C117_order",
    "C117_misspelt_refuted",
    "C117_too_many_refuted",
    "C117_too_many_partial",
    "C117_fields",
    "C117_accepts",
    "C117_members",
    "C117_objects"
   ],
   "note": "REFUTED: a keyword argument with any name the class does not know is ignored, so a misspelt external_aad silently gives a message that is not bound to the external data; one positional byte string too many is ignored by six of the eight classes. Proved: position and name are interchangeable, the order of names does not matter, duplicates and the names a class sets itself are refused, fields and members are those passed, and the objects are those of the models used by all other properties."
  },
  {
   "property": "C118",
   "status": "proved",
   "theorems": [
    "C118_payload",
    "C118_external_data",
    "C118_key",
    "C118_algorithm_as_text",
    "C118_local",
    "C118_headers",
    "C118_only_the_last_counts",
    "C118_refused"
   ],
   "note": ""
  },
  {
   "property": "C119",
   "status": "proved",
   "theorems": [
    "C119_sign1",
    "C119_signer",
    "C119_mac0",
    "C119_mac",
    "C119_enc0",
    "C119_enc",
    "C119_received_sign1",
    "C119_received_mac0",
    "C119_received_enc0",
    "C119_protected_sign1",
    "C119_protected_signer",
    "C119_protected_mac0",
    "C119_protected_enc0"
   ],
   "note": ""
  },
  {
   "property": "C120",
   "status": "partial",
   "theorems": [
    "C120_numbers_partial",
    "C120_direct_numbers_partial",
    "C120_ivs_partial",
    "C120_encoded_again_refuted",
    "C120_both_refuted",
    "C120_random_keys",
    "C120_wrapped_again_refuted"
   ],
   "note": "REFUTED: encoding an object again with another payload always uses the same key and nonce (C120_encoded_again_refuted), and a partial IV beside an IV is accepted and ignored, against RFC 8152 section 3.1 (C120_both_refuted). The same with key wrap recipients: the content key is kept, so a sent message that is given another payload is encrypted with the same key and nonce (C120_wrapped_again_refuted). Holds: numbered messages and messages with different IVs have pairwise different nonces; messages whose content keys the library makes have pairwise different keys, so that one IV may serve for all of them."
  },
  {
   "property": "C121",
   "status": "proved",
   "theorems": [
    "C121_signer",
    "C121_appended",
    "C121_recipient",
    "C121_received",
    "C121_mac",
    "C121_mixed"
   ],
   "note": "The decoded recipients are assumed not to be dropped (e_rcpts non-empty): C49 shows when they are."
  },
  {
   "property": "C122",
   "status": "proved",
   "theorems": [
    "C122_verify",
    "C122_verify_signer",
    "C122_sign",
    "C122_sign_signer",
    "C122_mac0",
    "C122_mac",
    "C122_enc0",
    "C122_recipient",
    "C122_sent",
    "C122_peer",
    "C122_published",
    "C122_unused",
    "C122_kid"
   ],
   "note": "What is allowed (alg, key_ops, class) is C31; that the curve of an EC2 key has no say in ECDSA is C54."
  },
  {
   "property": "C123",
   "status": "proved",
   "theorems": [
    "C123_received",
    "C123_received_key",
    "C123_sent",
    "C123_prefix"
   ],
   "note": "The error is cbor2's CBORDecodeEOF, which decode() does not turn into its own ValueError in the modelled cbor2."
  },
  {
   "property": "C124",
   "status": "partial",
   "theorems": [
    "C124_determined",
    "C124_value_partial",
    "C124_length_refuted",
    "C124_foreign_refuted",
    "C124_lone_refuted",
    "C124_ascii_partial"
   ],
   "note": "REFUTED: a text whose length leaves 1 modulo 4 gives None without an exception (C124_length_refuted); characters outside the alphabet and lone padding characters are skipped (C124_foreign_refuted, C124_lone_refuted). Holds: every text of digits is decoded to the bytes it stands for, which are unique, and characters outside ASCII are refused unless the length leaves 1 modulo 4."
  },
  {
   "property": "C125",
   "status": "proved",
   "theorems": [
    "C125_mac0_size",
    "C125_enc0_size",
    "C125_sign1_size",
    "C125_mac0",
    "C125_enc0",
    "C125_sign1",
    "C125_sign",
    "C125_encrypt",
    "C125_mac"
   ],
   "note": "The laws assumed of the primitives: hash and block lengths, a ciphertext is the plaintext's length and the tag's, a signature's length depends on the curve or the modulus, key wrap adds eight bytes, the length of an OAEP ciphertext depends on the modulus and the plaintext's length."
  },
  {
   "property": "C126",
   "status": "partial",
   "theorems": [
    "C126_reflexive_partial",
    "C126_symmetric_partial",
    "C126_transitive_partial",
    "C126_values_partial",
    "C126_encodes_refuted",
    "C126_encodes_partial",
    "C126_same_bytes_partial"
   ],
   "note": "REFUTED: the protected headers compare as a dict, whatever their order, but are encoded in their order, so that two parties with equal contexts derive different keys. Proved: the equivalence, that equal contexts of simple values with headers in the same order are encoded alike, and that with equal headers the encoding determines the context up to ==."
  },
  {
   "property": "C127",
   "status": "proved",
   "theorems": [
    "C127_not_both",
    "C127_keys",
    "C127_messages",
    "C127_untagged",
    "C127_structures",
    "C127_contexts"
   ],
   "note": "Appended bytes matter because cbor2.loads ignores them. A protected header may have the bytes of an encoded key; that is not claimed otherwise."
  },
  {
   "property": "C128",
   "status": "proved",
   "theorems": [
    "C128_encrypt",
    "C128_encrypt_tag",
    "C128_mac",
    "C128_mac0",
    "C128_sign1",
    "C128_sign",
    "C128_randomised"
   ],
   "note": "COSE_Encrypt0 draws no random numbers and stores nothing: its encode is a function of the object in the model. C128_randomised shows with concrete primitives that both exceptions are needed. Hypotheses on the primitives: os.urandom gives as many bytes as asked for, RSASSA-PKCS1-v1_5 is deterministic. That AES key wrap, ECDSA (sign_deterministic), EdDSA and HKDF draw no random numbers is in the types of the primitives."
  },
  {
   "property": "C129",
   "status": "proved",
   "theorems": [
    "C129_ephemeral",
    "C129_content",
    "C129_used"
   ],
   "note": "The position in the random source is explicit in the model (every call takes the position and returns the next one); the hypotheses say that the source does not repeat itself between the first and the last position. A message encoded again keeps its content key and its ephemeral keys (C57, C128), even if its payload has been changed in between."
  },
  {
   "property": "C130",
   "status": "proved",
   "theorems": [
    "C130_enc0",
    "C130_encrypt",
    "C130_mac0",
    "C130_mac",
    "C130_sign1",
    "C130_sign"
   ],
   "note": "The laws of SpecHide.v are idealisations in place of computational secrecy and contradict decryption; they are hypotheses of the theorems and satisfied by an instance of the primitives. Whether encode() raises is not part of the claim, and neither is timing. Key agreement recipients have their own keys set: a generated ephemeral key is put into the header."
  },
  {
   "property": "C131",
   "status": "proved",
   "theorems": [
    "C131_value",
    "C131_message",
    "C131_key"
   ],
   "note": "The size of keys is bounded separately (C131_key, by the length of the bytes plus 144); a key in a header of a message counts as one object, and so does an integer of any size. What the decoder allocates on the way and drops again is not counted, nor is its running time. Values of special CBOR tags count as the tag and its content."
  },
  {
   "property": "C132",
   "status": "proved",
   "theorems": [
    "C132_decode",
    "C132_accepted",
    "C132_exactly",
    "C132_constructor",
    "C132_keys",
    "C132_strict_receiver",
    "C132_sign1_trip",
    "C132_sign_trip",
    "C132_enc0_trip",
    "C132_mac0_trip",
    "C132_recipients",
    "C132_mac_trip",
    "C132_enc_trip"
   ],
   "note": "The exact characterisation of decode asks that the recipients were read: an unreadable recipients array is ignored by both modes, unless the strict mode meets an unknown parameter in it first (C132_unread_example). Keys inside headers are built in the permissive mode in both cases, and nested recipients are never decoded. The digit limit of recent Python versions for printed integers is not modelled (DESIGN.md)."
  }
 ]
}