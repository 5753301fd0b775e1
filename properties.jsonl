{"id": "C01", "title": "CBOR encoding of COSE data decodes to the same data", "statement": "Whenever the library serialises a data value (ints of any size, byte strings, text, booleans, null, floats, arrays, maps, tags, nested arbitrarily), loading the produced bytes gives the same value back and leaves exactly the bytes that followed it.", "quantifier": "every representable data value of any depth and size, every byte string that follows it", "why_tests_cant": "The value space is infinite and recursive; head-length boundaries (23/24, 255/256, 65535/65536, 2^32, 2^64) and nesting interact.", "anchors": ["pycose/messages/cosemessage.py:CoseMessage.encode", "pycose/messages/cosemessage.py:CoseMessage.decode", "cbor2.dumps", "cbor2.loads"]}
{"id": "C02", "title": "Serialisation is unambiguous and prefix-free", "statement": "Two different data values never serialise to the same bytes, and the serialisation of one is never a proper prefix of the serialisation of another.", "quantifier": "every pair of representable data values", "why_tests_cant": "Needs a statement about all pairs of encodings.", "anchors": ["pycose/messages/cosemessage.py:CoseMessage.encode", "cbor2.dumps"]}
{"id": "C03", "title": "COSE_Sign1 to-be-signed bytes determine what was signed", "statement": "If two Sign1 messages produce the same to-be-signed bytes then their effective protected-header bytes, external_aad and payload (attached or detached) are equal; so no bytes can be moved between the three fields without changing what is signed.", "quantifier": "every pair of Sign1 messages and detached payloads", "why_tests_cant": "Collision-freedom over all inputs, including adversarially chosen boundaries between fields.", "anchors": ["pycose/messages/sign1message.py:Sign1Message._create_sig_structure", "pycose/messages/cosemessage.py:CoseMessage._base_structure"]}
{"id": "C04", "title": "COSE_Sign signer to-be-signed bytes determine what was signed", "statement": "If two signers (in possibly different COSE_Sign messages) produce the same to-be-signed bytes then the body protected bytes, the signer protected bytes, the signer external_aad and the payload are all equal.", "quantifier": "every pair of COSE_Sign messages, signers and detached payloads", "why_tests_cant": "Collision-freedom over all inputs; the structure has a varying number of elements.", "anchors": ["pycose/messages/signer.py:CoseSignature._create_sig_structure"]}
{"id": "C05", "title": "Encryption AAD determines headers and external data", "statement": "If two encrypted messages of the same kind use equal additional authenticated data then their effective protected-header bytes and external_aad are equal.", "quantifier": "every pair of Enc0/Enc messages", "why_tests_cant": "Collision-freedom over all inputs.", "anchors": ["pycose/messages/enccommon.py:EncCommon._enc_structure"]}
{"id": "C06", "title": "MAC input determines headers, external data and payload", "statement": "If two MACed messages feed equal bytes to the MAC then they are of the same kind and their effective protected-header bytes, external_aad and payload are equal.", "quantifier": "every pair of Mac0/Mac messages", "why_tests_cant": "Collision-freedom over all inputs.", "anchors": ["pycose/messages/maccommon.py:MacCommon._mac_structure"]}
{"id": "C07", "title": "Signatures, MACs and AEAD tags cannot be replayed across message types", "statement": "The authenticated bytes of two messages of different kinds (Sign1, Sign, Enc0, Enc, Mac0, Mac) are never equal, whatever their headers, AAD and payload.", "quantifier": "every pair of messages of two different kinds", "why_tests_cant": "Domain separation is a statement about all pairs of messages of all six kinds.", "anchors": ["pycose/messages/sign1message.py:Sign1Message.context", "pycose/messages/signmessage.py:SignMessage.context", "pycose/messages/enc0message.py:Enc0Message.context", "pycose/messages/encmessage.py:EncMessage.context", "pycose/messages/mac0message.py:Mac0Message.context", "pycose/messages/macmessage.py:MacMessage.context"]}
{"id": "C08", "title": "Zero padding in AES-CBC-MAC never conflates two MAC inputs", "statement": "AES-MAC pads its input with the least number of zero bytes to a multiple of 16, and two different COSE MAC inputs remain different after padding.", "quantifier": "every pair of Mac0/Mac messages, every input length", "why_tests_cant": "Zero padding is not injective in general; safety depends on the structure of the MAC input.", "anchors": ["pycose/algorithms.py:_AesMac.compute_tag", "pycose/messages/maccommon.py:MacCommon._mac_structure"]}
{"id": "C09", "title": "MAC tags have exactly the advertised length and are prefixes of the full MAC", "statement": "For each HMAC/AES-MAC algorithm the tag produced has exactly the length in the algorithm's definition and is the leading part of the underlying full-length MAC (HMAC output, or last CBC block).", "quantifier": "every MAC algorithm, key and message", "why_tests_cant": "Slicing with negative indices must be right for every length of data.", "anchors": ["pycose/algorithms.py:_AesMac.compute_tag", "pycose/algorithms.py:_HMAC.compute_tag"]}
{"id": "C10", "title": "Sign1: encode, decode, verify succeeds", "statement": "If a Sign1 message built from any legal headers (integer and text labels in any spelling, values of the registered type, plain CBOR data elsewhere), payload, AAD and key is encoded successfully, then decoding the bytes succeeds, yields the same headers, payload and a signature, and verify_signature under the matching key and same external_aad returns True.", "quantifier": "every legal header map, payload, AAD, signing algorithm and key for which the signature primitive is correct", "why_tests_cant": "End-to-end correctness over all header maps and payloads.", "anchors": ["pycose/messages/sign1message.py:Sign1Message.encode", "pycose/messages/cosemessage.py:CoseMessage.decode", "pycose/messages/signcommon.py:SignCommon.verify_signature"]}
{"id": "C11", "title": "Detached and attached payloads are interchangeable for Sign1 signatures", "statement": "Signing with a detached payload produces the same signature input as signing with the payload attached; supplying both or neither is rejected with CoseException before any signature is computed or checked.", "quantifier": "every message, payload and detached-payload argument", "why_tests_cant": "Needs all combinations of presence for arbitrary content.", "anchors": ["pycose/messages/sign1message.py:Sign1Message._create_sig_structure", "pycose/messages/signer.py:CoseSignature._create_sig_structure"]}
{"id": "C12", "title": "COSE_Sign: every signer verifies after encode and decode", "statement": "If a COSE_Sign message with any number of signers is encoded successfully, then decoding it yields the same number of signers in order with the same headers and each one's verify_signature returns True under its key.", "quantifier": "every message, every non-empty list of signers", "why_tests_cant": "Unbounded number of signers and arbitrary headers.", "anchors": ["pycose/messages/signmessage.py:_SignMessage.encode", "pycose/messages/signmessage.py:_SignMessage.from_cose_obj", "pycose/messages/signer.py:CoseSignature"]}
{"id": "C13", "title": "Enc0: decrypting a decoded message returns the plaintext", "statement": "If an Enc0 message is encoded successfully, then decoding the bytes and decrypting with the same key and external_aad returns exactly the original payload.", "quantifier": "every legal header map, payload, AAD, AEAD algorithm and key for which the AEAD primitive is correct", "why_tests_cant": "End-to-end correctness over all inputs.", "anchors": ["pycose/messages/enc0message.py:Enc0Message.encode", "pycose/messages/enccommon.py:EncCommon.decrypt"]}
{"id": "C14", "title": "Mac0: a decoded message verifies", "statement": "If a Mac0 message is encoded successfully, then decoding the bytes and verifying with the same key and external_aad returns True, and the decoded payload equals the original.", "quantifier": "every legal header map, payload, AAD, MAC algorithm and key", "why_tests_cant": "End-to-end correctness over all inputs.", "anchors": ["pycose/messages/mac0message.py:Mac0Message.encode", "pycose/messages/maccommon.py:MacCommon.verify_tag"]}
{"id": "C15", "title": "Mac: a decoded message with direct recipients verifies", "statement": "If a COSE_Mac message whose recipients use direct encryption is encoded successfully, then decoding and verifying with the same key and external_aad returns True and the recipients survive the trip.", "quantifier": "every header map, payload, AAD, MAC algorithm, key and list of direct recipients", "why_tests_cant": "End-to-end correctness over unbounded recipient lists.", "anchors": ["pycose/messages/macmessage.py:MacMessage.encode", "pycose/messages/macmessage.py:MacMessage.from_cose_obj"]}
{"id": "C16", "title": "Enc with direct encryption: decrypting a decoded message returns the plaintext", "statement": "If a COSE_Encrypt message with direct-encryption recipients is encoded successfully, then decoding and decrypting for any of its recipients with the same key returns the payload.", "quantifier": "every header map, payload, AAD, key and list of direct recipients", "why_tests_cant": "End-to-end correctness over unbounded recipient lists.", "anchors": ["pycose/messages/encmessage.py:EncMessage", "pycose/messages/recipient.py:DirectEncryption"]}
{"id": "C17", "title": "Enc with key wrap: every recipient can recover the plaintext", "statement": "If a COSE_Encrypt message with any number of AES key-wrap recipients is encoded successfully, then after decoding, every recipient holding its key-encryption key decrypts the message to the original payload.", "quantifier": "every list of key-wrap recipients with arbitrary initial payloads", "why_tests_cant": "Depends on the order and history of CEK distribution through an arbitrary list of recipients.", "anchors": ["pycose/messages/encmessage.py:EncMessage.encrypt", "pycose/messages/recipient.py:KeyWrap"]}
{"id": "C18", "title": "Enc with direct key agreement: decoded message decrypts with the peer key", "statement": "If a COSE_Encrypt message with an ECDH direct-key-agreement recipient is encoded successfully then the holder of the recipient private key decrypts the decoded message to the original payload.", "quantifier": "every header map, payload, AAD, curve and key pair", "why_tests_cant": "End-to-end correctness through KDF context construction on both sides.", "anchors": ["pycose/messages/recipient.py:DirectKeyAgreement", "pycose/messages/recipient.py:CoseRecipient.get_kdf_context", "pycose/algorithms.py:_EcdhHkdf.derive_kek"]}
{"id": "C19", "title": "Enc with key agreement + key wrap: decoded message decrypts with the peer key", "statement": "If a COSE_Encrypt message whose recipients use ECDH with key wrap is encoded successfully then the holder of a recipient private key decrypts the decoded message to the original payload, including when the ephemeral key was generated by the library.", "quantifier": "every header map, payload, AAD, curve, key pair and list of such recipients", "why_tests_cant": "End-to-end correctness with generated keys inserted into headers during encoding.", "anchors": ["pycose/messages/recipient.py:KeyAgreementWithKeyWrap"]}
{"id": "C20", "title": "Received protected headers are authenticated as received", "statement": "For a decoded message the bytes authenticated are the protected-header bytes exactly as received (not a re-encoding; an empty map counts as the empty string, as RFC 8152 prescribes), and re-encoding the untouched message emits the same protected-header bytes.", "quantifier": "every received byte string that decodes to a message, with any legal or non-canonical header encoding", "why_tests_cant": "Non-canonical encodings are infinitely many.", "anchors": ["pycose/messages/cosebase.py:CoseBase.__init__", "pycose/messages/cosebase.py:CoseBase.phdr_encoded", "pycose/messages/cosemessage.py:CoseMessage._base_structure"]}
{"id": "C21", "title": "Protected-header bytes follow the header map through any history of updates", "statement": "After any sequence of header operations on a message (assigning phdr, phdr_update, in-place item assignment on msg.phdr), the encoded protected header is the encoding of the current header map.", "quantifier": "every message and every finite sequence of header operations", "why_tests_cant": "History property: depends on interleaving of cached bytes and mutations.", "anchors": ["pycose/messages/cosebase.py:CoseBase.phdr", "pycose/messages/cosebase.py:CoseBase.phdr_update", "pycose/messages/cosebase.py:CoseBase.phdr_encoded"]}
{"id": "C22", "title": "decode dispatches on the CBOR tag and respects the expected class", "statement": "decode on CoseMessage returns a message whose class is the one registered for the outer tag (16,17,18,96,97,98) and raises for every other tag or untagged/non-array input; decode on a message class returns only messages of that class, refuses those of other classes with TypeError, and otherwise gives what decode on CoseMessage gives.", "quantifier": "every byte string and every message class", "why_tests_cant": "All byte strings.", "anchors": ["pycose/messages/cosemessage.py:CoseMessage.decode", "pycose/messages/cosemessage.py:CoseMessage.record_cbor_tag"]}
{"id": "C23", "title": "decode consumes the whole input", "statement": "decode accepts a byte string only if all of it is one COSE message; bytes following the message are rejected.", "quantifier": "every byte string", "why_tests_cant": "All byte strings with all suffixes.", "anchors": ["pycose/messages/cosemessage.py:CoseMessage.decode", "cbor2.loads"]}
{"id": "C24", "title": "Attribute lookup by id, by name and by class agree", "statement": "For each attribute family, looking up a registered attribute by integer id, by full name in any letter case, or by its class gives the same class; anything else is rejected, or returned unchanged when unknown attributes are allowed.", "quantifier": "every attribute family and every argument value, any letter case", "why_tests_cant": "All strings in all letter cases and all integers.", "anchors": ["pycose/utils.py:_CoseAttribute.from_id", "pycose/utils.py:_CoseAttribute.register_attribute"]}
{"id": "C25", "title": "Registered identifiers match the IANA COSE registries", "statement": "Each algorithm, header, key type, key operation, key parameter and curve is registered under its IANA integer id, ids and names are unique within a family, and MAC/AEAD tag lengths and key lengths are the registered ones.", "quantifier": "every registered attribute", "why_tests_cant": "Uniqueness and agreement are statements over the whole table.", "anchors": ["pycose/algorithms.py", "pycose/headers.py", "pycose/keys/keyparam.py", "pycose/keys/keytype.py", "pycose/keys/keyops.py", "pycose/keys/curves.py"]}
{"id": "C26", "title": "Header maps are normalised on construction", "statement": "After constructing or decoding a message, every header key that denotes a registered header (by id, name in any case, or class) is stored as that header's class, so get_attr finds it whatever spelling was used, and the value is the last one given.", "quantifier": "every header map given to a constructor or received", "why_tests_cant": "All maps with any mixture of spellings and duplicates.", "anchors": ["pycose/messages/cosebase.py:CoseBase._parse_header", "pycose/messages/cosebase.py:CoseBase.get_attr"]}
{"id": "C27", "title": "Typed header values are validated", "statement": "A message can only be constructed or decoded if kid, IV, Partial IV, counter signature 0 and kid context are byte strings, crit is an array, content type is an unsigned integer or text, and alg is a known algorithm.", "quantifier": "every header map given to a constructor or received", "why_tests_cant": "All values of all types.", "anchors": ["pycose/headers.py", "pycose/messages/cosebase.py:CoseBase._parse_header"]}
{"id": "C28", "title": "Unknown header parameters are kept or rejected as requested", "statement": "With allow_unknown_attributes=False any header map containing an unregistered parameter is rejected; otherwise unknown parameters are kept unchanged and survive encode/decode.", "quantifier": "every header map", "why_tests_cant": "All unregistered keys.", "anchors": ["pycose/messages/cosebase.py:CoseBase._parse_header", "pycose/utils.py:_CoseAttribute.from_id"]}
{"id": "C29", "title": "get_attr returns the parameter from either bucket, and the default otherwise", "statement": "get_attr(a, default) returns the value of a if it is present in exactly one of the two buckets, raises CoseException if it is in both, and returns default if it is in neither.", "quantifier": "every message, attribute and default value", "why_tests_cant": "All maps and defaults.", "anchors": ["pycose/messages/cosebase.py:CoseBase.get_attr"]}
{"id": "C30", "title": "Algorithm names on the wire decode to the same algorithm", "statement": "With alg_tstr_encoding set, algorithms are emitted as text and a receiver recovers the same algorithm class; without it the integer id is emitted; either way the message decodes to the same headers.", "quantifier": "every algorithm and header map", "why_tests_cant": "All algorithms and maps.", "anchors": ["pycose/messages/cosebase.py:CoseBase._custom_cbor_encoder"]}
{"id": "C31", "title": "Key authorisation is exactly type, algorithm and operation match", "statement": "A key is accepted for an operation iff it has the required type, its alg (if set) equals the message's algorithm, and its key_ops (if non-empty) contains one of the required operations.", "quantifier": "every key, required type, algorithm and operation list", "why_tests_cant": "All keys and operation lists.", "anchors": ["pycose/keys/cosekey.py:CoseKey.verify"]}
{"id": "C32", "title": "No cryptographic operation runs with an unauthorised key", "statement": "Signing, verifying, MACing, MAC verification, encryption and decryption raise, without producing output, when the key is missing, of the wrong type, bound to another algorithm or lacks the operation.", "quantifier": "every message, key and operation", "why_tests_cant": "All message/key combinations.", "anchors": ["pycose/messages/signcommon.py:SignCommon._key_verification", "pycose/messages/enccommon.py:EncCommon", "pycose/messages/maccommon.py:MacCommon"]}
{"id": "C33", "title": "Symmetric keys always hold 16, 24 or 32 bytes", "statement": "Whatever sequence of constructor, property assignments, item assignments and deletions is applied, a SymmetricKey that exists holds a k of 16, 24 or 32 bytes.", "quantifier": "every constructor argument and every finite sequence of operations on the key", "why_tests_cant": "History property over mutations.", "anchors": ["pycose/keys/symmetric.py:SymmetricKey"]}
{"id": "C34", "title": "EC2 keys stay valid under deletions", "statement": "Whatever sequence of property assignments and deletions is applied to an EC2 key, it keeps its key type and curve and keeps at least one of the public x coordinate and the private key.", "quantifier": "every EC2 key and finite sequence of operations", "why_tests_cant": "History property over mutations.", "anchors": ["pycose/keys/ec2.py:EC2Key.__delitem__"]}
{"id": "C35", "title": "OKP keys stay valid under deletions", "statement": "Whatever sequence of property assignments and deletions is applied to an OKP key, it keeps its key type and curve and keeps at least one of x and d.", "quantifier": "every OKP key and finite sequence of operations", "why_tests_cant": "History property over mutations.", "anchors": ["pycose/keys/okp.py:OKPKey.__delitem__"]}
{"id": "C36", "title": "A rejected key_ops assignment leaves the key unchanged", "statement": "Assigning key_ops succeeds iff every operation is supported by the key type, in which case exactly the given operations are stored; otherwise it raises and the key is unchanged. Assigning an empty list clears the operations.", "quantifier": "every key and operation list", "why_tests_cant": "All lists; partial effects on failure.", "anchors": ["pycose/keys/symmetric.py:SymmetricKey.key_ops", "pycose/keys/ec2.py:EC2Key.key_ops", "pycose/keys/okp.py:OKPKey.key_ops", "pycose/keys/rsa.py:RSAKey.key_ops", "pycose/keys/cosekey.py:CoseKey.key_ops"]}
{"id": "C37", "title": "COSE_Key encode then decode gives an equal key", "statement": "For every key built by the constructors, CoseKey.decode(key.encode()) succeeds and gives a key of the same type with the same parameters.", "quantifier": "every symmetric, OKP, EC2 and RSA key with any optional parameters", "why_tests_cant": "All parameter maps.", "anchors": ["pycose/keys/cosekey.py:CoseKey.encode", "pycose/keys/cosekey.py:CoseKey.decode"]}
{"id": "C38", "title": "RSA keys are exactly one of the three RFC 8230 forms", "statement": "An RSAKey can be constructed iff its components are those of a public key (n,e), a two-prime private key, or a multi-prime private key; other subsets are rejected.", "quantifier": "every subset of components", "why_tests_cant": "All combinations of presence of twelve parameters with arbitrary contents.", "anchors": ["pycose/keys/rsa.py:RSAKey.__init__"]}
{"id": "C39", "title": "from_dict accepts any spelling of key parameters with the same result", "statement": "Building a key from a dictionary gives the same key whether each parameter is named by class, integer id or full name; when several spellings of a parameter are present the class wins over the id and the id over the name.", "quantifier": "every parameter dictionary and choice of spelling", "why_tests_cant": "All dictionaries and spellings.", "anchors": ["pycose/keys/cosekey.py:CoseKey._extract_from_dict", "pycose/keys/cosekey.py:CoseKey.from_dict"]}
{"id": "C40", "title": "Nonce selection: IV header, else base IV combined with partial IV", "statement": "The nonce used is the IV header if present, otherwise the key's base IV XORed with the (left-zero-padded) partial IV, with the length of the base IV; if neither is available the operation raises CoseException.", "quantifier": "every message, key, IV, partial IV and base IV", "why_tests_cant": "All byte strings, including those whose XOR has leading zero bytes.", "anchors": ["pycose/messages/enccommon.py:EncCommon._get_nonce"]}
{"id": "C41", "title": "base64 helpers are mutually inverse", "statement": "base64decode(base64encode(b)) == b for all bytes, also after converting to the URL-safe alphabet and stripping padding.", "quantifier": "every byte string", "why_tests_cant": "All byte strings of all residues mod 3.", "anchors": ["pycose/keys/cosekey.py:CoseKey.base64decode", "pycose/keys/cosekey.py:CoseKey.base64encode"]}
{"id": "C42", "title": "Integers imported into keys keep their value in minimal or curve-size form", "statement": "RSA integers imported from a cryptography key are stored as minimal-length big-endian bytes that read back to the same integer; EC coordinates are stored in exactly the curve's size and read back to the same integers.", "quantifier": "every RSA/EC key", "why_tests_cant": "All integers.", "anchors": ["pycose/keys/rsa.py:to_bstr", "pycose/keys/rsa.py:RSAKey._from_cryptography_key", "pycose/keys/ec2.py:EC2Key._from_cryptography_key"]}
{"id": "C43", "title": "EC2 public and private parts are consistent", "statement": "Every EC2Key built by its constructor from the main arguments has x (and y) of the curve's point for d when d is given, and a y matching x otherwise; mismatching values are rejected.", "quantifier": "every constructor argument", "why_tests_cant": "All coordinates.", "anchors": ["pycose/keys/ec2.py:EC2Key.__init__"]}
{"id": "C44", "title": "X.509 thumbprints round-trip and match exactly the hashed certificate", "statement": "X5T.decode(x.encode()) equals x, from_certificate(...).matches(c) is True for the same certificate, and matches(c) is True only if the hash of c equals the stored non-empty thumbprint; two X5T values are equal exactly when both the algorithm and the thumbprint are.", "quantifier": "every algorithm, thumbprint and certificate", "why_tests_cant": "All byte strings.", "anchors": ["pycose/extensions/x509.py:X5T"]}
{"id": "C45", "title": "Assigning recipients replaces the recipient list", "statement": "After msg.recipients = rs the recipients are exactly rs (rejected without effect if some element is not a recipient).", "quantifier": "every message and list, after any history of assignments", "why_tests_cant": "History property.", "anchors": ["pycose/messages/encmessage.py:EncMessage.recipients", "pycose/messages/recipient.py:CoseRecipient.recipients"]}
{"id": "C46", "title": "Nested recipients survive decoding", "statement": "Decoding a message whose recipients carry nested recipients yields recipient objects with those nested recipients.", "quantifier": "every message with layered recipients", "why_tests_cant": "Trees of any depth.", "anchors": ["pycose/messages/recipient.py:KeyWrap.from_cose_obj", "pycose/messages/recipient.py:CoseRecipient.create_recipient"]}
{"id": "C47", "title": "has_recipient finds exactly the recipients in the tree", "statement": "has_recipient(t, rs) is True iff t is one of the recipient objects in the forest rs at any depth.", "quantifier": "every recipient forest and target", "why_tests_cant": "Trees of any shape.", "anchors": ["pycose/messages/recipient.py:CoseRecipient.has_recipient"]}
{"id": "C48", "title": "Recipient class mixing rules", "statement": "A list of recipients is accepted iff direct encryption is not mixed with other classes and direct key agreement is the only recipient.", "quantifier": "every list of recipients", "why_tests_cant": "Lists of any length.", "anchors": ["pycose/messages/recipient.py:CoseRecipient.verify_recipients"]}
{"id": "C49", "title": "Malformed recipients are reported", "statement": "Decoding an Enc or Mac message with a malformed recipient structure raises instead of returning a message without its recipients.", "quantifier": "every received byte string", "why_tests_cant": "All malformed recipient structures.", "anchors": ["pycose/messages/encmessage.py:EncMessage.from_cose_obj", "pycose/messages/macmessage.py:MacMessage.from_cose_obj"]}
{"id": "C50", "title": "KDF context determines all its inputs", "statement": "Two equal encoded KDF contexts come from equal algorithm ids, party identities, nonces, other fields, key length, protected header encoding and supplementary public/private information.", "quantifier": "every pair of KDF contexts", "why_tests_cant": "Collision-freedom over all inputs with optional fields.", "anchors": ["pycose/messages/context.py:CoseKDFContext.encode", "pycose/messages/context.py:SuppPubInfo.encode", "pycose/messages/context.py:PartyInfo.encode"]}
{"id": "C51", "title": "Generated ephemeral private keys are never sent", "statement": "When the library generates an ephemeral key for a recipient, the public part placed in the header (hence in the encoded message) carries no private key parameter and matches the key used.", "quantifier": "every peer key, header state and generated key", "why_tests_cant": "All generated keys and header states.", "anchors": ["pycose/messages/recipient.py:CoseRecipient._setup_ephemeral_key"]}
{"id": "C52", "title": "AES key wrap refuses keys of the wrong size", "statement": "AES-KW wrap/unwrap with a key whose length differs from the algorithm's raises and never outputs wrapped or unwrapped bytes.", "quantifier": "every AES-KW algorithm, key and data", "why_tests_cant": "All lengths.", "anchors": ["pycose/algorithms.py:_AesKw.key_wrap", "pycose/algorithms.py:_AesKw.key_unwrap"]}
{"id": "C53", "title": "Content encryption uses a key of the algorithm's size", "statement": "A128GCM/A192GCM/A256GCM/AES-CCM encrypt and decrypt only with keys of the algorithm's registered length.", "quantifier": "every AEAD algorithm and key", "why_tests_cant": "All key lengths.", "anchors": ["pycose/algorithms.py:_AesGcm.encrypt", "pycose/algorithms.py:_AesCcm.encrypt"]}
{"id": "C54", "title": "ECDSA algorithms use the curve of the key", "statement": "Signing or verifying with an EC2 key uses the curve recorded in the key.", "quantifier": "every EC2 key and ECDSA algorithm", "why_tests_cant": "All combinations.", "anchors": ["pycose/algorithms.py:_Ecdsa.sign", "pycose/algorithms.py:_Ecdsa.verify"]}
{"id": "C55", "title": "Critical headers are enforced", "statement": "A message whose crit header lists a parameter the library does not understand is not accepted by verification or decryption.", "quantifier": "every received message", "why_tests_cant": "All crit lists.", "anchors": ["pycose/headers.py:Critical", "pycose/messages/cosebase.py:CoseBase"]}
{"id": "C56", "title": "Unsigned, un-MACed and unencrypted encodings decode", "statement": "encode(sign=False), encode(mac=False) and encode(encrypt=False) output is decodable by the library to a message with the same headers and payload.", "quantifier": "every message", "why_tests_cant": "All messages.", "anchors": ["pycose/messages/sign1message.py:Sign1Message.encode", "pycose/messages/mac0message.py:Mac0Message.encode", "pycose/messages/macmessage.py:MacMessage.encode", "pycose/messages/enc0message.py:Enc0Message.encode"]}
{"id": "C57", "title": "Encoding twice uses the same content key", "statement": "Encoding a key-wrapped COSE_Encrypt message a second time uses the same content-encryption key, so all recipients still agree.", "quantifier": "every message and recipient list, any number of encodings", "why_tests_cant": "History property.", "anchors": ["pycose/messages/encmessage.py:EncMessage.encrypt"]}
{"id": "C58", "title": "COSE_Mac works with key-wrap recipients", "statement": "A COSE_Mac message with key-wrap recipients can be encoded.", "quantifier": "every COSE_Mac message with key-wrap recipients", "why_tests_cant": "All recipient lists.", "anchors": ["pycose/messages/macmessage.py:MacMessage.compute_tag"]}
{"id": "C59", "title": "Layered key wrap works without an explicit key", "statement": "A key-wrap recipient without its own key obtains it from its nested recipients.", "quantifier": "every recipient tree", "why_tests_cant": "Trees of any shape.", "anchors": ["pycose/messages/recipient.py:KeyWrap._compute_kek"]}
{"id": "C60", "title": "Library-generated ephemeral keys work with direct key agreement", "statement": "A COSE_Encrypt message with an ECDH-ES direct-key-agreement recipient without a key can be encoded; the library generates the ephemeral key.", "quantifier": "every such message", "why_tests_cant": "All messages.", "anchors": ["pycose/messages/recipient.py:DirectKeyAgreement.encode", "pycose/messages/recipient.py:DirectKeyAgreement.compute_cek", "pycose/messages/encmessage.py:EncMessage.encrypt"]}
{"id": "C61", "title": "kty and other key properties read back what was assigned", "statement": "Assigning kty, alg, kid, base_iv, crv, x, y, d, k on a key and reading the property gives the assigned parameter (normalised), and other parameters are unchanged.", "quantifier": "every key and value", "why_tests_cant": "All values.", "anchors": ["pycose/keys/cosekey.py:CoseKey.kty", "pycose/keys/cosekey.py:CoseKey.alg"]}
{"id": "C62", "title": "RSA multi-prime parameters survive serialisation", "statement": "Encoding and decoding a multi-prime RSA key preserves other, r_i, d_i and t_i.", "quantifier": "every multi-prime RSA key", "why_tests_cant": "All keys.", "anchors": ["pycose/keys/rsa.py:RSAKey.__init__", "pycose/keys/cosekey.py:CoseKey.encode"]}
{"id": "C63", "title": "Mapping interface of keys is consistent", "statement": "For every key and attribute spelling: after key[a]=v, a is in key and key[a]==v, under every spelling of a; after del key[a], a is not in key; parameters that can be set can be deleted unless mandatory.", "quantifier": "every key, attribute spelling and value", "why_tests_cant": "All spellings and histories.", "anchors": ["pycose/keys/cosekey.py:CoseKey.__getitem__", "pycose/keys/cosekey.py:CoseKey.__setitem__", "pycose/keys/symmetric.py:SymmetricKey.__delitem__"]}
{"id": "C64", "title": "Signature structures follow RFC 8152", "statement": "The to-be-signed, AAD and to-be-MACed bytes equal the RFC 8152 Sig_structure, Enc_structure and MAC_structure for the message (zero-length protected headers as empty string, signer protected field always present in COSE_Sign).", "quantifier": "every message", "why_tests_cant": "All messages including empty headers.", "anchors": ["pycose/messages/sign1message.py:Sign1Message._create_sig_structure", "pycose/messages/signer.py:CoseSignature._create_sig_structure", "pycose/messages/enccommon.py:EncCommon._enc_structure", "pycose/messages/maccommon.py:MacCommon._mac_structure"]}
{"id": "C65", "title": "KDF context follows RFC 8152", "statement": "The encoded KDF context equals the RFC 8152 COSE_KDF_Context for the recipient, with the protected field being the recipient's protected header bytes (zero-length if empty).", "quantifier": "every recipient", "why_tests_cant": "All recipients including those with empty headers or received non-canonical headers.", "anchors": ["pycose/messages/context.py:SuppPubInfo.encode", "pycose/messages/recipient.py:CoseRecipient.get_kdf_context"]}
{"id": "C66", "title": "Encoded messages follow the RFC 8152 layouts", "statement": "A successful encode emits exactly the RFC 8152 array for its kind: protected bytes as a byte string, unprotected map, payload or ciphertext (or null), then signature, tag, signers or (nested) recipients, under the tag for the kind when tagging is on, with every length in shortest form.", "quantifier": "every message of the six kinds, its headers of any shape, its signers and recipients, tag flag and detached payload", "why_tests_cant": "Byte-exact layout for all contents and all lengths.", "anchors": ["pycose/messages/sign1message.py:Sign1Message.encode", "pycose/messages/enc0message.py:Enc0Message.encode", "pycose/messages/mac0message.py:Mac0Message.encode", "pycose/messages/signmessage.py:SignMessage.encode", "pycose/messages/encmessage.py:EncMessage.encode", "pycose/messages/macmessage.py:MacMessage.encode", "pycose/messages/cosemessage.py:CoseMessage.encode"]}
{"id": "C67", "title": "Algorithms and curves carry their registered parameters", "statement": "Each signature, MAC, key-transport, key-derivation and hash algorithm uses the hash function of its registration, each curve has the coordinate or public key size of its RFC, and each algorithm with a key length or a key wrap algorithm has those of its RFC, the others having none.", "quantifier": "every registered algorithm and curve", "why_tests_cant": "Agreement is a statement over the whole table; a single wrong entry only shows for that algorithm or curve.", "anchors": ["pycose/algorithms.py", "pycose/keys/curves.py"]}
{"id": "C68", "title": "A certificate chain hands the end-entity certificate and the intermediates to the validator", "statement": "For every non-empty certificate chain, X5Chain.verify_chain validates the first certificate with the remaining certificates as intermediates.", "quantifier": "every chain length and every certificate", "why_tests_cant": "All chains; the special case for one certificate is easily missed.", "anchors": ["pycose/extensions/x509.py:X5Chain"]}
{"id": "C69", "title": "Every registered hash algorithm computes a digest of its registered length", "statement": "compute_hash succeeds for every input and returns the registered number of leading bytes of the underlying hash.", "quantifier": "every hash algorithm and input", "why_tests_cant": "All byte strings and all algorithms.", "anchors": ["pycose/algorithms.py:_HashAlg.compute_hash"]}
{"id": "C70", "title": "MAC algorithm classes give full-length tags for every input", "statement": "compute_tag of every HMAC and AES-MAC class returns a tag of exactly the registered length, the leading part of the full MAC, for every input including the empty one.", "quantifier": "every MAC algorithm, key and byte string", "why_tests_cant": "All byte strings, all lengths modulo the block size.", "anchors": ["pycose/algorithms.py:_HMAC", "pycose/algorithms.py:_AesMac"]}
{"id": "C71", "title": "Received fields have the types the RFC requires", "statement": "decode only returns a message when the protected field is a byte string (empty or an encoded map), the unprotected field is a map, the payload is a byte string or nil, and the signature or tag is a byte string.", "quantifier": "every input", "why_tests_cant": "All malformed inputs; tests feed a few.", "anchors": ["pycose/messages/cosebase.py:CoseBase.from_cose_obj", "pycose/messages/sign1message.py:Sign1Message.from_cose_obj"]}
{"id": "C72", "title": "Restrictions of a key-encryption key are respected", "statement": "A key whose alg or key_ops parameter does not allow key wrapping is refused when a key-wrap recipient encrypts or decrypts with it.", "quantifier": "every key and key-wrap recipient", "why_tests_cant": "All combinations of restrictions and algorithms.", "anchors": ["pycose/messages/recipient.py:KeyWrap.encrypt", "pycose/messages/recipient.py:KeyWrap._compute_kek"]}
{"id": "C73", "title": "Ephemeral keys supplied by the caller are sent without their private part", "statement": "When the EphemeralKey header of a key-agreement recipient holds a key, only its public parameters are encoded.", "quantifier": "every recipient and key", "why_tests_cant": "All keys and header states.", "anchors": ["pycose/messages/recipient.py:KeyAgreementWithKeyWrap.encode", "pycose/messages/cosebase.py:CoseBase._custom_cbor_encoder"]}
{"id": "C74", "title": "The text of a key hides its secret", "statement": "repr() of a key shows at most the first five bytes and the length of each secret parameter, so that two keys that differ only after the fifth byte of their secret have the same text.", "quantifier": "every key of every class, with any further parameters", "why_tests_cant": "All stores, parameter orders and names that may clash; tests print a few keys.", "anchors": ["pycose/keys/symmetric.py:SymmetricKey.__repr__", "pycose/keys/ec2.py:EC2Key.__repr__", "pycose/keys/okp.py:OKPKey.__repr__", "pycose/keys/rsa.py:RSAKey.__repr__", "pycose/keys/cosekey.py:CoseKey._key_repr", "pycose/utils.py:truncate"]}
{"id": "C75", "title": "Every received message can be printed", "statement": "repr() of a message returned by decode never raises.", "quantifier": "every input that decodes", "why_tests_cant": "All inputs, including detached payloads and hostile header values.", "anchors": ["pycose/messages/cosebase.py:CoseBase._hdr_repr", "pycose/messages/sign1message.py:Sign1Message.__repr__", "pycose/messages/encmessage.py:EncMessage.__repr__", "pycose/utils.py:truncate"]}
{"id": "C76", "title": "Generated keys are usable keys of exactly the requested kind", "statement": "generate_key returns a key of the requested curve or length that holds the private value the generator made and the matching public part, that neither alg nor key_ops restrict, and that verifies its own signatures; other curves and lengths are refused.", "quantifier": "every curve under every spelling, every length, every output of the generator", "why_tests_cant": "All generator outputs (leading zero bytes, for instance) and all spellings; tests generate a few random keys.", "anchors": ["pycose/keys/symmetric.py:SymmetricKey.generate_key", "pycose/keys/ec2.py:EC2Key.generate_key", "pycose/keys/okp.py:OKPKey.generate_key", "pycose/keys/rsa.py:RSAKey.generate_key"]}
{"id": "C77", "title": "Decrypting has no lasting effect on a received message", "statement": "However often and for whichever recipients a received EncMessage was decrypted, with success or failure, its headers, ciphertext, external data and recipients are those received, and decrypting it again gives the result it would have given at first.", "quantifier": "every message, every history of decrypt calls with any recipients and outcomes", "why_tests_cant": "All histories, including failures half way; tests decrypt once.", "anchors": ["pycose/messages/encmessage.py:EncMessage.decrypt", "pycose/messages/enccommon.py:EncCommon.decrypt"]}
{"id": "C78", "title": "Encoding keeps what the user set", "statement": "encode, called any number of times with any arguments and outcomes, changes no header, payload or external data of the message; of a recipient it changes at most an empty payload (content key), a missing key (new ephemeral key) and then the EphemeralKey header, which gets the public part of that key.", "quantifier": "every message with any tree of recipients, every history of encode calls", "why_tests_cant": "All recipient trees, histories and failures half way; tests encode once and look at the bytes.", "anchors": ["pycose/messages/encmessage.py:EncMessage.encode", "pycose/messages/macmessage.py:MacMessage.encode", "pycose/messages/recipient.py:KeyWrap.encode", "pycose/messages/recipient.py:KeyAgreementWithKeyWrap.encode", "pycose/messages/recipient.py:DirectKeyAgreement.encode"]}
{"id": "C79", "title": "A message can be forwarded unchanged without its keys", "statement": "Encoding a decoded message without securing it again (sign=False, mac=False, encrypt=False) gives exactly the bytes that were decoded.", "quantifier": "every message made by encode", "why_tests_cant": "All header contents and encodings; tests do not forward messages.", "anchors": ["pycose/messages/sign1message.py:Sign1Message.encode", "pycose/messages/mac0message.py:Mac0Message.encode", "pycose/messages/enc0message.py:Enc0Message.encode", "pycose/messages/signmessage.py:SignMessage.encode"]}
{"id": "C80", "title": "decode raises only its documented exceptions", "statement": "Whatever object is passed to decode, it returns a message or raises one of the exceptions listed in its documentation (AttributeError, ValueError, KeyError, TypeError), so that a receiver can handle every malformed input.", "quantifier": "every object passed to decode, in particular every byte string", "why_tests_cant": "All byte strings; a fuzzer reaches some of the exceptions, a test a few.", "anchors": ["pycose/messages/cosemessage.py:CoseMessage.decode", "pycose/messages/cosebase.py:CoseBase.from_cose_obj", "pycose/messages/recipient.py:CoseRecipient.create_recipient", "pycose/keys/cosekey.py:CoseKey.from_dict"]}
{"id": "C81", "title": "Key agreement works wherever the sender's key is announced", "statement": "A recipient whose sender key (ephemeral or static) is among its protected headers can be used for sending, and a message with such a recipient can be decrypted by the holder of the key.", "quantifier": "every recipient with a protected sender key, every message, key and history", "why_tests_cant": "All headers, keys and messages; tests put the key into the unprotected headers.", "anchors": ["pycose/messages/recipient.py:DirectKeyAgreement.compute_cek", "pycose/messages/recipient.py:KeyAgreementWithKeyWrap.encrypt", "pycose/messages/recipient.py:DirectKeyAgreement._compute_kek"]}
{"id": "C82", "title": "COSE_Mac works with direct key agreement", "statement": "A MacMessage whose recipient uses direct key agreement can be encoded, and the holder of the recipient's key computes the same MAC key and verifies the tag, for every MAC algorithm.", "quantifier": "every payload, headers, keys, MAC algorithm and key agreement algorithm", "why_tests_cant": "All keys and algorithm combinations; tests use a few vectors.", "anchors": ["pycose/messages/macmessage.py:MacMessage.compute_tag", "pycose/messages/recipient.py:DirectKeyAgreement.compute_cek", "pycose/algorithms.py:_HMAC"]}
{"id": "C83", "title": "Local attributes never influence what is sent", "statement": "The encoding of a message without key agreement is the same whatever the local attributes of the message, of its signers and of its recipients at any depth.", "quantifier": "every message of every type, every tree of direct and key wrap recipients, all local attributes", "why_tests_cant": "All messages and attributes; a test would compare one encoding.", "anchors": ["pycose/messages/cosebase.py:CoseBase.local_attrs", "pycose/messages/cosebase.py:CoseBase.get_attr", "pycose/messages/encmessage.py:EncMessage.encode", "pycose/messages/macmessage.py:MacMessage.encode", "pycose/messages/signmessage.py:SignMessage.encode"]}
{"id": "C84", "title": "A header map naming a parameter twice is refused", "statement": "decode refuses a message whose protected or unprotected map has the same label twice (RFC 8152 section 3), so that two implementations cannot read different values.", "quantifier": "every message and label, every pair of values", "why_tests_cant": "All maps and values; tests have no repeated labels.", "anchors": ["pycose/messages/cosebase.py:CoseBase.from_cose_obj", "pycose/messages/cosebase.py:CoseBase._parse_header"]}
{"id": "C85", "title": "Message arrays have exactly the number of elements of their type", "statement": "decode refuses an array with more or fewer elements than RFC 8152 gives for the message type.", "quantifier": "every array received", "why_tests_cant": "All arrays; tests decode well-formed ones and a few short ones.", "anchors": ["pycose/messages/cosebase.py:CoseBase.from_cose_obj", "pycose/messages/encmessage.py:EncMessage.from_cose_obj", "pycose/messages/macmessage.py:MacMessage.from_cose_obj", "pycose/messages/signmessage.py:SignMessage.from_cose_obj", "pycose/messages/sign1message.py:Sign1Message.from_cose_obj"]}
{"id": "C86", "title": "KDF contexts derive keys of 16, 24 or 32 bytes only", "statement": "A SuppPubInfo object never has a key data length other than 16, 24 or 32 bytes, however it is made and changed; other lengths raise ValueError and change nothing.", "quantifier": "every length, every history of constructing and changing context objects", "why_tests_cant": "All integers and all histories; a test tries one bad length.", "anchors": ["pycose/messages/context.py:SuppPubInfo.key_data_length", "pycose/messages/context.py:SuppPubInfo.__attrs_post__init__"]}
{"id": "C87", "title": "KDF contexts do not influence each other", "statement": "Constructing or changing one CoseKDFContext (or the parts it was given) never changes what another one encodes to.", "quantifier": "every two contexts and every history of operations on context, party and public info objects", "why_tests_cant": "All histories with shared objects; tests build one context.", "anchors": ["pycose/messages/context.py:CoseKDFContext", "pycose/messages/context.py:PartyInfo", "pycose/messages/recipient.py:DirectKeyAgreement.get_kdf_context"]}
{"id": "C88", "title": "Messages do not influence each other", "statement": "What encode, compute_tag and decrypt of one EncMessage or MacMessage give, and the keys they use, does not depend on what the program does with other messages (apart from the random numbers drawn).", "quantifier": "every number of messages and recipient objects, every history of operations on all of them", "why_tests_cant": "All interleavings of operations on several messages; tests use one message at a time.", "anchors": ["pycose/messages/encmessage.py:EncMessage.encrypt", "pycose/messages/macmessage.py:MacMessage.compute_tag", "pycose/messages/recipient.py:CoseRecipient.recipients", "pycose/messages/recipient.py:KeyWrap.encrypt"]}
{"id": "C89", "title": "The signatures in a COSE_Sign message sign that message", "statement": "SignMessage.encode puts signatures over the message being encoded, with whatever signers it has, into its encoding.", "quantifier": "every number of messages, signers and lists, every history of assignments and list operations", "why_tests_cant": "All histories and all sharing of signer objects; tests give each message fresh signers.", "anchors": ["pycose/messages/signmessage.py:SignMessage.signers", "pycose/messages/signmessage.py:SignMessage.encode", "pycose/messages/signer.py:CoseSignature._create_sig_structure"]}
{"id": "C90", "title": "A message is accepted only if the primitive accepts it, and a new message only if the primitive is broken", "statement": "When verify_signature or verify_tag answers True, or decrypt returns a plaintext, the primitive registered for the algorithm header (signature scheme, truncated MAC, AEAD) accepted, under the key in use, the structure built from the message. If the kind of message, protected headers, external data and payload (of a signature or MAC) differ from those of every message authenticated before, of whatever kind, then that structure was given to the primitive for none of them: the acceptance is a forgery of the primitive.", "quantifier": "every message of the six kinds, every key, every list of messages authenticated before", "why_tests_cant": "All altered messages against all histories; tests flip some bytes of one message.", "anchors": ["pycose/messages/signcommon.py:SignCommon.verify_signature", "pycose/messages/maccommon.py:MacCommon.verify_tag", "pycose/messages/enccommon.py:EncCommon.decrypt", "pycose/messages/encmessage.py:EncMessage.decrypt", "pycose/algorithms.py"]}
{"id": "C91", "title": "A key object is a mapping", "statement": "At every moment of its life a key object behaves as the mapping it claims to be: iterating yields every parameter exactly once, len() counts them, 'in', items(), values() and get() agree with reading; del, pop, popitem and clear remove what they name and nothing else, and change nothing when they fail; setdefault and update store what a dict would store; and == holds exactly for keys with the same parameters, so that equal keys encode alike.", "quantifier": "every key of the four types, every history of assignments, deletions and mapping operations, every spelling of a parameter", "why_tests_cant": "All histories of a mutable object with spellings normalised behind the scenes; tests look at single operations on fresh keys.", "anchors": ["pycose/keys/cosekey.py:CoseKey.__iter__", "pycose/keys/cosekey.py:CoseKey.__len__", "pycose/keys/cosekey.py:CoseKey.__contains__", "pycose/keys/ec2.py:EC2Key.__delitem__", "pycose/keys/okp.py:OKPKey.__delitem__", "pycose/keys/symmetric.py:SymmetricKey.__delitem__"]}
{"id": "C92", "title": "Checking or decrypting a received message raises only COSE exceptions", "statement": "Whatever bytes were received and decoded, verify_signature, verify_tag and decrypt with a well-formed key return their answer, raise a CoseException (or a subclass), or pass on an exception of the cryptographic primitive. A service that catches these cannot be brought down by a message.", "quantifier": "all received bytes, all keys of the four types, all external data and detached payloads", "why_tests_cant": "All byte strings an attacker may send; tests use well-formed messages.", "anchors": ["pycose/messages/signcommon.py:SignCommon.verify_signature", "pycose/messages/maccommon.py:MacCommon.verify_tag", "pycose/messages/enccommon.py:EncCommon.decrypt", "pycose/messages/cosebase.py:CoseBase.get_attr", "pycose/keys/cosekey.py:CoseKey.verify", "pycose/algorithms.py"]}
{"id": "C93", "title": "A new key has the parameters it was given", "statement": "A key made by a constructor, imported from a key of the cryptography package or from PEM text, or generated, holds the numbers that were given, imported or generated, and every optional parameter under whatever spelling it was given (the last value when a parameter is given twice; algorithms, operations and curves as the classes they name), and no other parameter.", "quantifier": "all arguments, imported keys and generated keys of the four types, all optional parameters", "why_tests_cant": "All combinations of parameters and spellings; tests give one or two.", "anchors": ["pycose/keys/symmetric.py:SymmetricKey.__init__", "pycose/keys/okp.py:OKPKey.__init__", "pycose/keys/ec2.py:EC2Key.__init__", "pycose/keys/rsa.py:RSAKey.__init__", "pycose/keys/cosekey.py:CoseKey._from_cryptography_key", "pycose/keys/okp.py:OKPKey.generate_key", "pycose/keys/ec2.py:EC2Key.generate_key", "pycose/keys/rsa.py:RSAKey.generate_key"]}
{"id": "C94", "title": "A signer or recipient writes its algorithm the way it was told", "statement": "alg_tstr_encoding given to a signer or recipient decides whether its own algorithm is emitted as a name or as a number, in both its header maps and whatever the message does.", "quantifier": "all messages with signers or recipients, all algorithms, every combination of settings", "why_tests_cant": "All combinations of the settings of a message and of each of its parts; tests do not set it on parts.", "anchors": ["pycose/messages/cosebase.py:CoseBase._custom_cbor_encoder", "pycose/messages/signer.py:CoseSignature.encode", "pycose/messages/recipient.py:DirectEncryption.encode", "pycose/messages/recipient.py:KeyWrap.encode", "pycose/messages/signmessage.py:SignMessage.encode"]}
{"id": "C95", "title": "What is sent, and every content key, is computed as RFC 8152 prescribes", "statement": "encode and compute_tag emit the signature, truncated MAC or AEAD ciphertext that the primitive registered for the algorithm header gives, under the message's key, for the structure that stands for the message. Each recipient gets the content key wrapped with the AES key wrap or RSA-OAEP of its algorithm, or with a key derived by HKDF over the registered hash, of the registered length, from the Diffie-Hellman secret of the sender's and receiver's keys, the COSE_KDF_Context as info and the salt of the recipient's headers; a direct key agreement derives the content key itself that way. decrypt opens the message with the content key that the recipient yields by the inverse operations.", "quantifier": "all messages of the six kinds, all recipients, keys and algorithms", "why_tests_cant": "All keys, header maps and recipient lists; a test compares a few vectors, and sender and receiver agree even if both derive the wrong key.", "anchors": ["pycose/messages/signcommon.py:SignCommon.compute_signature", "pycose/messages/maccommon.py:MacCommon.compute_tag", "pycose/messages/enccommon.py:EncCommon.encrypt", "pycose/messages/encmessage.py:EncMessage.encrypt", "pycose/messages/encmessage.py:EncMessage.decrypt", "pycose/messages/recipient.py:KeyWrap.encrypt", "pycose/messages/recipient.py:DirectKeyAgreement.compute_cek", "pycose/messages/recipient.py:KeyAgreementWithKeyWrap.encrypt", "pycose/algorithms.py:_EcdhHkdf.derive_kek"]}
{"id": "C96", "title": "Every well-formed CBOR encoding of a message is understood", "statement": "CoseMessage.decode and CoseKey.decode give the same result for every well-formed encoding (RFC 8949) of the same data item: arguments in any of the five sizes, strings, arrays and maps of definite or indefinite length; text is accepted exactly when it is UTF-8, and half- and single-precision numbers become the equal Python float. What is emitted is well-formed, and nothing malformed is accepted.", "quantifier": "all data items and all their encodings, all byte strings", "why_tests_cant": "Every nesting of every form of every item; tests only decode what another encoder produced, in its preferred form.", "anchors": ["pycose/messages/cosemessage.py:CoseMessage.decode", "pycose/messages/cosemessage.py:CoseMessage.encode", "pycose/messages/cosebase.py:CoseBase.from_cose_obj", "pycose/keys/cosekey.py:CoseKey.decode"]}
{"id": "C97", "title": "Attributes registered by a program are found, and disturb nothing else", "statement": "A class registered with register_attribute() of a base class is what from_id of that base class returns for its identifier, its name in any letter case and any class with its identifier, until another class is registered under the same identifier or name; no other lookup changes. A common key parameter registered with KeyParam is known to every kind of key, and a replaced class is no longer found.", "quantifier": "all classes, base classes, and histories of registrations after import", "why_tests_cant": "All histories of registrations and all lookups; tests register nothing.", "anchors": ["pycose/utils.py:_CoseAttribute.register_attribute", "pycose/utils.py:_CoseAttribute.from_id", "pycose/keys/keyparam.py:EC2KeyParam", "pycose/keys/keyparam.py:SymmetricKeyParam"]}
{"id": "C98", "title": "A content key shared by direct+HKDF is derived from the shared secret", "statement": "When the recipients of a COSE_Encrypt or COSE_Mac message use direct+HKDF, the content is protected with a key derived by HKDF from the shared secret, the COSE_KDF_Context and the salt (RFC 8152 section 12.1.2), so that changing the algorithm, salt or parties of the recipient changes the key; with the algorithm direct the shared secret itself is the key. compute_cek of such a recipient returns that key.", "quantifier": "all messages, all lists of recipients of class DirectEncryption, all keys and headers", "why_tests_cant": "All recipient headers and keys; a sender and receiver that both skip the derivation agree with each other in every test.", "anchors": ["pycose/messages/recipient.py:DirectEncryption.compute_cek", "pycose/messages/encmessage.py:EncMessage.encrypt", "pycose/messages/encmessage.py:EncMessage.decrypt", "pycose/messages/macmessage.py:MacMessage.compute_tag"]}
{"id": "C99", "title": "Headers set after construction are treated like headers given to the constructor", "statement": "Assigning msg.phdr or msg.uhdr, or adding headers with phdr_update and uhdr_update, accepts and refuses the same maps as the constructor and leaves the message in the state it would have when constructed with these headers: found under their classes whatever their spelling, and with values of the right types. Assignment replaces the whole map, an update only the headers it lists, neither changes anything else, and what is not a dictionary is refused without effect.", "quantifier": "all messages, all header maps, assignments and updates of both maps", "why_tests_cant": "All maps, spellings and values; tests assign maps that are already written with classes.", "anchors": ["pycose/messages/cosebase.py:CoseBase.phdr", "pycose/messages/cosebase.py:CoseBase.uhdr", "pycose/messages/cosebase.py:CoseBase.phdr_update", "pycose/messages/cosebase.py:CoseBase.uhdr_update", "pycose/messages/cosebase.py:CoseBase._parse_header", "pycose/messages/cosebase.py:CoseBase.get_attr"]}
{"id": "C100", "title": "Malformed keys are refused with pycose's own exceptions", "statement": "Whatever bytes are passed to CoseKey.decode, and whatever object to CoseKey.from_dict, a key is returned or a CoseException is raised, so that a program can handle every malformed key. A map without a key type, or with an unknown one, is refused, and only maps are keys.", "quantifier": "every byte string and every object passed to decode and from_dict", "why_tests_cant": "All byte strings; tests decode a few malformed keys.", "anchors": ["pycose/keys/cosekey.py:CoseKey.decode", "pycose/keys/cosekey.py:CoseKey.from_dict", "pycose/keys/symmetric.py:SymmetricKey.from_dict", "pycose/keys/okp.py:OKPKey.from_dict", "pycose/keys/ec2.py:EC2Key.from_dict", "pycose/keys/rsa.py:RSAKey.from_dict", "pycose/exceptions.py"]}
{"id": "C101", "title": "A message can be protected first and sent later", "statement": "Computing the signature, ciphertext or tag of a message, storing it in the message (msg.signature = msg.compute_signature(), msg.payload = msg.encrypt(), msg.compute_tag()) and then encoding without sign, encrypt or mac emits exactly what encode() emits, with the same signature or ciphertext. The sender's own object, after it has been protected, passes verify_signature or verify_tag and decrypts to the plaintext. Only bytes can be stored as a signature.", "quantifier": "all messages, keys, algorithms, attached and detached payloads, recipients", "why_tests_cant": "All messages and keys, and the state left behind by each call; tests encode in one call.", "anchors": ["pycose/messages/sign1message.py:Sign1Message.signature", "pycose/messages/sign1message.py:Sign1Message.encode", "pycose/messages/signcommon.py:SignCommon.compute_signature", "pycose/messages/enc0message.py:Enc0Message.encode", "pycose/messages/encmessage.py:EncMessage.encode", "pycose/messages/maccommon.py:MacCommon.compute_tag", "pycose/messages/mac0message.py:Mac0Message.encode", "pycose/messages/cosemessage.py:CoseMessage.payload"]}
{"id": "C102", "title": "The attributes and the items of a key are two views of the same parameters", "statement": "For every key object and every attribute that its class documents (kty, alg, kid, key_ops, base_iv and the numbers of the key type): key.attr and key[parameter], under any spelling of the parameter, have the same value, and when the item is missing the attribute has its default (None, b'', an empty list, or CoseInvalidKey for the mandatory ones). Assigning the attribute changes the item and no other item, assigning the item changes the attribute and no other attribute, deleting the item leaves the default. The two ways accept the same values, and attributes the class does not document are refused.", "quantifier": "all keys of the four classes in any state, all documented attributes, all spellings of all parameters and all values", "why_tests_cant": "A test compares a few attributes of fresh keys; the claim covers every attribute, every spelling and every state a key can be brought into.", "anchors": ["pycose/keys/cosekey.py:CoseKey.alg", "pycose/keys/cosekey.py:CoseKey.kid", "pycose/keys/cosekey.py:CoseKey.key_ops", "pycose/keys/cosekey.py:CoseKey.base_iv", "pycose/keys/cosekey.py:CoseKey.__getitem__", "pycose/keys/cosekey.py:CoseKey.__setitem__", "pycose/keys/okp.py:OKPKey.crv", "pycose/keys/okp.py:OKPKey.x", "pycose/keys/okp.py:OKPKey.d", "pycose/keys/ec2.py:EC2Key.crv", "pycose/keys/ec2.py:EC2Key.x", "pycose/keys/ec2.py:EC2Key.y", "pycose/keys/ec2.py:EC2Key.d", "pycose/keys/rsa.py:RSAKey.n", "pycose/keys/symmetric.py:SymmetricKey.k"]}
{"id": "C103", "title": "A complete message is always encoded", "statement": "When nothing is missing, encode() returns bytes. For every COSE_Sign1 or COSE_Sign message whose headers can be serialised, whose signers have a signature algorithm that their key permits and the private part of that key, and which has exactly one payload (attached or detached); for every COSE_Encrypt0 and COSE_Mac0 message with an algorithm that its symmetric key permits, a payload and (for encryption) a nonce; and for every COSE_Encrypt and COSE_Mac message which in addition has direct recipients, recipients with a key-wrap key, or recipients with key agreement whose keys are given (or can be generated, for ECDH-ES): the only exceptions are those of the cryptographic primitives, none for MACs. Without sign, encrypt or mac the headers are enough.", "quantifier": "all header maps and values that can be serialised, all permitted algorithms, all keys with the documented types, all payloads, all lists of signers and recipients", "why_tests_cant": "Tests encode a few messages; the claim says that no combination of headers, algorithm, key restrictions and recipients that is complete is refused.", "anchors": ["pycose/messages/sign1message.py:Sign1Message.encode", "pycose/messages/signmessage.py:SignMessage.encode", "pycose/messages/enc0message.py:Enc0Message.encode", "pycose/messages/mac0message.py:Mac0Message.encode", "pycose/messages/encmessage.py:EncMessage.encode", "pycose/messages/macmessage.py:MacMessage.encode", "pycose/messages/recipient.py:KeyWrap.encrypt", "pycose/messages/recipient.py:DirectEncryption.encode"]}
{"id": "C104", "title": "The order of headers and key parameters does not matter", "statement": "A header map or a key map means the same in every order. A message built from reordered header maps has the same headers; a received message whose unprotected headers (its own, and those of its signatures and recipients) come in another order is decoded to the same message, and every check, decryption, signature and tag is the same. A key built from a reordered map has the same type, items and attributes and may be used for the same operations.", "quantifier": "all header maps and key maps, all permutations of them, all six message types, all keys and primitives", "why_tests_cant": "A map with n entries has n! orders, and the loops that read maps have side effects; tests try one order.", "anchors": ["pycose/messages/cosebase.py:CoseBase._parse_header", "pycose/messages/cosebase.py:CoseBase.get_attr", "pycose/messages/cosemessage.py:CoseMessage.decode", "pycose/messages/recipient.py:CoseRecipient.create_recipient", "pycose/keys/cosekey.py:CoseKey.from_dict", "pycose/keys/cosekey.py:CoseKey._extract_from_dict"]}
{"id": "C105", "title": "Incomplete messages are not encoded", "statement": "Whenever encode returns bytes for a message that is to be signed, authenticated or encrypted, the message had everything it needs: a payload (for signatures: attached or detached, not both), an algorithm of the right family, a key of the right type that permits the operation and the algorithm, a nonce for encryption, and, for messages with recipients, at least one recipient, each with its own algorithm and keys. Otherwise encode raises a COSE exception. This is the converse of C103.", "quantifier": "all six message types, all headers, payloads, keys whose parameters have the documented types, recipients and primitives", "why_tests_cant": "Tests check a few missing parts one at a time; every combination of absent parts, key types and algorithms has to be refused.", "anchors": ["pycose/messages/sign1message.py:Sign1Message.encode", "pycose/messages/signmessage.py:SignMessage.encode", "pycose/messages/enc0message.py:Enc0Message.encode", "pycose/messages/encmessage.py:EncMessage.encode", "pycose/messages/mac0message.py:Mac0Message.encode", "pycose/messages/macmessage.py:MacMessage.encode", "pycose/messages/signcommon.py:SignCommon.compute_signature", "pycose/messages/enccommon.py:EncCommon.encrypt", "pycose/messages/maccommon.py:MacCommon.compute_tag"]}
{"id": "C106", "title": "A key can be copied and put into a header unchanged", "statement": "CoseKey.from_dict(key) and CoseKey.from_dict(dict(key)) give a key of the same type with the same parameters, for every valid key object. The key found in a message under EPHEMERAL_KEY or STATIC_KEY is the key that was given for that header, as an object or as a dict, under any spelling of the header.", "quantifier": "all keys of the four types, all parameters, all header maps and spellings, all histories of a key for the agreement of object and items", "why_tests_cant": "The copy goes through two mapping protocols (dict and key object) and re-runs every constructor check on every combination of parameters; tests copy a few keys.", "anchors": ["pycose/keys/cosekey.py:CoseKey.from_dict", "pycose/keys/cosekey.py:CoseKey._extract_from_dict", "pycose/keys/cosekey.py:CoseKey.__contains__", "pycose/keys/ec2.py:EC2Key.from_dict", "pycose/keys/okp.py:OKPKey.from_dict", "pycose/keys/rsa.py:RSAKey.from_dict", "pycose/keys/symmetric.py:SymmetricKey.from_dict", "pycose/messages/cosebase.py:CoseBase._parse_header"]}
{"id": "C107", "title": "Attribute objects compare and print as what they stand for", "statement": "Objects of attribute classes (KID(), Es256(), ...) compare with each other and with classes by ==, !=, <, <=, >, >= as one total order, consistently from both sides; == holds exactly between objects for the same attribute; an attribute object is accepted wherever its class is; different attributes print differently.", "quantifier": "all attribute classes of all kinds, all values on the other side, all six operators, both operand orders", "why_tests_cant": "A finite test compares a few objects of one kind; the claim ranges over every pair of classes, every other value and the reflected operators.", "anchors": ["pycose/utils.py:_CoseAttribute.__eq__", "pycose/utils.py:_CoseAttribute.__lt__", "pycose/utils.py:_CoseAttribute.__repr__", "pycose/utils.py:_CoseAttribute.from_id"]}
{"id": "C108", "title": "A received key is complete and well-typed, and can be sent on", "statement": "Every key that CoseKey.from_dict or CoseKey.decode returns has all components its key type needs, each of the right type (byte strings, a curve of the type, registered algorithm and operations), coordinates that belong to its private number, and encodes to bytes that decode to the same key. The same holds for keys in message headers.", "quantifier": "all dictionaries and byte strings accepted, all key types, all curve implementations", "why_tests_cant": "The parameters reach the key by two routes, as arguments and as options, in any order and spelling; only a proof covers every combination a sender may choose.", "anchors": ["pycose/keys/cosekey.py:CoseKey.from_dict", "pycose/keys/cosekey.py:CoseKey.decode", "pycose/keys/cosekey.py:CoseKey.encode", "pycose/keys/ec2.py:EC2Key.from_dict", "pycose/keys/okp.py:OKPKey.from_dict", "pycose/keys/rsa.py:RSAKey.from_dict", "pycose/keys/symmetric.py:SymmetricKey.from_dict"]}
{"id": "C109", "title": "Whatever exists in memory is encoded", "statement": "A plain value whose strings, lists, maps and integers are of a size CPython can hold is always serialised, and the bytes decode to it. A complete key is always encoded and decodes to the same key. A complete message of any of the six classes, with recipients of any class that gets its content key (direct, key wrap, key agreement), is encoded unless a cryptographic primitive raises; a complete COSE_Mac0 message, and a COSE_Mac message with direct recipients, always. No size, nesting depth or number of signers or recipients makes encode fail.", "quantifier": "all values, keys and messages whose parts are shorter than 2^63, all algorithms and keys, attached and detached payloads, all primitives whose outputs exist", "why_tests_cant": "A size that makes the encoder fail would only show on that size; tests try a few small ones.", "anchors": ["pycose/messages/cosemessage.py:CoseMessage.encode", "pycose/messages/cosebase.py:CoseBase.phdr_encoded", "pycose/messages/sign1message.py:Sign1Message.encode", "pycose/messages/signmessage.py:SignMessage.encode", "pycose/messages/enc0message.py:Enc0Message.encode", "pycose/messages/mac0message.py:Mac0Message.encode", "pycose/keys/cosekey.py:CoseKey.encode"]}
{"id": "C110", "title": "Equality of keys", "statement": "== on keys always answers, and is reflexive, symmetric and transitive. Equal keys are interchangeable: they are of the same type, and signing, verifying, authenticating, encrypting, decrypting, wrapping, unwrapping, key agreement and every check on the key give the same result with either, so a message gives the same bytes with either. A decoded key equals the encoded one.", "quantifier": "all keys built by any constructor and any sequence of setters, whose labels are distinct as in a Python dict; all algorithms, inputs, messages and primitives", "why_tests_cant": "An equivalence and a congruence speak about every pair and triple of keys and every operation; tests compare a few keys.", "anchors": ["pycose/keys/cosekey.py:CoseKey", "pycose/keys/ec2.py:EC2Key", "pycose/keys/okp.py:OKPKey", "pycose/keys/rsa.py:RSAKey", "pycose/keys/symmetric.py:SymmetricKey"]}
{"id": "C111", "title": "Encoding rules of RFC 8152 section 14", "statement": "Every message, structure to be signed or authenticated, key derivation context and key that pycose encodes obeys the three rules of RFC 8152 section 14: definite lengths, every length and number in its shortest form, and no map, at any depth, with the same label twice. So each item has one encoding.", "quantifier": "all messages of the six types, headers, payloads, keys, recipients and flags; all structures; all keys; all primitives", "why_tests_cant": "The rules speak about every byte of every message; tests compare a few messages with vectors.", "anchors": ["pycose/messages/cosebase.py:CoseBase.phdr_update", "pycose/messages/cosebase.py:CoseBase.uhdr_update", "pycose/messages/cosebase.py:CoseBase.phdr_encoded", "pycose/messages/cosemessage.py:CoseMessage.encode", "pycose/keys/cosekey.py:CoseKey.encode"]}
{"id": "C112", "title": "A call that fails leaves its object as it was", "statement": "A method or setter that raises has no effect: the key or message is the one it was before the call, and whatever is done with it next gives the result it would have given had the failed call never been made. Refused assignments to attributes, items, headers, local attributes and signatures change nothing; encoding that raises changes at most the tag or the key of the message, and encoding again after repairing the cause behaves like a first attempt when the recipients brought their keys and content keys.", "quantifier": "every key reachable by a history of operations and every operation on it with every argument; every message, header operation and argument; every COSE_Encrypt, COSE_Mac and COSE_Mac0 message, recipient forest, source of randomness and pair of encode calls", "why_tests_cant": "Failures come from any step of any call and the state left behind only shows in a later call; tests check that the exception is raised, not what the object does afterwards.", "anchors": ["pycose/keys/cosekey.py:CoseKey", "pycose/keys/ec2.py:EC2Key.__delitem__", "pycose/messages/cosebase.py:CoseBase", "pycose/messages/encmessage.py:EncMessage.encode", "pycose/messages/macmessage.py:MacMessage.encode", "pycose/messages/mac0message.py:Mac0Message.encode", "pycose/messages/recipient.py:KeyAgreementWithKeyWrap.encrypt", "pycose/messages/recipient.py:CoseRecipient._setup_ephemeral_key"]}
{"id": "C113", "title": "The text of a key or header map shows what is in it", "statement": "Printing a key lists every parameter it has, once and nothing else, under its Python name and in the order of the registered numbers, with its value; key material of symmetric, OKP and EC2 keys is abbreviated to its first five bytes (characters, elements) and its length. Printing a message lists every header of each bucket in the same way, in the order of the map.", "quantifier": "all keys of all types with all parameters, private labels and values; all header maps", "why_tests_cant": "The text is built from names, sorted and rewritten in place, so that a clash of names silently drops a parameter; tests print a few ordinary keys.", "anchors": ["pycose/keys/cosekey.py:CoseKey._key_repr", "pycose/keys/symmetric.py:SymmetricKey.__repr__", "pycose/keys/okp.py:OKPKey.__repr__", "pycose/keys/ec2.py:EC2Key.__repr__", "pycose/keys/rsa.py:RSAKey.__repr__", "pycose/messages/cosebase.py:CoseBase._hdr_repr", "pycose/utils.py:truncate"]}
{"id": "C114", "title": "The headers of a message are its own", "statement": "The header dicts that a program passes to a message are copied: after constructing a message, assigning to phdr or uhdr, or updating headers or local attributes, nothing the program does to its own dicts, lists and keys, or to another message, changes the headers of this message.", "quantifier": "all states that any series of calls and of changes to any object can reach, with any sharing and nesting of dicts, lists and keys (also cyclic); all later series of operations", "why_tests_cant": "Shared mutable objects show only when a program changes one later; which objects are shared depends on the history of all calls.", "anchors": ["pycose/messages/cosebase.py:CoseBase.__init__", "pycose/messages/cosebase.py:CoseBase.phdr", "pycose/messages/cosebase.py:CoseBase.uhdr", "pycose/messages/cosebase.py:CoseBase.phdr_update", "pycose/messages/cosebase.py:CoseBase.uhdr_update", "pycose/messages/cosebase.py:CoseBase.local_attrs", "pycose/messages/cosebase.py:CoseBase._parse_header"]}
{"id": "C115", "title": "Each way of making a key gives a key of the right class", "statement": "from_dict, decode, from_pem_private_key, from_pem_public_key and generate_key called on a key class (SymmetricKey, OKPKey, EC2Key, RSAKey) return only keys of that class with that class's key type, and refuse a map that names another type; called on CoseKey, from_dict and decode return a key of the class that the map names. (The analogue of C22 for keys.)", "quantifier": "all key classes, all maps, bytes, PEM texts, imported keys and arguments of key generation", "why_tests_cant": "A program that calls EC2Key.decode on bytes from the network relies on the class of the result for every input, not only for encodings of EC2 keys.", "anchors": ["pycose/keys/cosekey.py:CoseKey.decode", "pycose/keys/cosekey.py:CoseKey.from_dict", "pycose/keys/cosekey.py:CoseKey.from_pem_private_key", "pycose/keys/cosekey.py:CoseKey.from_pem_public_key", "pycose/keys/symmetric.py:SymmetricKey.from_dict", "pycose/keys/okp.py:OKPKey.from_dict", "pycose/keys/ec2.py:EC2Key.from_dict", "pycose/keys/rsa.py:RSAKey.from_dict"]}
{"id": "C116", "title": "Classes registered by a program are used, and disturb nothing else", "statement": "A class that a program registers with CoseMessage.record_cbor_tag, CoseKey.record_kty or CoseRecipient.record_rc is the class used for messages with this tag, for keys of this key type (in maps and in imported keys) and for received recipients with these algorithms, until another class is registered for the same; other tags, types and algorithms are not affected; a class of the wrong kind is refused and changes nothing; decode called on a class returns only messages of that class whatever was registered; the rules on mixing recipients hold for derived classes too.", "quantifier": "all series of registrations of message, key and recipient classes and of attributes, all class hierarchies (with single inheritance), tags, key types and algorithms", "why_tests_cant": "Registrations add up over the life of a program; what is found depends on the whole history of registrations and on the class hierarchy.", "anchors": ["pycose/messages/cosemessage.py:CoseMessage.record_cbor_tag", "pycose/messages/cosemessage.py:CoseMessage.decode", "pycose/keys/cosekey.py:CoseKey.record_kty", "pycose/keys/cosekey.py:CoseKey.from_dict", "pycose/keys/cosekey.py:CoseKey._from_cryptography_key", "pycose/messages/recipient.py:CoseRecipient.record_rc", "pycose/messages/recipient.py:CoseRecipient.create_recipient", "pycose/messages/recipient.py:CoseRecipient.verify_recipients"]}
{"id": "C117", "title": "What is passed to a constructor is what the new object has", "statement": "The constructors of messages, signers and recipients take each documented argument by position or by name, in any order and mixture, with the same result; the payload, external data, key, signers and recipients of the new object are exactly those passed, or the documented defaults; an argument of a wrong type, given twice, or not known to the class is refused.", "quantifier": "all eight classes with constructors of their own, all lists of positional and keyword arguments", "why_tests_cant": "The arguments run through chains of __init__ methods that forward positional and keyword arguments to each other; tests use a few fixed ways to call.", "anchors": ["pycose/messages/cosebase.py:CoseBase.__init__", "pycose/messages/cosemessage.py:CoseMessage.__init__", "pycose/messages/sign1message.py:Sign1Message.__init__", "pycose/messages/signmessage.py:_SignMessage.__init__", "pycose/messages/signer.py:CoseSignature.__init__", "pycose/messages/enc0message.py:Enc0Message.__init__", "pycose/messages/encmessage.py:EncMessage.__init__", "pycose/messages/mac0message.py:Mac0Message.__init__", "pycose/messages/macmessage.py:MacMessage.__init__", "pycose/messages/recipient.py:CoseRecipient.__init__"]}
{"id": "C118", "title": "A message holds what was assigned to it last", "statement": "After any series of assignments to a message, signer or recipient - payload, signature, external data, key, local attributes, the option to write algorithms as text, and changes of the headers, some of them refused - each field has the value accepted last, local attributes add up, the headers are what the changes of the headers alone make of them, and a refused assignment raises and changes nothing.", "quantifier": "all states of a message object, all series of assignments and header changes with values of any type", "why_tests_cant": "What the object holds depends on the whole history of accepted and refused assignments; tests assign once.", "anchors": ["pycose/messages/cosemessage.py:CoseMessage.payload", "pycose/messages/cosemessage.py:CoseMessage.external_aad", "pycose/messages/cosemessage.py:CoseMessage.key", "pycose/messages/cosebase.py:CoseBase.local_attrs", "pycose/messages/signer.py:CoseSignature.signature"]}
{"id": "C119", "title": "What is not protected has no say", "statement": "Rewriting the unprotected header of a message on its way changes nothing about whether it is accepted, with which exception it is refused, or what it decrypts to, as long as the algorithm (and, for decryption, the nonce parameters) are left alone; this includes the unprotected headers of signers, and those of recipients but for the parameters that say how to get at the content key. If the algorithm (and the nonce) are protected, no unprotected header whatsoever makes the result differ from the result without one: it can only make the check raise.", "quantifier": "all messages of the six types, all signers and trees of recipients, all pairs of unprotected headers, keys, external data and detached payloads; for the single-layer types also all received arrays", "why_tests_cant": "It quantifies over pairs of messages with arbitrarily different headers; tests verify a message as it was made.", "anchors": ["pycose/messages/signcommon.py:SignCommon.verify_signature", "pycose/messages/maccommon.py:MacCommon.verify_tag", "pycose/messages/enccommon.py:EncCommon.decrypt", "pycose/messages/encmessage.py:EncMessage.decrypt", "pycose/messages/recipient.py:KeyWrap.decrypt", "pycose/messages/cosebase.py:CoseBase.get_attr"]}
{"id": "C120", "title": "A nonce is used once", "statement": "Under one key no two messages are encrypted with the same nonce: messages with different IVs have different nonces, so have messages numbered with partial IVs that read as different numbers, a message with both an IV and a partial IV is refused, and an object that is encoded again with another payload gets another nonce.", "quantifier": "all keys with a base IV, all series of messages of any length, all IVs and partial IVs of any length, all payloads", "why_tests_cant": "It is about every series of messages under a key; tests encrypt one message.", "anchors": ["pycose/messages/enccommon.py:EncCommon._get_nonce", "pycose/messages/enccommon.py:EncCommon.encrypt"]}
{"id": "C121", "title": "Signers and recipients do not disturb each other", "statement": "Whether a signature in a received COSE_Sign verifies, what is decrypted for a recipient of a received COSE_Encrypt and whether the tag of a received COSE_Mac verifies does not depend on the other signatures and recipients in the message, on their number or on their order; signers appended to a message change none of the signatures before them. Recipients may only disturb each other when they may not stand beside each other, and then decryption fails.", "quantifier": "all received messages, all arrays of signatures and recipients of any length, all positions in them, all keys, external data and local attributes the receiver sets", "why_tests_cant": "It compares every message with every other one that shares an entry with it, at all positions; tests use a few fixed messages.", "anchors": ["pycose/messages/signmessage.py:SignMessage.from_cose_obj", "pycose/messages/signer.py:CoseSignature.verify_signature", "pycose/messages/encmessage.py:EncMessage.decrypt", "pycose/messages/recipient.py:CoseRecipient.verify_recipients", "pycose/messages/macmessage.py:MacMessage.from_cose_obj"]}
{"id": "C122", "title": "Which parameters of a key matter", "statement": "Besides its class, its alg and its key_ops, verifying a signature depends only on the public part of a key, signing only on what signing needs, MACs only on the secret, encryption only on the secret and the base IV, and a recipient only on the secret or private value (and for RSA the modulus and exponents); a sender agreeing on a key depends only on the public part of the other side's key. A key therefore verifies like its public part, and a key identifier or any further parameter has no influence on anything sent, accepted or decrypted.", "quantifier": "all pairs of keys whose listed attributes read the same, all messages, signers, recipients, algorithms, signatures and received bytes", "why_tests_cant": "It is a statement about pairs of keys and all messages; a test compares two fixed keys on one message.", "anchors": ["pycose/algorithms.py", "pycose/keys/cosekey.py:CoseKey.verify", "pycose/messages/signcommon.py:SignCommon", "pycose/messages/enccommon.py:EncCommon", "pycose/messages/recipient.py"]}
{"id": "C123", "title": "A truncated message or key is refused", "statement": "Whatever bytes decode() accepts, there is a length such that every shorter prefix raises CBORDecodeEOF and every prefix at least that long decodes to the very same message; a prefix is never taken for another message. Of anything encode() returned, for the six message classes and for keys, every proper prefix raises CBORDecodeEOF, and no encoding is a proper prefix of another.", "quantifier": "all received byte strings, all messages and keys, all cut points", "why_tests_cant": "A test cuts one message at a few points; the claim is about every input, nesting and cut point.", "anchors": ["pycose/messages/cosemessage.py:CoseMessage.decode", "pycose/keys/cosekey.py:CoseKey.decode", "pycose/messages/cosebase.py"]}
{"id": "C124", "title": "What base64decode makes of a text", "statement": "CoseKey.base64decode returns, for every text in the base64 alphabet or its URL-safe variant, with or without padding, the bytes the text stands for by RFC 4648, and refuses every other text.", "quantifier": "all texts of any length", "why_tests_cant": "All texts of all lengths, including malformed ones; a test decodes a few good ones.", "anchors": ["pycose/keys/cosekey.py:CoseKey.base64decode"]}
{"id": "C125", "title": "The size of a message depends on its headers and lengths only", "statement": "encode() of a message of any of the six classes returns, for the same headers, algorithm and payload length, always the same number of bytes, whatever the payload's contents, the external data, the key and the random numbers are (for signatures and RSA key wrapping: keys on the same curve or with the same modulus; for key agreement: recipients that bring their own key, since a generated one is put into a header). For the classes without recipients the size is exactly the sum of the tag, the array head, the protected field, the unprotected map, the payload field and the authentication field, where MACs have the length RFC 8152 assigns to the algorithm and a ciphertext is longer than the plaintext by the algorithm's tag.", "quantifier": "all messages of the six classes, recipients and nested recipients, payloads, external data, keys, random numbers, algorithms", "why_tests_cant": "A test compares a few sizes; the claim is about every payload length, header and key, including those where the CBOR heads grow.", "anchors": ["pycose/messages/sign1message.py:Sign1Message.encode", "pycose/messages/signmessage.py:SignMessage.encode", "pycose/messages/mac0message.py:Mac0Message.encode", "pycose/messages/enc0message.py:Enc0Message.encode", "pycose/algorithms.py"]}
{"id": "C126", "title": "Equality of KDF contexts", "statement": "== on CoseKDFContext objects is reflexive, symmetric and transitive, depends only on the values of the attributes and of the parts and not on which objects hold them, and decides whether the same key is derived: equal contexts encode to the same bytes, and contexts that encode to the same bytes are equal.", "quantifier": "all contexts after any history of operations on context, party and public info objects", "why_tests_cant": "An equivalence and a congruence range over every pair and triple of contexts and over all header maps and their orders.", "anchors": ["pycose/messages/context.py:CoseKDFContext", "pycose/messages/context.py:SuppPubInfo", "pycose/messages/context.py:PartyInfo"]}
{"id": "C127", "title": "Messages, keys and authenticated structures are never mistaken for each other", "statement": "No object is accepted by CoseMessage.decode() and by CoseKey.decode(). Bytes made by the encode() of a key are never accepted as a message, whatever is appended to them; bytes made by the encode() of one of the six message classes are never accepted as a key, and without the tag never as a message. The byte strings that are signed, MACed or used as additional data, and the encoded KDF contexts, are accepted neither as a message nor as a key, are never equal to an encoded message (with or without tag) or key, and a KDF context never equals an authenticated structure.", "quantifier": "all objects, keys, messages of the six classes, tag flags, appended bytes, authenticated structures of the six kinds, KDF contexts", "why_tests_cant": "A test confuses a few pairs; the claim is that no contents of any header, payload, key or context lead to a confusion.", "anchors": ["pycose/messages/cosemessage.py:CoseMessage.decode", "pycose/keys/cosekey.py:CoseKey.decode", "pycose/keys/cosekey.py:CoseKey.encode", "pycose/messages/context.py:CoseKDFContext.encode", "pycose/messages/signcommon.py", "pycose/messages/maccommon.py", "pycose/messages/enccommon.py"]}
{"id": "C128", "title": "Encoding again gives the same bytes", "statement": "After a successful encode() of a message of any class, calling encode() again with the same arguments and nothing changed in between gives the same bytes and leaves the object as it is, whatever random numbers the system hands out: the content key, the ephemeral keys and the derived keys that the first call made are the ones used again, also in nested recipients. Randomised algorithms are the only exceptions: RSASSA-PSS for COSE_Sign1 and COSE_Sign, RSAES-OAEP recipients for COSE_Encrypt and COSE_Mac.", "quantifier": "all messages of the six classes, recipients nested to any depth, tag and encrypt/mac/sign flags, positions of the random source", "why_tests_cant": "Tests encode each message once, or compare two encodings of one message; the claim is about every message and every outcome of the random source.", "anchors": ["pycose/messages/encmessage.py:EncMessage.encode", "pycose/messages/encmessage.py:EncMessage.encrypt", "pycose/messages/macmessage.py:MacMessage.encode", "pycose/messages/recipient.py", "pycose/messages/mac0message.py:Mac0Message.encode", "pycose/messages/sign1message.py:Sign1Message.encode", "pycose/messages/signmessage.py:SignMessage.encode"]}
{"id": "C129", "title": "Random keys are never used twice", "statement": "Over any sequence of encode() calls on the COSE_Encrypt messages of a program, in any order, repeated, successful or failing, with other users of the random source in between: two recipients (nested ones included) for which the library generates an ephemeral key get different keys; the recipients of one message are all given the same content key, even if earlier calls failed half way; two messages whose content key the user did not choose never have the same content key; and the key given to the recipients is the one the payload is encrypted with, taken from the random source. This assumes that the random source itself does not repeat its output.", "quantifier": "all histories of encode() calls, all sets of messages with recipients of any depth, all random sources that do not repeat themselves during the history", "why_tests_cant": "A test sees two random values differ once; reuse would only show for particular orders of calls, failures and numbers of recipients.", "anchors": ["pycose/messages/encmessage.py:EncMessage.encode", "pycose/messages/encmessage.py:EncMessage.encrypt", "pycose/messages/recipient.py:CoseRecipient._setup_ephemeral_key", "pycose/messages/recipient.py:KeyAgreementWithKeyWrap.encrypt", "pycose/messages/recipient.py:DirectKeyAgreement.encode", "pycose/keys/ec2.py:EC2Key.generate_key"]}
{"id": "C130", "title": "Encoded messages show nothing but headers and lengths", "statement": "The plaintext, the external data, the keys, the content key and the random numbers reach the bytes made by encode() only through the cryptographic primitives. If the outputs of the primitives show nothing but lengths (and the modulus, for RSA), then two encrypted messages with the same headers, the same kinds of recipients at every depth and plaintexts of the same length are encoded to the same bytes, whatever else differs. For authenticated and signed messages the same holds with the payload, which they carry in the clear: the bytes do not depend on external data, detached content, keys or random numbers otherwise.", "quantifier": "all pairs of messages of the six kinds with equal headers and lengths, all payloads, keys, external data, recipient trees and random numbers, all ideal primitives", "why_tests_cant": "A leak shows only by comparing the outputs for all pairs of secrets; a test compares a few, and real primitives hide equal outputs behind random looking ones.", "anchors": ["pycose/messages/enc0message.py:Enc0Message.encode", "pycose/messages/encmessage.py:EncMessage.encode", "pycose/messages/mac0message.py:Mac0Message.encode", "pycose/messages/macmessage.py:MacMessage.encode", "pycose/messages/sign1message.py:Sign1Message.encode", "pycose/messages/signmessage.py:SignMessage.encode", "pycose/messages/signer.py:CoseSignature.encode", "pycose/messages/recipient.py:KeyWrap.encode", "pycose/messages/recipient.py:KeyAgreementWithKeyWrap.encode"]}
{"id": "C131", "title": "Decoding does not inflate what was received", "statement": "A decoded message is never larger than the bytes it was decoded from. The number of objects in the decoded headers, plus the bytes and characters in them, in the payloads and in the signature or tag, summed over the message and all its recipients or signers, is smaller than the number of bytes received. In the same way a decoded CBOR value has no more objects, bytes and characters than there were bytes. A decoded key exceeds the bytes it was decoded from by a constant at most: coordinates of an elliptic curve point that were left out are computed and added. Lengths and counts claimed in the received bytes can therefore not make the decoder build more than was sent.", "quantifier": "all byte strings, all message classes decode() can be called on, both settings of allow_unknown_attributes", "why_tests_cant": "A crafted length or count that makes the result explode is one of infinitely many byte strings, and a test tries only some of them.", "anchors": ["pycose/messages/cosemessage.py:CoseMessage.decode", "pycose/messages/cosemessage.py:CoseMessage.from_cose_obj", "pycose/messages/cosebase.py:CoseBase.__init__", "pycose/messages/cosebase.py:CoseBase._parse_header", "pycose/messages/encmessage.py:EncMessage.from_cose_obj", "pycose/messages/macmessage.py:MacMessage.from_cose_obj", "pycose/messages/signmessage.py:SignMessage.from_cose_obj", "pycose/messages/recipient.py:CoseRecipient.create_recipient", "pycose/keys/cosekey.py:CoseKey.decode"]}
{"id": "C132", "title": "The strict mode refuses, but never changes", "statement": "allow_unknown_attributes=False gives exactly what allow_unknown_attributes=True gives, the same message or the same exception, or else it raises CoseException. Of the messages the permissive mode accepts, the strict mode accepts exactly those in which no header parameter of the message, of its recipients or of its signers is unknown. In particular a message sent with registered header parameters only reaches a strict receiver as it reaches a permissive one, and verifies or decrypts there. The same holds for building messages, and for building keys of the four types, where the names in optional_params decide.", "quantifier": "all received values, all message classes decode() can be called on, all constructor arguments of messages and of the four key types, all primitives", "why_tests_cant": "The two modes run the same code on every input with one flag changed, and a test compares them on a few inputs only.", "anchors": ["pycose/messages/cosemessage.py:CoseMessage.decode", "pycose/messages/cosemessage.py:CoseMessage.from_cose_obj", "pycose/messages/cosebase.py:CoseBase.__init__", "pycose/messages/cosebase.py:CoseBase._parse_header", "pycose/messages/recipient.py:CoseRecipient.create_recipient", "pycose/utils.py:_CoseAttribute.from_id", "pycose/keys/symmetric.py:SymmetricKey.__init__", "pycose/keys/okp.py:OKPKey.__init__", "pycose/keys/ec2.py:EC2Key.__init__", "pycose/keys/rsa.py:RSAKey.__init__"]}
