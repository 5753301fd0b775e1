# A Rocq model of pycose

Everything lives in `rocq/theories`. The model is plain Coq (standard library
only): total, computable Gallina functions that follow the Python source branch
by branch. Exceptions are values. Every definition cites the lines it models.

## 1. What is modelled, and how

Model files (definitions only):

| file | models |
|---|---|
| `Bytes.v` | byte strings, big-endian integers (`int.from_bytes`, `to_bytes`), UTF-8 validity, upper-casing |
| `Value.v` | Python values (`pyval`), equality/hash used by dict keys, insertion-ordered dicts, exceptions and results |
| `Cbor.v` | `cbor2.dumps`/`cbor2.loads`: data items, encoder, total decoder over arbitrary bytes, conversion to and from `pyval`, the encoder default hooks of pycose |
| `Registry.v` | the attribute registries (algorithms, headers, key types, key parameters, key operations, curves) and `_CoseAttribute.from_id` |
| `Crypto.v` | record of external primitives (hash, HMAC, AES, AEAD, key wrap, RSA, ECDSA, EdDSA, ECDH, HKDF, key generation, randomness) |
| `Algorithms.v` | the glue in `algorithms.py` around the primitives (padding, truncation, length checks, dispatch) |
| `Keys.v` | `keys/*.py`: constructors, `from_dict`, properties, mapping interface, `verify`, `encode`/`decode`, `generate_key`, import of `cryptography` keys |
| `Headers.v` | `headers.py` parsers, `cosebase.py`, the fields of `cosemessage.py` |
| `Messages.v` | `cosemessage.py`, Sign1, Sign and signers, Enc0, Mac0 |
| `Recipients.v` | `recipient.py` (all four classes), `context.py`, Enc, Mac, `CoseMessage.decode` |
| `Derive.v` | `DirectEncryption.compute_cek` |
| `Compare.v` | attribute objects: comparison, hash, lookup, printing (utils.py:29-77) |
| `Alias.v` | messages and the program's dicts, lists and keys as objects in memory: parsing, deepcopy, update (cosebase.py:27-122) |
| `KeyClass.v` | the class on which from_dict, decode, the PEM methods and generate_key are called (cosekey.py:30-39,79-128) |
| `Plugin.v` | record_cbor_tag, record_kty, record_rc and the lookups in what they fill (cosemessage.py:23-74, cosekey.py:41-58,79-97,131-147, recipient.py:48-77,91-104) |
| `Construct.v` | the binding of call arguments and the __init__ chains of all message, signer and recipient classes (cosebase.py:27-59, cosemessage.py:84-97, enccommon.py:24-32, maccommon.py:23-34, sign1message.py:29-40, signmessage.py:41-54, signer.py:24-35, enc0message.py:30-51, encmessage.py:36-58, mac0message.py:31-40, macmessage.py:46-59, recipient.py:106-129) |
| `Fields.v` | the setters of a message object as steps (cosebase.py:83-122, cosemessage.py:108-138, signer.py:45-50) |
| `CtxEq.v` | the generated `__eq__` of the KDF context classes |
| `Context.v` | `context.py` as mutable objects that programs share |
| `Heap.v` | Enc, Mac and Sign messages, recipients, signers and lists of signers as objects shared by reference |
| `Register.v` | `register_attribute`: the registries as mutable state |
| `Pem.v` | `from_pem_private_key`, `from_pem_public_key` |
| `Repr.v` | `__repr__` of keys and messages |
| `Misc.v` | base64 helpers, `x509.py` |
| `Toy.v` | a toy instance of the primitives that meets all the laws below; the examples compute with it |

Specifications (`Spec*.v`): vocabulary of the theorem statements, written from the
RFCs and the English properties, without the model's helpers. `SpecIana.v` and
`SpecRegistry.v` are the IANA tables, `SpecRfc.v`/`SpecStruct.v`/`SpecWire.v` the RFC
8152/7049 byte structures, `SpecCrypto.v`/`SpecGen.v` the laws of the primitives,
`SpecData.v` plain data, and `SpecKeys.v`, `SpecHdr.v`, `SpecAlg.v`, `SpecTrip.v`,
`SpecMsg.v`, `SpecRcpt.v`, `SpecRcptTrip.v`, `SpecLife.v`, `SpecErr.v`, `SpecRepr.v`,
`SpecAgree.v`, `SpecRecv.v`, `SpecContext.v`, `SpecHeap.v`, `SpecAccept.v`, `SpecMapping.v`, `SpecCheck.v`, `SpecCheck2.v`, `SpecInit.v`, `SpecParts.v`, `SpecCek.v`, `SpecForm.v`, `SpecRegister.v`, `SpecDerive.v`, `SpecAssign.v`, `SpecKeyErr.v`, `SpecViews.v`, `SpecSend.v`, `SpecOrder.v`, `SpecIncomplete.v`, `SpecRcvKey.v`, `SpecSize.v`, `SpecEqual.v`, `SpecStrict.v`, `SpecAtomic.v`, `SpecText.v`, `SpecAlias.v`, `SpecKeyClass.v`, `SpecPlugin.v`, `SpecConstruct.v`, `SpecFields.v`, `SpecUnprot.v`, `SpecNonce.v`, `SpecOthers.v`, `SpecMatters.v`, `SpecTrunc.v`, `SpecB64.v`, `SpecLen.v`, `SpecLen2.v`, `SpecCtxEq.v`, `SpecApart.v`, `SpecAgain.v`, `SpecFresh.v`, `SpecHide.v`, `SpecBulk.v`, `SpecMode.v` the words used for keys,
headers, algorithms, round trips, recipients, texts and shared objects.

Proofs (`*Proofs*.v`, `*Trip*.v`): lemmas only. Properties (`Prop*.v`): the theorems
named in `MANIFEST.json`, each followed by `Print Assumptions`, with an `Example` that
shows a concrete case meeting the hypotheses.

Objects are values: a mutating method is a function from the old object to the
new object and a result, so effects that survive an exception are visible. Where
identity matters (recipient objects, `has_recipient`) objects carry an identity. `Heap.v`
models the sharing of recipients and signers by reference; `HeapProofs.v` proves that for a
message without repeated recipient objects it gives the same results as the value view.
Randomness is a counter threaded through the calls; the primitive maps the counter to
bytes.

## 2. Plan per property

Where the code does not have a property, the faithful model is used to prove a
`..._refuted` theorem (for a witness, or for every input), and the part that does hold
is proved as `..._partial`; the MANIFEST note names the missing part.

* **C01** CBOR encoding of COSE data decodes to the same data (proved). Induction on data items: the decoder inverts the encoder on every well-formed item; values ↔ items by induction on values.
* **C02** Serialisation is unambiguous and prefix-free (proved). Corollary of C01 with an arbitrary continuation: two encodings that are prefixes of one stream are equal.
* **C03** COSE_Sign1 to-be-signed bytes determine what was signed (proved). C02 applied to the four-element structure, against the RFC structure in SpecRfc.v.
* **C04** COSE_Sign signer to-be-signed bytes determine what was signed (proved). As C03 for the five-element structure.
* **C05** Encryption AAD determines headers and external data (proved). As C03 for Enc_structure.
* **C06** MAC input determines headers, external data and payload (proved). As C03 for MAC_structure.
* **C07** Signatures, MACs and AEAD tags cannot be replayed across message types (proved). The context strings differ in the encodings; C02.
* **C08** Zero padding in AES-CBC-MAC never conflates two MAC inputs (proved). CBC-MAC chaining unfolded; two MAC inputs of different length differ before the padding because they are CBOR (prefix-free).
* **C09** MAC tags have exactly the advertised length and are prefixes of the full MAC (proved). Case analysis over the MAC algorithm table, list lemmas, output-length laws.
* **C10** Sign1: encode, decode, verify succeeds (proved). Header round trip + C01 + law of the signature primitive.
* **C11** Detached and attached payloads are interchangeable for Sign1 signatures (proved). Computation of the signed structure for attached and detached payloads.
* **C12** COSE_Sign: every signer verifies after encode and decode (proved). Induction on the signer list over C10.
* **C13** Enc0: decrypting a decoded message returns the plaintext (proved). Header round trip + C01 + AEAD law.
* **C14** Mac0: a decoded message verifies (proved). Header round trip + C01; the tag is recomputed.
* **C15** Mac: a decoded message with direct recipients verifies (partial). Induction on the recipient list; header round trip.
* **C16** Enc with direct encryption: decrypting a decoded message returns the plaintext (partial). As C15 + AEAD law.
* **C17** Enc with key wrap: every recipient can recover the plaintext (partial). Recipient lists from the sender's objects to the receiver's (RcptTrip*.v), key-wrap/OAEP/ECDH laws.
* **C18** Enc with direct key agreement: decoded message decrypts with the peer key (partial). Diffie-Hellman law, KDF context equal on both sides.
* **C19** Enc with key agreement + key wrap: decoded message decrypts with the peer key (partial). C17 + C18.
* **C20** Received protected headers are authenticated as received (proved). The decoder keeps the received bytes; case analysis of the accessor.
* **C21** Protected-header bytes follow the header map through any history of updates (partial). Induction on the operation history.
* **C22** decode dispatches on the CBOR tag and respects the expected class (proved). Case analysis of decode for every byte string.
* **C23** decode consumes the whole input (partial). C02 on the input.
* **C24** Attribute lookup by id, by name and by class agree (partial). Registry lemmas for every attribute value (integers, every string by upper-casing, classes).
* **C25** Registered identifiers match the IANA COSE registries (proved). Table computation against SpecIana.v (typed from the registries).
* **C26** Header maps are normalised on construction (proved). Induction on the header map.
* **C27** Typed header values are validated (partial). One lemma per typed header, lifted to maps by induction.
* **C28** Unknown header parameters are kept or rejected as requested (proved). C26 + header round trip; for signers and recipients, PartProofs.v.
* **C29** get_attr returns the parameter from either bucket, and the default otherwise (partial). Exact case analysis.
* **C30** Algorithm names on the wire decode to the same algorithm (proved). Lookup by name of the lower-cased full name; header round trip; for signers and recipients, PartProofs.v.
* **C31** Key authorisation is exactly type, algorithm and operation match (proved). Exact characterisation.
* **C32** No cryptographic operation runs with an unauthorised key (partial). Every operation unfolds to the check first; no primitive is reached (the result is the same for all primitives).
* **C33** Symmetric keys always hold 16, 24 or 32 bytes (partial). Invariant over every operation history.
* **C34** EC2 keys stay valid under deletions (partial). Invariant over every operation history.
* **C35** OKP keys stay valid under deletions (partial). Invariant over every operation history.
* **C36** A rejected key_ops assignment leaves the key unchanged (partial). Exact characterisation of the setter.
* **C37** COSE_Key encode then decode gives an equal key (partial). Portable keys: constructors produce them, wire form parses back.
* **C38** RSA keys are exactly one of the three RFC 8230 forms (proved). Exact characterisation of accepted parameter sets.
* **C39** from_dict accepts any spelling of key parameters with the same result (partial). Permutation-free spelling relation, dictionary lemmas.
* **C40** Nonce selection: IV header, else base IV combined with partial IV (partial). Xor of byte strings as integers.
* **C41** base64 helpers are mutually inverse (proved). Base64 group arithmetic, for all byte strings.
* **C42** Integers imported into keys keep their value in minimal or curve-size form (proved). Minimal big-endian arithmetic.
* **C43** EC2 public and private parts are consistent (partial). Case analysis of the constructor; curve operations are arbitrary.
* **C44** X.509 thumbprints round-trip and match exactly the hashed certificate (proved). C01 + case analysis.
* **C45** Assigning recipients replaces the recipient list (partial). Induction on the history of assignments.
* **C46** Nested recipients survive decoding (partial). The nested decode call is shown to return no recipients.
* **C47** has_recipient finds exactly the recipients in the tree (partial). Induction on recipient trees.
* **C48** Recipient class mixing rules (proved). Case analysis over the set of classes.
* **C49** Malformed recipients are reported (partial). Induction on the received array.
* **C50** KDF context determines all its inputs (proved). C02 on the context.
* **C51** Generated ephemeral private keys are never sent (proved). Induction on the recipients; the key put in the header has no private part.
* **C52** AES key wrap refuses keys of the wrong size (proved). Case analysis.
* **C53** Content encryption uses a key of the algorithm's size (partial). Case analysis; primitive arguments exposed.
* **C54** ECDSA algorithms use the curve of the key (partial). Case analysis.
* **C55** Critical headers are enforced (partial). Witness.
* **C56** Unsigned, un-MACed and unencrypted encodings decode (partial). Evaluation of decode after encode; with recipients, PartProofs.v and ForwardProofs.v.
* **C57** Encoding twice uses the same content key (partial). Invariant over encode histories.
* **C58** COSE_Mac works with key-wrap recipients (partial). Every path raises.
* **C59** Layered key wrap works without an explicit key (partial). Every path raises.
* **C60** Library-generated ephemeral keys work with direct key agreement (partial). Every path raises.
* **C61** kty and other key properties read back what was assigned (partial). Dictionary lemmas per property.
* **C62** RSA multi-prime parameters survive serialisation (partial). Dictionary lemmas.
* **C63** Mapping interface of keys is consistent (partial). Invariant over histories; dictionary lemmas.
* **C64** Signature structures follow RFC 8152 (partial). Encoder bytes compared with SpecRfc.v.
* **C65** KDF context follows RFC 8152 (partial). As C64.
* **C66** Encoded messages follow the RFC 8152 layouts (proved). Inductive byte-level specification (SpecWire.v, shown to be functional); encoder shown to satisfy it for every message.
* **C67** Algorithms and curves carry their registered parameters (partial). Table computation against SpecIana.v/SpecRegistry.v.
* **C68** A certificate chain hands the end-entity certificate and the intermediates to the validator (partial). Case analysis on the chain.
* **C69** Every registered hash algorithm computes a digest of its registered length (partial). Table + length law.
* **C70** MAC algorithm classes give full-length tags for every input (partial). Table + CBC-MAC length.
* **C71** Received fields have the types the RFC requires (partial). Inversion of every decoder.
* **C72** Restrictions of a key-encryption key are respected (partial). Case analysis of the wrap path.
* **C73** Ephemeral keys supplied by the caller are sent without their private part (partial). Witness and wire form.
* **C74** The text of a key hides its secret (partial). The text depends only on the public part.
* **C75** Every received message can be printed (partial). Induction on header values of decoded messages.
* **C76** Generated keys are usable keys of exactly the requested kind (proved). Laws of key generation in SpecGen.v; constructors; minimal encodings.
* **C77** Decrypting has no lasting effect on a received message (proved). `after_decrypts` (SpecLife.v) collects the states reachable by any calls of `decrypt`; induction over it shows that at most the message key changes (and not for direct recipients) and that `decrypt` does not read it. PropLife.v.
* **C78** Encoding keeps what the user set (proved). `after_encodes` and `after_mac_encodes` collect the states reachable by any calls of `encode` (and `compute_tag`), successful or not. Induction over them, and over the tree of recipients for each call, shows `core_kept`/`rcpt_kept` (SpecLife.v). Encoding of COSE_Sign1, COSE_Sign and COSE_Encrypt0 changes no attribute in the code (the model functions return no new object). PropLife.v.
* **C79** A message can be forwarded unchanged without its keys (partial). Composition of the layout of encodings with the decoder; refuted for COSE_Mac0 and COSE_Sign for every message, for COSE_Mac and for COSE_Encrypt with key wrapping or agreeing recipients for every message, and for text-encoded unprotected algorithms and rewrapped content keys by witnesses. PropLife.v, PropForward.v.
* **C80** decode raises only its documented exceptions (partial). A predicate for the exceptions a computation may raise is pushed through every function decode calls (CBOR decoder, registry lookups, header parsers, key constructors, message and recipient builders), by induction where they recurse; witnesses for each undocumented exception. Exceptions from tags cbor2 turns into dedicated objects (dates, decimals, ...) are not modelled. PropErr.v.
* **C81** Key agreement works wherever the sender's key is announced (partial). The code asks `sender_public_key.crv` before the header value is looked up in the protected map; the model shows that for a recipient as built by the constructor or by decode every path of `compute_cek`, `encrypt` and `decrypt` ends in an exception, for all messages. PropAgree.v.
* **C82** COSE_Mac works with direct key agreement (partial). The HMAC classes have no `get_key_length`: refuted for all messages. For AES-MAC the round trip is composed from the layout of the encoding, the decoder and the agreement law of ECDH. PropAgree.v.
* **C83** Local attributes never influence what is sent (proved). `relocate` (SpecRecv.v) changes the local attributes of a whole tree of recipients; encoding commutes with it, by induction over the size of the tree. PropRecv.v.
* **C84** A header map naming a parameter twice is refused (partial). Messages are given as CBOR items (`sent`, SpecRecv.v); the entry placed first is overwritten in the dict cbor2 builds, so both messages decode alike. The positive part follows each header value through dict building and header parsing back to an entry of the map. PropRecv.v.
* **C85** Message arrays have exactly the number of elements of their type (partial). As C84, with further elements appended to the array; case analysis over message types for missing elements. PropRecv.v.
* **C86** KDF contexts derive keys of 16, 24 or 32 bytes only (partial). Context.v models the objects of context.py in a world of mutable objects with identities; the invariant is kept by every operation but the constructor (induction over histories). PropContext.v.
* **C87** KDF contexts do not influence each other (partial). As C86: a frame theorem over all histories that leave a context and its parts alone; refuted for the shared default PartyInfo for every history before and in between. PropContext.v.
* **C88** Messages do not influence each other (partial). Heap.v models recipients and messages as objects in a store that messages refer to. The store functions refine the value functions of Recipients.v on messages without repeated objects (HeapProofs.v, by induction over the tree of recipients); `alone` (SpecHeap.v) describes the histories of a program with one message and `history_of` projects. The refutation composes this refinement with the content-key theorem behind C57. PropHeap.v.
* **C89** The signatures in a COSE_Sign message sign that message (partial). Heap.v models signers with their parent, lists of signers as objects, and the setter that assigns the parent; `considerate_runs` is the rule a program has to keep. Induction over histories. PropHeap.v.
* **C90** A message is accepted only if the primitive accepts it, and a new message only if the primitive is broken (proved). `sig_accepts`, `mac_accepts`, `aead_opens` (SpecAccept.v) say when the primitive registered for an algorithm accepts; `item`, `has_content`, `new_content`, `fresh` describe a history of authenticated messages of any kind and length. Inversion of the verifying functions, plus the injectivity behind C03-C07. PropAccept.v.
* **C91** A key object is a mapping (partial). `key_iter`, `key_len`, `key_items`, `key_values`, `key_get`, `item_pop`, `item_popitem`, `item_clear`, `item_update`, `item_setdefault` and `key_eq` (with Python equality `pyeq`) mirror `__iter__`, `__len__` and the methods inherited from `collections.abc`; an invariant of every history (no parameter twice, every stored label is the canonical one) gives the agreement of the views; refuted for `popitem`/`clear` of keys that are not RSA, for a failing deletion of x, and for equality.
* **C92** Checking or decrypting a received message raises only COSE exceptions (partial). `typed` (SpecCheck.v) says what a well-formed key is; `mac_surprise`, `sig_surprise`, `enc_surprise` list every exception that is neither a COSE exception nor one of the primitive, each with the message or key that causes it. Inversion of `decode` gives the invariants of received objects (protected bytes present, IVs are byte strings); case analysis of each step of the checking functions. Constructed keys are shown to be typed. Refuted by five messages, for every primitive. PropCheck.v. For messages with recipients (SpecCheck2.v, CheckProofs2.v, PropCheck2.v): `recipient_surprise` lists the further exceptions; lemmas per recipient class on the recovered content key, and one on decrypting with a derived key.
* **C93** A new key has the parameters it was given (partial). `keeps` (SpecInit.v) says which optional parameters a key holds, through `last_value` and `spells` only; `imported` says which numbers. Induction over the options, then one step for each setter; for imports, the dictionary of numbers and the options stay apart when the options are `silent` about the numbers. Refuted for OKP keys, every curve and every number. PropInit.v.
* **C94** A signer or recipient writes its algorithm the way it was told (partial). `part_on_wire` (SpecParts.v) says how the algorithms of a part are written, given two flags. Induction over the signers and recipients; the layout of the encoded message, then the header round trip for each part. PartProofs.v, PropParts.v.
* **C95** What is sent, and every content key, is computed as RFC 8152 prescribes (partial). `sig_made`, `aead_sealed`, `agreed`, `yields`, `sealed` (SpecCek.v) name the primitive, its parameters from the tables of the RFCs and the key values it gets. Inversion of encode, encrypt and decrypt down to the primitive; induction over the recipients. Refuted for the salt, which is ignored. CekProofs.v, PropCek.v.
* **C96** Every well-formed CBOR encoding of a message is understood (partial). `encoding` (SpecForm.v) is the grammar of RFC 8949 as an inductive relation, `text` the UTF-8 encodings of sequences of scalar values, `ieee` the number of a bit pattern. Mutual induction over the relation (reading) and over the fuel of the decoder (only well-formed). Utf8Proofs.v, FloatProofs.v, FormProofs.v, FormProofs2.v, PropForm.v.
* **C97** Attributes registered by a program are found, and disturb nothing else (partial). `Register.v` models the registries as mutable dicts and the import of the library as the sequence of its decorators. Invariant over all later registrations; the registries after import are computed and equal those of `Registry.v`. RegisterProofs.v, PropRegister.v.
* **C98** A content key shared by direct+HKDF is derived from the shared secret (partial). `Derive.v` models `DirectEncryption.compute_cek`. For any two lists of recipients of that class the model of encrypt, compute_tag and decrypt gives the same result (refuted); the key used for `direct` follows from C95. PropDerive.v.
* **C99** Headers set after construction are treated like headers given to the constructor (partial). `settled_headers` (SpecAssign.v) describes maps as messages keep them; parsing leaves them alone (induction over the map), so constructor and setter meet in the same state. The two refuted statements hold for every registered header, spelling and value. PropAssign.v, PropAssign2.v.
* **C100** Malformed keys are refused with pycose's own exceptions (partial). The list of exceptions by a lemma per function of Keys.v, composed over bind. One byte string per exception shows that each occurs. Two key types in one dictionary: the last one is compared with the class, KeyTypeProofs.v. KeyErrProofs.v, PropKeyErr.v, PropKeyType.v.
* **C101** A message can be protected first and sent later (partial). Equations between the two ways of encoding, by unfolding both; the own object is treated as an arrived message whose headers are the same, so the round-trip lemmas of C10, C13 and C14 apply. PropSteps.v.
* **C102** The attributes and the items of a key are two views of the same parameters (partial). `PropViews.v`: an independent table of the documented attributes is shown to be the one the accessors use; both views are reduced to the store.
* **C103** A complete message is always encoded (partial). `SendProofs.v`, `SendAgree.v`: a predicate for results that are values or one of the listed exceptions is carried through serialisation, key checks, primitives and the recipient loops.
* **C104** The order of headers and key parameters does not matter (partial). `OrderProofs.v`, `OrderKeys.v`: the parsing loops are a monadic map followed by a dictionary update; a monadic map commutes with permutations, and the entries of a map without repeated names can be permuted. Everything else reads maps by lookup.
* **C105** Incomplete messages are not encoded (partial). `IncProofs.v` to `IncProofs5.v` invert the encoders step by step: each step that succeeded fixes one part of the message; the errors of each step are classified the same way.
* **C106** A key can be copied and put into a header unchanged (partial). `CopyProofs.v`: the lookups of `from_dict` in a key object and in the dict of its items are both lookups in the store; class values are read like their identifiers, so the copy is what C37's decoder makes of the wire form.
* **C107** Attribute objects compare and print as what they stand for (partial). `Compare.v` models the operators with Python's reflected dispatch; uniqueness of identifiers within a registry gives equality; the printed forms are compared by computation over the finite registries.
* **C108** A received key is complete and well-typed, and can be sent on (partial). `RcvKeyProofs.v`: what is left of the map after the type's own parameters were taken out names only common and unregistered parameters; what the constructors make of it is a fixed point of their option loop, so the key is one that C37 speaks of.
* **C109** Whatever exists in memory is encoded (proved). `SizeProofs.v`: an object with sizes below 2^63 lowers to a CBOR item with lengths below 2^64, and nothing else raises OverflowError. `SizeProofs2.v`: an upper bound for the length of encodings gives the same for protected headers, which are encoded twice. `SizeProofs3.v`, `SizeProofs4.v`: recipients, including KDF contexts and generated ephemeral keys.
* **C110** Equality of keys (partial). `EqualProofs.v`: == on well-formed values is inclusion of maps up to ==, an equivalence by induction on values; equal maps agree on every attribute an operation reads.
* **C111** Encoding rules of RFC 8152 section 14 (partial). `StrictProofs.v`: induction over the encoder for [strict]; lowering is injective on plain data, so distinct labels stay distinct; a class and its number lower to the same label.
* **C112** A call that fails leaves its object as it was (partial). Case analysis of every operation on keys with its failure; for messages, the recipients are traversed by induction on the forest to show that nothing is generated when they are prepared; the refutations are universally quantified over the failing situation.
* **C113** The text of a key or header map shows what is in it (partial). `TextProofs.v`: the sort is a permutation and sorted; names are distinct for ordinary labels, so the dictionary of names is the list of entries renamed; abbreviating replaces one entry in place. The clash is a counting argument on dictionary updates.
* **C114** The headers of a message are its own (partial). `Alias.v` models objects by address, deepcopy with its memo. `AliasProofs.v`: the memo is a simulation between the original and the copy whose range is new objects (induction on the depth, with the entries in turn); reading is monotone in the depth and stays inside closed sets of objects; a value of finite depth does not contain itself, so a dict's contents survive a change of the dict. `AliasProofs2.v`: frame of a step and of a history.
* **C115** Each way of making a key gives a key of the right class (partial). `KeyClass.v` adds the class a method is called on. `KeyClassProofs.v`: every constructor compares the last value given for the key type with its own; removing the parameters of the class from the map removes no label of the key type.
* **C116** Classes registered by a program are used, and disturb nothing else (partial). `Plugin.v`: the three dicts and the attribute registries as state, registrations as steps. `PluginProofs.v`: lookups in association lists under assignment, induction on the history; the class test is reflected into an inductive relation; the tables after the import are compared with those of `Keys.v` and `Recipients.v` for every value.
* **C117** What is passed to a constructor is what the new object has (partial). `Construct.v`: Python's binding of positional and keyword arguments to parameters, and the chain of __init__ methods of each class. `ConstructProofs.v`: induction on the parameter lists; two calls with the same positional arguments that agree on the meaningful names are bisimilar through the chain.
* **C118** A message holds what was assigned to it last (proved). `Fields.v`: one step per assignment. Induction on the history, each field separately; the specification is the last value given.
* **C119** What is not protected has no say (proved). Relational: two messages equal but for unprotected headers that agree on a listed set of parameters give equal results. Structural recursion over the tree of recipients for COSE_Encrypt; `core_from_obj` of arrays that differ in their second element gives related messages.
* **C120** A nonce is used once (partial). The nonce of a numbered message is the shortest big-endian form of number XOR base IV; XOR with a constant and that form are injective; induction on the series of messages. The nonce is the one the AEAD is called with, by the C95 theorems. For content keys made by the library: from C129, the key in the message after encode() is the output of the random source at its position.
* **C121** Signers and recipients do not disturb each other (proved). Entries are decoded one by one, so equal entries give equal signers and recipients up to their identity; decryption looks at the other recipients only for the classes present, and under the mixing rule of C48 that is decided by the class of the recipient itself. Induction over the lists of signers.
* **C122** Which parameters of a key matter (proved). Each operation is followed down to the attributes of the key it reads. For the public part, looking up a label in a map from which other labels were removed.
* **C123** A truncated message or key is refused (proved). A compositional lemma about readers: one that succeeds on a longer input either does not need the additional bytes or runs out of input; by induction on the fuel of the CBOR decoder. What is encoded is exactly one item.
* **C124** What base64decode makes of a text (partial). An invariant on the state of the decoder: the digits read so far, as a number in base 64, are the bytes written so far followed by the pending bits.
* **C125** The size of a message depends on its headers and lengths only (proved). From the exact layouts of C66 and the uniqueness of the encoding of headers; lengths of heads are computed, lengths of tags come from C09's lemmas. For recipients by induction on the height of the forest: the content key loop gives both messages content keys of the same length.
* **C126** Equality of KDF contexts (partial). The attrs-generated __eq__ is modelled over the worlds of C87 with the Python equality of C110, whose laws lift to contexts; the converse direction uses C50.
* **C127** Messages, keys and authenticated structures are never mistaken for each other (proved). Each kind of bytes is the canonical encoding of an array beginning with a text, a byte string or an integer, of a map, or of a tag; the encoding is injective and the decoder inverts it.
* **C128** Encoding again gives the same bytes (proved). Induction on the nesting of recipients: an encoded recipient is a fixed point of encode; the loop that hands out the content key is a fixed point once every recipient has one.
* **C129** Random keys are never used twice (proved). A relation between the recipients before and after, with the list of positions drawn from; it composes along siblings, nested recipients, the two passes of encode() and the calls of a history, because each part draws from its own interval of positions. The same for messages and content keys, with the invariant that the recipients given the content key are a prefix of the list.
* **C130** Encoded messages show nothing but headers and lengths (proved). Noninterference: relational proof along two runs of encode(), by induction on the recipient tree; the primitives' outputs are equal by the laws, the rest of the array depends on headers only.
* **C131** Decoding does not inflate what was received (proved). Weights of CBOR items and Python values; induction on the decoder's fuel shows weight plus remaining input never exceeds the input, induction on items shows that lifting does not add weight, and each constructor of a message keeps the sum. For keys, looking up a parameter and removing it from the dictionary are accounted together.
* **C132** The strict mode refuses, but never changes (proved). A relation 'same or CoseException' that sequencing preserves, shown for the lookup of an attribute and carried through header maps, recipients, signers and messages; for exactness, an invariant that stored names are registered classes or unknown, and that a stored name stays. The round trips of C10 and C12-C14 then carry over to strict receivers.

## 3. Trusted base

* The kernel of Coq 8.16.1.
* `Print Assumptions` prints "Closed under the global context" for every theorem in
  `Prop*.v`: no axiom is used by any of them. The axioms that the whole-development
  check lists (`Coq.ssr.ssrunder.Under_rel.*`) are parameters of a module type of the
  standard library that is loaded, not used, through `Lia`/`Zify`.
* The laws of the primitives are hypotheses of the theorems that use them, never axioms:
  `law_rsa`, `law_ecdsa`, `law_ed` (a signature verifies), `law_gcm`, `law_ccm`,
  `law_wrap`, `law_oaep` for consistent keys (decryption inverts encryption),
  `law_wrap_some`, `law_oaep_some` (outputs are not empty), `law_ecdh` (both sides agree),
  `law_hash_len`, `law_hmac_len`, `law_aes_len`, `law_urandom_len`, `law_hkdf_len`
  (lengths), `law_ec_gen`, `law_okp_gen`, `law_rsa_gen` (generated keys are well formed).
  All are satisfied by `Toy.v`. No security assumption (unforgeability, secrecy) is made:
  injectivity properties (C03–C08, C50) are about the bytes given to the primitives.
* That the model says what the code does. It was written from the text of /repo; nothing
  was executed. Line numbers are cited with each definition.
* cbor2: modelled from its documented and known behaviour (C01's decoder accepts
  indefinite lengths, all float widths, bignum tags; the encoder writes preferred
  lengths, half-width NaN and infinities and full-width doubles). Tags with special Python
  meaning (dates, fractions, sets, references, ...) become opaque values (`VOther`).

Not modelled: the PEM parser (a parameter of `Pem.v`),
certificate validation (the validator is a parameter),
logging, docstrings, static tables used only by
documentation, time and memory, threads, cbor2's C/Python variants and recursion limits,
timing side channels, the limit recent Python versions put on the digits of an integer that is
printed (an exception whose text would name an integer of more than 4300 digits becomes a ValueError).

Simplifications, each stated at its definition:

* upper-casing of non-ASCII letters beyond those that map into ASCII (`Bytes.v`);
* opaque cbor2 objects for special tags (`Cbor.v`);
* maps used as dict keys (cannot occur in Python) are compared structurally (`Value.v`);
* a few type errors on exotic argument types are one exception class (`Keys.v`,
  `Algorithms.v`, `Repr.v`);
* objects are values but in `Context.v`, `Heap.v` and `Register.v`; lists of recipients do not change
  once several messages share a recipient (`Heap.v`).

## 4. Testing the theorems

`seeded/LOG.jsonl` has one line per wrong program: the model is edited in a scratch copy
the way a realistic bug would change the code, everything is rebuilt, and the theorems
that stop proving are recorded, with those that were tightened when the claim turned false but
its theorem still proved.
