{"id": "C01", "title": "Output prefix is a fixed, injective function of prefix type and key id", "statement": "The 5-byte prefix put in front of ciphertexts, tags and signatures is 0x01 followed by the big-endian key id for TINK keys, 0x00 followed by the big-endian key id for LEGACY and CRUNCHY keys, and empty for RAW keys; every other prefix type is rejected with TinkError. Two keys of the same non-RAW type have the same prefix iff they have the same id.", "quantifier": "every key (all 2^32 key ids, every prefix-type integer)", "why_tests_cant": "2^32 ids times all open-enum values cannot be enumerated", "anchors": ["python/tink/core/_crypto_format.py:output_prefix"]}
{"id": "C02", "title": "AEAD decryption only ever returns what an enabled key of the keyset accepts", "statement": "If decrypt(ct, ad) on the Aead obtained from a keyset handle returns pt, then there is an ENABLED key in the keyset whose own primitive decrypts either the whole ct (RAW key) or ct with that key's 5-byte prefix removed (non-RAW key, something left after the prefix) to pt under the same ad.", "quantifier": "every keyset, registry, ciphertext, associated data and behaviour of the per-key primitives", "why_tests_cant": "soundness must hold for every adversarial ciphertext and keyset", "anchors": ["python/tink/aead/_aead_wrapper.py:_WrappedAead.decrypt", "python/tink/_keyset_handle.py:KeysetHandle.primitive"]}
{"id": "C03", "title": "AEAD decryption tries all candidate keys, in a fixed order, and the first success wins", "statement": "decrypt(ct, ad) equals: run through the ENABLED non-RAW keys whose prefix equals the first 5 bytes of ct (only when ct is longer than 5 bytes), in keyset order, on the remainder; then the ENABLED RAW keys in keyset order on all of ct; return the first success; a TinkError from a key means 'try the next', any other exception is raised at once; TinkError if all fail.", "quantifier": "every keyset, ciphertext, associated data and behaviour of the per-key primitives", "why_tests_cant": "the order of attempts over arbitrary keysets and failure patterns is unbounded", "anchors": ["python/tink/aead/_aead_wrapper.py:_WrappedAead.decrypt", "python/tink/core/_primitive_set.py"]}
{"id": "C04", "title": "AEAD encryption uses exactly the primary key, and decrypt inverts it", "statement": "encrypt(pt, ad) is the primary key's prefix followed by the primary key's own encryption of (pt, ad); and decrypt of it under the same ad returns pt whenever the primary key's primitive round-trips to a non-empty ciphertext and no other enabled key accepts that ciphertext.", "quantifier": "every keyset with a primary, plaintext, associated data, encryption randomness", "why_tests_cant": "round trip must hold for all inputs and all keysets", "anchors": ["python/tink/aead/_aead_wrapper.py:_WrappedAead.encrypt", "python/tink/aead/_aead_wrapper.py:_WrappedAead.decrypt"]}
{"id": "C05", "title": "Key rotation never breaks decryption of old ciphertexts", "statement": "If a keyset's Aead decrypts a ciphertext, then any keyset that contains the same enabled keys plus any further keys, in any position, and any choice of primary, still decrypts that ciphertext (to the result of some key accepting it; to the same plaintext if no added key accepts it).", "quantifier": "every pair of keysets related by rotation (additions, primary change), every ciphertext", "why_tests_cant": "ranges over all histories of rotation operations", "anchors": ["python/tink/aead/_aead_wrapper.py", "python/tink/_keyset_handle.py:KeysetHandle.primitive"]}
{"id": "C06", "title": "Non-enabled keys have no influence on primitives", "statement": "The primitive obtained from a handle is a function of the ENABLED keys only: replacing the key material, id or prefix type of DISABLED/DESTROYED keys (keeping the keyset valid) does not change the result of any primitive operation, and ciphertexts that only disabled keys accept are rejected.", "quantifier": "every pair of valid keysets that agree on ENABLED keys and primary id", "why_tests_cant": "non-interference is a relation between all pairs of executions", "anchors": ["python/tink/_keyset_handle.py:KeysetHandle.primitive"]}
{"id": "C07", "title": "Deterministic AEAD: determinism, round trip, soundness, completeness", "statement": "encrypt_deterministically is a function of (pt, ad) only, equals primary prefix followed by the primary's ciphertext, and decrypt_deterministically obeys the same candidate-order law as Aead.decrypt.", "quantifier": "every keyset, plaintext, ciphertext, associated data", "why_tests_cant": "determinism and soundness range over all inputs", "anchors": ["python/tink/daead/_deterministic_aead_wrapper.py"]}
{"id": "C08", "title": "MAC: tags carry the primary prefix, LEGACY appends a zero byte, verification is sound and complete", "statement": "compute_mac(data) is the primary's prefix followed by the primary's MAC of data (data followed by 0x00 iff the primary is LEGACY). verify_mac(tag, data) succeeds iff tag is longer than 5 bytes and some enabled key accepts: a prefix key with matching first 5 bytes accepts the rest of the tag (for data, or data||0x00 iff that key is LEGACY), or a RAW key accepts the whole tag.", "quantifier": "every keyset, tag, data and per-key primitive", "why_tests_cant": "acceptance must be characterised for every forged tag", "anchors": ["python/tink/mac/_mac_wrapper.py"]}
{"id": "C09", "title": "Signatures: same law as MAC for sign/verify", "statement": "sign and verify obey the law of C08 with signatures in place of tags, including LEGACY zero-byte suffix and the rejection of signatures of at most 5 bytes.", "quantifier": "every keyset, signature, data and per-key primitive", "why_tests_cant": "acceptance must be characterised for every forged signature", "anchors": ["python/tink/signature/_signature_wrapper.py"]}
{"id": "C10", "title": "Hybrid encryption: encrypt uses the public primary, decrypt obeys the candidate-order law", "statement": "HybridEncrypt.encrypt is the primary public key's prefix followed by its ciphertext; HybridDecrypt.decrypt of a private keyset obeys the candidate-order law; together they round trip through public_keyset_handle because prefixes depend only on ids and types that the public keyset preserves.", "quantifier": "every key pair keyset, plaintext, context info", "why_tests_cant": "for all keysets and inputs", "anchors": ["python/tink/hybrid/_hybrid_wrapper.py", "python/tink/_keyset_handle.py:KeysetHandle.public_keyset_handle"]}
{"id": "C11", "title": "PRF set exposes exactly the enabled keys by id", "statement": "A PrfSet can only be built when all enabled keys are RAW; its all() maps each id of an enabled key to that key's PRF (the last one in keyset order if ids repeat), primary_id is the keyset's primary id and primary() the PRF of the primary key.", "quantifier": "every keyset", "why_tests_cant": "ranges over all keysets", "anchors": ["python/tink/prf/_prf_set_wrapper.py"]}
{"id": "C12", "title": "Primitives obtained from a keyset only raise TinkError", "statement": "If every per-key primitive raises only TinkError, then every operation of the wrapped Aead, DeterministicAead, Mac, PublicKeySign/Verify, HybridEncrypt/Decrypt on any bytes either returns or raises TinkError.", "quantifier": "every keyset and every input byte string", "why_tests_cant": "absence of unexpected exceptions must hold for all inputs", "anchors": ["python/tink/aead/_aead_wrapper.py", "python/tink/mac/_mac_wrapper.py", "python/tink/signature/_signature_wrapper.py", "python/tink/daead/_deterministic_aead_wrapper.py", "python/tink/hybrid/_hybrid_wrapper.py"]}
{"id": "C13", "title": "Keyset validation accepts exactly the usable keysets", "statement": "Creating a keyset handle (generating, reading, importing a proto, deriving a public handle) validates the keyset: it is accepted iff it has at least one non-DESTROYED key, every non-DESTROYED key has key data, a known output prefix type and a known status, at most one ENABLED key carries the primary id, and either one does or all keys, DESTROYED ones included, have public key material. Otherwise TinkError.", "quantifier": "every keyset", "why_tests_cant": "the decision must be right for every keyset shape", "anchors": ["python/tink/_keyset_handle.py:_validate_keyset", "python/tink/_keyset_handle.py:_validate_key"]}
{"id": "C14", "title": "generate_new yields a fresh single-key keyset that validates", "statement": "generate_new(template) yields a keyset with exactly one ENABLED key, which is primary, has an id in 1..2^31-1, carries the template's output prefix type and the key data produced by the registry; it raises TinkError for templates with unknown prefix type, unregistered type url or type urls for which new keys are not allowed.", "quantifier": "every template, registry state and random choice", "why_tests_cant": "random ids and arbitrary templates", "anchors": ["python/tink/_keyset_handle.py:KeysetHandle.generate_new", "python/tink/_keyset_handle.py:_generate_unused_key_id"]}
{"id": "C15", "title": "Encrypted keyset write/read round trip", "statement": "If write(_with_associated_data) succeeds with some master Aead, then reading what was written back with the same Aead and the same associated data yields the same keyset, in both binary and JSON keyset formats.", "quantifier": "every keyset, master key primitive, associated data", "why_tests_cant": "all keysets and all byte values", "anchors": ["python/tink/_keyset_handle.py:KeysetHandle.write_with_associated_data", "python/tink/_keyset_handle.py:_encrypt", "python/tink/_keyset_handle.py:_decrypt", "python/tink/_keyset_writer.py", "python/tink/_keyset_reader.py"]}
{"id": "C16", "title": "Encrypted writing never emits a keyset that the master key cannot read back", "statement": "If the master Aead's decrypt does not invert its encrypt on this keyset, write raises TinkError and nothing is written to the stream.", "quantifier": "every keyset and every (faulty) master Aead", "why_tests_cant": "faulty remote KMS behaviours are unbounded", "anchors": ["python/tink/_keyset_handle.py:_encrypt"]}
{"id": "C17", "title": "No-secret APIs never let secret key material through", "statement": "write_no_secret, read_no_secret, serialize_without_secret and parse_without_secret raise TinkError, and write nothing, when any key's material type is SYMMETRIC, ASYMMETRIC_PRIVATE or UNKNOWN_KEYMATERIAL; otherwise they round trip.", "quantifier": "every keyset", "why_tests_cant": "a leak for any keyset is a failure", "anchors": ["python/tink/_keyset_handle.py:_assert_no_secret_key_material", "python/tink/_proto_keyset_format.py", "python/tink/_json_proto_keyset_format.py"]}
{"id": "C18", "title": "Keyset info reveals no key material", "statement": "keyset_info() and the unencrypted part of a written encrypted keyset depend only on primary id, type urls, statuses, ids and prefix types: keysets differing only in key values give the same info.", "quantifier": "every pair of keysets that differ in key values only", "why_tests_cant": "non-interference over pairs of keysets", "anchors": ["python/tink/_keyset_handle.py:_keyset_info", "python/tink/_keyset_handle.py:KeysetHandle.keyset_info"]}
{"id": "C19", "title": "Cleartext secret access requires the secret token", "statement": "Proto/JSON parse and serialize and proto-keyset import/export of secret keysets raise TinkError for any token that is not a SecretKeyAccess, for every keyset, and return nothing about the keyset.", "quantifier": "every token value and keyset", "why_tests_cant": "gating must hold for all tokens and keysets", "anchors": ["python/tink/_insecure_keyset_handle.py", "python/tink/_proto_keyset_format.py", "python/tink/_json_proto_keyset_format.py", "python/tink/_keyset_handle.py:has_secret_key_access"]}
{"id": "C20", "title": "public_keyset_handle keeps ids, statuses, prefix types, order and primary and replaces all key data", "statement": "If it succeeds the result has the same primary id and, position by position, the same key id, status and output prefix type, and each key's data is what the registered private key manager returns as public key data for it; it raises TinkError if any key is not ASYMMETRIC_PRIVATE or its manager is not a private-key manager.", "quantifier": "every keyset and registry", "why_tests_cant": "all keysets and positions", "anchors": ["python/tink/_keyset_handle.py:KeysetHandle.public_keyset_handle", "python/tink/core/_registry.py:Registry.public_key_data"]}
{"id": "C21", "title": "Binary keyset serialization round trips", "statement": "Parsing the binary serialization of any keyset / encrypted keyset yields an equal message; hence serialization is injective.", "quantifier": "every keyset message", "why_tests_cant": "unbounded messages and byte values", "anchors": ["python/tink/_proto_keyset_format.py", "python/tink/_keyset_reader.py:BinaryKeysetReader", "python/tink/_keyset_writer.py:BinaryKeysetWriter", "python/tink/proto/tink.proto"]}
{"id": "C22", "title": "Parsers of untrusted keysets only raise TinkError", "statement": "Reading a keyset (clear, encrypted or no-secret) from arbitrary bytes (binary format) or arbitrary text (JSON format) either yields a handle or raises TinkError. For JSON this needs a protobuf runtime whose json_format.Parse turns every failure into ParseError; with older runtimes it still holds for every text that is not JSON or whose document is an object, list or string without infinite numbers, and the unrestricted claim is refuted (the text 'null' raises TypeError).", "quantifier": "every byte string and every text", "why_tests_cant": "all malformed inputs", "anchors": ["python/tink/_keyset_reader.py", "python/tink/_proto_keyset_format.py", "python/tink/_keyset_handle.py"]}
{"id": "C23", "title": "Registry: managers are never replaced and 'new key allowed' never comes back", "statement": "Over any history of registrations, once a key manager is registered for a type url that url keeps resolving to that same manager; once new keys are disallowed for a type url they stay disallowed, and new_key_data then always raises TinkError.", "quantifier": "every sequence of registry operations", "why_tests_cant": "invariant over unbounded histories", "anchors": ["python/tink/core/_registry.py:Registry.register_key_manager"]}
{"id": "C24", "title": "Registry operations respect types", "statement": "primitive(key_data, cls) only succeeds via the manager registered for that url and with that primitive class; public_key_data only for ASYMMETRIC_PRIVATE data with a private key manager; wrap only with the wrapper registered for the class; unregistered url or class gives TinkError; failed registrations leave the registry unchanged.", "quantifier": "every registry state reachable by any history, every key data", "why_tests_cant": "all histories and arguments", "anchors": ["python/tink/core/_registry.py"]}
{"id": "C25", "title": "Primitive sets return entries grouped by prefix in insertion order", "statement": "After any sequence of add_primitive calls, primitive_from_identifier(p) returns exactly the entries whose prefix is p in insertion order, raw_primitives those with empty prefix, all() each prefix's entries in first-seen order, and primary() the entry of the last set_primary or TinkError.", "quantifier": "every sequence of additions", "why_tests_cant": "unbounded histories", "anchors": ["python/tink/core/_primitive_set.py"]}
{"id": "C26", "title": "KMS client lookup returns the first registered client that supports the URI", "statement": "After any sequence of registrations kms_client_from_uri(u) returns the earliest registered client that supports u and raises TinkError iff none does.", "quantifier": "every registration history and URI", "why_tests_cant": "unbounded histories", "anchors": ["python/tink/_kms_clients.py"]}
{"id": "C27", "title": "Envelope encryption: exact format and round trip", "statement": "encrypt(pt, ad) = 4-byte big-endian length of the encrypted DEK, the DEK encrypted by the remote Aead with empty associated data, then the DEK's own encryption of (pt, ad); decrypt inverts it whenever remote and DEK primitives round trip.", "quantifier": "every plaintext, associated data, DEK, remote Aead behaviour", "why_tests_cant": "all lengths and contents", "anchors": ["python/tink/aead/_kms_envelope_aead.py"]}
{"id": "C28", "title": "Envelope decryption rejects malformed ciphertexts and checks lengths", "statement": "decrypt succeeds only if ct has at least 4 bytes and the announced DEK length fits in the rest, the remote Aead decrypts exactly that slice, and the resulting key decrypts exactly the remaining slice with the caller's ad; otherwise TinkError (when the collaborators raise TinkError).", "quantifier": "every ciphertext", "why_tests_cant": "all malformed ciphertexts", "anchors": ["python/tink/aead/_kms_envelope_aead.py:KmsEnvelopeAead.decrypt"]}
{"id": "C29", "title": "Envelope AEAD only accepts the five supported DEK types", "statement": "Constructing an envelope Aead with a DEK template of any other type url raises TinkError.", "quantifier": "every template", "why_tests_cant": "all type urls", "anchors": ["python/tink/aead/_kms_envelope_aead.py", "python/tink/aead/_kms_aead_key_manager.py"]}
{"id": "C30", "title": "KMS clients only serve URIs they are bound to", "statement": "An AWS/GCP/Vault client bound to a key URI supports and returns an Aead exactly for that URI; an unbound client for every well-formed URI with its prefix; the remote key name/ARN/endpoint is the URI without the prefix.", "quantifier": "every bound URI and requested URI", "why_tests_cant": "all strings", "anchors": ["python/tink/integration/awskms/_aws_kms_client.py", "python/tink/integration/gcpkms/_gcp_kms_client.py", "python/tink/integration/hcvault/_hcvault_kms_aead.py"]}
{"id": "C31", "title": "Associated data is bound to KMS ciphertexts injectively", "statement": "The AWS encryption context determines the associated data: different associated data give different contexts, empty associated data gives the empty context.", "quantifier": "every pair of associated data strings", "why_tests_cant": "all byte strings", "anchors": ["python/tink/integration/awskms/_aws_kms_client.py:_encryption_context"]}
{"id": "C32", "title": "base64url encoding of JWT parts round trips and rejects foreign characters", "statement": "Decoding the encoding of any bytes yields them; any string containing a character outside A-Z a-z 0-9 - _ (including '=') or of length 1 mod 4 is rejected with an error.", "quantifier": "every byte string and every character string", "why_tests_cant": "all inputs", "anchors": ["python/tink/jwt/_jwt_format.py:base64_encode", "python/tink/jwt/_jwt_format.py:base64_decode"]}
{"id": "C33", "title": "JSON payload encoding round trips", "statement": "Serialising any JSON value built of strings without lone surrogates, integers, floats, booleans, null, lists and string-keyed dicts and parsing it back yields the same value, key order included.", "quantifier": "every JSON value", "why_tests_cant": "unbounded nesting and strings", "anchors": ["python/tink/jwt/_json_util.py:json_dumps", "python/tink/jwt/_json_util.py:json_loads"]}
{"id": "C34", "title": "JSON parsing rejects duplicate keys at every level", "statement": "json_loads raises JwtInvalidError on any document in which some object, at any depth, has a repeated key; accepted values are the plain JSON reading of the document.", "quantifier": "every document", "why_tests_cant": "all documents, all depths", "anchors": ["python/tink/jwt/_json_util.py:_dict_with_validation"]}
{"id": "C35", "title": "Compact JWT splitting accepts exactly header.payload.signature", "statement": "Splitting a compact token succeeds iff it consists of exactly three dot-separated parts that are valid unpadded base64url (header and payload being UTF-8); the bytes handed to signature verification are exactly those before the last dot.", "quantifier": "every token string", "why_tests_cant": "all strings", "anchors": ["python/tink/jwt/_jwt_format.py:split_signed_compact"]}
{"id": "C36", "title": "JWT sign/verify round trip", "statement": "A token made by a keyset from any raw JWT (whose strings are valid Unicode and whose integers are within Python's digit limit) is accepted by every keyset that contains the key (or its public key), with any validator that accepts the claims, and decodes to the same claims and type header (an empty type header is not sent).", "quantifier": "every raw JWT, key, algorithm, kid, validator and time", "why_tests_cant": "all payloads and validators", "anchors": ["python/tink/jwt/_jwt_hmac_key_manager.py", "python/tink/jwt/_jwt_signature_key_manager.py", "python/tink/jwt/_jwt_format.py"]}
{"id": "C37", "title": "JWT verification is sound", "statement": "If verify_and_decode returns claims for a token, then the token is header.payload.signature, the key accepted the signature over exactly header.payload, the header is a JSON object naming the key's algorithm (up to letter case), without crit, with the key's kid for TINK keys, the payload parses to those claims without duplicate keys, and the claims satisfy the validator.", "quantifier": "every token string, key and validator", "why_tests_cant": "all forged tokens", "anchors": ["python/tink/jwt/_jwt_hmac_key_manager.py", "python/tink/jwt/_jwt_signature_key_manager.py", "python/tink/jwt/_jwt_format.py:validate_header"]}
{"id": "C38", "title": "JWT validator decides exactly the documented conditions", "statement": "validate accepts iff: expiration present (or allowed missing) and later than now minus skew; not-before absent or at most now plus skew; issued-at present and at most now plus skew when required; type header, issuer and audience each equal/contain the expected value, or are absent when nothing is expected, or are ignored.", "quantifier": "every validator configuration, claim set and time", "why_tests_cant": "product of all configurations, claims and instants", "anchors": ["python/tink/jwt/_jwt_validator.py:validate"]}
{"id": "C39", "title": "Validator construction rejects contradictory or excessive settings", "statement": "Construction fails, with ValueError, iff a non-empty expectation is given together with the matching ignore flag, the clock skew exceeds 10 minutes, or fixed_now has no timezone. (Refuted: an empty expectation together with the ignore flag, and a negative skew, are not refused.)", "quantifier": "every argument combination", "why_tests_cant": "all combinations", "anchors": ["python/tink/jwt/_jwt_validator.py:JwtValidator.__init__"]}
{"id": "C40", "title": "Raw JWTs only hold well-typed registered claims", "statement": "Any raw JWT obtained by the constructor or by parsing has string iss/sub/jti, numeric exp/nbf/iat in 0..253402300799, and aud a string or a non-empty list of strings; accessors return those values; audiences() is always a non-empty list of strings. new_raw_jwt holds exactly the claims asked for, times in whole seconds. (Refuted: NaN and true pass as timestamps; an empty issuer or subject is dropped; the last microseconds of the year 9999 are refused.)", "quantifier": "every argument combination and payload", "why_tests_cant": "all payloads", "anchors": ["python/tink/jwt/_raw_jwt.py"]}
{"id": "C41", "title": "JWT keyset verification: accepted by some enabled key; failures are informative", "statement": "For a keyset's JwtMac / JwtPublicKeyVerify only the primary key makes tokens, and verification tries every enabled key once, each with its own kid; the first outcome that is not a TinkError decides; if all keys fail the last JwtInvalidError is raised, else a TinkError. Keys that accept a token agree about its claims, so that the order (keyset order, but keys with the same prefix together; refuted: exact keyset order) does not matter for accepted tokens.", "quantifier": "every keyset, token and validator", "why_tests_cant": "all keysets and failure patterns", "anchors": ["python/tink/jwt/_jwt_mac_wrapper.py", "python/tink/jwt/_jwt_signature_wrappers.py"]}
{"id": "C42", "title": "JWT kid of TINK keys identifies the key id", "statement": "Tokens made with a TINK key carry kid = base64url of the big-endian key id; the map from ids to kids is injective, and a verifier with a TINK key rejects tokens whose kid is absent or belongs to another id.", "quantifier": "every key id", "why_tests_cant": "2^32 ids, all tokens", "anchors": ["python/tink/jwt/_jwt_format.py:get_kid", "python/tink/jwt/_jwt_format.py:validate_header"]}
{"id": "C43", "title": "JWT verification of tokens that are not authentic only raises TinkError", "statement": "verify_and_decode on any string that no key of the keyset authenticates raises a TinkError, and the exceptions one key can raise for other tokens are listed. (Refuted for authenticated tokens: headers that are not objects, algorithms that are not strings and NaN timestamps raise AttributeError and ValueError.)", "quantifier": "every token string", "why_tests_cant": "all inputs", "anchors": ["python/tink/jwt/_jwt_format.py:validate_header", "python/tink/jwt/_raw_jwt.py", "python/tink/jwt/_jwt_validator.py"]}
{"id": "C44", "title": "JWK set export/import round trip", "statement": "Exporting a public JWT keyset succeeds exactly when it holds no secret keys and every enabled key is a public JWT ECDSA, RSA-PKCS1 or RSA-PSS key with known algorithm and TINK or RAW prefix; the text then lists exactly the JWKs of the enabled keys, in order. Importing that text yields a keyset with, position by position, the same key type, algorithm and public key bytes, and kid preserved as custom kid; all RAW, ENABLED, ASYMMETRIC_PUBLIC with distinct ids and primary the last key, for all random choices. (The version of a key is lost; a key value that cannot be parsed raises DecodeError instead of TinkError: both shown by witnesses.)", "quantifier": "every public JWT keyset and every sequence of random ids", "why_tests_cant": "all keysets and random ids", "anchors": ["python/tink/jwt/_jwk_set_converter.py:from_public_keyset_handle", "python/tink/jwt/_jwk_set_converter.py:to_public_keyset_handle"]}
{"id": "C45", "title": "JWK import never accepts private keys or mismatched parameters", "statement": "A text is imported exactly when it is a JSON object whose 'keys' is a non-empty list of public JWKs of supported algorithms, and each key of the result holds the bytes, algorithm and kid of the JWK at its position. So any JWK with private parameters, with unknown or missing alg, with kty/crv not matching alg, with use other than sig or key_ops other than [verify] is refused: with TinkError if the members of the JWKs have the JSON types of RFC 7517/7518. (Other member types are refused with AttributeError, KeyError, TypeError...: shown by witnesses.)", "quantifier": "every text shorter than 8 MiB", "why_tests_cant": "all JSON documents", "anchors": ["python/tink/jwt/_jwk_set_converter.py:to_public_keyset_handle", "python/tink/jwt/_jwk_set_converter.py:_convert_to_ecdsa_key"]}
{"id": "C46", "title": "Rewindable stream: replay is transparent", "statement": "For every schedule of reads, rewinds and disable_rewind, and every behaviour of the source, the bytes returned since the last rewind form a prefix of the bytes the source has returned; the next read continues there, and the source is asked for more only after all of them; rewind raises exactly when it has been disabled. (Provided no read(-1) raised: an exception in the middle of a read(-1) loses the bytes read before it, which is shown by a witness.)", "quantifier": "every schedule and every source behaviour (short reads, would-block, EOF)", "why_tests_cant": "all interleavings", "anchors": ["python/tink/streaming_aead/_rewindable_input_stream.py"]}
{"id": "C47", "title": "Streaming decryption commits to one key", "statement": "Every key tried by the decrypting stream sees the ciphertext from its beginning, as if it were alone on its own copy of the file; once a read has succeeded all later reads come from that same key's stream; keys are tried in keyset order grouped by output prefix, each at most once; when one key decrypts the ciphertext and the others refuse it, exactly its plaintext is returned; when all refuse, TinkError. The first close() closes the source once and passes its exception on; a closed stream answers every read with ValueError and never touches the source again. (An exception of the source during the first read makes the right key be given up, and a key whose stream cannot be created stops the search: both shown by witnesses.)", "quantifier": "every keyset, source behaviour and read schedule", "why_tests_cant": "all interleavings of reads, blocking and failures", "anchors": ["python/tink/streaming_aead/_streaming_aead_wrapper.py"]}
{"id": "C48", "title": "Python-to-C++ input stream adapter delivers exactly the source bytes", "statement": "For every sequence of next and back-up requests and every chunking of the Python file object, the bytes consumed through the adapter are exactly the prefix of the file's bytes of length position(), and the end is reported only after the last byte. (Provided the text of no other exception of the file object contains EOFError; otherwise it is taken for the end: witness.)", "quantifier": "every call sequence and source behaviour", "why_tests_cant": "all interleavings", "anchors": ["python/tink/cc/python_input_stream.cc", "python/tink/streaming_aead/_file_object_adapter.py"]}
{"id": "C49", "title": "Python-to-C++ output stream adapter delivers exactly the written bytes", "statement": "For every sequence of writes and every pattern of partial writes of the Python file object, after a successful close the file received exactly the concatenation of the data written, in order; before that, always a prefix of it.", "quantifier": "every call sequence and partial-write pattern", "why_tests_cant": "all interleavings", "anchors": ["python/tink/cc/python_output_stream.cc", "python/tink/cc/output_stream_adapter.cc", "python/tink/streaming_aead/_file_object_adapter.py"]}
{"id": "C50", "title": "A failed close leaves a prefix of the data", "statement": "If closing the output stream fails at any point, the destination holds a prefix of the data written. (The stronger claim that this stays true when close is retried, as the destructor does, is refuted by a witness: the whole buffer is written again, so that bytes are duplicated.)", "quantifier": "every failure point", "why_tests_cant": "all crash points", "anchors": ["python/tink/cc/python_output_stream.cc:PythonOutputStream::Close"]}
{"id": "C51", "title": "Reading a raw decrypting stream", "statement": "read(n) returns at most n bytes which are the next plaintext bytes, b'' only at the end of the data, and never None; read(-1) returns all of the remaining plaintext; errors are TinkErrors and occur only if the file object raises; after close, read raises ValueError, close does nothing and the file object is not used. (read(0) returns only at the end of the data: before it, it does not return.)", "quantifier": "every read size and underlying stream behaviour", "why_tests_cant": "all schedules", "anchors": ["python/tink/streaming_aead/_decrypting_stream.py", "python/tink/cc/input_stream_adapter.cc"]}
{"id": "C52", "title": "Keyset builder histories keep ids unique", "statement": "Over any history of builder calls from a keyset with distinct non-zero ids, key ids stay pairwise distinct and non-zero as long as no addition raises; calls on unknown ids raise TinkError and change nothing; a key that is not deleted keeps its data, id and prefix and has the status it was last given; a handle is obtained exactly when the keyset is valid; the raw and legacy variants of a template differ from it only in the prefix type of the key added. (An addition that raises leaves an empty key with id 0, after which no handle can be obtained: shown, with a witness for two keys with the same id.)", "quantifier": "every history of calls, start keyset, registry and random choices", "why_tests_cant": "unbounded histories", "anchors": ["python/tink/testing/keyset_builder.py:KeysetBuilder"]}
{"id": "C53", "title": "Big integer encoding is minimal and exact", "statement": "num_to_bytes(n) is the unique shortest non-empty big-endian encoding of n >= 0; negative n raises.", "quantifier": "every integer", "why_tests_cant": "all integers", "anchors": ["python/tink/internal/big_integer_util.py"]}
{"id": "C54", "title": "Parsed JSON strings are valid Unicode", "statement": "In a value accepted by json_loads no member name, no string that is a member's value and no string in a list that is a member's value contains a lone surrogate. (Strings deeper inside nested lists, or at the top level, are not checked: the stronger claim for every string is refuted by a witness.)", "quantifier": "every document", "why_tests_cant": "all documents", "anchors": ["python/tink/jwt/_json_util.py:_validate_value"]}
{"id": "C55", "title": "JSON keyset serialization round trips", "statement": "What the JSON keyset writer writes is a JSON document showing exactly the keyset (proto3 JSON mapping: enum names, standard padded base64, defaults left out), the JSON reader reads every document that shows a keyset -- whatever the order of members, white space, base64 alphabet or padding -- as that keyset, and so parsing the JSON serialization of any keyset or encrypted keyset yields an equal message; whatever was read can be written and read again.", "quantifier": "every keyset message and every document that shows it", "why_tests_cant": "unbounded messages", "anchors": ["python/tink/_json_proto_keyset_format.py", "python/tink/_keyset_reader.py:JsonKeysetReader", "python/tink/_keyset_writer.py:JsonKeysetWriter"]}
{"id": "C56", "title": "Key templates decode to the parameters they were asked for", "statement": "Each template constructor succeeds exactly when its arguments fit the fields of the key format message (otherwise it raises ValueError or OverflowError). The template it returns has the documented key type and output prefix type, and its value, parsed as the key format message of that key type, has exactly the parameters passed, every other field being unset. Two different requests never give the same template. Every predefined template exported by the package carries the parameters and the prefix type its name promises.", "quantifier": "every constructor, every argument value, every predefined template", "why_tests_cant": "all parameter values, including those at the borders of the integer ranges and arbitrary strings and nested templates", "anchors": ["python/tink/aead/_aead_key_templates.py", "python/tink/daead/_deterministic_aead_key_templates.py", "python/tink/hybrid/_hybrid_key_templates.py", "python/tink/mac/_mac_key_templates.py", "python/tink/prf/_prf_key_templates.py", "python/tink/jwt/_jwt_key_templates.py", "python/tink/signature/_signature_key_templates.py", "python/tink/streaming_aead/_streaming_aead_key_templates.py"]}
{"id": "C57", "title": "The register functions set up what they say, and Python answers what the C++ library answers", "statement": "After any history of calls of the register functions (repeated, in any order, together or one by one, mixed with unrelated registrations by the user) every register call has returned, every key type of every registered package can be used and new keys of it can be created, public keys can be extracted exactly from its private key types, and nothing of the other packages is present. For each key type implemented in C++, new keys, public keys and primitives are exactly those of the C++ key manager, a status that is not OK being reported as TinkError; every key template the package exports can then be used. For keysets of such keys, obtaining a primitive and calling it raises nothing but TinkError, and an AEAD decrypts what it encrypted. The AEAD, deterministic AEAD, hybrid, MAC and signature primitives of a keyset compute exactly this from the C++ primitives of its keys: the primary key's output behind its prefix, and the first success among the keys the input reaches. A C++ configuration that fails leaves the registry unchanged. (Not true: PRFs raise TypeError for an output length below 0 or from 2^64 on; a malformed KMS key raises DecodeError; a failing configuration is not reported as TinkError.)", "quantifier": "every history of calls, every C++ library, every key, template and keyset", "why_tests_cant": "all orders and repetitions of the calls and all behaviours of the C++ library", "anchors": ["python/tink/tink_config.py:register", "python/tink/core/_key_manager.py:KeyManagerCcToPyWrapper", "python/tink/core/_key_manager.py:PrivateKeyManagerCcToPyWrapper", "python/tink/aead/_aead_key_manager.py", "python/tink/daead/_deterministic_aead_key_manager.py", "python/tink/hybrid/_hybrid_key_manager.py", "python/tink/mac/_mac_key_manager.py", "python/tink/prf/_prf_key_manager.py", "python/tink/signature/_signature_key_manager.py", "python/tink/streaming_aead/_streaming_aead_key_manager.py", "python/tink/jwt/__init__.py", "python/tink/cc/cc_key_manager.h"]}
{"id": "C58", "title": "Streaming encryption and decryption round trip", "statement": "Whatever sequence of writes is made to the encrypting stream of a keyset, if all of them and close succeed, then for every keyset that contains the encrypting key and whose other keys refuse the ciphertext, every schedule of reads of the decrypting stream returns exactly the bytes written, in order, and b'' only after the last one.", "quantifier": "every keyset pair, write sequence, read schedule, chunking of both file objects", "why_tests_cant": "all interleavings of partial writes, short reads and would-block answers", "anchors": ["python/tink/streaming_aead/_streaming_aead_wrapper.py", "python/tink/streaming_aead/_encrypting_stream.py", "python/tink/streaming_aead/_decrypting_stream.py"]}
{"id": "C59", "title": "The JSON keyset reader is strict", "statement": "A text that the JSON keyset reader accepts is a JSON document without repeated member names at any depth and without unknown members in the keyset, in its keys or in their key data: a misspelt or duplicated field never changes silently what keyset is loaded.", "quantifier": "every text", "why_tests_cant": "all documents", "anchors": ["python/tink/_keyset_reader.py:JsonKeysetReader", "python/tink/_json_proto_keyset_format.py:parse"]}
{"id": "C60", "title": "A keyset file that was not written completely is never mistaken for another keyset", "statement": "Write a keyset handle through a keyset writer to an empty stream that stores only a front part of the data it is given (the disk is full, the process dies, an unbuffered file stores less than it was given), whether or not the stream raises. Reading the file back then either finds exactly what the complete serialization would be, or raises TinkError: for encrypted binary files, JSON files and encrypted JSON files, under every master key and associated data. A cleartext binary file either raises TinkError or gives a handle with the same primary key id whose keys are a front part of the keys written (that it can be accepted with keys missing is proved as a refutation of the stronger claim). Writing again to a file that was not emptied: JSON files then always raise TinkError; encrypted binary files are read as the second keyset; cleartext binary files are read as the keys of both with the primary of the second.", "quantifier": "every handle, every stream that stores front parts, every crash point (the length of the front part), every master key and associated data", "why_tests_cant": "all truncation points of all keysets in all formats", "anchors": ["python/tink/_keyset_writer.py:BinaryKeysetWriter", "python/tink/_keyset_writer.py:JsonKeysetWriter", "python/tink/_keyset_reader.py:BinaryKeysetReader", "python/tink/_keyset_reader.py:JsonKeysetReader", "python/tink/cleartext_keyset_handle.py:read"]}
{"id": "C61", "title": "Threads may set up Tink and use it at the same time", "statement": "Threads call register functions, create keys, extract public keys and obtain primitives, with their accesses to the shared registry interleaved in any order. No call ever fails with KeyError, nothing that was registered disappears, and everything in the registry was registered by the initial history or by some thread. Every register function of the package returns, and every call that only needs packages set up before the threads started, or earlier by the same thread, has the outcome it has in a registry that a single thread has set up; afterwards the registry serves every package set up by a finished thread and holds nothing of packages nobody set up. Every thread that keeps being run finishes; one thread alone does what the sequential functions do. (Not true, as the registry has no lock: that of two conflicting registrations one is refused. Two threads can both be told their key manager or wrapper is registered, one replacing the other, and new keys can become allowed again after a registration that forbids them has returned.)", "quantifier": "every number of threads, list of calls per thread, schedule of registry accesses and C++ library", "why_tests_cant": "all interleavings of any number of accesses", "anchors": ["python/tink/core/_registry.py:Registry", "python/tink/_keyset_handle.py:KeysetHandle", "python/tink/tink_config.py:register"]}
{"id": "C62", "title": "Tokens and handles do not share mutable objects with the caller", "statement": "Lists and dicts given to new_raw_jwt are copied, and the lists and dicts that audiences and custom_claim return are new: whatever the caller does afterwards with any list or dict it made or was given, or that is reachable from one, a token, created or verified, keeps all its claims. A new token has the claims its arguments had when the call was made; audiences and custom_claim return lists and dicts equal to what is in the token. No call changes an object of the caller. A keyset handle that the library generated, decrypted, parsed or derived, and whose Keyset message was not handed out (by to_proto_keyset, or to a writer of the caller), never changes. (Not true: that the single audience is protected as well; a list given as audience is kept uncopied. Nor that every handle is protected: a handle made of a Keyset message of the caller, or whose message was given to the caller's own writer, changes with that message.)", "quantifier": "every sequence of calls, made and changed objects, references taken, claims and keysets", "why_tests_cant": "aliasing needs all later mutations of all reachable objects", "anchors": ["python/tink/jwt/_raw_jwt.py:RawJwt", "python/tink/jwt/_raw_jwt.py:new_raw_jwt", "python/tink/cleartext_keyset_handle.py:from_keyset", "python/tink/_insecure_keyset_handle.py:to_proto_keyset", "python/tink/_keyset_handle.py:KeysetHandle"]}
{"id": "C63", "title": "A failed run of an example program does not damage files", "statement": "Each run of the example programs for AEAD, deterministic AEAD, cleartext and encrypted keysets (encrypt and decrypt), envelope encryption, and of mac and signature in their compute and sign modes either exits with status 0 and has written its output file, all other files being as before, or exits with status 1 and no file has changed at all, also when input and output are the same file. Verifying a MAC, a signature or a JWT changes no file. A run of hybrid, of the JWT signer and JWK exporter or of a 'generate' mode changes at most its output file, which may in addition be left empty. The Google Cloud Storage program changes no local file when it encrypts and no blob when it decrypts. (Not true that the hybrid and Cloud Storage programs keep the old content of the output when decryption fails, or 'generate' the old keyset when the KMS fails: they open the output too early.)", "quantifier": "every content of every file, flag values, writability of paths, C++ library, KMS, random choices", "why_tests_cant": "every file system state and every failure", "anchors": ["python/examples/aead/aead_cli.py", "python/examples/deterministic_aead/deterministic_aead_cli.py", "python/examples/hybrid/hybrid_cli.py", "python/examples/mac/mac_cli.py", "python/examples/signature/signature_cli.py", "python/examples/cleartext_keyset/cleartext_keyset_cli.py", "python/examples/encrypted_keyset/encrypted_keyset_cli.py", "python/examples/envelope_aead/envelope_cli.py", "python/examples/gcs/gcs_envelope_aead_cli.py", "python/examples/jwt/jwt_sign_cli.py", "python/examples/jwt/jwt_generate_public_jwk_set.py", "python/examples/jwt/jwt_verify_cli.py"]}
{"id": "C64", "title": "Files encrypted with the example programs can be decrypted with them", "statement": "If the keyset file is a JSON keyset (in any layout JSON allows) whose keys the C++ library accepts, a run writes exactly what the keyset's semantics says: on encryption the primary key's output behind its prefix, on decryption the first success among the keys that the input reaches, else it fails. A file encrypted by one run is decrypted by any later run that has the same keys and associated data, with any flags otherwise; for hybrid encryption the later run needs a private keyset with a matching key, for envelope encryption the same KMS key, for Cloud Storage the same blob path. A keyset file written by a 'generate' run (cleartext or encrypted with a KMS key) is a keyset file in this sense, of one new ENABLED primary AES128-GCM key, and files encrypted with it can be decrypted with it.", "quantifier": "every keyset, keyset file layout, data, associated data, C++ library and KMS with the stated round trip property, random choices, later state of the other files", "why_tests_cant": "all inputs, and all states of the file system between the runs", "anchors": ["python/examples/aead/aead_cli.py", "python/examples/deterministic_aead/deterministic_aead_cli.py", "python/examples/hybrid/hybrid_cli.py", "python/examples/cleartext_keyset/cleartext_keyset_cli.py", "python/examples/encrypted_keyset/encrypted_keyset_cli.py", "python/examples/envelope_aead/envelope_cli.py", "python/examples/gcs/gcs_envelope_aead_cli.py"]}
{"id": "C65", "title": "The exit status of a verifying run says whether the tag is valid", "statement": "Given a keyset file as in C64 and readable data and tag files, the mac and signature programs exit with status 0 in verify mode if and only if the tag file contains, as hexadecimal digits in either case with white space around, a tag of more than five bytes that some key of the keyset accepts for the content of the data file; otherwise they exit with status 1. No exception escapes. In compute and sign mode they write the tag of the primary key in lower case hexadecimal digits, and such a file is accepted by every later verifying run with the same data and a keyset with a matching key.", "quantifier": "every keyset, content of the data and tag files, C++ library", "why_tests_cant": "every tag text and every data", "anchors": ["python/examples/mac/mac_cli.py", "python/examples/signature/signature_cli.py"]}
{"id": "C66", "title": "A published JWK set verifies the tokens of the keyset", "statement": "Let a public JWT keyset be exported as a JWK set and the JWK set be imported by a verifier. Every token that the verifier of the keyset accepts is accepted, with the same claims, by the verifier of the JWK set; in particular every token signed with the matching private keyset. The verifier of the JWK set accepts exactly the tokens that an enabled key of the keyset verifies and whose kid, if it has one, is the kid of the JWK. So, if no key with a Tink prefix has a custom kid, the tokens that only the JWK set accepts have no kid. (It is not true that the two accept the same tokens: a token without kid is refused by a keyset of keys with Tink prefix and accepted by its JWK set; and a key with both a Tink prefix and a custom kid accepts no token although its JWK accepts some.)", "quantifier": "every keyset, mixture of key types, prefixes and kids, token, validator, clock, random ids at import", "why_tests_cant": "histories over two parties and every token, honest or not", "anchors": ["python/tink/jwt/_jwk_set_converter.py:from_public_keyset_handle", "python/tink/jwt/_jwk_set_converter.py:to_public_keyset_handle", "python/tink/jwt/_jwt_signature_wrappers.py", "python/tink/jwt/_jwt_format.py:validate_header", "python/examples/jwt/jwt_generate_public_jwk_set.py"]}
{"id": "C67", "title": "Tokens pass from the signing program to the verifying program until they expire", "statement": "Given a keyset file with JWT signature keys, the signing program writes a token of the primary key whose only claims are the audience given on the command line and an expiration 100 seconds after the clock reading, rounded to whole seconds, or, if the C++ library fails, exits with status 1 and changes no file. The publishing program writes the JWK set of the enabled public keys, or exits with status 1 and changes no file; it fails for every keyset with a secret key and publishes every keyset of enabled public JWT signature keys. The verifying program, given a JWK set file that the publishing program wrote, exits with status 0 if and only if its token file is, in UTF-8, a token that an enabled key of the published keyset verifies, with the kid of its JWK if the token has one, for the given audience and not expired at the clock reading, and changes no file. So a token of one run is accepted by every later verifying run for the same audience before the expiration.", "quantifier": "every keyset, keyset file layout, audience, token file, clock reading, random ids at import, C++ library whose signatures verify, state of the other files", "why_tests_cant": "all inputs, all times and all states of the file system between the three programs", "anchors": ["python/examples/jwt/jwt_sign_cli.py", "python/examples/jwt/jwt_generate_public_jwk_set.py", "python/examples/jwt/jwt_verify_cli.py"]}
{"id": "C68", "title": "A stream closed without an error is a complete encryption of everything written", "statement": "For the object that new_encrypting_stream returns: each write returns the number of bytes it was given and each flush returns, or TinkError is raised. close() returns only if every earlier call succeeded, and then the destination holds an encryption, under the primary key and the associated data, of all the bytes written, in order, however they were divided among the writes, however many flushes there were and however few bytes the destination took at a time. In all other cases close() raises TinkError. If the destination never raises and no more is written than the C++ stream can encrypt (2^32 segments for Tink's), there are no errors. After close(), whether it returned or raised, write and flush raise ValueError and nothing more reaches the destination; after a close() that returned, so does a second close() without an error.", "quantifier": "every keyset handle, primary key and associated data, every sequence of writes and flushes of any lengths, every buffer size, every destination (partial writes, None, exceptions at any call), every C++ streaming AEAD", "why_tests_cant": "all ways to divide the plaintext among calls, all positions of failures relative to the buffer and to the segments", "anchors": ["python/tink/streaming_aead/_streaming_aead_wrapper.py:_WrappedStreamingAead.new_encrypting_stream", "python/tink/streaming_aead/_encrypting_stream.py:RawEncryptingStream.write", "python/tink/streaming_aead/_encrypting_stream.py:RawEncryptingStream.close"]}
{"id": "C69", "title": "A decrypting stream reads like a file with the plaintext, and never reports a damaged one as complete", "statement": "For the object that new_decrypting_stream returns over a ciphertext that one key of the keyset decrypts: in every history of read, read1, peek, readline and readinto calls, every answer is that of a binary file whose content is the plaintext, unless the source raises, in which case TinkError is raised. read(n) with n < -1 raises ValueError and changes nothing. If the ciphertext was cut off or altered, the answers before the first TinkError are front parts of the plaintext that can be told, and no answer says that the plaintext ends: read() raises. After a TinkError, every call that asks for data raises TinkError. If no key of the keyset decrypts the ciphertext, no call returns a byte, and no call that asks for data returns. What was written to an encrypting stream that closed without error is the plaintext read with every later keyset that has the key.", "quantifier": "every keyset handle and position of the key in it, every ciphertext, every history of calls with any sizes, every source (short reads, None, exceptions), every C++ streaming AEAD", "why_tests_cant": "all interleavings of the five calls with all divisions of the source, relative to a buffer of 8192 bytes and to the segments", "anchors": ["python/tink/streaming_aead/_streaming_aead_wrapper.py:_WrappedStreamingAead.new_decrypting_stream", "python/tink/streaming_aead/_streaming_aead_wrapper.py:_DecryptingStreamWrapper.readinto", "python/tink/streaming_aead/_decrypting_stream.py:RawDecryptingStream.read"]}
{"id": "C70", "title": "encrypt_file writes a complete encryption or raises, decrypt_file ends in the status of the decryption", "statement": "For the functions of the streaming AEAD example on file objects: if encrypt_file returns, the output holds an encryption of all the bytes of the input, in whatever pieces the input gives them and the output takes them. If it raises, then either with TinkError, and the output raised or the input is longer than the C++ stream can encrypt; or with the exception of the input (or TypeError, if a read of the input returned None), and then the output is a complete encryption of a front part of the input, since the stream is closed on the way out. decrypt_file writes a front part of the plaintext to a buffered output; it returns only if the ciphertext is whole and all of the plaintext was written, and ends the program with status 1 if the ciphertext is damaged or the input raises, and raises only what the output raised. If no key decrypts, nothing is written and the status is 1. (It is not true that a failed encrypt_file leaves an incomplete ciphertext, nor that decrypt_file writes all of the plaintext to an unbuffered output: it does not look at the number of bytes write() took.)", "quantifier": "every keyset handle, ciphertext, input and output object (short reads, None, exceptions at any call), block size, associated data, C++ streaming AEAD", "why_tests_cant": "all divisions of input and output and all positions of failures", "anchors": ["python/examples/streaming_aead/streaming_aead_cli.py:read_as_blocks", "python/examples/streaming_aead/streaming_aead_cli.py:encrypt_file", "python/examples/streaming_aead/streaming_aead_cli.py:decrypt_file"]}
{"id": "C71", "title": "Files pass through the streaming AEAD program and back; its exit status says whether they did", "statement": "A run of the streaming AEAD program changes no file but the output file, and the output file only if the input file can be read; it ends with status 0 or 1. Given a keyset file of streaming AEAD keys, an encrypting run over a file that is not too long for the C++ stream replaces the output file by an encryption of the input file under the primary key and ends with status 0, and every later decrypting run with a keyset with that key and the same associated data restores the data and ends with status 0. If the ciphertext is damaged, a decrypting run ends with status 1 and the output file is a front part of the plaintext; if no key decrypts, it is empty. If the keyset has no usable primary key, encrypting ends with status 1 and empties the output file. If input and output are the same file, encrypting destroys it and ends with status 0 (it then holds an encryption of nothing), and decrypting destroys it and ends with status 1.", "quantifier": "every keyset, keyset file layout, data, associated data, flags, C++ streaming AEAD with the stated laws, state of the other files between the runs", "why_tests_cant": "all inputs, and all states of the file system between the runs", "anchors": ["python/examples/streaming_aead/streaming_aead_cli.py:main", "python/examples/streaming_aead/streaming_aead_cli.py:encrypt_file", "python/examples/streaming_aead/streaming_aead_cli.py:decrypt_file"]}
{"id": "C72", "title": "A closed AES streaming encryption has the documented format, and there is exactly one for given random choices", "statement": "For every AES-GCM-HKDF and AES-CTR-HMAC streaming key with usable parameters, over every destination: if an encrypting stream is closed without an error, the destination holds the documented format of all the bytes written: the size of the header, the salt, the nonce prefix, and then the plaintext in segments, each encrypted with the key that HKDF derives from the salt and the associated data and with a nonce of the prefix, the segment number in four bytes and a flag that is set for the last segment only; the first segment is shorter by the header and the ciphertext offset, all but the last are full, the last is empty only if nothing was written. Plaintexts that need at most 2^32 segments are encrypted without an error if the destination does not fail; longer ones never give a complete ciphertext. For each plaintext that fits there is exactly one such ciphertext.", "quantifier": "every key material, hash, key size, segment size, offset, tag size, associated data, plaintext, division into calls, destination, BoringSSL with the stated laws", "why_tests_cant": "2^32 segments cannot be written in a test; all positions of segment ends relative to the buffers", "anchors": ["cc/subtle/streaming_aead_encrypting_stream.cc:Next", "cc/subtle/streaming_aead_encrypting_stream.cc:Close", "cc/subtle/nonce_based_streaming_aead.cc:NewEncryptingStream", "cc/subtle/aes_gcm_hkdf_streaming.cc:NewSegmentEncrypter", "cc/subtle/aes_gcm_hkdf_stream_segment_encrypter.cc:EncryptSegment", "cc/subtle/aes_ctr_hmac_streaming.cc:EncryptSegment"]}
{"id": "C73", "title": "What an AES streaming key encrypted, the same key and associated data decrypt", "statement": "For every AES-GCM-HKDF and AES-CTR-HMAC streaming key with usable parameters, every ciphertext in the format of C72 of a plaintext that fits is decrypted to exactly that plaintext with the same key and associated data, whichever random choices the decrypting side makes for its own streams, and in whatever pieces the source gives it; the end of the plaintext is reported after its last byte and not before.", "quantifier": "every key, associated data, plaintext, salt and nonce prefix, source, sequence of calls, BoringSSL with the stated laws", "why_tests_cant": "every length of the plaintext modulo the segment size, and every division of the source", "anchors": ["cc/subtle/streaming_aead_decrypting_stream.cc:Next", "cc/subtle/streaming_aead_decrypting_stream.cc:BackUp", "cc/subtle/nonce_based_streaming_aead.cc:NewDecryptingStream", "cc/subtle/aes_gcm_hkdf_stream_segment_decrypter.cc:DecryptSegment", "cc/subtle/aes_ctr_hmac_streaming.cc:DecryptSegment"]}
{"id": "C74", "title": "AES streaming detects reordered, mixed, dropped and cut off segments if single segments cannot be forged", "statement": "Let streams be encrypted with an AES streaming key and some associated data, with different salts or nonce prefixes. Take any bytes in which no segment is forged, which means that the segments the key opens are segments of these streams, with the same header and number and the same flag. Decrypting the bytes gives a front part of the plaintext of one of these streams, the one with the same header, and then an error; or all of it, in which case the bytes are the ciphertext of this stream, or that ciphertext, its last segment of full size, with further bytes behind it. A ciphertext from whose end anything is missing gives an error. Bytes whose header is not the header of one of these streams give an error and no plaintext; in particular any stream of another key or of other associated data. (It is not true that every change of the ciphertext is detected: bytes behind a last segment of full size are ignored.)", "quantifier": "every set of encrypted streams, every byte string, source, sequence of calls, parameters, BoringSSL with the stated laws", "why_tests_cant": "all mixtures of segments of all streams, at all lengths", "anchors": ["cc/subtle/streaming_aead_decrypting_stream.cc:Next", "cc/subtle/aes_gcm_hkdf_stream_segment_decrypter.cc:Init", "cc/subtle/aes_gcm_hkdf_stream_segment_decrypter.cc:DecryptSegment", "cc/subtle/aes_ctr_hmac_streaming.cc:Init", "cc/subtle/aes_ctr_hmac_streaming.cc:DecryptSegment"]}
{"id": "C75", "title": "Which AES streaming keys work, which key formats give keys, and what the predefined templates mean", "statement": "A key of one of the two AES streaming types gives a streaming AEAD exactly if it can be parsed, has version 0, and its parameters are usable (the hash is SHA1, SHA256 or SHA512, the AES key has 16 or 32 bytes, the key material is at least that long, a segment has space behind header and tag, for AES-CTR-HMAC the tag has at least 10 bytes and at most those of its hash) with segments of less than 2^31 bytes; it is then the streaming AEAD with exactly the parameters and key material in the key, which have only one reading. A key is generated exactly from the key formats that can be parsed and whose parameters are usable (and, for AES-CTR-HMAC, segments of less than 2^31 bytes); the key has the type asked for, is symmetric, has the parameters of the format, and its key material is random and of the size asked for. Each of the eight predefined templates stands for the algorithm, sizes and hash in its name and gives, after registration, a keyset handle with one such key. (It is not true that every generated key works: AES-GCM-HKDF formats with segments of 2^31 bytes or more are accepted, and the keys are not.)", "quantifier": "every key, key format, random source, and configured registry; all eight templates", "why_tests_cant": "all encodings of keys and formats, all values of all attributes", "anchors": ["cc/streamingaead/aes_gcm_hkdf_streaming_key_manager.cc:ValidateParams", "cc/streamingaead/aes_gcm_hkdf_streaming_key_manager.cc:ValidateKey", "cc/streamingaead/aes_gcm_hkdf_streaming_key_manager.cc:CreateKey", "cc/streamingaead/aes_gcm_hkdf_streaming_key_manager.h:Create", "cc/streamingaead/aes_ctr_hmac_streaming_key_manager.cc:ValidateParams", "cc/streamingaead/aes_ctr_hmac_streaming_key_manager.cc:ValidateKeyFormat", "cc/streamingaead/streaming_aead_config.cc:Register", "cc/core/key_manager_impl.h:GetPrimitive", "cc/core/key_manager_impl.h:NewKeyData", "python/tink/streaming_aead/_streaming_aead_key_templates.py"]}
{"id": "C76", "title": "AES streaming of a Python keyset handle: format, round trip, and tampering, from files and streams to BoringSSL", "statement": "After registration, a handle of a valid keyset of usable AES streaming keys gives a streaming AEAD. If its encrypting stream is closed without an error, the destination has exactly the documented ciphertext (C72) of the bytes written, under the primary key. A handle of a keyset that contains this key, in another process and with other random choices, primary or not, reads exactly these bytes from it, however the source divides them; the other keys must not be able to open its segments. If a ciphertext was changed without forging a segment, what is read is a front part of one encrypted plaintext and then an error, or all of it (C74); if no key of the keyset opens it, there is only an error. A new handle from any of the eight templates does the round trip. The same for the streaming AEAD example over files: encrypting writes the documented ciphertext, decrypting writes the plaintext with status 0; a cut off or otherwise changed file gives status 1 and a front part of an encrypted plaintext.", "quantifier": "every keyset, key parameters, associated data, plaintext, sequence of calls, stream implementation, file system, flags; every byte string as ciphertext", "why_tests_cant": "the composition of all layers, for every size and every division of the data in each of them", "anchors": ["python/tink/streaming_aead/_streaming_aead_wrapper.py", "python/tink/streaming_aead/_raw_streaming_aead.py", "python/tink/cc/cc_streaming_aead_wrappers.cc", "python/examples/streaming_aead/streaming_aead_cli.py:main", "cc/subtle/nonce_based_streaming_aead.cc:NewDecryptingStream", "cc/streamingaead/streaming_aead_config.cc:Register"]}
{"id": "C77", "title": "The walkthrough functions: keysets encrypted with a KMS key can be loaded with that KMS key and associated data only, and used", "statement": "After aead.register(): WriteEncryptedKeyset writes and flushes, with the AEAD that the first registered KMS client supporting the URI gives, one JSON document with the encrypted keyset and, in the clear, only the keyset information; it writes nothing and raises if no client supports the URI (TinkError), if the client raises (its exception), or if the KMS does not encrypt the serialized keyset so that it decrypts back. LoadEncryptedKeyset gives a handle exactly if the text is a JSON document of an encrypted keyset that the KMS AEAD decrypts with the associated data to a valid keyset; it is then a handle of that keyset. What is written by one is loaded by the other, also in another process, if the KMS decrypts what it encrypted. WriteKeyset writes the JSON text of the keyset, and LoadKeyset loads it. CreateAead128GcmKeyset gives a keyset of one enabled TINK AES-GCM key with 16 bytes, or raises if the C++ library cannot make the key. AeadEncrypt and AeadDecrypt do what the AEAD of the keyset does, whatever keys it has. The pipeline in three processes: what is encrypted in the second decrypts in the third.", "quantifier": "every registry history with aead.register(), list of KMS clients, KMS AEAD, URI, associated data, keyset, text, stream, random choice, C++ library", "why_tests_cant": "all KMS behaviours, all texts and keysets, all streams", "anchors": ["python/examples/walkthrough/write_keyset.py:GetKmsAead", "python/examples/walkthrough/write_keyset.py:WriteEncryptedKeyset", "python/examples/walkthrough/load_encrypted_keyset.py:LoadEncryptedKeyset", "python/examples/walkthrough/create_keyset.py:CreateAead128GcmKeyset", "python/examples/walkthrough/load_cleartext_keyset.py:LoadKeyset", "python/examples/walkthrough/write_cleartext_keyset.py:WriteKeyset", "python/examples/walkthrough/obtain_and_use_a_primitive.py:AeadEncrypt", "python/examples/walkthrough/obtain_and_use_a_primitive.py:AeadDecrypt"]}
{"id": "C78", "title": "The *_basic.py examples end normally exactly if the C++ library does the round trip on their keys and messages", "statement": "Run at any time in a process that has so far called register functions in any order: each of the five programs reads from its JSON literals exactly the keys that these literals encode; it ends without an exception exactly if the C++ primitive of these keys encrypts the message to a ciphertext that is not empty and that it decrypts to the message (for MAC and signatures: makes a tag or signature that is not empty and that verifies with the given public key and also with the public key extracted from the private key). If the C++ library reports an error the program ends with TinkError; if it decrypts to something else, with AssertionError. The public keysets are read without a secret key access token.", "quantifier": "every history of register calls, C++ library (with the C++ managers in place), random choice, version of Python's and protobuf's JSON parser", "why_tests_cant": "all C++ libraries and all registry states before the program starts", "anchors": ["python/examples/aead/aead_basic.py:example", "python/examples/deterministic_aead/deterministic_aead_basic.py:example", "python/examples/mac/mac_basic.py:example", "python/examples/hybrid/hybrid_basic.py:example", "python/examples/signature/signature_basic.py:example"]}
{"id": "C79", "title": "The fake KMS of tink.testing: a URI stands for the keyset encoded in it, in every client and process", "statement": "FakeKmsClient can be made without a URI, or for one URI that starts with fake-kms://; for other URIs it raises TinkError. It supports exactly the URIs that start with fake-kms://, or only the one it was made for. For a URI of URL-safe base64 characters, with any number of '=' behind them, get_aead gives an AEAD exactly if the characters encode a serialized valid keyset that has an AEAD, and it is the AEAD of that keyset. So two clients, in different processes, for the same keyset decrypt each other's ciphertexts; an AEAD made from the KMS AEAD template with such a URI does what the keyset in the URI does. (It is not true that a client made for one URI refuses other URIs in get_aead, that a key has only one URI, or that all errors are TinkError: binascii.Error and UnicodeEncodeError come through.)", "quantifier": "every URI, keyset, client, list of KMS clients, configured registry and C++ library", "why_tests_cant": "all texts behind the scheme, all keysets, all paddings", "anchors": ["python/tink/testing/fake_kms.py:FakeKmsClient", "python/tink/testing/fake_kms.py:register_client"]}
{"id": "C80", "title": "The test doubles of tink.testing: what the fake primitives accept, and what the special streams return", "statement": "FakeMac, FakePublicKeySign and FakePublicKeyVerify accept exactly data + '|' + name. FakeAead, FakeDeterministicAead and the hybrid fakes decrypt a ciphertext to pt with associated data ad exactly if pt, ad and the name have no '|' and the ciphertext is pt|ad|name, possibly with another '|' and anything behind; so a round trip works exactly if none of the three has a '|'. What is refused raises TinkError if the refused bytes are UTF-8 and UnicodeDecodeError otherwise. FakePrf gives exactly output_length bytes for lengths 0 to 32, shorter outputs being prefixes of longer ones, and TinkError for longer ones. BytesIOWithValueAfterClose raises ValueError before close and afterwards gives the content at the first close, for every history of calls; for writes to an empty one, their concatenation. SlowBytesIO blocks on every third read for a positive number of bytes, starting with the first, returns at most 5 bytes otherwise, and nothing only at the end; the pieces are the data in order without gaps; only if it is seekable can it seek. SlowReadableRawBytes likewise. tink_py_testdata_path prefers TINK_PYTHON_ROOT_PATH, and raises ValueError if no variable is set and FileNotFoundError if the directory is missing. (It is not true that fake ciphertexts cannot be altered, that all errors are TinkError, that fake PRFs with different names differ, that negative lengths are refused, or that the raw stream returns at most as many bytes as asked for.)", "quantifier": "every name, plaintext, associated data, ciphertext, tag, length, history of stream calls and environment (up to 10000001 slow reads, where the double gives up by design)", "why_tests_cant": "all byte strings with and without the separator, all histories of calls", "anchors": ["python/tink/testing/helper.py:FakeMac", "python/tink/testing/helper.py:FakeAead", "python/tink/testing/helper.py:FakeDeterministicAead", "python/tink/testing/helper.py:FakeHybridDecrypt", "python/tink/testing/helper.py:FakeHybridEncrypt", "python/tink/testing/helper.py:FakePublicKeySign", "python/tink/testing/helper.py:FakePublicKeyVerify", "python/tink/testing/helper.py:FakePrf", "python/tink/testing/helper.py:FakePrfSet", "python/tink/testing/helper.py:tink_py_testdata_path", "python/tink/testing/bytes_io.py:BytesIOWithValueAfterClose", "python/tink/testing/bytes_io.py:SlowBytesIO", "python/tink/testing/bytes_io.py:SlowReadableRawBytes"]}
{"id": "C81", "title": "AES-EAX is the EAX mode: what it returns, what it accepts, and which keys, nonces and sizes it takes", "statement": "An AES-EAX object exists exactly for keys of 16 or 32 bytes and nonces of 12 or 16 bytes. Encrypting P with associated data ad returns nonce, then P in counter mode starting at the CMAC of the nonce, then the exclusive or of the CMACs of nonce, ad and ciphertext, each behind a block with its number, which is EAX as published with tags of 16 bytes. Decrypting C with ad returns P exactly if C is the EAX ciphertext of P and ad for some nonce of the right size; so every ciphertext that is accepted is one that encryption would have made, nonce and plaintext are determined by it, and a round trip returns the plaintext. (It is not true that it works for all sizes: above 2^31 bytes of plaintext or associated data, the index of the C++ code, an int, overflows.)", "quantifier": "every block cipher in the place of AES, key, nonce size, random nonce, plaintext, associated data and ciphertext, of every length up to 2^31", "why_tests_cant": "all lengths, block boundaries and carries of counter and doubling; accepting exactly the honest ciphertexts is a claim about all byte strings", "anchors": ["cc/subtle/aes_eax_boringssl.cc:AesEaxBoringSsl::New", "cc/subtle/aes_eax_boringssl.cc:AesEaxBoringSsl::Encrypt", "cc/subtle/aes_eax_boringssl.cc:AesEaxBoringSsl::Decrypt", "cc/subtle/aes_eax_boringssl.cc:AesEaxBoringSsl::Omac", "cc/subtle/aes_eax_boringssl.cc:AesEaxBoringSsl::MultiplyByX", "cc/internal/aes_util.cc:AesCtr128Crypt"]}
{"id": "C82", "title": "AES-SIV is the SIV mode of RFC 5297, deterministic, and accepts exactly its own ciphertexts", "statement": "An AES-SIV object exists exactly for keys of 64 bytes, of which the first half is used for the synthetic IV and the second one for counter mode. Encrypting P with associated data ad always succeeds and returns the ciphertext of RFC 5297 with one string of associated data (also if that is empty), which is 16 bytes longer than P. Decrypting C with ad returns P exactly if C is that ciphertext; so the round trip holds, and whatever decrypts is what encrypting the result again returns.", "quantifier": "every block cipher in the place of AES, every key, plaintext, associated data and ciphertext, of every length", "why_tests_cant": "all lengths, in particular around one block where the construction changes, and all byte strings as ciphertexts", "anchors": ["cc/subtle/aes_siv_boringssl.cc:AesSivBoringSsl::New", "cc/subtle/aes_siv_boringssl.cc:AesSivBoringSsl::EncryptDeterministically", "cc/subtle/aes_siv_boringssl.cc:AesSivBoringSsl::DecryptDeterministically", "cc/subtle/aes_siv_boringssl.cc:AesSivBoringSsl::S2v", "cc/subtle/aes_siv_boringssl.cc:AesSivBoringSsl::CmacLong"]}
{"id": "C83", "title": "AES-GCM, AES-GCM-SIV, XChaCha20-Poly1305 and AES-CTR with HMAC: ciphertexts are nonce, encryption and tag, and exactly those are accepted", "statement": "An AES-GCM or AES-GCM-SIV object exists exactly for keys of 16 or 32 bytes, an XChaCha20-Poly1305 object exactly for keys of 32 bytes. Encrypting returns a fresh nonce (12 bytes, or 24 for XChaCha20) followed by what the cipher seals with it; decrypting C with ad returns P exactly if C is a nonce followed by the sealed P for ad; so round trips return the plaintext, every accepted ciphertext determines nonce and plaintext, and the overhead is 28 or 40 bytes. An AES-CTR-HMAC object exists exactly for AES keys of 16 or 32 bytes, IVs of 12 to 16 bytes, HMAC keys of at least 16 bytes and tags from 10 bytes to the size of the hash; its ciphertexts are the IV, the plaintext in counter mode from IV and zeros on, and the first bytes of the HMAC of associated data, IV, ciphertext and the number of bits of associated data in 8 bytes; exactly those are accepted, and the input of the HMAC determines associated data and ciphertext. (Not true: that all plaintexts can be encrypted; AES-CTR fails above 2^31 - 1 bytes.)", "quantifier": "every implementation of AES, HMAC and the sealing ciphers that obeys their laws; every key, IV size, hash, tag size, random nonce, plaintext, associated data and ciphertext, of every length", "why_tests_cant": "all lengths of keys, tags, IVs and messages, and all byte strings as ciphertexts; that no byte can be moved between associated data and ciphertext is a claim about all pairs", "anchors": ["cc/subtle/aes_gcm_boringssl.cc:AesGcmBoringSsl::New", "cc/aead/internal/zero_copy_aes_gcm_boringssl.cc:ZeroCopyAesGcmBoringSsl", "cc/aead/internal/aead_from_zero_copy.cc:AeadFromZeroCopy", "cc/subtle/aes_gcm_siv_boringssl.cc:AesGcmSivBoringSsl", "cc/subtle/xchacha20_poly1305_boringssl.cc:XChacha20Poly1305BoringSsl", "cc/subtle/aes_ctr_boringssl.cc:AesCtrBoringSsl", "cc/subtle/encrypt_then_authenticate.cc:EncryptThenAuthenticate", "cc/subtle/hmac_boringssl.cc:HmacBoringSsl"]}
{"id": "C84", "title": "MACs and PRFs: tags are truncated HMAC or CMAC and verification accepts exactly them; HKDF output is that of RFC 5869", "statement": "An HMAC object exists exactly for a known hash, tags up to its size and keys of at least 16 bytes; an AES-CMAC object exactly for keys of 16 or 32 bytes and tags up to 16 bytes. Computing always succeeds and returns the first bytes of HMAC or of CMAC (RFC 4493), as many as the tag size says, and verifying a tag succeeds exactly for that tag. The PRFs from HMAC and CMAC return the first n bytes exactly if n is at most the size of the whole tag, and fail otherwise. An HKDF PRF object exists exactly for SHA1, SHA256, SHA512 and secrets of at least 10 bytes; for fewer than 2^31 bytes it returns the output of RFC 5869 if n is at most 255 times the size of the hash, and fails otherwise, whatever pieces its stream returns. (Not true: that the HKDF PRF returns n bytes or fails for all n: the size is converted to an int, so for 2^31 to 2^32 - 1 bytes it returns none, and for more the size modulo 2^32.)", "quantifier": "every implementation of AES, HMAC and CMAC that obeys their laws; every key, salt, hash, tag size, message, tag and output size", "why_tests_cant": "all messages, all tags and all output sizes around the blocks of HKDF", "anchors": ["cc/subtle/hmac_boringssl.cc:HmacBoringSsl::ComputeMac", "cc/subtle/hmac_boringssl.cc:HmacBoringSsl::VerifyMac", "cc/subtle/aes_cmac_boringssl.cc:AesCmacBoringSsl::ComputeMac", "cc/subtle/aes_cmac_boringssl.cc:AesCmacBoringSsl::VerifyMac", "cc/subtle/prf/hkdf_streaming_prf.cc:HkdfStreamingPrf", "cc/subtle/prf/prf_set_util.cc:PrfFromStreamingPrf::Compute", "cc/subtle/prf/prf_set_util.cc:PrfFromStatefulMacFactory::Compute", "cc/subtle/stateful_hmac_boringssl.cc:StatefulHmacBoringSsl", "cc/subtle/stateful_cmac_boringssl.cc:StatefulCmacBoringSsl", "cc/util/input_stream_util.cc:ReadBytesFromStream"]}
{"id": "C85", "title": "Symmetric keys: exactly the keys with admissible parameters are accepted, new keys are random and of the size asked for, and all predefined templates can be used", "statement": "For each of the eleven types of symmetric keys in C++ (five AEADs, AES-SIV, HMAC and AES-CMAC as MACs and as PRFs, HKDF-PRF), the key manager gives an object for key data exactly if the bytes parse as a message of the type whose attributes are those of an admissible key, and then the object is the one for these attributes: AES keys of 16 or 32 bytes (32 for CMAC, 64 for AES-SIV), HMAC keys of at least 16 bytes with a known hash, tags from 10 bytes to the size of the hash, HKDF keys of at least 32 bytes with SHA256 or SHA512, version 0. Key data determines the key. A new key made for a key format has the type asked for, the parameters of the format, the size asked for and key material drawn at random, and it is accepted; key formats are accepted exactly if they ask for an admissible key. Every predefined AEAD, deterministic AEAD, MAC and PRF template asks for an admissible key with the parameters its name says. (Not true: that HKDF keys of all sizes can be made; the size is converted to an int, so 2^31 bytes and more are refused.)", "quantifier": "every key data and key format (all byte strings), every type URL, every source of random bytes of the right length, every implementation of the ciphers", "why_tests_cant": "all byte strings that may stand for keys, with fields in any order, repeated, missing or unknown, and all combinations of sizes", "anchors": ["cc/aead/aes_eax_key_manager.h:AesEaxKeyManager", "cc/aead/aes_gcm_key_manager.h:AesGcmKeyManager", "cc/aead/aes_gcm_siv_key_manager.h:AesGcmSivKeyManager", "cc/aead/xchacha20_poly1305_key_manager.h:XChaCha20Poly1305KeyManager", "cc/aead/aes_ctr_hmac_aead_key_manager.cc:AesCtrHmacAeadKeyManager", "cc/daead/aes_siv_key_manager.h:AesSivKeyManager", "cc/mac/hmac_key_manager.cc:HmacKeyManager", "cc/mac/aes_cmac_key_manager.h:AesCmacKeyManager", "cc/prf/hmac_prf_key_manager.cc:HmacPrfKeyManager", "cc/prf/hkdf_prf_key_manager.h:HkdfPrfKeyManager", "cc/prf/aes_cmac_prf_key_manager.h:AesCmacPrfKeyManager", "cc/core/key_manager_impl.h:KeyManagerImpl", "python/tink/aead/_aead_key_templates.py", "python/tink/mac/_mac_key_templates.py", "python/tink/prf/_prf_key_templates.py", "python/tink/daead/_deterministic_aead_key_templates.py"]}
{"id": "C86", "title": "Handles for symmetric keys compute the published algorithms, decrypt what they encrypted also after rotation, and can be made from every predefined template", "statement": "Take any C++ library with the symmetric key managers, a Python process in which the package was registered, and any keyset handle whose enabled keys are admissible symmetric keys of the package with any output prefixes. primitive() gives an object. AEAD: encrypt gives the prefix of the primary key followed by the ciphertext of the published mode (AES-EAX, AES-GCM, AES-GCM-SIV, XChaCha20-Poly1305, AES-CTR then HMAC) under its key and a fresh nonce, and fails only beyond the size limits; decrypt accepts exactly the bytes that are such a ciphertext of some key of the keyset, with the same associated data, and returns a plaintext of it. Deterministic AEAD: the same with AES-SIV. MAC: compute_mac gives prefix and truncated HMAC or AES-CMAC; verify_mac accepts exactly these bytes. PRF set: every id has the PRF of the last key with this id, and an output of any size up to the limit is the published value. What is encrypted or authenticated with a key is decrypted or verified by every other keyset that contains the key under the same id and prefix; the plaintext is the same if no RAW key and no other key with the id is there (otherwise: it is some plaintext that one of the keys gives). new_keyset_handle with any of the predefined templates gives a handle with one random key of the kind its name says, and encrypting and decrypting, tagging and verifying, with it gives back the data. All errors are TinkError.", "quantifier": "every keyset of admissible keys of any number and with any prefixes, every message, associated data and random choice, every ciphertext and tag (all byte strings), every pair of keysets sharing a key, every predefined template, every implementation of the ciphers satisfying their laws", "why_tests_cant": "all keysets, messages and byte strings that may be presented as ciphertexts; tests have a few keysets and ciphertexts", "anchors": ["python/tink/aead/_aead_wrapper.py:_WrappedAead", "python/tink/daead/_deterministic_aead_wrapper.py:_WrappedDeterministicAead", "python/tink/mac/_mac_wrapper.py:_WrappedMac", "python/tink/prf/_prf_set_wrapper.py:_WrappedPrfSet", "python/tink/_keyset_handle.py:KeysetHandle.primitive", "python/tink/_keyset_handle.py:new_keyset_handle", "python/tink/aead/_aead_key_manager.py", "python/tink/cc/pybind/cc_key_manager.cc", "cc/aead/aes_gcm_key_manager.h:AesGcmKeyManager", "cc/subtle/aes_eax_boringssl.cc", "cc/subtle/aes_siv_boringssl.cc", "cc/subtle/hmac_boringssl.cc", "cc/subtle/aes_cmac_boringssl.cc"]}
{"id": "C87", "title": "The example programs, the walkthrough and envelope encryption do what they promise with the symmetric keys of the C++ library", "statement": "Take any C++ library with the symmetric key managers. The three example programs that encrypt, deterministically encrypt and authenticate a text with a built-in key print the text again. The command line programs for AEAD (with a plain, a cleartext and an encrypted keyset), deterministic AEAD and MAC write exactly the prefix of the primary key and the output of the published algorithm, write a plaintext only if the input is a ciphertext of some key of the keyset, and otherwise change nothing and exit with 1; after any rotation of the keyset that keeps the key, files written before are still read. A keyset that a program generated is one random AES128-GCM key, and what is then encrypted with the keyset file is decrypted with it; the same for a keyset that one process writes encrypted, a second process uses to encrypt and a third one to decrypt. Envelope encryption with any predefined AEAD template as template of data keys, directly, as a handle of a KmsEnvelopeAeadKey, or in the two envelope programs: every ciphertext is the length and the bytes of a fresh random key of the template encrypted by the remote AEAD with empty associated data, followed by the published mode's ciphertext of the plaintext under this key; exactly such strings are decrypted; failures are TinkErrors if the remote's are; what was encrypted is decrypted if the remote decrypts what it encrypted.", "quantifier": "every keyset of admissible keys, every file and message (all byte strings), every order of rotation, every template, every remote AEAD (also failing ones), every random choice, every implementation of the ciphers satisfying their laws", "why_tests_cant": "the claims relate all keysets, all files and all remote behaviours across several processes; tests run one keyset with one text", "anchors": ["python/examples/aead/aead_cli.py:main", "python/examples/aead/aead_basic.py", "python/examples/cleartext_keyset/cleartext_keyset_cli.py:main", "python/examples/encrypted_keyset/encrypted_keyset_cli.py:main", "python/examples/deterministic_aead/deterministic_aead_cli.py:main", "python/examples/mac/mac_cli.py:main", "python/examples/envelope_aead/envelope_cli.py:main", "python/examples/gcs/gcs_envelope_aead_cli.py:main", "python/examples/walkthrough/create_keyset.py", "python/tink/aead/_kms_envelope_aead.py:KmsEnvelopeAead", "python/tink/aead/_kms_aead_key_manager.py:KmsEnvelopeAeadKeyManager", "cc/aead/aes_gcm_key_manager.h:AesGcmKeyManager"]}
{"id": "C88", "title": "Hybrid encryption with ECIES in the C++ library sends an ephemeral public key and the message under a derived key, and the private key decrypts exactly that", "statement": "Take a public key message with well-formed parameters (NIST curve or Curve25519, known hash function and point format, a usable AES-GCM, AES-CTR-HMAC, XChaCha20-Poly1305 or AES-SIV template whose key is at most 255 hashes long). HybridEncrypt can be made exactly if the public key is a point of the curve (X25519: 32 bytes, no y). Every ciphertext is the encoding of a fresh ephemeral public key followed by the message encrypted, without associated data, with the key cut from HKDF (RFC 5869) of that encoding and the shared secret, with the salt of the key and the context as info. HybridDecrypt can be made exactly if the private key, x and y have the required presence and size; it yields P exactly for strings of this form, and otherwise a status, never ending the process. For a key pair every admissible message is encrypted and comes back with the same context. Ciphertexts are longer than messages by a constant of the key. Encodings of points in the three formats are those of SEC 1: exactly the encodings of points on the curve are decoded, and what is encoded is decoded. No other well-typed key message ever encrypts or decrypts anything. A public key of low order for X25519 makes every encryption end the process, and so do AES-CTR-HMAC templates whose key sizes add up to more than 32 bits.", "quantifier": "every key message, every plaintext, ciphertext and context (all byte strings), every random choice, every implementation of curves, X25519, HKDF and the ciphers that satisfies their laws", "why_tests_cant": "the exact set of decryptable strings and the formats are claims about all strings, all points and all keys; tests use some vectors", "anchors": ["cc/hybrid/ecies_aead_hkdf_hybrid_encrypt.cc:EciesAeadHkdfHybridEncrypt", "cc/hybrid/ecies_aead_hkdf_hybrid_decrypt.cc:EciesAeadHkdfHybridDecrypt", "cc/hybrid/ecies_aead_hkdf_dem_helper.cc:EciesAeadHkdfDemHelper", "cc/subtle/ecies_hkdf_sender_kem_boringssl.cc", "cc/subtle/ecies_hkdf_recipient_kem_boringssl.cc", "cc/subtle/hkdf.cc:Hkdf", "cc/internal/ec_util.cc:EcPointDecode", "cc/daead/subtle/aead_or_daead.cc:AeadOrDaead"]}
{"id": "C89", "title": "ECIES keys of the C++ library: what is made from a key format, which public key belongs to it, and which keys encrypt and decrypt", "statement": "NewKeyData with an ECIES key format that names its parameters makes a private key with these parameters and a fresh key pair of the curve, of type EciesAeadHkdfPrivateKey and asymmetric private material; no public key can be made from a format. GetPublicKeyData of a private key gives the public key with the same parameters and the same x and y, as asymmetric public material, and only of keys both of whose versions are 0. GetPrimitive of a public key succeeds exactly if the point is on the curve, of a private key exactly if its fields have the right sizes; HybridEncrypt and HybridDecrypt produce and accept exactly the ECIES ciphertexts of the parameters and the point in the key. A key made from a well-formed format and its public key always work together, for every message and context. Only well-formed keys with version 0 ever encrypt or decrypt. The four predefined ECIES templates ask for P-256, HKDF with SHA-256, no salt, and AES-128-GCM or AES-128-CTR-HMAC. Not every key that is made is usable: with an AEAD other than the four supported ones the key is made, and GetPrimitive refuses it.", "quantifier": "every key format, every serialized key, every random choice, every plaintext, ciphertext and context, every implementation of curves, HKDF and ciphers that satisfies their laws", "why_tests_cant": "the claims range over all serialized keys and all random choices; tests make a few keys from a few formats", "anchors": ["cc/hybrid/ecies_aead_hkdf_private_key_manager.cc:EciesAeadHkdfPrivateKeyManager", "cc/hybrid/ecies_aead_hkdf_private_key_manager.h", "cc/hybrid/ecies_aead_hkdf_public_key_manager.cc:EciesAeadHkdfPublicKeyManager", "cc/core/private_key_manager_impl.h", "cc/core/key_manager_impl.h", "python/tink/hybrid/_hybrid_key_templates.py"]}
{"id": "C90", "title": "Hybrid encryption in Python over ECIES keysets: public handles, exact ciphertexts, and round trips across key rotation", "statement": "After hybrid.register(), a keyset of well-formed ECIES public keys gives a HybridEncrypt whose ciphertexts are exactly the prefix of the primary key followed by an ECIES ciphertext for its point and parameters; without a primary key it raises TinkError. A keyset of ECIES key pairs gives a HybridDecrypt that succeeds exactly on strings which some enabled key opens, returns what such a key yields, and otherwise raises TinkError. public_keyset_handle keeps the primary key, order, identifiers, statuses and prefixes and replaces each private key by its public key. What is encrypted with the primary public key is decrypted by every private keyset that holds the key under the same identifier and prefix, and to the same plaintext if prefixes tell keys apart. new_keyset_handle with any of the predefined ECIES templates gives one enabled primary key with the parameters of the template and a fresh key pair, and its public handle and itself round-trip every message and context.", "quantifier": "every keyset (any number of keys, any statuses and prefixes), every registration history that registers hybrid encryption, every random choice, plaintext, ciphertext and context", "why_tests_cant": "rotation and exactness of decryption range over all keysets and strings; tests use one or two keys", "anchors": ["python/tink/hybrid/_hybrid_wrapper.py", "python/tink/hybrid/_hybrid_key_manager.py", "python/tink/hybrid/_hybrid_key_templates.py", "python/tink/_keyset_handle.py:KeysetHandle.public_keyset_handle", "cc/hybrid/ecies_aead_hkdf_private_key_manager.cc", "cc/hybrid/ecies_aead_hkdf_public_key_manager.cc"]}
{"id": "C91", "title": "Digital signatures of the C++ library: exactly the well-formed keys sign and verify, signatures are exactly those of the scheme, and new key pairs match", "statement": "For ECDSA (P-256 with SHA-256, P-384 with SHA-384 or SHA-512, P-521 with SHA-512; DER or IEEE P1363 encoding), Ed25519, RSA-SSA-PKCS1 and RSA-SSA-PSS: the manager of public keys makes a verifier of exactly those keys of version 0 whose parameters are accepted (a modulus of at least 2048 bits, an odd exponent over 2^16 and under 2^32, SHA-256/384/512, the same hash for MGF1, a salt length that is not negative, a point on the curve, 32 bytes), and it accepts exactly the encoded signatures that the scheme accepts: DER in its only shortest form, or two numbers of the size of the curve. The manager of private keys makes a signer of exactly those keys whose public part is such a key, whose private part the library accepts, and, for PSS, whose salt fits the modulus; it signs every message, with the signature of the scheme. If the public part belongs to the private part, what is signed is accepted. The public key of a private key has its parameters and numbers. New keys are made of exactly the accepted formats (and of RSA sizes up to 16384 bits), with the parameters of the format and a matching fresh key pair; all 15 predefined templates give keys that sign. A PSS format whose salt does not fit is accepted, but its key cannot sign; and a signer of ECDSA or Ed25519 can be made of a private key whose public part is another's.", "quantifier": "every key data, key format, message, signature and random choice, and every library of primitives that obeys the laws of the schemes", "why_tests_cant": "the accepted keys, formats and signatures are sets of byte strings; tests try a few of each", "anchors": ["cc/subtle/ecdsa_sign_boringssl.cc", "cc/subtle/ecdsa_verify_boringssl.cc", "cc/signature/internal/ecdsa_raw_sign_boringssl.cc", "cc/subtle/ed25519_sign_boringssl.cc", "cc/subtle/ed25519_verify_boringssl.cc", "cc/subtle/rsa_ssa_pkcs1_sign_boringssl.cc", "cc/subtle/rsa_ssa_pkcs1_verify_boringssl.cc", "cc/subtle/rsa_ssa_pss_sign_boringssl.cc", "cc/subtle/rsa_ssa_pss_verify_boringssl.cc", "cc/signature/sig_util.cc:SignAndVerify", "cc/internal/rsa_util.cc", "cc/signature/ecdsa_sign_key_manager.cc", "cc/signature/ecdsa_verify_key_manager.cc", "cc/signature/ed25519_sign_key_manager.cc", "cc/signature/rsa_ssa_pkcs1_sign_key_manager.cc", "cc/signature/rsa_ssa_pss_sign_key_manager.cc", "cc/signature/rsa_ssa_pss_verify_key_manager.cc", "python/tink/signature/_signature_key_templates.py"]}
{"id": "C92", "title": "Signature handles of Python over the keys of the C++ library: signing, verification, public handles, rotation and new handles", "statement": "For a keyset whose enabled keys are good signature keys of the C++ library, in any number and with any mixture of schemes and output prefixes: the handle gives a signer that signs every message with the primary key, as its scheme does, behind the key's output prefix (LEGACY keys sign the message followed by a zero byte), and that raises a Tink error if there is no enabled primary key; a public keyset gives a verifier that accepts exactly what one of its enabled keys accepts behind its prefix, or unprefixed for RAW keys, and otherwise raises a Tink error. A signature stays valid for every public keyset that contains the public part of the signing key with its identifier and prefix, whichever key is primary there and whatever other keys are added. The public handle of a private keyset exists and has, in the same order, the public parts of its keys with the same identifiers, statuses and prefixes, and the same primary key. Each of the predefined signature templates gives a new handle with one enabled primary key of the template's parameters and prefix, freshly chosen, which signs every message so that its public handle verifies it.", "quantifier": "every keyset, every number of keys, every message, signature and random choice, and every library of primitives that obeys the laws of the schemes", "why_tests_cant": "it composes the wrappers, the registry, key managers and message formats over all keysets and inputs; tests use a few fixed keysets", "anchors": ["python/tink/signature/_signature_wrapper.py:PublicKeySignWrapper", "python/tink/signature/_signature_wrapper.py:PublicKeyVerifyWrapper", "python/tink/signature/_signature_key_manager.py:_PublicKeySignCcToPyWrapper", "python/tink/signature/_signature_key_manager.py:register", "python/tink/signature/_signature_key_templates.py", "python/tink/_keyset_handle.py:KeysetHandle.public_keyset_handle", "python/tink/_keyset_handle.py:KeysetHandle.generate_new", "cc/signature/ecdsa_sign_key_manager.cc", "cc/signature/ed25519_sign_key_manager.cc", "cc/signature/rsa_ssa_pkcs1_sign_key_manager.cc", "cc/signature/rsa_ssa_pss_sign_key_manager.cc"]}
{"id": "C93", "title": "JWT keys of the C++ library: which keys are accepted, what they sign, verify and compute, their public keys and new keys", "statement": "The C++ managers that the Python JWT package gets its primitives from make a verifier (or signer) of key data exactly if its type and contents are a version 0 JWT ECDSA, RSASSA-PKCS1 or RSASSA-PSS key with one of the three algorithms of its family, with a point on the curve of that algorithm, or with an RSA modulus of at least 2048 bits and an odd exponent between 2^16 and 2^32 (and a private part that the library accepts). The verifier accepts exactly the signatures that are valid in the scheme that RFC 7518 assigns to the algorithm: ES256 is ECDSA on P-256 with SHA-256, ES384 on P-384 with SHA-384, ES512 on P-521 with SHA-512, with R and S concatenated; RSnnn and PSnnn use SHA-nnn, and PSnnn also for MGF1 and with a salt of the size of the hash. The signer makes exactly those signatures, and the public key of a private key verifies them. The public key data has the algorithm, numbers and custom kid of the private key. A JWT HMAC key is accepted exactly if it has one of the three algorithms and at least as many bytes as the hash; its tag is the whole HMAC and nothing else verifies. New keys are made for exactly the acceptable formats, are freshly generated, have no custom kid and always work; all 28 JWT templates are acceptable and ask for what their names say.", "quantifier": "every key data, message, signature, tag, key format and random choice, and every library of primitives that obeys the laws of the schemes", "why_tests_cant": "tests try a few fixed keys, and algorithm confusion or a wrong salt length shows only for particular combinations of algorithm and key", "anchors": ["cc/jwt/internal/raw_jwt_hmac_key_manager.cc", "cc/jwt/internal/raw_jwt_hmac_key_manager.h:MacFactory", "cc/jwt/internal/raw_jwt_ecdsa_sign_key_manager.cc", "cc/jwt/internal/raw_jwt_ecdsa_verify_key_manager.cc", "cc/jwt/internal/raw_jwt_rsa_ssa_pkcs1_sign_key_manager.cc", "cc/jwt/internal/raw_jwt_rsa_ssa_pkcs1_verify_key_manager.cc", "cc/jwt/internal/raw_jwt_rsa_ssa_pss_sign_key_manager.cc", "cc/jwt/internal/raw_jwt_rsa_ssa_pss_verify_key_manager.cc", "python/tink/jwt/_jwt_key_templates.py"]}
{"id": "C94", "title": "JWT keysets over the C++ keys: which tokens are made and accepted, public handles, and new handles from the templates", "statement": "For a keyset of JWT HMAC keys (or private JWT signature keys) that the C++ library accepts, each RAW or TINK, the handle makes, for every JWT with ordinary contents, a compact token whose header has the algorithm of the primary key and its kid (the id of a TINK key, else the custom kid), whose payload is that of the JWT, and whose third part is the HMAC (or a signature) of the first two with the primary key; it makes none if a TINK key also has a custom kid or there is no enabled primary key. Verification with a keyset returns a JWT exactly if the token is authentic for one of the enabled keys, with its algorithm in the header and its kid if it has one, and the claims satisfy the validator; a token that no key authenticates raises TinkError. So a token is accepted by any later keyset that still has the key with the same id and prefix. The public handle of a private JWT keyset has the public keys with the same ids, statuses, prefixes and kids, and verifies its tokens. A handle newly generated from any of the 28 predefined JWT templates has one fresh enabled primary key of the algorithm that the template names, and its tokens are accepted by it or its public handle.", "quantifier": "every keyset of JWT keys in any order and with any primary key, every JWT, token, clock, validator, random choice and template, and every library of primitives that obeys its laws", "why_tests_cant": "tests use a few keysets and tokens; a token for a neighbouring algorithm, kid or prefix that is wrongly accepted or rejected is found only for particular keysets", "anchors": ["python/tink/jwt/_jwt_mac_wrapper.py", "python/tink/jwt/_jwt_signature_wrappers.py", "python/tink/jwt/_jwt_hmac_key_manager.py", "python/tink/jwt/_jwt_signature_key_manager.py", "python/tink/jwt/_jwt_key_templates.py", "python/tink/_keyset_handle.py:KeysetHandle", "cc/jwt/internal/raw_jwt_hmac_key_manager.cc", "cc/jwt/internal/raw_jwt_ecdsa_sign_key_manager.cc"]}
{"id": "C95", "title": "HPKE in the C++ library: which keys work, what they encrypt and decrypt, public keys, new keys and templates", "statement": "An HPKE public key (type, version 0, algorithms, non-empty key) gives an object exactly if its KEM is X25519, its KDF HKDF-SHA256 and its AEAD is stated; a private key likewise. Encryption gives exactly the encapsulated key followed by the sealed plaintext, with the AEAD that the key names and with the context as info; decryption gives P exactly if the first 32 bytes, as encapsulated key, and the rest open to P with the same AEAD, private key and info; neither crashes the process. With a key pair that belongs together every plaintext that the AEAD admits is encrypted and every ciphertext decrypted to its plaintext. The public key of a private key has its algorithms and public part, and no new public key can be made directly. A new key is made exactly for the formats with one of the four KEMs and a stated KDF and AEAD, has the algorithms that the format asks for, and a fresh key pair; each of the six predefined templates asks for the algorithms it names. Two shortcomings: keys are made for the NIST KEMs and other KDFs although no object can be got for them, and a key with an unknown AEAD gives an object that encrypts nothing.", "quantifier": "every serialized key and format, valid or not, every plaintext, ciphertext, context and random choice, and every HPKE library that obeys its laws", "why_tests_cant": "tests use a few RFC vectors and key pairs; a wrong boundary between the encapsulated key and the message, a wrong AEAD or a key accepted by mistake shows only for particular keys and inputs", "anchors": ["cc/hybrid/internal/hpke_encrypt.cc", "cc/hybrid/internal/hpke_decrypt.cc", "cc/hybrid/internal/hpke_context.cc", "cc/hybrid/internal/hpke_context_boringssl.cc", "cc/hybrid/internal/hpke_util.cc", "cc/hybrid/internal/hpke_private_key_manager.cc", "cc/hybrid/internal/hpke_public_key_manager.cc", "python/tink/hybrid/_hybrid_key_templates.py"]}
{"id": "C96", "title": "HPKE keysets over the C++ keys: encryption for public handles, decryption, key rotation, and new handles from the templates", "statement": "For a keyset of HPKE public keys with supported algorithms, the handle's primitive encrypts to exactly the prefix of the primary key followed by the HPKE ciphertext for it, or raises TinkError; without an enabled primary key it always raises TinkError. For a keyset of HPKE private keys, decryption returns only plaintexts to which some enabled key opens the ciphertext after its prefix, returns one whenever there is any, and raises TinkError otherwise. What is encrypted for a public keyset is decrypted to its plaintext by any private keyset that still has the key with the same id and prefix, if it is the only key or the prefix tells it apart, or no other key opens the ciphertext as something else. The public handle of a private HPKE keyset has the public keys with the same ids, statuses, prefixes and primary key. A handle newly generated from any of the six predefined HPKE templates has one fresh enabled primary key with the algorithms and the prefix that the template names, and what is encrypted for its public handle is decrypted by it, for every plaintext that the AEAD admits.", "quantifier": "every keyset of HPKE keys in any order and with any primary key, every plaintext, ciphertext, context, random choice and template, and every HPKE library that obeys its laws", "why_tests_cant": "tests use a few keysets; a ciphertext for a neighbouring key, prefix or primary key that is wrongly made or rejected shows only for particular keysets", "anchors": ["python/tink/hybrid/_hybrid_wrapper.py", "python/tink/hybrid/_hybrid_key_manager.py", "python/tink/hybrid/_hybrid_key_templates.py", "python/tink/_keyset_handle.py:KeysetHandle", "cc/hybrid/internal/hpke_private_key_manager.cc", "cc/hybrid/internal/hpke_public_key_manager.cc"]}
{"id": "C97", "title": "Hybrid keysets with ECIES and HPKE keys side by side, and the example programs over them", "statement": "A hybrid keyset may mix ECIES keys and HPKE keys. A handle of such a public keyset encrypts to exactly the prefix of the primary key followed by a ciphertext of the scheme of that key. A handle of such a private keyset returns only plaintexts to which some enabled key, with its own scheme, opens the ciphertext after its prefix, returns one whenever there is any, and raises TinkError otherwise; so a ciphertext survives a change of the primary key from one scheme to the other. The public handle has the public half of each key with the same id, status, prefix and primary key. The hybrid command-line program, given such a keyset file, writes exactly such a ciphertext or plaintext to its output file and changes no other file, or fails without writing; what it encrypts from a file for a public keyset it decrypts to the same file contents with any private keyset file that still has the key and tells it apart. The program hybrid_basic.py runs to its end in every process, provided that the public key written in it belongs to its private key.", "quantifier": "every keyset of ECIES and HPKE keys in any order and with any primary key, every plaintext, ciphertext, context, random choice and state of the files, every earlier registration in the process, and every library that obeys its laws", "why_tests_cant": "tests use keysets with keys of one scheme; a mix of schemes, prefixes and primary keys for which the wrong key is tried or the wrong file is written shows only for particular keysets", "anchors": ["python/examples/hybrid/hybrid_cli.py", "python/examples/hybrid/hybrid_basic.py:example", "python/tink/hybrid/_hybrid_wrapper.py", "python/tink/hybrid/_hybrid_key_manager.py", "python/tink/_keyset_handle.py:KeysetHandle", "cc/hybrid/internal/hpke_private_key_manager.cc", "cc/hybrid/ecies_aead_hkdf_private_key_manager.cc"]}
{"id": "C98", "title": "The signature programs over the C++ keys: files signed and verified, and signature_basic.py", "statement": "The signature command-line program, given a file with a private keyset of ECDSA, Ed25519, RSA-SSA-PKCS1 and RSA-SSA-PSS keys in any mix, writes to its output file, in lower-case hexadecimal, exactly the prefix of the primary key followed by the signature with that key over the data (followed by a zero byte for LEGACY keys), and changes no other file; without an enabled primary key it fails and changes nothing. Given a file with a public keyset it changes no file, never raises, and its exit status is 0 exactly if the tag file is, up to surrounding white space, the hexadecimal form of a prefix of one of the enabled keys followed by a signature of the data that is valid for that key. What one run signs, another run verifies with any public keyset file that has the public key with the same id and prefix. The program signature_basic.py runs to its end in every process, provided that the key written in it is a key on its curve with a matching public key.", "quantifier": "every keyset of signature keys in any order and with any primary key, every content of the data and tag files, every random choice, every earlier registration in the process, and every library that obeys its laws", "why_tests_cant": "tests sign one file with one keyset; a wrong prefix, encoding or exit status shows only for particular keysets and tag files", "anchors": ["python/examples/signature/signature_cli.py", "python/examples/signature/signature_basic.py:example", "python/tink/signature/_signature_wrapper.py", "python/tink/signature/_signature_key_manager.py", "cc/signature/ecdsa_sign_key_manager.cc", "cc/signature/ecdsa_verify_key_manager.cc"]}
{"id": "C99", "title": "The JWT programs over the C++ keys: a token signed, its JWK set published, the token verified", "statement": "For every keyset of JWT ECDSA, RSA-SSA-PKCS1 and RSA-SSA-PSS keys, the public key that is read back from the JWK of a key verifies exactly the signatures that the key verifies. The signing program writes to its output file a token with exactly the given audience and the expiration 100 seconds ahead, the header of the algorithm and the kid of the primary key, and a third part that is the signature with that key of the first two parts, and changes no other file. The publishing program writes the JWK set of the enabled public keys. The verifying program, given a copy of a published JWK set, changes no file, and its exit status is 0 exactly if its token file is a token whose third part is a signature that is valid for one of the published keys, with the header of that key, not expired, and with the expected audience. A token that was signed with a key whose public key, with the same id and prefix, was published is verified until it expires.", "quantifier": "every keyset of JWT signature keys in any order and with any primary key, kids and hash functions, every audience, every token file, every clock value, every random choice, and every library that obeys its laws", "why_tests_cant": "tests run the three programs once with one key; a key that changes on its way through a JWK, or a kid that is dropped, shows only for particular keysets", "anchors": ["python/examples/jwt/jwt_sign_cli.py", "python/examples/jwt/jwt_generate_public_jwk_set.py", "python/examples/jwt/jwt_verify_cli.py", "python/tink/jwt/_jwk_set_converter.py", "python/tink/jwt/_jwt_signature_wrappers.py", "python/tink/jwt/_jwt_signature_key_manager.py", "cc/jwt/internal/raw_jwt_ecdsa_sign_key_manager.cc", "cc/jwt/internal/raw_jwt_ecdsa_verify_key_manager.cc"]}
{"id": "C100", "title": "JWK sets of JWT keysets over the C++ keys: exported, imported, and tokens verified with them", "statement": "For every public keyset of JWT ECDSA, RSA-SSA-PKCS1 and RSA-SSA-PSS keys the JWK set can be exported. Importing it gives a handle with the enabled keys, in their order, enabled, with the same public keys, RAW, with new distinct ids, and with the kid of the key id for TINK keys and the custom kid for RAW keys; the JWK set of a keyset without an enabled key raises TinkError on import. The verifier of the imported handle accepts exactly the tokens whose signature is valid for one of the keys, with its algorithm in the header and either no kid or the kid of that key, and that the validator accepts. So it accepts every token that the keyset accepts, and, if no TINK key has a custom kid, of the tokens with a kid no other. Every token that a private keyset signs is verified with the handle that is imported from the JWK set of its public keyset.", "quantifier": "every keyset of JWT signature keys in any order and with any primary key, statuses, kids and hash functions, every token, validator, clock value and random choice, every choice of new ids, and every library that obeys its laws", "why_tests_cant": "tests convert a few JWK sets and one token; a kid that is lost or a key that changes on import shows only for particular keysets and tokens", "anchors": ["python/tink/jwt/_jwk_set_converter.py", "python/tink/jwt/_jwt_signature_wrappers.py", "python/tink/jwt/_jwt_signature_key_manager.py", "python/tink/_keyset_handle.py:KeysetHandle.public_keyset_handle", "cc/jwt/internal/raw_jwt_ecdsa_verify_key_manager.cc", "cc/jwt/internal/raw_jwt_rsa_ssa_pkcs1_verify_key_manager.cc", "cc/jwt/internal/raw_jwt_rsa_ssa_pss_verify_key_manager.cc"]}
{"id": "C101", "title": "Keysets encrypted with a master keyset of C++ AEAD keys: exact content, rotation and revocation of master keys", "statement": "For every keyset and every master keyset of AES-EAX, AES-GCM, AES-GCM-SIV, XChaCha20-Poly1305 and AES-CTR-HMAC keys whose prefixes tell its keys apart, writing the keyset encrypted, in the binary or in the JSON format, succeeds, and what is written holds the prefix of the primary master key followed by the encryption of the serialized keyset under that key, bound to the associated data, and in JSON a description of the keyset without key material. It can be read with every master keyset that has that master key enabled, under any other primary key, and the handle is the one that was written. Reading returns a handle only if an enabled master key decrypts the content, under the given associated data, to that keyset; otherwise it raises TinkError. Once no enabled master key has the id of the key that was used, reading raises TinkError.", "quantifier": "every keyset and every master keyset before and after rotation, all associated data, every random choice, both formats, every file content on reading, and every library that obeys its laws", "why_tests_cant": "tests write and read a keyset once with one master key; a prefix or associated data that is not bound, or a revoked key that still decrypts, shows only for particular histories of the master keyset", "anchors": ["python/tink/_keyset_handle.py:KeysetHandle.write_with_associated_data", "python/tink/_keyset_handle.py:KeysetHandle.read_with_associated_data", "python/tink/_proto_keyset_format.py:serialize_encrypted", "python/tink/_proto_keyset_format.py:parse_encrypted", "python/tink/_json_proto_keyset_format.py:serialize_encrypted", "python/tink/_json_proto_keyset_format.py:parse_encrypted", "python/tink/aead/_aead_wrapper.py"]}
{"id": "C102", "title": "Public keysets of C++ keys can be given away as files without secrets, and work with the private keyset also after it was rotated", "statement": "For every private keyset of signature keys, of JWT signature keys, or of ECIES and HPKE keys, the keyset can neither be written nor read through the functions that need no access to secrets, in the binary and in the JSON format. Its public keyset handle can be made, can be written with them in both formats, and what is written is read as exactly that handle. The verifier of that handle accepts every signature, and every token that its validator accepts, of a later private keyset whose primary key is one of the keys that were enabled; and what is encrypted with it is decrypted to the same plaintext by every later private keyset that still has the primary key enabled and whose prefixes tell its keys apart.", "quantifier": "every private keyset with any statuses and prefixes, every later private keyset, all data, tokens, context infos and random choices, both formats, and every library that obeys its laws", "why_tests_cant": "tests write one public keyset and use it at once with the private keyset it comes from", "anchors": ["python/tink/_keyset_handle.py:KeysetHandle.public_keyset_handle", "python/tink/_proto_keyset_format.py:serialize_without_secret", "python/tink/_proto_keyset_format.py:parse_without_secret", "python/tink/_json_proto_keyset_format.py:serialize_without_secret", "python/tink/_json_proto_keyset_format.py:parse_without_secret", "python/tink/signature/_signature_key_manager.py", "python/tink/hybrid/_hybrid_key_manager.py", "python/tink/jwt/_jwt_signature_key_manager.py"]}
{"id": "C103", "title": "Keysets managed with the builder work after every history of calls, and keep decrypting and verifying for keys that are still on", "statement": "For every history of calls to a new KeysetBuilder that adds keys for predefined AEAD, deterministic AEAD or MAC templates with the TINK prefix, in any order with any other calls: every addition succeeds, ids are unique, the other calls succeed or raise TinkError, the keyset handle exists exactly if the primary key exists and is enabled, and a builder from that handle continues with the same keyset. The primitive of the handle encrypts or computes tags for the primary key and uses exactly the enabled keys. After every further history: what the first handle encrypted or authenticated is decrypted to the same plaintext, or verified, if its key was not deleted and is enabled in the end, and raises TinkError if its key is disabled in the end, or was deleted and no key was added since.", "quantifier": "every history of builder calls, with unknown and repeated ids, all random choices and drawn ids, every further history, all plaintexts, associated data and messages, and every library that obeys its laws", "why_tests_cant": "tests run one short history for each case and look at the keyset, not at all that its primitives do", "anchors": ["python/tink/testing/keyset_builder.py:KeysetBuilder", "python/tink/_keyset_handle.py:KeysetHandle.primitive", "python/tink/aead/_aead_wrapper.py", "python/tink/daead/_deterministic_aead_wrapper.py", "python/tink/mac/_mac_wrapper.py"]}
{"id": "C104", "title": "Public keysets published from a builder verify the signatures of the later private keyset exactly for keys that were published", "statement": "For every history of calls to a new KeysetBuilder that adds keys for predefined signature templates with the TINK prefix, in any order with any other calls, every addition succeeds and the other calls succeed or raise TinkError. If the primary key is enabled, the builder's public keyset exists, has no secrets, can be read without access to secrets, and the private keyset cannot be written without it. After every further history that ends with an enabled primary key, everything can be signed. If that key was enabled when the public keyset was published and was not deleted since, the verifier of the published keyset accepts each of the signatures. If no key with its id was enabled when the public keyset was published, the verifier raises TinkError for each of the signatures with any data.", "quantifier": "every history of builder calls before and after publishing, with unknown and repeated ids, all random choices and drawn ids, all data, and every library that obeys its laws", "why_tests_cant": "tests publish one keyset and verify one signature; the rule that a key must be published before it becomes primary is not tested", "anchors": ["python/tink/testing/keyset_builder.py:KeysetBuilder", "python/tink/testing/keyset_builder.py:KeysetBuilder.public_keyset", "python/tink/_keyset_handle.py:KeysetHandle.public_keyset_handle", "python/tink/signature/_signature_wrapper.py"]}
{"id": "C105", "title": "Public keysets published from a builder encrypt for the later private keyset as long as the key stays on, and not after it is retired", "statement": "For every history of calls to a new KeysetBuilder that adds keys for predefined hybrid encryption templates (ECIES or HPKE) with the TINK prefix, in any order with any other calls, every addition succeeds and the other calls succeed or raise TinkError. If the primary key is enabled, the builder's public keyset exists, has no secrets, can be read without access to secrets, and the private keyset cannot be written without it. Its encrypter encrypts every plaintext shorter than 2^31 bytes. After every further history that ends with an enabled primary key, the private keyset decrypts each of the ciphertexts to its plaintext if the key that was primary at publication was never deleted and is enabled in the end, whichever key is primary now. If that key is disabled in the end, or deleted with no key added after that, the private keyset raises TinkError for each of the ciphertexts with any context info.", "quantifier": "every history of builder calls before and after publishing, with unknown and repeated ids, all random choices and drawn ids, all plaintexts and context infos, and every library that obeys its laws", "why_tests_cant": "tests encrypt one message with one published keyset; rotation and retirement of the private key after publication are tested for single sequences at most", "anchors": ["python/tink/testing/keyset_builder.py:KeysetBuilder", "python/tink/testing/keyset_builder.py:KeysetBuilder.public_keyset", "python/tink/_keyset_handle.py:KeysetHandle.public_keyset_handle", "python/tink/hybrid/_hybrid_wrapper.py"]}
{"id": "C106", "title": "JWT keysets managed with a builder: tokens are accepted as long as their key stays on, and no published keyset accepts a token of a key it does not have", "statement": "For every history of calls to a new KeysetBuilder that adds keys for predefined JWT templates of one kind (MAC or signature) with the TINK prefix, in any order with any other calls, every addition succeeds and the other calls succeed or raise TinkError. MAC: while the primary key is enabled, the JwtMac of the keyset makes a token for every ordinary JWT. After every further history that ends with an enabled primary key, the JwtMac accepts the token with every validator that accepts its claims, and returns them, if the key that made it was never deleted and is enabled in the end; if that key is disabled in the end, or deleted with no key added after that, no validator makes it accept the token. Signatures: if the primary key is enabled, the builder's public keyset exists, has no secrets, can be read without access to secrets, and the private keyset cannot be written without it. After every further history that ends with an enabled primary key, the private keyset signs every ordinary JWT; the published keyset accepts the token with every validator that accepts its claims if the key that signs was enabled at publication and was not deleted since then, and it accepts it with no validator if no enabled key of the published keyset has that key's id.", "quantifier": "every history of builder calls before and after the token is made or the public keyset is published, with unknown and repeated ids, all random choices and drawn ids, all ordinary JWTs, validators and clocks, and every library that obeys its laws", "why_tests_cant": "tests verify a few tokens with one keyset or one rotated keyset; other histories, claims and validators are not run", "anchors": ["python/tink/testing/keyset_builder.py:KeysetBuilder", "python/tink/testing/keyset_builder.py:KeysetBuilder.public_keyset", "python/tink/_keyset_handle.py:KeysetHandle.public_keyset_handle", "python/tink/jwt/_jwt_mac_wrapper.py", "python/tink/jwt/_jwt_signature_wrappers.py"]}
