# Formal model of Tink (Python) in Rocq/Coq

Model, specifications and proofs live in `rocq/theories/` (logical name `Verif`).
The code modelled is `/repo/python/tink`; every definition cites file and lines.

## Method

* Shallow embedding: each Python function is a total Gallina function that
  mirrors the code branch by branch. Exceptions are values (`result A := Ok | Err exn`);
  the exception *class* is modelled (TinkError, JwtInvalidError, ValueError, struct.error, ...),
  messages are kept as short tags.
* `bytes` = `list byte` (256 constructors: no well-formedness side conditions),
  `str` = list of code points (lone surrogates are representable, as in Python).
* Stateful parts (registry, KMS client list, primitive sets, builder, streams) are
  step functions; properties quantify over every sequence of operations.
* External code (C++ crypto, KMS servers, Python file objects, random numbers) is an
  argument of the functions: theorems quantify over all its behaviours, and any
  assumption on it (e.g. "decrypt inverts encrypt") is an explicit hypothesis.
* File roles: `M_*.v` model, `S_*.v` independent specifications, `L_*.v` lemmas and
  proofs, `P_*.v` the property theorems (`exact lemma`, `Print Assumptions`, and a
  concrete non-vacuity `Example`).

## Plan per property

| id | model | proof |
|----|-------|-------|
| C01 | `output_prefix` | case analysis; big-endian encoding injective by induction |
| C02-C06 | registry lookup, `KeysetHandle.primitive`, primitive set, wrapped AEAD | equality of decrypt with the specification "first success over candidate list computed from the keyset"; soundness, completeness, rotation, non-interference are corollaries |
| C07-C10 | the other wrappers, same shape | same |
| C11 | PRF set | induction over keyset |
| C12 | all wrappers | induction over candidate lists |
| C13 | `_validate_keyset` | equivalence with a declarative predicate |
| C14 | `generate_new` with random choices as an argument stream | computation + range lemma |
| C15, C16 | `_encrypt`, `_decrypt`, readers, writers | composition with C21/C55 |
| C17-C19 | no-secret checks, keyset info, token checks | induction over keys; non-interference |
| C20 | `public_keyset_handle` | induction (Forall2) |
| C21, C22 | protobuf wire format for tink.proto messages | decode (encode m) = m by field-wise parsing lemmas; error classes by case analysis |
| C23, C24 | registry as a state machine | invariant over operation histories |
| C25 | primitive set | refinement to filter over the insertion history |
| C26 | KMS clients list | refinement to `find` over history |
| C27-C29 | envelope AEAD | format equation; slicing lemmas |
| C30, C31 | KMS clients | string lemmas, hex injectivity |
| C32 | base64url | induction by groups of 3 bytes |
| C33, C34, C54 | JSON printer/parser | parse(print v) = v by structural induction on v |
| C35 | `split_signed_compact` | equivalence |
| C36, C37 | JWT HMAC / signature primitives | composition of C32, C33, C35 |
| C38, C39 | validator | equivalence with declarative predicate over microsecond time |
| C40 | raw JWT | case analysis + list induction |
| C41 | JWT wrappers | induction over entries |
| C42 | kid | composition of base64 and big-endian injectivity |
| C43 | whole JWT verify | expected to fail (NaN timestamps, non-object header): `_refuted` plus a positive theorem under a precise condition |
| C44, C45 | JWK converter | round trip by induction over keys; case analysis |
| C46, C47 | rewindable stream, decrypting stream wrapper | invariants over traces |
| C48, C49, C51 | stream adapters | refinement to byte queues |
| C50 | `PythonOutputStream::Close` | expected to fail: `_refuted` |
| C52 | keyset builder | invariant over histories |
| C53 | `num_to_bytes` | arithmetic |
| C55 | JSON proto format | composition of JSON round trip and base64 |
| C56 | all template constructors and constants, schema-described key format messages (M_ProtoMsg, M_KeyFormats, M_Templates) | generic message round trip by mutual induction, then case analysis over the constructors |
| C57 | all register functions, the CcToPy managers and wrappers, cc/cc_key_manager.h over an arbitrary C++ library (M_CcManagers) | invariant over histories of calls: every manager of a package's key type is the one built from the C++ manager; then C12 and C04 over it |
| C58 | streaming AEAD wrapper over the C++ stream adapters | composition of C46-C49 |
| C59 | protobuf JSON parser | induction over members |
| C60 | the keyset writers over an arbitrary stream that stores front parts (M_KeysetStream) | no strict prefix of a JSON object is a JSON text (from the grammar equivalence of C33); a front part of serialized fields parses only at field boundaries, by induction over fields |
| C61 | the registry, handle and register functions as programs over single dict accesses, a pool of such programs and a schedule (M_Threads) | rely-guarantee: each program is safe while other threads only add entries and keep their meaning; induction over the schedule; refinement of each program run alone to the sequential model |
| C62 | a heap of lists, dicts and Keyset messages; new_raw_jwt, verification, `audiences`, `custom_claim` and the ways in and out of keyset handles as functions on it; a caller that makes, changes and follows the references it has (M_Objects) | invariant: what the caller can reach is closed and apart from the objects of tokens and of private handles; refinement of the token functions to M_RawJwt; induction over the calls |
| C63 | the programs in `examples/` as functions on a file system (M_Cli): which statements open, truncate and write which file, in program order | symbolic execution of each program over an arbitrary file system |
| C64 | the same, over keyset files in any JSON layout and an arbitrary C++ library | C57 laws of the primitives over C++, JSON reader and writer theorems, then composition of two and three runs |
| C65 | the same, with binascii and `bytes.strip` | exact characterisation of the texts that decode to a tag, by induction on the text |
| C66 | the JWK set converter and the verifiers of the two keysets (M_Jwk, M_JwtKeys, M_JwtWrappers) | composition of the exact round trip of JWK sets (C44) with the exact acceptance of tokens (C37), both for arbitrary keysets; the C++ verifiers of a key and of the key made of its JWK are assumed to accept the same signatures |
| C67 | the three JWT programs (M_Cli) over the JWT key managers, the JWK converter and the JSON keyset reader | each program's run is reduced to the exact theorems on tokens (C36, C37), JWK sets (C44, C66) and keyset files (C64), for arbitrary keysets and file systems; then composition over the files. Hypotheses on the C++ library: it knows the key types, its signatures verify, and it verifies the same with the key of a JWK |
| C68 | `io.BufferedWriter` over the raw encrypting stream (M_Buffered, on top of C49) | invariant over histories of writes and flushes: what was written is what the raw stream took plus what the buffer holds, or an error has happened and stays; the C++ stream is assumed to be an encryption (C49's hypothesis) |
| C69 | `io.BufferedReader` over the decrypting stream of a keyset (M_Buffered, on top of C47, C51) | invariant: the bytes handed out and the buffer are a front part of the plaintext; each call against an independent description of a binary file; induction over the history. Damaged ciphertexts: the C++ stream gives a part and then an error |
| C70 | `encrypt_file`, `decrypt_file`, `read_as_blocks` on any file objects (M_CliStream, on top of C68, C69) | the loop over the blocks is one history of writes (of reads) of the buffered streams; induction over the blocks; the with statement closes in every case |
| C71 | the program over a file system, as in C63 (M_CliStream) | an opened file is a source and a destination as in C70; with C64's keyset files; in-place runs: the output is opened, and emptied, before the input is read |
| C72 | the segment streams of the C++ library (M_CcSegments) and AES-GCM-HKDF and AES-CTR-HMAC on top (M_CcAes), BoringSSL an argument | a format given by inductive relations (S_CcSegments, S_CcAes); invariant of the encrypting stream: what is in the destination are the sealed segments, what is in the buffer is the rest |
| C73 | the same | what a decrypting stream gives is the relation `unsealed` on the bytes of the source, by an invariant over all sequences of Next and BackUp; on the format it is the plaintext |
| C74 | the same, for any bytes | as C73; with no forged segment, each segment that is opened is the next one of the same stream (induction over the segments), and one flagged last ends it |
| C75 | the two key managers of AES streaming in the C++ library, with key_manager_impl.h, the validation and their registration (M_CcStreamKeys), on the protobuf wire format of C21 | which parameters a key or a format stands for is a relation on its attributes (S_CcStreamKeys); equivalence by cases of the checks; a new key is parsed back with the round trip of messages |
| C76 | everything from the Python handle (M_KeysetHandle, M_Registry, M_Buffered, M_CliStream) over the adapters (M_CcStream, M_CcManagers) to AES streaming (M_CcAes) | composition of C57, C68-C71 with C72-C75 |
| C77 | the functions of examples/walkthrough (M_Walkthrough) over handles, JSON formats and the KMS key manager | spec: which client answers a URI, what an encrypted document is (S_Walkthrough). Exact outcome of each function, composition over three processes |
| C78 | the five `*_basic.py` programs with their JSON literals (M_Walkthrough) | spec: the keys as bytes (S_Basic). The literals are parsed by computation for one JSON runtime and the result is carried over to every runtime (documents below the digit limit without floats), then C57 |
| C79 | testing/fake_kms.py (M_FakeKms) over base64, proto_keyset_format and handles | spec: a URI contains bytes (S_FakeKms). Decoder with the appended padding on digits and any padding; composition with C57 and C77 |
| C80 | testing/helper.py, testing/bytes_io.py (M_TestFakes) over a model of io.BytesIO | spec: the answers of a slow stream as a relation (S_TestFakes). Splitting at '|'; induction over histories of calls |
| C81 | cc/subtle/aes_eax_boringssl.cc (M_CcModes), with 64-bit words, doubling and OMAC as in the code; AES is an argument that maps blocks to blocks | spec: CMAC, counter mode and EAX from the papers, over numbers of 128 bits (S_CcModes). Doubling on words = doubling of numbers; OMAC = CMAC with a first block; examples with AES written out (X_Aes) and published vectors |
| C82 | cc/subtle/aes_siv_boringssl.cc (M_CcModes) | spec: S2V and SIV from RFC 5297 (S_CcModes). CmacLong on the altered last block = CMAC of the altered message; the mask of the counter = clearing bits 31 and 63 |
| C83 | the files of C++ for AES-GCM, AES-GCM-SIV, XChaCha20-Poly1305, AES-CTR, encrypt-then-authenticate and HMAC (M_CcSymmetric), with BoringSSL as a record of functions | spec: laws of BoringSSL (opening accepts exactly what sealing returns, tag sizes) and the format of the ciphertexts (S_CcSymmetric); the input of the HMAC is injective below 2^61 bytes |
| C84 | HMAC, CMAC, the PRFs from them, HkdfInputStream with its blocks and ReadBytesFromStream (M_CcSymmetric) | spec: CMAC of RFC 4493 (S_CcModes), HKDF of RFC 5869 (S_CcSymmetric). Induction over the chunks the stream returns, with the output still to come as the invariant |
| C85 | the eleven key managers of cc/aead, cc/daead, cc/mac, cc/prf for symmetric keys and KeyManagerImpl (M_CcSymKeys), over the wire format (M_ProtoMsg) | spec: keys as an inductive type with the attributes their messages must have and the sizes that are admissible (S_CcSymKeys). One record `manages` relates a manager to the spec; each manager is shown to satisfy it, and the theorems are proved once from it |
| C86 | the composition of the Python side (registration, keysets, wrappers: M_CcManagers, M_Wrappers, M_KeysetHandle) with the symmetric key managers and modes of C++ (M_CcSymKeys, M_CcSymmetric, M_CcModes) | spec in terms of the published algorithms and the prefixes of keys only (S_CcSymHandles). From C57's laws of the wrappers over C++ objects, C85 and C81-C84; new handles via the templates of C85, with the sizes of all messages bounded |
| C87 | the composition of the example programs (M_Cli, M_Walkthrough) and of envelope encryption (M_Kms) with the symmetric keys of C++ (M_CcSymKeys and below) | spec in terms of keys and published algorithms (S_CcSymPrograms). From C27-C29, C63-C65, C77 and C78 with the hypotheses about C++ discharged by C85 and C86 |
| C88 | cc/hybrid/ecies_aead_hkdf_hybrid_{en,de}crypt.cc, the DEM helper, the sender and recipient KEMs, HKDF, the point codec of cc/internal/ec_util.cc, AeadOrDaead (M_CcEcies); group operations, X25519 and EVP HKDF are arguments; the end of the process is a value | spec: laws of the curves, encodings, and ciphertexts as relations (S_CcEcies). Codec = relation; KEM = shared secret and HKDF; DEM by C81-C85; both directions of success |
| C89 | cc/hybrid/ecies_aead_hkdf_{private,public}_key_manager.{cc,h} with the generic key managers around them (M_CcEciesKeys), over the parser of the wire format (M_ProtoMsg) | spec: what a serialized key says, fresh key pairs, the four templates as literals (S_CcEciesKeys). Parsing, validation, then C88 |
| C90 | the Python wrappers and handles (M_Wrappers, M_KeysetHandle) over the C++ managers of C89, through the registration code (M_CcManagers) | spec: keysets as lists of public or private keys, stamped ciphertexts (S_CcEciesHandles). Composition of C57 with C89; public handles key by key; sizes of new keys computed per template. A low-order X25519 public key ends the process (C88) and is excluded |
| C91 | signers, verifiers and key managers of ECDSA, Ed25519, RSA-SSA-PKCS1 and RSA-SSA-PSS in the C++ library, with the DER encoding of ECDSA signatures written out (M_CcSignatures); BoringSSL's primitives are an argument | spec: keys as written in messages, which keys are good, DER as a relation, valid signatures, laws of the schemes (S_CcSignatures). Reading lemmas from messages to keys, DER both ways, then each manager against the spec. Refuted: every new PSS key can sign; a signer's public part is its own. Not modelled: OpenSSL in place of BoringSSL, FIPS mode, DeriveKey |
| C92 | handles, registry, wrappers and templates of Python over the signature managers of M_CcSignatures | spec: what keys of a keyset sign and verify, public halves, new handles (S_CcSigHandles); further laws: RSA signatures have the size of the modulus, no number of a new RSA key exceeds its modulus. Composition of C91 with the wrapper and configuration theorems; sizes of new keys by bounds on message lengths |
| C93 | the raw JWT key managers of the C++ library, with the JWT key messages (M_CcJwt) | spec: what JWT keys say and the scheme of each (S_CcJwt), as keys of S_CcSignatures. Reading of fields from parsed messages, then the theorems of C91 about the schemes; new keys: PSS always fits at 2048 bits |
| C94 | nothing new: handles, registry, JWT wrappers and key managers of Python (C38-C43, C55) over the C++ managers of C93 | spec: keysets of such keys, tokens for a key, tokens valid for a key (S_CcJwtHandles). The Python parser of JWT keys agrees with the C++ one on every key (L_CcJwtParse); then the theorems about JWT handles, with C93 for what the primitives do; sizes of new keys bounded so that they can be sent |
| C95 | `M_CcHpke.v`: HPKE encryption and decryption, conversion of the parameters, and the two key managers; BoringSSL's EVP_HPKE is an argument | spec: keys, algorithms, ciphertexts as the encapsulated key and the sealed message (S_CcHpke), laws of the library as a record. Unfolding of the managers to the spec in both directions; two findings proved as `_refuted` |
| C96 | nothing new: handles, registry and hybrid wrappers of Python over the C++ managers of C95 | spec: keysets of such keys, opening a ciphertext with one of the keys (S_CcHpkeHandles). The theorems about hybrid handles over C++ managers, with C95 for what the primitives do; sizes of new keys computed for each template |
| C97 | nothing new: handles, registry and hybrid wrappers of Python, hybrid_cli.py and hybrid_basic.py over the C++ managers of C89 and C95 | spec: keysets with keys of both kinds, opening a ciphertext with one of the keys (S_CcHybrid). The theorems about hybrid handles and about the programs, with the theorems about each kind of key for what the primitives do. That the two keys written in hybrid_basic.py belong together is a fact about X25519 and a hypothesis |
| C98 | nothing new: signature_cli.py and signature_basic.py over the C++ managers of C91 | spec: the signature of a file in hexadecimal, and the signatures that a keyset accepts (S_CcSigPrograms). The theorems about the programs (C64, C78), with C91 for what signers and verifiers do. That the key written in signature_basic.py is a key of P-256 with a matching public key is a hypothesis |
| C99 | nothing new: the three JWT programs over the C++ managers of C93 | spec: the token that is written and the tokens that a published JWK set accepts, in terms of signatures (S_CcJwtPrograms). The theorems about the programs (C67), whose hypothesis that the JWK of a key verifies the same signatures is proved here for the modelled managers: the two parsers of a JWT public key agree, and the signature scheme does not depend on the kid |
| C100 | nothing new: the JWK set converter over keysets of the C++ keys of C93 and C94 | spec: what an imported key is, and the tokens that a verifier of a JWK set accepts, in terms of signatures, algorithms and kids (S_CcJwk). Induction over the keys with the round trip of C44, then the verifier theorem of C94 on the imported keyset; the circle from a private keyset composes public_keyset_handle, export, import and verification |
| C101 | nothing new: encrypted keysets (C15, C16, C55) with the AEAD of a handle of the C++ keys of C86 as the master key | spec: what an encrypted keyset holds and which keyset a master keyset can decrypt it to, in terms of keys, prefixes and ciphertexts (S_CcMaster). The write's own check succeeds by the rotation theorem of C86 with the same keyset, reading by that theorem with the other one; revocation from the prefixes |
| C102 | nothing new: the functions without secrets (C17) on public handles of the C++ keys of C92, C94 and C97 | spec: what can be distributed and what is kept secret (S_CcPublish). The public keyset has no secret key material and its fields are in range, as type urls and ids are those of the managers and of the private keyset; then the round trips of C17 and C55 and the rotation theorems of C92, C94 and C97 |
| C103 | nothing new: the builder (C52) over the symmetric C++ keys of C86 | spec: calls for predefined templates, and what a history does to a key that is on (S_CcBuilder). Invariant over histories: every key has key data of the right kind, ids are unique and in range, statuses are enabled or disabled; so keysets are valid exactly if the primary key is on; keys persist by C52, and rotation and prefixes are those of C86 |
| C104 | nothing new: the builder (C52) over the signature keys of C92, published as in C102 | spec: keys that are on, and kept (S_CcBuilder2). The invariant of C103 for private keys; the public keyset has the public halves of all keys (C92); a key that is not deleted is the same key but for its status (C52); prefixes tell keys apart |
| C105 | nothing new: the builder (C52) over the ECIES and HPKE keys of C97, published as in C102 | spec: that of C103 (stays on, goes off). The invariant of C103 for private keys; the public keyset has the public halves of all keys (C97); a key that stays on is in the later keyset, and no enabled key has the id of one that goes off (C103); prefixes tell keys apart |
| C106 | nothing new: the builder (C52) over the JWT keys of C94, published as in C102 | spec: those of C103 (stays on, goes off) and C104 (kept), and the two kinds of JWT templates. The invariant of C103 for JWT keys; the key id in the header of a token is that of its key, so a keyset with no enabled key of that id rejects the token |

Not expressible in a model of this kind: cryptographic strength of the C++
primitives, timing side channels, real network behaviour of KMS servers, memory
safety of the C++ bindings.

## Trusted base

* Coq 8.16.1's kernel (and `coqchk`, which re-checks the compiled files). `vm_compute`
  is used in some proofs; the kernel flags are the defaults.
* Axioms: `Print Assumptions` follows every theorem of a `P_*.v` file and answers
  "Closed under the global context" for each of them. The build output therefore lists
  no axiom under any claimed theorem. Only the standard library is imported
  (`Coq.*`: Strings, Lists, NArith, ZArith, Bool, Lia, Permutation); loading it brings
  in library axioms of `Coq.ssr.ssrunder` that no theorem uses.
* No axiom, section-less variable, functor, module type or disabled check of our own.
* The model itself: that the Gallina functions do what the cited Python lines do. This
  is by reading; nothing here runs the Python code. The seeded edits in
  `seeded/LOG.jsonl` show which wrong versions of the model the theorems reject.
* `tools/` only generates text (`properties.jsonl`, `P_*.v` from `tools/P/*.in`,
  `MANIFEST.json`); what it generates is committed and checked like hand-written text.

### Models of code outside the repository

These are written from the documentation and source of the libraries, and are trusted
as descriptions of them:

| library | where | extent |
|---|---|---|
| Python `bytes`, `str`, `dict`, exceptions, `struct.pack` | M_Base | what the code uses |
| UTF-8 codec | M_Utf8 | strict encode and decode |
| `base64`, `binascii` | M_Base64 | urlsafe and standard alphabets, the lenient decoder |
| `json` | M_Json | scanner and encoder; a finite float is an integer multiple of 2^-1074, its decimal text is given by two functions of the runtime (repr and parse) that are arguments; 4300-digit limit of int() |
| protobuf binary format | M_Wire (tink.proto messages), M_JwtKeys, M_ProtoMsg (schema driven) | unknown fields are skipped, not kept |
| protobuf JSON format | M_JsonKeyset | on the messages of tink.proto |
| `io.RawIOBase` | M_Stream, M_RawFile | read, readall, close, closed |
| `io.BufferedWriter`, `io.BufferedReader` | M_Buffered | write, flush, close; read, read1, peek, readline, readinto, close; as in CPython's `_io/bufferedio.c`. Not `detach`, `readinto1`, `seek`, iteration, or use by several threads |
| C++ streams and pybind | M_CcStream, M_CcManagers | the adapters in `python/tink/cc/`; the C++ library under them is an argument, except in C72-C76 |

### Arguments of the model (quantified over in the theorems)

Every C++ key manager and primitive, the outcome of each C++ configuration call,
every KMS server and its client object, every source and destination file object
(any behaviour per call, including short reads, `None`, exceptions), all random numbers,
the clock, and any key manager or wrapper a user registers. A hypothesis on such an
argument ("decrypt undoes encrypt", "fails with TinkError only") is always written in
the theorem.

### What is modelled

All of `python/tink` with executable behaviour: `core/`, `aead/`, `daead/`, `hybrid/`,
`mac/`, `prf/`, `signature/`, `streaming_aead/`, `jwt/`, `integration/` (AWS, GCP,
HashiCorp Vault), `internal/`, keyset handles, readers, writers, the four keyset
formats, KMS clients, key templates, register functions, `testing/keyset_builder.py`, `testing/fake_kms.py`, `testing/helper.py`, `testing/bytes_io.py`,
the command line programs in `examples/` for AEAD, deterministic AEAD, hybrid, MAC,
signatures, streaming AEAD, cleartext and encrypted keysets, envelope encryption, Cloud
Storage and JWT, the `*_basic.py` programs, the functions of `examples/walkthrough`,
and the hand-written C++ adapters in `python/tink/cc/` (streams, key managers, error
conversion). Of the C++ library under `cc/`, which the Python package is built from: the
streaming AEAD streams, `cc/subtle/streaming_aead_{en,de}crypting_stream.cc`,
`nonce_based_streaming_aead.cc`, `aes_gcm_hkdf_*.cc` and `aes_ctr_hmac_streaming.cc`, and
their key managers and registration in `cc/streamingaead/` (without DeriveKey and FIPS mode), with
BoringSSL (HKDF, AES-GCM, AES-CTR, HMAC) as an argument; and `aes_eax_boringssl.cc` and
`aes_siv_boringssl.cc`, with the block cipher AES as an argument (without FIPS mode);
and the AEADs, MACs and PRFs listed at the top of `M_CcSymmetric.v`, with BoringSSL as an argument;
their key managers (`M_CcSymKeys.v`), ECIES with its key managers (`M_CcEcies.v`, `M_CcEciesKeys.v`, without OpenSSL in the place of BoringSSL), and the
signature schemes with their key managers (`M_CcSignatures.v`, the same; the DER encoding of signatures is written out),
the raw JWT key managers (`M_CcJwt.v`), HPKE with its key managers (`M_CcHpke.v`, with BoringSSL's `EVP_HPKE` as an argument), without FIPS mode and key derivation from a seed. There, sizes are natural numbers
(no overflow of `int`), and a streaming AEAD object has the random choices (salt, nonce
prefix) of one encrypting stream; the theorems hold for all of them.

### What is not modelled

* The rest of the C++ Tink library (cryptography), and network. Operating system files: in C63-C67 and C71 a
  file system is a map from paths to contents; opening for writing truncates, may be refused,
  and writing then succeeds; no other process runs meanwhile, no path names a file twice.
* `setup.py`, the `*_test.py` files and `testing/` helpers other than those named above.
* Interpreter limits: recursion depth, memory exhaustion, KeyboardInterrupt.
* Log output. Exception messages are kept only as tags, except where a property is
  about the message.
* Type errors for arguments of the wrong Python type: the functions of the model take
  arguments of the annotated type, except where the code itself checks the type.
* Object identity and aliasing, except in C62: lists and dicts of tokens, and the Keyset
  messages of handles. Parts of a Keyset message (its keys) are not objects of their own
  there, and key managers, which are given such parts, are assumed not to keep or change
  them.

## Findings

Places where the code does not do what one would expect. Each is proved (a theorem
whose name ends in `_refuted`, or a clause of the property) unless marked "read".

* `jwt`: a token with an integer of more than 4300 digits raises ValueError (C43).
* `jwt`: RAW keys imported from a JWK set accept tokens without kid, which the exported TINK keys
  refuse (C66_adds_nothing_refuted). A TINK key with a custom kid accepts no token, but is exported
  with the kid of its id, and the JWK accepts tokens (C66_two_kids_refuted).
* `jwt`: `get_kid` accepts 2^32 and then fails in struct.pack.
* `jwt`: custom claims with two adjacent surrogates come back altered.
* `jwt`: a list given as `audience` (instead of `audiences`) is accepted and kept without
  a copy, so the caller can change the token after it was validated (C62).
* JWK import raises KeyError, AttributeError, TypeError, UnicodeError or ValueError on
  malformed sets, export raises DecodeError; the round trip drops the key version; EC
  keys with RSA-only private members are accepted.
* Keyset handles: duplicate key ids are accepted; an all-public keyset without a primary
  is accepted and then fails on use; an unknown key material type passes the no-secret
  check; `public_keyset_handle` also processes disabled keys.
* `_encrypt` puts the cleartext keyset in an error message when its check fails.
* Failed `add_new_key` of the keyset builder leaves a blank key with id 0.
* AEAD/DAEAD with a prefix and an empty raw ciphertext cannot be decrypted.
* Wrappers are silently replaced by another wrapper of the same Python type.
* `new_key_data` and `public_key_data` let DecodeError through, as does
  `handle.primitive` for a malformed KMS key.
* GCP clients without a key URI claim to support malformed names; `get_aead` then raises.
* JSON keyset reader: TypeError, OverflowError on some inputs; `[]` and `""` are read as
  an empty message.
* The template ECDSA_P384 uses SHA512.
* C++: an RSA-PSS key format whose salt is too long for the modulus is accepted, and the new key cannot
  sign (C91_new_key_works_refuted). A private key of Ed25519 whose public part is another's is accepted,
  and signs what its public key refuses (C91_signer_matches_refuted).
* `prf.compute` with an output length outside C++'s range raises TypeError.
* `register()` raises the C++ exception class, not TinkError, when configuration fails.
* Streaming: a transient error of the source makes the decrypting stream give up the
  right key; a key whose stream cannot be created stops the search; closing
  `PythonOutputStream` (C50).
* A cleartext binary keyset file that was cut off can be read as a keyset with fewer
  keys; the writers ignore the number of bytes `write` says it stored; writing twice to
  the same binary stream merges the two keysets (C60).
* The registry has no lock: two threads that register conflicting managers or wrappers
  can both succeed, one replacing the other, and `new_key_allowed` can become True again
  after a registration with False has returned (C61).
* Handles made of a Keyset message of the caller (`from_keyset`, `from_proto_keyset`, own
  readers) keep that very message, and `to_proto_keyset` and writers of the caller, even
  with `write_no_secret`, are given the message of the handle: changing it changes the
  handle without any check (C62).
* `hybrid_cli.py` and the Cloud Storage program open their output before they decrypt: a
  failed decryption leaves it empty, and decrypting a file in place with the wrong context
  destroys it; 'generate' of the encrypted keyset program empties an existing keyset file
  when the KMS fails, and both 'generate' modes replace an existing keyset without asking
  (C63).
* The streaming AEAD example: if reading the input fails, `encrypt_file` closes the stream
  and so leaves a complete ciphertext of a part of the input, which later decrypts without
  an error (C70_failed_encryption_is_incomplete_refuted); `decrypt_file` does not look at
  the number of bytes `write` took (C70_raw_output_complete_refuted). A failed decryption
  leaves a part of the plaintext in the output file (C71_decrypt_damaged). Encrypting a file
  to itself destroys it and exits with status 0 (C71_encrypt_in_place); decrypting a file to
  itself destroys it (C71_decrypt_in_place).
* AES streaming (C++): bytes behind a last segment of full size are ignored, so that a
  ciphertext with something appended can decrypt without an error
  (C74_altered_is_detected_refuted, C74_ignores_trailing_bytes). `AesGcmHkdfStreaming`
  itself accepts segment sizes that leave no space behind the header (read; the key manager
  refuses them).
* AES-GCM-HKDF streaming key formats with segments of 2^31 bytes or more are accepted, and
  the keys that are generated cannot be used (C75_new_key_works_refuted); the manager for
  AES-CTR-HMAC checks it. The sum in `ValidateParams` can overflow an `int` if
  derived_key_size is near 2^31 (read).
* `WriteKeyset` of the walkthrough does not flush its stream, `WriteEncryptedKeyset` does
  (C77_no_flush). Both document TinkError for all errors; what a KMS client raises in
  `get_aead` comes through unchanged (C77_kms_aead).
* The fake KMS client made for one URI gives AEADs for all others too, unlike the AWS and
  Google Cloud clients (C79_bound_client_refuses_refuted); it skips characters outside the
  alphabet (C79_one_uri_per_key_refuted) and lets binascii.Error and UnicodeEncodeError
  through (C79_only_tink_error_refuted).
* The fake AEADs refuse or shorten plaintexts with '|' (C80_round_trip_refuted) and accept
  altered ciphertexts (C80_altered_is_detected_refuted); `SlowReadableRawBytes.read(n)`
  returns more than n bytes for n < 5 (C80_raw_at_most_size_refuted).
* AES-EAX (C++): `Omac` counts bytes in an `int`, so plaintexts or associated data of more
  than 2^31 bytes are undefined behaviour (C81_all_sizes_refuted).
* HKDF-PRF (C++): `PrfFromStreamingPrf::Compute` passes its `size_t output_length` to
  `ReadBytesFromStream(int, ...)`. For 2^31 <= output_length < 2^32 it succeeds with the empty
  string, and larger sizes are taken modulo 2^32 (C84_length_refuted, C84_hkdf_prf_wraps).
  All of these should be errors, as the sizes above 255 hashes are.
* AES-CTR-HMAC (C++): plaintexts of 2^31 bytes and more cannot be encrypted, as
  `EVP_EncryptUpdate` takes an `int` (C83_all_sizes_refuted).
* HKDF-PRF keys (C++): `ValidateKeySize(int)` is given the `uint32` key_size of the format, so
  sizes of 2^31 bytes and more are refused as "too short" (C85_hkdf_sizes_refuted). The key
  formats of AES-GCM, AES-GCM-SIV, AES-SIV and XChaCha20-Poly1305 have a version field that is
  ignored, while those of the PRFs must have version 0.
* ECIES (C++): the X25519 sender KEM uses the result of `ComputeX25519SharedSecret` without
  looking at its status (cc/subtle/ecies_hkdf_sender_kem_boringssl.cc), so with a public key of
  low order, which is accepted, every `Encrypt` ends the process (C88_low_order_refuted). The
  DEM helper adds two `uint32` key sizes; if the sum wraps, `substr` throws in `Encrypt` and in
  `Decrypt` (C88_sizes_wrap_refuted, C88_sizes_wrap_decryption_refuted). Neither the key
  template of the DEM nor the point is checked when a key is made or parsed, so that keys exist
  with which nothing can be encrypted (C88_encrypts_only says which can).
* ECIES keys (C++): the key template of the DEM is checked neither by `ValidateKeyFormat` nor by
  `ValidateKey`, so `NewKeyData` makes keys with, say, AES-EAX, which `GetPrimitive` then
  refuses (C89_new_key_works_refuted; C89_other_dem for every key).
* HPKE keys (C++): `ValidateParams` only refuses unstated algorithms, so `NewKeyData` makes keys
  for the NIST KEMs, for the other KDFs and for KDFs and AEADs that do not exist; no primitive
  can be got for the former two (C95_new_key_works_refuted), and with an unknown AEAD the
  primitive is made but every encryption fails (C95_accepted_key_works_refuted).
