{"id": "C01", "title": "Assertion success implies a valid signature by the registered key", "statement": "Whenever handle_credential_assertion returns normally, the signature in the response verifies, under the public key the registrar returned for the credential's raw_id and with the hash that key's alg names, over exactly authenticator_data followed by SHA-256(client_data_JSON).", "quantifier": "every credential, argument combination, registrar behaviour and behaviour of the crypto/CBOR/hash libraries", "why_tests_cant": "A test only shows that some forged inputs are rejected; the claim is that no input at all is accepted without verification.", "anchors": ["webauthn_rp/backends.py:CredentialsBackend.handle_credential_assertion", "webauthn_rp/verifiers.py:verify", "webauthn_rp/verifiers.py:verify_ec2_public_key", "webauthn_rp/verifiers.py:verify_okp_public_key"]}
{"id": "C02", "title": "Assertion success binds challenge, ceremony type and origin", "statement": "Whenever handle_credential_assertion returns normally, client_data_JSON is UTF-8 JSON whose type is \"webauthn.get\", whose challenge base64url-decodes to expected_challenge byte for byte, and whose origin parses to an Origin in the set of parsed expected origins.", "quantifier": "every client data byte string, challenge, origin collection and registrar", "why_tests_cant": "The space of byte strings that must be rejected is infinite.", "anchors": ["webauthn_rp/backends.py:CredentialsBackend.handle_credential_assertion", "webauthn_rp/parsers.py:parse_client_data", "webauthn_rp/parsers.py:parse_origin", "webauthn_rp/utils.py:url_base64_decode"]}
{"id": "C03", "title": "Token binding matches exactly or is absent on both sides", "statement": "In both ceremonies success implies: either no token binding was expected and the client data carries none, or both are present with equal status and equal id.", "quantifier": "every client data token binding value (of any JSON type) and every expected token binding", "why_tests_cant": "Combinations of presence, status and arbitrary-typed ids cannot be enumerated.", "anchors": ["webauthn_rp/backends.py:CredentialsBackend.handle_credential_assertion", "webauthn_rp/backends.py:CredentialsBackend.handle_credential_attestation", "webauthn_rp/parsers.py:parse_client_data", "webauthn_rp/types.py:TokenBinding"]}
{"id": "C04", "title": "RP ID hash, user presence and user verification are enforced on authentication", "statement": "Success of handle_credential_assertion implies the first 32 bytes of authenticator_data equal SHA-256 of the UTF-8 RP id in force, bit 0 of byte 32 is set, and, if require_user_verification is true, bit 2 of byte 32 is set.", "quantifier": "every authenticator data byte string, flag byte and RP", "why_tests_cant": "All 256 flag bytes times all byte strings times all RPs.", "anchors": ["webauthn_rp/backends.py:CredentialsBackend.handle_credential_assertion", "webauthn_rp/parsers.py:parse_authenticator_data", "webauthn_rp/types.py:AuthenticatorDataFlag"]}
{"id": "C05", "title": "Expected extensions are enforced in both ceremonies", "statement": "If expected_extensions is given, success implies, for every expected identifier, that the authenticator data carries an extension map with a non-null output under the identifier's WebAuthn name (an empty collection requires nothing).", "quantifier": "every set of expected identifiers and every extension map", "why_tests_cant": "Subsets of identifiers times arbitrary extension maps.", "anchors": ["webauthn_rp/backends.py:CredentialsBackend.handle_credential_assertion", "webauthn_rp/backends.py:CredentialsBackend.handle_credential_attestation", "webauthn_rp/types.py:ExtensionIdentifier.key", "webauthn_rp/utils.py:camel_to_snake_case", "webauthn_rp/parsers.py:parse_extensions"]}
{"id": "C06", "title": "allow_credentials is enforced before any lookup", "statement": "If allow_credentials is given and no descriptor id equals raw_id, handle_credential_assertion raises CredentialNotAllowedError (given a usable expected_origin) and never calls the registrar; if it succeeds, some descriptor id equals raw_id.", "quantifier": "every allow list (any length, including empty) and raw_id", "why_tests_cant": "Unbounded lists.", "anchors": ["webauthn_rp/backends.py:CredentialsBackend.handle_credential_assertion"]}
{"id": "C07", "title": "The authenticated user is the registered owner", "statement": "Success implies the user passed to register_credential_assertion has the same id as the user the registrar stored for that credential; a supplied user must have that id; a present user handle must equal it; and if no user is supplied a user handle must be present.", "quantifier": "every combination of supplied user, user handle and stored user", "why_tests_cant": "All byte strings as ids and all presence combinations.", "anchors": ["webauthn_rp/backends.py:CredentialsBackend.handle_credential_assertion", "webauthn_rp/registrars.py:CredentialData"]}
{"id": "C08", "title": "The RP used for verification is the registered one when there is one", "statement": "Success implies the RP passed to the registrar and used for the RP ID hash is the supplied one, or the registered one when none is supplied, and that they have equal ids if both exist; with neither, RPNotFoundError is raised and nothing is registered.", "quantifier": "every combination of supplied and stored RP", "why_tests_cant": "All combinations with arbitrary ids.", "anchors": ["webauthn_rp/backends.py:CredentialsBackend.handle_credential_assertion", "webauthn_rp/registrars.py:CredentialData"]}
{"id": "C09", "title": "Clone detection on the signature counter", "statement": "Success with ignore_clone_error=False implies the stored counter is None or strictly smaller than the counter in the authenticator data; with all other checks passed and a stored counter >= the new one, the call raises SignatureCountError and registers nothing.", "quantifier": "every pair of stored counter (any integer) and 32-bit new counter", "why_tests_cant": "2^32 counters against arbitrary stored integers.", "anchors": ["webauthn_rp/backends.py:CredentialsBackend.handle_credential_assertion"]}
{"id": "C10", "title": "Authentication accepts exactly the specified requests", "statement": "handle_credential_assertion returns normally if and only if the conjunction of the documented checks holds and the registrar acknowledges: there is no hidden extra condition and no missing one.", "quantifier": "every argument tuple, registrar and library behaviour", "why_tests_cant": "An equivalence over all inputs.", "anchors": ["webauthn_rp/backends.py:CredentialsBackend.handle_credential_assertion"]}
{"id": "C11", "title": "Registrar call discipline during authentication", "statement": "On every run the registrar sees at most one get_credential_data(raw_id) followed by at most one register_credential_assertion; the latter is issued only when every check has passed and with the given credential, the parsed authenticator data, and the resolved user and RP. A failed check leaves registrar state untouched by registration calls.", "quantifier": "every input and every registrar, including ones that raise or return errors", "why_tests_cant": "Requires looking at every failing path.", "anchors": ["webauthn_rp/backends.py:CredentialsBackend.handle_credential_assertion", "webauthn_rp/registrars.py:CredentialsRegistrar"]}
{"id": "C12", "title": "Only library errors escape the handlers", "statement": "Both handlers either return None or raise an exception that is a WebAuthnRPError subclass, whatever Exceptions the registrar and third-party libraries raise. An exception of the registrar that is no Exception (KeyboardInterrupt, SystemExit, the Timeout of gevent) passes through, and nothing else does.", "quantifier": "every input, every registrar, every library exception", "why_tests_cant": "The set of exceptions and places they are raised is open-ended.", "anchors": ["webauthn_rp/backends.py:CredentialsBackend.handle_credential_assertion", "webauthn_rp/backends.py:CredentialsBackend.handle_credential_attestation", "webauthn_rp/errors.py:WebAuthnRPError"]}
{"id": "C13", "title": "Error classes are accurate for authentication", "statement": "If handle_credential_assertion raises one of its specific check errors (ChallengeError, ClientDataTypeError, TokenBindingError, RPIDHashError, UserPresenceError, UserVerificationError, ExtensionError, CredentialNotAllowedError, UserIDError, UserHandleError, RPNotFoundError, RPIDError, CredentialDataError, SignatureCountError, VerificationError, RegistrationError), the named condition really is violated.", "quantifier": "every input and registrar", "why_tests_cant": "Every path to every error.", "anchors": ["webauthn_rp/backends.py:CredentialsBackend.handle_credential_assertion", "webauthn_rp/errors.py"]}
{"id": "C14", "title": "Signature counters strictly increase over every history", "statement": "With a registrar that stores the counter of each accepted assertion, in any sequence of calls (accepted or rejected, any credentials interleaved) with clone errors not ignored, the counters accepted for one credential form a strictly increasing sequence.", "quantifier": "every finite sequence of authentication calls", "why_tests_cant": "Histories are unbounded.", "anchors": ["webauthn_rp/backends.py:CredentialsBackend.handle_credential_assertion", "examples/flask/app.py:RegistrarImpl"]}
{"id": "C15", "title": "An accepted assertion cannot be replayed", "statement": "With the same registrar, a credential response whose authenticator data was accepted once is rejected in every later call of any history (clone errors not ignored).", "quantifier": "every history between the two presentations", "why_tests_cant": "Unbounded histories.", "anchors": ["webauthn_rp/backends.py:CredentialsBackend.handle_credential_assertion", "examples/flask/app.py:RegistrarImpl"]}
{"id": "C16", "title": "Authenticators without a counter stay usable", "statement": "WebAuthn 7.2 step 17: an authenticator that always reports counter 0 can authenticate repeatedly with a counter-storing registrar.", "quantifier": "every repeated honest login with counter 0", "why_tests_cant": "Needs a history of at least two logins.", "anchors": ["webauthn_rp/backends.py:CredentialsBackend.handle_credential_assertion"]}
{"id": "C17", "title": "Counters are monotone under concurrency", "statement": "When two authentication calls for the same credential run concurrently, the stored counter never decreases and the same response is not accepted twice.", "quantifier": "every interleaving of the registrar calls of concurrent handlers", "why_tests_cant": "Schedules cannot be forced or enumerated by unit tests.", "anchors": ["webauthn_rp/backends.py:CredentialsBackend.handle_credential_assertion", "examples/flask/app.py:RegistrarImpl"]}
{"id": "C18", "title": "Registration success binds client data, RP and flags", "statement": "Whenever handle_credential_attestation returns normally: type is \"webauthn.create\", the challenge decodes to expected_challenge, the origin is allowed, token binding matches, the RP ID hash in the authenticator data is SHA-256 of rp.id, the UP bit is set, UV if required, expected extensions present.", "quantifier": "every credential, argument combination, registrar and library behaviour", "why_tests_cant": "All inputs.", "anchors": ["webauthn_rp/backends.py:CredentialsBackend.handle_credential_attestation"]}
{"id": "C19", "title": "Registration accepts exactly the specified requests", "statement": "handle_credential_attestation returns normally if and only if the documented checks hold, attested credential data is present, the attestation statement attests, and the registrar acknowledges.", "quantifier": "every argument tuple, registrar and library behaviour", "why_tests_cant": "An equivalence over all inputs.", "anchors": ["webauthn_rp/backends.py:CredentialsBackend.handle_credential_attestation"]}
{"id": "C20", "title": "Registrar call discipline during registration", "statement": "On every run the registrar sees at most one register_credential_attestation and nothing else; it is issued only after every check passed, with the given credential, user, rp, the parsed attestation object and the attestation type and trust path returned by attest.", "quantifier": "every input and registrar", "why_tests_cant": "Every failing path.", "anchors": ["webauthn_rp/backends.py:CredentialsBackend.handle_credential_attestation"]}
{"id": "C21", "title": "Verified attestation formats can be registered", "statement": "A registration whose FIDO U2F or Android Key statement verifies is accepted and reported with attestation type BASIC.", "quantifier": "every valid FIDO U2F or Android Key registration", "why_tests_cant": "Tests mock or skip the composition of backend and attester.", "anchors": ["webauthn_rp/backends.py:CredentialsBackend.handle_credential_attestation", "webauthn_rp/attesters.py:attest_fido_u2f", "webauthn_rp/attesters.py:attest_android_key"]}
{"id": "C22", "title": "Unsupported attestation formats are never registered", "statement": "packed, tpm and android-safetynet attestation objects never lead to a register_credential_attestation call, whatever they contain.", "quantifier": "every attestation object of those formats", "why_tests_cant": "All contents.", "anchors": ["webauthn_rp/backends.py:CredentialsBackend.handle_credential_attestation", "webauthn_rp/attesters.py:attest"]}
{"id": "C23", "title": "The registered credential id is the attested one", "statement": "Success of registration implies credential.raw_id equals the credential id inside the attested credential data.", "quantifier": "every credential", "why_tests_cant": "All pairs of ids.", "anchors": ["webauthn_rp/backends.py:CredentialsBackend.handle_credential_attestation"]}
{"id": "C24", "title": "No registration without attested credential data", "statement": "If the AT flag of the authenticator data is clear, registration fails and the registrar is not called.", "quantifier": "every authenticator data byte string", "why_tests_cant": "All byte strings.", "anchors": ["webauthn_rp/backends.py:CredentialsBackend.handle_credential_attestation", "webauthn_rp/parsers.py:parse_authenticator_data"]}
{"id": "C25", "title": "Registration and authentication responses cannot be confused", "statement": "No client data byte string is accepted by both ceremonies, and neither handler accepts a response object of the other ceremony.", "quantifier": "every pair of calls", "why_tests_cant": "All inputs.", "anchors": ["webauthn_rp/backends.py:CredentialsBackend.handle_credential_attestation", "webauthn_rp/backends.py:CredentialsBackend.handle_credential_assertion"]}
{"id": "C26", "title": "FIDO U2F attestation is sound and complete", "statement": "attest(FIDO U2F statement) returns (BASIC, [cert]) iff x5c has exactly one parseable certificate with a P-256 EC key that verifies, with ECDSA-SHA256, the signature over 0x00||rpIdHash||clientDataHash||credentialId||0x04||x||y; otherwise an exception.", "quantifier": "every statement, attestation object and certificate", "why_tests_cant": "All inputs.", "anchors": ["webauthn_rp/attesters.py:attest_fido_u2f"]}
{"id": "C27", "title": "Android Key attestation is sound and complete", "statement": "attest(Android Key statement) returns (BASIC,[cert]) iff the leaf certificate key verifies the signature over authData||clientDataHash, equals the credential key, and its key description has challenge = clientDataHash, no allApplications in either list, and a TEE-enforced origin GENERATED and purpose SIGN.", "quantifier": "every statement, attestation object, certificate and key description", "why_tests_cant": "All inputs.", "anchors": ["webauthn_rp/attesters.py:attest_android_key", "webauthn_rp/constants.py", "webauthn_rp/asn1.py:KeyDescription"]}
{"id": "C28", "title": "Attestation dispatch", "statement": "attest on a none statement returns (NONE, None) for every object and data; on every packed/TPM/SafetyNet statement it raises UnimplementedError.", "quantifier": "every statement", "why_tests_cant": "All contents.", "anchors": ["webauthn_rp/attesters.py:attest", "webauthn_rp/attesters.py:attest_none"]}
{"id": "C29", "title": "Authenticator data layout is enforced with no leftover bytes", "statement": "parse_authenticator_data(b) succeeds only if b is exactly rpIdHash(32) || flags(1) || counter(4, big endian) || [aaguid(16) || len(2) || id(len) || CBOR key iff AT] || [CBOR map iff ED], and the returned fields are those slices.", "quantifier": "every byte string", "why_tests_cant": "All byte strings.", "anchors": ["webauthn_rp/parsers.py:parse_authenticator_data"]}
{"id": "C30", "title": "Authenticator data round trip", "statement": "Serialising any authenticator data (any hash, flags, counter, aaguid, credential id up to 65535 bytes, valid key, extensions) in the WebAuthn layout and parsing it returns the same fields.", "quantifier": "every authenticator data value", "why_tests_cant": "All values.", "anchors": ["webauthn_rp/parsers.py:parse_authenticator_data", "webauthn_rp/converters.py:cose_key"]}
{"id": "C31", "title": "Keys in parsed authenticator data are usable", "statement": "Every credential public key returned by parse_authenticator_data is EC2 with a P curve, an ES algorithm and coordinates of the curve length, or OKP with an Ed curve, EdDSA and x of the curve length.", "quantifier": "every byte string", "why_tests_cant": "All byte strings.", "anchors": ["webauthn_rp/parsers.py:parse_authenticator_data", "webauthn_rp/validators.py:validate", "webauthn_rp/parsers.py:parse_cose_key"]}
{"id": "C32", "title": "COSE key round trip", "statement": "parse_cose_key(cose_key(k)) reconstructs k for every EC2/OKP key whose coordinates have the curve length.", "quantifier": "every key, with any optional kid, key_ops, base_IV", "why_tests_cant": "All keys and option combinations.", "anchors": ["webauthn_rp/converters.py:cose_key", "webauthn_rp/converters.py:_build_base_cose_dictionary", "webauthn_rp/parsers.py:parse_cose_key"]}
{"id": "C33", "title": "parse_cose_key accepts exactly well-formed keys", "statement": "parse_cose_key on a decoded map returns a key iff label 1 is EC2/OKP (by value or name), labels 3 and -1 are a supported alg and curve of that family, -2 (and -3) are byte strings of the curve length and the optional labels are well typed; otherwise the first check that fails raises ParserError (ValueError where its message would show an integer longer than the interpreter converts).", "quantifier": "every dictionary with arbitrary keys and values", "why_tests_cant": "All maps.", "anchors": ["webauthn_rp/parsers.py:parse_cose_key", "webauthn_rp/parsers.py:parse_ec2_public_key", "webauthn_rp/parsers.py:parse_okp_public_key"]}
{"id": "C34", "title": "Attestation statements are parsed strictly", "statement": "Each attestation statement parser succeeds iff the dictionary has exactly the required (plus at most the selected optional) members with the right types, returns their values unchanged; otherwise the first check that fails raises ParserError (ValueError where its message would show an integer longer than the interpreter converts).", "quantifier": "every dictionary", "why_tests_cant": "All maps.", "anchors": ["webauthn_rp/parsers.py:parse_packed_attestation_statement", "webauthn_rp/parsers.py:parse_tpm_attestation_statement", "webauthn_rp/parsers.py:parse_android_key_attestation_statement", "webauthn_rp/parsers.py:parse_android_safetynet_attestation_statement", "webauthn_rp/parsers.py:parse_fido_u2f_attestation_statement", "webauthn_rp/parsers.py:parse_none_attestation_statement"]}
{"id": "C35", "title": "Extension outputs are parsed faithfully", "statement": "parse_extensions succeeds iff only supported identifiers occur and each non-null output has its documented type; every field of the result is the value of its identifier, or None when absent; otherwise the first check that fails raises ParserError (ValueError where its message would show an integer longer than the interpreter converts).", "quantifier": "every dictionary", "why_tests_cant": "All maps.", "anchors": ["webauthn_rp/parsers.py:parse_extensions"]}
{"id": "C36", "title": "Public key credential round trip", "statement": "parse_public_key_credential(jsonify(c)) = c for every PublicKeyCredential with an attestation or assertion response (user handle present or not).", "quantifier": "every credential", "why_tests_cant": "All byte strings.", "anchors": ["webauthn_rp/parsers.py:parse_public_key_credential", "webauthn_rp/converters.py:jsonify"]}
{"id": "C37", "title": "parse_public_key_credential is strict about members and only raises parser errors", "statement": "It accepts only dictionaries with exactly the documented members and string values; otherwise the first check that fails raises ParserError or, for base64, DecodingError (ValueError where its message would show an integer longer than the interpreter converts).", "quantifier": "every dictionary", "why_tests_cant": "All maps.", "anchors": ["webauthn_rp/parsers.py:parse_public_key_credential"]}
{"id": "C38", "title": "Client data parsing", "statement": "For every type, challenge and origin string, the UTF-8 JSON serialisation of the client data (with or without token binding, extra members, arbitrary escapes) parses back to those strings; every failure is a ParserError/DecodingError.", "quantifier": "every client data", "why_tests_cant": "All strings.", "anchors": ["webauthn_rp/parsers.py:parse_client_data"]}
{"id": "C39", "title": "Origin parsing is sound", "statement": "parse_origin returns only origins with scheme http/https, a non-empty authority without / ? #, and port in 0..65535 (80/443 by default); two strings giving the same Origin have the same authority text.", "quantifier": "every string", "why_tests_cant": "All strings.", "anchors": ["webauthn_rp/parsers.py:parse_origin"]}
{"id": "C40", "title": "Canonical origins parse to their tuple", "statement": "For every scheme in {http, https}, host name and optional port, parse_origin(\"scheme://host[:port]\") returns that scheme and that authority and the port or the scheme default.", "quantifier": "every host name and port", "why_tests_cant": "All hosts.", "anchors": ["webauthn_rp/parsers.py:parse_origin"]}
{"id": "C41", "title": "Origins equal as (scheme, host, port) tuples are equal", "statement": "An origin written with its explicit default port is the same Origin as without it (HTML origin equality).", "quantifier": "every host", "why_tests_cant": "All hosts.", "anchors": ["webauthn_rp/parsers.py:parse_origin"]}
{"id": "C42", "title": "Attestation objects are consumed entirely", "statement": "parse_attestation_object rejects inputs with bytes after the CBOR item.", "quantifier": "every byte string", "why_tests_cant": "All byte strings.", "anchors": ["webauthn_rp/parsers.py:parse_attestation_object"]}
{"id": "C43", "title": "Attestation object parsing is sound", "statement": "If parse_attestation_object succeeds, fmt names the format, the statement has the class of that format, auth_data is the parse of the authData member, and the returned raw dictionary is the decoded CBOR.", "quantifier": "every byte string", "why_tests_cant": "All byte strings.", "anchors": ["webauthn_rp/parsers.py:parse_attestation_object"]}
{"id": "C44", "title": "base64url round trip, padded or not", "statement": "url_base64_decode inverts url_base64_encode for all byte strings, also after stripping any padding.", "quantifier": "every byte string", "why_tests_cant": "All byte strings.", "anchors": ["webauthn_rp/utils.py:url_base64_encode", "webauthn_rp/utils.py:url_base64_decode"]}
{"id": "C45", "title": "base64 decoding is strict", "statement": "A string that is not base64(url) text is rejected, so two different strings never decode to the same bytes.", "quantifier": "every pair of strings", "why_tests_cant": "All strings.", "anchors": ["webauthn_rp/utils.py:url_base64_decode", "webauthn_rp/parsers.py:_bytes_from_base64"]}
{"id": "C46", "title": "Case conversion", "statement": "camel_to_snake_case inverts snake_to_camel_case on well-formed snake names; snake_to_camel_case is idempotent and its output has no underscore; every ExtensionIdentifier.key is the attribute holding that extension's output.", "quantifier": "every name", "why_tests_cant": "All strings.", "anchors": ["webauthn_rp/utils.py:snake_to_camel_case", "webauthn_rp/utils.py:camel_to_snake_case", "webauthn_rp/types.py:ExtensionIdentifier"]}
{"id": "C47", "title": "jsonify yields JSON and never leaks nulls in objects", "statement": "jsonify of any finite object tree either raises or returns pure JSON in which no object member is null (unless it stands for an Enum member whose value is None); failures are exactly unsupported types (UnimplementedError), non-string keys (JSONConversionError) and nesting beyond the interpreter limit (RecursionError), and the exception is that of the first obstacle from left to right. Shared parts are converted as often as they occur, and an object that leads to one that contains itself is always refused.", "quantifier": "every object tree, and every graph of objects", "why_tests_cant": "Unbounded trees and graphs.", "anchors": ["webauthn_rp/converters.py:jsonify"]}
{"id": "C48", "title": "Built options survive jsonify", "statement": "For every builder configuration, the JSON produced from build() carries every set option under its WebAuthn name, omits unset ones, and the challenge/user id/credential ids decode (standard base64) to the original bytes.", "quantifier": "every option combination and byte string", "why_tests_cant": "All values.", "anchors": ["webauthn_rp/converters.py:jsonify", "webauthn_rp/builders.py:CredentialCreationOptionsBuilder.build", "webauthn_rp/builders.py:CredentialRequestOptionsBuilder.build"]}
{"id": "C49", "title": "Builders: last write wins and required attributes", "statement": "After any sequence of setter calls, build() returns exactly the last value set for each attribute (or the constructor/default value) and raises BuilderError iff a required one is missing.", "quantifier": "every sequence of setter calls", "why_tests_cant": "Unbounded sequences.", "anchors": ["webauthn_rp/builders.py"]}
{"id": "C50", "title": "Builders are persistent", "statement": "No setter call, on any builder reachable by any history of setter calls, changes what any previously obtained builder builds.", "quantifier": "every history of setter calls on a tree of builders", "why_tests_cant": "Unbounded histories and aliasing.", "anchors": ["webauthn_rp/builders.py:CredentialCreationOptionsBuilder._copy"]}
{"id": "C51", "title": "verify is exact", "statement": "verify(k, sig, data) returns normally iff k converts to a valid public key and the signature verifies (for EC2 with the hash named by alg); an invalid signature raises VerificationError.", "quantifier": "every key, signature and data", "why_tests_cant": "All inputs.", "anchors": ["webauthn_rp/verifiers.py:verify", "webauthn_rp/utils.py:ec2_hash_algorithm", "webauthn_rp/converters.py:cryptography_public_key"]}
{"id": "C52", "title": "validate is exact", "statement": "validate(k) returns normally iff kty, curve and alg are consistent; a wrong curve or alg raises ValidationError.", "quantifier": "every key", "why_tests_cant": "All combinations of fields.", "anchors": ["webauthn_rp/validators.py:validate"]}
{"id": "C53", "title": "Key conversion is faithful", "statement": "cryptography_public_key returns the point whose coordinates are the big-endian x and y on the curve named by crv, or raises; two keys with equal conversions have equal curve and, at equal lengths, equal coordinate bytes.", "quantifier": "every key", "why_tests_cant": "All byte strings.", "anchors": ["webauthn_rp/converters.py:cryptography_ec2_public_key", "webauthn_rp/converters.py:cryptography_okp_public_key"]}
{"id": "C54", "title": "Example app: ownership and keys are stable", "statement": "In the Flask example, over any history of requests, a stored credential keeps its owner and public key, and its counter never decreases.", "quantifier": "every sequence of requests", "why_tests_cant": "Unbounded histories.", "anchors": ["examples/flask/app.py"]}
{"id": "C55", "title": "Example app: challenges expire", "statement": "In the Flask example a registration or authentication response is accepted only if its challenge was issued by the app at most APP_TIMEOUT ms before.", "quantifier": "every history and clock", "why_tests_cant": "Unbounded histories.", "anchors": ["examples/flask/app.py"]}
{"id": "C56", "title": "Example app: challenges are single use and user-bound", "statement": "In the Flask example each challenge is accepted at most once and only for the user it was issued to.", "quantifier": "every history", "why_tests_cant": "Unbounded histories.", "anchors": ["examples/flask/app.py"]}
{"id": "C57", "title": "Builders are isolated from later assignments", "statement": "After a setter or build() returns, assigning to attributes of objects the caller holds (the argument given to the setter, the options returned by build) does not change what a builder builds later.", "quantifier": "every heap, builder, argument and assignment", "why_tests_cant": "Aliasing between arbitrary object graphs.", "anchors": ["webauthn_rp/builders.py:CredentialCreationOptionsBuilder._copy", "webauthn_rp/builders.py:CredentialCreationOptionsBuilder.build"]}
{"id": "C58", "title": "Algorithms in the options JSON are COSE numbers", "statement": "The JSON of every PublicKeyCredentialParameters carries its algorithm as the COSE number WebAuthn requires, in whichever of the two Enum forms it was given.", "quantifier": "every algorithm and form", "why_tests_cant": "Both Enum forms and all Unicode tables.", "anchors": ["webauthn_rp/converters.py:jsonify", "webauthn_rp/types.py:PublicKeyCredentialParameters"]}
{"id": "C59", "title": "Example app: a login needs a key registered for that user", "statement": "In the Flask example a login as a user is accepted only if an earlier accepted registration for that user name had the same raw id and the signature verifies under the public key attested there; no other user ever registers that id.", "quantifier": "every history of requests", "why_tests_cant": "Unbounded histories, any users and keys.", "anchors": ["examples/flask/app.py", "webauthn_rp/backends.py:CredentialsBackend.handle_credential_assertion", "webauthn_rp/converters.py:cose_key"]}
{"id": "C60", "title": "Example app: the options sent are right", "statement": "In the Flask example the options sent carry a challenge and number never sent before, the stored handle of the user, and (for authentication) exactly the credentials registered for the user in order; a request fails only if random bytes repeat.", "quantifier": "every history of requests", "why_tests_cant": "Unbounded histories.", "anchors": ["examples/flask/app.py", "webauthn_rp/converters.py:jsonify"]}
{"id": "C61", "title": "Example app: acceptance is exact", "statement": "In the Flask example a response is accepted iff it satisfies a specification over the history: challenge sent at most 60 s before, client data, authenticator data, signature under the registered key, counter above the last accepted one (login), id new (registration). A response never causes a server error, and one that is refused changes nothing.", "quantifier": "every history of requests", "why_tests_cant": "Unbounded histories and all inputs.", "anchors": ["examples/flask/app.py", "webauthn_rp/backends.py"]}
{"id": "C62", "title": "Key descriptions are decoded exactly", "statement": "Decoding the key description extension of an Android certificate succeeds iff it starts with the encoding of a KeyDescription of the Android schema, and the challenge, allApplications, origin and purpose read from it are those encoded; every DER encoding is accepted, no bytes encode two descriptions, and anything else raises PyAsn1Error (RecursionError only for inputs longer than the recursion limit).", "quantifier": "every byte string", "why_tests_cant": "All byte strings and all descriptions.", "anchors": ["webauthn_rp/asn1.py", "webauthn_rp/attesters.py:attest_android_key"]}
{"id": "C63", "title": "Android Key attestation down to the bytes of the extension", "statement": "The Android Key attester accepts iff the signature and key conditions hold and the extension is the encoding of a key description with this client data hash as challenge, no allApplications, origin GENERATED and purpose SIGN enforced by the TEE; otherwise, once the extension is reached, it raises AttestationError.", "quantifier": "every statement, attestation object and extension", "why_tests_cant": "All byte strings.", "anchors": ["webauthn_rp/attesters.py:attest_android_key", "webauthn_rp/asn1.py"]}
{"id": "C64", "title": "Key descriptions of later attestation versions", "statement": "Authorizations that the schema does not know (later Keymaster and KeyMint versions add some) do not stop a key description from being decoded.", "quantifier": "every key description", "why_tests_cant": "All descriptions.", "anchors": ["webauthn_rp/asn1.py:AuthorizationList"]}
{"id": "C65", "title": "The Android Key attester fails with library errors only", "statement": "Whatever the key description extension of the certificate contains, the attester returns or raises an error of the library.", "quantifier": "every extension", "why_tests_cant": "All byte strings, nesting included.", "anchors": ["webauthn_rp/attesters.py:attest_android_key"]}
{"id": "C66", "title": "CBOR decoding is exact", "statement": "Reading a CBOR item from bytes succeeds iff they start with an item of RFC 8949 (any head form, definite or indefinite length, tags whatever they stand for) within the nesting limit, and the value read is the one the item denotes: integers, strings, floats of all widths, arrays, maps in which the last of equal keys counts. No item is a prefix of another, no item has two values, everything else raises an exception of the decoder.", "quantifier": "every byte string, nesting limit", "why_tests_cant": "All byte strings, unbounded nesting and sizes.", "anchors": ["webauthn_rp/parsers.py:parse_authenticator_data", "webauthn_rp/parsers.py:parse_attestation_object", "webauthn_rp/parsers.py:parse_cose_key"]}
{"id": "C67", "title": "Keys, authenticator data and attestation objects down to the bytes", "statement": "parse_cose_key, parse_authenticator_data and parse_attestation_object accept exactly the byte strings that the WebAuthn layouts, with CBOR items in them, describe, and return the fields they encode; authenticator data has one reading.", "quantifier": "every byte string", "why_tests_cant": "All byte strings.", "anchors": ["webauthn_rp/parsers.py:parse_cose_key", "webauthn_rp/parsers.py:parse_authenticator_data", "webauthn_rp/parsers.py:parse_attestation_object"]}
{"id": "C68", "title": "The ceremonies down to the bytes", "statement": "A login or a registration is accepted iff the registrar consents and the bytes that arrived satisfy the WebAuthn conditions stated on JSON and CBOR texts, the hash, the loading of keys and the signature check being the only parts not described.", "quantifier": "every request, registrar state and registrar", "why_tests_cant": "All byte strings.", "anchors": ["webauthn_rp/backends.py:CredentialsBackend.handle_credential_assertion", "webauthn_rp/backends.py:CredentialsBackend.handle_credential_attestation"]}
{"id": "C69", "title": "Parsers fail with errors of the library only", "statement": "parse_cose_key, parse_authenticator_data and parse_attestation_object return or raise ParserError, DecodingError or ValidationError, DecodingError exactly when the CBOR decoder refuses the bytes and ValidationError exactly for a well-formed key that is not usable.", "quantifier": "every byte string", "why_tests_cant": "All byte strings, nesting included.", "anchors": ["webauthn_rp/parsers.py:parse_cose_key", "webauthn_rp/parsers.py:parse_authenticator_data", "webauthn_rp/parsers.py:parse_attestation_object"]}
{"id": "C70", "title": "Failures of key conversion, verification and attestation are classified exactly", "statement": "For cryptography_public_key, verify and the FIDO U2F and Android Key attesters, the exception raised is determined by the first check that fails: a refused key or certificate, an invalid signature (and nothing else the signature check raises) and each attestation condition give the error class of that condition.", "quantifier": "every key, signature, statement, attestation object and every behaviour of the crypto library", "why_tests_cant": "All combinations of failures and exceptions.", "anchors": ["webauthn_rp/converters.py:cryptography_public_key", "webauthn_rp/verifiers.py:verify", "webauthn_rp/attesters.py:attest_fido_u2f", "webauthn_rp/attesters.py:attest_android_key"]}
{"id": "C71", "title": "Honest ceremonies succeed", "statement": "If the client data is serialised as browsers do, the authenticator data and attestation object are laid out as WebAuthn says, the RP id, challenge and origin are the expected ones and the signature verifies, then registration reaches the registrar with the key, id and counter of the authenticator, and with a store that keeps what it is given registration and every later login with a growing counter succeed; no calls by others in between, whatever they are, prevent this unless they carry a correctly signed assertion with a counter as large.", "quantifier": "every key, RP, origin, challenge, extension outputs, store, history of other calls", "why_tests_cant": "Unbounded histories and all byte strings; the success of examples says nothing about others.", "anchors": ["webauthn_rp/backends.py:CredentialsBackend.handle_credential_assertion", "webauthn_rp/backends.py:CredentialsBackend.handle_credential_attestation", "webauthn_rp/parsers.py"]}
{"id": "C72", "title": "Example app: honest users are served", "statement": "In the Flask example, after any history of requests, an honest answer in time to a challenge sent to the user registers a credential with a new id, and an honest answer with a registered credential logs in if its counter exceeds those of all correctly signed answers sent before.", "quantifier": "every history of requests", "why_tests_cant": "Unbounded histories, any other users and attackers.", "anchors": ["examples/flask/app.py", "webauthn_rp/backends.py"]}
{"id": "C73", "title": "Example app: requests in flight together", "statement": "In the Flask example, whatever the interleaving of the SQL statements of requests handled at the same time, and whichever of them fail (\"database is locked\"): keys stay unique, no row is lost or changes its owner or key, a credential id is accepted once, every stored credential stems from a registration answered with success, accepted logins and registrations satisfy all conditions but the counter, a request of which a statement fails is answered with an error and writes nothing more, and every request is answered after at most six statements of its own (a request for the options of a login after four and the number of credentials).", "quantifier": "every sequence of requests, every interleaving of their statements and every choice of failing ones", "why_tests_cant": "Schedules cannot be forced or enumerated by tests.", "anchors": ["examples/flask/app.py"]}
{"id": "C74", "title": "Example app: counters under concurrency", "statement": "In the Flask example, the counters of accepted logins with a credential increase and the stored counter never decreases, also when requests are handled at the same time; one response is not accepted twice.", "quantifier": "every interleaving of the statements of concurrent requests", "why_tests_cant": "Schedules cannot be forced or enumerated by tests.", "anchors": ["examples/flask/app.py:authentication_response", "examples/flask/app.py:RegistrarImpl"]}
{"id": "C75", "title": "Example app: concurrent requests cause no server errors", "statement": "In the Flask example, requests handled at the same time are answered as one of the documented answers; a server error occurs only if random bytes repeat or the data base fails.", "quantifier": "every interleaving of the statements of concurrent requests", "why_tests_cant": "Schedules cannot be forced or enumerated by tests.", "anchors": ["examples/flask/app.py:registration_request", "examples/flask/app.py:authentication_request"]}
{"id": "C76", "title": "Example app: a refusal names its first reason", "statement": "In the Flask example, after any history, the status and text of the answer to a response are determined by the first of these that holds: unreadable form, wrong kind of response, unknown challenge, unknown user, timeout, ceremony not in order; otherwise it is success.", "quantifier": "every history of requests", "why_tests_cant": "Unbounded histories and all inputs.", "anchors": ["examples/flask/app.py:registration_response", "examples/flask/app.py:authentication_response"]}
{"id": "C77", "title": "Options and answers as JSON text", "statement": "json.dumps writes options built by the library and converted by jsonify, and the answers of the example application, as a JSON text of exactly that value, in printable ASCII, which json.loads reads back; a string is read back iff it holds no surrogate pair in two pieces, and json.dumps fails exactly if some part of the value cannot be written, with the exception of the first such part from left to right.", "quantifier": "every value, every options object, every history of requests", "why_tests_cant": "All Unicode strings, integers, nesting depths and options.", "anchors": ["webauthn_rp/converters.py:jsonify", "examples/flask/app.py:registration_request", "examples/flask/app.py:authentication_request"]}
{"id": "C78", "title": "Example app: accepted logins agree with the authenticator", "statement": "In the Flask example, unless signatures are forged, hashes collide or challenges are guessed: an accepted login was signed, with these data, by the authenticator whose key was registered for that user, after the challenge in it was sent and within the 60 s; one signature (one counter) gives at most one accepted login, so no more logins are accepted than were signed. With requests in flight together the first part holds as well.", "quantifier": "every sequence of requests and signatures, every interleaving", "why_tests_cant": "A correspondence over unbounded runs with an adversary who sends anything.", "anchors": ["examples/flask/app.py", "webauthn_rp/backends.py:CredentialsBackend.handle_credential_assertion"]}
{"id": "C79", "title": "Example app: one login per signature under concurrency", "statement": "In the Flask example, with requests handled at the same time, no more logins are accepted with a credential than its authenticator signed.", "quantifier": "every interleaving of the statements of concurrent requests", "why_tests_cant": "Schedules cannot be forced or enumerated by tests.", "anchors": ["examples/flask/app.py:authentication_response"]}
{"id": "C80", "title": "Registration with attesters of the application", "statement": "attest is a generic function, to which an application can register attesters. Whatever it does, a registration succeeds iff all checks hold, attest returns a type and trust path for the statement, the raw authenticator data and the SHA-256 hash of the client data, and the registrar accepts exactly these; library errors it raises and exceptions that are no Exceptions pass through and others become InternalError; an attester for one format does not affect the others.", "quantifier": "every attester, registrar, registrar state and request", "why_tests_cant": "All attesters, also ones not yet written.", "anchors": ["webauthn_rp/backends.py:CredentialsBackend.handle_credential_attestation", "webauthn_rp/attesters.py:attest"]}
{"id": "C81", "title": "Example page: the authenticator is called with the right options", "statement": "After a click, and whatever happens elsewhere until the answer has arrived, navigator.credentials.create is called with the options meant for the user whose name was in the input (names and handle of that user, the challenge just issued, as bytes), and navigator.credentials.get with the challenge and exactly the credential ids registered for that user, in order and as bytes; no other members are present.", "quantifier": "every state of page and server, every user name in UTF-16, every activity of other clients", "why_tests_cant": "All Unicode names, unbounded histories and numbers of credentials.", "anchors": ["examples/flask/templates/app.html:registerUsername", "examples/flask/templates/app.html:requestAuthentication", "examples/flask/templates/app.html:parseCreationOptions", "examples/flask/templates/app.html:parseRequestOptions", "examples/flask/app.py"]}
{"id": "C82", "title": "Example page: what is sent is what the authenticator returned", "statement": "The form that the page posts is read by the server as the credential that the authenticator returned (all byte strings equal, an empty user handle as none), with the user name and the challenge id of the page; form encoding and base64 are inverted exactly, and forms and JSON texts are written as the standards say; the page reports success iff the server answers with success.", "quantifier": "every credential, user name, challenge id, state of the page", "why_tests_cant": "All byte strings and Unicode texts.", "anchors": ["examples/flask/templates/app.html:attestationJSON", "examples/flask/templates/app.html:assertionJSON", "examples/flask/templates/app.html:post", "examples/flask/templates/app.html:registerAttestation", "examples/flask/templates/app.html:assertAuthentication", "examples/flask/app.py"]}
{"id": "C83", "title": "Example page: honest users are served, from click to message", "statement": "A user with a conforming authenticator who clicks Register and answers in time is registered with the key of the authenticator and sees it; one who clicks Authenticate with a registered authenticator whose counter has grown is logged in and sees it; whatever other clients send at any time in between.", "quantifier": "every state of page and server, every activity of other clients", "why_tests_cant": "Unbounded histories and all byte strings, through the whole stack.", "anchors": ["examples/flask/templates/app.html", "examples/flask/app.py", "webauthn_rp/backends.py"]}
{"id": "C84", "title": "Example page: messages of success are true", "statement": "The page shows that a user is registered or authorized only after the server has answered a response of this page with success, and the user it names is the one; a refused response is reported as a failure.", "quantifier": "every sequence of clicks, typing, answers, failures and other clients", "why_tests_cant": "Unbounded runs; overlapping clicks.", "anchors": ["examples/flask/templates/app.html:registerAttestation", "examples/flask/templates/app.html:assertAuthentication"]}
{"id": "C85", "title": "Example page: binary members of any options are decoded", "statement": "For any options that the builders of the library make, the page turns all binary members (challenge, user handle, ids of credentials to allow and to exclude) into the bytes they stand for and changes nothing else.", "quantifier": "every options object", "why_tests_cant": "All options and byte strings.", "anchors": ["examples/flask/templates/app.html:parseCreationOptions", "examples/flask/templates/app.html:parseRequestOptions", "webauthn_rp/converters.py:jsonify"]}
{"id": "C86", "title": "Failures of origins and client data are classified exactly", "statement": "parse_origin raises OriginError for a text that is no http or https origin, except that an authority or a port that urllib refuses gives the ValueError of urllib, with the port looked at last; parse_client_data returns iff the bytes are UTF-8 of a JSON object with the members type, challenge and origin as texts and a well-formed or absent token binding, and otherwise raises DecodingError if the bytes cannot be decoded and ParserError if a member is missing or wrong.", "quantifier": "every text and every byte string, every JSON decoder", "why_tests_cant": "All Unicode texts and byte strings.", "anchors": ["webauthn_rp/parsers.py:parse_origin", "webauthn_rp/parsers.py:parse_client_data"]}
{"id": "C87", "title": "A refused login names its first fault", "statement": "handle_credential_assertion fails iff some step of the WebAuthn procedure fails; the exception raised is that of the first failing step in the documented order, whatever later steps would say, and which step that is, is unique.", "quantifier": "every request, registrar state, registrar, world of crypto and decoders", "why_tests_cant": "All combinations of faults and their order.", "anchors": ["webauthn_rp/backends.py:CredentialsBackend.handle_credential_assertion"]}
{"id": "C88", "title": "A refused registration names its first fault", "statement": "handle_credential_attestation fails iff some step of the WebAuthn procedure fails; the exception raised is that of the first failing step in the documented order, whatever later steps would say, and which step that is, is unique.", "quantifier": "every request, registrar state, registrar, world of crypto and decoders", "why_tests_cant": "All combinations of faults and their order.", "anchors": ["webauthn_rp/backends.py:CredentialsBackend.handle_credential_attestation"]}
{"id": "C89", "title": "A login was asked for by an allowed page", "statement": "If only the authenticator signs with the stored key, browsers state the origin of the page truthfully and hashes do not collide: whoever presents a response and however it was obtained, a login succeeds only if a page of an allowed origin asked this authenticator for an assertion with this challenge and RP id, and the user touched it (and was verified, if required); signatures made for pages of other origins log nobody in; a credential logs in at most as often as its authenticator signed, also when calls interleave if the store compares and sets.", "quantifier": "every request, registrar, registrar state, history of calls, interleaving and list of signatures", "why_tests_cant": "An adversary who presents anything, over unbounded histories.", "anchors": ["webauthn_rp/backends.py:CredentialsBackend.handle_credential_assertion", "webauthn_rp/parsers.py:parse_origin", "webauthn_rp/parsers.py:parse_client_data"]}
{"id": "C90", "title": "Registration proves possession of the key", "statement": "A registration succeeds only if the credential public key in it can be loaded and whoever registers has signed the challenge with it.", "quantifier": "every request, registrar and registrar state", "why_tests_cant": "All attestation formats and keys.", "anchors": ["webauthn_rp/backends.py:CredentialsBackend.handle_credential_attestation", "webauthn_rp/attesters.py:attest_none"]}
{"id": "C91", "title": "Form bodies are read exactly", "statement": "The fields the example application sees are those of the body: the pieces between '&' that are not empty, cut at the first '=', '+' read as a space and '%' with two hexadecimal digits of either case as an octet, a stray '%' kept, UTF-8 decoded and anything else replaced.", "quantifier": "every body, also those that no page sends", "why_tests_cant": "All byte strings, with stray percent signs and invalid UTF-8 anywhere.", "anchors": ["examples/flask/app.py:registration_request", "examples/flask/app.py:registration_response", "examples/flask/app.py:authentication_response"]}
{"id": "C92", "title": "Members of decoded maps are found by equality of numbers and texts", "statement": "In a decoded CBOR map a key finds the last entry with an equal key: truth values, integers and floats are equal when they are the same number, texts, byte strings and tuples by content, NaN nothing; so an integer also finds an entry named by the same number as a float or truth value.", "quantifier": "every map and every key", "why_tests_cant": "All integers and all 2^64 floats, nested tuples.", "anchors": ["webauthn_rp/parsers.py:parse_cose_key", "webauthn_rp/parsers.py:parse_attestation"]}
{"id": "C93", "title": "Ceremonies need the registrar methods they call, and no others", "statement": "A subclass of CredentialsRegistrar that leaves register_credential_attestation as it is never registers anything: a request that would succeed gives RegistrationError and nothing is stored; the same for logins without get_credential_data or register_credential_assertion; overriding the methods of one ceremony is enough for it.", "quantifier": "every registrar, every choice of overridden methods, every state and request", "why_tests_cant": "All registrars and requests.", "anchors": ["webauthn_rp/registrars.py:CredentialsRegistrar", "webauthn_rp/backends.py:CredentialsBackend.handle_credential_attestation", "webauthn_rp/backends.py:CredentialsBackend.handle_credential_assertion"]}
{"id": "C94", "title": "Example page: the status says how far a function has come", "statement": "From the click on, the status names the user and says that the username is being registered until the answer of the server is read, then that a credential is being created until the authenticator has answered, then that it is being attested until the server has answered; for a login that authentication is being requested until the authenticator has answered, then that the credential is being asserted; if the authenticator returns null, the function throws and sends nothing.", "quantifier": "every state of page and server, every moment, every activity of other clients and typing in between", "why_tests_cant": "All interleavings with events elsewhere.", "anchors": ["examples/flask/templates/app.html:registerUsername", "examples/flask/templates/app.html:registerAttestation", "examples/flask/templates/app.html:requestAuthentication", "examples/flask/templates/app.html:assertAuthentication"]}
{"id": "C95", "title": "Example app: what is in order is accepted with requests in flight together", "statement": "In the Flask example, a registration whose challenge, time, user and data are in order when it arrives is answered with success however the statements of its handler interleave with those of others, unless the same credential id is registered meanwhile; a login likewise, if the counters of the other accepted logins with its credential are smaller; provided that none of its own statements fails; six statements of the handler suffice for the answer. Honest answers to challenges are such registrations and logins.", "quantifier": "every interleaving of the statements of any requests", "why_tests_cant": "Unbounded runs and all interleavings.", "anchors": ["examples/flask/app.py:registration_response", "examples/flask/app.py:authentication_response", "examples/flask/app.py:RegistrarImpl", "webauthn_rp/backends.py:CredentialsBackend"]}
{"id": "C96", "title": "Example app: options sent while other requests are in flight are right and complete", "statement": "In the Flask example, however the statements of handlers interleave and whichever fail: options for a registration that are sent carry the stored handle of the user who is named and the challenge drawn for this request; options for a login list, each once, only ids whose registration for this user was accepted, and all of those that were accepted before the request arrived.", "quantifier": "every interleaving of the statements of any requests, every failure", "why_tests_cant": "Unbounded runs and all interleavings.", "anchors": ["examples/flask/app.py:registration_request", "examples/flask/app.py:authentication_request"]}
{"id": "C97", "title": "Example: several pages and requests in flight together, messages are true and ceremonies complete", "statement": "Any number of pages, other clients and a server that interleaves the statements of all requests: a page shows success only if a response it sent was accepted; if its user waits for each function to end, the user named is the one whose credential is stored or who is logged in; the authenticator is called with the data of the user who was typed; a user who registers a new credential, or logs in with one registered before, succeeds and is told so whatever the others do, if no statement of their own response fails; any other answer is shown as a failure.", "quantifier": "every number of pages, every run of pages and server, every interleaving and failure", "why_tests_cant": "Unbounded runs and all interleavings of pages and handlers.", "anchors": ["examples/flask/templates/app.html:registerUsername", "examples/flask/templates/app.html:registerAttestation", "examples/flask/templates/app.html:requestAuthentication", "examples/flask/templates/app.html:assertAuthentication", "examples/flask/app.py:registration_response", "examples/flask/app.py:authentication_response"]}
{"id": "C98", "title": "Example app: only the declared methods and paths do anything", "statement": "Whatever HTTP requests the Flask example gets: the data base is the one after those that are POSTs to the four paths of the handlers, read as forms; all other requests (other methods, paths, a missing final slash) change nothing; GET and HEAD of / get the page; a POST whose body is not a form is refused with 400 and changes nothing; what the page posts reaches the handlers it is for; Success with status 200 is sent exactly when a handler accepts, so a login over HTTP that gets Success used a credential that an earlier HTTP registration with Success brought for the same user, and is signed with its key.", "quantifier": "every list of HTTP requests: methods, paths, kinds of content and bodies", "why_tests_cant": "Unbounded lists of arbitrary requests.", "anchors": ["examples/flask/app.py:registration_request", "examples/flask/app.py:registration_response", "examples/flask/app.py:authentication_request", "examples/flask/app.py:authentication_response", "examples/flask/app.py:index"]}
{"id": "C99", "title": "Example app: kills keep the data, stops remove them", "statement": "However the Flask example is started, stopped, killed and started again, with requests in flight: the data base is at every moment that of one server that gets the requests since the data were last lost, and each answer is that server's answer, so what holds of every interleaving holds across kills; killing and starting again keeps every row, a challenge sent before kills can be answered afterwards, and a credential registered before them logs its user in; stopping removes all, and afterwards a login succeeds only with a credential registered since; a second start while the server is running removes its file, so that all is lost when it ends, however it ends.", "quantifier": "every sequence of starts, stops, kills, HTTP requests, statements and failures", "why_tests_cant": "Unbounded sequences with kills at any point of any handler.", "anchors": ["examples/flask/app.py:DATABASE_PATH", "examples/flask/app.py:registration_response", "examples/flask/app.py:authentication_response"]}
{"id": "C100", "title": "Example app: bytes that are no UTF-8 are replaced in forms", "statement": "Whatever bytes a urlencoded form brings to the Flask example, they are read as UTF-8 in which each byte that begins no character, and each longest beginning of a character that does not become one, is U+FFFD; so all texts that the handlers get are sequences of Unicode scalar values, the requests they can get are exactly those without lone surrogates, every user name in the data base can be written in UTF-8, and options are always sent with status 200 as a JSON text of printable ASCII. Different bytes may name the same user.", "quantifier": "every body, every list of HTTP requests without multipart bodies", "why_tests_cant": "All bytes, unbounded lists of requests.", "anchors": ["examples/flask/app.py:registration_request", "examples/flask/app.py:registration_response", "examples/flask/app.py:authentication_request", "examples/flask/app.py:authentication_response"]}
