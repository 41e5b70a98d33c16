#!/usr/bin/env python3
"""Writes /verif/properties.jsonl from the table below (one property per entry)."""
import json, os
B='webauthn_rp/backends.py'; P='webauthn_rp/parsers.py'; A='webauthn_rp/attesters.py'
U='webauthn_rp/utils.py'; C='webauthn_rp/converters.py'; V='webauthn_rp/verifiers.py'
VA='webauthn_rp/validators.py'; BU='webauthn_rp/builders.py'; T='webauthn_rp/types.py'
R='webauthn_rp/registrars.py'; X='examples/flask/app.py'; E='webauthn_rp/errors.py'
AS=B+':CredentialsBackend.handle_credential_assertion'; AT=B+':CredentialsBackend.handle_credential_attestation'
props=[]
def p(title, statement, quantifier, why, anchors):
    props.append(dict(id='C%02d'%(len(props)+1), title=title, statement=statement, quantifier=quantifier, why_tests_cant=why, anchors=anchors))

p('Assertion success implies a valid signature by the registered key',
  'Whenever handle_credential_assertion returns normally, the signature in the response verifies, under the public key the registrar returned for the credential\'s raw_id and with the hash that key\'s alg names, over exactly authenticator_data followed by SHA-256(client_data_JSON).',
  'every credential, argument combination, registrar behaviour and behaviour of the crypto/CBOR/hash libraries',
  'A test only shows that some forged inputs are rejected; the claim is that no input at all is accepted without verification.',
  [AS, V+':verify', V+':verify_ec2_public_key', V+':verify_okp_public_key'])
p('Assertion success binds challenge, ceremony type and origin',
  'Whenever handle_credential_assertion returns normally, client_data_JSON is UTF-8 JSON whose type is "webauthn.get", whose challenge base64url-decodes to expected_challenge byte for byte, and whose origin parses to an Origin in the set of parsed expected origins.',
  'every client data byte string, challenge, origin collection and registrar', 'The space of byte strings that must be rejected is infinite.',
  [AS, P+':parse_client_data', P+':parse_origin', U+':url_base64_decode'])
p('Token binding matches exactly or is absent on both sides',
  'In both ceremonies success implies: either no token binding was expected and the client data carries none, or both are present with equal status and equal id.',
  'every client data token binding value (of any JSON type) and every expected token binding', 'Combinations of presence, status and arbitrary-typed ids cannot be enumerated.',
  [AS, AT, P+':parse_client_data', T+':TokenBinding'])
p('RP ID hash, user presence and user verification are enforced on authentication',
  'Success of handle_credential_assertion implies the first 32 bytes of authenticator_data equal SHA-256 of the UTF-8 RP id in force, bit 0 of byte 32 is set, and, if require_user_verification is true, bit 2 of byte 32 is set.',
  'every authenticator data byte string, flag byte and RP', 'All 256 flag bytes times all byte strings times all RPs.',
  [AS, P+':parse_authenticator_data', T+':AuthenticatorDataFlag'])
p('Expected extensions are enforced in both ceremonies',
  'If expected_extensions is given, success implies, for every expected identifier, that the authenticator data carries an extension map with a non-null output under the identifier\'s WebAuthn name (an empty collection requires nothing).',
  'every set of expected identifiers and every extension map', 'Subsets of identifiers times arbitrary extension maps.',
  [AS, AT, T+':ExtensionIdentifier.key', U+':camel_to_snake_case', P+':parse_extensions'])
p('allow_credentials is enforced before any lookup',
  'If allow_credentials is given and no descriptor id equals raw_id, handle_credential_assertion raises CredentialNotAllowedError (given a usable expected_origin) and never calls the registrar; if it succeeds, some descriptor id equals raw_id.',
  'every allow list (any length, including empty) and raw_id', 'Unbounded lists.', [AS])
p('The authenticated user is the registered owner',
  'Success implies the user passed to register_credential_assertion has the same id as the user the registrar stored for that credential; a supplied user must have that id; a present user handle must equal it; and if no user is supplied a user handle must be present.',
  'every combination of supplied user, user handle and stored user', 'All byte strings as ids and all presence combinations.', [AS, R+':CredentialData'])
p('The RP used for verification is the registered one when there is one',
  'Success implies the RP passed to the registrar and used for the RP ID hash is the supplied one, or the registered one when none is supplied, and that they have equal ids if both exist; with neither, RPNotFoundError is raised and nothing is registered.',
  'every combination of supplied and stored RP', 'All combinations with arbitrary ids.', [AS, R+':CredentialData'])
p('Clone detection on the signature counter',
  'Success with ignore_clone_error=False implies the stored counter is None or strictly smaller than the counter in the authenticator data; with all other checks passed and a stored counter >= the new one, the call raises SignatureCountError and registers nothing.',
  'every pair of stored counter (any integer) and 32-bit new counter', '2^32 counters against arbitrary stored integers.', [AS])
p('Authentication accepts exactly the specified requests',
  'handle_credential_assertion returns normally if and only if the conjunction of the documented checks holds and the registrar acknowledges: there is no hidden extra condition and no missing one.',
  'every argument tuple, registrar and library behaviour', 'An equivalence over all inputs.', [AS])
p('Registrar call discipline during authentication',
  'On every run the registrar sees at most one get_credential_data(raw_id) followed by at most one register_credential_assertion; the latter is issued only when every check has passed and with the given credential, the parsed authenticator data, and the resolved user and RP. A failed check leaves registrar state untouched by registration calls.',
  'every input and every registrar, including ones that raise or return errors', 'Requires looking at every failing path.', [AS, R+':CredentialsRegistrar'])
p('Only library errors escape the handlers',
  'Both handlers either return None or raise an exception that is a WebAuthnRPError subclass, whatever Exceptions the registrar and third-party libraries raise. An exception of the registrar that is no Exception (KeyboardInterrupt, SystemExit, the Timeout of gevent) passes through, and nothing else does.',
  'every input, every registrar, every library exception', 'The set of exceptions and places they are raised is open-ended.', [AS, AT, E+':WebAuthnRPError'])
p('Error classes are accurate for authentication',
  'If handle_credential_assertion raises one of its specific check errors (ChallengeError, ClientDataTypeError, TokenBindingError, RPIDHashError, UserPresenceError, UserVerificationError, ExtensionError, CredentialNotAllowedError, UserIDError, UserHandleError, RPNotFoundError, RPIDError, CredentialDataError, SignatureCountError, VerificationError, RegistrationError), the named condition really is violated.',
  'every input and registrar', 'Every path to every error.', [AS, E])
p('Signature counters strictly increase over every history',
  'With a registrar that stores the counter of each accepted assertion, in any sequence of calls (accepted or rejected, any credentials interleaved) with clone errors not ignored, the counters accepted for one credential form a strictly increasing sequence.',
  'every finite sequence of authentication calls', 'Histories are unbounded.', [AS, X+':RegistrarImpl'])
p('An accepted assertion cannot be replayed',
  'With the same registrar, a credential response whose authenticator data was accepted once is rejected in every later call of any history (clone errors not ignored).',
  'every history between the two presentations', 'Unbounded histories.', [AS, X+':RegistrarImpl'])
p('Authenticators without a counter stay usable',
  'WebAuthn 7.2 step 17: an authenticator that always reports counter 0 can authenticate repeatedly with a counter-storing registrar.',
  'every repeated honest login with counter 0', 'Needs a history of at least two logins.', [AS])
p('Counters are monotone under concurrency',
  'When two authentication calls for the same credential run concurrently, the stored counter never decreases and the same response is not accepted twice.',
  'every interleaving of the registrar calls of concurrent handlers', 'Schedules cannot be forced or enumerated by unit tests.', [AS, X+':RegistrarImpl'])
p('Registration success binds client data, RP and flags',
  'Whenever handle_credential_attestation returns normally: type is "webauthn.create", the challenge decodes to expected_challenge, the origin is allowed, token binding matches, the RP ID hash in the authenticator data is SHA-256 of rp.id, the UP bit is set, UV if required, expected extensions present.',
  'every credential, argument combination, registrar and library behaviour', 'All inputs.', [AT])
p('Registration accepts exactly the specified requests',
  'handle_credential_attestation returns normally if and only if the documented checks hold, attested credential data is present, the attestation statement attests, and the registrar acknowledges.',
  'every argument tuple, registrar and library behaviour', 'An equivalence over all inputs.', [AT])
p('Registrar call discipline during registration',
  'On every run the registrar sees at most one register_credential_attestation and nothing else; it is issued only after every check passed, with the given credential, user, rp, the parsed attestation object and the attestation type and trust path returned by attest.',
  'every input and registrar', 'Every failing path.', [AT])
p('Verified attestation formats can be registered',
  'A registration whose FIDO U2F or Android Key statement verifies is accepted and reported with attestation type BASIC.',
  'every valid FIDO U2F or Android Key registration', 'Tests mock or skip the composition of backend and attester.', [AT, A+':attest_fido_u2f', A+':attest_android_key'])
p('Unsupported attestation formats are never registered',
  'packed, tpm and android-safetynet attestation objects never lead to a register_credential_attestation call, whatever they contain.',
  'every attestation object of those formats', 'All contents.', [AT, A+':attest'])
p('The registered credential id is the attested one',
  'Success of registration implies credential.raw_id equals the credential id inside the attested credential data.',
  'every credential', 'All pairs of ids.', [AT])
p('No registration without attested credential data',
  'If the AT flag of the authenticator data is clear, registration fails and the registrar is not called.',
  'every authenticator data byte string', 'All byte strings.', [AT, P+':parse_authenticator_data'])
p('Registration and authentication responses cannot be confused',
  'No client data byte string is accepted by both ceremonies, and neither handler accepts a response object of the other ceremony.',
  'every pair of calls', 'All inputs.', [AT, AS])
p('FIDO U2F attestation is sound and complete',
  'attest(FIDO U2F statement) returns (BASIC, [cert]) iff x5c has exactly one parseable certificate with a P-256 EC key that verifies, with ECDSA-SHA256, the signature over 0x00||rpIdHash||clientDataHash||credentialId||0x04||x||y; otherwise an exception.',
  'every statement, attestation object and certificate', 'All inputs.', [A+':attest_fido_u2f'])
p('Android Key attestation is sound and complete',
  'attest(Android Key statement) returns (BASIC,[cert]) iff the leaf certificate key verifies the signature over authData||clientDataHash, equals the credential key, and its key description has challenge = clientDataHash, no allApplications in either list, and a TEE-enforced origin GENERATED and purpose SIGN.',
  'every statement, attestation object, certificate and key description', 'All inputs.', [A+':attest_android_key', 'webauthn_rp/constants.py', 'webauthn_rp/asn1.py:KeyDescription'])
p('Attestation dispatch',
  'attest on a none statement returns (NONE, None) for every object and data; on every packed/TPM/SafetyNet statement it raises UnimplementedError.',
  'every statement', 'All contents.', [A+':attest', A+':attest_none'])
p('Authenticator data layout is enforced with no leftover bytes',
  'parse_authenticator_data(b) succeeds only if b is exactly rpIdHash(32) || flags(1) || counter(4, big endian) || [aaguid(16) || len(2) || id(len) || CBOR key iff AT] || [CBOR map iff ED], and the returned fields are those slices.',
  'every byte string', 'All byte strings.', [P+':parse_authenticator_data'])
p('Authenticator data round trip',
  'Serialising any authenticator data (any hash, flags, counter, aaguid, credential id up to 65535 bytes, valid key, extensions) in the WebAuthn layout and parsing it returns the same fields.',
  'every authenticator data value', 'All values.', [P+':parse_authenticator_data', C+':cose_key'])
p('Keys in parsed authenticator data are usable',
  'Every credential public key returned by parse_authenticator_data is EC2 with a P curve, an ES algorithm and coordinates of the curve length, or OKP with an Ed curve, EdDSA and x of the curve length.',
  'every byte string', 'All byte strings.', [P+':parse_authenticator_data', VA+':validate', P+':parse_cose_key'])
p('COSE key round trip',
  'parse_cose_key(cose_key(k)) reconstructs k for every EC2/OKP key whose coordinates have the curve length.',
  'every key, with any optional kid, key_ops, base_IV', 'All keys and option combinations.', [C+':cose_key', C+':_build_base_cose_dictionary', P+':parse_cose_key'])
p('parse_cose_key accepts exactly well-formed keys',
  'parse_cose_key on a decoded map returns a key iff label 1 is EC2/OKP (by value or name), labels 3 and -1 are a supported alg and curve of that family, -2 (and -3) are byte strings of the curve length and the optional labels are well typed; otherwise the first check that fails raises ParserError (ValueError where its message would show an integer longer than the interpreter converts).',
  'every dictionary with arbitrary keys and values', 'All maps.', [P+':parse_cose_key', P+':parse_ec2_public_key', P+':parse_okp_public_key'])
p('Attestation statements are parsed strictly',
  'Each attestation statement parser succeeds iff the dictionary has exactly the required (plus at most the selected optional) members with the right types, returns their values unchanged; otherwise the first check that fails raises ParserError (ValueError where its message would show an integer longer than the interpreter converts).',
  'every dictionary', 'All maps.', [P+':parse_packed_attestation_statement', P+':parse_tpm_attestation_statement', P+':parse_android_key_attestation_statement', P+':parse_android_safetynet_attestation_statement', P+':parse_fido_u2f_attestation_statement', P+':parse_none_attestation_statement'])
p('Extension outputs are parsed faithfully',
  'parse_extensions succeeds iff only supported identifiers occur and each non-null output has its documented type; every field of the result is the value of its identifier, or None when absent; otherwise the first check that fails raises ParserError (ValueError where its message would show an integer longer than the interpreter converts).',
  'every dictionary', 'All maps.', [P+':parse_extensions'])
p('Public key credential round trip',
  'parse_public_key_credential(jsonify(c)) = c for every PublicKeyCredential with an attestation or assertion response (user handle present or not).',
  'every credential', 'All byte strings.', [P+':parse_public_key_credential', C+':jsonify'])
p('parse_public_key_credential is strict about members and only raises parser errors',
  'It accepts only dictionaries with exactly the documented members and string values; otherwise the first check that fails raises ParserError or, for base64, DecodingError (ValueError where its message would show an integer longer than the interpreter converts).',
  'every dictionary', 'All maps.', [P+':parse_public_key_credential'])
p('Client data parsing',
  'For every type, challenge and origin string, the UTF-8 JSON serialisation of the client data (with or without token binding, extra members, arbitrary escapes) parses back to those strings; every failure is a ParserError/DecodingError.',
  'every client data', 'All strings.', [P+':parse_client_data'])
p('Origin parsing is sound',
  'parse_origin returns only origins with scheme http/https, a non-empty authority without / ? #, and port in 0..65535 (80/443 by default); two strings giving the same Origin have the same authority text.',
  'every string', 'All strings.', [P+':parse_origin'])
p('Canonical origins parse to their tuple',
  'For every scheme in {http, https}, host name and optional port, parse_origin("scheme://host[:port]") returns that scheme and that authority and the port or the scheme default.',
  'every host name and port', 'All hosts.', [P+':parse_origin'])
p('Origins equal as (scheme, host, port) tuples are equal',
  'An origin written with its explicit default port is the same Origin as without it (HTML origin equality).',
  'every host', 'All hosts.', [P+':parse_origin'])
p('Attestation objects are consumed entirely',
  'parse_attestation_object rejects inputs with bytes after the CBOR item.',
  'every byte string', 'All byte strings.', [P+':parse_attestation_object'])
p('Attestation object parsing is sound',
  'If parse_attestation_object succeeds, fmt names the format, the statement has the class of that format, auth_data is the parse of the authData member, and the returned raw dictionary is the decoded CBOR.',
  'every byte string', 'All byte strings.', [P+':parse_attestation_object'])
p('base64url round trip, padded or not',
  'url_base64_decode inverts url_base64_encode for all byte strings, also after stripping any padding.',
  'every byte string', 'All byte strings.', [U+':url_base64_encode', U+':url_base64_decode'])
p('base64 decoding is strict',
  'A string that is not base64(url) text is rejected, so two different strings never decode to the same bytes.',
  'every pair of strings', 'All strings.', [U+':url_base64_decode', P+':_bytes_from_base64'])
p('Case conversion',
  'camel_to_snake_case inverts snake_to_camel_case on well-formed snake names; snake_to_camel_case is idempotent and its output has no underscore; every ExtensionIdentifier.key is the attribute holding that extension\'s output.',
  'every name', 'All strings.', [U+':snake_to_camel_case', U+':camel_to_snake_case', T+':ExtensionIdentifier'])
p('jsonify yields JSON and never leaks nulls in objects',
  'jsonify of any finite object tree either raises or returns pure JSON in which no object member is null (unless it stands for an Enum member whose value is None); failures are exactly unsupported types (UnimplementedError), non-string keys (JSONConversionError) and nesting beyond the interpreter limit (RecursionError), and the exception is that of the first obstacle from left to right. Shared parts are converted as often as they occur, and an object that leads to one that contains itself is always refused.',
  'every object tree, and every graph of objects', 'Unbounded trees and graphs.', [C+':jsonify'])
p('Built options survive jsonify',
  'For every builder configuration, the JSON produced from build() carries every set option under its WebAuthn name, omits unset ones, and the challenge/user id/credential ids decode (standard base64) to the original bytes.',
  'every option combination and byte string', 'All values.', [C+':jsonify', BU+':CredentialCreationOptionsBuilder.build', BU+':CredentialRequestOptionsBuilder.build'])
p('Builders: last write wins and required attributes',
  'After any sequence of setter calls, build() returns exactly the last value set for each attribute (or the constructor/default value) and raises BuilderError iff a required one is missing.',
  'every sequence of setter calls', 'Unbounded sequences.', [BU])
p('Builders are persistent',
  'No setter call, on any builder reachable by any history of setter calls, changes what any previously obtained builder builds.',
  'every history of setter calls on a tree of builders', 'Unbounded histories and aliasing.', [BU+':CredentialCreationOptionsBuilder._copy'])
p('verify is exact',
  'verify(k, sig, data) returns normally iff k converts to a valid public key and the signature verifies (for EC2 with the hash named by alg); an invalid signature raises VerificationError.',
  'every key, signature and data', 'All inputs.', [V+':verify', U+':ec2_hash_algorithm', C+':cryptography_public_key'])
p('validate is exact',
  'validate(k) returns normally iff kty, curve and alg are consistent; a wrong curve or alg raises ValidationError.',
  'every key', 'All combinations of fields.', [VA+':validate'])
p('Key conversion is faithful',
  'cryptography_public_key returns the point whose coordinates are the big-endian x and y on the curve named by crv, or raises; two keys with equal conversions have equal curve and, at equal lengths, equal coordinate bytes.',
  'every key', 'All byte strings.', [C+':cryptography_ec2_public_key', C+':cryptography_okp_public_key'])
p('Example app: ownership and keys are stable',
  'In the Flask example, over any history of requests, a stored credential keeps its owner and public key, and its counter never decreases.',
  'every sequence of requests', 'Unbounded histories.', [X])
p('Example app: challenges expire',
  'In the Flask example a registration or authentication response is accepted only if its challenge was issued by the app at most APP_TIMEOUT ms before.',
  'every history and clock', 'Unbounded histories.', [X])
p('Example app: challenges are single use and user-bound',
  'In the Flask example each challenge is accepted at most once and only for the user it was issued to.',
  'every history', 'Unbounded histories.', [X])
p('Builders are isolated from later assignments',
  'After a setter or build() returns, assigning to attributes of objects the caller holds (the argument given to the setter, the options returned by build) does not change what a builder builds later.',
  'every heap, builder, argument and assignment', 'Aliasing between arbitrary object graphs.', [BU+':CredentialCreationOptionsBuilder._copy', BU+':CredentialCreationOptionsBuilder.build'])
p('Algorithms in the options JSON are COSE numbers',
  'The JSON of every PublicKeyCredentialParameters carries its algorithm as the COSE number WebAuthn requires, in whichever of the two Enum forms it was given.',
  'every algorithm and form', 'Both Enum forms and all Unicode tables.', [C+':jsonify', T+':PublicKeyCredentialParameters'])
p('Example app: a login needs a key registered for that user',
  'In the Flask example a login as a user is accepted only if an earlier accepted registration for that user name had the same raw id and the signature verifies under the public key attested there; no other user ever registers that id.',
  'every history of requests', 'Unbounded histories, any users and keys.', [X, B+':CredentialsBackend.handle_credential_assertion', C+':cose_key'])
p('Example app: the options sent are right',
  'In the Flask example the options sent carry a challenge and number never sent before, the stored handle of the user, and (for authentication) exactly the credentials registered for the user in order; a request fails only if random bytes repeat.',
  'every history of requests', 'Unbounded histories.', [X, C+':jsonify'])
p('Example app: acceptance is exact',
  'In the Flask example a response is accepted iff it satisfies a specification over the history: challenge sent at most 60 s before, client data, authenticator data, signature under the registered key, counter above the last accepted one (login), id new (registration). A response never causes a server error, and one that is refused changes nothing.',
  'every history of requests', 'Unbounded histories and all inputs.', [X, B])
N='webauthn_rp/asn1.py'
p('Key descriptions are decoded exactly',
  'Decoding the key description extension of an Android certificate succeeds iff it starts with the encoding of a KeyDescription of the Android schema, and the challenge, allApplications, origin and purpose read from it are those encoded; every DER encoding is accepted, no bytes encode two descriptions, and anything else raises PyAsn1Error (RecursionError only for inputs longer than the recursion limit).',
  'every byte string', 'All byte strings and all descriptions.', [N, A+':attest_android_key'])
p('Android Key attestation down to the bytes of the extension',
  'The Android Key attester accepts iff the signature and key conditions hold and the extension is the encoding of a key description with this client data hash as challenge, no allApplications, origin GENERATED and purpose SIGN enforced by the TEE; otherwise, once the extension is reached, it raises AttestationError.',
  'every statement, attestation object and extension', 'All byte strings.', [A+':attest_android_key', N])
p('Key descriptions of later attestation versions',
  'Authorizations that the schema does not know (later Keymaster and KeyMint versions add some) do not stop a key description from being decoded.',
  'every key description', 'All descriptions.', [N+':AuthorizationList'])
p('The Android Key attester fails with library errors only',
  'Whatever the key description extension of the certificate contains, the attester returns or raises an error of the library.',
  'every extension', 'All byte strings, nesting included.', [A+':attest_android_key'])
p('CBOR decoding is exact',
  'Reading a CBOR item from bytes succeeds iff they start with an item of RFC 8949 (any head form, definite or indefinite length, tags whatever they stand for) within the nesting limit, and the value read is the one the item denotes: integers, strings, floats of all widths, arrays, maps in which the last of equal keys counts. No item is a prefix of another, no item has two values, everything else raises an exception of the decoder.',
  'every byte string, nesting limit', 'All byte strings, unbounded nesting and sizes.', [P+':parse_authenticator_data', P+':parse_attestation_object', P+':parse_cose_key'])
p('Keys, authenticator data and attestation objects down to the bytes',
  'parse_cose_key, parse_authenticator_data and parse_attestation_object accept exactly the byte strings that the WebAuthn layouts, with CBOR items in them, describe, and return the fields they encode; authenticator data has one reading.',
  'every byte string', 'All byte strings.', [P+':parse_cose_key', P+':parse_authenticator_data', P+':parse_attestation_object'])
p('The ceremonies down to the bytes',
  'A login or a registration is accepted iff the registrar consents and the bytes that arrived satisfy the WebAuthn conditions stated on JSON and CBOR texts, the hash, the loading of keys and the signature check being the only parts not described.',
  'every request, registrar state and registrar', 'All byte strings.', [B+':CredentialsBackend.handle_credential_assertion', B+':CredentialsBackend.handle_credential_attestation'])
p('Parsers fail with errors of the library only',
  'parse_cose_key, parse_authenticator_data and parse_attestation_object return or raise ParserError, DecodingError or ValidationError, DecodingError exactly when the CBOR decoder refuses the bytes and ValidationError exactly for a well-formed key that is not usable.',
  'every byte string', 'All byte strings, nesting included.', [P+':parse_cose_key', P+':parse_authenticator_data', P+':parse_attestation_object'])
p('Failures of key conversion, verification and attestation are classified exactly',
  'For cryptography_public_key, verify and the FIDO U2F and Android Key attesters, the exception raised is determined by the first check that fails: a refused key or certificate, an invalid signature (and nothing else the signature check raises) and each attestation condition give the error class of that condition.',
  'every key, signature, statement, attestation object and every behaviour of the crypto library', 'All combinations of failures and exceptions.', [C+':cryptography_public_key', V+':verify', A+':attest_fido_u2f', A+':attest_android_key'])
p('Honest ceremonies succeed',
  'If the client data is serialised as browsers do, the authenticator data and attestation object are laid out as WebAuthn says, the RP id, challenge and origin are the expected ones and the signature verifies, then registration reaches the registrar with the key, id and counter of the authenticator, and with a store that keeps what it is given registration and every later login with a growing counter succeed; no calls by others in between, whatever they are, prevent this unless they carry a correctly signed assertion with a counter as large.',
  'every key, RP, origin, challenge, extension outputs, store, history of other calls', 'Unbounded histories and all byte strings; the success of examples says nothing about others.', [B+':CredentialsBackend.handle_credential_assertion', B+':CredentialsBackend.handle_credential_attestation', P])
p('Example app: honest users are served',
  'In the Flask example, after any history of requests, an honest answer in time to a challenge sent to the user registers a credential with a new id, and an honest answer with a registered credential logs in if its counter exceeds those of all correctly signed answers sent before.',
  'every history of requests', 'Unbounded histories, any other users and attackers.', [X, B])
p('Example app: requests in flight together',
  'In the Flask example, whatever the interleaving of the SQL statements of requests handled at the same time, and whichever of them fail ("database is locked"): keys stay unique, no row is lost or changes its owner or key, a credential id is accepted once, every stored credential stems from a registration answered with success, accepted logins and registrations satisfy all conditions but the counter, a request of which a statement fails is answered with an error and writes nothing more, and every request is answered after at most six statements of its own (a request for the options of a login after four and the number of credentials).',
  'every sequence of requests, every interleaving of their statements and every choice of failing ones', 'Schedules cannot be forced or enumerated by tests.', [X])
p('Example app: counters under concurrency',
  'In the Flask example, the counters of accepted logins with a credential increase and the stored counter never decreases, also when requests are handled at the same time; one response is not accepted twice.',
  'every interleaving of the statements of concurrent requests', 'Schedules cannot be forced or enumerated by tests.', [X+':authentication_response', X+':RegistrarImpl'])
p('Example app: concurrent requests cause no server errors',
  'In the Flask example, requests handled at the same time are answered as one of the documented answers; a server error occurs only if random bytes repeat or the data base fails.',
  'every interleaving of the statements of concurrent requests', 'Schedules cannot be forced or enumerated by tests.', [X+':registration_request', X+':authentication_request'])
p('Example app: a refusal names its first reason',
  'In the Flask example, after any history, the status and text of the answer to a response are determined by the first of these that holds: unreadable form, wrong kind of response, unknown challenge, unknown user, timeout, ceremony not in order; otherwise it is success.',
  'every history of requests', 'Unbounded histories and all inputs.', [X+':registration_response', X+':authentication_response'])
p('Options and answers as JSON text',
  'json.dumps writes options built by the library and converted by jsonify, and the answers of the example application, as a JSON text of exactly that value, in printable ASCII, which json.loads reads back; a string is read back iff it holds no surrogate pair in two pieces, and json.dumps fails exactly if some part of the value cannot be written, with the exception of the first such part from left to right.',
  'every value, every options object, every history of requests', 'All Unicode strings, integers, nesting depths and options.', [C+':jsonify', X+':registration_request', X+':authentication_request'])
p('Example app: accepted logins agree with the authenticator',
  'In the Flask example, unless signatures are forged, hashes collide or challenges are guessed: an accepted login was signed, with these data, by the authenticator whose key was registered for that user, after the challenge in it was sent and within the 60 s; one signature (one counter) gives at most one accepted login, so no more logins are accepted than were signed. With requests in flight together the first part holds as well.',
  'every sequence of requests and signatures, every interleaving', 'A correspondence over unbounded runs with an adversary who sends anything.', [X, B+':CredentialsBackend.handle_credential_assertion'])
p('Example app: one login per signature under concurrency',
  'In the Flask example, with requests handled at the same time, no more logins are accepted with a credential than its authenticator signed.',
  'every interleaving of the statements of concurrent requests', 'Schedules cannot be forced or enumerated by tests.', [X+':authentication_response'])
p('Registration with attesters of the application',
  'attest is a generic function, to which an application can register attesters. Whatever it does, a registration succeeds iff all checks hold, attest returns a type and trust path for the statement, the raw authenticator data and the SHA-256 hash of the client data, and the registrar accepts exactly these; library errors it raises and exceptions that are no Exceptions pass through and others become InternalError; an attester for one format does not affect the others.',
  'every attester, registrar, registrar state and request', 'All attesters, also ones not yet written.', [B+':CredentialsBackend.handle_credential_attestation', A+':attest'])
H='examples/flask/templates/app.html'
p('Example page: the authenticator is called with the right options',
  'After a click, and whatever happens elsewhere until the answer has arrived, navigator.credentials.create is called with the options meant for the user whose name was in the input (names and handle of that user, the challenge just issued, as bytes), and navigator.credentials.get with the challenge and exactly the credential ids registered for that user, in order and as bytes; no other members are present.',
  'every state of page and server, every user name in UTF-16, every activity of other clients', 'All Unicode names, unbounded histories and numbers of credentials.', [H+':registerUsername', H+':requestAuthentication', H+':parseCreationOptions', H+':parseRequestOptions', X])
p('Example page: what is sent is what the authenticator returned',
  'The form that the page posts is read by the server as the credential that the authenticator returned (all byte strings equal, an empty user handle as none), with the user name and the challenge id of the page; form encoding and base64 are inverted exactly, and forms and JSON texts are written as the standards say; the page reports success iff the server answers with success.',
  'every credential, user name, challenge id, state of the page', 'All byte strings and Unicode texts.', [H+':attestationJSON', H+':assertionJSON', H+':post', H+':registerAttestation', H+':assertAuthentication', X])
p('Example page: honest users are served, from click to message',
  'A user with a conforming authenticator who clicks Register and answers in time is registered with the key of the authenticator and sees it; one who clicks Authenticate with a registered authenticator whose counter has grown is logged in and sees it; whatever other clients send at any time in between.',
  'every state of page and server, every activity of other clients', 'Unbounded histories and all byte strings, through the whole stack.', [H, X, B])
p('Example page: messages of success are true',
  'The page shows that a user is registered or authorized only after the server has answered a response of this page with success, and the user it names is the one; a refused response is reported as a failure.',
  'every sequence of clicks, typing, answers, failures and other clients', 'Unbounded runs; overlapping clicks.', [H+':registerAttestation', H+':assertAuthentication'])
p('Example page: binary members of any options are decoded',
  'For any options that the builders of the library make, the page turns all binary members (challenge, user handle, ids of credentials to allow and to exclude) into the bytes they stand for and changes nothing else.',
  'every options object', 'All options and byte strings.', [H+':parseCreationOptions', H+':parseRequestOptions', C+':jsonify'])
p('Failures of origins and client data are classified exactly',
  'parse_origin raises OriginError for a text that is no http or https origin, except that an authority or a port that urllib refuses gives the ValueError of urllib, with the port looked at last; parse_client_data returns iff the bytes are UTF-8 of a JSON object with the members type, challenge and origin as texts and a well-formed or absent token binding, and otherwise raises DecodingError if the bytes cannot be decoded and ParserError if a member is missing or wrong.',
  'every text and every byte string, every JSON decoder', 'All Unicode texts and byte strings.', [P+':parse_origin', P+':parse_client_data'])
p('A refused login names its first fault',
  'handle_credential_assertion fails iff some step of the WebAuthn procedure fails; the exception raised is that of the first failing step in the documented order, whatever later steps would say, and which step that is, is unique.',
  'every request, registrar state, registrar, world of crypto and decoders', 'All combinations of faults and their order.', [B+':CredentialsBackend.handle_credential_assertion'])
p('A refused registration names its first fault',
  'handle_credential_attestation fails iff some step of the WebAuthn procedure fails; the exception raised is that of the first failing step in the documented order, whatever later steps would say, and which step that is, is unique.',
  'every request, registrar state, registrar, world of crypto and decoders', 'All combinations of faults and their order.', [B+':CredentialsBackend.handle_credential_attestation'])
p('A login was asked for by an allowed page',
  'If only the authenticator signs with the stored key, browsers state the origin of the page truthfully and hashes do not collide: whoever presents a response and however it was obtained, a login succeeds only if a page of an allowed origin asked this authenticator for an assertion with this challenge and RP id, and the user touched it (and was verified, if required); signatures made for pages of other origins log nobody in; a credential logs in at most as often as its authenticator signed, also when calls interleave if the store compares and sets.',
  'every request, registrar, registrar state, history of calls, interleaving and list of signatures', 'An adversary who presents anything, over unbounded histories.', [B+':CredentialsBackend.handle_credential_assertion', P+':parse_origin', P+':parse_client_data'])
p('Registration proves possession of the key',
  'A registration succeeds only if the credential public key in it can be loaded and whoever registers has signed the challenge with it.',
  'every request, registrar and registrar state', 'All attestation formats and keys.', [B+':CredentialsBackend.handle_credential_attestation', A+':attest_none'])
p('Form bodies are read exactly',
  "The fields the example application sees are those of the body: the pieces between '&' that are not empty, cut at the first '=', '+' read as a space and '%' with two hexadecimal digits of either case as an octet, a stray '%' kept, UTF-8 decoded and anything else replaced.",
  'every body, also those that no page sends', 'All byte strings, with stray percent signs and invalid UTF-8 anywhere.', ['examples/flask/app.py:registration_request', 'examples/flask/app.py:registration_response', 'examples/flask/app.py:authentication_response'])
p('Members of decoded maps are found by equality of numbers and texts',
  'In a decoded CBOR map a key finds the last entry with an equal key: truth values, integers and floats are equal when they are the same number, texts, byte strings and tuples by content, NaN nothing; so an integer also finds an entry named by the same number as a float or truth value.',
  'every map and every key', 'All integers and all 2^64 floats, nested tuples.', [P+':parse_cose_key', P+':parse_attestation'])
p('Ceremonies need the registrar methods they call, and no others',
  'A subclass of CredentialsRegistrar that leaves register_credential_attestation as it is never registers anything: a request that would succeed gives RegistrationError and nothing is stored; the same for logins without get_credential_data or register_credential_assertion; overriding the methods of one ceremony is enough for it.',
  'every registrar, every choice of overridden methods, every state and request', 'All registrars and requests.', ['webauthn_rp/registrars.py:CredentialsRegistrar', B+':CredentialsBackend.handle_credential_attestation', B+':CredentialsBackend.handle_credential_assertion'])
p('Example page: the status says how far a function has come',
  'From the click on, the status names the user and says that the username is being registered until the answer of the server is read, then that a credential is being created until the authenticator has answered, then that it is being attested until the server has answered; for a login that authentication is being requested until the authenticator has answered, then that the credential is being asserted; if the authenticator returns null, the function throws and sends nothing.',
  'every state of page and server, every moment, every activity of other clients and typing in between', 'All interleavings with events elsewhere.', [H+':registerUsername', H+':registerAttestation', H+':requestAuthentication', H+':assertAuthentication'])
p('Example app: what is in order is accepted with requests in flight together',
  'In the Flask example, a registration whose challenge, time, user and data are in order when it arrives is answered with success however the statements of its handler interleave with those of others, unless the same credential id is registered meanwhile; a login likewise, if the counters of the other accepted logins with its credential are smaller; provided that none of its own statements fails; six statements of the handler suffice for the answer. Honest answers to challenges are such registrations and logins.',
  'every interleaving of the statements of any requests', 'Unbounded runs and all interleavings.', ['examples/flask/app.py:registration_response', 'examples/flask/app.py:authentication_response', 'examples/flask/app.py:RegistrarImpl', B+':CredentialsBackend'])
p('Example app: options sent while other requests are in flight are right and complete',
  'In the Flask example, however the statements of handlers interleave and whichever fail: options for a registration that are sent carry the stored handle of the user who is named and the challenge drawn for this request; options for a login list, each once, only ids whose registration for this user was accepted, and all of those that were accepted before the request arrived.',
  'every interleaving of the statements of any requests, every failure', 'Unbounded runs and all interleavings.', ['examples/flask/app.py:registration_request', 'examples/flask/app.py:authentication_request'])
p('Example: several pages and requests in flight together, messages are true and ceremonies complete',
  'Any number of pages, other clients and a server that interleaves the statements of all requests: a page shows success only if a response it sent was accepted; if its user waits for each function to end, the user named is the one whose credential is stored or who is logged in; the authenticator is called with the data of the user who was typed; a user who registers a new credential, or logs in with one registered before, succeeds and is told so whatever the others do, if no statement of their own response fails; any other answer is shown as a failure.',
  'every number of pages, every run of pages and server, every interleaving and failure', 'Unbounded runs and all interleavings of pages and handlers.', [H+':registerUsername', H+':registerAttestation', H+':requestAuthentication', H+':assertAuthentication', 'examples/flask/app.py:registration_response', 'examples/flask/app.py:authentication_response'])
p('Example app: only the declared methods and paths do anything',
  'Whatever HTTP requests the Flask example gets: the data base is the one after those that are POSTs to the four paths of the handlers, read as forms; all other requests (other methods, paths, a missing final slash) change nothing; GET and HEAD of / get the page; a POST whose body is not a form is refused with 400 and changes nothing; what the page posts reaches the handlers it is for; Success with status 200 is sent exactly when a handler accepts, so a login over HTTP that gets Success used a credential that an earlier HTTP registration with Success brought for the same user, and is signed with its key.',
  'every list of HTTP requests: methods, paths, kinds of content and bodies', 'Unbounded lists of arbitrary requests.', ['examples/flask/app.py:registration_request', 'examples/flask/app.py:registration_response', 'examples/flask/app.py:authentication_request', 'examples/flask/app.py:authentication_response', 'examples/flask/app.py:index'])
p('Example app: kills keep the data, stops remove them',
  'However the Flask example is started, stopped, killed and started again, with requests in flight: the data base is at every moment that of one server that gets the requests since the data were last lost, and each answer is that server\'s answer, so what holds of every interleaving holds across kills; killing and starting again keeps every row, a challenge sent before kills can be answered afterwards, and a credential registered before them logs its user in; stopping removes all, and afterwards a login succeeds only with a credential registered since; a second start while the server is running removes its file, so that all is lost when it ends, however it ends.',
  'every sequence of starts, stops, kills, HTTP requests, statements and failures', 'Unbounded sequences with kills at any point of any handler.', ['examples/flask/app.py:DATABASE_PATH', 'examples/flask/app.py:registration_response', 'examples/flask/app.py:authentication_response'])
p('Example app: bytes that are no UTF-8 are replaced in forms',
  'Whatever bytes a urlencoded form brings to the Flask example, they are read as UTF-8 in which each byte that begins no character, and each longest beginning of a character that does not become one, is U+FFFD; so all texts that the handlers get are sequences of Unicode scalar values, the requests they can get are exactly those without lone surrogates, every user name in the data base can be written in UTF-8, and options are always sent with status 200 as a JSON text of printable ASCII. Different bytes may name the same user.',
  'every body, every list of HTTP requests without multipart bodies', 'All bytes, unbounded lists of requests.', ['examples/flask/app.py:registration_request', 'examples/flask/app.py:registration_response', 'examples/flask/app.py:authentication_request', 'examples/flask/app.py:authentication_response'])
out=os.path.join(os.path.dirname(__file__),'..','properties.jsonl')
with open(out,'w') as f:
    for q in props: f.write(json.dumps(q)+'\n')
print(len(props))
