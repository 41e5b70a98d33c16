# Design of the Rocq model of webauthn-rp

Sources: `/repo` (read as text, never run). Properties: `properties.jsonl` (written by
`tools/genprops.py`). Development: `rocq/theories`, logical name `Verif`, Coq 8.16.1, standard
library only. `MANIFEST.json` is written by `tools/genmanifest.py` from the theorem names.

## 1. Architecture

### Model

| file | content |
|---|---|
| `Base.v` | bytes (`list Byte.byte`), Python `str` (list of code points), the exceptions of `errors.py` and of the libraries as data, `isinstance` on them, result monad with `except` clauses |
| `PyVal.v` | dynamic Python values as produced by CBOR/JSON decoding, Python key equality, dictionaries |
| `B64.v` | `binascii.a2b_base64`/`b2a_base64`, `base64.b64decode/b64encode`, `utils.url_base64_*` |
| `CaseConv.v` | `utils.snake_to_camel_case`, `camel_to_snake_case` |
| `Url.v` | `urllib.parse.urlsplit/urlparse`, `SplitResult.port`, `parsers.parse_origin` |
| `Utf8.v`, `Json.v` | strict UTF-8 decoding/encoding, `json.loads` |
| `Cbor.v` | the data items of `cbor2.load` the formats use, and `cbor2.dumps` |
| `Types.v` | the enums and classes of `types.py` the code inspects |
| `World.v` | the oracles (below); a record of functions |
| `Parsers.v` | `parsers.py`, `validators.py`, `utils.curve_coordinate_byte_length` |
| `Crypto.v` | `converters.cryptography_*` and `cose_*`, `verifiers.py`, `attesters.py`, `utils.ec2_hash_algorithm` |
| `Backends.v` | `backends.py`: both ceremony handlers as programs over registrar calls |
| `Registrars.v` | `registrars.py`: the base class, and subclasses that override some of its methods |
| `Attesters.v` | registration with attesters that the application registers, and with finding 1 corrected |
| `Jsonify.v` | `converters.jsonify`, on object trees |
| `JsonGraph.v` | `converters.jsonify` again, on objects that may be shared or contain themselves |
| `Builders.v` | `builders.py` and the option classes of `types.py`, as values |
| `Heap.v` | `builders.py` again, with object identity, `deepcopy` and assignments |
| `History.v` | sequences of ceremonies, and interleavings of ceremonies call by call |
| `Der.v` | pyasn1's DER decoder (0.4.8), directed by a schema |
| `Asn1.v` | the schema of `asn1.py`, and what `attesters.py` reads of a KeyDescription |
| `App.v` | `examples/flask/app.py`: tables, registrar, the four request handlers |
| `Dumps.v` | `json.dumps` on the values `jsonify` returns, and the bodies of the example's answers |
| `AppConc.v` | the same handlers as sequences of SQL statements, and a server that interleaves them |
| `Form.v` | the form bodies: URLSearchParams in the browser, werkzeug's parser in the server |
| `Page.v` | the script of `examples/flask/templates/app.html`; page, server, user and authenticator as one transition system |
| `Web.v` | any number of such pages and the server of `AppConc.v` as one transition system |
| `Routes.v` | examples/flask/app.py routes, `request.form`: HTTP requests in front of `App.v` |
| `Life.v` | examples/flask/app.py main program: starts, stops and kills of the server of `AppConc.v` behind `Routes.v` |
| `Utf8Replace.v` | `bytes.decode('utf-8', 'replace')`, with which werkzeug reads forms |

### Specifications

`FormatSpec.v` (formats as relations on decoded maps), `Spec.v` (the ceremonies, authenticator
data layout, attestation statements, violations, serialisation), `CodecSpec.v` (base64, names,
origins), `HistorySpec.v` (interleaved calls), `OptionSpec.v` (JSON of the options, builder calls), `JsonSpec.v` (the JSON grammar
and the values of texts), `AppSpec.v` (histories of the application), `DerSpec.v` (X.690
encodings of Android key descriptions, as relations between descriptions and bytes),
`CborSpec.v` (RFC 8949 items and their values), `WireSpec.v` (the ceremonies on bytes: `Spec.v`
with the decoders replaced by `CborSpec.v`, `JsonSpec.v` and `CodecSpec.v`), `FailSpec.v` (the
exception of each failure), `StepSpec.v` and `MapFailSpec.v` (checks in their order; those of the readers of maps), `AppConcSpec.v` and `AppConcHonestSpec.v` (the application under concurrent requests), `WebSpec.v` (pages with it), `RoutesSpec.v` (HTTP requests), `LifeSpec.v` and `LifeHonestSpec.v` (starts, stops, kills), `ReplaceSpec.v` (UTF-8 with replacement characters),
`AppReplySpec.v` (which answer a response gets), `DumpsSpec.v` (which values json.dumps carries, and
which it cannot write), `AttesterSpec.v` (what the attesters establish), `AgreeSpec.v` (runs with an authenticator; unforged, without collisions, unpredicted), `HonestSpec.v` (conforming browsers, authenticators and stores),
`PhishSpec.v` (pages of any origin, signatures asked for by them), `ReadSpec.v` (base64 with '=',
forgiving base64, form bodies, equality of map keys), `WriteSpec.v` (form bodies and JSON texts as browsers write them),
`PageSpec.v` (JSON.parse, the arguments of `navigator.credentials`, what the page sends, runs of
the page), `CeremonySpec.v` (failures of origins and client data, the ceremonies as lists of steps). They use data types,
oracles and the parsers whose meaning other theorems fix, not the model's helpers.

### Proofs

`*Facts.v`, `*Props.v`, `KeyFacts.v`, `MapKeys.v`, `FormRead.v`, `MapFails.v`, `LongInts.v`, `CborExt.v`, `CborExact.v`, `B64Round.v`, `Utf8Sound.v`, `ClientJson.v`,
`AppHistory.v`, `AppAccept.v`, `AppTheorems.v`, `AppHonest.v`, `AppConcInv.v`, `AppConcTheorems.v`, `AppConcCount.v`, `ConcurrencyCount.v`, `AppConcHonest.v`, `AppConcHonestEx.v` (concrete runs), `AppConcOptions.v`, `WebHonest.v`, `WebAlone.v`, `AppReply.v`, `Agree.v`, `PageText.v`, `PageArgs.v`, `PageParse.v`, `PageSend.v`, `PageRun.v`, `PageStatus.v`: lemmas.
`Examples.v`, `AppExamples.v`, `AppConcExamples.v`, `AgreeExamples.v`, `PageExamples.v`, `WebExamples.v`: one
concrete world and concrete ceremonies, the witnesses. `Props*.v`: the property theorems, each
closed by `exact lemma`, each followed by `Print Assumptions`, with examples that meet the
hypotheses beside them.

### Conventions

Exceptions are values. Python `try/except` is an explicit match on the class hierarchy.
Handlers are programs in a free monad over registrar calls, so the registrar can be arbitrary
(stateful, raising, lying) and two handlers can be interleaved call by call.

Library code that the project calls but does not contain is either modelled concretely (base64,
urlsplit, UTF-8, JSON, CBOR, DER) or is an oracle in `World`. Every theorem quantifies over all
worlds. Where a theorem needs more, the premise says so: `decodes_cbor W depth` (the decoder
agrees with `Cbor.v` where that succeeds), `reads_cbor W depth` (it reads exactly the items of
`CborSpec.v`), `reads_json W E` (likewise for `JsonSpec.v`), `w_json_loads W s = json_loads E s` (`Json.v`),
`w_keydesc W b = decode_key_description depth b` (`Der.v`, `Asn1.v`),
`cbor_reads_prefix`, `ascii_ok` (Unicode tables are right on ASCII), `copies` (deepcopy copies).

When the code violates a property a user relies on, the property is proved false of the model
(`..._refuted`, by a witness the kernel computes), where possible with a general theorem that
says how, and the strongest true part is proved beside it (`..._partial`). Such properties have
the status `partial` in the manifest, with a note that starts with `REFUTED`.

## 2. Plan per property

C01-C13 (`PropsAssert.v`). Handler as free-monad program. Case analysis of the straight-line
program against the independent predicate `AssertionSpec`; the main lemma is an equivalence
(C10) and the others are projections, error inversions (C13) and trace properties (C11, C12).

C14-C17 (`PropsHistory.v`). Any registrar that satisfies `CounterStore`; invariant by induction
on the history (C14, C15). C16 (counter 0) and C17 (interleavings) are false of the code; what
holds of every interleaving (`HistorySpec.v`, `ConcurrencyCount.v`) is by induction on the
schedule: a thread that is about to store carries the moment it looked the credential up.

C18-C28 (`PropsAttest.v`). As C01-C13, against `RegistrationSpec`; C21 and C23 are false of the
code. C26-C28: the attesters against specifications of the bytes they verify.

C29-C35, C37, C43, C51-C53 (`PropsFormat.v`). Equivalences and inversions over arbitrary
dictionaries and byte strings. C30 and C32 by induction on values with the concrete codec. C32
is false of the code.

C36, C47-C49, C58 (`PropsOptions.v`). Structural induction on object trees and on sequences of
setter calls. C58 is false of the code.

C38 (`PropsClient.v`). The JSON scanner against a grammar, by induction on derivations and on
fuel; UTF-8 both ways. The error part of C38 is false of the code.

C39-C42, C44-C46 (`PropsCodec.v`). Inductions on texts. C41, C42, C45 are false of the code.

C50, C57 (`PropsHeap.v`). Heaps only grow; what is reached from old objects does not change.
C57 is false of the code.

C54-C56, C59-C61 (`PropsApp.v`). Every request is one of five moves (`Move`); invariants by
induction on histories; the tables are related to the history (which requests were accepted),
and acceptance is characterised over the history alone. C56 is false of the code.

C62-C65 (`PropsAsn1.v`). The decoder against the encodings item by item; the lists of optional
fields by induction on the schema, as a strictly increasing selection of it. C64 and C65 are
false of the code.

C66-C68 (`PropsWire.v`). The CBOR decoder against a grammar, by induction on fuel one way and on
derivations the other; then C29, C33, C43, C10 and C19 with the decoders replaced by grammars.

C69-C70 (`PropsErrors.v`). The failing runs of the parsers, of key conversion, verification and
the attesters against relations that name the exception of each failure. C69 is false of the
code.

C71-C72 (`PropsHonest.v`). Liveness: what a conforming browser and authenticator send meets the
specifications of C10 and C19 (C30, C38, C40 and C44 supply the parts), and by induction on
histories nothing that others do takes the stored key away or moves its counter past those that
the authenticator signed.

C73-C76 (`PropsConc.v`). Rely and guarantee: every statement of a handler keeps the tables
consistent and only adds rows or sets one counter (guarantee), and a handler's later statements
are right whenever what it read before only grew (rely); then an invariant over all
interleavings. Any statement may fail (SQLite's "database is locked"): nothing is written and
the handler goes on as with the exception. A challenge may then be stored but not sent, so the
theorems speak of challenges drawn; those sent are among them. The refutations use runs in
which nothing fails. C74 and C75 are false of the code. What is left of C74 in all runs
(`AppConcCount.v`) is by a predicate on the rest of a handler: it answers Success only if one of the
data bases its statements met had a lower counter; the last change of the counter since then is by
a login that overtook this one. C76: the sequential handlers against the list
of reasons.

C77 (`PropsDumps.v`). By induction on values: the text written is derivable in the grammar of
`JsonSpec.v` (C50 then gives what is read back), strings by induction with the joining of
surrogates; the failures by induction on the nesting limit.

C78-C79 (`PropsAgree.v`). Agreement in the sense of protocol analysis: runs in which the
authenticator signs between requests. The cryptographic assumptions are premises about the run
(not about the oracles for all inputs); C61, C59 and C56 (C73 and C74 for concurrent requests)
then give the signature, the challenge sent before it, and injectivity. C79 is false of the code.

C80 and the rest of C21 (`PropsAttesters.v`). The handler with the call of `attest` as a
parameter: the defect of C21 otherwise hides which hash, type and trust path are passed on.

C81-C85 (`PropsPage.v`). The page with the server: what json.dumps writes (C77) is parsed by the
browser, decoded and passed to the authenticator; what that returns is written by
JSON.stringify, sent as a form and read by the server (roundtrips by induction on strings, lists
and trees); C72 then gives success. C84 by an invariant over all sequences of events. C84 and
C85 are false of the code.

C86-C88 (`PropsCeremony.v`). Each ceremony as a list of steps, a step being when it passes and
which exceptions it raises otherwise; a handler refines the list if it returns exactly when all
pass and raises exactly what the first failing one does. Refinement composes along `bind`, so
each check is treated once, with the values the earlier ones fixed. The failures of the parsers
and attesters come from C69 and C70, those of origins and client data from C86.

C89, C90 (`PropsPhish.v`). The same for any caller of the library, any registrar and pages of any
origin: from C10, the roundtrip of client data (C38) and canonical origins (C40). One login per
signature from C14 and C17, with an invariant that the key of a credential stays the same. C90 is
false of the code: an honest "none" attestation registers a key nobody has used.

C91, C92 and more of C45 and C82 (`PropsRead.v`). The decoders as relations: where a '=' ends a
text (induction over the decoder's state), what atob and the form parser read of any input
(function and relation determine each other), and Python's equality of keys as equality of
numbers in units of 2^-1074.

C93 (`PropsRegistrar.v`). By cases on which registrar calls a ceremony reaches.

C94 (`PropsStages.v`). By induction over the events elsewhere, with what holds of the events still
to come and the status.

C95 (`PropsServe.v`). A handler succeeds from a database if it does so however the tables grow
between its statements while its credential id is not taken (a registration) or its counter
stays the largest (a login), and none of its statements fails; both follow from where rows and counters come from (C73).

C96 and C97 (`PropsWeb.v`). Each handler knows where the rows it has read come from, at every
statement; the ids it lists include those present when it arrived. With pages, what holds of one
page's functions (`PageStatus.v`) is kept by the events of the others, and each request that a page
waits for is in the server with the page's own body; the server's part is a run of `AppConc.v`, so
C73-C75 and C95 apply. Every run of `Page.v` is a run of `Web.v`.

C98 (`PropsRoutes.v`). Dispatch is characterised by the specification's relation; induction over the
list of HTTP requests from its end shows that `Routes.v` does what `App.v` does on the requests
that reach a handler, so C54-C61 hold over HTTP (the login is spelled out). Conversely forms carry
every request without lone surrogates, so what is refuted there fails over HTTP too.

C99 (`PropsLife.v`). The requests of the running process are the last ones of a server that is never
killed, the earlier ones are left alone: a simulation, by induction over the events. C73 gives the
registration behind a login; its request came after the last stop. While the file is there, the events of
that server only grow, so C95 gives the success of honest registrations and logins after kills.

C100 (`PropsReplace.v`). The decoder and the relation are shown equal by strong induction on the number
of bytes, with a case for each number of bytes that begin a character. The texts of forms are then scalar values;
C98 gives the converse. User names come from registration requests, by induction over the history.

## 3. Trusted base

* Coq's kernel (8.16.1), its virtual machine (`vm_compute` in examples and refutations), the
  definitions of `rocq/theories`, and the reading of the English statements.
* `Print Assumptions` says `Closed under the global context` for every theorem in `Props*.v`:
  no axiom is used, of ours or of a library.
* The checker of the whole development lists seven constants of the standard library, parameters
  of the sealed module `Coq.ssr.ssrunder.Under_rel` that `List`, `ZArith` and `Lia` bring
  along and nothing here uses: `Over_rel`, `Under_rel_from_rel`, `over_rel`, `over_rel_done`,
  `Under_rel`, `Under_relE`, `under_rel_done`.
* No functor, module type, plugin, `Admitted` or kernel flag. Sections use `Variable`s, which
  are generalised when the section closes.

* What the models of the standard library (`Json.v`, `Dumps.v`, `B64.v`, `Utf8.v`, `Url.v`, `Form.v`)
  compute was compared with CPython 3.11 on random inputs (`tools/fuzzstd.py`, some 50000 cases,
  no difference). `RepoTests.v` has the cases of the repository's own tests.

### Modelled

All functions of `parsers.py`, `validators.py`, `converters.py`, `verifiers.py`, `attesters.py`,
`backends.py`, `builders.py`, `utils.py`; the schema `asn1.py`; the data types and enumerations of `types.py`,
`constants.py`, `errors.py`; the interface of `registrars.py`; the example
application `examples/flask/app.py` with the script in `templates/app.html`.

### Not modelled, or simplified

* Cryptography: SHA-256, EC and EdDSA key loading and verification, X.509 parsing, key export
  are oracles. Nothing is proved about their strength.
* pyasn1 is modelled (`Der.v`) as far as the schema of `asn1.py` uses it: no indefinite lengths
  (DER refuses them), no BER forms, no values given without a schema. C27 and the ceremonies
  leave decoding to the oracle `w_keydesc`; C63 instantiates it.
* CBOR: what a tag makes of its content (bignums, dates, sets, ...) is a parameter `tags`,
  universally quantified in C42 and C66-C69: any function of the tag, of the content and of
  whether the value must be hashable. Tags 25 and 29 (string and value references), which need
  state, are not modelled: `Cbor.v` refuses them. The theorems about
  arbitrary worlds cover them, those with `decodes_cbor` say what holds for items without tags,
  and those with `reads_cbor` (C67, C68) are about a decoder that refuses tags 25 and 29.
* Floats are their binary64 patterns; no arithmetic is done with them in the code.
  `float.__repr__`, which `json.dumps` uses, is a parameter; the theorems assume that what it
  prints reads back as the float.
* Recursion limits: a `depth` parameter, universally quantified; `RecursionError` is an outcome.
  Memory exhaustion is not.
* Exceptions that derive from BaseException but not from Exception (KeyboardInterrupt, SystemExit,
  the Timeout of gevent) are `Abort`. A registrar and an attester of an application may raise them,
  and `except Exception` does not catch them: C12 says when they escape the handlers. The
  libraries of `World` raise only Exceptions, and no signal arrives between two steps.
* Messages of exceptions are left out, but not that making one can fail: CPython refuses to convert
  integers of more than 4300 digits to text. `w_shows` says which values can be shown, any
  function of values that contain integers. The parsers ask it where a message shows decoded input.
  The backend shows what a registrar answered or raised: if that fails, the error is InternalError
  and not RegistrationError (`w_shows_exn` for exceptions). The exceptions of `World`'s libraries and
  of attesters can be shown.
* Python attribute access on well-typed objects is field selection. Arguments that violate the
  type annotations of the public functions are outside the model, except those that come from
  decoded input (dictionaries are dynamic values everywhere) and `None` for required options.
* Objects with custom `__dict__` given to `jsonify`.
* Builders: `build()`'s arguments `user` and `challenge` are not None in `Builders.v`; `Heap.v` has them.
  `copy.deepcopy` is any function that satisfies `copies`.
* Page: `JSON.parse` and ToString on arrays and on numbers that are no integers are parameters of the browser, the first assumed to
  read ASCII texts of values that doubles hold exactly; objects are trees without identity (the one
  alias, `publicKey` after `Object.assign`, is not read again); elements are the status text and the
  input value. The authenticator is anything: it answers by an event with a credential or null.
  `btoa`, `atob`, `JSON.stringify`, URLSearchParams and
  werkzeug's form parser are modelled; the decoding of invalid UTF-8 in a form is a parameter of all theorems
  but C100, where it is `Utf8Replace.v` (written after CPython's decoder and compared with it on 4000 adversarial byte strings).
* Application: HTTP below methods, decoded paths, kinds of content, bodies and status codes; Flask's own answers
  (404, 405, redirections, OPTIONS, static files) are one value, `ByFlask`; multipart bodies are read by a parameter;
  the rest of the template, logging. The data base is
  tables with unique columns; SQLite's comparison of a text with an integer column is the
  parameter `ap_int`. In `App.v` and `Page.v` requests are handled one at a time, in `AppConc.v` and `Web.v` statement by
  statement; a statement is atomic: it is executed and committed, or raises OperationalError and
  changes nothing. Rows are read again after each commit (`expire_on_commit`), as the handlers
  use them; these reads may fail, but their results are those already known. In `Life.v` a second start is one
  event: the file is never seen between `create_all` and its removal.
* Documentation strings, `setup.py`, tests.

## 4. Findings

1. `backends.py:203-206` calls `attest` with the credential public key where the attestation
   object is meant, so every format but "none" fails (C21).
2. `converters.py:173` tests `key_ops` where `base_IV` is meant: the Base IV is lost, or written
   as null (C32).
3. `parse_origin` takes the whole netloc as host name (user info, port, case) and accepts an
   empty query or fragment; an invalid port raises a bare ValueError (C41).
4. `url_base64_decode` accepts several texts for the same bytes, and skips foreign characters
   (C45).
5. A counter of 0 that stays 0 is a `SignatureCountError` on the second login (C16).
6. `raw_id` is not compared with the credential id in the attested data (C23).
7. Lookup and update of the counter are separate calls: two concurrent logins with the same
   counter can both succeed (C17).
8. `parse_authenticator_data` may raise ValidationError, and `parse_client_data` a bare
   ValueError or RecursionError (C38); the backend wraps all of them (C12).
9. Bytes after a CBOR key, attestation object are ignored (C42).
10. `validate` does not tie the algorithm to the curve: ES256 with P-521 passes (C52).
11. `expected_extensions=[]` requires nothing; coordinates may lack the latitude; integer keys of
    COSE maps are also found under `True` and `1.0`.
12. `jsonify` drops members that are None, and two members may collide after case conversion (C47).
    An algorithm in its Name form is written as text (C58).
13. Builders keep references to their arguments, and `build()` hands out the builder's own
    objects (C57).
14. Example application: challenges can be used again until they expire, by any user, and are
    never deleted; anybody can add a credential to any account (C56). `credential_models is
    None` is never true (C60).
15. Android key descriptions: any authorization the schema does not list (later attestation
    versions have some) makes the attestation fail, as does a RootOfTrust without
    verifiedBootHash, as versions 1 and 2 write it (C64). Bytes after the description, and after
    the value inside an explicit tag, are ignored; redundant length and integer octets are
    accepted (C62). The names of SecurityLevel and VerifiedBootState are given as
    `componentType`, so any number passes.
16. Explicit tags nested to the recursion limit make the attester raise RecursionError (C65).
17. Invalid UTF-8 in a CBOR text string and nested CBOR lists make the parsers raise
    UnicodeDecodeError and RecursionError (C69). `load_der_x509_certificate` is guarded in the U2F
    attester only: a malformed certificate is a bare ValueError in the Android attester (C70).
18. Example application, requests handled at the same time: one login response sent twice can be
    accepted twice (C74, C79), a stored counter can decrease (C74), and of two first requests for a
    user name one gets a server error (C75).
19. The page keeps the user name, the options and the credential in globals that overlapping
    clicks share: it can report success for a user who has no credential (C84).
    `parseCreationOptions` leaves the ids in `excludeCredentials` as base64 texts, which
    `create()` refuses (C85).
20. A registration never checks a signature by the new key, nor loads it: since only "none"
    attestation succeeds (finding 1), a key that is no point of its curve is registered (C90).
21. A message that shows a CBOR bignum of more than 4300 digits makes the parser raise ValueError
    instead of ParserError (C69).
22. `app.py:325-331` removes the data base file in a `finally` clause that is reached also when the port is
   taken: starting the program a second time deletes the file of the running server (C99).

## 5. Mutation tests

`seeded/LOG.jsonl` has one line per seeded error: the definition edited, the edit, the claim it
breaks, the theorems that failed, the theorems tightened. The edits were made in copies outside
this directory.

## 6. The project's own tests

`RepoTests.v` states the cases of /repo/tests about the model: the parsers, converters, validators,
verifiers, attesters, ASN.1, builders, the registrar and both ceremonies (all 83 test functions: 78 from the files, those
for the builders and the registrar written by hand). Every one holds of the model. They are tests, not proofs, and no
property rests on them: they check that the model gives what the authors of the code expect.
`tools/gentests.py` writes the file. It reads the test files as text and evaluates the data in them
itself; it imports and runs nothing of the repository. The differences from the tests: the hash,
the keys and the signatures are the small ones of `Examples.v`; a certificate is an entry of a
table with its public key and its key description extension in DER; mocks are replaced by values
(the attester tests get a small attestation object); of the altered signatures that the verifier
tests try, every sixteenth is taken; and some tests of the converters and of ASN.1, which compute
with library objects, are translated by hand in the generator.
