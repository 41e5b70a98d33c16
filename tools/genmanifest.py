#!/usr/bin/env python3
"""Write MANIFEST.json from the theorem names in rocq/theories/Props*.v and the notes below.

A property is "proved" when none of its theorems is named _refuted or _partial, otherwise
"partial"."""
import glob
import json
import os
import re

ROOT = os.path.dirname(os.path.dirname(os.path.abspath(__file__)))

NOTES = {
    "C16": "REFUTED: a stored counter of 0 with a presented counter of 0 raises SignatureCountError. "
           "The partial theorem covers registrars that store no counter.",
    "C17": "REFUTED: get_credential_data and register_credential_assertion are separate calls, so two interleaved logins "
           "can both succeed with one counter and the stored counter can decrease. The partial theorems show that it "
           "holds for a registrar that compares and sets, and when no two logins with the credential are between "
           "lookup and storage at the same time. C17_course, C17_changed and C17_overtaken hold of every interleaving.",
    "C21": "REFUTED for every format but 'none': the backend passes the public key instead of the "
           "attestation object to attest(). The partial theorem is about attest() itself; C21_repaired shows that "
           "passing the object makes registration exact for every format with an attester.",
    "C23": "REFUTED: the rawId of a registration is never compared with the attested credential id. "
           "The partial theorem shows which id is registered.",
    "C32": "REFUTED: base_IV is written only if key_ops is set (converters.py:173). The partial theorem "
           "covers keys without a Base IV or with key_ops; C32_base_iv_dropped is the exact result.",
    "C38": "REFUTED as to errors: json.loads raises a bare ValueError for integers with too many digits and "
           "RecursionError for deep nesting. What parses is exact (C38_client_data_exact); the partial theorem "
           "bounds the length of the data.",
    "C41": "REFUTED for every host: the authority text, port included, is kept as host name. The partial "
           "theorem covers origins that both show the port or both do not.",
    "C42": "REFUTED for every accepted input: cbor2.loads ignores bytes after the item. The partial theorem "
           "shows that the authenticator data inside is consumed entirely.",
    "C45": "REFUTED: characters outside the alphabet are skipped and unused bits ignored. The exact results "
           "are C45_url_decoding and C45_std_decoding; the partial theorem covers canonical texts.",
    "C56": "REFUTED: challenges are never deleted and their user is never compared: one challenge serves several "
           "logins, and a challenge sent to one user registers a credential for another. The partial theorems say that "
           "the same response is never accepted twice.",
    "C57": "REFUTED: setters keep the argument by reference and build() hands out the builder's own objects, "
           "so assigning to them changes later builds. The partial theorems cover all other objects.",
    "C58": "REFUTED: a COSEAlgorithmIdentifier.Name member is written as its name. The partial theorem covers "
           "Value members.",
    "C64": "REFUTED in general: any authorization that is not in the schema (305 earlyBootOnly, 720 and above, "
           "...) makes the whole description undecodable.",
    "C65": "REFUTED: explicit tags nested to the recursion limit raise RecursionError, which the attester does "
           "not catch. C63_refused covers extensions shorter than the limit.",
    "C69": "REFUTED: the CBOR decoder's UnicodeDecodeError and RecursionError, and whatever the decoders of "
           "tags raise (EOther 998 stands for what is not modelled, tags 25 and 29), are not caught by the parsers, and "
           "a message that would show an integer of more than 4300 digits raises ValueError. C69_library_errors_partial has all other failures, "
           "and the equivalences give the exception of each failure for any decoder.",
    "C74": "REFUTED: the counter is read and written by separate statements, so the same login sent twice can be "
           "accepted twice and a stored counter can decrease. The partial theorems cover runs in which logins with the "
           "credential do not overlap. C74_exceeds, C74_written, C74_changed and C74_overtaken hold of every run: only an "
           "accepted login changes a counter, it exceeds a counter stored while it was handled, and it replaces a counter "
           "that it does not exceed only if another login with the credential was accepted meanwhile.",
    "C79": "REFUTED: a login sent twice at the same time is accepted twice although the authenticator signed once "
           "(the counter is read and written by separate statements). The partial theorem covers runs in which no two "
           "logins with the credential overlap.",
    "C84": "REFUTED as to the name: the functions of the page share globals, so with overlapping clicks the message can "
           "name a user who has no credential. C84_accepted holds for every run; the partial theorem covers runs in "
           "which the user waits for one function to end before the next click.",
    "C85": "REFUTED for excludeCredentials, for all options that have it: the ids stay base64 texts. The partial theorem "
           "has the challenge and the user handle; request options are decoded entirely.",
    "C90": "REFUTED: no signature by the new key is checked and the key is never loaded. The partial theorem is exact: "
           "whether a registration succeeds does not depend on how keys are loaded and signatures checked.",
    "C75": "REFUTED: of two simultaneous first requests for a new user one fails with IntegrityError (500). The partial "
           "theorems list all answers and say that an error needs a conflicting request or a failing statement.",
}


def main():
    ids = {}
    for f in sorted(glob.glob(os.path.join(ROOT, "rocq/theories/Props*.v"))):
        with open(f) as fh:
            for name in re.findall(r"^Theorem (C\d\d+\w*)", fh.read(), re.M):
                ids.setdefault(name.split("_")[0], []).append(name)
    claims = []
    with open(os.path.join(ROOT, "properties.jsonl")) as fh:
        props = [json.loads(line)["id"] for line in fh if line.strip()]
    for p in props:
        names = ids.get(p)
        if not names:
            print("no theorem for", p)
            continue
        part = any(n.endswith("_refuted") or n.endswith("_partial") for n in names)
        if part and p not in NOTES:
            print("no note for", p)
        claims.append({"property": p, "status": "partial" if part else "proved",
                       "theorems": names, "note": NOTES.get(p, "")})
    for p in ids:
        if p not in props:
            print("theorems for unknown property", p)
    with open(os.path.join(ROOT, "MANIFEST.json"), "w") as fh:
        json.dump({"claims": claims}, fh, indent=1)
        fh.write("\n")


main()
