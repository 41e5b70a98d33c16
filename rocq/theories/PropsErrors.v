(** * Properties C69-C70: which exception each failure gives. *)
From Coq Require Import List NArith ZArith Bool String.
From Coq Require Import Strings.Byte.
From Verif Require Import Base PyVal Types World Parsers Crypto Cbor CborSpec FormatSpec Spec
  StepSpec MapFailSpec FailSpec MapFails KeyFacts FailFacts LongInts Examples.
Import ListNotations.
Local Open Scope list_scope.

(** ** C69: parsers *)

(** C69: the failures of parse_cose_key on bytes, exception by exception. *)
Theorem C69_cose_key :
  forall (W : World) (b : bytes) (e : exn),
  parse_cose_key_bytes W b = Raise e <-> CoseFails W b e.
Proof. exact (@cose_fails_iff). Qed.
Print Assumptions C69_cose_key.

(** C69: the failures of parse_authenticator_data. *)
Theorem C69_authenticator_data :
  forall (W : World) (b : bytes) (e : exn),
  parse_authenticator_data W b = Raise e <-> AuthFails W b e.
Proof. exact (@auth_fails_iff). Qed.
Print Assumptions C69_authenticator_data.

(** C69: the failures of parse_attestation_object. *)
Theorem C69_attestation_object :
  forall (W : World) (b : bytes) (e : exn),
  parse_attestation_object W b = Raise e <-> AttObjFails W b e.
Proof. exact (@attobj_fails_iff). Qed.
Print Assumptions C69_attestation_object.

(** The claim, "all failures are errors of the library", as far as it goes: what else can
    come out are three exceptions of the CBOR decoder, those of its tags that are not of the
    decoder's own classes, and the ValueError of a message that cannot show a value.
    Missing: those. *)
Theorem C69_library_errors_partial :
  forall (W : World) (tags : tagsem) (depth : nat) (b : bytes) (e : exn),
  (forall x, w_cbor_load W x = cbor_load_tags tags depth x) ->
  (parse_cose_key_bytes W b = Raise e \/ parse_authenticator_data W b = Raise e \/
   parse_attestation_object W b = Raise e) ->
  (exists c, e = Lib c /\ In c [ParserError; DecodingError; ValidationError]) \/
  (exists p, e = Py p /\
     (In p [EUnicodeDecodeError; ERecursionError; EOther 998] \/
      (exists imm t v, tags imm t v = WRaise p) /\
      ~ In p [ECBORDecodeEOF; ECBORDecodeValueError])) \/
  (e = Py EValueError /\ exists v, shows W v = false).
Proof.
  intros W tags depth b e MC [H|[H|H]];
    [apply (cose_outcome W tags depth MC b e H)|apply (auth_outcome W tags depth MC b e H)
    |apply (attobj_outcome W tags depth MC b e H)].
Qed.
Print Assumptions C69_library_errors_partial.

(** In general: lists nested beyond the limit, whatever follows them. *)
Theorem C69_nesting_escapes :
  forall (W : World) (tags : tagsem) (depth : nat) (hash ctr t : bytes),
  (forall x, w_cbor_load W x = cbor_load_tags tags depth x) ->
  List.length hash = 32 -> List.length ctr = 4 ->
  parse_cose_key_bytes W (repeat x81 (S depth) ++ t) = Raise (Py ERecursionError) /\
  parse_attestation_object W (repeat x81 (S depth) ++ t) = Raise (Py ERecursionError) /\
  parse_authenticator_data W (hash ++ [x80] ++ ctr ++ repeat x81 (S depth) ++ t)
  = Raise (Py ERecursionError).
Proof.
  intros W tags depth hash ctr t MC L1 L2. destruct (deep_object W tags depth MC t) as [H1 H2].
  split; [exact H1|]. split; [exact H2|]. exact (deep_auth W tags depth MC hash ctr t L1 L2).
Qed.
Print Assumptions C69_nesting_escapes.

(** The claim fails: a text string that is no UTF-8, and nesting. *)
Theorem C69_library_errors_refuted :
  exists (W : World) (b b' : bytes),
    (forall x, w_cbor_load W x = cbor_load 900 x) /\
    parse_attestation_object W b = Raise (Py EUnicodeDecodeError) /\
    parse_attestation_object W b' = Raise (Py ERecursionError).
Proof.
  exists ex_world, [xa1; x61; xff; x00], (repeat x81 901).
  split; [reflexivity|]. vm_compute. split; reflexivity.
Qed.
Print Assumptions C69_library_errors_refuted.

(** C69: what the readers of maps raise: the library's errors, and ValueError only when there
    is a value that cannot be shown. *)
Theorem C69_maps :
  forall (W : World) (f : att_fmt) (d : pydict) (e : exn),
  (CoseMapFails W d e -> map_error W [ParserError] e) /\
  (StmtMapFails W d f e -> map_error W [ParserError] e) /\
  (FirstFailure (ext_steps W d) e -> map_error W [ParserError] e) /\
  (CredentialFails W d e -> map_error W [ParserError; DecodingError] e).
Proof. exact (@map_errors). Qed.
Print Assumptions C69_maps.

(** A key without a curve and one whose curve is 2^20000; the same number as the algorithm of
    a statement and as a member of the extensions; a credential without padding in its id. *)
Definition ex_long : pyval := VInt (Z.shiftl 1 20000).
Example map_failures :
  CoseMapFails ex_world [(VInt 1, VInt 1); (VInt (-2), VBytes [])] (Lib ParserError) /\
  CoseMapFails ex_world [(VInt 1, VInt 1); (VInt (-2), VBytes []); (VInt (-1), ex_long)]
    (Py EValueError) /\
  StmtMapFails ex_world [(VStr (lit "alg"), ex_long)] F_PACKED (Py EValueError) /\
  FirstFailure (ext_steps ex_world [(ex_long, VNone); (VStr (lit "appid"), VInt 7)])
    (Py EValueError) /\
  FirstFailure (ext_steps ex_world [(VStr (lit "appid"), VInt 7)]) (Lib ParserError) /\
  CredentialFails ex_world [(VStr (lit "id"), VStr (lit "a"))] (Lib ParserError) /\
  CredentialFails ex_world [(VStr (lit "id"), VStr (lit "a")); (VStr (lit "rawId"), VStr (lit "a"));
    (VStr (lit "type"), VStr (lit "public-key")); (VStr (lit "response"), VDict [])]
    (Lib DecodingError).
Proof.
  split; [apply cose_map_fails_iff; vm_compute; reflexivity|].
  split; [apply cose_map_fails_iff; vm_compute; reflexivity|].
  split; [apply stmt_map_fails_iff; vm_compute; reflexivity|].
  split; [apply ext_map_fails_iff; vm_compute; reflexivity|].
  split; [apply ext_map_fails_iff; vm_compute; reflexivity|].
  split; apply credential_fails_iff; vm_compute; reflexivity.
Qed.

(** In general: any encoding of a key whose curve is an integer of more than 4300 digits. *)
Theorem C69_long_integer_escapes :
  forall (W : World) (tags : tagsem) (depth : nat) (x : bytes) (z : Z) (bs rest : bytes),
  (forall b, w_cbor_load W b = cbor_load_tags tags depth b) ->
  (forall n, shows W (VInt n) = true <-> (Z.abs n < 10 ^ 4300)%Z) ->
  (10 ^ 4300 <= Z.abs z)%Z ->
  Cbor tags depth false
    (VDict [(VInt 1, VInt 1); (VInt (-2), VBytes x); (VInt (-1), VInt z)]) bs ->
  parse_cose_key_bytes W (bs ++ rest) = Raise (Py EValueError).
Proof. exact (@long_integer). Qed.
Print Assumptions C69_long_integer_escapes.

(** The claim fails for them too: with bignums and the limit of 4300 digits. *)
Theorem C69_long_integer_refuted :
  exists (W : World) (tags : tagsem) (b : bytes),
    (forall x, w_cbor_load W x = cbor_load_tags tags 900 x) /\
    (forall key c, tags key 2%N (VBytes c) = WOk (VInt (Z.of_N (be_to_N c)))) /\
    (forall n, shows W (VInt n) = true <-> (Z.abs n < 10 ^ 4300)%Z) /\
    parse_cose_key_bytes W b = Raise (Py EValueError).
Proof.
  exists bignum_world, bignum_tags, long_key. split; [reflexivity|]. split; [reflexivity|].
  split; [exact bignum_limit|exact long_key_fails].
Qed.
Print Assumptions C69_long_integer_refuted.

(** A cut-off map, bytes after the header, an integer, an unusable key. *)
Definition ex_bad_key : bytes := (* P-256 with alg EdDSA *)
  [xa5; x01; x02; x03; x27; x20; x01; x21; x58; x20] ++ repeat x01 32 ++ [x22; x58; x20] ++ repeat x02 32.
Example parser_failures :
  parse_attestation_object ex_world [xa3; x63] = Raise (Lib DecodingError) /\
  parse_authenticator_data ex_world (repeat x00 38) = Raise (Lib ParserError) /\
  parse_cose_key_bytes ex_world [x07] = Raise (Lib ParserError) /\
  parse_authenticator_data ex_world
    (repeat x00 32 ++ [x40] ++ repeat x00 4 ++ repeat x00 16 ++ [x00; x01; xaa] ++ ex_bad_key)
  = Raise (Lib ValidationError).
Proof. vm_compute. repeat split. Qed.

(** ** C70: keys, signatures and attestation *)

(** C70: key conversion. *)
Theorem C70_key_conversion :
  forall (W : World) (k : pubkey) (e : exn),
  cryptography_public_key W k = Raise e <-> KeyFails W k e.
Proof. exact (@key_fails_iff). Qed.
Print Assumptions C70_key_conversion.

(** C70: verify.  Only InvalidSignature becomes VerificationError; everything else the
    signature check raises is passed on. *)
Theorem C70_verify :
  forall (W : World) (k : pubkey) (sig data : bytes) (e : exn),
  verify W k sig data = Raise e <-> VerifyFails W sig data k e.
Proof. exact (@verify_fails_iff). Qed.
Print Assumptions C70_verify.

(** C70: the FIDO U2F attester, given an attestation object or, as the backend does, a key. *)
Theorem C70_u2f :
  forall (W : World) (sig : option bytes) (x5c : list bytes) (arg : attest_arg) (adb h : bytes)
         (e : exn),
  attest W (S_U2F sig x5c) arg adb h = Raise e <-> U2FFails W h sig x5c arg e.
Proof. intros W sig x5c arg adb h e. exact (u2f_fails_iff W sig x5c arg h e). Qed.
Print Assumptions C70_u2f.

(** C70: the Android Key attester. *)
Theorem C70_android_key :
  forall (W : World) (a : option (form * alg)) (sig : option bytes) (x5c : list bytes)
         (arg : attest_arg) (adb h : bytes) (e : exn),
  attest W (S_AndroidKey a sig x5c) arg adb h = Raise e <-> AndroidFails W adb h a sig x5c arg e.
Proof. intros W a sig x5c arg adb h e. exact (android_fails_iff W a sig x5c arg adb h e). Qed.
Print Assumptions C70_android_key.

(** No curve for the type, no certificate, no key type for ECDSA; a key where an
    attestation object is meant. *)
Example attest_failures :
  cryptography_public_key ex_world (OKPKey {| kb_kty := (FValue, KT_OKP); kb_kid := None;
      kb_alg := None; kb_key_ops := None; kb_base_IV := None |} (FValue, P_256) [])
    = Raise (Lib UnimplementedError) /\
  verify ex_world ex_key [x00] [x01] = Raise (Lib VerificationError) /\
  attest ex_world (S_U2F None []) (ArgKey None) [] [] = Raise (Lib AttestationError) /\
  attest ex_world (S_U2F None [ex_cert []]) (ArgKey None) [] [] = Raise (Py EAttributeError) /\
  attest ex_world (S_AndroidKey None None [ex_android_cert]) (ArgKey None) [] []
    = Raise (Py EAttributeError).
Proof. vm_compute. repeat split. Qed.
