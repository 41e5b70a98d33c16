(** * MapFailSpec: which exception each failure of reading a decoded map gives: a COSE key,
    extensions, an attestation statement, a credential.  The checks are given in their order.
    Independent of the functions of the model. *)
From Coq Require Import List NArith ZArith Bool String.
From Verif Require Import Base PyVal B64 Types World FormatSpec StepSpec.
Import ListNotations.
Local Open Scope list_scope.
Local Open Scope string_scope.

Section Steps.
Variable W : World.

Definition parser_error : exn := Lib ParserError.
Definition decoding_error : exn := Lib DecodingError.

(** ParserError with a message that shows the values in [P]; making the message raises
    ValueError when one of them cannot be shown. *)
Definition Complains (P : pyval -> Prop) (e : exn) : Prop :=
  ((forall v, P v -> shows W v = true) /\ e = parser_error) \/
  ((exists v, P v /\ shows W v = false) /\ e = Py EValueError).

Definition int_or_text (v : pyval) : Prop := (exists z, v = VInt z) \/ (exists s, v = VStr s).

(** ** Common checks *)

(** The value [at_ v] is an entry of a registry; the message shows it. *)
Definition registered {A} (at_ : pyval -> Prop) (tbl : list (Z * string * A)) : step :=
  Step (exists v m, at_ v /\ entry tbl v m)
       (fun e => (~ (exists v, at_ v /\ int_or_text v) /\ e = parser_error) \/
                 (exists v, at_ v /\ int_or_text v /\ (forall m, ~ entry tbl v m) /\
                            Complains (eq v) e)).

(** No other members than [names]; the message shows the others. *)
Definition known_members (names : list string) (d : pydict) : step :=
  Step (only_members names d)
       (fun e => ~ only_members names d /\
         Complains (fun k => (exists v, In (k, v) d) /\
                             ~ (exists n, In n names /\ k = VStr (lit n))) e).

Definition bytes_at (at_ : pyval -> Prop) : step :=
  otherwise (exists b, at_ (VBytes b)) parser_error.
Definition text_at (at_ : pyval -> Prop) : step :=
  otherwise (exists s, at_ (VStr s)) parser_error.

(** ** COSE keys *)

(** Label 4, if there: a list or tuple that is not empty, of key operations.  The message about
    an unknown operation shows the whole list. *)
Definition key_ops_step (d : pydict) : step :=
  Step (exists o, opt_label 4 d key_ops_shape o)
       (fun e =>
          (exists v, label 4 d v /\ v <> VNone /\
             ~ (exists o l, v = VList (o :: l) \/ v = VTuple (o :: l)) /\ e = parser_error) \/
          (exists v pre o post, label 4 d v /\
             (v = VList (pre ++ o :: post) \/ v = VTuple (pre ++ o :: post)) /\
             Forall (fun p => exists m, entry op_table p m) pre /\
             (forall m, ~ entry op_table o m) /\
             ((~ int_or_text o /\ e = parser_error) \/ (int_or_text o /\ Complains (eq v) e)))).

(** The labels of all keys. *)
Definition base_steps (d : pydict) : list step :=
  [ otherwise (exists o, opt_label 2 d is_bytes o) parser_error;
    registered (label 3 d) alg_table;
    key_ops_step d;
    otherwise (exists o, opt_label 5 d is_bytes o) parser_error ].

(** The coordinates are as long as the curve says. *)
Definition length_step (tbl : list (Z * string * curve)) (labels : list Z) (d : pydict) : step :=
  otherwise (forall v crv z b, label (-1) d v -> entry tbl v crv -> In z labels ->
               label z d (VBytes b) -> List.length b = coord_len (snd crv)) parser_error.

Definition ec2_steps (d : pydict) : list step :=
  [ bytes_at (label (-2) d); bytes_at (label (-3) d); registered (label (-1) d) ec2_table;
    length_step ec2_table [(-2); (-3)]%Z d ] ++ base_steps d.
Definition okp_steps (d : pydict) : list step :=
  [ bytes_at (label (-2) d); registered (label (-1) d) okp_table;
    length_step okp_table [-2]%Z d ] ++ base_steps d.

(** The key type comes first; there are only elliptic curve and octet key pairs. *)
Inductive CoseMapFails (d : pydict) (e : exn) : Prop :=
| cmf_type : (forall v m, label 1 d v -> entry kty_table v m -> snd m = KT_SYMMETRIC) ->
    e = parser_error -> CoseMapFails d e
| cmf_ec2 v m : label 1 d v -> entry kty_table v m -> snd m = KT_EC2 ->
    FirstFailure (ec2_steps d) e -> CoseMapFails d e
| cmf_okp v m : label 1 d v -> entry kty_table v m -> snd m = KT_OKP ->
    FirstFailure (okp_steps d) e -> CoseMapFails d e.

(** ** Extensions *)

Definition loc_step (d : pydict) : step :=
  Step (exists o, opt_member "loc" d loc_shape o)
       (fun e =>
          (exists v, member "loc" d v /\ v <> VNone /\
             ~ (exists m, v = VDict m /\ forall k x, In (k, x) m -> is_number x) /\
             e = parser_error) \/
          (exists m, member "loc" d (VDict m) /\ (forall k x, In (k, x) m -> is_number x) /\
             fails (known_members ["latitude"; "longitude"; "altitude"; "accuracy";
                                   "altitudeAccuracy"; "heading"; "speed"] m) e)).

Definition optional {A} (name : string) (d : pydict) (shape : A -> pyval -> Prop) : step :=
  otherwise (exists o, opt_member name d shape o) parser_error.

Definition ext_steps (d : pydict) : list step :=
  [ known_members ["appid"; "txAuthSimple"; "txAuthGeneric"; "authnSel"; "exts"; "uvi"; "loc";
                   "uvm"; "biometricPerfBounds"] d;
    optional "appid" d is_bool; optional "txAuthSimple" d is_str;
    optional "txAuthGeneric" d is_bytes; optional "authnSel" d is_bool;
    optional "exts" d (seq_of VStr); optional "uvi" d is_bytes; loc_step d;
    optional "uvm" d uvm_shape; optional "biometricPerfBounds" d is_bool ].

(** ** Attestation statements *)

Definition has (name : string) (d : pydict) : Prop := exists v, member name d v.

Definition x5c_step (d : pydict) : step := otherwise (exists l, stmt_x5c d l) parser_error.

(** The rest of a statement that comes in three forms. *)
Inductive form_steps (d : pydict) (names : list string) : list step -> Prop :=
| fs_x5c : has "x5c" d ->
    form_steps d names [known_members (names ++ ["x5c"]) d; x5c_step d]
| fs_ecdaa : ~ has "x5c" d -> has "ecdaaKeyId" d ->
    form_steps d names
      [known_members (names ++ ["ecdaaKeyId"]) d; bytes_at (member "ecdaaKeyId" d)]
| fs_self : ~ has "x5c" d -> ~ has "ecdaaKeyId" d ->
    form_steps d names [known_members names d].

Inductive StmtSteps (d : pydict) : att_fmt -> list step -> Prop :=
| ss_packed l : form_steps d ["alg"; "sig"] l ->
    StmtSteps d F_PACKED
      ([registered (member "alg" d) alg_table; bytes_at (member "sig" d)] ++ l)
| ss_tpm l : form_steps d ["alg"; "sig"; "ver"; "certInfo"; "pubArea"] l ->
    StmtSteps d F_TPM
      ([registered (member "alg" d) alg_table; bytes_at (member "sig" d);
        text_at (member "ver" d); bytes_at (member "certInfo" d);
        bytes_at (member "pubArea" d)] ++ l)
| ss_android_key :
    StmtSteps d F_ANDROID_KEY
      [registered (member "alg" d) alg_table; bytes_at (member "sig" d); x5c_step d;
       known_members ["alg"; "sig"; "x5c"] d]
| ss_safetynet :
    StmtSteps d F_ANDROID_SAFETYNET
      [text_at (member "ver" d); bytes_at (member "response" d);
       known_members ["ver"; "response"] d]
| ss_u2f :
    StmtSteps d F_FIDO_U2F
      [bytes_at (member "sig" d); x5c_step d; known_members ["sig"; "x5c"] d]
| ss_none : StmtSteps d F_NONE [known_members [] d].

Definition StmtMapFails (d : pydict) (f : att_fmt) (e : exn) : Prop :=
  exists l, StmtSteps d f l /\ FirstFailure l e.

(** ** Credentials *)

(** A text, then its base64. *)
Definition b64_steps (name : string) (d : pydict) : list step :=
  [ text_at (member name d); otherwise (exists b, b64_member name d b) decoding_error ].
Definition opt_b64_steps (name : string) (d : pydict) : list step :=
  [ otherwise (exists o, opt_member name d is_str o) parser_error;
    otherwise (exists o, opt_b64_member name d o) decoding_error ].

Inductive ResponseSteps (r : pydict) : list step -> Prop :=
| rs_attestation : has "attestationObject" r ->
    ResponseSteps r
      (known_members ["clientDataJSON"; "attestationObject"] r ::
       b64_steps "attestationObject" r)
| rs_assertion : ~ has "attestationObject" r ->
    ResponseSteps r
      (known_members ["clientDataJSON"; "authenticatorData"; "signature"; "userHandle"] r ::
       b64_steps "authenticatorData" r ++ b64_steps "signature" r ++
       opt_b64_steps "userHandle" r).

Definition outer_steps (d : pydict) : list step :=
  [ known_members ["id"; "rawId"; "response"; "type"] d; text_at (member "id" d);
    text_at (member "type" d) ] ++ b64_steps "rawId" d ++
  [ otherwise (exists r, member "response" d (VDict r)) parser_error ].

Inductive CredentialFails (d : pydict) (e : exn) : Prop :=
| crf_outer : FirstFailure (outer_steps d) e -> CredentialFails d e
| crf_response r l : Forall passes (outer_steps d) -> member "response" d (VDict r) ->
    ResponseSteps r l -> FirstFailure (b64_steps "clientDataJSON" r ++ l) e ->
    CredentialFails d e.

End Steps.
