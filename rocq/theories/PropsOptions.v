(** * Properties C36, C47-C49, C58: jsonify and the option builders. *)
From Coq Require Import List NArith ZArith Bool String.
From Coq Require Import Strings.Byte.
From Verif Require Import Base PyVal B64 CaseConv CodecSpec FormatSpec Types World Parsers Jsonify
  Builders OptionSpec OptionProps JsonGraph JsonGraphSpec JsonGraphFacts Examples.
Import ListNotations.
Local Open Scope list_scope.

(** C36: parse_public_key_credential inverts jsonify (three nested calls suffice). *)
Theorem C36_credential_round_trip :
  forall (W : World) (U : unicode) (depth : nat) (c : credential),
  ascii_ok U -> (3 <= depth)%nat ->
  exists d, jsonify U depth true (obj_of_credential c) = Ok (VDict d) /\
    parse_public_key_credential W d = Ok c.
Proof. exact (@c36). Qed.
Print Assumptions C36_credential_round_trip.

Example credentials_round_trip :
  (exists d, jsonify ascii_unicode 3 true (obj_of_credential cred_a) = Ok (VDict d) /\
     dict_find (VStr (lit "rawId")) d = Some (VStr (lit "AAEC")) /\
     parse_public_key_credential ex_world d = Ok cred_a) /\
  (exists d, jsonify ascii_unicode 3 true (obj_of_credential cred_b) = Ok (VDict d) /\
     parse_public_key_credential ex_world d = Ok cred_b) /\
  jsonify ascii_unicode 2 true (obj_of_credential cred_a) = Raise (Py ERecursionError).
Proof. repeat split; try (eexists; repeat split; vm_compute; reflexivity). Qed.

(** C47: a result is the JSON value of the object: bytes in base64, Enum members by value,
    instances and dictionaries member by member under the converted names, the last member
    winning when names collide. *)
Theorem C47_result :
  forall (U : unicode) (cc : bool) (depth : nat) (t : pobj) (v : pyval),
  jsonify U depth cc t = Ok v ->
  Json (fun k => if cc then snake_to_camel U k else k) t v /\ PureJson v.
Proof. exact (@c47_result). Qed.
Print Assumptions C47_result.

(** C47: success, exactly: no unsupported type and no key that is not a str at any node that
    is converted, and fewer nested calls than the interpreter allows. *)
Theorem C47_success_iff :
  forall (U : unicode) (cc : bool) (depth : nat) (t : pobj),
  (exists v, jsonify U depth cc t = Ok v) <->
  (forall n u, Path n t u -> (n < depth)%nat /\ (forall e, ~ Defect u e)).
Proof. exact (@c47_iff). Qed.
Print Assumptions C47_success_iff.

(** C47: an exception names a defect that is in the tree, or is RecursionError on a tree
    nested deeper than the interpreter allows. *)
Theorem C47_failures :
  forall (U : unicode) (cc : bool) (depth : nat) (t : pobj) (e : exn),
  jsonify U depth cc t = Raise e ->
  (exists x u n, e = Lib x /\ Path n t u /\ Defect u x) \/
  (e = Py ERecursionError /\ exists n u, Path n t u /\ (depth <= n)%nat).
Proof. exact (@c47_fail). Qed.
Print Assumptions C47_failures.

(** C47: no member is null, unless an Enum member has the value None. *)
Theorem C47_no_null :
  forall (U : unicode) (cc : bool) (depth : nat) (t : pobj) (v : pyval),
  jsonify U depth cc t = Ok v -> (forall n, ~ Path n t (OEnum ONone)) -> NullFree v.
Proof. exact (@c47_null). Qed.
Print Assumptions C47_no_null.

(** The exception is real: an Enum member whose value is None shows up as null. *)
Theorem C47_enum_null :
  forall (U : unicode) (cc : bool) (k : pystr) (depth : nat),
  (2 < depth)%nat ->
  jsonify U depth cc (ODict [(KStr k, OEnum ONone)])
  = Ok (VDict [(VStr (if cc then snake_to_camel U k else k), VNone)]) /\
  ~ NullFree (VDict [(VStr (if cc then snake_to_camel U k else k), VNone)]).
Proof. exact (@c47_enum_null). Qed.
Print Assumptions C47_enum_null.

Example trees :
  jsonify ascii_unicode 4 true tree_ok
  = Ok (VDict [(VStr (lit "clientData"), VBool true);
               (VStr (lit "items"), VList [VInt 3; VStr (lit "usb"); VList []])]) /\
  jsonify ascii_unicode 4 false (OObj [(KStr (lit "client_data"), OBytes [x01; x02])])
  = Ok (VDict [(VStr (lit "client_data"), VStr (lit "AQI="))]) /\
  jsonify ascii_unicode 4 true tree_bad = raise JSONConversionError /\
  jsonify ascii_unicode 4 true (OList [OOpaque; tree_bad]) = raise UnimplementedError.
Proof. repeat split; vm_compute; reflexivity. Qed.

(** C47: the exception, exactly: that of the first obstacle from left to right. *)
Theorem C47_first_obstacle :
  forall (U : unicode) (cc : bool) (depth : nat) (t : pobj) (e : exn),
  jsonify U depth cc t = Raise e <-> Stops depth t e.
Proof. exact (@c47_stops). Qed.
Print Assumptions C47_first_obstacle.

Example hyp_first_obstacle :
  Stops 3 (OList [OInt 1; ODict [(KStr (lit "a"), OOpaque)]; tree_bad]) (Lib UnimplementedError) /\
  Stops 2 (OList [OList [OList []]; OOpaque]) (Py ERecursionError).
Proof. split; apply (c47_stops ascii_unicode true); vm_compute; reflexivity. Qed.

(** C47: parts may be shared: an object that is a finite tree, followed through all
    references, is converted as that tree. *)
Theorem C47_shared :
  forall (U : unicode) (cc : bool) (depth : nat) (g : graph) (a : nat) (t : pobj),
  Unfolds g a t -> gjsonify U g depth cc a = jsonify U depth cc t.
Proof. exact (@c47_references). Qed.
Print Assumptions C47_shared.

(** C47: nothing else is converted. *)
Theorem C47_finite :
  forall (U : unicode) (cc : bool) (depth : nat) (g : graph) (a : nat) (v : pyval),
  gjsonify U g depth cc a = Ok v -> exists t, Unfolds g a t /\ jsonify U depth cc t = Ok v.
Proof. exact (@c47_finite). Qed.
Print Assumptions C47_finite.

(** C47: an object that leads to one that contains itself is refused, however deep the
    interpreter recurses: with RecursionError, or because of another obstacle in it. *)
Theorem C47_cyclic :
  forall (U : unicode) (cc : bool) (depth : nat) (g : graph) (a : nat),
  Cyclic g a ->
  gjsonify U g depth cc a = Raise (Py ERecursionError) \/
  exists n b x, Within g n a b /\ Obstacle g b x /\ gjsonify U g depth cc a = Raise (Lib x).
Proof. exact (@c47_cyclic). Qed.
Print Assumptions C47_cyclic.

(** A list that holds the same bytes twice, and a dictionary that is in itself. *)
Definition ex_graph : graph := fun a =>
  match a with
  | 0 => GList [1; 1]
  | 1 => GBytes [x01; x02]
  | 2 => GList [0; 3]
  | 3 => GDict [(KStr (lit "self"), 3)]
  | 4 => GTuple [5; 3]
  | _ => GOpaque
  end.
Example hyp_shared :
  Unfolds ex_graph 0 (OList [OBytes [x01; x02]; OBytes [x01; x02]]) /\
  gjsonify ascii_unicode ex_graph 2 true 0 = Ok (VList [VStr (lit "AQI="); VStr (lit "AQI=")]).
Proof.
  split; [|vm_compute; reflexivity]. apply (un_list ex_graph 0 [1; 1]); [reflexivity|].
  repeat constructor.
Qed.
Example hyp_cyclic :
  Cyclic ex_graph 2 /\ gjsonify ascii_unicode ex_graph 50 true 2 = Raise (Py ERecursionError) /\
  Cyclic ex_graph 4 /\ gjsonify ascii_unicode ex_graph 50 true 4 = raise UnimplementedError.
Proof.
  assert (L : Within ex_graph 1 3 3) by (apply (within_part _ 0 3 3 3); [now left|constructor]).
  split; [|split; [vm_compute; reflexivity|split; [|vm_compute; reflexivity]]].
  - exists 1, 3, 0. split; [|exact L]. apply (within_part _ 0 2 3 3); [cbn; auto|constructor].
  - exists 1, 3, 0. split; [|exact L]. apply (within_part _ 0 4 3 3); [cbn; auto|constructor].
Qed.

(** C48: creation options as JSON: every set option under its WebAuthn name, the unset ones
    left out, byte strings in standard base64 that decodes to them. *)
Theorem C48_creation :
  forall (U : unicode) (depth : nat) (b : creation_builder) (user : user_entity) (challenge : bytes)
  (o : creation_options),
  ascii_ok U -> (7 <= depth)%nat -> creation_build b user challenge = Ok o ->
  exists v, jsonify U depth true (obj_of_creation o) = Ok v /\
    JCreation o v /\ PureJson v /\
    Some (co_rp o) = cb_rp b /\ Some (co_pub_key_cred_params o) = cb_pub_key_cred_params b /\
    Some (co_attestation o) = cb_attestation b /\ co_user o = user /\ co_challenge o = challenge /\
    co_timeout o = cb_timeout b /\ co_exclude_credentials o = cb_exclude_credentials b /\
    co_authenticator_selection o = cb_authenticator_selection b /\ co_extensions o = cb_extensions b.
Proof. exact (@c48_creation). Qed.
Print Assumptions C48_creation.

(** C48: request options as JSON. *)
Theorem C48_request :
  forall (U : unicode) (depth : nat) (b : request_builder) (challenge : bytes)
  (allow : option (list descriptor)) (o : request_options),
  ascii_ok U -> (7 <= depth)%nat -> request_build b challenge allow = Ok o ->
  exists v, jsonify U depth true (obj_of_request o) = Ok v /\
    JRequest o v /\ PureJson v /\
    Some (ro_mediation o) = rb_mediation b /\ ro_challenge o = challenge /\
    ro_allow_credentials o = allow /\ ro_timeout o = rb_timeout b /\ ro_rp_id o = rb_rp_id b /\
    ro_user_verification o = rb_user_verification b /\ ro_extensions o = rb_extensions b.
Proof. exact (@c48_request). Qed.
Print Assumptions C48_request.

Definition text (v : pyval) (path : list string) : option pyval :=
  fold_left (fun o k => match o with Some (VDict d) => dict_find (VStr (lit k)) d | _ => None end)
            path (Some v).
Example built :
  exists b o v, chain creation_set creation_default calls_x = Ok b /\
    creation_build b user_x [x01; x02; x03; xfb] = Ok o /\
    jsonify ascii_unicode 7 true (obj_of_creation o) = Ok v /\
    text v ["publicKey"; "challenge"]%string = Some (VStr (lit "AQID+w==")) /\
    text v ["publicKey"; "timeout"]%string = Some (VInt 60000) /\
    text v ["publicKey"; "user"; "displayName"]%string = Some (VStr (lit "Ann")) /\
    text v ["publicKey"; "extensions"]%string = None /\
    text v ["publicKey"; "authenticatorSelection"; "userVerification"]%string
      = Some (VStr (lit "required")).
Proof. do 3 eexists. repeat split; vm_compute; reflexivity. Qed.

(** C49: the builder after any chain of setter calls: each attribute has the last value
    written to it; a chain fails exactly when a required attribute is set to None. *)
Theorem C49_creation_chain :
  forall (b : creation_builder) (l : list creation_call),
  (forall b', chain creation_set b l = Ok b' <->
    Forall (fun c => ~ unsets_required c) l /\
    b' = {| cb_rp := written to_rp (cb_rp b) l;
            cb_pub_key_cred_params := written to_params (cb_pub_key_cred_params b) l;
            cb_timeout := written to_timeout (cb_timeout b) l;
            cb_authenticator_selection := written to_selection (cb_authenticator_selection b) l;
            cb_extensions := written to_extensions (cb_extensions b) l;
            cb_attestation := written to_attestation (cb_attestation b) l;
            cb_exclude_credentials := written to_exclude (cb_exclude_credentials b) l |}) /\
  (forall e, chain creation_set b l = Raise e -> e = Py EAssertionError).
Proof. exact (@c49_creation). Qed.
Print Assumptions C49_creation_chain.

(** C49: build() gives exactly these options; BuilderError iff a required one is missing. *)
Theorem C49_creation_build :
  forall (b : creation_builder) (user : user_entity) (challenge : bytes),
  (forall o, creation_build b user challenge = Ok o <->
     cb_rp b = Some (co_rp o) /\ cb_pub_key_cred_params b = Some (co_pub_key_cred_params o) /\
     cb_attestation b = Some (co_attestation o) /\ co_user o = user /\ co_challenge o = challenge /\
     co_timeout o = cb_timeout b /\ co_exclude_credentials o = cb_exclude_credentials b /\
     co_authenticator_selection o = cb_authenticator_selection b /\ co_extensions o = cb_extensions b) /\
  (creation_build b user challenge = raise BuilderError <->
     cb_rp b = None \/ cb_pub_key_cred_params b = None \/ cb_attestation b = None).
Proof. exact (@c49_creation_build). Qed.
Print Assumptions C49_creation_build.

(** C49: the same for the request builder. *)
Theorem C49_request_chain :
  forall (b : request_builder) (l : list request_call),
  (forall b', chain request_set b l = Ok b' <->
    Forall (fun c => ~ runsets_required c) l /\
    b' = {| rb_mediation := written to_mediation (rb_mediation b) l;
            rb_timeout := written to_rtimeout (rb_timeout b) l;
            rb_rp_id := written to_rp_id (rb_rp_id b) l;
            rb_extensions := written to_rextensions (rb_extensions b) l;
            rb_user_verification := written to_uv (rb_user_verification b) l |}) /\
  (forall e, chain request_set b l = Raise e -> e = Py EAssertionError).
Proof. exact (@c49_request). Qed.
Print Assumptions C49_request_chain.

Theorem C49_request_build :
  forall (b : request_builder) (challenge : bytes) (allow : option (list descriptor)),
  (forall o, request_build b challenge allow = Ok o <->
     rb_mediation b = Some (ro_mediation o) /\ ro_challenge o = challenge /\
     ro_allow_credentials o = allow /\ ro_timeout o = rb_timeout b /\ ro_rp_id o = rb_rp_id b /\
     ro_user_verification o = rb_user_verification b /\ ro_extensions o = rb_extensions b) /\
  (request_build b challenge allow = raise BuilderError <-> rb_mediation b = None).
Proof. exact (@c49_request_build). Qed.
Print Assumptions C49_request_build.

Example missing :
  creation_build creation_default user_x [] = raise BuilderError /\
  chain creation_set creation_default (calls_x ++ [set_rp None]) = Raise (Py EAssertionError) /\
  (exists o, request_build request_default [x01] None = Ok o) /\
  request_build {| rb_mediation := None; rb_timeout := None; rb_rp_id := None;
     rb_extensions := None; rb_user_verification := None |} [x01] None = raise BuilderError.
Proof. repeat split; try (eexists; reflexivity). Qed.

(** C58 fails: a Name member as algorithm (allowed by the type annotation and by the
    parsers) is written as its name. *)
Theorem C58_numeric_alg_refuted :
  exists (p : params) (v : pyval),
    jsonify ascii_unicode 3 true (obj_of_params p) = Ok v /\ ~ numeric_alg v.
Proof. exact (@c58_refuted). Qed.
Print Assumptions C58_numeric_alg_refuted.

(** In general: with a Name member the text is never a number. *)
Theorem C58_name_written :
  forall (U : unicode) (depth : nat) (a : alg) (v : pyval),
  ascii_ok U -> jsonify U depth true (obj_of_params (FName, a)) = Ok v -> ~ numeric_alg v.
Proof. exact (@c58_general). Qed.
Print Assumptions C58_name_written.

(** C58 restricted to Value members: the COSE number. *)
Theorem C58_value_partial :
  forall (U : unicode) (depth : nat) (a : alg),
  ascii_ok U -> (3 <= depth)%nat ->
  exists v, jsonify U depth true (obj_of_params (FValue, a)) = Ok v /\ numeric_alg v /\
    JParams (FValue, a) v.
Proof. exact (@c58_value). Qed.
Print Assumptions C58_value_partial.

Example numbers :
  jsonify ascii_unicode 3 true (obj_of_params (FValue, ES256))
  = Ok (VDict [(VStr (lit "type"), VStr (lit "public-key")); (VStr (lit "alg"), VInt (-7))]) /\
  jsonify ascii_unicode 3 true (obj_of_params (FName, ES256))
  = Ok (VDict [(VStr (lit "type"), VStr (lit "public-key")); (VStr (lit "alg"), VStr (lit "ES256"))]).
Proof. split; vm_compute; reflexivity. Qed.
