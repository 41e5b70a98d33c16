(** * Properties C18-C28: registration and attestation. *)
From Coq Require Import List NArith ZArith Bool String.
From Coq Require Import Strings.Byte.
From Verif Require Import Base PyVal B64 Utf8 Url Types World Parsers Crypto Backends Spec
  History AttestFacts Examples.
Import ListNotations.
Local Open Scope list_scope.

(** Witnesses of [registration_succeeds]. *)
Example hyp_registration : registration_succeeds ex_world mem_registrar [] ex_reg_none.
Proof. rewrite registration_accepted. reflexivity. Qed.
Example hyp_registration_tb : registration_succeeds ex_world mem_registrar [] ex_reg_tb.
Proof. exact registration_tb_accepted. Qed.

(** C18 *)
Theorem C18_registration_sound :
  forall {S} (W : World) (R : registrar S) (s : S) (A : attestation_args),
  registration_succeeds W R s A ->
  exists cdj aob text d ch org o allowed fmt sd adb rpb,
    cr_response (ra_credential A) = AttestationResponse cdj aob /\
    utf8_decode cdj = Ok text /\ w_json_loads W text = WOk (VDict d) /\
    member "type" d (VStr (lit "webauthn.create")) /\
    member "challenge" d (VStr ch) /\ url_base64_decode ch = Ok (ra_challenge A) /\
    member "origin" d (VStr org) /\ parse_origin (w_url W) org = Ok o /\
    In allowed (allowed_strings (ra_origin A)) /\ parse_origin (w_url W) allowed = Ok o /\
    TokenBindingSpec (ra_token_binding A) d /\
    AttObjSpec W aob fmt sd adb /\
    utf8_encode (rp_id (ra_rp A)) = Ok rpb /\ firstn 32 adb = w_sha256 W rpb /\
    N.testbit (Byte.to_N (nth 32 adb x00)) 0 = true /\
    (ra_require_uv A = true -> N.testbit (Byte.to_N (nth 32 adb x00)) 2 = true) /\
    (forall l e, ra_extensions A = Some l -> In e l ->
       exists m v, ExtensionMap W adb m /\ member (ext_name e) m v /\ v <> VNone).
Proof. exact (@c18). Qed.
Print Assumptions C18_registration_sound.

(** C19, in terms of the attestation procedure as the backend calls it: with the
    attested credential's public key in place of the attestation object. *)
Theorem C19_exact :
  forall {S} (W : World) (R : registrar S) (s : S) (A : attestation_args),
  registration_succeeds W R s A <->
  exists f sd st cdj aob adb ad acd ty path s1,
    RegistrationChecks W A (fmt_name f) sd cdj aob adb ad /\
    StmtMap sd f st /\
    ad_attested ad = Some acd /\
    attest W st (ArgKey (at_key acd)) adb (w_sha256 W cdj) = Ok (ty, path) /\
    r_attest R s (ra_credential A) (att_obj_of ad f st) ty (ra_user A) (ra_rp A) path
      = (s1, Ok None).
Proof. exact (@c19). Qed.
Print Assumptions C19_exact.

(** C19: since that call attests nothing but "none" statements, what is accepted is
    exactly [RegistrationSpec]. *)
Theorem C19_exact_none :
  forall {S} (W : World) (R : registrar S) (s : S) (A : attestation_args),
  registration_succeeds W R s A <->
  exists att s1,
    RegistrationSpec W A att /\
    r_attest R s (ra_credential A) att AT_NONE (ra_user A) (ra_rp A) None = (s1, Ok None).
Proof. exact (@c19_none). Qed.
Print Assumptions C19_exact_none.

(** C20 *)
Theorem C20_registrar_discipline :
  forall {S} (W : World) (R : registrar S) (s : S) (A : attestation_args),
  let o := run R s (handle_credential_attestation W A) in
  nothing s o \/
  exists f sd st cdj aob adb ad acd ty path,
    RegistrationChecks W A (fmt_name f) sd cdj aob adb ad /\
    StmtMap sd f st /\ ad_attested ad = Some acd /\
    attest W st (ArgKey (at_key acd)) adb (w_sha256 W cdj) = Ok (ty, path) /\
    out_trace o = [EvAttest (ra_credential A) (att_obj_of ad f st) ty (ra_user A) (ra_rp A) path] /\
    out_state o = fst (r_attest R s (ra_credential A) (att_obj_of ad f st) ty
                                (ra_user A) (ra_rp A) path).
Proof. exact (@c20). Qed.
Print Assumptions C20_registrar_discipline.

(** Both cases occur: [registration_accepted] and this refusal. *)
Example refused_registration :
  nothing ([] : mem_state) (run mem_registrar [] (handle_credential_attestation ex_world
    (ex_reg "none" [] (ad_bytes x41 0 ex_attested)))).
Proof. split; [|split]; vm_compute; eauto. Qed.

(** C21 fails: here the FIDO U2F statement verifies and all other checks pass, but the
    call ends in InternalError. *)
Theorem C21_u2f_refuted :
  exists (W : World) (R : registrar mem_state) s A sd sig x5c cdj aob adb ad c,
    RegistrationChecks W A (fmt_name F_FIDO_U2F) sd cdj aob adb ad /\
    StmtMap sd F_FIDO_U2F (S_U2F sig x5c) /\
    U2FSpec W sig x5c (att_obj_of ad F_FIDO_U2F (S_U2F sig x5c)) (w_sha256 W cdj) c /\
    run R s (handle_credential_attestation W A) =
      {| out_state := s; out_trace := []; out_result := Raise (Lib InternalError) |}.
Proof. exact (@c21_u2f). Qed.
Print Assumptions C21_u2f_refuted.

(** C21: the same with an Android Key statement. *)
Theorem C21_android_refuted :
  exists (W : World) (R : registrar mem_state) s A sd a sig x5c cdj aob adb ad c,
    RegistrationChecks W A (fmt_name F_ANDROID_KEY) sd cdj aob adb ad /\
    StmtMap sd F_ANDROID_KEY (S_AndroidKey a sig x5c) /\
    AndroidSpec W a sig x5c (att_obj_of ad F_ANDROID_KEY (S_AndroidKey a sig x5c)) adb
                (w_sha256 W cdj) c /\
    run R s (handle_credential_attestation W A) =
      {| out_state := s; out_trace := []; out_result := Raise (Lib InternalError) |}.
Proof. exact (@c21_android). Qed.
Print Assumptions C21_android_refuted.

(** What holds of C21: [attest] itself, given the attestation object, returns BASIC for
    such statements.  Missing: the backend passes it something else. *)
Theorem C21_attest_partial :
  forall (W : World) (o : att_obj) (adb h : bytes) (c : cert),
  (forall sig x5c, U2FSpec W sig x5c o h c ->
     attest W (S_U2F sig x5c) (ArgObj o) adb h = Ok (AT_BASIC, Some [c])) /\
  (forall a sig x5c, AndroidSpec W a sig x5c o adb h c ->
     attest W (S_AndroidKey a sig x5c) (ArgObj o) adb h = Ok (AT_BASIC, Some [c])).
Proof. exact (@c21_partial). Qed.
Print Assumptions C21_attest_partial.

(** ... and in no run does the registrar see anything but the "none" format. *)
Theorem C21_only_none_registered :
  forall {S} (W : World) (R : registrar S) (s : S) (A : attestation_args) c att ty u rp path,
  In (EvAttest c att ty u rp path) (out_trace (run R s (handle_credential_attestation W A))) ->
  ao_fmt att = F_NONE /\ ao_stmt att = S_None /\ ty = AT_NONE /\ path = None.
Proof. exact (@c21_only_none). Qed.
Print Assumptions C21_only_none_registered.

(** C22 *)
Theorem C22_unsupported_never_registered :
  forall {S} (W : World) (R : registrar S) (s : S) (A : attestation_args) cdj aob d rest fmt,
  cr_response (ra_credential A) = AttestationResponse cdj aob ->
  w_cbor_load W aob = WOk (VDict d, rest) ->
  member "fmt" d (VStr (lit fmt)) ->
  In fmt ["packed"; "tpm"; "android-safetynet"]%string ->
  nothing s (run R s (handle_credential_attestation W A)).
Proof. exact (@c22). Qed.
Print Assumptions C22_unsupported_never_registered.

Definition ex_packed : pydict := [(skey "alg", VInt (-7)); (skey "sig", VBytes [x01])].
Example hyp_packed :
  exists d rest, w_cbor_load ex_world (ex_att_obj "packed" ex_packed (ex_reg_ad 0)) = WOk (VDict d, rest) /\
    member "fmt" d (VStr (lit "packed")) /\
    exists st, statement_parser ex_world F_PACKED ex_packed = Ok st.
Proof. do 2 eexists. split; [vm_compute; reflexivity|]. split; [reflexivity|]. eexists. vm_compute. reflexivity. Qed.

(** C23 fails: a registration whose raw_id is not the attested credential id is accepted
    (and stored under raw_id). *)
Theorem C23_raw_id_refuted :
  exists (W : World) (R : registrar mem_state) s A att ad acd,
    registration_succeeds W R s A /\
    RegistrationSpec W A att /\ ao_auth_data att = Some ad /\ ad_attested ad = Some acd /\
    cr_raw_id (ra_credential A) <> at_id acd /\
    mem_find (cr_raw_id (ra_credential A))
      (out_state (run R s (handle_credential_attestation W A))) <> None.
Proof. exact (@c23_refuted). Qed.
Print Assumptions C23_raw_id_refuted.

(** ... generally: raw_id plays no part in the checks of a registration. *)
Theorem C23_raw_id_ignored :
  forall (W : World) (A : attestation_args) (id : bytes) (att : att_obj),
  RegistrationSpec W A att <-> RegistrationSpec W (with_raw_id A id) att.
Proof. exact (@c23_ignored). Qed.
Print Assumptions C23_raw_id_ignored.

(** What holds of C23: the attestation object given to the registrar carries the id
    found in the signed authenticator data (length, then bytes, after the AAGUID).
    Missing: raw_id is not compared with it. *)
Theorem C23_attested_id_partial :
  forall {S} (W : World) (R : registrar S) (s : S) (A : attestation_args) c att ty u rp path,
  In (EvAttest c att ty u rp path) (out_trace (run R s (handle_credential_attestation W A))) ->
  exists cdj aob fmt sd adb ad acd,
    cr_response (ra_credential A) = AttestationResponse cdj aob /\
    AttObjSpec W aob fmt sd adb /\
    ao_auth_data att = Some ad /\ ad_attested ad = Some acd /\
    firstn 2 (skipn 53 adb) = N_to_be 2 (N.of_nat (List.length (at_id acd))) /\
    firstn (List.length (at_id acd)) (skipn 55 adb) = at_id acd.
Proof. exact (@c23_partial). Qed.
Print Assumptions C23_attested_id_partial.

(** C24 *)
Theorem C24_attested_data_required :
  forall {S} (W : World) (R : registrar S) (s : S) (A : attestation_args) cdj aob fmt sd adb,
  cr_response (ra_credential A) = AttestationResponse cdj aob ->
  AttObjSpec W aob fmt sd adb ->
  N.testbit (Byte.to_N (nth 32 adb x00)) 6 = false ->
  nothing s (run R s (handle_credential_attestation W A)).
Proof. exact (@c24). Qed.
Print Assumptions C24_attested_data_required.

Example hyp_no_attested :
  AttObjSpec ex_world (ex_att_obj "none" [] (ex_auth_ad 5)) "none" [] (ex_auth_ad 5) /\
  N.testbit (Byte.to_N (nth 32 (ex_auth_ad 5) x00)) 6 = false.
Proof.
  split; [|reflexivity]. eexists _, []. split; [vm_compute; reflexivity|].
  repeat split; vm_compute; reflexivity.
Qed.

(** C25: client data accepted for one ceremony is not accepted for the other, whatever
    the other arguments and the registrars. *)
Theorem C25_client_data_separated :
  forall {S T} (W : World) (R : registrar S) (R' : registrar T) (s : S) (t : T)
  (A : assertion_args) (B : attestation_args),
  login_succeeds W R s A -> registration_succeeds W R' t B ->
  resp_client_data_JSON (cr_response (aa_credential A)) <>
  resp_client_data_JSON (cr_response (ra_credential B)).
Proof. exact (@c25). Qed.
Print Assumptions C25_client_data_separated.

(** C25: each ceremony accepts only its own class of response object. *)
Theorem C25_response_class :
  forall {S} (W : World) (R : registrar S) (s : S),
  (forall A, login_succeeds W R s A ->
     exists cdj adb sig h, cr_response (aa_credential A) = AssertionResponse cdj adb sig h) /\
  (forall A, registration_succeeds W R s A ->
     exists cdj aob, cr_response (ra_credential A) = AttestationResponse cdj aob).
Proof. exact (@c25_class). Qed.
Print Assumptions C25_response_class.

(** C26 *)
Theorem C26_u2f :
  forall (W : World) (sig : option bytes) (x5c : list bytes) (o : att_obj) (adb h : bytes) r,
  attest W (S_U2F sig x5c) (ArgObj o) adb h = Ok r <->
  exists c, r = (AT_BASIC, Some [c]) /\ U2FSpec W sig x5c o h c.
Proof. exact (@c26). Qed.
Print Assumptions C26_u2f.

Example u2f_accepted :
  exists c, attest ex_world (S_U2F (Some (toy_sign 77 ex_u2f_data)) [ex_cert []])
    (ArgObj (att_obj_of ex_reg_parsed F_FIDO_U2F S_None)) [] (toy_hash ex_reg_cdj)
  = Ok (AT_BASIC, Some [c]).
Proof. eexists. vm_compute. reflexivity. Qed.

(** C27 *)
Theorem C27_android_key :
  forall (W : World) a (sig : option bytes) (x5c : list bytes) (o : att_obj) (adb h : bytes) r,
  attest W (S_AndroidKey a sig x5c) (ArgObj o) adb h = Ok r <->
  exists c, r = (AT_BASIC, Some [c]) /\ AndroidSpec W a sig x5c o adb h c.
Proof. exact (@c27). Qed.
Print Assumptions C27_android_key.

Example android_accepted :
  exists c, attest ex_world
    (S_AndroidKey (Some (FValue, ES256))
       (Some (toy_sign 123456789 (ex_reg_ad 0 ++ toy_hash ex_reg_cdj))) [ex_android_cert; blit "ca"])
    (ArgObj (att_obj_of ex_reg_parsed F_ANDROID_KEY S_None)) (ex_reg_ad 0) (toy_hash ex_reg_cdj)
  = Ok (AT_BASIC, Some [c]).
Proof. eexists. vm_compute. reflexivity. Qed.

(** C28 *)
Theorem C28_dispatch :
  forall (W : World) (st : att_stmt) (arg : attest_arg) (adb h : bytes),
  (stmt_fmt st = F_NONE -> attest W st arg adb h = Ok (AT_NONE, None)) /\
  (In (stmt_fmt st) [F_PACKED; F_TPM; F_ANDROID_SAFETYNET] ->
     attest W st arg adb h = Raise (Lib UnimplementedError)).
Proof. exact (@c28). Qed.
Print Assumptions C28_dispatch.

Example hyp_dispatch :
  In (stmt_fmt (S_TPM (FValue, ES256) [x01] (lit "2.0") [] [])) [F_PACKED; F_TPM; F_ANDROID_SAFETYNET].
Proof. cbn. auto. Qed.
