(** * PropsAttesters: C80, registration with attesters of the application, and C21 with the
    call of attest corrected. *)
From Coq Require Import List NArith ZArith Bool String.
From Coq Require Import Strings.Byte.
From Verif Require Import Base PyVal Types World Parsers Crypto Backends Spec Examples History
  Attesters AttesterSpec AttesterFacts.
Import ListNotations.
Local Open Scope list_scope.

(** C80: whatever the call of attest does, a registration succeeds iff the checks hold, attest
    returns for the object, the attested data, the raw authenticator data and the hash of the
    client data, and the registrar accepts what it returned. *)
Theorem C80_exact :
  forall (W : World) (call : attest_call) {S} (R : registrar S) (s : S) (A : attestation_args),
  out_result (run R s (handle_credential_attestation_with W call A)) = Ok tt <->
  exists f sd st cdj aob adb ad acd ty path s1,
    RegistrationChecks W A (fmt_name f) sd cdj aob adb ad /\ StmtMap sd f st /\ ad_attested ad = Some acd /\
    call (att_obj_of ad f st) acd adb (w_sha256 W cdj) = Ok (ty, path) /\
    r_attest R s (ra_credential A) (att_obj_of ad f st) ty (ra_user A) (ra_rp A) path = (s1, Ok None).
Proof. exact (@with_exact). Qed.
Print Assumptions C80_exact.

(** C80: the registrar is called once, with what attest returned, or not at all. *)
Theorem C80_discipline :
  forall (W : World) (call : attest_call) {S} (R : registrar S) (s : S) (A : attestation_args),
  let o := run R s (handle_credential_attestation_with W call A) in
  nothing s o \/
  exists f sd st cdj aob adb ad acd ty path,
    RegistrationChecks W A (fmt_name f) sd cdj aob adb ad /\ StmtMap sd f st /\ ad_attested ad = Some acd /\
    call (att_obj_of ad f st) acd adb (w_sha256 W cdj) = Ok (ty, path) /\
    out_trace o = [EvAttest (ra_credential A) (att_obj_of ad f st) ty (ra_user A) (ra_rp A) path] /\
    out_state o = fst (r_attest R s (ra_credential A) (att_obj_of ad f st) ty (ra_user A) (ra_rp A) path).
Proof. exact (@with_discipline). Qed.
Print Assumptions C80_discipline.

(** C80: what attest raises becomes InternalError if it is an Exception that is no error of the
    library, and is passed on otherwise. *)
Theorem C80_failure :
  forall (W : World) (call : attest_call) {S} (R : registrar S) (s : S) (A : attestation_args) f sd st cdj aob adb ad acd e,
  RegistrationChecks W A (fmt_name f) sd cdj aob adb ad -> StmtMap sd f st -> ad_attested ad = Some acd ->
  call (att_obj_of ad f st) acd adb (w_sha256 W cdj) = Raise e ->
  run R s (handle_credential_attestation_with W call A) =
  {| out_state := s; out_trace := [];
     out_result := Raise (match e with Py _ => Lib InternalError | _ => e end) |}.
Proof. exact (@with_failure). Qed.
Print Assumptions C80_failure.

(** C80: an attester registered for a format decides about this format and no other; it is
    given the public key. *)
Theorem C80_registered :
  forall {S} (W : World) (R : registrar S) (s : S) (A : attestation_args) (f : att_fmt) (impl at_ : attester),
  out_result (run R s (handle_credential_attestation_with W (application_call (register f impl at_)) A)) = Ok tt <->
  exists g sd st cdj aob adb ad acd ty path s1,
    RegistrationChecks W A (fmt_name g) sd cdj aob adb ad /\ StmtMap sd g st /\ ad_attested ad = Some acd /\
    (g = f /\ impl st (ArgKey (at_key acd)) adb (w_sha256 W cdj) = Ok (ty, path) \/
     g <> f /\ at_ st (ArgKey (at_key acd)) adb (w_sha256 W cdj) = Ok (ty, path)) /\
    r_attest R s (ra_credential A) (att_obj_of ad g st) ty (ra_user A) (ra_rp A) path = (s1, Ok None).
Proof. exact (@registered_exact). Qed.
Print Assumptions C80_registered.

(** An attester for packed self attestation: the signature is over the authenticator data and
    the hash. *)
Definition self_attester : attester := fun st arg adb h =>
  match st, arg with
  | S_Packed _ sig, ArgKey (Some _) =>
      if bytes_eqb sig (toy_sign 123456789 (adb ++ h)) then Ok (AT_SELF, None) else Raise (Lib AttestationError)
  | _, _ => Raise (Lib UnimplementedError)
  end.
Definition packed_stmt (b : bytes) : pydict := [(skey "alg", VInt (-7)); (skey "sig", VBytes b)].
Definition packed_reg (b : bytes) : attestation_args := ex_reg "packed" (packed_stmt b) (ex_reg_ad 0).
Example packed_registered :
  let at_ := register F_PACKED self_attester (attest ex_world) in
  let good := toy_sign 123456789 (ex_reg_ad 0 ++ toy_hash ex_reg_cdj) in
  let result A := out_result (run mem_registrar [] (handle_credential_attestation_with ex_world (application_call at_) A)) in
  result (packed_reg good) = Ok tt /\ result (packed_reg []) = Raise (Lib AttestationError) /\
  result (ex_reg "none" [] (ex_reg_ad 0)) = Ok tt /\ result ex_reg_u2f = Raise (Lib InternalError).
Proof. vm_compute. repeat split; reflexivity. Qed.

(** C21: if attest were given the attestation object, every format that has an attester would
    be accepted, exactly if the statement attests the object. *)
Theorem C21_repaired :
  forall {S} (W : World) (R : registrar S) (s : S) (A : attestation_args),
  out_result (run R s (handle_credential_attestation_with W (repaired_call W) A)) = Ok tt <->
  exists f sd st cdj aob adb ad ty path s1,
    RegistrationChecks W A (fmt_name f) sd cdj aob adb ad /\ StmtMap sd f st /\
    AttestedBy W (att_obj_of ad f st) adb (w_sha256 W cdj) ty path /\
    r_attest R s (ra_credential A) (att_obj_of ad f st) ty (ra_user A) (ra_rp A) path = (s1, Ok None).
Proof. exact (@repaired_exact). Qed.
Print Assumptions C21_repaired.

(** C21: and registrations that succeed now would run as they do now. *)
Theorem C21_repair_conservative :
  forall {S} (W : World) (R : registrar S) (s : S) (A : attestation_args),
  registration_succeeds W R s A ->
  run R s (handle_credential_attestation_with W (repaired_call W) A) = run R s (handle_credential_attestation W A).
Proof. exact (@repaired_conservative). Qed.
Print Assumptions C21_repair_conservative.

Example repaired_registers :
  let result A := out_result (run mem_registrar [] (handle_credential_attestation_with ex_world (repaired_call ex_world) A)) in
  result ex_reg_u2f = Ok tt /\ result ex_reg_android = Ok tt /\ result (ex_reg "none" [] (ex_reg_ad 0)) = Ok tt /\
  registration_succeeds ex_world mem_registrar [] (ex_reg "none" [] (ex_reg_ad 0)).
Proof. vm_compute. repeat split; reflexivity. Qed.
