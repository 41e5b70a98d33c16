(** * PropsCeremony: C86 to C88, which exception a failing check gives, and in which order the
    ceremonies check. *)
From Coq Require Import List NArith ZArith Bool String.
From Coq Require Import Strings.Byte.
From Verif Require Import Base PyVal B64 Utf8 Url Types World Parsers Crypto Backends History Spec CodecSpec
  FailSpec StepSpec CeremonySpec UrlFacts OriginFacts CeremonyFacts Examples.
Import ListNotations.
Local Open Scope list_scope.

(** ** C86: origins and client data *)

(** C86: a text that is no origin raises OriginError, unless urllib refuses its authority or its
    port: then a ValueError comes through. *)
Theorem C86_origin :
  forall (UE : urlenv) (s : pystr) (e : exn),
  parse_origin UE s = Raise e <-> OriginFails UE s e.
Proof. exact (@origin_fails_iff). Qed.
Print Assumptions C86_origin.

(** C86: client data. *)
Theorem C86_client_data :
  forall (W : World) (cdj : bytes),
  ((exists c, parse_client_data W cdj = Ok c) <->
   exists d, ClientDataObject W cdj d /\ ClientMembers d) /\
  (forall e, parse_client_data W cdj = Raise e <-> ClientDataFails W cdj e).
Proof. exact (fun W cdj => conj (client_ok W cdj) (client_fails_iff W cdj)). Qed.
Print Assumptions C86_client_data.

Example origin_failures :
  parse_origin (w_url ex_world) (lit "example.com") = Raise (Lib OriginError) /\
  parse_origin (w_url ex_world) (lit "ftp://example.com") = Raise (Lib OriginError) /\
  parse_origin (w_url ex_world) (lit "https://example.com/a") = Raise (Lib OriginError) /\
  parse_origin (w_url ex_world) (lit "https://example.com:99999") = Raise (Py EValueError) /\
  parse_origin (w_url ex_world) (lit "https://[::1") = Raise (Py EValueError) /\
  (* the port is looked at last *)
  parse_origin (w_url ex_world) (lit "ftp://example.com:x") = Raise (Lib OriginError) /\
  parse_origin (w_url ex_world) (lit "ftp://[::1") = Raise (Py EValueError).
Proof. vm_compute. repeat split. Qed.
Example client_failures :
  parse_client_data ex_world [xff] = Raise (Lib DecodingError) /\
  parse_client_data ex_world (blit "{") = Raise (Lib DecodingError) /\
  parse_client_data ex_world (blit "[]") = Raise (Lib ParserError).
Proof. vm_compute. repeat split. Qed.

(** ** C87: authentication *)

(** C87: the handler returns exactly when every check passes, and otherwise raises what the
    first failing check in the list raises, with other exceptions than those of the library
    turned into InternalError; that exception is determined. *)
Theorem C87_login_first_failure :
  forall (W : World) (S : Type) (R : registrar S) (s : S) (A : assertion_args),
  (login_succeeds W R s A <-> Forall passes (LoginSteps W R s A)) /\
  (forall e, out_result (run R s (handle_credential_assertion W A)) = Raise e <->
     exists e', FirstFailure (LoginSteps W R s A) e' /\ Reported e' e) /\
  (forall e e', FirstFailure (LoginSteps W R s A) e -> FirstFailure (LoginSteps W R s A) e' ->
     e = e').
Proof. exact (fun W S => @login_first W S). Qed.
Print Assumptions C87_login_first_failure.

(** A login with another challenge and a counter already seen: the challenge is reported; with
    the right challenge, the counter is. *)
Definition ex_two_faults (ch : bytes) : assertion_args :=
  {| aa_credential := ex_auth_cred (ex_auth_ad 3); aa_challenge := ch;
     aa_origin := ex_origin; aa_rp := Some ex_rp; aa_user := None; aa_allow := None;
     aa_token_binding := None; aa_require_uv := false; aa_extensions := None;
     aa_ignore_clone := false |}.
Example two_faults :
  out_result (run mem_registrar (ex_store (Some 3%Z))
    (handle_credential_assertion ex_world (ex_two_faults [x07]))) = Raise (Lib ChallengeError) /\
  out_result (run mem_registrar (ex_store (Some 3%Z))
    (handle_credential_assertion ex_world (ex_two_faults ex_challenge)))
  = Raise (Lib SignatureCountError).
Proof. vm_compute. repeat split. Qed.
Example hyp_first_failure :
  FirstFailure (LoginSteps ex_world mem_registrar (ex_store (Some 3%Z)) (ex_two_faults [x07]))
    (Lib ChallengeError).
Proof.
  destruct (C87_login_first_failure ex_world _ mem_registrar (ex_store (Some 3%Z))
              (ex_two_faults [x07])) as (_ & H & _).
  destruct (proj1 (H _) (proj1 two_faults)) as ([c|p|n] & F & E); cbn in E; [|discriminate..].
  now rewrite E.
Qed.

(** ** C88: registration *)

Theorem C88_registration_first_failure :
  forall (W : World) (S : Type) (R : registrar S) (s : S) (A : attestation_args),
  (registration_succeeds W R s A <-> Forall passes (RegistrationSteps W R s A)) /\
  (forall e, out_result (run R s (handle_credential_attestation W A)) = Raise e <->
     exists e', FirstFailure (RegistrationSteps W R s A) e' /\ Reported e' e) /\
  (forall e e', FirstFailure (RegistrationSteps W R s A) e ->
     FirstFailure (RegistrationSteps W R s A) e' -> e = e').
Proof. exact (fun W S => @reg_first W S). Qed.
Print Assumptions C88_registration_first_failure.

(** The U2F attester is handed a key and reads an attribute the key does not have. *)
Example hyp_registration_failure :
  out_result (run mem_registrar [] (handle_credential_attestation ex_world ex_reg_u2f))
  = Raise (Lib InternalError) /\
  FirstFailure (RegistrationSteps ex_world mem_registrar [] ex_reg_u2f) (Py EAttributeError).
Proof.
  split; [vm_compute; reflexivity|]. apply (proj2 (runs_reg ex_world mem_registrar [] ex_reg_u2f)).
  vm_compute. reflexivity.
Qed.
