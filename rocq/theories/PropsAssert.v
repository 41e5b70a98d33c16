(** * Properties C01-C13: authentication. *)
From Coq Require Import List NArith ZArith Bool String.
From Coq Require Import Strings.Byte.
From Verif Require Import Base PyVal B64 Utf8 Url Types World Parsers Crypto Backends Spec
  History AssertFacts Examples.
Import ListNotations.
Local Open Scope list_scope.

(** Witnesses: the two accepted logins of Examples.v meet the hypothesis
    [login_succeeds] of C01-C09. *)
Example hyp_login :
  login_succeeds ex_world mem_registrar (ex_store (Some 4%Z)) (ex_auth 5).
Proof. exact login_accepted. Qed.
Example hyp_login_tb :
  login_succeeds ex_world mem_registrar (ex_store None) (ex_auth_tb 5).
Proof. exact login_tb_accepted. Qed.

(** C01 *)
Theorem C01_signature_sound :
  forall {S} (W : World) (R : registrar S) (s : S) (A : assertion_args),
  login_succeeds W R s A ->
  exists s1 cdt cdj adb sig handle,
    r_get R s (cr_raw_id (aa_credential A)) = (s1, Ok (Some cdt)) /\
    cr_response (aa_credential A) = AssertionResponse cdj adb sig handle /\
    SignatureSpec W (cdt_key cdt) sig (adb ++ w_sha256 W cdj).
Proof. exact (@c01). Qed.
Print Assumptions C01_signature_sound.

(** C02 *)
Theorem C02_client_data_bound :
  forall {S} (W : World) (R : registrar S) (s : S) (A : assertion_args),
  login_succeeds W R s A ->
  exists cdj adb sig handle text d ch org o allowed,
    cr_response (aa_credential A) = AssertionResponse cdj adb sig handle /\
    utf8_decode cdj = Ok text /\ w_json_loads W text = WOk (VDict d) /\
    member "type" d (VStr (lit "webauthn.get")) /\
    member "challenge" d (VStr ch) /\ url_base64_decode ch = Ok (aa_challenge A) /\
    member "origin" d (VStr org) /\ parse_origin (w_url W) org = Ok o /\
    In allowed (allowed_strings (aa_origin A)) /\ parse_origin (w_url W) allowed = Ok o.
Proof. exact (@c02). Qed.
Print Assumptions C02_client_data_bound.

(** C03, authentication *)
Theorem C03_login_token_binding :
  forall {S} (W : World) (R : registrar S) (s : S) (A : assertion_args),
  login_succeeds W R s A ->
  exists cdj adb sig handle text d,
    cr_response (aa_credential A) = AssertionResponse cdj adb sig handle /\
    utf8_decode cdj = Ok text /\ w_json_loads W text = WOk (VDict d) /\
    TokenBindingSpec (aa_token_binding A) d.
Proof. exact (@c03_login). Qed.
Print Assumptions C03_login_token_binding.

(** C03, registration *)
Theorem C03_registration_token_binding :
  forall {S} (W : World) (R : registrar S) (s : S) (A : attestation_args),
  registration_succeeds W R s A ->
  exists cdj aob text d,
    cr_response (ra_credential A) = AttestationResponse cdj aob /\
    utf8_decode cdj = Ok text /\ w_json_loads W text = WOk (VDict d) /\
    TokenBindingSpec (ra_token_binding A) d.
Proof. exact (@c03_registration). Qed.
Print Assumptions C03_registration_token_binding.

Example hyp_registration_tb :
  registration_succeeds ex_world mem_registrar [] ex_reg_tb.
Proof. exact registration_tb_accepted. Qed.

(** C04; [rp] is the relying party in force, [u] the user, as given to the registrar. *)
Theorem C04_rp_hash_and_flags :
  forall {S} (W : World) (R : registrar S) (s : S) (A : assertion_args),
  login_succeeds W R s A ->
  exists s1 cdt cdj adb sig handle ad u rp rpb,
    r_get R s (cr_raw_id (aa_credential A)) = (s1, Ok (Some cdt)) /\
    cr_response (aa_credential A) = AssertionResponse cdj adb sig handle /\
    out_trace (run R s (handle_credential_assertion W A)) =
      [EvGet (cr_raw_id (aa_credential A)); EvAssert (aa_credential A) ad u rp] /\
    RpSpec (aa_rp A) (cdt_rp cdt) rp /\
    utf8_encode (rp_id rp) = Ok rpb /\ firstn 32 adb = w_sha256 W rpb /\
    N.testbit (Byte.to_N (nth 32 adb x00)) 0 = true /\
    (aa_require_uv A = true -> N.testbit (Byte.to_N (nth 32 adb x00)) 2 = true).
Proof. exact (@c04). Qed.
Print Assumptions C04_rp_hash_and_flags.

(** C05, authentication.  With an empty list nothing is required. *)
Theorem C05_login_extensions :
  forall {S} (W : World) (R : registrar S) (s : S) (A : assertion_args) (l : list ext_id),
  login_succeeds W R s A -> aa_extensions A = Some l ->
  exists cdj adb sig handle,
    cr_response (aa_credential A) = AssertionResponse cdj adb sig handle /\
    forall e, In e l ->
      exists d v, ExtensionMap W adb d /\ member (ext_name e) d v /\ v <> VNone.
Proof. exact (@c05_login). Qed.
Print Assumptions C05_login_extensions.

Example hyp_login_extensions : aa_extensions (ex_auth_tb 5) = Some [UVI; APPID].
Proof. reflexivity. Qed.

(** C05, registration *)
Theorem C05_registration_extensions :
  forall {S} (W : World) (R : registrar S) (s : S) (A : attestation_args) (l : list ext_id),
  registration_succeeds W R s A -> ra_extensions A = Some l ->
  exists cdj aob fmt stmt adb,
    cr_response (ra_credential A) = AttestationResponse cdj aob /\
    AttObjSpec W aob fmt stmt adb /\
    forall e, In e l ->
      exists d v, ExtensionMap W adb d /\ member (ext_name e) d v /\ v <> VNone.
Proof. exact (@c05_registration). Qed.
Print Assumptions C05_registration_extensions.

Example hyp_registration_extensions : ra_extensions ex_reg_tb = Some [APPID].
Proof. reflexivity. Qed.

(** C06: refusal, before any registrar call *)
Theorem C06_not_allowed :
  forall {S} (W : World) (R : registrar S) (s : S) (A : assertion_args) (l : list descriptor),
  aa_allow A = Some l ->
  (forall d, In d l -> de_id d <> cr_raw_id (aa_credential A)) ->
  let o := run R s (handle_credential_assertion W A) in
  out_trace o = [] /\ out_state o = s /\ (exists e, out_result o = Raise e) /\
  (UsableOrigins W (aa_origin A) ->
   out_result o = Raise (Lib CredentialNotAllowedError)).
Proof. exact (@c06_refused). Qed.
Print Assumptions C06_not_allowed.

Example hyp_not_allowed :
  let A := {| aa_credential := ex_auth_cred (ex_auth_ad 5); aa_challenge := ex_challenge;
     aa_origin := ex_origin; aa_rp := None; aa_user := None;
     aa_allow := Some [{| de_id := blit "cred-2"; de_transports := None |};
                       {| de_id := blit "cred-3"; de_transports := Some [USB] |}];
     aa_token_binding := None; aa_require_uv := true; aa_extensions := None;
     aa_ignore_clone := false |} in
  (exists l, aa_allow A = Some l /\ l <> [] /\
     forall d, In d l -> de_id d <> cr_raw_id (aa_credential A)) /\
  UsableOrigins ex_world (aa_origin A).
Proof.
  cbv zeta. split.
  - eexists. split; [reflexivity|]. split; [discriminate|].
    intros d [<-|[<-|[]]]; discriminate.
  - split; [discriminate|]. intros s [<-|[]]. eexists. vm_compute. reflexivity.
Qed.

(** C06: acceptance *)
Theorem C06_allowed :
  forall {S} (W : World) (R : registrar S) (s : S) (A : assertion_args) (l : list descriptor),
  login_succeeds W R s A -> aa_allow A = Some l ->
  exists d, In d l /\ de_id d = cr_raw_id (aa_credential A).
Proof. exact (@c06_allowed). Qed.
Print Assumptions C06_allowed.

(** C07 *)
Theorem C07_user_is_owner :
  forall {S} (W : World) (R : registrar S) (s : S) (A : assertion_args),
  login_succeeds W R s A ->
  exists s1 cdt cdj adb sig handle ad u rp,
    r_get R s (cr_raw_id (aa_credential A)) = (s1, Ok (Some cdt)) /\
    cr_response (aa_credential A) = AssertionResponse cdj adb sig handle /\
    out_trace (run R s (handle_credential_assertion W A)) =
      [EvGet (cr_raw_id (aa_credential A)); EvAssert (aa_credential A) ad u rp] /\
    us_id u = us_id (cdt_user cdt) /\
    u = match aa_user A with Some v => v | None => cdt_user cdt end /\
    (forall v, aa_user A = Some v -> us_id v = us_id (cdt_user cdt)) /\
    (forall h, handle = Some h -> h = us_id (cdt_user cdt)) /\
    (aa_user A = None -> exists h, handle = Some h).
Proof. exact (@c07). Qed.
Print Assumptions C07_user_is_owner.

(** C08: success *)
Theorem C08_rp_in_force :
  forall {S} (W : World) (R : registrar S) (s : S) (A : assertion_args),
  login_succeeds W R s A ->
  exists s1 cdt cdj adb sig handle ad u rp rpb,
    r_get R s (cr_raw_id (aa_credential A)) = (s1, Ok (Some cdt)) /\
    cr_response (aa_credential A) = AssertionResponse cdj adb sig handle /\
    out_trace (run R s (handle_credential_assertion W A)) =
      [EvGet (cr_raw_id (aa_credential A)); EvAssert (aa_credential A) ad u rp] /\
    utf8_encode (rp_id rp) = Ok rpb /\ firstn 32 adb = w_sha256 W rpb /\
    (forall r, aa_rp A = Some r -> rp = r) /\
    (aa_rp A = None -> cdt_rp cdt = Some rp) /\
    (forall r r', aa_rp A = Some r -> cdt_rp cdt = Some r' -> rp_id r = rp_id r').
Proof. exact (@c08). Qed.
Print Assumptions C08_rp_in_force.

(** C08: no RP at all.  The registrar only sees the lookup, and no RP means failure; the
    error is RPNotFoundError unless an earlier check (origins, allow list, user) fails. *)
Theorem C08_rp_missing :
  forall {S} (W : World) (R : registrar S) (s s1 : S) (A : assertion_args) (cdt : cred_data),
  r_get R s (cr_raw_id (aa_credential A)) = (s1, Ok (Some cdt)) ->
  aa_rp A = None -> cdt_rp cdt = None ->
  let o := run R s (handle_credential_assertion W A) in
  (exists e, out_result o = Raise e) /\
  (forall c ad u rp, ~ In (EvAssert c ad u rp) (out_trace o)) /\
  (forall cdj adb sig handle u,
     UsableOrigins W (aa_origin A) ->
     AllowSpec (aa_allow A) (cr_raw_id (aa_credential A)) ->
     cr_response (aa_credential A) = AssertionResponse cdj adb sig handle ->
     UserSpec (aa_user A) (cdt_user cdt) handle u ->
     o = {| out_state := s1; out_trace := [EvGet (cr_raw_id (aa_credential A))];
            out_result := Raise (Lib RPNotFoundError) |}).
Proof. exact (@c08_missing). Qed.
Print Assumptions C08_rp_missing.

Example hyp_rp_missing :
  let st := [(ex_raw_id, {| cdt_key := ex_key; cdt_sign_count := None; cdt_user := ex_user;
                            cdt_rp := None |})] in
  out_result (run mem_registrar st (handle_credential_assertion ex_world (ex_auth 5)))
  = Raise (Lib RPNotFoundError).
Proof. vm_compute. reflexivity. Qed.

(** C09: success *)
Theorem C09_counter_larger :
  forall {S} (W : World) (R : registrar S) (s : S) (A : assertion_args),
  login_succeeds W R s A -> aa_ignore_clone A = false ->
  exists s1 cdt cdj adb sig handle,
    r_get R s (cr_raw_id (aa_credential A)) = (s1, Ok (Some cdt)) /\
    cr_response (aa_credential A) = AssertionResponse cdj adb sig handle /\
    (cdt_sign_count cdt = None \/
     exists n, cdt_sign_count cdt = Some n /\ (n < Z.of_N (counter_of adb))%Z).
Proof. exact (@c09). Qed.
Print Assumptions C09_counter_larger.

(** C09: everything passes except the counter *)
Theorem C09_clone_detected :
  forall {S} (W : World) (R : registrar S) (s s1 : S) (A : assertion_args) cdt ad u rp
    cdj adb sig handle n,
  r_get R s (cr_raw_id (aa_credential A)) = (s1, Ok (Some cdt)) ->
  AssertionSpec W (ignoring A) cdt ad u rp ->
  aa_ignore_clone A = false ->
  cr_response (aa_credential A) = AssertionResponse cdj adb sig handle ->
  cdt_sign_count cdt = Some n -> (Z.of_N (counter_of adb) <= n)%Z ->
  run R s (handle_credential_assertion W A) =
  {| out_state := s1; out_trace := [EvGet (cr_raw_id (aa_credential A))];
     out_result := Raise (Lib SignatureCountError) |}.
Proof. exact (@c09_clone). Qed.
Print Assumptions C09_clone_detected.

Example hyp_clone :
  exists ad u rp, AssertionSpec ex_world (ignoring (ex_auth 5)) (ex_stored (Some 5%Z)) ad u rp.
Proof.
  assert (H : login_succeeds ex_world mem_registrar (ex_store (Some 5%Z)) (ignoring (ex_auth 5)))
    by (vm_compute; reflexivity).
  apply BackendFacts.assertion_exact in H as (s1 & cdt & ad & u & rp & s2 & G & C & _).
  cbn [r_get mem_registrar] in G.
  assert (cdt = ex_stored (Some 5%Z)).
  { vm_compute in G. vm_compute. congruence. }
  subst. eauto.
Qed.
Example clone_detected :
  out_result (run mem_registrar (ex_store (Some 5%Z)) (handle_credential_assertion ex_world (ex_auth 5)))
  = Raise (Lib SignatureCountError).
Proof. vm_compute. reflexivity. Qed.

(** C10 *)
Theorem C10_exact :
  forall {S} (W : World) (R : registrar S) (s : S) (A : assertion_args),
  login_succeeds W R s A <->
  exists s1 cdt ad u rp s2,
    r_get R s (cr_raw_id (aa_credential A)) = (s1, Ok (Some cdt)) /\
    AssertionSpec W A cdt ad u rp /\
    r_assert R s1 (aa_credential A) ad u rp = (s2, Ok None).
Proof. exact (@c10). Qed.
Print Assumptions C10_exact.

(** C11: every run is one of three: no call; the lookup only; the lookup and, all checks
    passed, the registration of the assertion. *)
Theorem C11_registrar_discipline :
  forall {S} (W : World) (R : registrar S) (s : S) (A : assertion_args),
  let o := run R s (handle_credential_assertion W A) in
  let get := EvGet (cr_raw_id (aa_credential A)) in
  (out_trace o = [] /\ out_state o = s /\ out_result o <> Ok tt) \/
  (out_trace o = [get] /\ out_state o = fst (r_get R s (cr_raw_id (aa_credential A))) /\
   out_result o <> Ok tt) \/
  (exists s1 cdt ad u rp,
     r_get R s (cr_raw_id (aa_credential A)) = (s1, Ok (Some cdt)) /\
     AssertionSpec W A cdt ad u rp /\
     out_trace o = [get; EvAssert (aa_credential A) ad u rp] /\
     out_state o = fst (r_assert R s1 (aa_credential A) ad u rp)).
Proof. exact (@c11). Qed.
Print Assumptions C11_registrar_discipline.

(** C11: if the checks fail for the data looked up, nothing is registered. *)
Theorem C11_failed_check_registers_nothing :
  forall {S} (W : World) (R : registrar S) (s : S) (A : assertion_args),
  (forall s1 cdt ad u rp, r_get R s (cr_raw_id (aa_credential A)) = (s1, Ok (Some cdt)) ->
     ~ AssertionSpec W A cdt ad u rp) ->
  let o := run R s (handle_credential_assertion W A) in
  (forall c ad u rp, ~ In (EvAssert c ad u rp) (out_trace o)) /\
  (out_state o = s \/ out_state o = fst (r_get R s (cr_raw_id (aa_credential A)))).
Proof. exact (@c11_failed). Qed.
Print Assumptions C11_failed_check_registers_nothing.

Example failed_check_trace :
  out_trace (run mem_registrar (ex_store (Some 9%Z))
                 (handle_credential_assertion ex_world (ex_auth 5))) = [EvGet ex_raw_id].
Proof. vm_compute. reflexivity. Qed.

(** C12, authentication.  [Abort]: what the registrar raises and is no Exception. *)
Theorem C12_login_errors :
  forall {S} (W : World) (R : registrar S) (s : S) (A : assertion_args),
  let o := run R s (handle_credential_assertion W A) in
  let id := cr_raw_id (aa_credential A) in
  out_result o = Ok tt \/
  (exists l, out_result o = Raise (Lib l) /\ lib_isa l WebAuthnRPError = true) \/
  exists n, out_result o = Raise (Abort n) /\
    ((out_trace o = [EvGet id] /\ snd (r_get R s id) = Raise (Abort n)) \/
     (exists s1 cdt ad u rp, out_trace o = [EvGet id; EvAssert (aa_credential A) ad u rp] /\
        r_get R s id = (s1, Ok (Some cdt)) /\
        snd (r_assert R s1 (aa_credential A) ad u rp) = Raise (Abort n))).
Proof. exact (@c12_login). Qed.
Print Assumptions C12_login_errors.

(** C12, registration *)
Theorem C12_registration_errors :
  forall {S} (W : World) (R : registrar S) (s : S) (A : attestation_args),
  let o := run R s (handle_credential_attestation W A) in
  out_result o = Ok tt \/
  (exists l, out_result o = Raise (Lib l) /\ lib_isa l WebAuthnRPError = true) \/
  exists n att ty path, out_result o = Raise (Abort n) /\
    out_trace o = [EvAttest (ra_credential A) att ty (ra_user A) (ra_rp A) path] /\
    snd (r_attest R s (ra_credential A) att ty (ra_user A) (ra_rp A) path) = Raise (Abort n).
Proof. exact (@c12_registration). Qed.
Print Assumptions C12_registration_errors.

(** A bare ValueError (port out of range in the client's origin) becomes InternalError. *)
Example python_error_wrapped :
  let A := {| aa_credential := ex_auth_cred (ex_auth_ad 5); aa_challenge := ex_challenge;
     aa_origin := OneOrigin (lit "https://example.com:99999"); aa_rp := None; aa_user := None;
     aa_allow := None; aa_token_binding := None; aa_require_uv := true;
     aa_extensions := None; aa_ignore_clone := false |} in
  parse_origin (w_url ex_world) (lit "https://example.com:99999") = Raise (Py EValueError) /\
  out_result (run mem_registrar (ex_store None) (handle_credential_assertion ex_world A))
  = Raise (Lib InternalError).
Proof. vm_compute. split; reflexivity. Qed.

(** A registrar whose database is slow, in a greenlet with a timeout: the login ends in the timeout
    and not in an error of the library. *)
Definition slow_registrar : registrar (list (bytes * cred_data)) :=
  {| r_get := fun s _ => (s, Raise (Abort 7)); r_assert := r_assert mem_registrar;
     r_attest := fun s _ _ _ _ _ _ => (s, Raise (Abort 7)) |}.
Example timeout_escapes :
  let A := {| aa_credential := ex_auth_cred (ex_auth_ad 5); aa_challenge := ex_challenge;
     aa_origin := ex_origin; aa_rp := None; aa_user := None;
     aa_allow := None; aa_token_binding := None; aa_require_uv := true;
     aa_extensions := None; aa_ignore_clone := false |} in
  out_result (run slow_registrar (ex_store None) (handle_credential_assertion ex_world A))
  = Raise (Abort 7) /\
  out_result (run slow_registrar [] (handle_credential_attestation ex_world ex_reg_none))
  = Raise (Abort 7).
Proof. vm_compute. split; reflexivity. Qed.

(** The message of RegistrationError cannot show an integer of 4301 digits that the registrar
    answers, nor an exception with such an argument: InternalError. *)
Definition wordy_registrar (a : reg_answer) : registrar (list (bytes * cred_data)) :=
  {| r_get := r_get mem_registrar; r_assert := fun s _ _ _ _ => (s, a);
     r_attest := fun s _ _ _ _ _ _ => (s, a) |}.
Example unshown_answers :
  out_result (run (wordy_registrar (Ok (Some (VInt (Z.shiftl 1 14284))))) [] (handle_credential_attestation ex_world ex_reg_none))
  = Raise (Lib InternalError) /\
  out_result (run (wordy_registrar (Raise (Py (EOther 1)))) (ex_store (Some 4%Z)) (handle_credential_assertion ex_world (ex_auth 5)))
  = Raise (Lib InternalError) /\
  out_result (run (wordy_registrar (Ok (Some (VInt 1)))) (ex_store (Some 4%Z)) (handle_credential_assertion ex_world (ex_auth 5)))
  = Raise (Lib RegistrationError).
Proof. vm_compute. repeat split; reflexivity. Qed.

(** C13; [check_errors] and [Violation] are in Spec.v. *)
Theorem C13_error_accuracy :
  forall {S} (W : World) (R : registrar S) (s : S) (A : assertion_args) (e : libexn),
  out_result (run R s (handle_credential_assertion W A)) = Raise (Lib e) ->
  In e check_errors ->
  Violation W R s A e.
Proof. exact (@c13). Qed.
Print Assumptions C13_error_accuracy.

Example hyp_error :
  out_result (run mem_registrar (ex_store (Some 9%Z))
                  (handle_credential_assertion ex_world (ex_auth 5)))
  = Raise (Lib SignatureCountError) /\ In SignatureCountError check_errors.
Proof. split; [vm_compute; reflexivity|cbn; tauto]. Qed.
