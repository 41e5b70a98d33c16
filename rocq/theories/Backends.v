(** * Backends: /repo/webauthn_rp/backends.py.

    Handlers are programs that may call the registrar
    (/repo/webauthn_rp/registrars.py:37-120).  The registrar is arbitrary: it may
    keep any state, return anything and raise any exception. *)
From Coq Require Import List NArith ZArith Bool String.
From Verif Require Import Base PyVal B64 Utf8 Url Types World Parsers Crypto.
Import ListNotations.
Local Open Scope res_scope.
Local Open Scope list_scope.

(** CredentialData, registrars.py:16-34. *)
Record cred_data := {
  cdt_key : pubkey;
  cdt_sign_count : option Z;
  cdt_user : user_entity;
  cdt_rp : option rp_entity;
}.

(** What a registrar call may answer.  For the [register_*] methods: [None] for
    success, [Some v] for any other returned value [v]. *)
Definition reg_answer := res (option pyval).

(** A handler run: registrar calls in order, then the result. *)
Inductive prog :=
| Done (r : res unit)
| CallGet (cid : bytes) (k : res (option cred_data) -> prog)
| CallAssert (c : credential) (ad : auth_data) (u : user_entity) (rp : rp_entity)
             (k : reg_answer -> prog)
| CallAttest (c : credential) (att : att_obj) (ty : att_type) (u : user_entity)
             (rp : rp_entity) (path : option (list cert)) (k : reg_answer -> prog).

(** [expected_origin]: a string or a collection of strings. *)
Inductive expected_origin := OneOrigin (s : pystr) | ManyOrigins (l : list pystr).

(** A token binding supplied by the caller: status and Optional[str] id. *)
Record expected_tb := { etb_status : tb_status; etb_id : option pystr }.

(** [token_binding.id != client.token_binding.id] compares with the client's JSON
    value. *)
Definition tb_id_val (o : option pystr) : pyval :=
  match o with Some s => VStr s | None => VNone end.

Section WithWorld.
Variable W : World.

(** _extract_allowed_origins, backends.py:61-73. *)
Fixpoint parse_origins (l : list pystr) : res (list origin) :=
  match l with
  | [] => Ok []
  | s :: t => o <- parse_origin (w_url W) s ;; r <- parse_origins t ;; Ok (o :: r)
  end.
Definition extract_allowed_origins (e : expected_origin) : res (list origin) :=
  match e with
  | OneOrigin s => o <- parse_origin (w_url W) s ;; Ok [o]
  | ManyOrigins [] => raise OriginError
  | ManyOrigins l => parse_origins l
  end.

(** Challenge comparison, backends.py:134-142 and 366-374. *)
Definition check_challenge (expected : bytes) (cd : client_data) : res unit :=
  catch (c <- url_base64_decode (cd_challenge cd) ;;
         check (bytes_eqb c expected) (Lib ChallengeError))
        is_ValueError (Lib DecodingError).

(** Origin membership, backends.py:144-148 and 376-380. *)
Definition check_origin (allowed : list origin) (cd : client_data) : res unit :=
  o <- parse_origin (w_url W) (cd_origin cd) ;;
  check (existsb (origin_eqb o) allowed) (Lib OriginError).

(** Token binding, backends.py:150-170 and 382-402. *)
Definition check_token_binding (expected : option expected_tb) (cd : client_data)
  : res unit :=
  match expected with
  | Some e =>
      match cd_token_binding cd with
      | None => raise TokenBindingError
      | Some c =>
          check (tb_status_eqb (etb_status e) (tb_status_ c)) (Lib TokenBindingError) ;;;
          check (py_eq (tb_id_val (etb_id e)) (tb_id c)) (Lib TokenBindingError)
      end
  | None => check (negb (is_some (cd_token_binding cd))) (Lib TokenBindingError)
  end.

(** RP ID hash, flags and extensions, backends.py:178-198 and 409-425. *)
Fixpoint check_extensions (x : option ext_outputs) (l : list ext_id) : res unit :=
  match l with
  | [] => Ok tt
  | e :: t => check (has_nonnull_attr x (ext_key e)) (Lib ExtensionError) ;;;
              check_extensions x t
  end.
Definition check_auth_data (rp_id_hash : bytes) (require_uv : bool)
           (expected_ext : option (list ext_id)) (ad : auth_data) : res unit :=
  check (bytes_eqb (ad_rp_id_hash ad) rp_id_hash) (Lib RPIDHashError) ;;;
  check (has_flag FLAG_UP (ad_flags ad)) (Lib UserPresenceError) ;;;
  check (negb require_uv || has_flag FLAG_UV (ad_flags ad)) (Lib UserVerificationError) ;;;
  match expected_ext with
  | None => Ok tt
  | Some l => check_extensions (ad_extensions ad) l
  end.

(** The outermost handlers, backends.py:226-230 and 453-457. *)
Definition wrap (r : res unit) : res unit :=
  match r with
  | Ok u => Ok u
  | Raise e => if is_lib WebAuthnRPError e then Raise e
               else if is_Exception e then raise InternalError else Raise e
  end.

(** [credential.response.client_data_JSON]: both response classes have it. *)
Definition resp_client_data_JSON (r : response) : bytes :=
  match r with AttestationResponse c _ => c | AssertionResponse c _ _ _ => c end.
(** Attributes of one class only. *)
Definition resp_attestation_object (r : response) : res bytes :=
  match r with AttestationResponse _ a => Ok a
          | AssertionResponse _ _ _ _ => Raise (Py EAttributeError) end.
Definition resp_user_handle (r : response) : res (option bytes) :=
  match r with AssertionResponse _ _ _ u => Ok u
          | AttestationResponse _ _ => Raise (Py EAttributeError) end.
Definition resp_authenticator_data (r : response) : res bytes :=
  match r with AssertionResponse _ a _ _ => Ok a
          | AttestationResponse _ _ => Raise (Py EAttributeError) end.
Definition resp_signature (r : response) : res bytes :=
  match r with AssertionResponse _ _ s _ => Ok s
          | AttestationResponse _ _ => Raise (Py EAttributeError) end.

(** ** handle_credential_attestation, backends.py:75-230 *)

(** The arguments, backends.py:75-86. *)
Record attestation_args := {
  ra_credential : credential;
  ra_user : user_entity;
  ra_rp : rp_entity;
  ra_challenge : bytes;
  ra_origin : expected_origin;
  ra_token_binding : option expected_tb;
  ra_require_uv : bool;
  ra_extensions : option (list ext_id);
}.

(** The call of attest in lines 203-206, given the attestation object, its attested data, the
    raw authenticator data and the hash: a parameter, because attest is a generic function
    (functools.singledispatch, attesters.py:37) to which applications can add attesters. *)
Definition attest_call := att_obj -> attested -> bytes -> bytes -> res (att_type * option (list cert)).

(** Lines 123-206: everything before the registrar call. *)
Definition attestation_checks_with (call : attest_call) (A : attestation_args)
  : res (att_obj * (att_type * option (list cert))) :=
  allowed <- extract_allowed_origins (ra_origin A) ;;
  let resp := cr_response (ra_credential A) in
  cd <- parse_client_data W (resp_client_data_JSON resp) ;;
  check (str_eqb (cd_type cd) (lit "webauthn.create")) (Lib ClientDataTypeError) ;;;
  check_challenge (ra_challenge A) cd ;;;
  check_origin allowed cd ;;;
  check_token_binding (ra_token_binding A) cd ;;;
  let cdj_hash := w_sha256 W (resp_client_data_JSON resp) in
  rp_bytes <- utf8_encode (rp_id (ra_rp A)) ;;
  let rp_id_hash := w_sha256 W rp_bytes in
  aob <- resp_attestation_object resp ;;
  '(att, raw) <- parse_attestation_object W aob ;;
  ad <- match ao_auth_data att with
        | Some ad => Ok ad
        | None => Raise (Py EAttributeError) (* not reachable: the parser sets it *)
        end ;;
  check_auth_data rp_id_hash (ra_require_uv A) (ra_extensions A) ad ;;;
  acd <- assert_some (ad_attested ad) ;;
  raw_ad_v <- dict_index (skey "authData") raw ;;
  raw_ad <- as_bytes raw_ad_v ;;
  r <- call att acd raw_ad cdj_hash ;;
  Ok (att, r).

(** Lines 203-206 with the attesters of attesters.py: the second argument is the credential
    public key. *)
Definition call_attest : attest_call :=
  fun att acd raw_ad cdj_hash => attest W (ao_stmt att) (ArgKey (at_key acd)) raw_ad cdj_hash.
Definition attestation_checks : attestation_args -> res (att_obj * (att_type * option (list cert))) :=
  attestation_checks_with call_attest.

(** What becomes of an exception that the registrar raises, lines 217-220, 323-326, 445-447; it
    is ValueError when making the message fails. *)
Definition refusal (e : exn) : exn :=
  if is_Exception e then if shows_exn W e then Lib RegistrationError else Py EValueError else e.
(** Lines 208-225: interpretation of the registrar's answer. *)
Definition answer_result (a : reg_answer) : res unit :=
  match a with
  | Raise e => Raise (refusal e)
  | Ok None => Ok tt
  | Ok (Some v) => if shows W v then raise RegistrationError else Raise (Py EValueError)
  end.

(** backends.py:122-230: after the checks the registrar is called and its answer examined; the whole is in a try
    statement. *)
Definition handle_credential_attestation_with (call : attest_call) (A : attestation_args) : prog :=
  match attestation_checks_with call A with
  | Raise e => Done (wrap (Raise e))
  | Ok (att, (ty, path)) =>
      CallAttest (ra_credential A) att ty (ra_user A) (ra_rp A) path
        (fun a => Done (wrap (answer_result a)))
  end.
(** With the call of attest as it is in the code. *)
Definition handle_credential_attestation : attestation_args -> prog :=
  handle_credential_attestation_with call_attest.

(** ** handle_credential_assertion, backends.py:232-457 *)

(** The arguments, backends.py:232-245. *)
Record assertion_args := {
  aa_credential : credential;
  aa_challenge : bytes;
  aa_origin : expected_origin;
  aa_rp : option rp_entity;
  aa_user : option user_entity;
  aa_allow : option (list descriptor);
  aa_token_binding : option expected_tb;
  aa_require_uv : bool;
  aa_extensions : option (list ext_id);
  aa_ignore_clone : bool;
}.

(** Lines 305-318: before get_credential_data. *)
Definition assertion_pre (A : assertion_args) : res (list origin) :=
  allowed <- extract_allowed_origins (aa_origin A) ;;
  match aa_allow A with
  | None => Ok tt
  | Some l => check (existsb (fun d => bytes_eqb (de_id d) (cr_raw_id (aa_credential A))) l)
                    (Lib CredentialNotAllowedError)
  end ;;;
  Ok allowed.

(** Lines 331-345: the user. *)
Definition resolve_user (A : assertion_args) (cdt : cred_data) : res user_entity :=
  let resp := cr_response (aa_credential A) in
  let registered := cdt_user cdt in
  u <- match aa_user A with
       | Some u => check (bytes_eqb (us_id registered) (us_id u)) (Lib UserIDError) ;;;
                   Ok u
       | None => uh <- resp_user_handle resp ;;
                 check (is_some uh) (Lib UserHandleError) ;;;
                 Ok registered
       end ;;
  uh <- resp_user_handle resp ;;
  match uh with
  | None => Ok tt
  | Some h => check (bytes_eqb h (us_id u)) (Lib UserHandleError)
  end ;;;
  Ok u.

(** Lines 347-358: the relying party. *)
Definition resolve_rp (A : assertion_args) (cdt : cred_data) : res rp_entity :=
  match cdt_rp cdt, aa_rp A with
  | None, None => raise RPNotFoundError
  | None, Some r => Ok r
  | Some r, Some r' => check (str_eqb (rp_id r) (rp_id r')) (Lib RPIDError) ;;; Ok r'
  | Some r, None => Ok r
  end.

(** Lines 431-436: the signature counter. *)
Definition check_sign_count (A : assertion_args) (cdt : cred_data) (ad : auth_data)
  : res unit :=
  match cdt_sign_count cdt with
  | None => Ok tt
  | Some n => check (negb (Z.leb (Z.of_N (ad_sign_count ad)) n) || aa_ignore_clone A)
                    (Lib SignatureCountError)
  end.

(** Lines 331-436: between the two registrar calls. *)
Definition assertion_checks (A : assertion_args) (allowed : list origin)
           (cdt : cred_data) : res (auth_data * user_entity * rp_entity) :=
  let resp := cr_response (aa_credential A) in
  u <- resolve_user A cdt ;;
  rp <- resolve_rp A cdt ;;
  cd <- parse_client_data W (resp_client_data_JSON resp) ;;
  check (str_eqb (cd_type cd) (lit "webauthn.get")) (Lib ClientDataTypeError) ;;;
  check_challenge (aa_challenge A) cd ;;;
  check_origin allowed cd ;;;
  check_token_binding (aa_token_binding A) cd ;;;
  let cdj_hash := w_sha256 W (resp_client_data_JSON resp) in
  rp_bytes <- utf8_encode (rp_id rp) ;;
  let rp_id_hash := w_sha256 W rp_bytes in
  adb <- resp_authenticator_data resp ;;
  ad <- parse_authenticator_data W adb ;;
  check_auth_data rp_id_hash (aa_require_uv A) (aa_extensions A) ad ;;;
  sig <- resp_signature resp ;;
  verify W (cdt_key cdt) sig (adb ++ cdj_hash) ;;;
  check_sign_count A cdt ad ;;;
  Ok (ad, u, rp).

(** backends.py:304-457: the registrar is asked for the credential, then told of the login. *)
Definition handle_credential_assertion (A : assertion_args) : prog :=
  match assertion_pre A with
  | Raise e => Done (wrap (Raise e))
  | Ok allowed =>
      CallGet (cr_raw_id (aa_credential A)) (fun r =>
        match r with
        | Raise e => Done (wrap (Raise (refusal e)))
        | Ok None => Done (wrap (raise CredentialDataError))
        | Ok (Some cdt) =>
            match assertion_checks A allowed cdt with
            | Raise e => Done (wrap (Raise e))
            | Ok (ad, u, rp) =>
                CallAssert (aa_credential A) ad u rp
                  (fun a => Done (wrap (answer_result a)))
            end
        end)
  end.

End WithWorld.

(** ** Running a handler against a registrar *)

(** CredentialsRegistrar, registrars.py:36-119, as functions on a state of any type. *)
Record registrar (S : Type) := {
  r_get : S -> bytes -> S * res (option cred_data);
  r_assert : S -> credential -> auth_data -> user_entity -> rp_entity -> S * reg_answer;
  r_attest : S -> credential -> att_obj -> att_type -> user_entity -> rp_entity ->
             option (list cert) -> S * reg_answer;
}.
Arguments r_get {S}. Arguments r_assert {S}. Arguments r_attest {S}.

(** The calls a registrar observes. *)
Inductive event :=
| EvGet (cid : bytes)
| EvAssert (c : credential) (ad : auth_data) (u : user_entity) (rp : rp_entity)
| EvAttest (c : credential) (att : att_obj) (ty : att_type) (u : user_entity)
           (rp : rp_entity) (path : option (list cert)).

(** What a call leaves: the state of the registrar, the calls it got, the result. *)
Record outcome (S : Type) := { out_state : S; out_trace : list event; out_result : res unit }.
Arguments out_state {S}. Arguments out_trace {S}. Arguments out_result {S}.

(** The handler is run with this registrar. *)
Fixpoint run {S} (R : registrar S) (s : S) (p : prog) : outcome S :=
  match p with
  | Done r => {| out_state := s; out_trace := []; out_result := r |}
  | CallGet cid k =>
      let '(s', r) := r_get R s cid in
      let o := run R s' (k r) in
      {| out_state := out_state o; out_trace := EvGet cid :: out_trace o;
         out_result := out_result o |}
  | CallAssert c ad u rp k =>
      let '(s', r) := r_assert R s c ad u rp in
      let o := run R s' (k r) in
      {| out_state := out_state o; out_trace := EvAssert c ad u rp :: out_trace o;
         out_result := out_result o |}
  | CallAttest c att ty u rp path k =>
      let '(s', r) := r_attest R s c att ty u rp path in
      let o := run R s' (k r) in
      {| out_state := out_state o; out_trace := EvAttest c att ty u rp path :: out_trace o;
         out_result := out_result o |}
  end.
