(** * App: the example application, /repo/examples/flask/app.py.

    The data base is three tables.  Flask-SQLAlchemy and SQLite are modelled as far as
    used: exact-match queries, primary keys and unique columns checked at commit
    (IntegrityError, nothing written), integer primary keys counting upwards, one
    session per request.  Requests are handled one after the other (interleavings of the
    backend's calls are the subject of C17).  Not modelled: HTTP, templates, the text of JSON answers
    (the value given to json.dumps is kept instead), column sizes (SQLite ignores them). *)
From Coq Require Import List NArith ZArith Bool String.
From Verif Require Import Base PyVal B64 Utf8 Url CaseConv Cbor Types World Parsers Crypto
  Backends Jsonify Builders.
Import ListNotations.
Local Open Scope res_scope.
Local Open Scope list_scope.

(** ** Tables *)

(** User, app.py:36-43. *)
Record user_row := { ur_id : N; ur_username : pystr; ur_handle : bytes }.
(** Credential, app.py:50-54. *)
Record cred_row := { kr_id : bytes; kr_count : option Z; kr_key : bytes; kr_user : N }.
(** Challenge, app.py:57-61. *)
Record chal_row := { hr_id : N; hr_request : bytes; hr_timestamp : Z; hr_user : N }.
Record database := {
  db_users : list user_row; db_creds : list cred_row; db_chals : list chal_row }.
(** db.create_all() on a new file, app.py:327. *)
Definition empty_db : database := {| db_users := []; db_creds := []; db_chals := [] |}.

(** [query.filter_by(...).first()] *)
Definition user_by_name (n : pystr) (d : database) : option user_row :=
  find (fun u => str_eqb (ur_username u) n) (db_users d).
(** User.by_user_handle, app.py:45-47. *)
Definition user_by_handle (h : bytes) (d : database) : option user_row :=
  find (fun u => bytes_eqb (ur_handle u) h) (db_users d).
(** The relationship attribute [credential_model.user], app.py:40-41. *)
Definition user_by_id (i : N) (d : database) : option user_row :=
  find (fun u => N.eqb (ur_id u) i) (db_users d).
Definition cred_by_id (i : bytes) (d : database) : option cred_row :=
  find (fun c => bytes_eqb (kr_id c) i) (db_creds d).
Definition chal_by_id (i : N) (d : database) : option chal_row :=
  find (fun h => N.eqb (hr_id h) i) (db_chals d).

(** The integer primary key SQLite gives to a new row. *)
Definition next_id (l : list N) : N := N.succ (fold_right N.max 0%N l).

(** INSERT INTO user; both columns are unique. *)
Definition insert_user (name : pystr) (handle : bytes) (d : database)
  : res (user_row * database) :=
  if existsb (fun u => str_eqb (ur_username u) name || bytes_eqb (ur_handle u) handle)
             (db_users d)
  then Raise (Py EIntegrityError)
  else let u := {| ur_id := next_id (map ur_id (db_users d)); ur_username := name;
                   ur_handle := handle |} in
       Ok (u, {| db_users := db_users d ++ [u]; db_creds := db_creds d;
                 db_chals := db_chals d |}).
(** INSERT INTO credential; the id is the primary key. *)
Definition insert_cred (c : cred_row) (d : database) : res database :=
  if existsb (fun r => bytes_eqb (kr_id r) (kr_id c)) (db_creds d)
  then Raise (Py EIntegrityError)
  else Ok {| db_users := db_users d; db_creds := db_creds d ++ [c]; db_chals := db_chals d |}.
(** INSERT INTO challenge; [request] is unique. *)
Definition insert_chal (bytes_ : bytes) (ts : Z) (user : N) (d : database)
  : res (chal_row * database) :=
  if existsb (fun h => bytes_eqb (hr_request h) bytes_) (db_chals d)
  then Raise (Py EIntegrityError)
  else let h := {| hr_id := next_id (map hr_id (db_chals d)); hr_request := bytes_;
                   hr_timestamp := ts; hr_user := user |} in
       Ok (h, {| db_users := db_users d; db_creds := db_creds d;
                 db_chals := db_chals d ++ [h] |}).
(** UPDATE credential SET signature_count = n WHERE id = i *)
Definition set_count (i : bytes) (n : Z) (d : database) : database :=
  {| db_users := db_users d;
     db_creds := map (fun c => if bytes_eqb (kr_id c) i
                               then {| kr_id := kr_id c; kr_count := Some n;
                                       kr_key := kr_key c; kr_user := kr_user c |}
                               else c) (db_creds d);
     db_chals := db_chals d |}.

(** ** The registrar *)

(** cose_key, /repo/webauthn_rp/converters.py:178-223: cbor2.dumps of the dictionary.
    [cbor_dumps] is undefined only for values no key contains; singledispatch on [None]
    ends in the default implementation. *)
Definition cose_key (k : option pubkey) : res bytes :=
  match k with
  | None => raise UnimplementedError
  | Some k =>
      d <- cose_dictionary k ;;
      match cbor_dumps (VDict d) with
      | Some b => Ok b
      | None => Raise (Py EValueError)
      end
  end.

Section WithWorld.
Variable W : World.

(** RegistrarImpl.get_credential_data, app.py:108-120. *)
Definition app_get (d : database) (id : bytes) : res (option cred_data) :=
  match cred_by_id id d with
  | None => Ok None
  | Some row =>
      k <- parse_cose_key_bytes W (kr_key row) ;;
      match user_by_id (kr_user row) d with
      | None => Raise (Py EAttributeError)
      | Some u =>
          Ok (Some {| cdt_key := k; cdt_sign_count := kr_count row;
                      cdt_user := {| us_name := ur_username u; us_icon := None;
                                     us_id := ur_handle u;
                                     us_display_name := ur_username u |};
                      cdt_rp := None |})
      end
  end.

(** RegistrarImpl.register_credential_assertion, app.py:99-106. *)
Definition app_assert (d : database) (c : credential) (ad : auth_data)
  : database * reg_answer :=
  match cred_by_id (cr_raw_id c) d with
  | None => (d, Raise (Py EAttributeError))
  | Some _ => (set_count (cr_raw_id c) (Z.of_N (ad_sign_count ad)) d, Ok None)
  end.

(** RegistrarImpl.register_credential_attestation, app.py:75-97. *)
Definition app_attest (d : database) (c : credential) (att : att_obj) (u : user_entity)
  : database * reg_answer :=
  match ao_auth_data att with
  | None => (d, Raise (Py EAssertionError))
  | Some ad =>
      match ad_attested ad with
      | None => (d, Raise (Py EAssertionError))
      | Some acd =>
          match user_by_handle (us_id u) d with
          | None => (d, Ok (Some (VStr (lit "No user found"))))
          | Some row =>
              match cose_key (at_key acd) with
              | Raise e => (d, Raise e)
              | Ok kb =>
                  match insert_cred {| kr_id := cr_raw_id c; kr_count := None; kr_key := kb;
                                       kr_user := ur_id row |} d with
                  | Raise e => (d, Raise e)
                  | Ok d' => (d', Ok None)
                  end
              end
          end
      end
  end.

(** RegistrarImpl, app.py:73-120. *)
Definition app_registrar : registrar database := {|
  r_get d id := (d, app_get d id);
  r_assert d c ad _ _ := app_assert d c ad;
  r_attest d c att _ u _ _ := app_attest d c att u;
|}.

(** ** Configuration, app.py:125-144 *)

(** app.py:125-142; members not given have the defaults of the builders. *)
Definition APP_ORIGIN : pystr := lit "http://localhost:5000".
Definition APP_TIMEOUT : Z := 60000.
Definition APP_RELYING_PARTY : rp_entity :=
  {| rp_name := lit "localhost"; rp_icon := None; rp_id := lit "localhost" |}.
Definition APP_CCO_BUILDER : creation_builder :=
  {| cb_rp := Some APP_RELYING_PARTY; cb_pub_key_cred_params := Some [(FValue, ES256)];
     cb_timeout := Some APP_TIMEOUT; cb_authenticator_selection := None;
     cb_extensions := None; cb_attestation := Some AC_NONE;
     cb_exclude_credentials := None |}.
Definition APP_CRO_BUILDER : request_builder :=
  {| rb_mediation := Some MD_OPTIONAL; rb_timeout := Some APP_TIMEOUT;
     rb_rp_id := Some (rp_id APP_RELYING_PARTY); rb_extensions := None;
     rb_user_verification := Some UV_PREFERRED |}.

(** ** Requests *)

(** The form of a POST request; [None]: the field is missing. *)
Inductive request :=
| RegistrationRequest (username : option pystr)
| RegistrationResponse (challengeID cred username : option pystr)
| AuthenticationRequest (username : option pystr)
| AuthenticationResponse (challengeID cred username : option pystr).

(** What the handler obtains from secrets.token_bytes (a user handle and a challenge) and
    from the clock, app.py:67-68, 157, 165, 247. *)
Record chance := { ch_handle : bytes; ch_challenge : bytes; ch_clock : Z }.

(** The answer: options with their challenge id (status 200), a status with a text, or an
    uncaught exception (Flask answers 500). *)
Inductive reply :=
| Options (challengeID : N) (options : pyval)
| Reply (status : N) (text : string)
| ServerError (e : exn).

(** The interpreter: [ap_unicode], [ap_depth] for jsonify; [ap_int], the number SQLite
    takes a text for when comparing it with an integer column. *)
Record appenv := { ap_unicode : unicode; ap_depth : nat; ap_int : pystr -> option N }.
Variable E : appenv.

(** app.py:117-120, 175-177, 217-219, 301-303. *)
Definition app_user (name : pystr) (handle : bytes) : user_entity :=
  {| us_name := name; us_icon := None; us_id := handle; us_display_name := name |}.

(** The end of both request handlers: the JSON form of the options.  The rows are
    committed already when this fails. *)
Definition send_options (h : chal_row) (o : res pobj) : reply :=
  match o with
  | Raise e => ServerError e
  | Ok o => match jsonify (ap_unicode E) (ap_depth E) true o with
            | Raise e => ServerError e
            | Ok v => Options (hr_id h) v
            end
  end.

(** registration_request, app.py:149-189. *)
Definition registration_request (c : chance) (username : option pystr) (d : database)
  : reply * database :=
  match username with
  | None => (Reply 400 "Bad Request", d)
  | Some name =>
      match match user_by_name name d with
            | Some u => Ok (u, d)
            | None => insert_user name (ch_handle c) d
            end with
      | Raise e => (ServerError e, d)
      | Ok (u, d1) =>
          match insert_chal (ch_challenge c) (ch_clock c) (ur_id u) d1 with
          | Raise e => (ServerError e, d1)
          | Ok (h, d2) =>
              (send_options h
                 (o <- creation_build APP_CCO_BUILDER (app_user name (ur_handle u))
                         (ch_challenge c) ;;
                  Ok (obj_of_creation o)), d2)
          end
      end
  end.

(** authentication_request, app.py:234-273.  [all()] returns a list, so the test for None
    (244-245) never succeeds. *)
Definition authentication_request (c : chance) (username : option pystr) (d : database)
  : reply * database :=
  match username with
  | None => (Reply 400 "Bad Request", d)
  | Some name =>
      match user_by_name name d with
      | None => (Reply 400 "User not registered", d)
      | Some u =>
          let creds := filter (fun k => N.eqb (kr_user k) (ur_id u)) (db_creds d) in
          match insert_chal (ch_challenge c) (ch_clock c) (ur_id u) d with
          | Raise e => (ServerError e, d)
          | Ok (h, d2) =>
              (send_options h
                 (o <- request_build APP_CRO_BUILDER (ch_challenge c)
                         (Some (map (fun k => {| de_id := kr_id k; de_transports := None |})
                                    creds)) ;;
                  Ok (obj_of_request o)), d2)
          end
      end
  end.

(** The try block of both response handlers, app.py:194-200 and 278-284. *)
Definition parse_form (challengeID cred username : option pystr)
  : option (pystr * credential * pystr) :=
  match challengeID, cred, username with
  | Some i, Some t, Some n =>
      match w_json_loads W t with
      | WOk (VDict m) =>
          match parse_public_key_credential W m with
          | Ok c => Some (i, c, n)
          | Raise _ => None
          end
      | _ => None
      end
  | _, _, _ => None
  end.

(** Lines 205-219 and 289-303, common to both response handlers: the challenge row, the
    user row and the timeout. *)
Definition find_ceremony (clock : Z) (i : pystr) (name : pystr) (d : database)
  : reply + (chal_row * user_row) :=
  match match ap_int E i with Some n => chal_by_id n d | None => None end with
  | None => inl (Reply 400 "Could not find challenge matching given id")
  | Some h =>
      match user_by_name name d with
      | None => inl (Reply 400 "Invalid username")
      | Some u =>
          if Z.ltb APP_TIMEOUT (clock - hr_timestamp h) then inl (Reply 408 "Timeout")
          else inr (h, u)
      end
  end.

(** The arguments of the calls of the backend, app.py:222-227 and 306-311. *)
Definition app_attestation (cr : credential) (name : pystr) (u : user_row) (h : chal_row)
  : attestation_args :=
  {| ra_credential := cr; ra_user := app_user name (ur_handle u); ra_rp := APP_RELYING_PARTY;
     ra_challenge := hr_request h; ra_origin := OneOrigin APP_ORIGIN;
     ra_token_binding := None; ra_require_uv := false; ra_extensions := None |}.
Definition app_assertion (cr : credential) (name : pystr) (u : user_row) (h : chal_row)
  : assertion_args :=
  {| aa_credential := cr; aa_challenge := hr_request h; aa_origin := OneOrigin APP_ORIGIN;
     aa_rp := Some APP_RELYING_PARTY; aa_user := Some (app_user name (ur_handle u));
     aa_allow := None; aa_token_binding := None; aa_require_uv := false;
     aa_extensions := None; aa_ignore_clone := false |}.

(** except WebAuthnRPError, app.py:228-231 and 312-315. *)
Definition conclude (failure : string) (r : res unit) : reply :=
  match r with
  | Ok tt => Reply 200 "Success"
  | Raise e => if is_lib WebAuthnRPError e then Reply 400 failure else ServerError e
  end.

(** registration_response, app.py:192-231. *)
Definition registration_response (c : chance) (challengeID cred username : option pystr)
           (d : database) : reply * database :=
  match parse_form challengeID cred username with
  | None => (Reply 400 "Could not parse input data", d)
  | Some (i, cr, name) =>
      match cr_response cr with
      | AssertionResponse _ _ _ _ => (Reply 400 "Invalid response type", d)
      | AttestationResponse _ _ =>
          match find_ceremony (ch_clock c) i name d with
          | inl r => (r, d)
          | inr (h, u) =>
              let o := run app_registrar d
                         (handle_credential_attestation W (app_attestation cr name u h)) in
              (conclude "Could not handle credential attestation" (out_result o), out_state o)
          end
      end
  end.

(** authentication_response, app.py:276-315. *)
Definition authentication_response (c : chance) (challengeID cred username : option pystr)
           (d : database) : reply * database :=
  match parse_form challengeID cred username with
  | None => (Reply 400 "Could not parse input data", d)
  | Some (i, cr, name) =>
      match cr_response cr with
      | AttestationResponse _ _ => (Reply 400 "Invalid response type", d)
      | AssertionResponse _ _ _ _ =>
          match find_ceremony (ch_clock c) i name d with
          | inl r => (r, d)
          | inr (h, u) =>
              let o := run app_registrar d
                         (handle_credential_assertion W (app_assertion cr name u h)) in
              (conclude "Could not handle credential assertion" (out_result o), out_state o)
          end
      end
  end.

(** One request. *)
Definition serve (d : database) (x : chance * request) : reply * database :=
  match snd x with
  | RegistrationRequest n => registration_request (fst x) n d
  | RegistrationResponse i k n => registration_response (fst x) i k n d
  | AuthenticationRequest n => authentication_request (fst x) n d
  | AuthenticationResponse i k n => authentication_response (fst x) i k n d
  end.

(** A history of requests: the replies and the final data base. *)
Fixpoint serve_all (d : database) (l : list (chance * request))
  : list reply * database :=
  match l with
  | [] => ([], d)
  | x :: t => let '(r, d1) := serve d x in
              let '(rs, d2) := serve_all d1 t in (r :: rs, d2)
  end.

End WithWorld.
