(** * AppConc: the example application with requests in flight at the same time.

    /repo/examples/flask/app.py:325-328 starts Flask's own server, which runs every request
    in a thread of its own.  A handler is here the sequence of its SQL statements; each
    statement is atomic (SQLite locks the file), and statements of different requests
    interleave in any order.  Each thread has its own session, so what a handler has read
    stays as it was until the session commits.  After a commit SQLAlchemy reads an object
    again when one of its attributes is used ([reload]).  Any statement may fail, as it does
    with "database is locked" when a thread waits longer than five seconds.  [App.v] has the
    same handlers with nothing in between and no failures. *)
From Coq Require Import List NArith ZArith Bool String.
From Verif Require Import Base PyVal Types World Parsers Crypto Backends Jsonify Builders App.
Import ListNotations.
Local Open Scope res_scope.
Local Open Scope list_scope.

(** The rest of a handler: its answer, or one SQL statement with what follows if it is
    executed, [f], and what follows if it raises OperationalError, [g]; then nothing is
    written, because a session that is not committed is rolled back. *)
Inductive thread :=
| Answered (r : reply)
| Statement (f : database -> thread * database) (g : thread).

(** Outside of the backend the exception ends the handler (Flask answers 500). *)
Definition broken : thread := Answered (ServerError (Py EOperationalError)).

(** A row is read again by its primary key, to give [t] what is known already: rows are not
    deleted, and ids, handles and challenges do not change ([C73_rows_kept]). *)
Definition reload (t : thread) : thread := Statement (fun d => (t, d)) broken.
Fixpoint reloads (n : nat) (t : thread) : thread :=
  match n with O => t | S m => reload (reloads m t) end.

Section WithWorld.
Variable W : World.
Variable E : appenv.

(** A call of the backend; [fin] makes the answer of its result.  Registrar calls are the
    statements of RegistrarImpl, app.py:74-120. *)
Fixpoint statements (fin : res unit -> reply) (p : prog) : thread :=
  match p with
  | Done r => Answered (fin r)
  (* app.py:108-120: the credential, then its user *)
  | CallGet id k =>
      let g := statements fin (k (Raise (Py EOperationalError))) in
      Statement (fun d =>
        match cred_by_id id d with
        | None => (statements fin (k (Ok None)), d)
        | Some row =>
            match parse_cose_key_bytes W (kr_key row) with
            | Raise e => (statements fin (k (Raise e)), d)
            | Ok key =>
                (Statement (fun d =>
                   match user_by_id (kr_user row) d with
                   | None => (statements fin (k (Raise (Py EAttributeError))), d)
                   | Some u =>
                       (statements fin (k (Ok (Some
                          {| cdt_key := key; cdt_sign_count := kr_count row;
                             cdt_user := {| us_name := ur_username u; us_icon := None;
                                            us_id := ur_handle u;
                                            us_display_name := ur_username u |};
                             cdt_rp := None |}))), d)
                   end) g, d)
            end
        end) g
  (* app.py:99-106: the credential, then the update *)
  | CallAssert c ad _ _ k =>
      let g := statements fin (k (Raise (Py EOperationalError))) in
      Statement (fun d =>
        match cred_by_id (cr_raw_id c) d with
        | None => (statements fin (k (Raise (Py EAttributeError))), d)
        | Some _ =>
            (Statement (fun d => (statements fin (k (Ok None)),
               set_count (cr_raw_id c) (Z.of_N (ad_sign_count ad)) d)) g, d)
        end) g
  (* app.py:75-97: the user, then the insertion *)
  | CallAttest c att _ u _ _ k =>
      match ao_auth_data att with
      | None => statements fin (k (Raise (Py EAssertionError)))
      | Some ad =>
          match ad_attested ad with
          | None => statements fin (k (Raise (Py EAssertionError)))
          | Some acd =>
              let g := statements fin (k (Raise (Py EOperationalError))) in
              Statement (fun d =>
                match user_by_handle (us_id u) d with
                | None => (statements fin (k (Ok (Some (VStr (lit "No user found"))))), d)
                | Some row =>
                    match cose_key (at_key acd) with
                    | Raise e => (statements fin (k (Raise e)), d)
                    | Ok kb =>
                        (Statement (fun d =>
                           match insert_cred {| kr_id := cr_raw_id c; kr_count := None;
                                                kr_key := kb; kr_user := ur_id row |} d with
                           | Raise e => (statements fin (k (Raise e)), d)
                           | Ok d' => (statements fin (k (Ok None)), d')
                           end) g, d)
                    end
                end) g
          end
      end
  end.

(** The new challenge and the options, app.py:165-189 and 247-273.  [n] credentials, whose
    ids go into the options, are read again (260), and so is the challenge for its number
    (183, 267). *)
Definition issue (c : chance) (user : N) (n : nat) (o : res pobj) : thread :=
  Statement (fun d =>
    match insert_chal (ch_challenge c) (ch_clock c) user d with
    | Raise e => (Answered (ServerError e), d)
    | Ok (h, d') => (reloads n (reload (Answered (send_options E h o))), d')
    end) broken.

(** registration_request, app.py:149-189; a new user is read again for its number (169). *)
Definition t_registration_request (c : chance) (username : option pystr) : thread :=
  match username with
  | None => Answered (Reply 400 "Bad Request")
  | Some name =>
      let go (u : user_row) :=
        issue c (ur_id u) 0
          (o <- creation_build APP_CCO_BUILDER (app_user name (ur_handle u)) (ch_challenge c) ;;
           Ok (obj_of_creation o)) in
      Statement (fun d =>
        match user_by_name name d with
        | Some u => (go u, d)
        | None =>
            (Statement (fun d =>
               match insert_user name (ch_handle c) d with
               | Raise e => (Answered (ServerError e), d)
               | Ok (u, d') => (reload (go u), d')
               end) broken, d)
        end) broken
  end.

(** authentication_request, app.py:234-273. *)
Definition t_authentication_request (c : chance) (username : option pystr) : thread :=
  match username with
  | None => Answered (Reply 400 "Bad Request")
  | Some name =>
      Statement (fun d =>
        match user_by_name name d with
        | None => (Answered (Reply 400 "User not registered"), d)
        | Some u =>
            (Statement (fun d =>
               let creds := filter (fun k => N.eqb (kr_user k) (ur_id u)) (db_creds d) in
               (issue c (ur_id u) (List.length creds)
                  (o <- request_build APP_CRO_BUILDER (ch_challenge c)
                          (Some (map (fun k => {| de_id := kr_id k; de_transports := None |})
                                     creds)) ;;
                   Ok (obj_of_request o)), d)) broken, d)
        end) broken
  end.

(** Lines 205-219 and 289-303: the challenge, the user and the timeout; then [go]. *)
Definition t_ceremony (clock : Z) (i name : pystr) (go : chal_row -> user_row -> thread)
  : thread :=
  Statement (fun d =>
    match match ap_int E i with Some n => chal_by_id n d | None => None end with
    | None => (Answered (Reply 400 "Could not find challenge matching given id"), d)
    | Some h =>
        (Statement (fun d =>
           match user_by_name name d with
           | None => (Answered (Reply 400 "Invalid username"), d)
           | Some u =>
               (if Z.ltb APP_TIMEOUT (clock - hr_timestamp h)
                then Answered (Reply 408 "Timeout") else go h u, d)
           end) broken, d)
    end) broken.

(** registration_response, app.py:192-231. *)
Definition t_registration_response (c : chance) (challengeID cred username : option pystr)
  : thread :=
  match parse_form W challengeID cred username with
  | None => Answered (Reply 400 "Could not parse input data")
  | Some (i, cr, name) =>
      match cr_response cr with
      | AssertionResponse _ _ _ _ => Answered (Reply 400 "Invalid response type")
      | AttestationResponse _ _ =>
          t_ceremony (ch_clock c) i name (fun h u =>
            statements (conclude "Could not handle credential attestation")
              (handle_credential_attestation W (app_attestation cr name u h)))
      end
  end.

(** authentication_response, app.py:276-315. *)
Definition t_authentication_response (c : chance) (challengeID cred username : option pystr)
  : thread :=
  match parse_form W challengeID cred username with
  | None => Answered (Reply 400 "Could not parse input data")
  | Some (i, cr, name) =>
      match cr_response cr with
      | AttestationResponse _ _ => Answered (Reply 400 "Invalid response type")
      | AssertionResponse _ _ _ _ =>
          t_ceremony (ch_clock c) i name (fun h u =>
            statements (conclude "Could not handle credential assertion")
              (handle_credential_assertion W (app_assertion cr name u h)))
      end
  end.

(** The handler of a request, app.py:149-315. *)
Definition handle (x : chance * request) : thread :=
  match snd x with
  | RegistrationRequest n => t_registration_request (fst x) n
  | RegistrationResponse i k n => t_registration_response (fst x) i k n
  | AuthenticationRequest n => t_authentication_request (fst x) n
  | AuthenticationResponse i k n => t_authentication_response (fst x) i k n
  end.

(** ** The server *)

(** The data base and the requests that have arrived, oldest first, each with the rest of
    its handler. *)
Record server := { sv_db : database; sv_threads : list (chance * request * thread) }.
Definition new_server : server := {| sv_db := empty_db; sv_threads := [] |}.

(** A request arrives, request number [i] executes its next statement, or that statement
    fails. *)
Inductive sv_event := Arrive (x : chance * request) | Proceed (i : nat) | Fail (i : nat).

(** [l[i] = a]. *)
Fixpoint replace {A} (l : list A) (i : nat) (a : A) : list A :=
  match l, i with
  | [], _ => []
  | _ :: t, O => a :: t
  | x :: t, S j => x :: replace t j a
  end.

(** One event of the server. *)
Definition happen (s : server) (e : sv_event) : server :=
  match e with
  | Arrive x => {| sv_db := sv_db s; sv_threads := sv_threads s ++ [(x, handle x)] |}
  | Proceed i =>
      match nth_error (sv_threads s) i with
      | Some (x, Statement f _) =>
          let '(t, d) := f (sv_db s) in
          {| sv_db := d; sv_threads := replace (sv_threads s) i (x, t) |}
      | _ => s
      end
  | Fail i =>
      match nth_error (sv_threads s) i with
      | Some (x, Statement _ g) =>
          {| sv_db := sv_db s; sv_threads := replace (sv_threads s) i (x, g) |}
      | _ => s
      end
  end.

(** Events in their order. *)
Definition happen_all (s : server) (l : list sv_event) : server := fold_left happen l s.

End WithWorld.
