(** * Properties C54 to C56 and C59 to C61: the example application. *)
From Coq Require Import List NArith ZArith Bool String.
From Verif Require Import Base PyVal B64 Utf8 Url CaseConv Cbor Types World Parsers Crypto
  Backends Spec Jsonify Builders OptionSpec BaseFacts Examples App AppSpec AppExamples AppTheorems.
Import ListNotations.
Local Open Scope list_scope.

(** C54: a stored credential stays, is the only one with its id, keeps its public key and its
    user, and its counter does not decrease. *)
Theorem C54_stable :
  forall (W : World) (E : appenv) (l1 l2 : list (chance * request)) (c : cred_row),
  In c (db_creds (after W E l1)) ->
  exists c', In c' (db_creds (after W E (l1 ++ l2))) /\
    kr_id c' = kr_id c /\ kr_key c' = kr_key c /\ kr_user c' = kr_user c /\
    count_le (kr_count c) (kr_count c') /\
    forall c'', In c'' (db_creds (after W E (l1 ++ l2))) -> kr_id c'' = kr_id c -> c'' = c'.
Proof. exact (@c54_stable). Qed.
Print Assumptions C54_stable.

(** C54: users stay as they are; so do challenges. *)
Theorem C54_users_stable :
  forall (W : World) (E : appenv) (l1 l2 : list (chance * request)),
  (forall u, In u (db_users (after W E l1)) -> In u (db_users (after W E (l1 ++ l2)))) /\
  (forall h, In h (db_chals (after W E l1)) -> In h (db_chals (after W E (l1 ++ l2)))) /\
  Consistent (after W E (l1 ++ l2)).
Proof. exact (@c54_users). Qed.
Print Assumptions C54_users_stable.

(** C54: every stored credential comes from an accepted registration for its user, with that
    id and that public key. *)
Theorem C54_provenance :
  forall (W : World) (E : appenv) (l : list (chance * request)) (c : cred_row) (u : user_row),
  In c (db_creds (after W E l)) -> In u (db_users (after W E l)) -> kr_user c = ur_id u ->
  exists k, RegisteredKey W E l (ur_username u) (kr_id c) k /\ cose_key (Some k) = Ok (kr_key c).
Proof. exact (@c54_provenance). Qed.
Print Assumptions C54_provenance.

(** C54: the stored counter is the one of the last accepted login with that credential. *)
Theorem C54_counter_exact :
  forall (W : World) (E : appenv) (l : list (chance * request)) (c : cred_row),
  In c (db_creds (after W E l)) ->
  kr_count c = option_map Z.of_N (last_counter W E (kr_id c) empty_db l).
Proof. exact (@c54_counter). Qed.
Print Assumptions C54_counter_exact.

(** The session of AppExamples: two registrations, two logins. *)
Example hyp_session :
  map (fun c => (kr_id c, kr_count c, kr_user c)) (db_creds (after ex_world ex_env session)) =
    [(blit "cred-1", Some 7%Z, 1%N); (blit "cred-2", Some 1%Z, 1%N)] /\
  map (fun c => (kr_id c, kr_count c)) (db_creds (after ex_world ex_env (firstn 3 session))) =
    [(blit "cred-1", None)] /\
  map ur_username (db_users (after ex_world ex_env session)) = [lit "alice"; lit "bob"] /\
  last_counter ex_world ex_env (blit "cred-1") empty_db session = Some 7%N.
Proof. vm_compute. repeat split; reflexivity. Qed.

(** C55: an accepted response names a challenge that was sent at most 60 s before, and its
    client data contain that challenge. *)
Theorem C55_challenge_fresh :
  forall (W : World) (E : appenv) (l : list (chance * request)) (x : chance * request)
  (i n : pystr) (cr : credential),
  converts E -> Registers W (snd x) i n cr \/ Authenticates W (snd x) i n cr ->
  answer W E l x = Success ->
  exists id n0 c t,
    ap_int E i = Some id /\ Issued W E l n0 c id t /\ (ch_clock (fst x) - t <= 60000)%Z /\
    Answers W cr c.
Proof. exact (@c55_fresh). Qed.
Print Assumptions C55_challenge_fresh.

(** C55: a response to a challenge sent more than 60 s before is refused, with no effect. *)
Theorem C55_expired :
  forall (W : World) (E : appenv) (l : list (chance * request)) (x : chance * request)
  (i n n0 : pystr) (c : bytes) (id : N) (t : Z) (cr : credential),
  Registers W (snd x) i n cr \/ Authenticates W (snd x) i n cr ->
  ap_int E i = Some id -> Issued W E l n0 c id t -> (60000 < ch_clock (fst x) - t)%Z ->
  (exists s text, answer W E l x = Reply s text /\ (s = 400 \/ s = 408)%N) /\
  after W E (l ++ [x]) = after W E l.
Proof. exact (@c55_expired). Qed.
Print Assumptions C55_expired.

(** Challenges 5 and 6 of the session: answered after 1000 and after 60001 ms. *)
Example hyp_timeout :
  answer ex_world ex_env (firstn 8 session) (do_auth "5" "alice" "challenge-5" "cred-2" 1 9000) = Success /\
  answer ex_world ex_env (firstn 11 session) (do_auth "6" "alice" "challenge-6" "cred-1" 8 70000) = Success /\
  answer ex_world ex_env (firstn 11 session) (do_auth "6" "alice" "challenge-6" "cred-1" 8 70001)
    = Reply 408 "Timeout".
Proof. vm_compute. repeat split; reflexivity. Qed.

(** C56 fails: a response, accepted or not, leaves the challenges as they are. *)
Theorem C56_challenges_kept :
  forall (W : World) (E : appenv) (l l' : list (chance * request)) (x : chance * request)
  (i n n0 : pystr) (cr : credential) (c : bytes) (id : N) (t : Z),
  (Registers W (snd x) i n cr \/ Authenticates W (snd x) i n cr ->
   db_chals (after W E (l ++ [x])) = db_chals (after W E l)) /\
  (Issued W E l n0 c id t -> Issued W E (l ++ l') n0 c id t).
Proof. exact (@c56_kept). Qed.
Print Assumptions C56_challenges_kept.

(** C56 fails: the user a challenge was created for is never looked at.  Give all challenges
    to other users and every later reply is the same. *)
Theorem C56_user_ignored :
  forall (W : World) (E : appenv) (f : N -> N) (d : database) (l : list (chance * request)),
  fst (serve_all W E (reassign f d) l) = fst (serve_all W E d l).
Proof. exact (@c56_user). Qed.
Print Assumptions C56_user_ignored.

(** C56 fails: one challenge, two logins. *)
Theorem C56_reuse_refuted :
  exists W E l1 y l2 x i n cr cr',
    Authenticates W (snd y) i n cr /\ answer W E l1 y = Success /\
    Authenticates W (snd x) i n cr' /\ answer W E (l1 ++ y :: l2) x = Success.
Proof. exact (@c56_reuse). Qed.
Print Assumptions C56_reuse_refuted.

(** C56 fails: Bob registers a credential for Alice's account, with a challenge sent to Bob,
    and logs in as Alice with it, with a challenge sent to Bob. *)
Theorem C56_other_user_refuted :
  exists W E l1 y l2 x i i' id id' n n' c c' t t' cr cr',
    n <> n' /\ ap_int E i = Some id /\ ap_int E i' = Some id' /\
    (forall n0 c0 t0, Issued W E l1 n0 c0 id t0 -> c0 = c) /\ Issued W E l1 n' c id t /\
    Registers W (snd y) i n cr /\ answer W E l1 y = Success /\
    Issued W E (l1 ++ y :: l2) n' c' id' t' /\
    Authenticates W (snd x) i' n cr' /\ answer W E (l1 ++ y :: l2) x = Success.
Proof. exact (@c56_other). Qed.
Print Assumptions C56_other_user_refuted.

(** C56, what does hold: a registration response is accepted once ... *)
Theorem C56_registration_once_partial :
  forall (W : World) (E : appenv) (l1 l2 : list (chance * request)) (y x : chance * request)
  (i n i' n' : pystr) (cr cr' : credential),
  Registers W (snd y) i n cr -> answer W E l1 y = Success ->
  Registers W (snd x) i' n' cr' -> cr_raw_id cr' = cr_raw_id cr ->
  answer W E (l1 ++ y :: l2) x <> Success.
Proof. exact (@c56_once). Qed.
Print Assumptions C56_registration_once_partial.

(** ... and so is a login response: not by any user, with any challenge, with the same or a
    smaller counter.  Missing: that its challenge was used once, see above. *)
Theorem C56_login_once_partial :
  forall (W : World) (E : appenv) (l1 l2 : list (chance * request)) (y x : chance * request)
  (i n i' n' : pystr) (cr cr' : credential) (cdj adb sig cdj' adb' sig' : bytes) (uh uh' : option bytes),
  Authenticates W (snd y) i n cr -> answer W E l1 y = Success ->
  Authenticates W (snd x) i' n' cr' -> cr_raw_id cr' = cr_raw_id cr ->
  cr_response cr = AssertionResponse cdj adb sig uh ->
  cr_response cr' = AssertionResponse cdj' adb' sig' uh' ->
  (counter_of adb' <= counter_of adb)%N ->
  answer W E (l1 ++ y :: l2) x <> Success.
Proof. exact (@c56_login_once). Qed.
Print Assumptions C56_login_once_partial.

(** The session sends the login with challenge 5 twice. *)
Example replay_refused :
  answer ex_world ex_env (firstn 8 session) (do_auth "5" "alice" "challenge-5" "cred-2" 1 9000) = Success /\
  answer ex_world ex_env (firstn 9 session) (do_auth "5" "alice" "challenge-5" "cred-2" 1 9500) <> Success /\
  answer ex_world ex_env (firstn 1 session) (do_reg "1" "alice" "challenge-1" "cred-1" 2000) = Success /\
  answer ex_world ex_env (firstn 2 session) (do_reg "1" "alice" "challenge-1" "cred-1" 2000) <> Success.
Proof. vm_compute. repeat split; try reflexivity; discriminate. Qed.

(** C59: an accepted login as [n] used a credential that was registered for [n], for nobody
    else, and its signature is valid under the key in that registration. *)
Theorem C59_login_key :
  forall (W : World) (E : appenv) (depth : nat) (l : list (chance * request)) (x : chance * request)
  (i n : pystr) (cr : credential),
  converts E -> decodes_cbor W depth -> 2 <= depth ->
  Authenticates W (snd x) i n cr -> answer W E l x = Success ->
  exists k cdj adb sig uh,
    RegisteredKey W E l n (cr_raw_id cr) k /\
    (forall n' k', RegisteredKey W E l n' (cr_raw_id cr) k' -> n' = n /\ k' = k) /\
    cr_response cr = AssertionResponse cdj adb sig uh /\
    SignatureSpec W k sig (adb ++ w_sha256 W cdj).
Proof. exact (@c59). Qed.
Print Assumptions C59_login_key.

(** C59: a credential id belongs to one user and one key, for good. *)
Theorem C59_once_registered :
  forall (W : World) (E : appenv) (l1 l2 : list (chance * request)) (n n' : pystr) (id : bytes) (k k' : pubkey),
  RegisteredKey W E l1 n id k -> RegisteredKey W E (l1 ++ l2) n' id k' -> n' = n /\ k' = k.
Proof. exact (@c59_unique). Qed.
Print Assumptions C59_once_registered.

Example hyp_login_key :
  exists cr, Authenticates ex_world (snd (do_auth "4" "alice" "challenge-4" "cred-1" 7 7000))
               (lit "4") (lit "alice") cr /\
    answer ex_world ex_env (firstn 6 session) (do_auth "4" "alice" "challenge-4" "cred-1" 7 7000) = Success /\
    decodes_cbor ex_world 900 /\ converts ex_env.
Proof.
  eexists. split; [eexists; split; [reflexivity|]; eexists; split; [vm_compute; reflexivity|];
    vm_compute; reflexivity|].
  split; [vm_compute; reflexivity|]. split; [intros b v rest H; exact H|].
  exact ex_converts.
Qed.
(** Bob cannot log in with Alice's credential. *)
Example not_bob :
  answer ex_world ex_env (firstn 6 session) (do_auth "4" "bob" "challenge-4" "cred-1" 7 7000) <> Success.
Proof. vm_compute. discriminate. Qed.

(** C60: the options sent to a registration request: JSON for this relying party, this user
    with the stored handle, the new challenge, ES256; number and challenge were never sent
    before. *)
Theorem C60_creation_options :
  forall (W : World) (E : appenv) (l : list (chance * request)) (c : chance) (n : pystr) (id : N) (v : pyval),
  converts E -> answer W E l (c, RegistrationRequest (Some n)) = Options id v ->
  exists handle,
    UserHandle W E (l ++ [(c, RegistrationRequest (Some n))]) n handle /\ PureJson v /\
    JCreation {| co_rp := {| rp_name := lit "localhost"; rp_icon := None; rp_id := lit "localhost" |};
                 co_user := {| us_name := n; us_icon := None; us_id := handle; us_display_name := n |};
                 co_challenge := ch_challenge c; co_pub_key_cred_params := [(FValue, ES256)];
                 co_timeout := Some 60000%Z; co_exclude_credentials := None;
                 co_authenticator_selection := None; co_attestation := AC_NONE;
                 co_extensions := None |} v /\
    Issued W E (l ++ [(c, RegistrationRequest (Some n))]) n (ch_challenge c) id (ch_clock c) /\
    forall n' c' id' t', Issued W E l n' c' id' t' -> id' <> id /\ c' <> ch_challenge c.
Proof. exact (@c60_creation). Qed.
Print Assumptions C60_creation_options.

(** C60: the options sent to an authentication request: the new challenge, and exactly the
    credentials registered for this user, oldest first. *)
Theorem C60_request_options :
  forall (W : World) (E : appenv) (l : list (chance * request)) (c : chance) (n : pystr) (id : N) (v : pyval),
  converts E -> answer W E l (c, AuthenticationRequest (Some n)) = Options id v ->
  PureJson v /\
  JRequest {| ro_mediation := MD_OPTIONAL; ro_challenge := ch_challenge c;
              ro_timeout := Some 60000%Z; ro_rp_id := Some (lit "localhost");
              ro_allow_credentials :=
                Some (map (fun i => {| de_id := i; de_transports := None |})
                          (registered W E n empty_db l));
              ro_user_verification := Some UV_PREFERRED; ro_extensions := None |} v /\
  Issued W E (l ++ [(c, AuthenticationRequest (Some n))]) n (ch_challenge c) id (ch_clock c) /\
  forall n' c' id' t', Issued W E l n' c' id' t' -> id' <> id /\ c' <> ch_challenge c.
Proof. exact (@c60_request). Qed.
Print Assumptions C60_request_options.

(** C60: a registration request with a user name fails exactly if the random bytes repeat. *)
Theorem C60_registration_outcome :
  forall (W : World) (E : appenv) (l : list (chance * request)) (c : chance) (n : pystr),
  converts E ->
  ((exists id v, answer W E l (c, RegistrationRequest (Some n)) = Options id v) <->
   ~ (exists h, In h (db_chals (after W E l)) /\ hr_request h = ch_challenge c) /\
   ((exists handle, UserHandle W E l n handle) \/
    ~ (exists u, In u (db_users (after W E l)) /\ ur_handle u = ch_handle c))) /\
  ((exists id v, answer W E l (c, RegistrationRequest (Some n)) = Options id v) \/
   answer W E l (c, RegistrationRequest (Some n)) = ServerError (Py EIntegrityError)).
Proof. exact (@c60_reg_outcome). Qed.
Print Assumptions C60_registration_outcome.

(** C60: an authentication request with a registered name fails exactly if the random
    challenge repeats; for other names it is refused; nothing else happens.  A user without credentials gets
    options with an empty list: the test app.py:244 is never true. *)
Theorem C60_authentication_outcome :
  forall (W : World) (E : appenv) (l : list (chance * request)) (c : chance) (n : pystr),
  converts E ->
  ((exists id v, answer W E l (c, AuthenticationRequest (Some n)) = Options id v) <->
   ~ (exists h, In h (db_chals (after W E l)) /\ hr_request h = ch_challenge c) /\
   (exists handle, UserHandle W E l n handle)) /\
  (answer W E l (c, AuthenticationRequest (Some n)) = Reply 400 "User not registered" <->
   ~ (exists handle, UserHandle W E l n handle)) /\
  ((exists id v, answer W E l (c, AuthenticationRequest (Some n)) = Options id v) \/
   answer W E l (c, AuthenticationRequest (Some n)) = Reply 400 "User not registered" \/
   answer W E l (c, AuthenticationRequest (Some n)) = ServerError (Py EIntegrityError)).
Proof. exact (@c60_auth_outcome). Qed.
Print Assumptions C60_authentication_outcome.

(** C60: a user has one handle, for good. *)
Theorem C60_handle_stable :
  forall (W : World) (E : appenv) (l1 l2 : list (chance * request)) (n : pystr) (h h' : bytes),
  UserHandle W E l1 n h -> (UserHandle W E (l1 ++ l2) n h' <-> h' = h).
Proof. exact (@c60_handle). Qed.
Print Assumptions C60_handle_stable.

Example hyp_options :
  exists id v, answer ex_world ex_env (firstn 7 session) (ask_auth "alice" "challenge-5" 8000) = Options id v /\
    registered ex_world ex_env (lit "alice") empty_db (firstn 7 session) = [blit "cred-1"; blit "cred-2"] /\
    registered ex_world ex_env (lit "bob") empty_db (firstn 7 session) = [].
Proof. do 2 eexists. vm_compute. repeat split; reflexivity. Qed.
Example hyp_creation_options :
  exists id v, answer ex_world ex_env (firstn 2 session) (ask_reg "alice" "handle-x" "challenge-2" 3000) = Options id v /\
    UserHandle ex_world ex_env (firstn 2 session) (lit "alice") (blit "handle-a").
Proof.
  do 2 eexists. split; [vm_compute; reflexivity|].
  exists {| ur_id := 1; ur_username := lit "alice"; ur_handle := blit "handle-a" |}.
  split; [vm_compute; now left|]. split; reflexivity.
Qed.

(** C61: a login response is accepted exactly if it is in order. *)
Theorem C61_login_exact :
  forall (W : World) (E : appenv) (depth : nat) (l : list (chance * request)) (x : chance * request)
  (i n : pystr) (cr : credential),
  converts E -> decodes_cbor W depth -> 2 <= depth ->
  Authenticates W (snd x) i n cr ->
  (answer W E l x = Success <-> LoginSpec W E l (ch_clock (fst x)) i n cr).
Proof. exact (@c61_login). Qed.
Print Assumptions C61_login_exact.

(** C61: a registration response is accepted exactly if it is in order. *)
Theorem C61_registration_exact :
  forall (W : World) (E : appenv) (l : list (chance * request)) (x : chance * request)
  (i n : pystr) (cr : credential),
  converts E -> Registers W (snd x) i n cr ->
  (answer W E l x = Success <-> RegisterSpec W E l (ch_clock (fst x)) i n cr).
Proof. exact (@c61_registration). Qed.
Print Assumptions C61_registration_exact.

(** C61: the key of a registration response can be stored, unless it is 2^64 bytes long. *)
Theorem C61_keys_encodable :
  forall (W : World) (cr : credential) (k : pubkey),
  AttestedKey W cr k -> key_fits k -> exists b, cose_key (Some k) = Ok b.
Proof. exact (@c61_encodable). Qed.
Print Assumptions C61_keys_encodable.

(** C61: a response endpoint never fails: success, 400 or 408, whatever is sent; and only
    success changes anything. *)
Theorem C61_responses_answered :
  forall (W : World) (E : appenv) (l : list (chance * request)) (c : chance) (i k n : option pystr) (q : request),
  q = RegistrationResponse i k n \/ q = AuthenticationResponse i k n ->
  answer W E l (c, q) = Success \/
  (exists s text, answer W E l (c, q) = Reply s text /\ (s = 400 \/ s = 408)%N) /\
  after W E (l ++ [(c, q)]) = after W E l.
Proof. exact (@c61_answered). Qed.
Print Assumptions C61_responses_answered.

(** C61: an accepted login changes one field of one row. *)
Theorem C61_login_effect :
  forall (W : World) (E : appenv) (l : list (chance * request)) (x : chance * request) (i n : pystr) (cr : credential)
  (cdj adb sig : bytes) (uh : option bytes),
  Authenticates W (snd x) i n cr -> answer W E l x = Success ->
  cr_response cr = AssertionResponse cdj adb sig uh ->
  db_users (after W E (l ++ [x])) = db_users (after W E l) /\
  db_chals (after W E (l ++ [x])) = db_chals (after W E l) /\
  exists a c b,
    db_creds (after W E l) = a ++ c :: b /\ kr_id c = cr_raw_id cr /\
    db_creds (after W E (l ++ [x])) =
      a ++ {| kr_id := kr_id c; kr_count := Some (Z.of_N (counter_of adb)); kr_key := kr_key c;
              kr_user := kr_user c |} :: b.
Proof. exact (@c61_login_effect). Qed.
Print Assumptions C61_login_effect.

(** C61: an accepted registration adds one row, for the user named, with the attested key and
    no counter. *)
Theorem C61_registration_effect :
  forall (W : World) (E : appenv) (l : list (chance * request)) (x : chance * request) (i n : pystr) (cr : credential),
  Registers W (snd x) i n cr -> answer W E l x = Success ->
  db_users (after W E (l ++ [x])) = db_users (after W E l) /\
  db_chals (after W E (l ++ [x])) = db_chals (after W E l) /\
  exists u k b,
    In u (db_users (after W E l)) /\ ur_username u = n /\ AttestedKey W cr k /\ cose_key (Some k) = Ok b /\
    db_creds (after W E (l ++ [x])) =
      db_creds (after W E l) ++ [{| kr_id := cr_raw_id cr; kr_count := None; kr_key := b; kr_user := ur_id u |}].
Proof. exact (@c61_reg_effect). Qed.
Print Assumptions C61_registration_effect.

Example hyp_exact :
  (exists cr, Registers ex_world (snd (do_reg "1" "alice" "challenge-1" "cred-1" 2000)) (lit "1") (lit "alice") cr) /\
  answer ex_world ex_env (firstn 1 session) (do_reg "1" "alice" "challenge-1" "cred-1" 2000) = Success /\
  answer ex_world ex_env (firstn 1 session) (do_reg "1" "alice" "challenge-2" "cred-1" 2000) <> Success /\
  answer ex_world ex_env (firstn 1 session) (do_reg "2" "alice" "challenge-1" "cred-1" 2000) <> Success /\
  answer ex_world ex_env (firstn 1 session) (do_reg "1" "bob" "challenge-1" "cred-1" 2000) <> Success.
Proof.
  split; [eexists; eexists; split; [reflexivity|]; eexists; split; [vm_compute; reflexivity|]; vm_compute; reflexivity|].
  vm_compute. repeat split; try reflexivity; discriminate.
Qed.
