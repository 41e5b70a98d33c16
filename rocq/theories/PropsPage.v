(** * Properties C81 to C85: the page of the example application. *)
From Coq Require Import List NArith ZArith Bool String.
From Coq Require Import Strings.Byte.
From Verif Require Import Base PyVal B64 Json JsonSpec Types CaseConv Jsonify Builders OptionSpec OptionProps World
  App AppSpec AppExamples AppTheorems HonestSpec HonestFacts AppHonest DumpsSpec Form Page PageSpec FormFacts PageParse PageRun
  PageStatus PageExamples Examples.
Import ListNotations.
Local Open Scope N_scope.
Local Open Scope list_scope.

(** The assumptions on the browser, the interpreter and the data base can be met. *)
Example hyp_browser : ParsesJson ex_browser ex_json /\ limits ex_json /\ converts ex_env /\ reads_decimal ex_env /\
  (forall s, w_json_loads ex_world s = json_loads ex_json s).
Proof.
  split; [exact ex_parses|]. split; [exact ex_limits|]. split; [exact ex_converts|]. split; [exact ex_decimal|].
  intro s. reflexivity.
Qed.

(** C81: once the user has clicked and the server has answered with options, whatever happens
    elsewhere meanwhile, create() is called with the options meant for that user. *)
Theorem C81_create_argument :
  forall (B : browser) (W : World) (E : appenv) (J : jsonenv) (repr : N -> pystr) (replaced : bytes -> pystr)
         (s : system) (c : chance) (o : nat -> list event) (id : N) (v : pyval),
  limits J -> converts E -> ParsesJson B J -> (forall j, Elsewhere (o j)) ->
  let i := List.length (sy_tasks s) in
  let n := usv (g_input (sy_page s)) in
  let l := sy_log s ++ requests (o 0%nat) in
  let y := (c, RegistrationRequest (Some n)) in
  Units (g_input (sy_page s)) -> answer W E l y = Options id v -> id <= 2 ^ 53 ->
  exists a k h,
    nth_error (sy_tasks (run_page B W E J repr replaced s (asking ClickRegister i c o))) i = Some (Create a k) /\
    UserHandle W E (l ++ [y]) n h /\ CreationArgument n h (ch_challenge c) a.
Proof. exact c81_creation. Qed.
Print Assumptions C81_create_argument.

(** C81: and get() with the challenge and exactly the user's credentials, as bytes. *)
Theorem C81_get_argument :
  forall (B : browser) (W : World) (E : appenv) (J : jsonenv) (repr : N -> pystr) (replaced : bytes -> pystr)
         (s : system) (c : chance) (o : nat -> list event) (id : N) (v : pyval),
  limits J -> converts E -> ParsesJson B J -> (forall j, Elsewhere (o j)) ->
  let i := List.length (sy_tasks s) in
  let n := usv (g_input (sy_page s)) in
  let l := sy_log s ++ requests (o 0%nat) in
  Units (g_input (sy_page s)) -> answer W E l (c, AuthenticationRequest (Some n)) = Options id v -> id <= 2 ^ 53 ->
  exists a k,
    nth_error (sy_tasks (run_page B W E J repr replaced s (asking ClickAuthenticate i c o))) i = Some (Get a k) /\
    RequestArgument (registered W E n empty_db l) (ch_challenge c) a.
Proof. exact c81_request. Qed.
Print Assumptions C81_get_argument.

(** Alice asks; bob asks elsewhere in between and something else is typed. *)
Example hyp_asking :
  (forall j, Elsewhere (between j)) /\ requests (between 1) <> [] /\ Units (lit "alice") /\
  (exists v, answer ex_world ex_env (sy_log (page_of "alice" []) ++ requests (between 0))
     (chance_of "handle-a" "challenge-1" 1000, RegistrationRequest (Some (usv (lit "alice")))) = Options 1 v) /\
  (exists v, answer ex_world ex_env (sy_log (page_of "alice" (firstn 5 session)) ++ requests (between 0))
     (chance_of "" "challenge-4" 6000, AuthenticationRequest (Some (usv (lit "alice")))) = Options 4 v) /\
  registered ex_world ex_env (lit "alice") empty_db (firstn 5 session) = [blit "cred-1"; blit "cred-2"].
Proof.
  split; [exact between_else|]. split; [discriminate|]. split; [repeat constructor|].
  split; [exact ex_registration_answer|]. split; [exact ex_login_answer|]. vm_compute. reflexivity.
Qed.

(** C82: a form is read as it was written. *)
Theorem C82_form : forall (replaced : bytes -> pystr) (ps : list (pystr * pystr)),
  Forall (fun p => Scalars (fst p) /\ Scalars (snd p)) ps -> form_decode replaced (form_encode ps) = ps.
Proof. exact form_roundtrip. Qed.
Print Assumptions C82_form.
Example hyp_form : Forall (fun p => Scalars (fst p) /\ Scalars (snd p)) [(lit "a b", lit "x&y=%2B+"); (lit "", [0x1F600])].
Proof. repeat constructor; intros; discriminate. Qed.

(** C82: btoa and atob are inverse. *)
Theorem C82_base64 : forall b : bytes, atob (base64encode b) = Some b.
Proof. exact atob_b2a. Qed.
Print Assumptions C82_base64.

(** C82: in any state, what the page sends is read by the server as what the authenticator
    returned, with the page's user name and challenge id. *)
Theorem C82_attestation_sent :
  forall (B : browser) (W : World) (J : jsonenv) (replaced : bytes -> pystr),
  limits J -> (forall s, w_json_loads W s = json_loads J s) ->
  forall (g : globals) (a : att_cred) (cr : credential) (u : jstring) (id : N),
  g_attestation g = Some a -> Attests a cr -> g_registeredUsername g = Some u -> Units u ->
  get (g_registrationRequest g) "challengeID" = Some (JsInt (Z.of_N id)) ->
  exists body i, fst (registerAttestation B g) = Fetch RegistrationResponseUrl body registerResult /\
    Registers W (to_request replaced RegistrationResponseUrl body) i (usv u) cr /\ IntPart i /\ Decimal i id.
Proof. intros B W J. exact (sent_attestation B W J (fun _ => [])). Qed.
Print Assumptions C82_attestation_sent.
Theorem C82_assertion_sent :
  forall (B : browser) (W : World) (J : jsonenv) (replaced : bytes -> pystr),
  limits J -> (forall s, w_json_loads W s = json_loads J s) ->
  forall (g : globals) (a : ass_cred) (cr : credential) (u : jstring) (id : N),
  g_assertion g = Some a -> Asserts a cr -> g_authenticatingUsername g = Some u -> Units u ->
  get (g_authenticationRequest g) "challengeID" = Some (JsInt (Z.of_N id)) ->
  exists body i, fst (assertAuthentication B g) = Fetch AuthenticationResponseUrl body authenticateResult /\
    Authenticates W (to_request replaced AuthenticationResponseUrl body) i (usv u) cr /\ IntPart i /\ Decimal i id.
Proof. intros B W J. exact (sent_assertion B W J (fun _ => [])). Qed.
Print Assumptions C82_assertion_sent.

(** C82: a whole registration: the server receives the authenticator's data with the challenge
    id it issued, and success is shown iff it answers with success. *)
Theorem C82_registration :
  forall (B : browser) (W : World) (E : appenv) (J : jsonenv) (repr : N -> pystr) (replaced : bytes -> pystr)
         (s : system) (c c' : chance) (o : nat -> list event) (id : N) (v : pyval) (a : att_cred) (cr : credential),
  limits J -> converts E -> (forall t, w_json_loads W t = json_loads J t) -> ParsesJson B J ->
  (forall j, Elsewhere (o j)) ->
  let i := List.length (sy_tasks s) in
  let u := g_input (sy_page s) in
  let n := usv u in
  let l := sy_log s ++ requests (o 0%nat) in
  let y := (c, RegistrationRequest (Some n)) in
  let l' := l ++ y :: requests (o 1 ++ o 2 ++ o 3 ++ o 4 ++ o 5)%nat in
  Units u -> answer W E l y = Options id v -> id <= 2 ^ 53 -> Attests a cr ->
  let s' := run_page B W E J repr replaced s (asking ClickRegister i c o ++ telling (Created i (Some a)) i c' o) in
  Issued W E l' n (ch_challenge c) id (ch_clock c) /\
  exists q t, Registers W q t n cr /\ IntPart t /\ Decimal t id /\
    sy_log s' = l' ++ (c', q) :: requests (o 6%nat) /\
    (answer W E l' (c', q) = Success <-> g_status (sy_page s') = registered_text u) /\
    (answer W E l' (c', q) <> Success -> g_status (sy_page s') = register_failed_text u).
Proof. exact c82_registration_run. Qed.
Print Assumptions C82_registration.
Theorem C82_login :
  forall (B : browser) (W : World) (E : appenv) (J : jsonenv) (repr : N -> pystr) (replaced : bytes -> pystr)
         (s : system) (c c' : chance) (o : nat -> list event) (id : N) (v : pyval) (a : ass_cred) (cr : credential),
  limits J -> converts E -> (forall t, w_json_loads W t = json_loads J t) -> ParsesJson B J ->
  (forall j, Elsewhere (o j)) ->
  let i := List.length (sy_tasks s) in
  let u := g_input (sy_page s) in
  let n := usv u in
  let l := sy_log s ++ requests (o 0%nat) in
  let y := (c, AuthenticationRequest (Some n)) in
  let l' := l ++ y :: requests (o 1 ++ o 2 ++ o 3 ++ o 4 ++ o 5)%nat in
  Units u -> answer W E l y = Options id v -> id <= 2 ^ 53 -> Asserts a cr ->
  let s' := run_page B W E J repr replaced s (asking ClickAuthenticate i c o ++ telling (Got i (Some a)) i c' o) in
  Issued W E l' n (ch_challenge c) id (ch_clock c) /\
  exists q t, Authenticates W q t n cr /\ IntPart t /\ Decimal t id /\
    sy_log s' = l' ++ (c', q) :: requests (o 6%nat) /\
    (answer W E l' (c', q) = Success <-> g_status (sy_page s') = authorized_text u) /\
    (answer W E l' (c', q) <> Success -> g_status (sy_page s') = authorize_failed_text u).
Proof. exact c82_login_run. Qed.
Print Assumptions C82_login.

(** C83: an honest user with a conforming authenticator who clicks "Register" registers. *)
Theorem C83_registration :
  forall (B : browser) (W : World) (E : appenv) (J : jsonenv) (repr : N -> pystr) (replaced : bytes -> pystr)
         (depth : nat) (s : system) (c c' : chance) (o : nat -> list event) (id : N) (v : pyval)
         (a : att_cred) (cr : credential) (cid : bytes) (k : pubkey) (ctr : N),
  limits J -> converts E -> Conforming W depth J -> ParsesJson B J -> reads_decimal E ->
  (forall j, Elsewhere (o j)) ->
  let i := List.length (sy_tasks s) in
  let u := g_input (sy_page s) in
  let n := usv u in
  let l := sy_log s ++ requests (o 0%nat) in
  let y := (c, RegistrationRequest (Some n)) in
  let l' := l ++ y :: requests (o 1 ++ o 2 ++ o 3 ++ o 4 ++ o 5)%nat in
  Units u -> answer W E l y = Options id v -> id <= 2 ^ 53 ->
  Attests a cr -> AppRegistration W depth cr (ch_challenge c) cid k ctr ->
  (forall n' k', ~ RegisteredKey W E l' n' cid k') -> (ch_clock c' - ch_clock c <= 60000)%Z ->
  let s' := run_page B W E J repr replaced s (asking ClickRegister i c o ++ telling (Created i (Some a)) i c' o) in
  g_status (sy_page s') = registered_text u /\ RegisteredKey W E (sy_log s') n cid k.
Proof. exact c83_registration. Qed.
Print Assumptions C83_registration.

(** C83: and who clicks "Authenticate" with a registered authenticator logs in. *)
Theorem C83_login :
  forall (B : browser) (W : World) (E : appenv) (J : jsonenv) (repr : N -> pystr) (replaced : bytes -> pystr)
         (depth : nat) (s : system) (c c' : chance) (o : nat -> list event) (id : N) (v : pyval)
         (a : ass_cred) (cr : credential) (cid : bytes) (k : pubkey) (handle : bytes) (ctr : N),
  limits J -> converts E -> Conforming W depth J -> ParsesJson B J -> reads_decimal E ->
  (forall j, Elsewhere (o j)) ->
  let i := List.length (sy_tasks s) in
  let u := g_input (sy_page s) in
  let n := usv u in
  let l := sy_log s ++ requests (o 0%nat) in
  let y := (c, AuthenticationRequest (Some n)) in
  let l' := l ++ y :: requests (o 1 ++ o 2 ++ o 3 ++ o 4 ++ o 5)%nat in
  Units u -> answer W E l y = Options id v -> id <= 2 ^ 53 ->
  RegisteredKey W E l' n cid k -> UserHandle W E l' n handle ->
  Asserts a cr -> AppLogin W depth cr (ch_challenge c) cid k handle ctr -> SentBelow W cid k ctr l' ->
  (ch_clock c' - ch_clock c <= 60000)%Z ->
  let s' := run_page B W E J repr replaced s (asking ClickAuthenticate i c o ++ telling (Got i (Some a)) i c' o) in
  g_status (sy_page s') = authorized_text u /\
  exists x t, Happened W E (sy_log s') l' x Success /\ Authenticates W (snd x) t n cr.
Proof. exact c83_login. Qed.
Print Assumptions C83_login.

(** All hypotheses of both, for the runs of [hyp_asking]. *)
Example hyp_honest_registration :
  reg_log = (sy_log (page_of "alice" []) ++ requests (between 0)) ++
    (chance_of "handle-a" "challenge-1" 1000, RegistrationRequest (Some (usv (lit "alice")))) ::
    requests (between 1 ++ between 2 ++ between 3 ++ between 4 ++ between 5) /\
  Attests (ex_att "challenge-1" "cred-1") ex_registration /\
  AppRegistration ex_world 900 ex_registration (blit "challenge-1") (blit "cred-1") ex_key 0 /\
  (forall n' k', ~ RegisteredKey ex_world ex_env reg_log n' (blit "cred-1") k').
Proof.
  split; [reflexivity|]. split; [exact ex_attests|]. split; [exact ex_registration_honest|]. exact ex_unregistered.
Qed.
Example hyp_honest_login :
  login_log = (sy_log (page_of "alice" (firstn 5 session)) ++ requests (between 0)) ++
    (chance_of "" "challenge-4" 6000, AuthenticationRequest (Some (usv (lit "alice")))) ::
    requests (between 1 ++ between 2 ++ between 3 ++ between 4 ++ between 5) /\
  RegisteredKey ex_world ex_env login_log (lit "alice") (blit "cred-1") ex_key /\
  UserHandle ex_world ex_env login_log (lit "alice") (blit "handle-a") /\
  Asserts (ex_ass "challenge-4" "cred-1" 7) ex_login /\
  AppLogin ex_world 900 ex_login (blit "challenge-4") (blit "cred-1") ex_key (blit "handle-a") 7 /\
  SentBelow ex_world (blit "cred-1") ex_key 7 login_log.
Proof.
  split; [reflexivity|]. split; [exact ex_registered|]. split; [exact ex_handle|]. split; [exact ex_asserts|].
  split; [exact ex_login_honest|]. exact ex_below.
Qed.

(** C84: in every run, a message of success appears only after the server has answered a
    response of this page with success. *)
Theorem C84_accepted :
  forall (B : browser) (W : World) (E : appenv) (J : jsonenv) (repr : N -> pystr) (replaced : bytes -> pystr)
         (es : list event) (n : jstring),
  let g := sy_page (run_page B W E J repr replaced started es) in
  (g_status g = registered_text n -> PageAccepted B W E J repr replaced es RegistrationResponseUrl) /\
  (g_status g = authorized_text n -> PageAccepted B W E J repr replaced es AuthenticationResponseUrl).
Proof. exact c84_accepted. Qed.
Print Assumptions C84_accepted.

(** C84: a request that is refused ends the function with the message of its failure, and
    nothing more is sent. *)
Theorem C84_registration_refused :
  forall (B : browser) (W : World) (E : appenv) (J : jsonenv) (repr : N -> pystr) (replaced : bytes -> pystr)
         (s : system) (c : chance) (o : nat -> list event),
  converts E -> (forall j, Elsewhere (o j)) ->
  let i := List.length (sy_tasks s) in
  let n := usv (g_input (sy_page s)) in let l := sy_log s ++ requests (o 0%nat) in
  let y := (c, RegistrationRequest (Some n)) in
  Units (g_input (sy_page s)) -> (forall id v, answer W E l y <> Options id v) ->
  let s' := run_page B W E J repr replaced s (ClickRegister :: o 0%nat ++ Serve i c :: o 1%nat ++ [Deliver i]) in
  g_status (sy_page s') = register_refused_text /\ nth_error (sy_tasks s') i = Some Threw /\
  sy_log s' = l ++ y :: requests (o 1%nat).
Proof. exact c84_register_refused. Qed.
Print Assumptions C84_registration_refused.
Theorem C84_authentication_refused :
  forall (B : browser) (W : World) (E : appenv) (J : jsonenv) (repr : N -> pystr) (replaced : bytes -> pystr)
         (s : system) (c : chance) (o : nat -> list event),
  converts E -> (forall j, Elsewhere (o j)) ->
  let i := List.length (sy_tasks s) in
  let n := usv (g_input (sy_page s)) in let l := sy_log s ++ requests (o 0%nat) in
  let y := (c, AuthenticationRequest (Some n)) in
  Units (g_input (sy_page s)) -> (forall id v, answer W E l y <> Options id v) ->
  let s' := run_page B W E J repr replaced s (ClickAuthenticate :: o 0%nat ++ Serve i c :: o 1%nat ++ [Deliver i]) in
  g_status (sy_page s') = authenticate_refused_text /\ nth_error (sy_tasks s') i = Some Threw /\
  sy_log s' = l ++ y :: requests (o 1%nat).
Proof. exact c84_authenticate_refused. Qed.
Print Assumptions C84_authentication_refused.

(** An unknown name, and a challenge that was used before. *)
Example hyp_refused :
  (forall id v, answer ex_world ex_env (firstn 5 session)
     (chance_of "" "challenge-4" 6000, AuthenticationRequest (Some (usv (lit "carol")))) <> Options id v) /\
  forall id v, answer ex_world ex_env (firstn 5 session)
     (chance_of "handle-c" "challenge-1" 6000, RegistrationRequest (Some (usv (lit "carol")))) <> Options id v.
Proof. split; intros id v; vm_compute; discriminate. Qed.

(** C84: the user it names need not be the one: the page says that bob is registered, who has
    no credential. *)
Theorem C84_name_refuted :
  exists (B : browser) (W : World) (E : appenv) (J : jsonenv) (repr : N -> pystr) (replaced : bytes -> pystr) (es : list event),
  let s := run_page B W E J repr replaced started es in
  g_status (sy_page s) = registered_text (lit "bob") /\
  forall n cid k, RegisteredKey W E (sy_log s) n cid k -> n = lit "alice".
Proof.
  exists ex_browser, ex_world, ex_env, ex_json, (fun _ => []), (fun _ => []), overlapping. exact ex_overlapping.
Qed.
Print Assumptions C84_name_refuted.

(** C84: it is, if the user waits for one function to end before clicking again. *)
Theorem C84_name_partial :
  forall (B : browser) (W : World) (E : appenv) (J : jsonenv) (repr : N -> pystr) (replaced : bytes -> pystr)
         (es : list event) (n : jstring),
  Typed es -> OneAtATime B W E J repr replaced es ->
  let s := run_page B W E J repr replaced started es in
  (g_status (sy_page s) = registered_text n ->
     exists cid k, RegisteredKey W E (sy_log s) (usv n) cid k) /\
  (g_status (sy_page s) = authorized_text n ->
     exists l1 y i cr, Happened W E (sy_log s) l1 y Success /\ Authenticates W (snd y) i (usv n) cr).
Proof. exact c84_named. Qed.
Print Assumptions C84_name_partial.

(** A registration, then a login. *)
Example hyp_two_clicks :
  Typed two_clicks /\ OneAtATime ex_browser ex_world ex_env ex_json (fun _ => []) (fun _ => []) two_clicks /\
  g_status (sy_page (ex_run started two_clicks)) = authorized_text (lit "alice").
Proof. exact ex_two_clicks. Qed.

(** C85: for any options that the library builds, the page decodes the challenge and the
    user handle and changes nothing else. *)
Theorem C85_creation_partial :
  forall (Br : browser) (U : unicode) (depth : nat) (b : creation_builder) (user : user_entity) (challenge : bytes)
         (o : creation_options),
  ascii_ok U -> (7 <= depth)%nat -> creation_build b user challenge = Ok o ->
  exists v a pk0 pk u, jsonify U depth true (obj_of_creation o) = Ok v /\
    Reads (js_of v) "publicKey" pk0 /\ parseCreationOptions Br (js_of v) = Some a /\
    Reads a "publicKey" pk /\ Reads pk "challenge" (JsBuf challenge) /\
    Reads pk "user" u /\ Reads u "id" (JsBuf (us_id user)) /\
    (forall n x, n <> "challenge"%string -> n <> "user"%string -> (Reads pk n x <-> Reads pk0 n x)).
Proof. exact c85_creation. Qed.
Print Assumptions C85_creation_partial.

(** C85: in particular the ids in excludeCredentials stay texts. *)
Theorem C85_exclude_refuted :
  forall (Br : browser) (U : unicode) (depth : nat) (b : creation_builder) (user : user_entity) (challenge : bytes)
         (o : creation_options) (ds : list descriptor),
  ascii_ok U -> (7 <= depth)%nat -> creation_build b user challenge = Ok o -> cb_exclude_credentials b = Some ds ->
  exists v a pk l, jsonify U depth true (obj_of_creation o) = Ok v /\ parseCreationOptions Br (js_of v) = Some a /\
    Reads a "publicKey" pk /\ Reads pk "excludeCredentials" (JsArr l) /\
    Forall2 (fun d x => (exists t, Reads x "id" (JsStr t)) /\ ~ Reads x "id" (JsBuf (de_id d))) ds l.
Proof. exact c85_exclude. Qed.
Print Assumptions C85_exclude_refuted.

(** C85: for a login the challenge and the ids of all credentials are decoded. *)
Theorem C85_request :
  forall (Br : browser) (U : unicode) (depth : nat) (b : request_builder) (challenge : bytes)
         (allow : option (list descriptor)) (o : request_options),
  ascii_ok U -> (7 <= depth)%nat -> request_build b challenge allow = Ok o ->
  exists v a pk0 pk, jsonify U depth true (obj_of_request o) = Ok v /\
    Reads (js_of v) "publicKey" pk0 /\ parseRequestOptions Br (js_of v) = Some a /\
    Reads a "publicKey" pk /\ Reads pk "challenge" (JsBuf challenge) /\
    (forall ds, allow = Some ds -> exists l, Reads pk "allowCredentials" (JsArr l) /\
       Forall2 (fun d x => Reads x "id" (JsBuf (de_id d))) ds l) /\
    (forall n x, n <> "challenge"%string -> n <> "allowCredentials"%string -> (Reads pk n x <-> Reads pk0 n x)).
Proof. exact c85_request. Qed.
Print Assumptions C85_request.

Example hyp_built : ascii_ok ascii_unicode /\
  (exists b o, chain creation_set creation_default calls_x = Ok b /\ creation_build b user_x [x00] = Ok o /\
     exists d ds, cb_exclude_credentials b = Some (d :: ds)) /\
  exists o, request_build APP_CRO_BUILDER [x00] (Some [{| de_id := [x01]; de_transports := None |}]) = Ok o.
Proof.
  split; [exact ascii_unicode_ok|]. split.
  - do 2 eexists. split; [reflexivity|]. split; [reflexivity|]. do 2 eexists. reflexivity.
  - eexists. reflexivity.
Qed.
