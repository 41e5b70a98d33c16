(** * Properties C96 and C97: options, and pages, while other requests are in flight. *)
From Coq Require Import List NArith ZArith Bool String.
From Verif Require Import Base BaseFacts PyVal B64 Json JsonSpec CodecSpec Types World Parsers Crypto Backends
  Spec Jsonify Builders OptionSpec App AppSpec Examples AppExamples AppTheorems HonestSpec HonestFacts AppHonest
  Dumps DumpsSpec Form Page PageSpec PageExamples
  AppConc AppConcSpec AppConcHonestSpec AppConcExamples AppConcInv AppConcHonest AppConcHonestEx AppConcOptions
  Web WebSpec WebFacts WebHonest WebAlone WebExamples.
Import ListNotations.
Local Open Scope list_scope.
Local Open Scope N_scope.

(** C96: however requests interleave and whichever statements fail, options for a registration
    carry the stored handle of the user who is named and the challenge drawn for the request. *)
Theorem C96_creation :
  forall (W : World) (E : appenv) (l : list sv_event) (j : nat) (c : chance) (n : pystr) (id : N) (v : pyval),
  converts E -> Replied (Served W E l) j (c, RegistrationRequest (Some n)) (Options id v) ->
  exists handle, HasHandle (Served W E l) n handle /\ PureJson v /\
    JCreation {| co_rp := {| rp_name := lit "localhost"; rp_icon := None; rp_id := lit "localhost" |};
                 co_user := {| us_name := n; us_icon := None; us_id := handle; us_display_name := n |};
                 co_challenge := ch_challenge c; co_pub_key_cred_params := [(FValue, ES256)];
                 co_timeout := Some 60000%Z; co_exclude_credentials := None;
                 co_authenticator_selection := None; co_attestation := AC_NONE;
                 co_extensions := None |} v.
Proof. exact c96_creation. Qed.
Print Assumptions C96_creation.

(** C96: options for a login list, each once, ids registered for the user who is named, and
    all those whose registration was answered before the request arrived. *)
Theorem C96_request :
  forall (W : World) (E : appenv) (l1 : list sv_event) (c : chance) (n : pystr) (l2 : list sv_event) (id : N) (v : pyval),
  converts E -> let l := l1 ++ Arrive (c, AuthenticationRequest (Some n)) :: l2 in
  Replied (Served W E l) (next (Served W E l1)) (c, AuthenticationRequest (Some n)) (Options id v) ->
  exists ids, PureJson v /\
    JRequest {| ro_mediation := MD_OPTIONAL; ro_challenge := ch_challenge c;
                ro_timeout := Some 60000%Z; ro_rp_id := Some (lit "localhost");
                ro_allow_credentials := Some (map (fun i => {| de_id := i; de_transports := None |}) ids);
                ro_user_verification := Some UV_PREFERRED; ro_extensions := None |} v /\
    NoDup ids /\ (forall i, In i ids -> exists k, AcceptedKey W (Served W E l) n i k) /\
    (forall i k, AcceptedKey W (Served W E l1) n i k -> In i ids).
Proof. exact c96_request. Qed.
Print Assumptions C96_request.

(** Two requests handled together; a login asked for while alice has a credential. *)
Example hyp_options_together :
  converts ex_env /\
  (exists v, Replied (Served ex_world ex_env asked) 0 (ask_reg "alice" "handle-a" "challenge-1" 1000) (Options 1 v)) /\
  (exists v, Replied (Served ex_world ex_env asked) 1 (ask_reg "bob" "handle-b" "challenge-2" 1500) (Options 2 v)) /\
  (exists v, Replied (Served ex_world ex_env asked_again) 5 (ask_auth "alice" "challenge-4" 6000) (Options 4 v)) /\
  AcceptedKey ex_world (Served ex_world ex_env asked_again) (lit "alice") (blit "cred-1") ex_key.
Proof.
  split; [exact ex_converts|]. split; [eexists; vm_compute; reflexivity|]. split; [eexists; vm_compute; reflexivity|].
  split; [eexists; vm_compute; reflexivity|exact alice_accepted].
Qed.

(** C97: what the server does for the pages is a run of the server of C73-C75. *)
Theorem C97_server :
  forall (B : browser) (W : World) (E : appenv) (J : jsonenv) (repr : N -> pystr) (replaced : bytes -> pystr)
         (l : list web_event), exists ev, wb_server (Web B W E J repr replaced l) = Served W E ev.
Proof. exact web_server. Qed.
Print Assumptions C97_server.

(** C97: every run of the one page of C82-C84, whose requests are handled at once, is a run of
    this model. *)
Theorem C97_sequential :
  forall (B : browser) (W : World) (E : appenv) (J : jsonenv) (repr : N -> pystr) (replaced : bytes -> pystr)
         (es : list event), let s := run_page B W E J repr replaced started es in
  exists l g, (forall i, ~ In (Server (Fail i)) l) /\ IsPage B W E J repr replaced l 0 g /\
    pg_globals g = sy_page s /\ pg_tasks g = sy_tasks s /\
    sv_db (wb_server (Web B W E J repr replaced l)) = after W E (sy_log s) /\
    forall l1 x l2, sy_log s = l1 ++ x :: l2 ->
    Replied (wb_server (Web B W E J repr replaced l)) (List.length l1) x (answer W E l1 x).
Proof. exact c97_sequential. Qed.
Print Assumptions C97_sequential.

(** C97: a page that shows success sent a response that the server accepted, whatever other
    pages and clients do and whichever statements fail. *)
Theorem C97_accepted :
  forall (B : browser) (W : World) (E : appenv) (J : jsonenv) (repr : N -> pystr) (replaced : bytes -> pystr)
         (l : list web_event) (p : nat) (g : page) (n : jstring),
  IsPage B W E J repr replaced l p g ->
  (g_status (pg_globals g) = registered_text n -> WebAccepted B W E J repr replaced l p RegistrationResponseUrl) /\
  (g_status (pg_globals g) = authorized_text n -> WebAccepted B W E J repr replaced l p AuthenticationResponseUrl).
Proof. exact c97_accepted. Qed.
Print Assumptions C97_accepted.

(** C97: if the user of the page waits for each function to end, the user who is named is the
    one whose response it was; other pages may do as they like. *)
Theorem C97_named :
  forall (B : browser) (W : World) (E : appenv) (J : jsonenv) (repr : N -> pystr) (replaced : bytes -> pystr)
         (l : list web_event) (p : nat) (g : page) (n : jstring),
  Patient B W E J repr replaced p l -> IsPage B W E J repr replaced l p g ->
  (g_status (pg_globals g) = registered_text n -> RegisteredBy B W E J repr replaced l p (usv n)) /\
  (g_status (pg_globals g) = authorized_text n -> AuthorizedBy B W E J repr replaced l p (usv n)).
Proof. exact c97_named. Qed.
Print Assumptions C97_named.

(** C97: the authenticator is asked to create a credential for the user who was typed, with
    their stored handle and the challenge drawn for the request. *)
Theorem C97_asked_registration :
  forall (B : browser) (W : World) (E : appenv) (J : jsonenv) (repr : N -> pystr) (replaced : bytes -> pystr)
  (l : list web_event) (p : nat) (g : page) (c : chance) (o : nat -> list web_event) (id : N) (v : pyval),
  limits J -> converts E -> ParsesJson B J -> (forall m, Apart p (o m)) ->
  let server := fun l => wb_server (Web B W E J repr replaced l) in
  let i := List.length (pg_tasks g) in let u := g_input (pg_globals g) in let n := usv u in
  let l1 := l ++ web_click p ClickRegister o in let l2 := l1 ++ web_ask p i c o in
  IsPage B W E J repr replaced l p g -> Units u -> id <= 2 ^ 53 ->
  Replied (server l2) (next (server l1)) (c, RegistrationRequest (Some n)) (Options id v) ->
  exists g' a k h, IsPage B W E J repr replaced (l2 ++ web_read p i o) p g' /\
    nth_error (pg_tasks g') i = Some (Create a k) /\ CreationArgument n h (ch_challenge c) a /\ HasHandle (server l2) n h.
Proof. exact c97_asked_registration. Qed.
Print Assumptions C97_asked_registration.

(** C97: or to sign with one of the user's credentials, each of which was registered; all that
    were registered before the request arrived are among them. *)
Theorem C97_asked_login :
  forall (B : browser) (W : World) (E : appenv) (J : jsonenv) (repr : N -> pystr) (replaced : bytes -> pystr)
  (l : list web_event) (p : nat) (g : page) (c : chance) (o : nat -> list web_event) (id : N) (v : pyval),
  limits J -> converts E -> ParsesJson B J -> (forall m, Apart p (o m)) ->
  let server := fun l => wb_server (Web B W E J repr replaced l) in
  let i := List.length (pg_tasks g) in let u := g_input (pg_globals g) in let n := usv u in
  let l1 := l ++ web_click p ClickAuthenticate o in let l2 := l1 ++ web_ask p i c o in
  IsPage B W E J repr replaced l p g -> Units u -> id <= 2 ^ 53 ->
  Replied (server l2) (next (server l1)) (c, AuthenticationRequest (Some n)) (Options id v) ->
  exists g' a k ids, IsPage B W E J repr replaced (l2 ++ web_read p i o) p g' /\
    nth_error (pg_tasks g') i = Some (Get a k) /\ RequestArgument ids (ch_challenge c) a /\ NoDup ids /\
    (forall cid, In cid ids -> exists key, AcceptedKey W (server l2) n cid key) /\
    (forall cid key, AcceptedKey W (server l1) n cid key -> In cid ids).
Proof. exact c97_asked_login. Qed.
Print Assumptions C97_asked_login.

(** C97: the response goes out with the number of the challenge, and the page shows what the
    server made of it. *)
Theorem C97_registration_run :
  forall (B : browser) (W : World) (E : appenv) (J : jsonenv) (repr : N -> pystr) (replaced : bytes -> pystr)
  (l : list web_event) (p : nat) (g : page) (c c' : chance) (o : nat -> list web_event) (id : N) (v : pyval)
  (a : att_cred) (cr : credential),
  limits J -> converts E -> (forall t, w_json_loads W t = json_loads J t) -> ParsesJson B J -> (forall m, Apart p (o m)) ->
  let server := fun l => wb_server (Web B W E J repr replaced l) in
  let i := List.length (pg_tasks g) in let u := g_input (pg_globals g) in let n := usv u in
  let l1 := l ++ web_click p ClickRegister o in let l2 := l1 ++ web_ask p i c o in
  let l3 := (l2 ++ web_read p i o) ++ web_sign p i (Created i (Some a)) o in
  let l4 := l3 ++ web_tell p i c' o in let l5 := l4 ++ web_end p i o in
  IsPage B W E J repr replaced l p g -> Units u -> id <= 2 ^ 53 ->
  Replied (server l2) (next (server l1)) (c, RegistrationRequest (Some n)) (Options id v) -> Attests a cr ->
  exists q t, Registers W q t n cr /\ IntPart t /\ Decimal t id /\
    Sent B W E J repr replaced l4 p RegistrationResponseUrl (next (server l3)) (c', q) /\
    forall r, Replied (server l4) (next (server l3)) (c', q) r ->
      exists g', IsPage B W E J repr replaced l5 p g' /\ nth_error (pg_tasks g') i = Some Finished /\
        (r = Success <-> g_status (pg_globals g') = registered_text u) /\
        (r <> Success -> g_status (pg_globals g') = register_failed_text u).
Proof. exact c97_registration_run. Qed.
Print Assumptions C97_registration_run.

(** C97: the same for a login. *)
Theorem C97_login_run :
  forall (B : browser) (W : World) (E : appenv) (J : jsonenv) (repr : N -> pystr) (replaced : bytes -> pystr)
  (l : list web_event) (p : nat) (g : page) (c c' : chance) (o : nat -> list web_event) (id : N) (v : pyval)
  (a : ass_cred) (cr : credential),
  limits J -> converts E -> (forall t, w_json_loads W t = json_loads J t) -> ParsesJson B J -> (forall m, Apart p (o m)) ->
  let server := fun l => wb_server (Web B W E J repr replaced l) in
  let i := List.length (pg_tasks g) in let u := g_input (pg_globals g) in let n := usv u in
  let l1 := l ++ web_click p ClickAuthenticate o in let l2 := l1 ++ web_ask p i c o in
  let l3 := (l2 ++ web_read p i o) ++ web_sign p i (Got i (Some a)) o in
  let l4 := l3 ++ web_tell p i c' o in let l5 := l4 ++ web_end p i o in
  IsPage B W E J repr replaced l p g -> Units u -> id <= 2 ^ 53 ->
  Replied (server l2) (next (server l1)) (c, AuthenticationRequest (Some n)) (Options id v) -> Asserts a cr ->
  exists q t, Authenticates W q t n cr /\ IntPart t /\ Decimal t id /\
    Sent B W E J repr replaced l4 p AuthenticationResponseUrl (next (server l3)) (c', q) /\
    forall r, Replied (server l4) (next (server l3)) (c', q) r ->
      exists g', IsPage B W E J repr replaced l5 p g' /\ nth_error (pg_tasks g') i = Some Finished /\
        (r = Success <-> g_status (pg_globals g') = authorized_text u) /\
        (r <> Success -> g_status (pg_globals g') = authorize_failed_text u).
Proof. exact c97_login_run. Qed.
Print Assumptions C97_login_run.

(** C97: a user who registers a new credential in one page is registered, and told so, whatever
    the other pages and clients do, if no statement of their own response fails. *)
Theorem C97_registration :
  forall (B : browser) (W : World) (E : appenv) (J : jsonenv) (repr : N -> pystr) (replaced : bytes -> pystr)
  (depth : nat) (l : list web_event) (p : nat) (g : page) (c c' : chance) (o : nat -> list web_event) (id : N) (v : pyval)
  (a : att_cred) (cr : credential) (cid : bytes) (k : pubkey) (ctr : N),
  limits J -> converts E -> Conforming W depth J -> ParsesJson B J -> reads_decimal E -> (forall m, Apart p (o m)) ->
  let server := fun l => wb_server (Web B W E J repr replaced l) in
  let i := List.length (pg_tasks g) in let u := g_input (pg_globals g) in let n := usv u in
  let l1 := l ++ web_click p ClickRegister o in let l2 := l1 ++ web_ask p i c o in
  let l3 := (l2 ++ web_read p i o) ++ web_sign p i (Created i (Some a)) o in
  let l4 := l3 ++ web_tell p i c' o in let l5 := l4 ++ web_end p i o in
  IsPage B W E J repr replaced l p g -> Units u -> id <= 2 ^ 53 ->
  Replied (server l2) (next (server l1)) (c, RegistrationRequest (Some n)) (Options id v) ->
  Attests a cr -> AppRegistration W depth cr (ch_challenge c) cid k ctr ->
  OnlyRegistration W (server l4) (next (server l3)) cid -> (ch_clock c' - ch_clock c <= 60000)%Z ->
  ~ In (Fail (next (server l3))) (own (o 7%nat)) -> (6 <= turns (next (server l3)) (own (o 7%nat)))%nat ->
  exists g', IsPage B W E J repr replaced l5 p g' /\ nth_error (pg_tasks g') i = Some Finished /\
    g_status (pg_globals g') = registered_text u /\ AcceptedKey W (server l5) n cid k.
Proof. exact c97_registration. Qed.
Print Assumptions C97_registration.

(** C97: and a user who logs in with a credential registered before is told so. *)
Theorem C97_login :
  forall (B : browser) (W : World) (E : appenv) (J : jsonenv) (repr : N -> pystr) (replaced : bytes -> pystr)
  (depth : nat) (l : list web_event) (p : nat) (g : page) (c c' : chance) (o : nat -> list web_event) (id : N) (v : pyval)
  (a : ass_cred) (cr : credential) (cid : bytes) (k : pubkey) (handle : bytes) (ctr : N),
  limits J -> converts E -> Conforming W depth J -> ParsesJson B J -> reads_decimal E -> (forall m, Apart p (o m)) ->
  let server := fun l => wb_server (Web B W E J repr replaced l) in
  let i := List.length (pg_tasks g) in let u := g_input (pg_globals g) in let n := usv u in
  let l1 := l ++ web_click p ClickAuthenticate o in let l2 := l1 ++ web_ask p i c o in
  let l3 := (l2 ++ web_read p i o) ++ web_sign p i (Got i (Some a)) o in
  let l4 := l3 ++ web_tell p i c' o in let l5 := l4 ++ web_end p i o in
  IsPage B W E J repr replaced l p g -> Units u -> id <= 2 ^ 53 ->
  Replied (server l2) (next (server l1)) (c, AuthenticationRequest (Some n)) (Options id v) ->
  AcceptedKey W (server l3) n cid k -> HasHandle (server l3) n handle ->
  Asserts a cr -> AppLogin W depth cr (ch_challenge c) cid k handle ctr ->
  LargestLogin W (server l4) (next (server l3)) cid ctr -> (ch_clock c' - ch_clock c <= 60000)%Z ->
  ~ In (Fail (next (server l3))) (own (o 7%nat)) -> (6 <= turns (next (server l3)) (own (o 7%nat)))%nat ->
  exists g', IsPage B W E J repr replaced l5 p g' /\ nth_error (pg_tasks g') i = Some Finished /\
    g_status (pg_globals g') = authorized_text u /\ AuthorizedBy B W E J repr replaced l5 p n.
Proof. exact c97_login. Qed.
Print Assumptions C97_login.

(** Two pages at once: alice and bob register together, then alice logs in. *)
Example hyp_web_registration :
  limits ex_json /\ converts ex_env /\ Conforming ex_world 900 ex_json /\ ParsesJson ex_browser ex_json /\ reads_decimal ex_env /\
  (forall m, Apart 0 (meanwhile m)) /\
  (exists g, ex_page opened 0 g /\ pg_tasks g = [] /\ g_input (pg_globals g) = lit "alice") /\ Units (lit "alice") /\
  (exists v, Replied (ex_server reg2) (next (ex_server reg1))
     (chance_of "handle-a" "challenge-1" 1000, RegistrationRequest (Some (usv (lit "alice")))) (Options 1 v)) /\
  Attests (ex_att "challenge-1" "cred-1") ex_registration /\
  AppRegistration ex_world 900 ex_registration (blit "challenge-1") (blit "cred-1") ex_key 0 /\
  next (ex_server reg3) = 3%nat /\ OnlyRegistration ex_world (ex_server reg4) 3 (blit "cred-1") /\
  ~ In (Fail 3) (own (meanwhile 7)) /\ (6 <= turns 3 (own (meanwhile 7)))%nat /\
  (exists g, ex_page reg5 1 g /\ g_status (pg_globals g) = registered_text (lit "bob")).
Proof.
  split; [exact ex_limits|]. split; [exact ex_converts|]. split; [exact ex_conforming|]. split; [exact ex_parses|].
  split; [exact ex_decimal|]. split; [exact meanwhile_apart|]. split; [exact ex_reg_page|]. split; [repeat constructor|].
  split; [exact ex_reg_replied|]. split; [exact ex_attests|]. split; [exact ex_registration_honest|].
  split; [exact ex_reg_next|]. split; [exact ex_reg_only|]. split; [vm_compute; intuition discriminate|].
  split; [vm_compute; repeat constructor|]. eexists. split; [vm_compute; reflexivity|]. vm_compute. reflexivity.
Qed.
Example hyp_web_login :
  (forall m, Apart 0 (meantime m)) /\
  (exists g, ex_page retyped 0 g /\ List.length (pg_tasks g) = 1%nat /\ g_input (pg_globals g) = lit "alice") /\
  (exists v, Replied (ex_server log2) (next (ex_server log1))
     (chance_of "" "challenge-4" 6000, AuthenticationRequest (Some (usv (lit "alice")))) (Options 5 v)) /\
  AcceptedKey ex_world (ex_server log3) (lit "alice") (blit "cred-1") ex_key /\
  HasHandle (ex_server log3) (lit "alice") (blit "handle-a") /\
  Asserts (ex_ass "challenge-4" "cred-1" 7) ex_login /\
  AppLogin ex_world 900 ex_login (blit "challenge-4") (blit "cred-1") ex_key (blit "handle-a") 7 /\
  next (ex_server log3) = 7%nat /\ LargestLogin ex_world (ex_server log4) 7 (blit "cred-1") 7 /\
  ~ In (Fail 7) (own (meantime 7)) /\ (6 <= turns 7 (own (meantime 7)))%nat.
Proof.
  split; [exact meantime_apart|]. split; [exact ex_log_page|]. split; [exact ex_log_replied|]. split; [exact ex_log_accepted|].
  split; [exact ex_log_handle|]. split; [exact ex_asserts|]. split; [exact ex_login_honest|]. split; [exact ex_log_next|].
  split; [exact ex_log_largest|]. split; [vm_compute; intuition discriminate|]. vm_compute. repeat constructor.
Qed.
Example hyp_web_named :
  Patient ex_browser ex_world ex_env ex_json (fun _ => []) (fun _ => []) 0 log5 /\
  exists g, ex_page log5 0 g /\ g_status (pg_globals g) = authorized_text (lit "alice").
Proof. split; [exact ex_patient|exact ex_shown]. Qed.
