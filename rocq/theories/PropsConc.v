(** * Properties C73 to C76: the example application with requests in flight together, and
    its answers. *)
From Coq Require Import List NArith ZArith Bool String.
From Verif Require Import Base PyVal B64 Utf8 Url CaseConv Cbor Types World Parsers Crypto
  Backends Spec Examples OptionSpec App AppSpec AppExamples AppTheorems
  AppConc AppConcSpec AppConcFacts AppConcInv AppConcExamples AppReplySpec AppConcTheorems
  AppConcCount.
Import ListNotations.
Local Open Scope list_scope.

(** C73: a handler that nobody interrupts is the handler of App.v. *)
Theorem C73_alone :
  forall (W : World) (E : appenv) (x : chance * request) (d : database),
  alone (handle W E x) d = serve W E d x.
Proof. exact (@handle_alone). Qed.
Print Assumptions C73_alone.

(** C73: requests served one after the other are one of the interleavings. *)
Theorem C73_sequential :
  forall (W : World) (E : appenv) (l : list (chance * request)),
  exists ev, Undisturbed ev /\ sv_db (Served W E ev) = after W E l /\
    forall l1 x l2, l = l1 ++ x :: l2 ->
    Replied (Served W E ev) (List.length l1) x (answer W E l1 x).
Proof. exact (@c73_sequential). Qed.
Print Assumptions C73_sequential.

(** C73: whatever the interleaving, keys stay unique and every row has its user. *)
Theorem C73_consistent :
  forall (W : World) (E : appenv) (l : list sv_event), Consistent (sv_db (Served W E l)).
Proof. exact (@c73_consistent). Qed.
Print Assumptions C73_consistent.

(** C73: no row is lost; users and challenges stay as they are, credentials keep their key
    and their user. *)
Theorem C73_rows_kept :
  forall (W : World) (E : appenv) (l1 l2 : list sv_event),
  (forall u, In u (db_users (sv_db (Served W E l1))) -> In u (db_users (sv_db (Served W E (l1 ++ l2))))) /\
  (forall h, In h (db_chals (sv_db (Served W E l1))) -> In h (db_chals (sv_db (Served W E (l1 ++ l2))))) /\
  (forall c, In c (db_creds (sv_db (Served W E l1))) ->
     exists c', In c' (db_creds (sv_db (Served W E (l1 ++ l2)))) /\
       kr_id c' = kr_id c /\ kr_key c' = kr_key c /\ kr_user c' = kr_user c).
Proof. exact (@c73_rows). Qed.
Print Assumptions C73_rows_kept.

(** C73: every stored credential was attested in a registration of its user that was
    answered with success. *)
Theorem C73_provenance :
  forall (W : World) (E : appenv) (l : list sv_event) (c : cred_row),
  In c (db_creds (sv_db (Served W E l))) ->
  exists u k, In u (db_users (sv_db (Served W E l))) /\ kr_user c = ur_id u /\
    AcceptedKey W (Served W E l) (ur_username u) (kr_id c) k /\ cose_key (Some k) = Ok (kr_key c).
Proof. exact (@c73_provenance). Qed.
Print Assumptions C73_provenance.

(** C73: one credential id is accepted once. *)
Theorem C73_once :
  forall (W : World) (E : appenv) (l : list sv_event) (j1 j2 : nat) (y1 y2 : chance * request)
  (i1 n1 i2 n2 : pystr) (cr1 cr2 : credential),
  Replied (Served W E l) j1 y1 Success -> Replied (Served W E l) j2 y2 Success ->
  Registers W (snd y1) i1 n1 cr1 -> Registers W (snd y2) i2 n2 cr2 ->
  cr_raw_id cr1 = cr_raw_id cr2 -> j1 = j2.
Proof. exact (@c73_once). Qed.
Print Assumptions C73_once.

(** C73: an accepted login is in order but for the counter. *)
Theorem C73_login :
  forall (W : World) (E : appenv) (depth : nat) (l : list sv_event) (j : nat) (x : chance * request)
  (i n : pystr) (cr : credential),
  converts E -> decodes_cbor W depth -> 2 <= depth ->
  Replied (Served W E l) j x Success -> Authenticates W (snd x) i n cr ->
  SharedLogin W E (Served W E l) (ch_clock (fst x)) i n cr.
Proof. exact (@shared_login). Qed.
Print Assumptions C73_login.

(** C73: an accepted registration is in order, and its row is stored. *)
Theorem C73_registration :
  forall (W : World) (E : appenv) (l : list sv_event) (j : nat) (x : chance * request)
  (i n : pystr) (cr : credential),
  converts E -> Replied (Served W E l) j x Success -> Registers W (snd x) i n cr ->
  SharedRegistration W E (Served W E l) (ch_clock (fst x)) i n cr.
Proof. exact (@shared_registration). Qed.
Print Assumptions C73_registration.

(** C73: a challenge number has one challenge and one time. *)
Theorem C73_challenge_unique :
  forall (W : World) (E : appenv) (l : list sv_event) (n n' : pystr) (c c' : bytes) (id : N) (t t' : Z),
  DrawnChallenge (Served W E l) n c id t -> DrawnChallenge (Served W E l) n' c' id t' -> c = c' /\ t = t'.
Proof. exact (@c73_challenge). Qed.
Print Assumptions C73_challenge_unique.

(** C73: every challenge that is sent is stored. *)
Theorem C73_sent :
  forall (W : World) (E : appenv) (l : list sv_event) (n : pystr) (c : bytes) (id : N) (t : Z),
  SentChallenge (Served W E l) n c id t -> DrawnChallenge (Served W E l) n c id t.
Proof. exact (@c73_sent). Qed.
Print Assumptions C73_sent.

(** C73: a request of which a statement fails is answered with an error at once, and nothing
    is written. *)
Theorem C73_failed :
  forall (W : World) (E : appenv) (l : list sv_event) (j : nat) (x : chance * request),
  InFlight (Served W E l) j x ->
  exists r, (Broken r \/ FailedReply (snd x) r) /\ Replied (Served W E (l ++ [Fail j])) j x r /\
    sv_db (Served W E (l ++ [Fail j])) = sv_db (Served W E l).
Proof. exact (@c73_failed). Qed.
Print Assumptions C73_failed.

(** C73: no handler waits for another: six turns are enough for every request but that for
    the options of a login, and four and the number of credentials for that. *)
Theorem C73_answered :
  forall (W : World) (E : appenv) (l1 l2 : list sv_event) (x : chance * request),
  let j := List.length (sv_threads (Served W E l1)) in
  let s := Served W E (l1 ++ Arrive x :: l2) in
  needs (snd x) (List.length (db_creds (sv_db s))) <= turns j l2 -> exists r, Replied s j x r.
Proof. exact (@c73_answered). Qed.
Print Assumptions C73_answered.

Example hyp_conc :
  (exists cr, Registers ex_world (snd (do_reg "1" "alice" "challenge-1" "cred-1" 2000)) (lit "1") (lit "alice") cr) /\
  (exists cr, Authenticates ex_world (snd login7) (lit "2") (lit "alice") cr) /\
  Replied (Served ex_world ex_env orderly) 1 (do_reg "1" "alice" "challenge-1" "cred-1" 2000) Success /\
  Replied (Served ex_world ex_env orderly) 3 login7 Success /\
  converts ex_env /\ decodes_cbor ex_world 900 /\
  6 <= turns 3 (turn 5 3 ++ turn 6 4 ++ turn 1 3) /\
  (exists v, Replied (Served ex_world ex_env orderly) 4 (ask_reg "bob" "handle-b" "challenge-3" 3000) (Options 3 v)).
Proof.
  split; [eexists; eexists; split; [reflexivity|]; eexists; split; [vm_compute; reflexivity|]; vm_compute; reflexivity|].
  split; [eexists; eexists; split; [reflexivity|]; eexists; split; [vm_compute; reflexivity|]; vm_compute; reflexivity|].
  split; [vm_compute; reflexivity|]. split; [vm_compute; reflexivity|].
  split; [exact ex_converts|]. split; [exact ex_decodes|]. split; [vm_compute; repeat constructor|].
  eexists. vm_compute. reflexivity.
Qed.

(** In [locked] the challenge is stored but not sent, and the registration with it fails
    because its row cannot be written. *)
Example hyp_failed :
  InFlight (Served ex_world ex_env (firstn 5 locked)) 0 (ask_reg "alice" "handle-a" "challenge-1" 1000) /\
  Replied (Served ex_world ex_env locked) 0 (ask_reg "alice" "handle-a" "challenge-1" 1000)
    (ServerError (Py EOperationalError)) /\
  DrawnChallenge (Served ex_world ex_env locked) (lit "alice") (blit "challenge-1") 1 1000 /\
  ~ SentChallenge (Served ex_world ex_env locked) (lit "alice") (blit "challenge-1") 1 1000 /\
  Replied (Served ex_world ex_env locked) 1 (do_reg "1" "alice" "challenge-1" "cred-1" 2000)
    (Reply 400 "Could not handle credential attestation") /\
  db_creds (sv_db (Served ex_world ex_env locked)) = [].
Proof. exact ex_locked. Qed.

(** C74, refuted: one login, sent twice, is accepted twice. *)
Theorem C74_replay_refuted :
  exists W E l j1 j2 x i n cr depth, Undisturbed l /\
    converts E /\ decodes_cbor W depth /\ 2 <= depth /\ j1 <> j2 /\
    Authenticates W (snd x) i n cr /\
    Replied (Served W E l) j1 x Success /\ Replied (Served W E l) j2 x Success.
Proof. exact c74_replay. Qed.
Print Assumptions C74_replay_refuted.

(** C74, refuted: a stored counter decreases. *)
Theorem C74_counter_refuted :
  exists W E l1 l2 id m m' depth, Undisturbed (l1 ++ l2) /\
    converts E /\ decodes_cbor W depth /\ 2 <= depth /\
    stored_count id (sv_db (Served W E l1)) = Some m /\
    stored_count id (sv_db (Served W E (l1 ++ l2))) = Some m' /\ (m' < m)%Z.
Proof. exact c74_counter. Qed.
Print Assumptions C74_counter_refuted.

(** C74: if no two logins with one credential are handled at the same time, the counters of
    accepted logins with it increase, and the stored counter does not decrease.  Missing:
    runs in which they overlap. *)
Theorem C74_increasing_partial :
  forall (W : World) (E : appenv) (l : list sv_event) (j1 j2 : nat) (y1 y2 : chance * request)
  (i1 n1 i2 n2 : pystr) (cr1 cr2 : credential) (c1 c2 : N),
  Exclusive W E l -> j1 < j2 ->
  Replied (Served W E l) j1 y1 Success -> Replied (Served W E l) j2 y2 Success ->
  Authenticates W (snd y1) i1 n1 cr1 -> Authenticates W (snd y2) i2 n2 cr2 ->
  cr_raw_id cr1 = cr_raw_id cr2 -> LoginCounter cr1 c1 -> LoginCounter cr2 c2 -> (c1 < c2)%N.
Proof. exact (@c74_increasing). Qed.
Print Assumptions C74_increasing_partial.

Theorem C74_stored_partial :
  forall (W : World) (E : appenv) (l1 l2 : list sv_event) (id : bytes) (m : Z),
  Exclusive W E (l1 ++ l2) -> stored_count id (sv_db (Served W E l1)) = Some m ->
  exists m', stored_count id (sv_db (Served W E (l1 ++ l2))) = Some m' /\ (m <= m')%Z.
Proof. exact (@count_grows). Qed.
Print Assumptions C74_stored_partial.

(** C74: the stored counter is at least that of every login accepted in such a run. *)
Theorem C74_stored_bound_partial :
  forall (W : World) (E : appenv) (l : list sv_event) (j : nat) (y : chance * request)
  (i n : pystr) (cr : credential) (c : N),
  Exclusive W E l -> Replied (Served W E l) j y Success -> Authenticates W (snd y) i n cr ->
  LoginCounter cr c ->
  exists m, stored_count (cr_raw_id cr) (sv_db (Served W E l)) = Some m /\ (Z.of_N c <= m)%Z.
Proof. exact (@c74_bound). Qed.
Print Assumptions C74_stored_bound_partial.

(** C74: in every run, an accepted login exceeds the counter that was stored at some time
    while it was being handled. *)
Theorem C74_exceeds :
  forall (W : World) (E : appenv) (l : list sv_event) (j : nat) (y : chance * request)
  (i n : pystr) (cr : credential) (c : N),
  Replied (Served W E l) j y Success -> Authenticates W (snd y) i n cr -> LoginCounter cr c ->
  exists l1 l2, l = l1 ++ l2 /\ InFlight (Served W E l1) j y /\
    In (cr_raw_id cr) (map kr_id (db_creds (sv_db (Served W E l1)))) /\
    forall m, stored_count (cr_raw_id cr) (sv_db (Served W E l1)) = Some m -> (m < Z.of_N c)%Z.
Proof. exact (@c74_read). Qed.
Print Assumptions C74_exceeds.

(** C74: in every run, at the step that accepts a login its counter is stored. *)
Theorem C74_written :
  forall (W : World) (E : appenv) (l : list sv_event) (j : nat) (y : chance * request)
  (i n : pystr) (cr : credential) (c : N),
  Replied (Served W E l) j y Success -> Authenticates W (snd y) i n cr -> LoginCounter cr c ->
  exists l1 l2, l = l1 ++ Proceed j :: l2 /\ InFlight (Served W E l1) j y /\
    Replied (Served W E (l1 ++ [Proceed j])) j y Success /\
    stored_count (cr_raw_id cr) (sv_db (Served W E (l1 ++ [Proceed j]))) = Some (Z.of_N c).
Proof. exact (@c74_write). Qed.
Print Assumptions C74_written.

(** C74: in every run, nothing else changes a stored counter. *)
Theorem C74_changed :
  forall (W : World) (E : appenv) (l : list sv_event) (e : sv_event) (id : bytes),
  stored_count id (sv_db (Served W E (l ++ [e]))) <> stored_count id (sv_db (Served W E l)) ->
  exists j y i n cr c, e = Proceed j /\ InFlight (Served W E l) j y /\
    Replied (Served W E (l ++ [e])) j y Success /\ Authenticates W (snd y) i n cr /\
    cr_raw_id cr = id /\ LoginCounter cr c /\
    stored_count id (sv_db (Served W E (l ++ [e]))) = Some (Z.of_N c).
Proof. exact (@c74_change). Qed.
Print Assumptions C74_changed.

(** C74: in every run, a login that does not exceed the counter it replaces was overtaken:
    while it was being handled, another login with the credential was accepted and wrote
    that counter. *)
Theorem C74_overtaken :
  forall (W : World) (E : appenv) (l : list sv_event) (j : nat) (y : chance * request)
  (i n : pystr) (cr : credential) (c : N) (m : Z),
  InFlight (Served W E l) j y -> Replied (Served W E (l ++ [Proceed j])) j y Success ->
  Authenticates W (snd y) i n cr -> LoginCounter cr c ->
  stored_count (cr_raw_id cr) (sv_db (Served W E l)) = Some m -> (Z.of_N c <= m)%Z ->
  exists l1 l2 j' y' i' n' cr' c', l = l1 ++ Proceed j' :: l2 /\ j' <> j /\
    InFlight (Served W E l1) j y /\ InFlight (Served W E l1) j' y' /\
    Replied (Served W E (l1 ++ [Proceed j'])) j' y' Success /\ Authenticates W (snd y') i' n' cr' /\
    cr_raw_id cr' = cr_raw_id cr /\ LoginCounter cr' c' /\ m = Z.of_N c'.
Proof. exact (@c74_overtaken). Qed.
Print Assumptions C74_overtaken.

(** C74: it is enough that no two logins with this credential are handled at the same time,
    whatever else is.  Missing: runs in which they overlap. *)
Theorem C74_credential_partial :
  forall (W : World) (E : appenv) (id : bytes) (l1 l2 : list sv_event) (m : Z),
  ExclusiveFor W E id (l1 ++ l2) -> stored_count id (sv_db (Served W E l1)) = Some m ->
  exists m', stored_count id (sv_db (Served W E (l1 ++ l2))) = Some m' /\ (m <= m')%Z.
Proof. exact (@c74_for). Qed.
Print Assumptions C74_credential_partial.

Theorem C74_accepted_partial :
  forall (W : World) (E : appenv) (l1 l2 : list sv_event) (j1 j2 : nat) (y1 y2 : chance * request)
  (i1 n1 : pystr) (cr1 : credential) (c1 : N) (i2 n2 : pystr) (cr2 : credential) (c2 : N),
  ExclusiveFor W E (cr_raw_id cr2) (l1 ++ l2) ->
  Replied (Served W E l1) j1 y1 Success -> ~ Replied (Served W E l1) j2 y2 Success ->
  Replied (Served W E (l1 ++ l2)) j2 y2 Success ->
  Authenticates W (snd y1) i1 n1 cr1 -> Authenticates W (snd y2) i2 n2 cr2 ->
  cr_raw_id cr1 = cr_raw_id cr2 -> LoginCounter cr1 c1 -> LoginCounter cr2 c2 -> (c1 < c2)%N.
Proof. exact (@c74_accepted_for). Qed.
Print Assumptions C74_accepted_partial.

(** The login with counter 7 is overtaken by that with counter 8. *)
Example hyp_overtaken :
  InFlight (Served ex_world ex_env overtaken) 3 login7 /\
  Replied (Served ex_world ex_env (overtaken ++ [Proceed 3])) 3 login7 Success /\
  Authenticates ex_world (snd login7) (lit "2") (lit "alice") login_cred /\
  LoginCounter login_cred 7 /\ cr_raw_id login_cred = blit "cred-1" /\
  stored_count (blit "cred-1") (sv_db (Served ex_world ex_env overtaken)) = Some 8%Z.
Proof.
  split; [apply in_flight_by; vm_compute; reflexivity|]. split; [vm_compute; reflexivity|].
  split; [exact login7_is|].
  split; [do 4 eexists; split; vm_compute; reflexivity|]. split; vm_compute; reflexivity.
Qed.
Example hyp_exclusive :
  Exclusive ex_world ex_env orderly /\ ~ Exclusive ex_world ex_env replay /\
  Replied (Served ex_world ex_env orderly) 3 login7 Success /\
  Replied (Served ex_world ex_env orderly) 5 login8 Success /\
  stored_count (blit "cred-1") (sv_db (Served ex_world ex_env orderly)) = Some 8%Z.
Proof.
  split; [apply exclusive_by; vm_compute; reflexivity|]. split; [exact replay_not_exclusive|].
  split; [vm_compute; reflexivity|]. split; [vm_compute; reflexivity|]. vm_compute. reflexivity.
Qed.
Example hyp_exclusive_for :
  ExclusiveFor ex_world ex_env (blit "cred-1") orderly /\
  exists l1 l2, orderly = l1 ++ l2 /\ Replied (Served ex_world ex_env l1) 3 login7 Success /\
    ~ Replied (Served ex_world ex_env l1) 5 login8 Success /\
    Replied (Served ex_world ex_env orderly) 5 login8 Success.
Proof.
  split.
  - intros l1 l2 Q j1 j2 x1 x2 i1 i2 n1 n2 cr1 cr2 F1 F2 A1 A2 I1 I2.
    eapply (proj1 hyp_exclusive l1 l2 Q j1 j2); eauto. congruence.
  - exists (firstn 30 orderly), (skipn 30 orderly). split; [symmetry; apply firstn_skipn|].
    split; [vm_compute; reflexivity|]. split; [|vm_compute; reflexivity].
    unfold Replied. replace (nth_error _ 5) with (@None ((chance * request) * thread)); [discriminate|].
    vm_compute. reflexivity.
Qed.

(** C75, refuted: of two requests for a new user, with different random bytes, one fails
    with a server error; sent one after the other, both are answered. *)
Theorem C75_new_user_refuted :
  exists W E x1 x2 l j, Undisturbed l /\
    converts E /\ ch_handle (fst x1) <> ch_handle (fst x2) /\
    ch_challenge (fst x1) <> ch_challenge (fst x2) /\
    (exists id v, answer W E [] x1 = Options id v) /\ (exists id v, answer W E [x1] x2 = Options id v) /\
    (exists id v, answer W E [] x2 = Options id v) /\ (exists id v, answer W E [x2] x1 = Options id v) /\
    (forall x, In (Arrive x) l -> x = x1 \/ x = x2) /\
    Replied (Served W E l) j x2 (ServerError (Py EIntegrityError)).
Proof. exact c75_new_user. Qed.
Print Assumptions C75_new_user_refuted.

(** C75: these are all answers there are, unless a statement fails.  Missing: that requests
    for options do not fail unless random bytes repeat. *)
Theorem C75_answers_partial :
  forall (W : World) (E : appenv) (l : list sv_event) (j : nat) (x : chance * request) (r : reply),
  converts E -> Replied (Served W E l) j x r -> AnswerOf x r \/ Broken r /\ In (Fail j) l.
Proof. exact (@c75_answers). Qed.
Print Assumptions C75_answers_partial.

(** C75: a request for options fails only if another one that arrived has the same random
    bytes or is for the same user, or if one of its statements fails. *)
Theorem C75_conflict_partial :
  forall (W : World) (E : appenv) (l : list sv_event) (j : nat) (x : chance * request) (e : exn),
  converts E -> Replied (Served W E l) j x (ServerError e) ->
  e = Py EIntegrityError /\
  (exists j' y, j' <> j /\ (exists t, nth_error (sv_threads (Served W E l)) j' = Some (y, t)) /\
    (exists n n', Asks (snd x) n /\ Asks (snd y) n' /\
     (ch_challenge (fst y) = ch_challenge (fst x) \/ ch_handle (fst y) = ch_handle (fst x) \/ n' = n))) \/
  e = Py EOperationalError /\ In (Fail j) l.
Proof. exact (@c75_conflict). Qed.
Print Assumptions C75_conflict_partial.

(** C76: the answer to a login response names the first reason for which it is refused. *)
Theorem C76_login_reply :
  forall (W : World) (E : appenv) (depth : nat) (l : list (chance * request)) (x : chance * request)
  (i n : pystr) (cr : credential) (r : reply),
  converts E -> decodes_cbor W depth -> 2 <= depth -> Authenticates W (snd x) i n cr ->
  (answer W E l x = r <->
   ResponseReply W E l (ch_clock (fst x)) i n cr false (LoginSpec W E l (ch_clock (fst x)) i n cr)
     "Could not handle credential assertion" r).
Proof. exact (@c76_login). Qed.
Print Assumptions C76_login_reply.

(** C76: likewise for registration responses. *)
Theorem C76_registration_reply :
  forall (W : World) (E : appenv) (l : list (chance * request)) (x : chance * request)
  (i n : pystr) (cr : credential) (r : reply),
  converts E -> Registers W (snd x) i n cr ->
  (answer W E l x = r <->
   ResponseReply W E l (ch_clock (fst x)) i n cr true (RegisterSpec W E l (ch_clock (fst x)) i n cr)
     "Could not handle credential attestation" r).
Proof. exact (@c76_registration). Qed.
Print Assumptions C76_registration_reply.

(** C76: a response is unreadable exactly if a field is missing or the credential does not
    decode. *)
Theorem C76_unreadable :
  forall (W : World) (E : appenv) (l : list (chance * request)) (x : chance * request),
  (exists i k n, snd x = RegistrationResponse i k n \/ snd x = AuthenticationResponse i k n) ->
  (answer W E l x = Reply 400 "Could not parse input data" <->
   forall i n cr, ~ Registers W (snd x) i n cr /\ ~ Authenticates W (snd x) i n cr).
Proof. exact (@c76_unreadable). Qed.
Print Assumptions C76_unreadable.

(** C76: a request for options without a user name is a bad request. *)
Theorem C76_nameless :
  forall (W : World) (E : appenv) (l : list (chance * request)) (c : chance) (q : request),
  q = RegistrationRequest None \/ q = AuthenticationRequest None ->
  answer W E l (c, q) = Reply 400 "Bad Request" /\ after W E (l ++ [(c, q)]) = after W E l.
Proof. exact (@c76_nameless). Qed.
Print Assumptions C76_nameless.

Example hyp_reply :
  map (fun x => status (answer ex_world ex_env (firstn 6 session) x))
    [do_auth "4" "alice" "challenge-4" "cred-1" 7 7000; do_auth "9" "alice" "challenge-4" "cred-1" 7 7000;
     do_auth "4" "carol" "challenge-4" "cred-1" 7 7000; do_auth "4" "alice" "challenge-4" "cred-1" 7 66001;
     do_auth "4" "alice" "challenge-4" "cred-9" 7 7000;
     (chance_of "" "" 7000, AuthenticationResponse (Some (lit "4")) (Some (lit "{")) (Some (lit "alice")));
     (chance_of "" "" 7000, AuthenticationResponse (Some (lit "4"))
        (Some (reg_text (blit "challenge-4") (blit "cred-1"))) (Some (lit "alice")))] =
  [(200%N, "Success"); (400%N, "Could not find challenge matching given id"); (400%N, "Invalid username");
   (408%N, "Timeout"); (400%N, "Could not handle credential assertion");
   (400%N, "Could not parse input data"); (400%N, "Invalid response type")]%string.
Proof. vm_compute. reflexivity. Qed.
