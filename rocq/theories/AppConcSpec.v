(** * AppConcSpec: the example application under concurrent requests, specified. *)
From Coq Require Import List NArith ZArith Bool String.
From Verif Require Import Base PyVal B64 Utf8 CaseConv Types World Parsers Crypto Backends Spec
  OptionSpec App AppSpec AppConc.
Import ListNotations.
Local Open Scope list_scope.

(** The server after a sequence of events, starting with a new data base. *)
Definition Served (W : World) (E : appenv) (l : list sv_event) : server :=
  happen_all W E new_server l.

(** Request number [j] was [x] and has been answered with [r]; it is still being handled. *)
Definition Replied (s : server) (j : nat) (x : chance * request) (r : reply) : Prop :=
  nth_error (sv_threads s) j = Some (x, Answered r).
Definition InFlight (s : server) (j : nat) (x : chance * request) : Prop :=
  exists f g, nth_error (sv_threads s) j = Some (x, Statement f g).

(** Challenge [c] was sent with number [id] at time [t], to a request in the name of [n]. *)
Definition SentChallenge (s : server) (n : pystr) (c : bytes) (id : N) (t : Z) : Prop :=
  exists j y v, Replied s j y (Options id v) /\ Asks (snd y) n /\
    ch_challenge (fst y) = c /\ ch_clock (fst y) = t.
(** The answer when a statement outside of the backend fails. *)
Definition Broken (r : reply) : Prop := r = ServerError (Py EOperationalError).
(** Challenge [c] is stored with number [id]; a request in the name of [n] drew it at time
    [t], and it was sent to it with this number, unless the request is still being handled or
    a statement of it failed. *)
Definition DrawnChallenge (s : server) (n : pystr) (c : bytes) (id : N) (t : Z) : Prop :=
  exists j y th h, nth_error (sv_threads s) j = Some (y, th) /\ Asks (snd y) n /\
    ch_challenge (fst y) = c /\ ch_clock (fst y) = t /\
    In h (db_chals (sv_db s)) /\ hr_id h = id /\ hr_request h = c /\ hr_timestamp h = t /\
    (forall r, th = Answered r -> (exists v, r = Options id v) \/ Broken r).
(** Credential [raw_id] with public key [k] was accepted for user [n]. *)
Definition AcceptedKey (W : World) (s : server) (n : pystr) (raw_id : bytes) (k : pubkey) : Prop :=
  exists j y i cr, Replied s j y Success /\ Registers W (snd y) i n cr /\
    cr_raw_id cr = raw_id /\ AttestedKey W cr k.
(** User [n] exists, with this handle. *)
Definition HasHandle (s : server) (n : pystr) (handle : bytes) : Prop :=
  exists u, In u (db_users (sv_db s)) /\ ur_username u = n /\ ur_handle u = handle.

(** [LoginSpec] of AppSpec.v but for the counter. *)
Definition SharedLogin (W : World) (E : appenv) (s : server) (clock : Z) (i n : pystr)
           (cr : credential) : Prop :=
  exists id n0 c t handle k cdj adb sig uh ad,
    ap_int E i = Some id /\ DrawnChallenge s n0 c id t /\ (clock - t <= 60000)%Z /\
    HasHandle s n handle /\ AcceptedKey W s n (cr_raw_id cr) k /\
    cr_response cr = AssertionResponse cdj adb sig uh /\
    ClientDataSpec W "webauthn.get" c app_origin None cdj /\
    AuthDataSpec W app_rp_id false None adb ad /\
    SignatureSpec W k sig (adb ++ w_sha256 W cdj) /\
    (forall h, uh = Some h -> h = handle).
(** [RegisterSpec] likewise, with the row that was written. *)
Definition SharedRegistration (W : World) (E : appenv) (s : server) (clock : Z) (i n : pystr)
           (cr : credential) : Prop :=
  exists id n0 c t u cdj aob adb ad acd k row,
    ap_int E i = Some id /\ DrawnChallenge s n0 c id t /\ (clock - t <= 60000)%Z /\
    In u (db_users (sv_db s)) /\ ur_username u = n /\
    cr_response cr = AttestationResponse cdj aob /\
    ClientDataSpec W "webauthn.create" c app_origin None cdj /\
    AttObjSpec W aob "none" [] adb /\
    AuthDataSpec W app_rp_id false None adb ad /\
    ad_attested ad = Some acd /\ at_key acd = Some k /\
    In row (db_creds (sv_db s)) /\ kr_id row = cr_raw_id cr /\ kr_user row = ur_id u /\
    cose_key (Some k) = Ok (kr_key row).

(** The counter in a login. *)
Definition LoginCounter (cr : credential) (n : N) : Prop :=
  exists cdj adb sig uh, cr_response cr = AssertionResponse cdj adb sig uh /\ n = counter_of adb.

(** At no time are two logins with the same credential being handled. *)
Definition Exclusive (W : World) (E : appenv) (l : list sv_event) : Prop :=
  forall l1 l2, l = l1 ++ l2 ->
  forall j1 j2 x1 x2 i1 i2 n1 n2 cr1 cr2,
    InFlight (Served W E l1) j1 x1 -> InFlight (Served W E l1) j2 x2 ->
    Authenticates W (snd x1) i1 n1 cr1 -> Authenticates W (snd x2) i2 n2 cr2 ->
    cr_raw_id cr1 = cr_raw_id cr2 -> j1 = j2.

(** At no time are two logins with credential [id] being handled. *)
Definition ExclusiveFor (W : World) (E : appenv) (id : bytes) (l : list sv_event) : Prop :=
  forall l1 l2, l = l1 ++ l2 ->
  forall j1 j2 x1 x2 i1 i2 n1 n2 cr1 cr2,
    InFlight (Served W E l1) j1 x1 -> InFlight (Served W E l1) j2 x2 ->
    Authenticates W (snd x1) i1 n1 cr1 -> Authenticates W (snd x2) i2 n2 cr2 ->
    cr_raw_id cr1 = id -> cr_raw_id cr2 = id -> j1 = j2.

(** The counter stored for a credential. *)
Definition stored_count (id : bytes) (d : database) : option Z :=
  match cred_by_id id d with Some c => kr_count c | None => None end.

(** How often request [j] got its turn. *)
Definition turns (j : nat) (l : list sv_event) : nat :=
  List.length (filter (fun e => match e with
    | Proceed i | Fail i => Nat.eqb i j
    | Arrive _ => false end) l).
(** No statement fails. *)
Definition Undisturbed (l : list sv_event) : Prop := forall i, ~ In (Fail i) l.
(** The statements a request needs at most: a request for the options of a login reads each
    credential of its user again. *)
Definition needs (q : request) (creds : nat) : nat :=
  match q with AuthenticationRequest _ => 4 + creds | _ => 6 end.

(** The answers to a request for options: no user name, the options, a row that exists
    already, no such user. *)
Definition RequestAnswer (r : reply) : Prop :=
  r = Reply 400 "Bad Request" \/ (exists id v, r = Options id v) \/
  r = ServerError (Py EIntegrityError) \/ r = Reply 400 "User not registered".
(** The answers that refuse a response; [f] is the text for a failed ceremony. *)
Definition ResponseRefusal (f : string) (r : reply) : Prop :=
  r = Reply 400 "Could not parse input data" \/ r = Reply 400 "Invalid response type" \/
  r = Reply 400 "Could not find challenge matching given id" \/ r = Reply 400 "Invalid username" \/
  r = Reply 408 "Timeout" \/ r = Reply 400 f.
Definition AnswerOf (x : chance * request) (r : reply) : Prop :=
  match snd x with
  | RegistrationRequest _ | AuthenticationRequest _ => RequestAnswer r
  | RegistrationResponse _ _ _ =>
      r = Success \/ ResponseRefusal "Could not handle credential attestation" r
  | AuthenticationResponse _ _ _ =>
      r = Success \/ ResponseRefusal "Could not handle credential assertion" r
  end.
(** The answer when a statement of the registrar fails. *)
Definition FailedReply (q : request) (r : reply) : Prop :=
  match q with
  | RegistrationResponse _ _ _ => r = Reply 400 "Could not handle credential attestation"
  | AuthenticationResponse _ _ _ => r = Reply 400 "Could not handle credential assertion"
  | _ => False
  end.
