(** * AppSpec: histories of the example application, specified. *)
From Coq Require Import List NArith ZArith Bool String.
From Verif Require Import Base PyVal B64 Utf8 CaseConv Cbor Types World Parsers Crypto Backends Spec
  OptionSpec App.
Import ListNotations.
Local Open Scope list_scope.

(** ** Requests and what they carry *)

(** A POST that carries a credential: the JSON text in the form decodes to [cr]. *)
Definition Carries (W : World) (text : pystr) (cr : credential) : Prop :=
  exists m, w_json_loads W text = WOk (VDict m) /\ parse_public_key_credential W m = Ok cr.
(** Registration and authentication responses with challenge id [i], user name [n] and
    credential [cr]. *)
Definition Registers (W : World) (q : request) (i n : pystr) (cr : credential) : Prop :=
  exists t, q = RegistrationResponse (Some i) (Some t) (Some n) /\ Carries W t cr.
Definition Authenticates (W : World) (q : request) (i n : pystr) (cr : credential) : Prop :=
  exists t, q = AuthenticationResponse (Some i) (Some t) (Some n) /\ Carries W t cr.
(** A POST that asks for options. *)
Definition Asks (q : request) (n : pystr) : Prop :=
  q = RegistrationRequest (Some n) \/ q = AuthenticationRequest (Some n).

Definition Success : reply := Reply 200 "Success".

(** ** Histories, starting with a new data base *)
Definition after (W : World) (E : appenv) (l : list (chance * request)) : database :=
  snd (serve_all W E empty_db l).
Definition answer (W : World) (E : appenv) (l : list (chance * request))
           (x : chance * request) : reply := fst (serve W E (after W E l) x).

(** ** Tables *)

(** Keys are unique, and every row has its user. *)
Record Consistent (d : database) : Prop := {
  con_user_id : NoDup (map ur_id (db_users d));
  con_user_name : NoDup (map ur_username (db_users d));
  con_user_handle : NoDup (map ur_handle (db_users d));
  con_cred_id : NoDup (map kr_id (db_creds d));
  con_chal_id : NoDup (map hr_id (db_chals d));
  con_chal_request : NoDup (map hr_request (db_chals d));
  con_cred_user : forall c, In c (db_creds d) -> In (kr_user c) (map ur_id (db_users d));
  con_chal_user : forall h, In h (db_chals d) -> In (hr_user h) (map ur_id (db_users d));
}.

(** A stored counter may be replaced by this one. *)
Definition count_le (a b : option Z) : Prop :=
  match a with
  | None => True
  | Some m => exists n, b = Some n /\ (m <= n)%Z
  end.

(** ** Registrations *)

(** The client data of a response. *)
Definition client_data_of (cr : credential) : bytes :=
  match cr_response cr with
  | AttestationResponse c _ => c
  | AssertionResponse c _ _ _ => c
  end.
(** Its challenge is [c]. *)
Definition Answers (W : World) (cr : credential) (c : bytes) : Prop :=
  exists text m ch,
    utf8_decode (client_data_of cr) = Ok text /\ w_json_loads W text = WOk (VDict m) /\
    member "challenge" m (VStr ch) /\ url_base64_decode ch = Ok c.

(** The public key inside a registration response. *)
Definition AttestedKey (W : World) (cr : credential) (k : pubkey) : Prop :=
  exists cdj aob adb ad acd,
    cr_response cr = AttestationResponse cdj aob /\
    AttObjSpec W aob "none" [] adb /\ AuthReads W adb ad /\
    ad_attested ad = Some acd /\ at_key acd = Some k.

(** Request number [List.length l1] of history [l] was [y], and its answer was [r]. *)
Definition Happened (W : World) (E : appenv) (l l1 : list (chance * request))
           (y : chance * request) (r : reply) : Prop :=
  (exists l2, l = l1 ++ y :: l2) /\ answer W E l1 y = r.

(** Credential ids registered for user [n], oldest first. *)
Definition sent_id (W : World) (n : pystr) (q : request) : list bytes :=
  match q with
  | RegistrationResponse _ (Some t) (Some n') =>
      if str_eqb n' n then
        match w_json_loads W t with
        | WOk (VDict m) =>
            match parse_public_key_credential W m with Ok c => [cr_raw_id c] | Raise _ => [] end
        | _ => []
        end
      else []
  | _ => []
  end.
Definition is_success (r : reply) : bool :=
  match r with Reply c t => N.eqb c 200 && String.eqb t "Success" | _ => false end.
Fixpoint registered (W : World) (E : appenv) (n : pystr) (d : database)
         (l : list (chance * request)) : list bytes :=
  match l with
  | [] => []
  | x :: t =>
      (if is_success (fst (serve W E d x)) then sent_id W n (snd x) else [])
      ++ registered W E n (snd (serve W E d x)) t
  end.

(** The counter of the last accepted login with credential [id]. *)
Definition sent_counter (W : World) (id : bytes) (q : request) : option N :=
  match q with
  | AuthenticationResponse _ (Some t) _ =>
      match w_json_loads W t with
      | WOk (VDict m) =>
          match parse_public_key_credential W m with
          | Ok c => if bytes_eqb (cr_raw_id c) id
                    then match cr_response c with
                         | AssertionResponse _ adb _ _ => Some (counter_of adb)
                         | AttestationResponse _ _ => None
                         end
                    else None
          | Raise _ => None
          end
      | _ => None
      end
  | _ => None
  end.
Fixpoint last_counter (W : World) (E : appenv) (id : bytes) (d : database)
         (l : list (chance * request)) : option N :=
  match l with
  | [] => None
  | x :: t =>
      match last_counter W E id (snd (serve W E d x)) t with
      | Some n => Some n
      | None => if is_success (fst (serve W E d x)) then sent_counter W id (snd x) else None
      end
  end.

(** ** Acceptance in terms of what happened before *)

(** Challenge [c] was sent with number [id] at time [t], to a request in the name of [n]. *)
Definition Issued (W : World) (E : appenv) (l : list (chance * request)) (n : pystr) (c : bytes)
           (id : N) (t : Z) : Prop :=
  exists l1 y v, Happened W E l l1 y (Options id v) /\ Asks (snd y) n /\
    ch_challenge (fst y) = c /\ ch_clock (fst y) = t.

(** Credential [raw_id] with public key [k] was registered for user [n]. *)
Definition RegisteredKey (W : World) (E : appenv) (l : list (chance * request)) (n : pystr)
           (raw_id : bytes) (k : pubkey) : Prop :=
  exists l1 y i cr, Happened W E l l1 y Success /\ Registers W (snd y) i n cr /\
    cr_raw_id cr = raw_id /\ AttestedKey W cr k.

(** User [n] exists, with this handle. *)
Definition UserHandle (W : World) (E : appenv) (l : list (chance * request)) (n : pystr)
           (handle : bytes) : Prop :=
  exists u, In u (db_users (after W E l)) /\ ur_username u = n /\ ur_handle u = handle.

Definition app_origin : expected_origin := OneOrigin (lit "http://localhost:5000").
Definition app_rp_id : pystr := lit "localhost".

(** A login is in order: a challenge sent at most 60 s before, to whomever; a key registered
    for the user; client data, authenticator data and signature as they should be; a user
    handle, if any, that is the user's; a counter above the last one. *)
Definition LoginSpec (W : World) (E : appenv) (l : list (chance * request)) (clock : Z)
           (i n : pystr) (cr : credential) : Prop :=
  exists id n0 c t handle k cdj adb sig uh ad,
    ap_int E i = Some id /\ Issued W E l n0 c id t /\ (clock - t <= 60000)%Z /\
    UserHandle W E l n handle /\ RegisteredKey W E l n (cr_raw_id cr) k /\
    cr_response cr = AssertionResponse cdj adb sig uh /\
    ClientDataSpec W "webauthn.get" c app_origin None cdj /\
    AuthDataSpec W app_rp_id false None adb ad /\
    SignatureSpec W k sig (adb ++ w_sha256 W cdj) /\
    (forall h, uh = Some h -> h = handle) /\
    (forall m, last_counter W E (cr_raw_id cr) empty_db l = Some m -> (m < counter_of adb)%N).

(** A registration is in order: as above; "none" attestation of a key that can be encoded;
    an id nobody registered before. *)
Definition RegisterSpec (W : World) (E : appenv) (l : list (chance * request)) (clock : Z)
           (i n : pystr) (cr : credential) : Prop :=
  exists id n0 c t handle cdj aob adb ad acd k b,
    ap_int E i = Some id /\ Issued W E l n0 c id t /\ (clock - t <= 60000)%Z /\
    UserHandle W E l n handle /\
    cr_response cr = AttestationResponse cdj aob /\
    ClientDataSpec W "webauthn.create" c app_origin None cdj /\
    AttObjSpec W aob "none" [] adb /\
    AuthDataSpec W app_rp_id false None adb ad /\
    ad_attested ad = Some acd /\ at_key acd = Some k /\
    cose_key (Some k) = Ok b /\
    (forall n' k', ~ RegisteredKey W E l n' (cr_raw_id cr) k').

(** The same response sent again, by whomever and whenever. *)
Definition same_login (cr cr' : credential) : Prop :=
  exists cdj adb sig h cdj' sig' h',
    cr_raw_id cr' = cr_raw_id cr /\
    cr_response cr = AssertionResponse cdj adb sig h /\
    cr_response cr' = AssertionResponse cdj' adb sig' h'.

(** The data base with every challenge given to another user. *)
Definition reassign (f : N -> N) (d : database) : database :=
  {| db_users := db_users d; db_creds := db_creds d;
     db_chals := map (fun h => {| hr_id := hr_id h; hr_request := hr_request h;
                                  hr_timestamp := hr_timestamp h; hr_user := f (hr_user h) |})
                     (db_chals d) |}.

(** The parts of a key that have no fixed size can be written by cbor2.dumps. *)
Definition key_fits (k : pubkey) : Prop :=
  (forall i, kb_kid (key_base_of k) = Some i -> (N.of_nat (List.length i) < 2 ^ 64)%N) /\
  (forall l, kb_key_ops (key_base_of k) = Some l -> (N.of_nat (List.length l) < 2 ^ 64)%N) /\
  (forall i, kb_base_IV (key_base_of k) = Some i -> (N.of_nat (List.length i) < 2 ^ 64)%N).

(** The interpreter can convert the options. *)
Definition converts (E : appenv) : Prop := ascii_ok (ap_unicode E) /\ (7 <= ap_depth E)%nat.
