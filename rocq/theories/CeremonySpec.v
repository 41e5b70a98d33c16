(** * CeremonySpec: which exception each failure of origins, client data and the two ceremonies
    gives: the checks in their order, and for each when it passes and what it raises otherwise.
    Independent of the functions of the model, except for the parsers named in Spec.v. *)
From Coq Require Import List NArith ZArith Bool String.
From Coq Require Import Strings.Byte.
From Verif Require Import Base PyVal B64 Utf8 Url Types World Parsers Crypto Backends Spec
  CodecSpec StepSpec FailSpec.
Import ListNotations.
Local Open Scope list_scope.

(** ** Origins *)

(** The name of a scheme (RFC 3986 section 3.1). *)
Definition letter (c : N) : Prop := (65 <= c <= 90 \/ 97 <= c <= 122)%N.
Definition SchemeName (s : pystr) : Prop :=
  exists c t, s = c :: t /\ letter c /\ Forall (fun x => letter x \/ is_09 x \/ In x (lit "+-.")) t.

(** [auth] is the authority of the reference [t]: after "//" at the start or after a scheme, up
    to the next delimiter. *)
Definition Authority (t auth : pystr) : Prop :=
  exists head tail, t = head ++ lit "//" ++ auth ++ tail /\
    (head = [] \/ exists sch, head = sch ++ lit ":" /\ SchemeName sch) /\
    (forall c, In c (lit "/?#") -> ~ In c auth) /\
    (tail = [] \/ exists c r, tail = c :: r /\ In c (lit "/?#")).

(** What [OriginText] asks for, without the validity of the authority and of its port. *)
Definition OriginShape (s : pystr) (name : string) (auth : pystr) : Prop :=
  exists sch tail,
    Cleaned s (sch ++ lit "://" ++ auth ++ tail) /\
    In name ["http"; "https"]%string /\ scheme_text sch name /\
    auth <> [] /\ (forall c, In c (lit "/?#") -> ~ In c auth) /\
    In tail [[]; lit "?"; lit "#"; lit "?#"].

Definition BadAuthority (UE : urlenv) (s : pystr) : Prop :=
  exists t auth, Cleaned s t /\ Authority t auth /\ ~ (BracketsOk UE auth /\ NfkcOk UE auth).

(** Texts that are no origins raise OriginError, except those with an authority or a port that
    urllib refuses. *)
Inductive OriginFails (UE : urlenv) (s : pystr) : exn -> Prop :=
| of_mark : ~ (exists a b, s = a ++ lit "://" ++ b) -> OriginFails UE s (Lib OriginError)
| of_authority : (exists a b, s = a ++ lit "://" ++ b) -> BadAuthority UE s ->
    OriginFails UE s (Py EValueError)
| of_shape : (exists a b, s = a ++ lit "://" ++ b) -> ~ BadAuthority UE s ->
    (forall name auth, ~ OriginShape s name auth) -> OriginFails UE s (Lib OriginError)
| of_port name auth : (exists a b, s = a ++ lit "://" ++ b) -> ~ BadAuthority UE s ->
    OriginShape s name auth -> (forall port, ~ AuthorityPort auth (default_port name) port) ->
    OriginFails UE s (Py EValueError).

(** ** Client data *)

(** The object in the client data. *)
Definition ClientDataObject (W : World) (cdj : bytes) (d : pydict) : Prop :=
  exists text, utf8_decode cdj = Ok text /\ w_json_loads W text = WOk (VDict d).

(** The members that must be there, and the token binding, if any. *)
Definition ClientMembers (d : pydict) : Prop :=
  (forall m, In m ["type"; "challenge"; "origin"]%string -> exists s, member m d (VStr s)) /\
  (absent_or_null "tokenBinding" d \/
   exists t, member "tokenBinding" d (VDict t) /\
     (member "status" t (VStr (lit "supported")) \/
      member "status" t (VStr (lit "present")) /\ ~ absent_or_null "id" t)).

Inductive ClientDataFails (W : World) (cdj : bytes) : exn -> Prop :=
| cdf_utf8 : (forall text, utf8_decode cdj <> Ok text) -> ClientDataFails W cdj (Lib DecodingError)
| cdf_json text p e : utf8_decode cdj = Ok text -> w_json_loads W text = WRaise p ->
    becomes [EUnicodeDecodeError; EJSONDecodeError] DecodingError p e -> ClientDataFails W cdj e
| cdf_object text v : utf8_decode cdj = Ok text -> w_json_loads W text = WOk v -> ~ is_map v ->
    ClientDataFails W cdj (Lib ParserError)
| cdf_members d : ClientDataObject W cdj d -> ~ ClientMembers d ->
    ClientDataFails W cdj (Lib ParserError).

(** The handlers turn exceptions that are not of the library into InternalError. *)
Definition Reported (e e' : exn) : Prop :=
  match e with Py _ => e' = Lib InternalError | _ => e' = e end.

(** The registrar raises or answers something: RegistrationError, except for exceptions that are
    no Exceptions, and for what no message can show. *)
Inductive Declined (W : World) : exn -> exn -> Prop :=
| dc_abort n : Declined W (Abort n) (Abort n)
| dc_exception e : (forall n, e <> Abort n) -> shows_exn W e = true ->
    Declined W e (Lib RegistrationError)
| dc_message e : (forall n, e <> Abort n) -> shows_exn W e = false -> Declined W e (Py EValueError).
Inductive AnswerFails (W : World) : reg_answer -> exn -> Prop :=
| af_value v : shows W v = true -> AnswerFails W (Ok (Some v)) (Lib RegistrationError)
| af_message v : shows W v = false -> AnswerFails W (Ok (Some v)) (Py EValueError)
| af_raised e e' : Declined W e e' -> AnswerFails W (Raise e) e'.

(** ** Checks of both ceremonies *)
Section Steps.
Variable W : World.

(** The allowed origins, in order. *)
Inductive OriginsFail : list pystr -> exn -> Prop :=
| osf_here s l e : OriginFails (w_url W) s e -> OriginsFail (s :: l) e
| osf_later s l o e : OriginText (w_url W) s o -> OriginsFail l e -> OriginsFail (s :: l) e.
Definition origins_step (o : expected_origin) : step :=
  Step (allowed_strings o <> [] /\
        forall s, In s (allowed_strings o) -> exists x, OriginText (w_url W) s x)
       (fun e => (allowed_strings o = [] /\ e = Lib OriginError) \/
                 OriginsFail (allowed_strings o) e).

(** The client data in a response of either class. *)
Definition json_of (r : response) : bytes :=
  match r with AttestationResponse c _ => c | AssertionResponse c _ _ _ => c end.

(** A text member of the client data. *)
Definition ClientText (cdj : bytes) (m : string) (t : pystr) : Prop :=
  exists d, ClientDataObject W cdj d /\ member m d (VStr t).

Definition client_steps (ceremony : string) (challenge : bytes) (origins : expected_origin)
           (tb : option expected_tb) (cdj : bytes) : list step :=
  [ Step (exists d, ClientDataObject W cdj d /\ ClientMembers d) (ClientDataFails W cdj);
    otherwise (ClientText cdj "type" (lit ceremony)) (Lib ClientDataTypeError);
    otherwise (exists t c, ClientText cdj "challenge" t /\ url_base64_decode t = Ok c)
              (Lib DecodingError);
    otherwise (exists t, ClientText cdj "challenge" t /\ url_base64_decode t = Ok challenge)
              (Lib ChallengeError);
    Step (exists t o, ClientText cdj "origin" t /\ OriginText (w_url W) t o)
         (fun e => exists t, ClientText cdj "origin" t /\ OriginFails (w_url W) t e);
    otherwise (exists t o s, ClientText cdj "origin" t /\ OriginText (w_url W) t o /\
                 In s (allowed_strings origins) /\ OriginText (w_url W) s o)
              (Lib OriginError);
    otherwise (exists d, ClientDataObject W cdj d /\ TokenBindingSpec tb d)
              (Lib TokenBindingError) ].

(** The id of the relying party, given by [Id], must have a UTF-8 form. *)
Definition rp_id_step (Id : pystr -> Prop) : step :=
  otherwise (exists id b, Id id /\ utf8_encode id = Ok b) (Py EUnicodeEncodeError).

(** Checks on the authenticator data given by [Data]. *)
Definition data_steps (Id : pystr -> Prop) (Data : bytes -> Prop) (uv : bool)
           (exts : option (list ext_id)) : list step :=
  [ otherwise (exists id b adb, Id id /\ utf8_encode id = Ok b /\ Data adb /\
                 firstn 32 adb = w_sha256 W b) (Lib RPIDHashError);
    otherwise (exists adb, Data adb /\ flag_bit adb 0 = true) (Lib UserPresenceError);
    otherwise (uv = true -> exists adb, Data adb /\ flag_bit adb 2 = true)
              (Lib UserVerificationError);
    otherwise (exists adb ad, Data adb /\ AuthReads W adb ad /\ ExtensionsSpec exts ad)
              (Lib ExtensionError) ].

(** ** Authentication *)
Section Login.
Context {S : Type}.
Variable R : registrar S.
Variable s : S.
Variable A : assertion_args.

(** What the registrar answers for the credential. *)
Definition Known (cdt : cred_data) : Prop := lookup R s A = Ok (Some cdt).
Definition Response (cdj adb sig : bytes) (h : option bytes) : Prop :=
  cr_response (aa_credential A) = AssertionResponse cdj adb sig h.
Definition login_data (adb : bytes) : Prop := exists cdj sig h, Response cdj adb sig h.
(** The relying party supplied, or else the one stored. *)
Definition login_rp (rp : rp_entity) : Prop :=
  aa_rp A = Some rp \/ (aa_rp A = None /\ exists cdt, Known cdt /\ cdt_rp cdt = Some rp).
Definition login_user (u : user_entity) : Prop :=
  aa_user A = Some u \/ (aa_user A = None /\ exists cdt, Known cdt /\ u = cdt_user cdt).
Definition login_rp_id (id : pystr) : Prop := exists rp, login_rp rp /\ id = rp_id rp.
(** What the registrar answers to the registration of the assertion. *)
Definition LoginAnswer (a : reg_answer) : Prop :=
  exists adb ad u rp, login_data adb /\ AuthReads W adb ad /\ login_user u /\ login_rp rp /\
    snd (r_assert R (fst (r_get R s (cr_raw_id (aa_credential A)))) (aa_credential A) ad u rp) = a.

Definition LoginSteps : list step :=
  [ origins_step (aa_origin A);
    otherwise (AllowSpec (aa_allow A) (cr_raw_id (aa_credential A)))
              (Lib CredentialNotAllowedError);
    Step (exists o, lookup R s A = Ok o) (fun e => exists e', lookup R s A = Raise e' /\ Declined W e' e);
    otherwise (exists cdt, Known cdt) (Lib CredentialDataError);
    otherwise (exists cdt u, Known cdt /\ login_user u /\ us_id u = us_id (cdt_user cdt))
              (Lib UserIDError);
    otherwise (exists cdj adb sig h, Response cdj adb sig h) (Py EAttributeError);
    otherwise (aa_user A = None -> exists cdj adb sig h, Response cdj adb sig (Some h))
              (Lib UserHandleError);
    otherwise (forall cdj adb sig h cdt, Response cdj adb sig (Some h) -> Known cdt ->
                 h = us_id (cdt_user cdt)) (Lib UserHandleError);
    otherwise (exists rp, login_rp rp) (Lib RPNotFoundError);
    otherwise (forall cdt r r', Known cdt -> cdt_rp cdt = Some r -> aa_rp A = Some r' ->
                 rp_id r = rp_id r') (Lib RPIDError) ] ++
  client_steps "webauthn.get" (aa_challenge A) (aa_origin A) (aa_token_binding A)
               (json_of (cr_response (aa_credential A))) ++
  [ rp_id_step login_rp_id;
    Step (exists adb ad, login_data adb /\ AuthReads W adb ad)
         (fun e => exists adb, login_data adb /\ AuthFails W adb e) ] ++
  data_steps login_rp_id login_data (aa_require_uv A) (aa_extensions A) ++
  [ Step (exists cdt cdj adb sig h, Known cdt /\ Response cdj adb sig h /\
            SignatureSpec W (cdt_key cdt) sig (adb ++ w_sha256 W cdj))
         (fun e => exists cdt cdj adb sig h, Known cdt /\ Response cdj adb sig h /\
            VerifyFails W sig (adb ++ w_sha256 W cdj) (cdt_key cdt) e);
    otherwise (exists cdt adb, Known cdt /\ login_data adb /\
                 CounterSpec (aa_ignore_clone A) (cdt_sign_count cdt) (counter_of adb))
              (Lib SignatureCountError);
    Step (LoginAnswer (Ok None)) (fun e => exists a, LoginAnswer a /\ AnswerFails W a e) ].
End Login.

(** ** Registration *)
Section Registration.
Context {S : Type}.
Variable R : registrar S.
Variable s : S.
Variable A : attestation_args.

Definition AttResponse (cdj aob : bytes) : Prop :=
  cr_response (ra_credential A) = AttestationResponse cdj aob.
(** The authenticator data in the attestation object. *)
Definition reg_data (adb : bytes) : Prop :=
  exists cdj aob fmt sd, AttResponse cdj aob /\ AttObjSpec W aob fmt sd adb.
Definition reg_rp_id (id : pystr) : Prop := id = rp_id (ra_rp A).

(** The attestation object has a statement of one of the formats. *)
Definition ReadsObject (f : att_fmt) (st : att_stmt) (ad : auth_data) (cdj adb : bytes) : Prop :=
  exists aob sd, AttResponse cdj aob /\ AttObjSpec W aob (fmt_name f) sd adb /\
    StmtMap sd f st /\ AuthReads W adb ad.

(** Only statements of format "none" get through. *)
Inductive StatementFails (adb hash : bytes) (key : option pubkey) : att_stmt -> exn -> Prop :=
| sf_u2f sig x5c e : U2FFails W hash sig x5c (ArgKey key) e ->
    StatementFails adb hash key (S_U2F sig x5c) e
| sf_android a sig x5c e : AndroidFails W adb hash a sig x5c (ArgKey key) e ->
    StatementFails adb hash key (S_AndroidKey a sig x5c) e
| sf_other st : st <> S_None -> (forall sig x5c, st <> S_U2F sig x5c) ->
    (forall a sig x5c, st <> S_AndroidKey a sig x5c) ->
    StatementFails adb hash key st (Lib UnimplementedError).

Definition RegAnswer (a : reg_answer) : Prop :=
  exists ad cdj adb, ReadsObject F_NONE S_None ad cdj adb /\
    snd (r_attest R s (ra_credential A) (att_obj_of ad F_NONE S_None) AT_NONE
           (ra_user A) (ra_rp A) None) = a.

Definition RegistrationSteps : list step :=
  [ origins_step (ra_origin A) ] ++
  client_steps "webauthn.create" (ra_challenge A) (ra_origin A) (ra_token_binding A)
               (json_of (cr_response (ra_credential A))) ++
  [ rp_id_step reg_rp_id;
    otherwise (exists cdj aob, AttResponse cdj aob) (Py EAttributeError);
    Step (exists f st ad cdj adb, ReadsObject f st ad cdj adb)
         (fun e => exists cdj aob, AttResponse cdj aob /\ AttObjFails W aob e) ] ++
  data_steps reg_rp_id reg_data (ra_require_uv A) (ra_extensions A) ++
  [ otherwise (exists adb, reg_data adb /\ flag_bit adb 6 = true) (Py EAssertionError);
    Step (exists f ad cdj adb, ReadsObject f S_None ad cdj adb)
         (fun e => exists f st ad acd cdj adb, ReadsObject f st ad cdj adb /\
            ad_attested ad = Some acd /\
            StatementFails adb (w_sha256 W cdj) (at_key acd) st e);
    Step (RegAnswer (Ok None)) (fun e => exists a, RegAnswer a /\ AnswerFails W a e) ].
End Registration.
End Steps.
