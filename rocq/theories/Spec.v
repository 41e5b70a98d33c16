(** * Spec: what the two ceremonies are supposed to check, written without the helper
    functions of the model.

    Uses only the data types, the relations of FormatSpec, the oracles of [World]
    (hash, CBOR, JSON, signature checks) and two parsers whose meaning is fixed by
    their own theorems: [url_base64_decode] (C44) and [parse_origin] (C39, C40). *)
From Coq Require Import List NArith ZArith Bool String.
From Coq Require Import Strings.Byte.
From Verif Require Import Base PyVal B64 Utf8 Url Cbor CborFacts Types World Parsers Crypto
  Backends.
From Verif Require Export FormatSpec.
Import ListNotations.
Local Open Scope list_scope.

(** ** Client data *)

(** The list of origin strings the caller allows. *)
Definition allowed_strings (e : expected_origin) : list pystr :=
  match e with OneOrigin s => [s] | ManyOrigins l => l end.

(** Every allowed origin parses and the client's origin parses to one of them. *)
Definition OriginSpec (W : World) (e : expected_origin) (client_origin : pystr) : Prop :=
  (forall s, In s (allowed_strings e) -> exists o, parse_origin (w_url W) s = Ok o) /\
  exists s o, In s (allowed_strings e) /\ parse_origin (w_url W) s = Ok o /\
              parse_origin (w_url W) client_origin = Ok o.

(** Token binding: absent on both sides, or equal status and id. *)
Inductive TokenBindingSpec (expected : option expected_tb) (d : pydict) : Prop :=
| tb_spec_absent :
    expected = None -> absent_or_null "tokenBinding" d -> TokenBindingSpec expected d
| tb_spec_supported e t :
    expected = Some e -> etb_status e = TB_SUPPORTED ->
    member "tokenBinding" d (VDict t) ->
    member "status" t (VStr (lit "supported")) ->
    (match etb_id e with
     | Some i => member "id" t (VStr i)
     | None => absent_or_null "id" t
     end) ->
    TokenBindingSpec expected d
| tb_spec_present e t i :
    expected = Some e -> etb_status e = TB_PRESENT -> etb_id e = Some i ->
    member "tokenBinding" d (VDict t) ->
    member "status" t (VStr (lit "present")) ->
    member "id" t (VStr i) ->
    TokenBindingSpec expected d.

(** The client data sent with a response: UTF-8 JSON object with the ceremony's type,
    the expected challenge (base64url), an allowed origin and the expected token
    binding. *)
Definition ClientDataSpec (W : World) (ceremony : string) (challenge : bytes)
           (origins : expected_origin) (tb : option expected_tb) (cdj : bytes) : Prop :=
  exists text d ch org,
    utf8_decode cdj = Ok text /\
    w_json_loads W text = WOk (VDict d) /\
    member "type" d (VStr (lit ceremony)) /\
    member "challenge" d (VStr ch) /\
    url_base64_decode ch = Ok challenge /\
    member "origin" d (VStr org) /\
    OriginSpec W origins org /\
    TokenBindingSpec tb d.

(** ** Usable keys *)
Inductive UsableKey : pubkey -> Prop :=
| uk_ec2 b x y f c f' a fk :
    kb_kty b = (fk, KT_EC2) -> kb_alg b = Some (f', a) ->
    In c [P_256; P_384; P_521] -> In a [ES256; ES384; ES512] ->
    UsableKey (EC2Key b x y (f, c))
| uk_okp b x f c f' fk :
    kb_kty b = (fk, KT_OKP) -> kb_alg b = Some (f', EDDSA) ->
    In c [ED25519; ED448] ->
    UsableKey (OKPKey b (f, c) x).

(** ** Reading authenticator data (WebAuthn 6.1) *)

(** Attested credential data, present iff the flag is set:
    [aaguid(16) || length(2) || id || CBOR key]; [follow] is what the CBOR decoder left. *)
Inductive AttRead (W : World) : bool -> bytes -> bytes -> option attested -> Prop :=
| att_absent follow : AttRead W false follow follow None
| att_present aaguid cid tl follow d k :
    List.length aaguid = 16 ->
    (N.of_nat (List.length cid) < 65536)%N ->
    w_cbor_load W tl = WOk (VDict d, follow) ->
    CoseKey d k ->
    UsableKey k ->
    AttRead W true
      (aaguid ++ N_to_be 2 (N.of_nat (List.length cid)) ++ cid ++ tl) follow
      (Some {| at_aaguid := aaguid; at_id_length := N.of_nat (List.length cid);
               at_id := cid; at_key := Some k |}).

(** Extension data, a CBOR map present iff the flag is set; nothing follows it. *)
Inductive ExtRead (W : World) : bool -> bytes -> option ext_outputs -> Prop :=
| ext_absent : ExtRead W false [] None
| ext_present b d x :
    w_cbor_load W b = WOk (VDict d, []) -> ExtMap d x ->
    ExtRead W true b (Some x).

(** [rpIdHash(32) || flags(1) || counter(4) || attested data || extensions]. *)
Inductive AuthReads (W : World) : bytes -> auth_data -> Prop :=
| auth_reads hash flags ctr tl extb att ext :
    List.length hash = 32 -> List.length ctr = 4 ->
    AttRead W (N.testbit (Byte.to_N flags) 6) tl extb att ->
    ExtRead W (N.testbit (Byte.to_N flags) 7) extb ext ->
    AuthReads W (hash ++ [flags] ++ ctr ++ tl)
      {| ad_rp_id_hash := hash; ad_flags := Byte.to_N flags;
         ad_sign_count := be_to_N ctr; ad_attested := att; ad_extensions := ext |}.

(** ** Authenticator data *)

(** The output for an extension identifier is present. *)
Definition ExtPresent (e : ext_id) (x : ext_outputs) : Prop :=
  match e with
  | APPID => ex_appid x <> None
  | TX_AUTH_SIMPLE => ex_tx_auth_simple x <> None
  | TX_AUTH_GENERIC => ex_tx_auth_generic x <> None
  | AUTHN_SEL => ex_authn_sel x <> None
  | EXTS => ex_exts x <> None
  | UVI => ex_uvi x <> None
  | LOC => ex_loc x <> None
  | UVM => ex_uvm x <> None
  | BIOMETRIC_PERF_BOUNDS => ex_biometric_perf_bounds x <> None
  end.

Definition ExtensionsSpec (expected : option (list ext_id)) (ad : auth_data) : Prop :=
  forall l e, expected = Some l -> In e l ->
    exists x, ad_extensions ad = Some x /\ ExtPresent e x.

(** Byte 32 of authenticator data: the flags. *)
Definition flag_bit (b : bytes) (i : N) : bool := N.testbit (Byte.to_N (nth 32 b x00)) i.
(** Bytes 33-36: the counter, big endian. *)
Definition counter_of (b : bytes) : N := be_to_N (firstn 4 (skipn 33 b)).

(** [adb] reads as [ad]; its first 32 bytes are the hash of the RP id; user presence
    (bit 0) is set, user verification (bit 2) if required; extensions as expected. *)
Definition AuthDataSpec (W : World) (rpid : pystr) (require_uv : bool)
           (exts : option (list ext_id)) (adb : bytes) (ad : auth_data) : Prop :=
  AuthReads W adb ad /\
  (exists rpb, utf8_encode rpid = Ok rpb /\ firstn 32 adb = w_sha256 W rpb) /\
  flag_bit adb 0 = true /\
  (require_uv = true -> flag_bit adb 2 = true) /\
  ExtensionsSpec exts ad.

(** ** Signatures *)

(** The library object for a credential public key. *)
Inductive KeyObject (W : World) : pubkey -> cpk -> Prop :=
| ko_p256 b x y f : w_ec_load W SECP256R1 (be_to_N x) (be_to_N y) = WOk tt ->
    KeyObject W (EC2Key b x y (f, P_256)) (CEC SECP256R1 (be_to_N x) (be_to_N y))
| ko_p384 b x y f : w_ec_load W SECP384R1 (be_to_N x) (be_to_N y) = WOk tt ->
    KeyObject W (EC2Key b x y (f, P_384)) (CEC SECP384R1 (be_to_N x) (be_to_N y))
| ko_p521 b x y f : w_ec_load W SECP521R1 (be_to_N x) (be_to_N y) = WOk tt ->
    KeyObject W (EC2Key b x y (f, P_521)) (CEC SECP521R1 (be_to_N x) (be_to_N y))
| ko_ed25519 b x f : w_ed25519_load W x = WOk tt ->
    KeyObject W (OKPKey b (f, ED25519) x) (CEd25519 x)
| ko_ed448 b x f : w_ed448_load W x = WOk tt ->
    KeyObject W (OKPKey b (f, ED448) x) (CEd448 x).

(** The hash an ECDSA algorithm identifier names (RFC 8152). *)
Inductive AlgHash : alg -> hashalg -> Prop :=
| ah_256 : AlgHash ES256 SHA256
| ah_384 : AlgHash ES384 SHA384
| ah_512 : AlgHash ES512 SHA512.

(** [sig] is a signature of [data] under [k]. *)
Inductive SignatureSpec (W : World) : pubkey -> bytes -> bytes -> Prop :=
| sig_ec2 b x y crv o f a h sig data :
    KeyObject W (EC2Key b x y crv) o -> kb_alg b = Some (f, a) -> AlgHash a h ->
    w_verify W o (ECDSA h) sig data = WOk tt ->
    SignatureSpec W (EC2Key b x y crv) sig data
| sig_okp b x crv o sig data :
    KeyObject W (OKPKey b crv x) o ->
    w_verify W o PureEdDSA sig data = WOk tt ->
    SignatureSpec W (OKPKey b crv x) sig data.

(** ** Identities *)

Definition UserSpec (supplied : option user_entity) (registered : user_entity)
           (handle : option bytes) (u : user_entity) : Prop :=
  u = match supplied with Some v => v | None => registered end /\
  us_id u = us_id registered /\
  (forall h, handle = Some h -> h = us_id registered) /\
  (supplied = None -> handle <> None).

Definition RpSpec (supplied registered : option rp_entity) (rp : rp_entity) : Prop :=
  match supplied with
  | Some r => rp = r /\ forall r', registered = Some r' -> rp_id r' = rp_id r
  | None => registered = Some rp
  end.

Definition AllowSpec (allow : option (list descriptor)) (raw_id : bytes) : Prop :=
  forall l, allow = Some l -> exists d, In d l /\ de_id d = raw_id.

Definition CounterSpec (ignore : bool) (stored : option Z) (new : N) : Prop :=
  ignore = true \/ stored = None \/ exists n, stored = Some n /\ (n < Z.of_N new)%Z.

(** ** Authentication *)

(** All documented conditions on an assertion for which the registrar returned
    [cdt]; [ad], [u], [rp] are what is handed to the registrar. *)
Definition AssertionSpec (W : World) (A : assertion_args) (cdt : cred_data)
           (ad : auth_data) (u : user_entity) (rp : rp_entity) : Prop :=
  exists cdj adb sig handle,
    cr_response (aa_credential A) = AssertionResponse cdj adb sig handle /\
    AllowSpec (aa_allow A) (cr_raw_id (aa_credential A)) /\
    UserSpec (aa_user A) (cdt_user cdt) handle u /\
    RpSpec (aa_rp A) (cdt_rp cdt) rp /\
    ClientDataSpec W "webauthn.get" (aa_challenge A) (aa_origin A) (aa_token_binding A) cdj /\
    AuthDataSpec W (rp_id rp) (aa_require_uv A) (aa_extensions A) adb ad /\
    SignatureSpec W (cdt_key cdt) sig (adb ++ w_sha256 W cdj) /\
    CounterSpec (aa_ignore_clone A) (cdt_sign_count cdt) (counter_of adb).

(** ** Registration *)

(** The attestation object: CBOR map with [fmt], [attStmt], [authData]. *)
Definition AttObjSpec (W : World) (aob : bytes) (fmt : string) (stmt : pydict)
           (adb : bytes) : Prop :=
  exists d rest,
    w_cbor_load W aob = WOk (VDict d, rest) /\
    member "fmt" d (VStr (lit fmt)) /\
    member "attStmt" d (VDict stmt) /\
    member "authData" d (VBytes adb).

(** What the code accepts: "none" attestation with attested credential data. *)
Definition RegistrationSpec (W : World) (A : attestation_args) (att : att_obj) : Prop :=
  exists cdj aob adb ad,
    cr_response (ra_credential A) = AttestationResponse cdj aob /\
    ClientDataSpec W "webauthn.create" (ra_challenge A) (ra_origin A)
                   (ra_token_binding A) cdj /\
    AttObjSpec W aob "none" [] adb /\
    AuthDataSpec W (rp_id (ra_rp A)) (ra_require_uv A) (ra_extensions A) adb ad /\
    flag_bit adb 6 = true /\
    att = {| ao_auth_data := Some ad; ao_fmt := F_NONE; ao_stmt := S_None |}.

(** ** Errors *)

(** The first reason for which a call may fail with each check error. *)
Section Violations.
Context {S : Type}.
Variable W : World.
Variable R : registrar S.
Variable s : S.
Variable A : assertion_args.

(** The registrar's answer to the lookup. *)
Definition lookup : res (option cred_data) :=
  snd (r_get R s (cr_raw_id (aa_credential A))).

(** The decoded client data object. *)
Definition ClientObject (d : pydict) : Prop :=
  exists text, utf8_decode (resp_client_data_JSON (cr_response (aa_credential A))) = Ok text
               /\ w_json_loads W text = WOk (VDict d).

Definition AssertionData (adb : bytes) : Prop :=
  exists cdj sig h, cr_response (aa_credential A) = AssertionResponse cdj adb sig h.

Inductive Violation : libexn -> Prop :=
| v_allow l :
    aa_allow A = Some l -> (forall d, In d l -> de_id d <> cr_raw_id (aa_credential A)) ->
    Violation CredentialNotAllowedError
| v_no_data : lookup = Ok None -> Violation CredentialDataError
| v_user_id cdt u :
    lookup = Ok (Some cdt) -> aa_user A = Some u -> us_id u <> us_id (cdt_user cdt) ->
    Violation UserIDError
| v_handle_missing cdj adb sig :
    cr_response (aa_credential A) = AssertionResponse cdj adb sig None ->
    aa_user A = None -> Violation UserHandleError
| v_handle_wrong cdt cdj adb sig h :
    lookup = Ok (Some cdt) ->
    cr_response (aa_credential A) = AssertionResponse cdj adb sig (Some h) ->
    h <> us_id (cdt_user cdt) -> Violation UserHandleError
| v_no_rp cdt :
    lookup = Ok (Some cdt) -> cdt_rp cdt = None -> aa_rp A = None ->
    Violation RPNotFoundError
| v_rp_id cdt r r' :
    lookup = Ok (Some cdt) -> cdt_rp cdt = Some r -> aa_rp A = Some r' ->
    rp_id r <> rp_id r' -> Violation RPIDError
| v_type d t :
    ClientObject d -> member "type" d (VStr t) -> t <> lit "webauthn.get" ->
    Violation ClientDataTypeError
| v_challenge d ch c :
    ClientObject d -> member "challenge" d (VStr ch) -> url_base64_decode ch = Ok c ->
    c <> aa_challenge A -> Violation ChallengeError
| v_origin_config :
    (allowed_strings (aa_origin A) = [] \/
     exists o, In o (allowed_strings (aa_origin A)) /\
               parse_origin (w_url W) o = Raise (Lib OriginError)) ->
    Violation OriginError
| v_origin d org :
    ClientObject d -> member "origin" d (VStr org) ->
    ~ OriginSpec W (aa_origin A) org -> Violation OriginError
| v_token_binding d :
    ClientObject d -> ~ TokenBindingSpec (aa_token_binding A) d ->
    Violation TokenBindingError
| v_rp_hash adb cdt rp rpb :
    AssertionData adb -> lookup = Ok (Some cdt) ->
    RpSpec (aa_rp A) (cdt_rp cdt) rp -> utf8_encode (rp_id rp) = Ok rpb ->
    firstn 32 adb <> w_sha256 W rpb -> Violation RPIDHashError
| v_presence adb :
    AssertionData adb -> flag_bit adb 0 = false -> Violation UserPresenceError
| v_verification adb :
    AssertionData adb -> aa_require_uv A = true -> flag_bit adb 2 = false ->
    Violation UserVerificationError
| v_extension adb ad l e :
    AssertionData adb -> AuthReads W adb ad ->
    aa_extensions A = Some l -> In e l ->
    ~ (exists x, ad_extensions ad = Some x /\ ExtPresent e x) ->
    Violation ExtensionError
| v_signature cdj adb sig h cdt :
    lookup = Ok (Some cdt) ->
    cr_response (aa_credential A) = AssertionResponse cdj adb sig h ->
    ~ SignatureSpec W (cdt_key cdt) sig (adb ++ w_sha256 W cdj) ->
    Violation VerificationError
| v_counter adb cdt n :
    AssertionData adb -> lookup = Ok (Some cdt) -> cdt_sign_count cdt = Some n ->
    (Z.of_N (counter_of adb) <= n)%Z -> aa_ignore_clone A = false ->
    Violation SignatureCountError
| v_lookup_raised e :
    lookup = Raise e -> (forall n, e <> Abort n) -> shows_exn W e = true -> Violation RegistrationError
| v_register_failed s1 cdt ad u rp a :
    r_get R s (cr_raw_id (aa_credential A)) = (s1, Ok (Some cdt)) ->
    AssertionSpec W A cdt ad u rp ->
    snd (r_assert R s1 (aa_credential A) ad u rp) = a -> a <> Ok None ->
    (forall n, a <> Raise (Abort n)) ->
    (forall v, a = Ok (Some v) -> shows W v = true) -> (forall e, a = Raise e -> shows_exn W e = true) ->
    Violation RegistrationError.
End Violations.

(** The classes covered by [Violation]. *)
Definition check_errors : list libexn :=
  [OriginError; ChallengeError; ClientDataTypeError; TokenBindingError; RPIDHashError;
   UserPresenceError; UserVerificationError; ExtensionError; CredentialNotAllowedError;
   UserIDError; UserHandleError; RPNotFoundError; RPIDError; CredentialDataError;
   SignatureCountError; VerificationError; RegistrationError].

(** ** Layout of authenticator data (WebAuthn 6.1) *)

(** The CBOR decoder reads a prefix of its input and leaves the rest. *)
Definition cbor_reads_prefix (W : World) : Prop :=
  forall b v rest, w_cbor_load W b = WOk (v, rest) -> exists p, b = p ++ rest.

(** Attested credential data: [aaguid(16) || length(2) || id || CBOR key], present iff
    the flag is set; [follow] is what comes after it. *)
Inductive AttPart (W : World) : bool -> bytes -> bytes -> option attested -> Prop :=
| ap_absent follow : AttPart W false [] follow None
| ap_present aaguid cid keyb follow d k :
    List.length aaguid = 16 ->
    (N.of_nat (List.length cid) < 65536)%N ->
    w_cbor_load W (keyb ++ follow) = WOk (VDict d, follow) ->
    CoseKey d k ->
    UsableKey k ->
    AttPart W true
      (aaguid ++ N_to_be 2 (N.of_nat (List.length cid)) ++ cid ++ keyb) follow
      (Some {| at_aaguid := aaguid; at_id_length := N.of_nat (List.length cid);
               at_id := cid; at_key := Some k |}).

(** [rpIdHash(32) || flags(1) || counter(4) || attested data || extensions]. *)
Inductive AuthLayout (W : World) : bytes -> auth_data -> Prop :=
| auth_layout hash flags ctr attb extb att ext :
    List.length hash = 32 -> List.length ctr = 4 ->
    AttPart W (N.testbit (Byte.to_N flags) 6) attb extb att ->
    ExtRead W (N.testbit (Byte.to_N flags) 7) extb ext ->
    AuthLayout W (hash ++ [flags] ++ ctr ++ attb ++ extb)
      {| ad_rp_id_hash := hash; ad_flags := Byte.to_N flags;
         ad_sign_count := be_to_N ctr; ad_attested := att; ad_extensions := ext |}.

(** ** Attestation statements *)

(** FIDO U2F (WebAuthn 8.6): one certificate [c] with a P-256 key that verifies,
    with ECDSA-SHA256, [0x00 || rpIdHash || clientDataHash || credentialId || 0x04 || x || y]. *)
Definition U2FSpec (W : World) (sig : option bytes) (x5c : list bytes) (o : att_obj)
           (client_data_hash : bytes) (c : cert) : Prop :=
  exists der px py ad acd kb x y crv s,
    x5c = [der] /\ w_load_cert W der = WOk c /\
    ce_public_key c = WOk (CEC SECP256R1 px py) /\
    ao_auth_data o = Some ad /\ ad_attested ad = Some acd /\
    at_key acd = Some (EC2Key kb x y crv) /\ sig = Some s /\
    w_verify W (CEC SECP256R1 px py) (ECDSA SHA256) s
      ([x00] ++ ad_rp_id_hash ad ++ client_data_hash ++ at_id acd ++ [x04] ++ x ++ y)
    = WOk tt.

(** How a certificate key checks a signature: EdDSA keys on their own, EC keys with
    ECDSA and the hash of the statement's [alg]. *)
Inductive CertVerifies (W : World) : cpk -> option (form * alg) -> bytes -> bytes -> Prop :=
| cv_ec c x y f a h sig data :
    AlgHash a h -> w_verify W (CEC c x y) (ECDSA h) sig data = WOk tt ->
    CertVerifies W (CEC c x y) (Some (f, a)) sig data
| cv_25519 b oa sig data :
    w_verify W (CEd25519 b) PureEdDSA sig data = WOk tt ->
    CertVerifies W (CEd25519 b) oa sig data
| cv_448 b oa sig data :
    w_verify W (CEd448 b) PureEdDSA sig data = WOk tt ->
    CertVerifies W (CEd448 b) oa sig data.

(** Android Key (WebAuthn 8.4): the leaf certificate [c]. Key origin GENERATED = 0,
    purpose SIGN = 2 (Android keymaster). *)
Definition AndroidSpec (W : World) (a : option (form * alg)) (sig : option bytes)
           (x5c : list bytes) (o : att_obj) (auth_data_bytes client_data_hash : bytes)
           (c : cert) : Prop :=
  exists leaf chain certpk ad acd k ko s ext kd purposes,
    x5c = leaf :: chain /\ w_load_cert W leaf = WOk c /\
    ce_public_key c = WOk certpk /\
    ao_auth_data o = Some ad /\ ad_attested ad = Some acd /\ at_key acd = Some k /\
    KeyObject W k ko /\
    sig = Some s /\
    CertVerifies W certpk a s (auth_data_bytes ++ client_data_hash) /\
    w_spki W ko = w_spki W certpk /\
    ce_keydesc c = WOk (Some ext) /\ w_keydesc W ext = WOk kd /\
    kd_challenge kd = client_data_hash /\
    al_all_applications (kd_software kd) = false /\
    al_all_applications (kd_tee kd) = false /\
    al_origin (kd_tee kd) = Some 0%Z /\
    al_purpose (kd_tee kd) = Some purposes /\ In 2%Z purposes.

(** Coordinates have the length the curve asks for. *)
Definition CoordsOk (k : pubkey) : Prop :=
  match k with
  | EC2Key _ x y (_, c) => List.length x = coord_len c /\ List.length y = coord_len c
  | OKPKey _ (_, c) x => List.length x = coord_len c
  | OtherKey _ => False
  end.

(** ** Vocabulary of the property files *)

(** The call returns normally. *)
Notation login_succeeds W R s A :=
  (out_result (run R s (handle_credential_assertion W A)) = Ok tt).
Notation registration_succeeds W R s A :=
  (out_result (run R s (handle_credential_attestation W A)) = Ok tt).

(** The same call with [ignore_clone_error=True]. *)
Definition ignoring (A : assertion_args) : assertion_args :=
  {| aa_credential := aa_credential A; aa_challenge := aa_challenge A;
     aa_origin := aa_origin A; aa_rp := aa_rp A; aa_user := aa_user A;
     aa_allow := aa_allow A; aa_token_binding := aa_token_binding A;
     aa_require_uv := aa_require_uv A; aa_extensions := aa_extensions A;
     aa_ignore_clone := true |}.

(** Every allowed origin parses and there is one. *)
Definition UsableOrigins (W : World) (e : expected_origin) : Prop :=
  allowed_strings e <> [] /\
  forall s, In s (allowed_strings e) -> exists o, parse_origin (w_url W) s = Ok o.

(** The decoded extension map in [adb], which must have the ED flag: what follows the
    37-byte header and the attested credential data, decoded as one CBOR map. *)
Definition ExtensionMap (W : World) (adb : bytes) (d : pydict) : Prop :=
  exists hash flags ctr tl extb att,
    List.length hash = 32 /\ List.length ctr = 4 /\
    adb = hash ++ [flags] ++ ctr ++ tl /\
    N.testbit (Byte.to_N flags) 7 = true /\
    AttRead W (N.testbit (Byte.to_N flags) 6) tl extb att /\
    w_cbor_load W extb = WOk (VDict d, []).

(** All checks of a registration that do not depend on the attestation statement. *)
Definition RegistrationChecks (W : World) (A : attestation_args) (fmt : string)
           (sd : pydict) (cdj aob adb : bytes) (ad : auth_data) : Prop :=
  cr_response (ra_credential A) = AttestationResponse cdj aob /\
  ClientDataSpec W "webauthn.create" (ra_challenge A) (ra_origin A)
                 (ra_token_binding A) cdj /\
  AttObjSpec W aob fmt sd adb /\
  AuthDataSpec W (rp_id (ra_rp A)) (ra_require_uv A) (ra_extensions A) adb ad /\
  flag_bit adb 6 = true.

(** The attestation object made of these parts. *)
Definition att_obj_of (ad : auth_data) (f : att_fmt) (st : att_stmt) : att_obj :=
  {| ao_auth_data := Some ad; ao_fmt := f; ao_stmt := st |}.

(** The text naming a statement format (WebAuthn 8, attestation statement format identifiers). *)
Definition fmt_name (f : att_fmt) : string :=
  match f with
  | F_PACKED => "packed" | F_TPM => "tpm" | F_ANDROID_KEY => "android-key"
  | F_ANDROID_SAFETYNET => "android-safetynet" | F_FIDO_U2F => "fido-u2f"
  | F_NONE => "none"
  end.

(** The same registration with another [raw_id]. *)
Definition with_raw_id (A : attestation_args) (id : bytes) : attestation_args :=
  {| ra_credential := {| cr_id := cr_id (ra_credential A); cr_type := cr_type (ra_credential A);
                         cr_raw_id := id; cr_response := cr_response (ra_credential A) |};
     ra_user := ra_user A; ra_rp := ra_rp A; ra_challenge := ra_challenge A;
     ra_origin := ra_origin A; ra_token_binding := ra_token_binding A;
     ra_require_uv := ra_require_uv A; ra_extensions := ra_extensions A |}.

(** No registrar call was made and the handler raised. *)
Definition nothing {S} (s : S) (o : outcome S) : Prop :=
  out_trace o = [] /\ out_state o = s /\ exists e, out_result o = Raise e.

(** ** Serialisation *)

(** The world's CBOR decoder agrees with the decoder of Cbor.v where that succeeds. *)
Definition decodes_cbor (W : World) (depth : nat) : Prop :=
  forall b v rest, cbor_load depth b = WOk (v, rest) -> w_cbor_load W b = WOk (v, rest).

(** Key objects the converters are meant for: class, key type and curve agree, an
    algorithm is set, coordinates have the curve length, [key_ops] is not empty. *)
Definition WellFormedKey (k : pubkey) : Prop :=
  match k with
  | EC2Key b x y (_, c) =>
      snd (kb_kty b) = KT_EC2 /\ kb_alg b <> None /\ kb_key_ops b <> Some [] /\
      In c [P_256; P_384; P_521] /\
      List.length x = coord_len c /\ List.length y = coord_len c
  | OKPKey b (_, c) x =>
      snd (kb_kty b) = KT_OKP /\ kb_alg b <> None /\ kb_key_ops b <> Some [] /\
      In c [ED25519; ED448] /\ List.length x = coord_len c
  | OtherKey _ => False
  end.

Definition key_base_of (k : pubkey) : key_base :=
  match k with EC2Key b _ _ _ => b | OKPKey b _ _ => b | OtherKey b => b end.

(** The key with the Base IV that survives [cose_key]. *)
Definition surviving_base (b : key_base) : key_base :=
  {| kb_kty := kb_kty b; kb_kid := kb_kid b; kb_alg := kb_alg b; kb_key_ops := kb_key_ops b;
     kb_base_IV := match kb_key_ops b with None => None | Some _ => kb_base_IV b end |}.
Definition surviving_key (k : pubkey) : pubkey :=
  match k with
  | EC2Key b x y c => EC2Key (surviving_base b) x y c
  | OKPKey b c x => OKPKey (surviving_base b) c x
  | OtherKey b => OtherKey b
  end.

(** Attested credential data in WebAuthn layout, with the key written by [cose_key]. *)
Inductive AttSerial : bool -> bytes -> option attested -> Prop :=
| as_absent : AttSerial false [] None
| as_present aaguid cid k d keyb :
    List.length aaguid = 16 -> (N.of_nat (List.length cid) < 65536)%N ->
    WellFormedKey k -> UsableKey k -> (kb_key_ops (key_base_of k) = None -> kb_base_IV (key_base_of k) = None) ->
    cose_dictionary k = Ok d -> cbor_dumps (VDict d) = Some keyb ->
    AttSerial true (aaguid ++ N_to_be 2 (N.of_nat (List.length cid)) ++ cid ++ keyb)
      (Some {| at_aaguid := aaguid; at_id_length := N.of_nat (List.length cid);
               at_id := cid; at_key := Some k |}).

(** Extension outputs as the CBOR encoding of a map. *)
Inductive ExtSerial (depth : nat) : bool -> bytes -> option ext_outputs -> Prop :=
| es_absent : ExtSerial depth false [] None
| es_present d x b : ExtMap d x -> cplain depth (VDict d) -> cbor_dumps (VDict d) = Some b ->
    ExtSerial depth true b (Some x).
