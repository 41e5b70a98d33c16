(** * WireSpec: the two ceremonies on the bytes that arrive, down to the CBOR and JSON
    texts.  Nothing of [World] is left but the hash, the loading of keys, the signature
    check, the two tables behind origins and what CBOR tags stand for. *)
From Coq Require Import List NArith ZArith Bool String.
From Coq Require Import Strings.Byte.
From Verif Require Import Base PyVal B64 Utf8 Url Json JsonSpec Cbor CborSpec CodecSpec Types World
  Backends Spec.
Import ListNotations.
Local Open Scope list_scope.

(** The decoders of the world read what CborSpec and JsonSpec describe, for some reading of
    tags. *)
Definition reads_cbor (W : World) (tags : tagsem) (depth : nat) : Prop :=
  forall b v rest, w_cbor_load W b = WOk (v, rest) <->
    exists item, b = item ++ rest /\ Cbor tags depth false v item.
Definition reads_json (W : World) (E : jsonenv) : Prop :=
  forall s v, w_json_loads W s = WOk v <-> JText E s v.

(** ** Authenticator data (WebAuthn 6.1) *)

(** [aaguid(16) || length(2) || id || COSE key], present iff the flag is set. *)
Inductive AttBytes (tags : tagsem) (depth : nat) : bool -> bytes -> option attested -> Prop :=
| atb_absent : AttBytes tags depth false [] None
| atb_present aaguid len cid key d k :
    List.length aaguid = 16 -> List.length len = 2 ->
    be_to_N len = N.of_nat (List.length cid) ->
    Cbor tags depth false (VDict d) key -> CoseKey d k -> UsableKey k ->
    AttBytes tags depth true (aaguid ++ len ++ cid ++ key)
      (Some {| at_aaguid := aaguid; at_id_length := N.of_nat (List.length cid);
               at_id := cid; at_key := Some k |}).
(** One CBOR map, present iff the flag is set. *)
Inductive ExtBytes (tags : tagsem) (depth : nat) : bool -> bytes -> option ext_outputs -> Prop :=
| exb_absent : ExtBytes tags depth false [] None
| exb_present b d x : Cbor tags depth false (VDict d) b -> ExtMap d x ->
    ExtBytes tags depth true b (Some x).
(** [rpIdHash(32) || flags(1) || counter(4) || attested data || extensions]. *)
Inductive AuthBytes (tags : tagsem) (depth : nat) : bytes -> auth_data -> Prop :=
| auth_bytes hash flags ctr attb extb att ext :
    List.length hash = 32 -> List.length ctr = 4 ->
    AttBytes tags depth (N.testbit (Byte.to_N flags) 6) attb att ->
    ExtBytes tags depth (N.testbit (Byte.to_N flags) 7) extb ext ->
    AuthBytes tags depth (hash ++ [flags] ++ ctr ++ attb ++ extb)
      {| ad_rp_id_hash := hash; ad_flags := Byte.to_N flags;
         ad_sign_count := be_to_N ctr; ad_attested := att; ad_extensions := ext |}.

(** ** Attestation objects (WebAuthn 6.4) *)

(** One CBOR map with [fmt], [attStmt] and [authData]; any bytes may follow (C42). *)
Definition AttObjMap (tags : tagsem) (depth : nat) (aob : bytes) (d : pydict) (fmt : string) (stmt : pydict)
           (adb : bytes) : Prop :=
  exists item rest, aob = item ++ rest /\ Cbor tags depth false (VDict d) item /\
    member "fmt" d (VStr (lit fmt)) /\ member "attStmt" d (VDict stmt) /\
    member "authData" d (VBytes adb).

(** ** Client data (WebAuthn 5.10.1) *)

Definition WireOrigin (UE : urlenv) (e : expected_origin) (client : pystr) : Prop :=
  (forall s, In s (allowed_strings e) -> exists o, OriginText UE s o) /\
  exists s o, In s (allowed_strings e) /\ OriginText UE s o /\ OriginText UE client o.

Definition WireClientData (E : jsonenv) (UE : urlenv) (ceremony : string) (challenge : bytes)
           (origins : expected_origin) (tb : option expected_tb) (cdj : bytes) : Prop :=
  exists text d ch org,
    Text text cdj /\ JText E text (VDict d) /\
    member "type" d (VStr (lit ceremony)) /\
    member "challenge" d (VStr ch) /\ url_base64_decode ch = Ok challenge /\
    member "origin" d (VStr org) /\ WireOrigin UE origins org /\
    TokenBindingSpec tb d.

Definition WireAuthData (W : World) (tags : tagsem) (depth : nat) (rpid : pystr) (require_uv : bool)
           (exts : option (list ext_id)) (adb : bytes) (ad : auth_data) : Prop :=
  AuthBytes tags depth adb ad /\
  (exists rpb, Text rpid rpb /\ firstn 32 adb = w_sha256 W rpb) /\
  flag_bit adb 0 = true /\ (require_uv = true -> flag_bit adb 2 = true) /\
  ExtensionsSpec exts ad.

(** ** The ceremonies *)

Definition WireAssertion (W : World) (tags : tagsem) (depth : nat) (E : jsonenv) (A : assertion_args)
           (cdt : cred_data) (ad : auth_data) (u : user_entity) (rp : rp_entity) : Prop :=
  exists cdj adb sig handle,
    cr_response (aa_credential A) = AssertionResponse cdj adb sig handle /\
    AllowSpec (aa_allow A) (cr_raw_id (aa_credential A)) /\
    UserSpec (aa_user A) (cdt_user cdt) handle u /\
    RpSpec (aa_rp A) (cdt_rp cdt) rp /\
    WireClientData E (w_url W) "webauthn.get" (aa_challenge A) (aa_origin A)
                   (aa_token_binding A) cdj /\
    WireAuthData W tags depth (rp_id rp) (aa_require_uv A) (aa_extensions A) adb ad /\
    SignatureSpec W (cdt_key cdt) sig (adb ++ w_sha256 W cdj) /\
    CounterSpec (aa_ignore_clone A) (cdt_sign_count cdt) (counter_of adb).

Definition WireRegistration (W : World) (tags : tagsem) (depth : nat) (E : jsonenv) (A : attestation_args)
           (att : att_obj) : Prop :=
  exists cdj aob d adb ad,
    cr_response (ra_credential A) = AttestationResponse cdj aob /\
    WireClientData E (w_url W) "webauthn.create" (ra_challenge A) (ra_origin A)
                   (ra_token_binding A) cdj /\
    AttObjMap tags depth aob d "none" [] adb /\
    WireAuthData W tags depth (rp_id (ra_rp A)) (ra_require_uv A) (ra_extensions A) adb ad /\
    flag_bit adb 6 = true /\
    att = {| ao_auth_data := Some ad; ao_fmt := F_NONE; ao_stmt := S_None |}.
