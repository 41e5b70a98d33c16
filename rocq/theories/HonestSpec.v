(** * HonestSpec: what a conforming browser, authenticator and credential store do.

    None of this is code of /repo: it is the environment in which the two ceremonies are
    meant to succeed, written after WebAuthn Level 1 (5.8.1, 6.1, 6.4, 7) and RFC 8152. *)
From Coq Require Import List NArith ZArith Bool String.
From Coq Require Import Strings.Byte.
From Verif Require Import Base PyVal B64 Utf8 Url Json JsonSpec Cbor CborFacts CodecSpec Types World
  Backends Spec History ClientJson App AppSpec.
Import ListNotations.
Local Open Scope list_scope.

(** ** The primitives below the library *)

(** The CBOR and JSON readers are the modelled ones and SHA-256 returns 32 bytes. *)
Record Conforming (W : World) (depth : nat) (E : jsonenv) : Prop := {
  cf_cbor : decodes_cbor W depth; cf_depth : 2 <= depth;
  cf_json : forall s, w_json_loads W s = json_loads E s; cf_json_depth : 1 <= je_depth E;
  cf_hash : forall b, List.length (w_sha256 W b) = 32;
}.

(** ** The browser *)

(** A serialised origin: scheme, host and, if it is not the default one, the port. *)
Definition WebOrigin (o : pystr) : Prop :=
  exists name h p, In name ["http"; "https"]%string /\ host_name h /\ PortShown p /\
    o = origin_text name h p.
(** The page's origin is one of those the relying party allows. *)
Definition OriginAllowed (e : expected_origin) (o : pystr) : Prop :=
  In o (allowed_strings e) /\ forall s, In s (allowed_strings e) -> WebOrigin s.

(** clientDataJSON, in the serialisation of ClientJson: the ceremony, the challenge in
    base64url without padding, the origin. *)
Definition ClientWrites (ceremony : string) (challenge : bytes) (origin : pystr) (cdj : bytes)
  : Prop :=
  utf8_encode (serialise (lit ceremony) (rfc4648_unpadded url_alphabet challenge) origin) = Ok cdj.

(** ** The authenticator *)

(** The COSE key of a new credential and the map it is sent as (RFC 8152, 13). *)
Inductive NewKey : pubkey -> pydict -> Prop :=
| nk_ec2 c a x y :
    In c [P_256; P_384; P_521] -> In a [ES256; ES384; ES512] ->
    List.length x = coord_len c -> List.length y = coord_len c ->
    NewKey (EC2Key {| kb_kty := (FValue, KT_EC2); kb_kid := None; kb_alg := Some (FValue, a);
                      kb_key_ops := None; kb_base_IV := None |} x y (FValue, c))
      [(VInt 1, VInt 2);
       (VInt 3, VInt (match a with ES256 => -7 | ES384 => -35 | ES512 => -36 | EDDSA => -8 end));
       (VInt (-1), VInt (match c with P_256 => 1 | P_384 => 2 | P_521 => 3 | ED25519 => 6 | ED448 => 7 end));
       (VInt (-2), VBytes x); (VInt (-3), VBytes y)]
| nk_okp c x :
    In c [ED25519; ED448] -> List.length x = coord_len c ->
    NewKey (OKPKey {| kb_kty := (FValue, KT_OKP); kb_kid := None; kb_alg := Some (FValue, EDDSA);
                      kb_key_ops := None; kb_base_IV := None |} (FValue, c) x)
      [(VInt 1, VInt 1); (VInt 3, VInt (-8));
       (VInt (-1), VInt (match c with P_256 => 1 | P_384 => 2 | P_521 => 3 | ED25519 => 6 | ED448 => 7 end));
       (VInt (-2), VBytes x)].

(** Header of authenticator data: hash of the RP id, flags, counter.  User presence is
    set, user verification if the relying party asks for it. *)
Definition Header (W : World) (rpid : pystr) (uv : bool) (flags : byte) (ctr : N) (hd : bytes)
  : Prop :=
  N.testbit (Byte.to_N flags) 0 = true /\
  (uv = true -> N.testbit (Byte.to_N flags) 2 = true) /\
  (ctr < 2 ^ 32)%N /\
  exists rpb, utf8_encode rpid = Ok rpb /\ hd = w_sha256 W rpb ++ [flags] ++ N_to_be 4 ctr.

(** Extension outputs, with all those the relying party expects. *)
Definition Outputs (depth : nat) (expected : option (list ext_id)) (flags : byte) (extb : bytes)
  : Prop :=
  exists ext, ExtSerial depth (N.testbit (Byte.to_N flags) 7) extb ext /\
    forall l e, expected = Some l -> In e l -> exists x, ext = Some x /\ ExtPresent e x.

(** ** The ceremonies *)

(** The relying party calls [handle_credential_attestation] with arguments [A], and the
    response in [A] is that of an authenticator which made key [k] with id [cid] and
    counter [ctr] and attests nothing. *)
Definition HonestRegistration (W : World) (depth : nat) (A : attestation_args)
           (cid : bytes) (k : pubkey) (ctr : N) : Prop :=
  exists cdj aob adb hd flags aaguid d keyb extb origin,
    cr_raw_id (ra_credential A) = cid /\
    cr_response (ra_credential A) = AttestationResponse cdj aob /\
    ClientWrites "webauthn.create" (ra_challenge A) origin cdj /\
    OriginAllowed (ra_origin A) origin /\ ra_token_binding A = None /\
    Header W (rp_id (ra_rp A)) (ra_require_uv A) flags ctr hd /\
    N.testbit (Byte.to_N flags) 6 = true /\
    List.length aaguid = 16 /\ (N.of_nat (List.length cid) < 65536)%N /\
    NewKey k d /\ cbor_dumps (VDict d) = Some keyb /\
    Outputs depth (ra_extensions A) flags extb /\
    adb = hd ++ aaguid ++ N_to_be 2 (N.of_nat (List.length cid)) ++ cid ++ keyb ++ extb /\
    cbor_dumps (VDict [(skey "fmt", VStr (lit "none")); (skey "attStmt", VDict []);
                       (skey "authData", VBytes adb)]) = Some aob.

(** The relying party calls [handle_credential_assertion] with arguments [A], and the
    response in [A] is that of the authenticator holding the private key of [k], for the
    credential [cid] registered for user [user] at [rp]; its counter is [ctr]. *)
Definition HonestLogin (W : World) (depth : nat) (A : assertion_args) (cid : bytes) (k : pubkey)
           (user : user_entity) (rp : rp_entity) (ctr : N) : Prop :=
  exists cdj adb hd flags extb sig handle origin,
    cr_raw_id (aa_credential A) = cid /\
    cr_response (aa_credential A) = AssertionResponse cdj adb sig handle /\
    (forall l, aa_allow A = Some l -> exists d, In d l /\ de_id d = cid) /\
    (forall u, aa_user A = Some u -> us_id u = us_id user) /\
    (forall h, handle = Some h -> h = us_id user) /\ (aa_user A = None -> handle <> None) /\
    (forall r, aa_rp A = Some r -> rp_id r = rp_id rp) /\
    ClientWrites "webauthn.get" (aa_challenge A) origin cdj /\
    OriginAllowed (aa_origin A) origin /\ aa_token_binding A = None /\
    Header W (rp_id rp) (aa_require_uv A) flags ctr hd /\
    N.testbit (Byte.to_N flags) 6 = false /\
    Outputs depth (aa_extensions A) flags extb /\
    adb = hd ++ extb /\
    SignatureSpec W k sig (adb ++ w_sha256 W cdj).

(** ** The store *)

(** A counter store that answers every lookup, takes every new credential with the key
    and counter attested, and keeps key, user and relying party on login. *)
Record FaithfulStore {S} (R : registrar S) (view : S -> bytes -> option cred_data) : Prop := {
  fs_counters : CounterStore R view;
  fs_get : forall s id, exists s', r_get R s id = (s', Ok (view s id));
  fs_attest : forall s c att ad acd k ty u rp path,
    view s (cr_raw_id c) = None ->
    ao_auth_data att = Some ad -> ad_attested ad = Some acd -> at_key acd = Some k ->
    exists s', r_attest R s c att ty u rp path = (s', Ok None) /\
      view s' (cr_raw_id c) =
        Some {| cdt_key := k; cdt_sign_count := Some (Z.of_N (ad_sign_count ad));
                cdt_user := u; cdt_rp := Some rp |};
  fs_assert : forall s c ad u rp cdt,
    view s (cr_raw_id c) = Some cdt ->
    exists s', r_assert R s c ad u rp = (s', Ok None) /\
      view s' (cr_raw_id c) =
        Some {| cdt_key := cdt_key cdt; cdt_sign_count := Some (Z.of_N (ad_sign_count ad));
                cdt_user := cdt_user cdt; cdt_rp := cdt_rp cdt |};
}.

(** ** Histories *)

(** If call [c] is an assertion for [cid] whose signature verifies under [k], its counter
    is below [n]. *)
Definition SignedBelow (W : World) (cid : bytes) (k : pubkey) (n : N) (c : call) : Prop :=
  forall A cdj adb sig handle, c = CAssert A -> cr_raw_id (aa_credential A) = cid ->
    cr_response (aa_credential A) = AssertionResponse cdj adb sig handle ->
    SignatureSpec W k sig (adb ++ w_sha256 W cdj) -> (counter_of adb < n)%N.

(** Honest logins with one credential, one after the other, counters growing from [n]. *)
Inductive HonestLogins (W : World) (depth : nat) (cid : bytes) (k : pubkey) (user : user_entity)
          (rp : rp_entity) : N -> list call -> Prop :=
| hl_nil n : HonestLogins W depth cid k user rp n []
| hl_cons n A m t : (n < m)%N -> HonestLogin W depth A cid k user rp m ->
    HonestLogins W depth cid k user rp m t ->
    HonestLogins W depth cid k user rp n (CAssert A :: t).

(** ** The example application *)

(** The credential [cr] in a registration response is that of an honest authenticator
    asked by the application with challenge [c]. *)
Definition AppRegistration (W : World) (depth : nat) (cr : credential) (c cid : bytes) (k : pubkey)
           (ctr : N) : Prop :=
  exists A, ra_credential A = cr /\ ra_challenge A = c /\ ra_origin A = app_origin /\
    rp_id (ra_rp A) = app_rp_id /\ ra_require_uv A = false /\ ra_extensions A = None /\
    HonestRegistration W depth A cid k ctr.
(** The same for an authentication response; [handle] is the user's. *)
Definition AppLogin (W : World) (depth : nat) (cr : credential) (c cid : bytes) (k : pubkey)
           (handle : bytes) (ctr : N) : Prop :=
  exists A user rp, aa_credential A = cr /\ aa_challenge A = c /\ aa_origin A = app_origin /\
    rp_id rp = app_rp_id /\ us_id user = handle /\ aa_require_uv A = false /\
    aa_extensions A = None /\ HonestLogin W depth A cid k user rp ctr.

(** Every correctly signed login with credential [cid] in the history has a counter below
    [n], accepted or not. *)
Definition SentBelow (W : World) (cid : bytes) (k : pubkey) (n : N) (l : list (chance * request))
  : Prop :=
  forall y i u cr cdj adb sig handle, In y l -> Authenticates W (snd y) i u cr ->
    cr_raw_id cr = cid -> cr_response cr = AssertionResponse cdj adb sig handle ->
    SignatureSpec W k sig (adb ++ w_sha256 W cdj) -> (counter_of adb < n)%N.
