(** * PhishSpec: browsers, authenticators and pages of any origin.

    None of this is code of /repo. A page asks the browser for an assertion; the browser writes
    down who asked, and the authenticator signs that (WebAuthn Level 1, 5.1.4, 6.3.3). What the
    authenticator signed may reach the relying party by any way, or not at all. *)
From Coq Require Import List NArith ZArith Bool String.
From Verif Require Import Base PyVal Utf8 Types World Crypto Backends Spec History HonestSpec.
Import ListNotations.
Local Open Scope list_scope.

(** One signature made by an authenticator: the page that asked, what it asked for, whether the
    user touched the authenticator and was verified, and the two byte strings that were signed. *)
Record signing := {
  sg_ceremony : string; sg_origin : pystr; sg_challenge : bytes; sg_rp_id : pystr;
  sg_touched : bool; sg_verified : bool;
  sg_adb : bytes; sg_cdj : bytes;
}.

(** The browser and the authenticator do as they should; the page is anybody's. *)
Definition Truthful (W : World) (g : signing) : Prop :=
  WebOrigin (sg_origin g) /\
  ClientWrites (sg_ceremony g) (sg_challenge g) (sg_origin g) (sg_cdj g) /\
  (exists b, utf8_encode (sg_rp_id g) = Ok b /\ firstn 32 (sg_adb g) = w_sha256 W b) /\
  flag_bit (sg_adb g) 0 = sg_touched g /\ flag_bit (sg_adb g) 2 = sg_verified g.

(** What a call presents to be checked: client data, authenticator data and signature. *)
Definition Shown (c : call) (cdj adb sig : bytes) : Prop :=
  exists A h, c = CAssert A /\ cr_response (aa_credential A) = AssertionResponse cdj adb sig h.

(** Only the authenticator can sign for [k]. *)
Definition OnlySigned (W : World) (k : pubkey) (signed : list signing) (cs : list call) : Prop :=
  forall c cdj adb sig, In c cs -> Shown c cdj adb sig ->
    SignatureSpec W k sig (adb ++ w_sha256 W cdj) ->
    exists g, In g signed /\ sg_adb g ++ w_sha256 W (sg_cdj g) = adb ++ w_sha256 W cdj.

(** The byte strings hashed by either side: client data and RP ids. *)
Definition Hashed (signed : list signing) (A : assertion_args) (cdt : cred_data) (b : bytes) : Prop :=
  (exists g, In g signed /\ (b = sg_cdj g \/ utf8_encode (sg_rp_id g) = Ok b)) \/
  (exists adb sig h, cr_response (aa_credential A) = AssertionResponse b adb sig h) \/
  (exists rp, (aa_rp A = Some rp \/ cdt_rp cdt = Some rp) /\ utf8_encode (rp_id rp) = Ok b).
(** No two of these have the same hash. *)
Definition Separate (W : World) (P : bytes -> Prop) : Prop :=
  forall a b, P a -> P b -> w_sha256 W a = w_sha256 W b -> a = b.

(** What the relying party may conclude from a login: somebody with an allowed page asked for
    an assertion of its challenge and RP id, and the user touched the authenticator. *)
Definition AskedFor (W : World) (A : assertion_args) (cdt : cred_data) (g : signing) : Prop :=
  (exists sig h, cr_response (aa_credential A) = AssertionResponse (sg_cdj g) (sg_adb g) sig h) /\
  sg_ceremony g = "webauthn.get"%string /\ sg_challenge g = aa_challenge A /\
  OriginSpec W (aa_origin A) (sg_origin g) /\
  ((forall o, In o (allowed_strings (aa_origin A)) -> WebOrigin o) ->
   In (sg_origin g) (allowed_strings (aa_origin A))) /\
  (exists rp, RpSpec (aa_rp A) (cdt_rp cdt) rp /\ sg_rp_id g = rp_id rp) /\
  sg_touched g = true /\ (aa_require_uv A = true -> sg_verified g = true).

(** The store keeps the key of a credential. *)
Definition KeepsKeys {S} (R : registrar S) (view : S -> bytes -> option cred_data) : Prop :=
  forall s c ad u rp s' a cdt, r_assert R s c ad u rp = (s', a) ->
    view s (cr_raw_id c) = Some cdt ->
    exists cdt', view s' (cr_raw_id c) = Some cdt' /\ cdt_key cdt' = cdt_key cdt.

(** ** What a registration reads *)

(** Two worlds that differ at most in how keys and certificates are loaded and signatures are
    checked. *)
Record SameReaders (W W' : World) : Prop := {
  sr_sha256 : forall b, w_sha256 W b = w_sha256 W' b;
  sr_cbor : forall b, w_cbor_load W b = w_cbor_load W' b;
  sr_json : forall t, w_json_loads W t = w_json_loads W' t;
  sr_url : w_url W = w_url W';
}.
