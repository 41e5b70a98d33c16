(** * Builders: the options of types.py and the builders of builders.py. *)
From Coq Require Import List NArith ZArith Bool String.
From Verif Require Import Base PyVal Types Jsonify.
Import ListNotations.
Local Open Scope res_scope.
Local Open Scope list_scope.

(** ** Option types (types.py) *)

(** AuthenticatorAttachment, types.py:401-424. *)
Inductive attachment := PLATFORM | CROSS_PLATFORM.
(** AttestationConveyancePreference, types.py:427-457. *)
Inductive conveyance := AC_NONE | AC_INDIRECT | AC_DIRECT.
(** UserVerificationRequirement, types.py:460-485. *)
Inductive uv_requirement := UV_REQUIRED | UV_PREFERRED | UV_DISCOURAGED.
(** CredentialMediationRequirement, types.py:946-972. *)
Inductive mediation := MD_SILENT | MD_OPTIONAL | MD_REQUIRED.

(** The [.value] of the members. *)
Definition attachment_value (a : attachment) : string :=
  match a with PLATFORM => "platform" | CROSS_PLATFORM => "cross-platform" end.
Definition conveyance_value (a : conveyance) : string :=
  match a with AC_NONE => "none" | AC_INDIRECT => "indirect" | AC_DIRECT => "direct" end.
Definition uv_value (a : uv_requirement) : string :=
  match a with UV_REQUIRED => "required" | UV_PREFERRED => "preferred"
          | UV_DISCOURAGED => "discouraged" end.
Definition mediation_value (a : mediation) : string :=
  match a with MD_SILENT => "silent" | MD_OPTIONAL => "optional" | MD_REQUIRED => "required" end.
Definition transport_value (t : transport) : string :=
  match t with USB => "usb" | NFC => "nfc" | BLE => "ble" | INTERNAL => "internal" end.

(** PublicKeyCredentialParameters, types.py:342-363 ([type] has one possible value). *)
Definition params := (form * alg)%type.

(** AuthenticationExtensionsClientInputs, types.py:654-713; TxAuthGenericArg, 488-501;
    AuthenticatorBiometricPerfBounds, 573-588. *)
Record ext_inputs := {
  ei_appid : option pystr;
  ei_tx_auth_simple : option pystr;
  ei_tx_auth_generic : option (pystr * bytes);
  ei_authn_sel : option (list bytes);
  ei_exts : option bool;
  ei_uvi : option bool;
  ei_loc : option bool;
  ei_uvm : option bool;
  ei_biometric_perf_bounds : option (N * N);
}.

(** AuthenticatorSelectionCriteria, types.py:771-805. *)
Record selection := {
  se_authenticator_attachment : option attachment;
  se_require_resident_key : bool;
  se_user_verification : uv_requirement;
}.

(** PublicKeyCredentialCreationOptions, types.py:808-873. *)
Record creation_options := {
  co_rp : rp_entity;
  co_user : user_entity;
  co_challenge : bytes;
  co_pub_key_cred_params : list params;
  co_timeout : option Z;
  co_exclude_credentials : option (list descriptor);
  co_authenticator_selection : option selection;
  co_attestation : conveyance;
  co_extensions : option ext_inputs;
}.
(** PublicKeyCredentialRequestOptions inside CredentialRequestOptions,
    types.py:876-926, 975-996. *)
Record request_options := {
  ro_mediation : mediation;
  ro_challenge : bytes;
  ro_timeout : option Z;
  ro_rp_id : option pystr;
  ro_allow_credentials : option (list descriptor);
  ro_user_verification : option uv_requirement;
  ro_extensions : option ext_inputs;
}.

(** ** The objects, attribute by attribute *)

(** A member of an Enum with a text as its value. *)
Definition member_obj (s : string) : pobj := OEnum (OStr (lit s)).

(** types.py:138-140, 177-183. *)
Definition obj_of_rp (r : rp_entity) : pobj :=
  obj [("name", OStr (rp_name r)); ("icon", opt OStr (rp_icon r)); ("id", OStr (rp_id r))]%string.
(** types.py:138-140, 232-240. *)
Definition obj_of_user (u : user_entity) : pobj :=
  obj [("name", OStr (us_name u)); ("icon", opt OStr (us_icon u)); ("id", OBytes (us_id u));
       ("display_name", OStr (us_display_name u))]%string.
(** types.py:358-363; the algorithm is a member of the Name or of the Value enum. *)
Definition obj_of_params (p : params) : pobj :=
  obj [("type", member_obj "public-key");
       ("alg", OEnum match fst p with
                     | FName => OStr (en_name alg_enum (snd p))
                     | FValue => OInt (en_value alg_enum (snd p)) end)]%string.
(** types.py:389-398. *)
Definition obj_of_descriptor (d : descriptor) : pobj :=
  obj [("type", member_obj "public-key"); ("id", OBytes (de_id d));
       ("transports", opt (fun l => OList (map (fun t => member_obj (transport_value t)) l))
                          (de_transports d))]%string.
(** types.py:499-501, 586-588. *)
Definition obj_of_txgen (x : pystr * bytes) : pobj :=
  obj [("content_type", OStr (fst x)); ("content", OBytes (snd x))]%string.
Definition obj_of_bounds (x : N * N) : pobj :=
  obj [("FAR", OFloat (fst x)); ("FRR", OFloat (snd x))]%string.
(** types.py:691-713. *)
Definition obj_of_inputs (e : ext_inputs) : pobj :=
  obj [("appid", opt OStr (ei_appid e));
       ("tx_auth_simple", opt OStr (ei_tx_auth_simple e));
       ("tx_auth_generic", opt obj_of_txgen (ei_tx_auth_generic e));
       ("authn_sel", opt (fun l => OList (map OBytes l)) (ei_authn_sel e));
       ("exts", opt OBool (ei_exts e));
       ("uvi", opt OBool (ei_uvi e));
       ("loc", opt OBool (ei_loc e));
       ("uvm", opt OBool (ei_uvm e));
       ("biometric_perf_bounds", opt obj_of_bounds (ei_biometric_perf_bounds e))]%string.
(** types.py:795-805. *)
Definition obj_of_selection (s : selection) : pobj :=
  obj [("authenticator_attachment",
         opt (fun a => member_obj (attachment_value a)) (se_authenticator_attachment s));
       ("require_resident_key", OBool (se_require_resident_key s));
       ("user_verification", member_obj (uv_value (se_user_verification s)))]%string.
(** types.py:849-873, 941-943. *)
Definition obj_of_creation_key (o : creation_options) : pobj :=
  obj [("rp", obj_of_rp (co_rp o)); ("user", obj_of_user (co_user o));
       ("challenge", OBytes (co_challenge o));
       ("pub_key_cred_params", OList (map obj_of_params (co_pub_key_cred_params o)));
       ("timeout", opt OInt (co_timeout o));
       ("exclude_credentials", opt (fun l => OList (map obj_of_descriptor l))
                                   (co_exclude_credentials o));
       ("authenticator_selection", opt obj_of_selection (co_authenticator_selection o));
       ("attestation", member_obj (conveyance_value (co_attestation o)));
       ("extensions", opt obj_of_inputs (co_extensions o))]%string.
Definition obj_of_creation (o : creation_options) : pobj :=
  obj [("public_key", obj_of_creation_key o)]%string.
(** types.py:909-926, 990-996. *)
Definition obj_of_request_key (o : request_options) : pobj :=
  obj [("challenge", OBytes (ro_challenge o)); ("timeout", opt OInt (ro_timeout o));
       ("rp_id", opt OStr (ro_rp_id o));
       ("allow_credentials", opt (fun l => OList (map obj_of_descriptor l))
                                 (ro_allow_credentials o));
       ("user_verification", opt (fun a => member_obj (uv_value a)) (ro_user_verification o));
       ("extensions", opt obj_of_inputs (ro_extensions o))]%string.
Definition obj_of_request (o : request_options) : pobj :=
  obj [("mediation", member_obj (mediation_value (ro_mediation o)));
       ("public_key", obj_of_request_key o)]%string.

(** ** Builders.  A setter copies the builder and sets one attribute of the copy; as values
    the old and the new builder are separate (Heap.v models the objects behind them). *)

(** CredentialCreationOptionsBuilder.__init__, builders.py:36-77.  [attestation] may be
    given as None explicitly. *)
Record creation_builder := {
  cb_rp : option rp_entity;
  cb_pub_key_cred_params : option (list params);
  cb_timeout : option Z;
  cb_authenticator_selection : option selection;
  cb_extensions : option ext_inputs;
  cb_attestation : option conveyance;
  cb_exclude_credentials : option (list descriptor);
}.
(** CredentialCreationOptionsBuilder() *)
Definition creation_default : creation_builder :=
  {| cb_rp := None; cb_pub_key_cred_params := None; cb_timeout := None;
     cb_authenticator_selection := None; cb_extensions := None;
     cb_attestation := Some AC_NONE; cb_exclude_credentials := None |}.

(** A setter call with its argument ([None]: the Python None), builders.py:82-192. *)
Inductive creation_call :=
| set_rp (v : option rp_entity)
| set_pub_key_cred_params (v : option (list params))
| set_timeout (v : option Z)
| set_authenticator_selection (v : option selection)
| set_extensions (v : option ext_inputs)
| set_attestation (v : option conveyance)
| set_exclude_credentials (v : option (list descriptor)).

(** The setters; three of them assert that the argument is not None. *)
Definition creation_set (b : creation_builder) (c : creation_call) : res creation_builder :=
  match b with
  | Build_creation_builder r p t s e a x =>
      match c with
      | set_rp v => check (is_some v) (Py EAssertionError) ;;;
                    Ok (Build_creation_builder v p t s e a x)
      | set_pub_key_cred_params v => check (is_some v) (Py EAssertionError) ;;;
                    Ok (Build_creation_builder r v t s e a x)
      | set_timeout v => Ok (Build_creation_builder r p v s e a x)
      | set_authenticator_selection v => Ok (Build_creation_builder r p t v e a x)
      | set_extensions v => Ok (Build_creation_builder r p t s v a x)
      | set_attestation v => check (is_some v) (Py EAssertionError) ;;;
                    Ok (Build_creation_builder r p t s e v x)
      | set_exclude_credentials v => Ok (Build_creation_builder r p t s e a v)
      end
  end.

(** CredentialCreationOptionsBuilder.build, builders.py:194-236, with arguments that are not
    None (Heap.v has them all). *)
Definition creation_build (b : creation_builder) (user : user_entity) (challenge : bytes)
  : res creation_options :=
  match cb_rp b with
  | None => raise BuilderError
  | Some rp =>
      match cb_pub_key_cred_params b with
      | None => raise BuilderError
      | Some ps =>
          match cb_attestation b with
          | None => raise BuilderError
          | Some a =>
              Ok {| co_rp := rp; co_user := user; co_challenge := challenge;
                    co_pub_key_cred_params := ps; co_timeout := cb_timeout b;
                    co_exclude_credentials := cb_exclude_credentials b;
                    co_authenticator_selection := cb_authenticator_selection b;
                    co_attestation := a; co_extensions := cb_extensions b |}
          end
      end
  end.

(** CredentialRequestOptionsBuilder.__init__, builders.py:255-284. *)
Record request_builder := {
  rb_mediation : option mediation;
  rb_timeout : option Z;
  rb_rp_id : option pystr;
  rb_extensions : option ext_inputs;
  rb_user_verification : option uv_requirement;
}.
(** CredentialRequestOptionsBuilder() *)
Definition request_default : request_builder :=
  {| rb_mediation := Some MD_OPTIONAL; rb_timeout := None; rb_rp_id := None;
     rb_extensions := None; rb_user_verification := Some UV_PREFERRED |}.

(** builders.py:289-365. *)
Inductive request_call :=
| rset_mediation (v : option mediation)
| rset_timeout (v : option Z)
| rset_rp_id (v : option pystr)
| rset_extensions (v : option ext_inputs)
| rset_user_verification (v : option uv_requirement).

(** The setters, builders.py:286-365: each copies the builder. *)
Definition request_set (b : request_builder) (c : request_call) : res request_builder :=
  match b with
  | Build_request_builder m t r e u =>
      match c with
      | rset_mediation v => check (is_some v) (Py EAssertionError) ;;;
                            Ok (Build_request_builder v t r e u)
      | rset_timeout v => Ok (Build_request_builder m v r e u)
      | rset_rp_id v => Ok (Build_request_builder m t v e u)
      | rset_extensions v => Ok (Build_request_builder m t r v u)
      | rset_user_verification v => Ok (Build_request_builder m t r e v)
      end
  end.

(** CredentialRequestOptionsBuilder.build, builders.py:367-402, likewise. *)
Definition request_build (b : request_builder) (challenge : bytes)
           (allow : option (list descriptor)) : res request_options :=
  match rb_mediation b with
  | None => raise BuilderError
  | Some m =>
      Ok {| ro_mediation := m; ro_challenge := challenge; ro_timeout := rb_timeout b;
            ro_rp_id := rb_rp_id b; ro_allow_credentials := allow;
            ro_user_verification := rb_user_verification b;
            ro_extensions := rb_extensions b |}
  end.

(** A chain of setter calls. *)
Fixpoint chain {B C} (set : B -> C -> res B) (b : B) (l : list C) : res B :=
  match l with
  | [] => Ok b
  | c :: t => b' <- set b c ;; chain set b' t
  end.
