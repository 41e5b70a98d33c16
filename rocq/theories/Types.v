(** * Types: the enums and classes of /repo/webauthn_rp/types.py. *)
From Coq Require Import List NArith ZArith Bool String.
From Verif Require Import Base PyVal CaseConv Url.
Import ListNotations.
Local Open Scope list_scope.

(** ** Enums *)

(** A member of a Name/Value pair of enums (types.py:293-309): [FName] members have
    a string [.value], [FValue] members an integer one; [.name] is common. *)
Inductive form := FName | FValue.

(** COSEAlgorithmIdentifier, types.py:312-339. *)
Inductive alg := ES256 | ES384 | ES512 | EDDSA.
(** COSEKeyType, types.py:1240-1265. *)
Inductive kty := KT_OKP | KT_EC2 | KT_SYMMETRIC.
(** COSEKeyOperation, types.py:1268-1317. *)
Inductive keyop := SIGN | VERIFY | ENCRYPT | DECRYPT | WRAP_KEY | UNWRAP_KEY
| DERIVE_KEY | DERIVE_BITS | MAC_CREATE | MAC_VERIFY.
(** EC2Curve and OKPCurve, types.py:1320-1364 (one type: the annotations are not
    enforced, so an EC2 key object may carry an OKP curve). *)
Inductive curve := P_256 | P_384 | P_521 | ED25519 | ED448.

(** The two Enum classes of a _NameValueEnumsContainer, types.py:293-309, as one table. *)
Record enum_table (A : Type) := {
  en_members : list A;
  en_name : A -> pystr;      (* .value of the Name member *)
  en_value : A -> Z;         (* .value of the Value member *)
}.
Arguments en_members {A}. Arguments en_name {A}. Arguments en_value {A}.

(** types.py:327-339. *)
Definition alg_enum : enum_table alg := {|
  en_members := [ES256; ES384; ES512; EDDSA];
  en_name a := lit match a with ES256 => "ES256" | ES384 => "ES384"
                           | ES512 => "ES512" | EDDSA => "EdDSA" end;
  en_value a := match a with ES256 => -7 | ES384 => -35 | ES512 => -36
                        | EDDSA => -8 end%Z |}.

(** types.py:1257-1265. *)
Definition kty_enum : enum_table kty := {|
  en_members := [KT_OKP; KT_EC2; KT_SYMMETRIC];
  en_name k := lit match k with KT_OKP => "OKP" | KT_EC2 => "EC2"
                           | KT_SYMMETRIC => "Symmetric" end;
  en_value k := match k with KT_OKP => 1 | KT_EC2 => 2 | KT_SYMMETRIC => 4 end%Z |}.

(** types.py:1295-1317. *)
Definition keyop_enum : enum_table keyop := {|
  en_members := [SIGN; VERIFY; ENCRYPT; DECRYPT; WRAP_KEY; UNWRAP_KEY; DERIVE_KEY;
                 DERIVE_BITS; MAC_CREATE; MAC_VERIFY];
  en_name k := lit match k with
    | SIGN => "sign" | VERIFY => "verify" | ENCRYPT => "encrypt"
    | DECRYPT => "decrypt" | WRAP_KEY => "wrap key" | UNWRAP_KEY => "unwrap key"
    | DERIVE_KEY => "derive key" | DERIVE_BITS => "derive bits"
    | MAC_CREATE => "MAC create" | MAC_VERIFY => "MAC verify" end;
  en_value k := match k with
    | SIGN => 1 | VERIFY => 2 | ENCRYPT => 3 | DECRYPT => 4 | WRAP_KEY => 5
    | UNWRAP_KEY => 6 | DERIVE_KEY => 7 | DERIVE_BITS => 8 | MAC_CREATE => 9
    | MAC_VERIFY => 10 end%Z |}.

(** types.py:1334-1337, 1358-1360. *)
Definition curve_name (c : curve) : pystr := lit match c with
  | P_256 => "P-256" | P_384 => "P-384" | P_521 => "P-521"
  | ED25519 => "Ed25519" | ED448 => "Ed448" end.
(** types.py:1339-1342, 1362-1364. *)
Definition curve_value (c : curve) : Z := match c with
  | P_256 => 1 | P_384 => 2 | P_521 => 3 | ED25519 => 6 | ED448 => 7 end%Z.
(** EC2Curve, types.py:1320-1342. *)
Definition ec2curve_enum : enum_table curve := {|
  en_members := [P_256; P_384; P_521]; en_name := curve_name; en_value := curve_value |}.
(** OKPCurve, types.py:1345-1364. *)
Definition okpcurve_enum : enum_table curve := {|
  en_members := [ED25519; ED448]; en_name := curve_name; en_value := curve_value |}.

(** _NameValueEnumsContainer.__call__, types.py:301-309: exact [int] -> Value enum,
    exact [str] -> Name enum (ValueError if not a member), else KeyError. *)
Definition enum_call {A} (t : enum_table A) (v : pyval) : res (form * A) :=
  match v with
  | VInt z => match find (fun a => Z.eqb (en_value t a) z) (en_members t) with
              | Some a => Ok (FValue, a) | None => Raise (Py EValueError) end
  | VStr s => match find (fun a => str_eqb (en_name t a) s) (en_members t) with
              | Some a => Ok (FName, a) | None => Raise (Py EValueError) end
  | _ => Raise (Py EKeyError)
  end.

(** [member.value] *)
Definition enum_val {A} (t : enum_table A) (m : form * A) : pyval :=
  match fst m with FName => VStr (en_name t (snd m)) | FValue => VInt (en_value t (snd m)) end.

(** ** Credential public keys, types.py:1367-1564 *)

(** CredentialPublicKey, types.py:1367-1423: the members common to all keys. *)
Record key_base := {
  kb_kty : form * kty;
  kb_kid : option bytes;
  kb_alg : option (form * alg);
  kb_key_ops : option (list (form * keyop));
  kb_base_IV : option bytes;
}.

(** [OtherKey] is a bare CredentialPublicKey (or another subclass). *)
Inductive pubkey :=
| EC2Key (b : key_base) (x y : bytes) (crv : form * curve)
| OKPKey (b : key_base) (crv : form * curve) (x : bytes)
| OtherKey (b : key_base).

(** Those members of a key. *)
Definition key_base_of (k : pubkey) : key_base :=
  match k with EC2Key b _ _ _ => b | OKPKey b _ _ => b | OtherKey b => b end.

(** ** Extensions, types.py:504-768.  Values [int or float] are kept as [pyval].
    Whether [exts] was a list or a tuple is not recorded. *)
Record coordinates := {
  co_latitude : pyval; co_longitude : pyval; co_altitude : pyval;
  co_accuracy : pyval; co_altitude_accuracy : pyval; co_heading : pyval;
  co_speed : pyval;
}.

(** AuthenticationExtensionsClientOutputs, types.py:716-768. *)
Record ext_outputs := {
  ex_appid : option bool;
  ex_tx_auth_simple : option pystr;
  ex_tx_auth_generic : option bytes;
  ex_authn_sel : option bool;
  ex_exts : option (list pystr);
  ex_uvi : option bytes;
  ex_loc : option coordinates;
  ex_uvm : option (list (list Z));
  ex_biometric_perf_bounds : option bool;
}.

(** ExtensionIdentifier, types.py:591-651. *)
Inductive ext_id := APPID | TX_AUTH_SIMPLE | TX_AUTH_GENERIC | AUTHN_SEL | EXTS | UVI
| LOC | UVM | BIOMETRIC_PERF_BOUNDS.

(** [e.value] *)
Definition ext_value (e : ext_id) : pystr := lit match e with
  | APPID => "appid" | TX_AUTH_SIMPLE => "txAuthSimple"
  | TX_AUTH_GENERIC => "txAuthGeneric" | AUTHN_SEL => "authnSel" | EXTS => "exts"
  | UVI => "uvi" | LOC => "loc" | UVM => "uvm"
  | BIOMETRIC_PERF_BOUNDS => "biometricPerfBounds" end.

(** [e.key], types.py:649-651.  All values are ASCII, so the ASCII instance of the
    case tables is enough (see [CaseFacts.ext_key_any_unicode]). *)
Definition ext_key (e : ext_id) : pystr := camel_to_snake ascii_unicode (ext_value e).

(** The instance attributes set by
    AuthenticationExtensionsClientOutputs.__init__ (types.py:749-768), each with
    whether its value is not None. *)
Definition ext_attrs (x : ext_outputs) : list (pystr * bool) :=
  [ (lit "appid", is_some (ex_appid x));
    (lit "tx_auth_simple", is_some (ex_tx_auth_simple x));
    (lit "tx_auth_generic", is_some (ex_tx_auth_generic x));
    (lit "authn_sel", is_some (ex_authn_sel x));
    (lit "exts", is_some (ex_exts x));
    (lit "uvi", is_some (ex_uvi x));
    (lit "loc", is_some (ex_loc x));
    (lit "uvm", is_some (ex_uvm x));
    (lit "biometric_perf_bounds", is_some (ex_biometric_perf_bounds x)) ].

(** [hasattr(x, name) and getattr(x, name) is not None], where [x] may be None. *)
Definition has_nonnull_attr (x : option ext_outputs) (name : pystr) : bool :=
  match x with
  | None => false
  | Some o => existsb (fun p => str_eqb (fst p) name && snd p) (ext_attrs o)
  end.

(** ** Authenticator data and attestation objects *)

(** AttestedCredentialData, types.py:1567-1615. *)
Record attested := {
  at_aaguid : bytes;
  at_id_length : N;
  at_id : bytes;
  at_key : option pubkey;
}.

(** AuthenticatorData, types.py:1618-1657. *)
Record auth_data := {
  ad_rp_id_hash : bytes;
  ad_flags : N;
  ad_sign_count : N;
  ad_attested : option attested;
  ad_extensions : option ext_outputs;
}.

(** AuthenticatorDataFlag, types.py:1216-1237. *)
Definition FLAG_UP : N := 1.
Definition FLAG_UV : N := 4.
Definition FLAG_AT : N := 64.
Definition FLAG_ED : N := 128.
(** [bool(flag & flags)] *)
Definition has_flag (flag flags : N) : bool := negb (N.eqb (N.land flag flags) 0).

(** AttestationStatementFormatIdentifier, types.py:1660-1712. *)
Inductive att_fmt := F_PACKED | F_TPM | F_ANDROID_KEY | F_ANDROID_SAFETYNET
| F_FIDO_U2F | F_NONE.
Definition fmt_value (f : att_fmt) : pystr := lit match f with
  | F_PACKED => "packed" | F_TPM => "tpm" | F_ANDROID_KEY => "android-key"
  | F_ANDROID_SAFETYNET => "android-safetynet" | F_FIDO_U2F => "fido-u2f"
  | F_NONE => "none" end.
Definition all_fmts : list att_fmt :=
  [F_PACKED; F_TPM; F_ANDROID_KEY; F_ANDROID_SAFETYNET; F_FIDO_U2F; F_NONE].

(** AttestationType, types.py:1715-1762. *)
Inductive att_type := AT_BASIC | AT_ATTCA | AT_ECDAA | AT_SELF | AT_NONE | AT_UNCERTAIN.

(** Attestation statements, types.py:1765-2055.  [sig]/[alg] may be None on objects
    built by callers. *)
Inductive att_stmt :=
| S_Packed (a : form * alg) (sig : bytes)
| S_PackedX509 (a : form * alg) (sig : bytes) (x5c : list bytes)
| S_PackedECDAA (a : form * alg) (sig : bytes) (ecdaa_key_id : bytes)
| S_TPM (a : form * alg) (sig : bytes) (ver : pystr) (cert_info pub_area : bytes)
| S_TPMX509 (a : form * alg) (sig : bytes) (ver : pystr) (cert_info pub_area : bytes)
            (x5c : list bytes)
| S_TPMECDAA (a : form * alg) (sig : bytes) (ver : pystr) (cert_info pub_area : bytes)
            (ecdaa_key_id : bytes)
| S_AndroidKey (a : option (form * alg)) (sig : option bytes) (x5c : list bytes)
| S_SafetyNet (ver : pystr) (response : bytes)
| S_U2F (sig : option bytes) (x5c : list bytes)
| S_None.

(** The format whose statement class a statement belongs to. *)
Definition stmt_fmt (s : att_stmt) : att_fmt :=
  match s with
  | S_Packed _ _ | S_PackedX509 _ _ _ | S_PackedECDAA _ _ _ => F_PACKED
  | S_TPM _ _ _ _ _ | S_TPMX509 _ _ _ _ _ _ | S_TPMECDAA _ _ _ _ _ _ => F_TPM
  | S_AndroidKey _ _ _ => F_ANDROID_KEY
  | S_SafetyNet _ _ => F_ANDROID_SAFETYNET
  | S_U2F _ _ => F_FIDO_U2F
  | S_None => F_NONE
  end.

(** AttestationObject, types.py:2058-2087 ([auth_data] may be None when a caller
    builds one by hand). *)
Record att_obj := {
  ao_auth_data : option auth_data;
  ao_fmt : att_fmt;
  ao_stmt : att_stmt;
}.

(** ** Client data, types.py:1138-1213 *)
Inductive tb_status := TB_SUPPORTED | TB_PRESENT.
Definition tb_status_value (s : tb_status) : pystr :=
  lit match s with TB_SUPPORTED => "supported" | TB_PRESENT => "present" end.
Definition tb_status_eqb (a b : tb_status) : bool :=
  match a, b with TB_SUPPORTED, TB_SUPPORTED | TB_PRESENT, TB_PRESENT => true
             | _, _ => false end.

(** TokenBinding: the id is whatever JSON value the client sent (its type is not
    checked by the parser). *)
Record token_binding := { tb_status_ : tb_status; tb_id : pyval }.

(** CollectedClientData, types.py:1180-1213. *)
Record client_data := {
  cd_type : pystr;
  cd_challenge : pystr;
  cd_origin : pystr;
  cd_token_binding : option token_binding;
}.

(** ** Entities and credentials, types.py:110-242, 366-398, 999-1135 *)
Record rp_entity := { rp_name : pystr; rp_icon : option pystr; rp_id : pystr }.
Record user_entity := {
  us_name : pystr; us_icon : option pystr; us_id : bytes; us_display_name : pystr }.

(** AuthenticatorAttestationResponse and AuthenticatorAssertionResponse, types.py:1016-1082. *)
Inductive response :=
| AttestationResponse (client_data_JSON attestation_object : bytes)
| AssertionResponse (client_data_JSON authenticator_data signature : bytes)
                    (user_handle : option bytes).

Record credential := {
  cr_id : pystr; cr_type : pystr; cr_raw_id : bytes; cr_response : response }.

(** PublicKeyCredentialType has the single member PUBLIC_KEY. *)
Inductive transport := USB | NFC | BLE | INTERNAL.
Record descriptor := { de_id : bytes; de_transports : option (list transport) }.
