(** * FormatSpec: the data formats, written as relations on decoded maps, without the
    parsers.  Tables are restated from the documents (RFC 8152, WebAuthn L1), not from
    the code. *)
From Coq Require Import List NArith ZArith Bool String.
From Verif Require Import Base PyVal B64 Types.
Import ListNotations.
Local Open Scope list_scope.
Local Open Scope string_scope.

(** ** Members of a decoded map *)

(** The map has member [name] with value [v]. *)
Definition member (name : string) (d : pydict) (v : pyval) : Prop :=
  dict_find (VStr (lit name)) d = Some v.
(** The map has no member [name], or it is null. *)
Definition absent_or_null (name : string) (d : pydict) : Prop :=
  forall v, dict_find (VStr (lit name)) d = Some v -> v = VNone.
(** Integer labels. *)
Definition label (z : Z) (d : pydict) (v : pyval) : Prop := dict_find (VInt z) d = Some v.
Definition no_label (z : Z) (d : pydict) : Prop :=
  forall v, dict_find (VInt z) d = Some v -> v = VNone.

(** Optional members: [o] is [None] when the member is absent or null, otherwise the
    value, of the right shape. *)
Definition opt_member {A} (name : string) (d : pydict) (shape : A -> pyval -> Prop)
           (o : option A) : Prop :=
  match o with
  | None => absent_or_null name d
  | Some a => exists v, member name d v /\ shape a v
  end.
Definition opt_label {A} (z : Z) (d : pydict) (shape : A -> pyval -> Prop)
           (o : option A) : Prop :=
  match o with
  | None => no_label z d
  | Some a => exists v, label z d v /\ shape a v
  end.

(** No other members than the listed ones. *)
Definition only_members (names : list string) (d : pydict) : Prop :=
  forall k v, In (k, v) d -> exists n, In n names /\ k = VStr (lit n).

(** Lists and tuples. *)
Definition seq_of {A} (f : A -> pyval) (l : list A) (v : pyval) : Prop :=
  v = VList (map f l) \/ v = VTuple (map f l).

(** ** Registries *)

(** A registry entry is named by its integer or by its name; the form is kept. *)
Definition entry {A} (tbl : list (Z * string * A)) (v : pyval) (m : form * A) : Prop :=
  exists z n a, In (z, n, a) tbl /\
    ((v = VInt z /\ m = (FValue, a)) \/ (v = VStr (lit n) /\ m = (FName, a))).

(** COSE key types (RFC 8152 table 21). *)
Definition kty_table : list (Z * string * kty) :=
  [(1, "OKP", KT_OKP); (2, "EC2", KT_EC2); (4, "Symmetric", KT_SYMMETRIC)]%Z.
(** Algorithms (RFC 8152 tables 5 and 6). *)
Definition alg_table : list (Z * string * alg) :=
  [(-7, "ES256", ES256); (-35, "ES384", ES384); (-36, "ES512", ES512);
   (-8, "EdDSA", EDDSA)]%Z.
(** Curves (RFC 8152 table 22). *)
Definition ec2_table : list (Z * string * curve) :=
  [(1, "P-256", P_256); (2, "P-384", P_384); (3, "P-521", P_521)]%Z.
Definition okp_table : list (Z * string * curve) :=
  [(6, "Ed25519", ED25519); (7, "Ed448", ED448)]%Z.
(** Key operations (RFC 8152 table 4). *)
Definition op_table : list (Z * string * keyop) :=
  [(1, "sign", SIGN); (2, "verify", VERIFY); (3, "encrypt", ENCRYPT);
   (4, "decrypt", DECRYPT); (5, "wrap key", WRAP_KEY); (6, "unwrap key", UNWRAP_KEY);
   (7, "derive key", DERIVE_KEY); (8, "derive bits", DERIVE_BITS);
   (9, "MAC create", MAC_CREATE); (10, "MAC verify", MAC_VERIFY)]%Z.

(** Coordinate length of a curve, in bytes. *)
Definition coord_len (c : curve) : nat :=
  match c with P_256 => 32 | P_384 => 48 | P_521 => 66 | ED25519 => 32 | ED448 => 57 end.

(** ** COSE keys *)

Definition is_bytes (b : bytes) (v : pyval) : Prop := v = VBytes b.
Definition key_ops_shape (l : list (form * keyop)) (v : pyval) : Prop :=
  l <> [] /\ exists vs, (v = VList vs \/ v = VTuple vs) /\ Forall2 (entry op_table) vs l.

(** Labels common to all keys: 1 kty, 2 kid, 3 alg, 4 key_ops, 5 Base IV. *)
Definition CoseBase (d : pydict) (b : key_base) : Prop :=
  (exists v, label 1 d v /\ entry kty_table v (kb_kty b)) /\
  opt_label 2 d is_bytes (kb_kid b) /\
  (exists v a, label 3 d v /\ entry alg_table v a /\ kb_alg b = Some a) /\
  opt_label 4 d key_ops_shape (kb_key_ops b) /\
  opt_label 5 d is_bytes (kb_base_IV b).

(** Labels -1 crv, -2 x, -3 y. *)
Inductive CoseKey (d : pydict) : pubkey -> Prop :=
| ck_ec2 b x y crv v :
    CoseBase d b -> snd (kb_kty b) = KT_EC2 ->
    label (-1) d v -> entry ec2_table v crv ->
    label (-2) d (VBytes x) -> label (-3) d (VBytes y) ->
    List.length x = coord_len (snd crv) -> List.length y = coord_len (snd crv) ->
    CoseKey d (EC2Key b x y crv)
| ck_okp b x crv v :
    CoseBase d b -> snd (kb_kty b) = KT_OKP ->
    label (-1) d v -> entry okp_table v crv ->
    label (-2) d (VBytes x) -> List.length x = coord_len (snd crv) ->
    CoseKey d (OKPKey b crv x).

(** ** Extension outputs (WebAuthn 10) *)

Definition is_bool (b : bool) (v : pyval) : Prop := v = VBool b.
Definition is_str (s : pystr) (v : pyval) : Prop := v = VStr s.
Definition is_number (v : pyval) : Prop :=
  (exists z, v = VInt z) \/ (exists f, v = VFloat f).

Definition value_or_null (name : string) (d : pydict) (v : pyval) : Prop :=
  member name d v \/ (dict_find (VStr (lit name)) d = None /\ v = VNone).

Definition loc_shape (c : coordinates) (v : pyval) : Prop :=
  exists m, v = VDict m /\
    only_members ["latitude"; "longitude"; "altitude"; "accuracy"; "altitudeAccuracy";
                  "heading"; "speed"] m /\
    (forall k x, In (k, x) m -> is_number x) /\
    value_or_null "latitude" m (co_latitude c) /\
    value_or_null "longitude" m (co_longitude c) /\
    value_or_null "altitude" m (co_altitude c) /\
    value_or_null "accuracy" m (co_accuracy c) /\
    value_or_null "altitudeAccuracy" m (co_altitude_accuracy c) /\
    value_or_null "heading" m (co_heading c) /\
    value_or_null "speed" m (co_speed c).
Definition uvm_shape (l : list (list Z)) (v : pyval) : Prop :=
  v = VList (map (fun e => VList (map VInt e)) l).

Definition ExtMap (d : pydict) (x : ext_outputs) : Prop :=
  only_members ["appid"; "txAuthSimple"; "txAuthGeneric"; "authnSel"; "exts"; "uvi";
                "loc"; "uvm"; "biometricPerfBounds"] d /\
  opt_member "appid" d is_bool (ex_appid x) /\
  opt_member "txAuthSimple" d is_str (ex_tx_auth_simple x) /\
  opt_member "txAuthGeneric" d is_bytes (ex_tx_auth_generic x) /\
  opt_member "authnSel" d is_bool (ex_authn_sel x) /\
  opt_member "exts" d (seq_of VStr) (ex_exts x) /\
  opt_member "uvi" d is_bytes (ex_uvi x) /\
  opt_member "loc" d loc_shape (ex_loc x) /\
  opt_member "uvm" d uvm_shape (ex_uvm x) /\
  opt_member "biometricPerfBounds" d is_bool (ex_biometric_perf_bounds x).

(** The name of each extension (WebAuthn 10.1-10.9). *)
Definition ext_name (e : ext_id) : string :=
  match e with
  | APPID => "appid" | TX_AUTH_SIMPLE => "txAuthSimple"
  | TX_AUTH_GENERIC => "txAuthGeneric" | AUTHN_SEL => "authnSel" | EXTS => "exts"
  | UVI => "uvi" | LOC => "loc" | UVM => "uvm"
  | BIOMETRIC_PERF_BOUNDS => "biometricPerfBounds"
  end.

(** ** Attestation statements (WebAuthn 8) *)

Definition stmt_alg (d : pydict) (a : form * alg) : Prop :=
  exists v, member "alg" d v /\ entry alg_table v a.
Definition stmt_x5c (d : pydict) (l : list bytes) : Prop :=
  exists v, member "x5c" d v /\ seq_of VBytes l v.

Inductive StmtMap (d : pydict) : att_fmt -> att_stmt -> Prop :=
| sm_packed a sig :
    only_members ["alg"; "sig"] d -> stmt_alg d a -> member "sig" d (VBytes sig) ->
    StmtMap d F_PACKED (S_Packed a sig)
| sm_packed_x5c a sig l :
    only_members ["alg"; "sig"; "x5c"] d -> stmt_alg d a -> member "sig" d (VBytes sig) ->
    stmt_x5c d l -> StmtMap d F_PACKED (S_PackedX509 a sig l)
| sm_packed_ecdaa a sig e :
    only_members ["alg"; "sig"; "ecdaaKeyId"] d -> stmt_alg d a ->
    member "sig" d (VBytes sig) -> member "ecdaaKeyId" d (VBytes e) ->
    StmtMap d F_PACKED (S_PackedECDAA a sig e)
| sm_tpm a sig ver ci pa :
    only_members ["alg"; "sig"; "ver"; "certInfo"; "pubArea"] d -> stmt_alg d a ->
    member "sig" d (VBytes sig) -> member "ver" d (VStr ver) ->
    member "certInfo" d (VBytes ci) -> member "pubArea" d (VBytes pa) ->
    StmtMap d F_TPM (S_TPM a sig ver ci pa)
| sm_tpm_x5c a sig ver ci pa l :
    only_members ["alg"; "sig"; "ver"; "certInfo"; "pubArea"; "x5c"] d -> stmt_alg d a ->
    member "sig" d (VBytes sig) -> member "ver" d (VStr ver) ->
    member "certInfo" d (VBytes ci) -> member "pubArea" d (VBytes pa) ->
    stmt_x5c d l -> StmtMap d F_TPM (S_TPMX509 a sig ver ci pa l)
| sm_tpm_ecdaa a sig ver ci pa e :
    only_members ["alg"; "sig"; "ver"; "certInfo"; "pubArea"; "ecdaaKeyId"] d ->
    stmt_alg d a ->
    member "sig" d (VBytes sig) -> member "ver" d (VStr ver) ->
    member "certInfo" d (VBytes ci) -> member "pubArea" d (VBytes pa) ->
    member "ecdaaKeyId" d (VBytes e) -> StmtMap d F_TPM (S_TPMECDAA a sig ver ci pa e)
| sm_android_key a sig l :
    only_members ["alg"; "sig"; "x5c"] d -> stmt_alg d a -> member "sig" d (VBytes sig) ->
    stmt_x5c d l -> StmtMap d F_ANDROID_KEY (S_AndroidKey (Some a) (Some sig) l)
| sm_safetynet ver r :
    only_members ["ver"; "response"] d -> member "ver" d (VStr ver) ->
    member "response" d (VBytes r) -> StmtMap d F_ANDROID_SAFETYNET (S_SafetyNet ver r)
| sm_u2f sig l :
    only_members ["sig"; "x5c"] d -> member "sig" d (VBytes sig) -> stmt_x5c d l ->
    StmtMap d F_FIDO_U2F (S_U2F (Some sig) l)
| sm_none : d = [] -> StmtMap d F_NONE S_None.

(** ** PublicKeyCredential as JSON: binary members are standard base64 *)

Definition b64_member (name : string) (d : pydict) (b : bytes) : Prop :=
  exists s, member name d (VStr s) /\ b64decode s = Ok b.
Definition opt_b64_member (name : string) (d : pydict) (o : option bytes) : Prop :=
  match o with None => absent_or_null name d | Some b => b64_member name d b end.

Inductive ResponseMap (d : pydict) : response -> Prop :=
| rm_attestation c a :
    only_members ["clientDataJSON"; "attestationObject"] d ->
    b64_member "clientDataJSON" d c -> b64_member "attestationObject" d a ->
    ResponseMap d (AttestationResponse c a)
| rm_assertion c a s u :
    only_members ["clientDataJSON"; "authenticatorData"; "signature"; "userHandle"] d ->
    b64_member "clientDataJSON" d c -> b64_member "authenticatorData" d a ->
    b64_member "signature" d s -> opt_b64_member "userHandle" d u ->
    ResponseMap d (AssertionResponse c a s u).

Definition CredentialMap (d : pydict) (c : credential) : Prop :=
  only_members ["id"; "rawId"; "response"; "type"] d /\
  member "id" d (VStr (cr_id c)) /\ member "type" d (VStr (cr_type c)) /\
  b64_member "rawId" d (cr_raw_id c) /\
  exists r, member "response" d (VDict r) /\ ResponseMap r (cr_response c).
