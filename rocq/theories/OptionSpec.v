(** * OptionSpec: what jsonify and the builders are meant to produce. *)
From Coq Require Import List NArith ZArith Bool String.
From Verif Require Import Base PyVal B64 CodecSpec FormatSpec Types Jsonify Builders.
Import ListNotations.
Local Open Scope list_scope.
Local Open Scope string_scope.

(** ** Conversion to JSON *)

(** [Path n t u]: [u] is [n] steps below [t], through list items, values of Enum members and
    members of dictionaries and instances that are not None. *)
Inductive Path : nat -> pobj -> pobj -> Prop :=
| path_here t : Path 0 t t
| path_list n l x u : In x l -> Path n x u -> Path (S n) (OList l) u
| path_tuple n l x u : In x l -> Path n x u -> Path (S n) (OTuple l) u
| path_enum n x u : Path n x u -> Path (S n) (OEnum x) u
| path_dict n m k x u : In (k, x) m -> x <> ONone -> Path n x u -> Path (S n) (ODict m) u
| path_obj n m k x u : In (k, x) m -> x <> ONone -> Path n x u -> Path (S n) (OObj m) u.

(** Why a node cannot be converted, and the error naming it. *)
Inductive Defect : pobj -> libexn -> Prop :=
| defect_type : Defect OOpaque UnimplementedError
| defect_dict m x : In (KOther, x) m -> Defect (ODict m) JSONConversionError
| defect_obj m x : In (KOther, x) m -> Defect (OObj m) JSONConversionError.

(** [x] is the last member of [m] that is not None and whose name converts to [k]. *)
Definition LastMember (conv : pystr -> pystr) (m : list (pkey * pobj)) (k : pystr) (x : pobj) : Prop :=
  exists m1 n m2, m = (m1 ++ (KStr n, x) :: m2)%list /\ conv n = k /\ x <> ONone /\
    forall n' x', In (KStr n', x') m2 -> x' <> ONone -> conv n' <> k.

(** The JSON value of an object. *)
Inductive Json (conv : pystr -> pystr) : pobj -> pyval -> Prop :=
| json_none : Json conv ONone VNone
| json_bool b : Json conv (OBool b) (VBool b)
| json_int z : Json conv (OInt z) (VInt z)
| json_float x : Json conv (OFloat x) (VFloat x)
| json_str s : Json conv (OStr s) (VStr s)
| json_bytes b : Json conv (OBytes b) (VStr (rfc4648 std_alphabet b))
| json_list l vs : Forall2 (Json conv) l vs -> Json conv (OList l) (VList vs)
| json_tuple l vs : Forall2 (Json conv) l vs -> Json conv (OTuple l) (VList vs)
| json_enum x v : Json conv x v -> Json conv (OEnum x) v
| json_dict m d : JsonMembers conv m d -> Json conv (ODict m) (VDict d)
| json_obj m d : JsonMembers conv m d -> Json conv (OObj m) (VDict d)
with JsonMembers (conv : pystr -> pystr) : list (pkey * pobj) -> pydict -> Prop :=
| json_members m d :
    (forall k w, In (k, w) d -> exists n x, k = VStr n /\ LastMember conv m n x /\ Json conv x w) ->
    (forall n x, LastMember conv m n x -> exists w, In (VStr n, w) d) ->
    NoDup (map fst d) ->
    JsonMembers conv m d.

(** Values the json module can write. *)
Inductive PureJson : pyval -> Prop :=
| pure_none : PureJson VNone
| pure_bool b : PureJson (VBool b)
| pure_int z : PureJson (VInt z)
| pure_float x : PureJson (VFloat x)
| pure_str s : PureJson (VStr s)
| pure_list l : Forall PureJson l -> PureJson (VList l)
| pure_dict d : (forall k v, In (k, v) d -> exists s, k = VStr s) -> NoDup (map fst d) ->
    Forall (fun kv => PureJson (snd kv)) d -> PureJson (VDict d).

(** No object has a null member. *)
Inductive NullFree : pyval -> Prop :=
| nf_list l : Forall NullFree l -> NullFree (VList l)
| nf_dict d : Forall (fun kv => snd kv <> VNone /\ NullFree (snd kv)) d -> NullFree (VDict d)
| nf_other v : (forall l, v <> VList l) -> (forall d, v <> VDict d) -> NullFree v.

(** ** The options as JSON (WebAuthn L1, sections 5.4 to 5.6, 10) *)

(** An object with members among [names]. *)
Definition JObject (names : list string) (P : pydict -> Prop) (v : pyval) : Prop :=
  exists d, v = VDict d /\ P d /\
    forall k w, In (k, w) d -> exists n, In n names /\ k = VStr (lit n).
(** A required member and an optional one, left out when unset. *)
Definition has (d : pydict) (name : string) (P : pyval -> Prop) : Prop :=
  exists w, member name d w /\ P w.
Definition may {A} (d : pydict) (name : string) (o : option A) (P : A -> pyval -> Prop) : Prop :=
  match o with
  | None => dict_find (VStr (lit name)) d = None
  | Some a => has d name (P a)
  end.

Definition JStr (s : pystr) (v : pyval) : Prop := v = VStr s.
Definition JBool (b : bool) (v : pyval) : Prop := v = VBool b.
Definition JInt (z : Z) (v : pyval) : Prop := v = VInt z.
Definition JText (s : string) (v : pyval) : Prop := v = VStr (lit s).
(** Standard base64, and it decodes to the bytes. *)
Definition JBytes (b : bytes) (v : pyval) : Prop :=
  exists s, v = VStr s /\ s = rfc4648 std_alphabet b /\ b64decode s = Ok b.
Definition JList {A} (P : A -> pyval -> Prop) (l : list A) (v : pyval) : Prop :=
  exists vs, v = VList vs /\ Forall2 P l vs.

Definition JRp (r : rp_entity) : pyval -> Prop :=
  JObject ["name"; "icon"; "id"] (fun d =>
    has d "name" (JStr (rp_name r)) /\ may d "icon" (rp_icon r) JStr /\
    has d "id" (JStr (rp_id r))).
Definition JUser (u : user_entity) : pyval -> Prop :=
  JObject ["name"; "icon"; "id"; "displayName"] (fun d =>
    has d "name" (JStr (us_name u)) /\ may d "icon" (us_icon u) JStr /\
    has d "id" (JBytes (us_id u)) /\ has d "displayName" (JStr (us_display_name u))).
(** The algorithm is its COSE number when given as a Value member, its name otherwise. *)
Definition cose_alg (p : form * alg) (v : pyval) : Prop :=
  match fst p, snd p with
  | FValue, ES256 => v = VInt (-7) | FValue, ES384 => v = VInt (-35)
  | FValue, ES512 => v = VInt (-36) | FValue, EDDSA => v = VInt (-8)
  | FName, ES256 => v = VStr (lit "ES256") | FName, ES384 => v = VStr (lit "ES384")
  | FName, ES512 => v = VStr (lit "ES512") | FName, EDDSA => v = VStr (lit "EdDSA")
  end.
Definition JParams (p : form * alg) : pyval -> Prop :=
  JObject ["type"; "alg"] (fun d => has d "type" (JText "public-key") /\ has d "alg" (cose_alg p)).
Definition JTransport (t : transport) : pyval -> Prop :=
  JText match t with USB => "usb" | NFC => "nfc" | BLE => "ble" | INTERNAL => "internal" end.
Definition JDescriptor (x : descriptor) : pyval -> Prop :=
  JObject ["type"; "id"; "transports"] (fun d =>
    has d "type" (JText "public-key") /\ has d "id" (JBytes (de_id x)) /\
    may d "transports" (de_transports x) (JList JTransport)).
Definition JTxGeneric (x : pystr * bytes) : pyval -> Prop :=
  JObject ["contentType"; "content"] (fun d =>
    has d "contentType" (JStr (fst x)) /\ has d "content" (JBytes (snd x))).
Definition JBounds (x : N * N) : pyval -> Prop :=
  JObject ["FAR"; "FRR"] (fun d =>
    has d "FAR" (eq (VFloat (fst x))) /\ has d "FRR" (eq (VFloat (snd x)))).
Definition JInputs (e : ext_inputs) : pyval -> Prop :=
  JObject ["appid"; "txAuthSimple"; "txAuthGeneric"; "authnSel"; "exts"; "uvi"; "loc"; "uvm";
           "biometricPerfBounds"] (fun d =>
    may d "appid" (ei_appid e) JStr /\ may d "txAuthSimple" (ei_tx_auth_simple e) JStr /\
    may d "txAuthGeneric" (ei_tx_auth_generic e) JTxGeneric /\
    may d "authnSel" (ei_authn_sel e) (JList JBytes) /\
    may d "exts" (ei_exts e) JBool /\ may d "uvi" (ei_uvi e) JBool /\
    may d "loc" (ei_loc e) JBool /\ may d "uvm" (ei_uvm e) JBool /\
    may d "biometricPerfBounds" (ei_biometric_perf_bounds e) JBounds).
Definition JUv (a : uv_requirement) : pyval -> Prop :=
  JText match a with UV_REQUIRED => "required" | UV_PREFERRED => "preferred"
                | UV_DISCOURAGED => "discouraged" end.
Definition JAttachment (a : attachment) : pyval -> Prop :=
  JText match a with PLATFORM => "platform" | CROSS_PLATFORM => "cross-platform" end.
Definition JConveyance (a : conveyance) : pyval -> Prop :=
  JText match a with AC_NONE => "none" | AC_INDIRECT => "indirect" | AC_DIRECT => "direct" end.
Definition JMediation (m : mediation) : pyval -> Prop :=
  JText match m with MD_SILENT => "silent" | MD_OPTIONAL => "optional" | MD_REQUIRED => "required" end.
Definition JSelection (s : selection) : pyval -> Prop :=
  JObject ["authenticatorAttachment"; "requireResidentKey"; "userVerification"] (fun d =>
    may d "authenticatorAttachment" (se_authenticator_attachment s) JAttachment /\
    has d "requireResidentKey" (JBool (se_require_resident_key s)) /\
    has d "userVerification" (JUv (se_user_verification s))).

(** The argument of navigator.credentials.create and of navigator.credentials.get. *)
Definition JCreationKey (o : creation_options) : pyval -> Prop :=
  JObject ["rp"; "user"; "challenge"; "pubKeyCredParams"; "timeout"; "excludeCredentials";
           "authenticatorSelection"; "attestation"; "extensions"] (fun d =>
    has d "rp" (JRp (co_rp o)) /\ has d "user" (JUser (co_user o)) /\
    has d "challenge" (JBytes (co_challenge o)) /\
    has d "pubKeyCredParams" (JList JParams (co_pub_key_cred_params o)) /\
    may d "timeout" (co_timeout o) JInt /\
    may d "excludeCredentials" (co_exclude_credentials o) (JList JDescriptor) /\
    may d "authenticatorSelection" (co_authenticator_selection o) JSelection /\
    has d "attestation" (JConveyance (co_attestation o)) /\
    may d "extensions" (co_extensions o) JInputs).
Definition JCreation (o : creation_options) : pyval -> Prop :=
  JObject ["publicKey"] (fun d => has d "publicKey" (JCreationKey o)).
Definition JRequestKey (o : request_options) : pyval -> Prop :=
  JObject ["challenge"; "timeout"; "rpId"; "allowCredentials"; "userVerification";
           "extensions"] (fun d =>
    has d "challenge" (JBytes (ro_challenge o)) /\
    may d "timeout" (ro_timeout o) JInt /\ may d "rpId" (ro_rp_id o) JStr /\
    may d "allowCredentials" (ro_allow_credentials o) (JList JDescriptor) /\
    may d "userVerification" (ro_user_verification o) JUv /\
    may d "extensions" (ro_extensions o) JInputs).
Definition JRequest (o : request_options) : pyval -> Prop :=
  JObject ["mediation"; "publicKey"] (fun d =>
    has d "mediation" (JMediation (ro_mediation o)) /\
    has d "publicKey" (JRequestKey o)).

(** ** Builders *)

(** The last call of a list that concerns an attribute, if any. *)
Fixpoint last_some {A B} (f : A -> option B) (l : list A) : option B :=
  match l with
  | [] => None
  | x :: t => match last_some f t with Some b => Some b | None => f x end
  end.
(** The attribute after the calls: the last value written, else the initial one. *)
Definition written {A B} (f : A -> option B) (initial : B) (l : list A) : B :=
  match last_some f l with Some b => b | None => initial end.

Definition to_rp c := match c with set_rp v => Some v | _ => None end.
Definition to_params c := match c with set_pub_key_cred_params v => Some v | _ => None end.
Definition to_timeout c := match c with set_timeout v => Some v | _ => None end.
Definition to_selection c := match c with set_authenticator_selection v => Some v | _ => None end.
Definition to_extensions c := match c with set_extensions v => Some v | _ => None end.
Definition to_attestation c := match c with set_attestation v => Some v | _ => None end.
Definition to_exclude c := match c with set_exclude_credentials v => Some v | _ => None end.
Definition to_mediation c := match c with rset_mediation v => Some v | _ => None end.
Definition to_rtimeout c := match c with rset_timeout v => Some v | _ => None end.
Definition to_rp_id c := match c with rset_rp_id v => Some v | _ => None end.
Definition to_rextensions c := match c with rset_extensions v => Some v | _ => None end.
Definition to_uv c := match c with rset_user_verification v => Some v | _ => None end.

(** Calls that set a required attribute to None. *)
Definition unsets_required (c : creation_call) : Prop :=
  match c with
  | set_rp None | set_pub_key_cred_params None | set_attestation None => True
  | _ => False
  end.
Definition runsets_required (c : request_call) : Prop := c = rset_mediation None.
