(** * FailSpec: which exception each failure of key conversion, signature verification and
    attestation gives.  Independent of the functions of the model. *)
From Coq Require Import List NArith ZArith Bool String.
From Coq Require Import Strings.Byte.
From Verif Require Import Base PyVal Types World Crypto Spec StepSpec MapFailSpec.
Import ListNotations.
Local Open Scope list_scope.

(** ValueError and its subclasses among the exceptions of the model. *)
Definition value_errors : list pyexn :=
  [EValueError; EUnicodeDecodeError; EUnicodeEncodeError; EJSONDecodeError; EBinasciiError;
   ECBORDecodeValueError].

(** An exception [p] of a library becomes [c] when it belongs to [classes] and is passed on
    as it is otherwise. *)
Definition becomes (classes : list pyexn) (c : libexn) (p : pyexn) (e : exn) : Prop :=
  (In p classes /\ e = Lib c) \/ (~ In p classes /\ e = Py p).

(** ** Key conversion *)

Definition ec_curve (c : curve) : option eccurve :=
  match c with
  | P_256 => Some SECP256R1 | P_384 => Some SECP384R1 | P_521 => Some SECP521R1
  | _ => None
  end.

Inductive KeyFails (W : World) : pubkey -> exn -> Prop :=
| kf_type b : KeyFails W (OtherKey b) (Lib UnimplementedError)
| kf_ec_curve b x y f c : ec_curve c = None ->
    KeyFails W (EC2Key b x y (f, c)) (Lib UnimplementedError)
| kf_ec b x y f c n p e : ec_curve c = Some n ->
    w_ec_load W n (be_to_N x) (be_to_N y) = WRaise p ->
    becomes value_errors PublicKeyConversionError p e ->
    KeyFails W (EC2Key b x y (f, c)) e
| kf_okp_curve b x f c : c <> ED25519 -> c <> ED448 ->
    KeyFails W (OKPKey b (f, c) x) (Lib UnimplementedError)
| kf_ed25519 b x f p e : w_ed25519_load W x = WRaise p ->
    becomes value_errors PublicKeyConversionError p e ->
    KeyFails W (OKPKey b (f, ED25519) x) e
| kf_ed448 b x f p e : w_ed448_load W x = WRaise p ->
    becomes value_errors PublicKeyConversionError p e ->
    KeyFails W (OKPKey b (f, ED448) x) e.

(** ** Signatures *)

Inductive VerifyFails (W : World) (sig data : bytes) : pubkey -> exn -> Prop :=
| vf_key k e : KeyFails W k e -> VerifyFails W sig data k e
| vf_no_alg b x y crv o : KeyObject W (EC2Key b x y crv) o -> kb_alg b = None ->
    VerifyFails W sig data (EC2Key b x y crv) (Lib VerificationError)
| vf_eddsa b x y crv o f : KeyObject W (EC2Key b x y crv) o -> kb_alg b = Some (f, EDDSA) ->
    VerifyFails W sig data (EC2Key b x y crv) (Py EAssertionError)
| vf_ec2 b x y crv o f a h p e :
    KeyObject W (EC2Key b x y crv) o -> kb_alg b = Some (f, a) -> AlgHash a h ->
    w_verify W o (ECDSA h) sig data = WRaise p ->
    becomes [EInvalidSignature] VerificationError p e ->
    VerifyFails W sig data (EC2Key b x y crv) e
| vf_okp b x crv o p e :
    KeyObject W (OKPKey b crv x) o ->
    w_verify W o PureEdDSA sig data = WRaise p ->
    becomes [EInvalidSignature] VerificationError p e ->
    VerifyFails W sig data (OKPKey b crv x) e.

(** ** FIDO U2F *)

(** The only certificate is [c], with the P-256 key [(px, py)]. *)
Definition U2FCert (W : World) (x5c : list bytes) (c : cert) (px py : N) : Prop :=
  exists der, x5c = [der] /\ w_load_cert W der = WOk c /\
    ce_public_key c = WOk (CEC SECP256R1 px py).
(** The attested key. *)
Definition AttestedKey (o : att_obj) (ad : auth_data) (acd : attested) (k : pubkey) : Prop :=
  ao_auth_data o = Some ad /\ ad_attested ad = Some acd /\ at_key acd = Some k.
(** Something the key is reached through is missing. *)
Definition NoAttestedData (o : att_obj) : Prop :=
  ao_auth_data o = None \/ exists ad, ao_auth_data o = Some ad /\ ad_attested ad = None.
Definition NoAttestedKey (o : att_obj) : Prop :=
  exists ad acd, ao_auth_data o = Some ad /\ ad_attested ad = Some acd /\ at_key acd = None.

Inductive U2FFails (W : World) (h : bytes) :
  option bytes -> list bytes -> attest_arg -> exn -> Prop :=
| uf_count sig x5c arg : List.length x5c <> 1 ->
    U2FFails W h sig x5c arg (Lib AttestationError)
| uf_load sig der arg p e : w_load_cert W der = WRaise p ->
    becomes value_errors AttestationError p e -> U2FFails W h sig [der] arg e
| uf_key sig der arg c p : w_load_cert W der = WOk c -> ce_public_key c = WRaise p ->
    U2FFails W h sig [der] arg (Py p)
| uf_curve sig der arg c pk : w_load_cert W der = WOk c -> ce_public_key c = WOk pk ->
    (forall px py, pk <> CEC SECP256R1 px py) ->
    U2FFails W h sig [der] arg (Lib AttestationError)
| uf_arg sig x5c k c px py : U2FCert W x5c c px py ->
    U2FFails W h sig x5c (ArgKey k) (Py EAttributeError)
| uf_none sig x5c o c px py : U2FCert W x5c c px py -> NoAttestedData o \/ NoAttestedKey o ->
    U2FFails W h sig x5c (ArgObj o) (Py EAssertionError)
| uf_ec2 sig x5c o c px py ad acd k : U2FCert W x5c c px py -> AttestedKey o ad acd k ->
    (forall b x y crv, k <> EC2Key b x y crv) ->
    U2FFails W h sig x5c (ArgObj o) (Py EAttributeError)
| uf_nosig x5c o c px py ad acd b x y crv : U2FCert W x5c c px py ->
    AttestedKey o ad acd (EC2Key b x y crv) ->
    U2FFails W h None x5c (ArgObj o) (Py EAssertionError)
| uf_sig s x5c o c px py ad acd b x y crv p e : U2FCert W x5c c px py ->
    AttestedKey o ad acd (EC2Key b x y crv) ->
    w_verify W (CEC SECP256R1 px py) (ECDSA SHA256) s
      ([x00] ++ ad_rp_id_hash ad ++ h ++ at_id acd ++ [x04] ++ x ++ y) = WRaise p ->
    becomes [EInvalidSignature] AttestationError p e ->
    U2FFails W h (Some s) x5c (ArgObj o) e.

(** ** Android Key *)

(** The first certificate is [c], with the key [pk]. *)
Definition LeafCert (W : World) (x5c : list bytes) (c : cert) (pk : cpk) : Prop :=
  exists leaf chain, x5c = leaf :: chain /\ w_load_cert W leaf = WOk c /\
    ce_public_key c = WOk pk.
(** A key the attester can use. *)
Definition can_verify (pk : cpk) : Prop := forall n, pk <> COther n.

(** How the signature check of the certificate key fails. *)
Inductive CertFails (W : World) : cpk -> option (form * alg) -> bytes -> bytes -> exn -> Prop :=
| cf_no_alg c x y sig data : CertFails W (CEC c x y) None sig data (Py EAssertionError)
| cf_eddsa c x y f sig data :
    CertFails W (CEC c x y) (Some (f, EDDSA)) sig data (Py EAssertionError)
| cf_ec c x y f a h sig data p e : AlgHash a h ->
    w_verify W (CEC c x y) (ECDSA h) sig data = WRaise p ->
    becomes [EInvalidSignature] AttestationError p e ->
    CertFails W (CEC c x y) (Some (f, a)) sig data e
| cf_25519 b a sig data p e : w_verify W (CEd25519 b) PureEdDSA sig data = WRaise p ->
    becomes [EInvalidSignature] AttestationError p e ->
    CertFails W (CEd25519 b) a sig data e
| cf_448 b a sig data p e : w_verify W (CEd448 b) PureEdDSA sig data = WRaise p ->
    becomes [EInvalidSignature] AttestationError p e ->
    CertFails W (CEd448 b) a sig data e.

(** The description is not one of a key made in the secure environment, for signing, by
    one application, in this ceremony. *)
Definition BadDescription (h : bytes) (kd : key_description) : Prop :=
  kd_challenge kd <> h \/
  al_all_applications (kd_software kd) = true \/ al_all_applications (kd_tee kd) = true \/
  al_origin (kd_tee kd) <> Some 0%Z \/
  (forall l, al_purpose (kd_tee kd) = Some l -> ~ In 2%Z l).

(** The checks before the signature: certificate [c] with key [pk], attested key object [ko]. *)
Definition AndroidKeys (W : World) (x5c : list bytes) (o : att_obj) (c : cert) (pk ko : cpk) : Prop :=
  LeafCert W x5c c pk /\ can_verify pk /\
  exists ad acd k, AttestedKey o ad acd k /\ KeyObject W k ko.
(** And the signature and the equality of the keys. *)
Definition AndroidSigned (W : World) (a : option (form * alg)) (s : bytes) (x5c : list bytes)
           (o : att_obj) (data : bytes) (c : cert) : Prop :=
  exists pk ko, AndroidKeys W x5c o c pk ko /\ CertVerifies W pk a s data /\
    w_spki W ko = w_spki W pk.

Inductive AndroidFails (W : World) (adb h : bytes) (a : option (form * alg)) :
  option bytes -> list bytes -> attest_arg -> exn -> Prop :=
| af_empty sig arg : AndroidFails W adb h a sig [] arg (Lib AttestationError)
| af_load sig leaf chain arg p : w_load_cert W leaf = WRaise p ->
    AndroidFails W adb h a sig (leaf :: chain) arg (Py p)
| af_key sig leaf chain arg c p : w_load_cert W leaf = WOk c -> ce_public_key c = WRaise p ->
    AndroidFails W adb h a sig (leaf :: chain) arg (Py p)
| af_type sig x5c arg c n : LeafCert W x5c c (COther n) ->
    AndroidFails W adb h a sig x5c arg (Lib AttestationError)
| af_arg sig x5c k c pk : LeafCert W x5c c pk -> can_verify pk ->
    AndroidFails W adb h a sig x5c (ArgKey k) (Py EAttributeError)
| af_none sig x5c o c pk : LeafCert W x5c c pk -> can_verify pk -> NoAttestedData o ->
    AndroidFails W adb h a sig x5c (ArgObj o) (Py EAssertionError)
| af_nokey sig x5c o c pk : LeafCert W x5c c pk -> can_verify pk -> NoAttestedKey o ->
    AndroidFails W adb h a sig x5c (ArgObj o) (Lib UnimplementedError)
| af_convert sig x5c o c pk ad acd k e : LeafCert W x5c c pk -> can_verify pk ->
    AttestedKey o ad acd k -> KeyFails W k e ->
    AndroidFails W adb h a sig x5c (ArgObj o) e
| af_nosig x5c o c pk ko : AndroidKeys W x5c o c pk ko ->
    AndroidFails W adb h a None x5c (ArgObj o) (Py EAssertionError)
| af_sig s x5c o c pk ko e : AndroidKeys W x5c o c pk ko ->
    CertFails W pk a s (adb ++ h) e ->
    AndroidFails W adb h a (Some s) x5c (ArgObj o) e
| af_spki s x5c o c pk ko : AndroidKeys W x5c o c pk ko ->
    CertVerifies W pk a s (adb ++ h) -> w_spki W ko <> w_spki W pk ->
    AndroidFails W adb h a (Some s) x5c (ArgObj o) (Lib AttestationError)
| af_ext s x5c o c p e : AndroidSigned W a s x5c o (adb ++ h) c ->
    ce_keydesc c = WRaise p -> becomes [EExtensionNotFound] AttestationError p e ->
    AndroidFails W adb h a (Some s) x5c (ArgObj o) e
| af_ext_class s x5c o c : AndroidSigned W a s x5c o (adb ++ h) c -> ce_keydesc c = WOk None ->
    AndroidFails W adb h a (Some s) x5c (ArgObj o) (Py EAssertionError)
| af_decode s x5c o c ext p e : AndroidSigned W a s x5c o (adb ++ h) c ->
    ce_keydesc c = WOk (Some ext) -> w_keydesc W ext = WRaise p ->
    becomes [EPyAsn1Error] AttestationError p e ->
    AndroidFails W adb h a (Some s) x5c (ArgObj o) e
| af_description s x5c o c ext kd : AndroidSigned W a s x5c o (adb ++ h) c ->
    ce_keydesc c = WOk (Some ext) -> w_keydesc W ext = WOk kd -> BadDescription h kd ->
    AndroidFails W adb h a (Some s) x5c (ArgObj o) (Lib AttestationError).

(** ** Parsers *)

Definition cbor_errors : list pyexn := [ECBORDecodeError; ECBORDecodeEOF; ECBORDecodeValueError].

Definition is_map (v : pyval) : Prop := exists d, v = VDict d.

Inductive CoseFails (W : World) (b : bytes) : exn -> Prop :=
| cof_cbor p e : w_cbor_load W b = WRaise p -> becomes cbor_errors DecodingError p e ->
    CoseFails W b e
| cof_map v rest : w_cbor_load W b = WOk (v, rest) -> ~ is_map v ->
    CoseFails W b (Lib ParserError)
| cof_key d rest e : w_cbor_load W b = WOk (VDict d, rest) -> CoseMapFails W d e ->
    CoseFails W b e.

(** Reading CBOR from the stream of the authenticator data: an EOFError that is no error
    of the decoder means that the data are cut off. *)
Definition stream_error (p : pyexn) (e : exn) : Prop :=
  (p = EEOFError /\ e = Lib ParserError) \/
  (p <> EEOFError /\ becomes cbor_errors DecodingError p e).

(** Attested credential data at the start of [b]. *)
Inductive AttFails (W : World) (b : bytes) : exn -> Prop :=
| atf_short : List.length b < 18 -> AttFails W b (Lib ParserError)
| atf_cut aaguid len tl : b = aaguid ++ len ++ tl -> List.length aaguid = 16 ->
    List.length len = 2 -> (N.of_nat (List.length tl) < be_to_N len)%N ->
    AttFails W b (Lib ParserError)
| atf_cbor aaguid len cid tl p e : b = aaguid ++ len ++ cid ++ tl -> List.length aaguid = 16 ->
    List.length len = 2 -> be_to_N len = N.of_nat (List.length cid) ->
    w_cbor_load W tl = WRaise p -> stream_error p e -> AttFails W b e
| atf_map aaguid len cid tl v rest : b = aaguid ++ len ++ cid ++ tl -> List.length aaguid = 16 ->
    List.length len = 2 -> be_to_N len = N.of_nat (List.length cid) ->
    w_cbor_load W tl = WOk (v, rest) -> ~ is_map v -> AttFails W b (Lib ParserError)
| atf_key aaguid len cid tl d rest e : b = aaguid ++ len ++ cid ++ tl -> List.length aaguid = 16 ->
    List.length len = 2 -> be_to_N len = N.of_nat (List.length cid) ->
    w_cbor_load W tl = WOk (VDict d, rest) -> CoseMapFails W d e -> AttFails W b e
| atf_unusable aaguid len cid tl d rest k : b = aaguid ++ len ++ cid ++ tl ->
    List.length aaguid = 16 -> List.length len = 2 -> be_to_N len = N.of_nat (List.length cid) ->
    w_cbor_load W tl = WOk (VDict d, rest) -> CoseKey d k -> ~ UsableKey k ->
    AttFails W b (Lib ValidationError).

(** The extensions, which must be the whole of [b]. *)
Inductive ExtFails (W : World) (b : bytes) : bool -> exn -> Prop :=
| exf_extra : b <> [] -> ExtFails W b false (Lib ParserError)
| exf_cbor p e : w_cbor_load W b = WRaise p -> stream_error p e -> ExtFails W b true e
| exf_map v rest : w_cbor_load W b = WOk (v, rest) -> ~ is_map v ->
    ExtFails W b true (Lib ParserError)
| exf_value d rest e : w_cbor_load W b = WOk (VDict d, rest) -> FirstFailure (ext_steps W d) e ->
    ExtFails W b true e
| exf_rest d rest x : w_cbor_load W b = WOk (VDict d, rest) -> ExtMap d x -> rest <> [] ->
    ExtFails W b true (Lib ParserError).

Inductive AuthFails (W : World) : bytes -> exn -> Prop :=
| auf_short b : List.length b < 37 -> AuthFails W b (Lib ParserError)
| auf_att hash flags ctr tl e : List.length hash = 32 -> List.length ctr = 4 ->
    N.testbit (Byte.to_N flags) 6 = true -> AttFails W tl e ->
    AuthFails W (hash ++ [flags] ++ ctr ++ tl) e
| auf_ext hash flags ctr tl extb att e : List.length hash = 32 -> List.length ctr = 4 ->
    AttRead W (N.testbit (Byte.to_N flags) 6) tl extb att ->
    ExtFails W extb (N.testbit (Byte.to_N flags) 7) e ->
    AuthFails W (hash ++ [flags] ++ ctr ++ tl) e.

(** The three members of an attestation object, of any type. *)
Definition AttMembers (W : World) (b : bytes) (fmt adv stv : pyval) : Prop :=
  exists d rest, w_cbor_load W b = WOk (VDict d, rest) /\
    member "fmt" d fmt /\ member "authData" d adv /\ member "attStmt" d stv.

Inductive AttObjFails (W : World) (b : bytes) : exn -> Prop :=
| aof_cbor p e : w_cbor_load W b = WRaise p -> becomes cbor_errors DecodingError p e ->
    AttObjFails W b e
| aof_map v rest : w_cbor_load W b = WOk (v, rest) -> ~ is_map v ->
    AttObjFails W b (Lib ParserError)
| aof_member d rest m : w_cbor_load W b = WOk (VDict d, rest) ->
    In m ["fmt"; "authData"; "attStmt"]%string -> (forall v, ~ member m d v) ->
    AttObjFails W b (Lib ParserError)
| aof_fmt fmt adv stv : AttMembers W b fmt adv stv ->
    (forall f, fmt <> VStr (lit (fmt_name f))) -> AttObjFails W b (Lib ParserError)
| aof_bytes f adv stv : AttMembers W b (VStr (lit (fmt_name f))) adv stv ->
    (forall x, adv <> VBytes x) -> AttObjFails W b (Lib ParserError)
| aof_auth f adb stv e e' : AttMembers W b (VStr (lit (fmt_name f))) (VBytes adb) stv ->
    AuthFails W adb e ->
    (e = Py EKeyError /\ e' = Lib ParserError \/ e <> Py EKeyError /\ e' = e) ->
    AttObjFails W b e'
| aof_stmt_map f adb stv ad : AttMembers W b (VStr (lit (fmt_name f))) (VBytes adb) stv ->
    AuthReads W adb ad -> ~ is_map stv -> AttObjFails W b (Lib ParserError)
| aof_stmt f adb sd ad e : AttMembers W b (VStr (lit (fmt_name f))) (VBytes adb) (VDict sd) ->
    AuthReads W adb ad -> StmtMapFails W sd f e -> AttObjFails W b e.
