(** * World: third-party behaviour the code depends on, as a record of functions.

    Every theorem quantifies over all worlds [W]; nothing is assumed about the
    fields unless a hypothesis says so. *)
From Coq Require Import List NArith ZArith Bool.
From Verif Require Import Base PyVal Url.
Import ListNotations.

(** cryptography's hash instances selected by utils.ec2_hash_algorithm. *)
Inductive hashalg := SHA256 | SHA384 | SHA512.

(** Curves of cryptography's EllipticCurvePublicKey. *)
Inductive eccurve := SECP256R1 | SECP384R1 | SECP521R1 | EC_other (n : N).

(** cryptography public key objects: an EC point, an Ed25519/Ed448 key, or a key of
    another kind (RSA, DSA, ...). *)
Inductive cpk :=
| CEC (c : eccurve) (x y : N)
| CEd25519 (b : bytes)
| CEd448 (b : bytes)
| COther (n : N).

(** The signature scheme passed to [public_key.verify]. *)
Inductive scheme := ECDSA (h : hashalg) | PureEdDSA.

(** A parsed X.509 certificate, as far as attesters.py looks at it:
    [ce_der] identifies it; [ce_public_key] is [.public_key()]; [ce_keydesc] is
    [.extensions.get_extension_for_oid(1.3.6.1.4.1.11129.2.1.17)], with [Some b] for
    an UnrecognizedExtension of value [b] and [None] for a recognised extension. *)
Record cert := {
  ce_der : bytes;
  ce_public_key : wres cpk;
  ce_keydesc : wres (option bytes);
}.

(** AuthorizationList / KeyDescription (/repo/webauthn_rp/asn1.py) as far as read:
    [hasValue()] of allApplications, origin and purpose. *)
Record auth_list := {
  al_purpose : option (list Z);
  al_all_applications : bool;
  al_origin : option Z;
}.
Record key_description := {
  kd_challenge : bytes;
  kd_software : auth_list;
  kd_tee : auth_list;
}.

Record World := {
  (** hashlib.sha256(b).digest() *)
  w_sha256 : bytes -> bytes;
  (** cbor2.load(io.BytesIO(b)): decoded item and the bytes left in the stream *)
  w_cbor_load : bytes -> wres (pyval * bytes);
  (** json.loads(s) *)
  w_json_loads : pystr -> wres pyval;
  (** the table-driven checks of urlsplit *)
  w_url : urlenv;
  (** EllipticCurvePublicNumbers(x, y, curve).public_key(): raises ValueError for a
      point not on the curve *)
  w_ec_load : eccurve -> N -> N -> wres unit;
  (** Ed25519PublicKey.from_public_bytes / Ed448PublicKey.from_public_bytes *)
  w_ed25519_load : bytes -> wres unit;
  w_ed448_load : bytes -> wres unit;
  (** key.verify(signature, data[, ECDSA(hash)]): raises InvalidSignature *)
  w_verify : cpk -> scheme -> bytes -> bytes -> wres unit;
  (** key.public_bytes(DER, SubjectPublicKeyInfo) *)
  w_spki : cpk -> bytes;
  (** x509.load_der_x509_certificate *)
  w_load_cert : bytes -> wres cert;
  (** pyasn1 decode(b, KeyDescription()) *)
  w_keydesc : bytes -> wres key_description;
  (** str(v), as str.format does it, returns: it raises ValueError when [v] has an integer of
      more digits than the interpreter converts (sys.set_int_max_str_digits; 4300 by default
      since CPython 3.11) *)
  w_shows : pyval -> bool;
  (** repr(e) returns, on an exception of a registrar *)
  w_shows_exn : exn -> bool;
}.

(** The message of an exception can show [v].  Texts and the other values without integers
    always can be shown. *)
Definition shows (W : World) (v : pyval) : bool :=
  match v with
  | VNone | VBool _ | VFloat _ | VStr _ | VBytes _ => true
  | VInt _ | VList _ | VTuple _ | VDict _ | VFrozen _ | VOther _ _ => w_shows W v
  end.

(** The message of an exception can show [e]: repr writes the arguments of an exception.  Those
    of the library's exceptions are texts. *)
Definition shows_exn (W : World) (e : exn) : bool :=
  match e with Lib _ => true | Py _ | Abort _ => w_shows_exn W e end.

(** [raise ParserError('... {}'.format(vs))]: the exception raised; it is ValueError when
    making the message fails. *)
Definition complaint (W : World) (vs : list pyval) : exn :=
  if forallb (shows W) vs then Lib ParserError else Py EValueError.

(** cbor2.loads(b): the first item; bytes after it are ignored. *)
Definition cbor_loads (W : World) (b : bytes) : res pyval :=
  match w_cbor_load W b with
  | WOk (v, _) => Ok v
  | WRaise e => Raise (Py e)
  end.
