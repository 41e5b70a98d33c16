(** * Crypto: converters.cryptography_public_key, converters.cose_key (dictionary
    part), verifiers.verify, attesters.attest. *)
From Coq Require Import List NArith ZArith Bool String.
From Verif Require Import Base PyVal Types World Parsers.
Import ListNotations.
Local Open Scope res_scope.
Local Open Scope list_scope.

(** utils.ec2_hash_algorithm, /repo/webauthn_rp/utils.py:123-138 (table 34-38). *)
Definition ec2_hash_algorithm (a : form * alg) : res hashalg :=
  match snd a with
  | ES256 => Ok SHA256
  | ES384 => Ok SHA384
  | ES512 => Ok SHA512
  | EDDSA => Raise (Py EAssertionError)
  end.

Section WithWorld.
Variable W : World.

(** cryptography_public_key, /repo/webauthn_rp/converters.py:76-160
    (EC2: 93-129, OKP: 132-160). *)
Definition cryptography_public_key (k : pubkey) : res cpk :=
  match k with
  | OtherKey _ => raise UnimplementedError
  | EC2Key _ xb yb crv =>
      let x := be_to_N xb in
      let y := be_to_N yb in
      c <- match snd crv with
           | P_256 => Ok SECP256R1
           | P_384 => Ok SECP384R1
           | P_521 => Ok SECP521R1
           | _ => raise UnimplementedError
           end ;;
      catch (lift (w_ec_load W c x y) ;;; Ok (CEC c x y))
            is_ValueError (Lib PublicKeyConversionError)
  | OKPKey _ crv x =>
      catch (match snd crv with
             | ED25519 => lift (w_ed25519_load W x) ;;; Ok (CEd25519 x)
             | ED448 => lift (w_ed448_load W x) ;;; Ok (CEd448 x)
             | _ => raise UnimplementedError
             end)
            is_ValueError (Lib PublicKeyConversionError)
  end.

(** verify, /repo/webauthn_rp/verifiers.py:22-93. *)
Definition verify (k : pubkey) (signature data : bytes) : res unit :=
  match k with
  | OtherKey _ => raise UnimplementedError
  | EC2Key b _ _ _ =>
      pk <- cryptography_public_key k ;;
      match kb_alg b with
      | None => raise VerificationError
      | Some a =>
          h <- ec2_hash_algorithm a ;;
          catch (lift (w_verify W pk (ECDSA h) signature data))
                is_InvalidSignature (Lib VerificationError)
      end
  | OKPKey _ _ _ =>
      pk <- cryptography_public_key k ;;
      catch (lift (w_verify W pk PureEdDSA signature data))
            is_InvalidSignature (Lib VerificationError)
  end.

(** The second argument of [attest].  It is declared to be an AttestationObject, but
    the backend passes a CredentialPublicKey (backends.py:203-206). *)
Inductive attest_arg := ArgObj (o : att_obj) | ArgKey (k : option pubkey).

(** [att_obj.auth_data]: only AttestationObject has that attribute. *)
Definition arg_auth_data (a : attest_arg) : res (option auth_data) :=
  match a with
  | ArgObj o => Ok (ao_auth_data o)
  | ArgKey _ => Raise (Py EAttributeError)
  end.

(** [assert o is not None], then use it. *)
Definition assert_some {A} (o : option A) : res A :=
  match o with Some a => Ok a | None => Raise (Py EAssertionError) end.

(** attest_fido_u2f, /repo/webauthn_rp/attesters.py:59-127. *)
Definition attest_fido_u2f (sig : option bytes) (x5c : list bytes) (obj : attest_arg)
           (client_data_hash : bytes) : res (att_type * option (list cert)) :=
  match x5c with
  | [att_cert] =>
      c <- catch (lift (w_load_cert W att_cert)) is_ValueError (Lib AttestationError) ;;
      pk <- lift (ce_public_key c) ;;
      match pk with
      | CEC SECP256R1 px py =>
          ado <- arg_auth_data obj ;;
          ad <- assert_some ado ;;
          acd <- assert_some (ad_attested ad) ;;
          ko <- assert_some (at_key acd) ;;
          public_key_u2f <- match ko with
                            | EC2Key _ x y _ => Ok (byte_of_N 4 :: x ++ y)
                            | _ => Raise (Py EAttributeError) (* no .y *)
                            end ;;
          let verification_data :=
            byte_of_N 0 :: ad_rp_id_hash ad
              ++ client_data_hash ++ at_id acd ++ public_key_u2f in
          s <- assert_some sig ;;
          catch (lift (w_verify W pk (ECDSA SHA256) s verification_data))
                is_InvalidSignature (Lib AttestationError) ;;;
          Ok (AT_BASIC, Some [c])
      | _ => raise AttestationError
      end
  | _ => raise AttestationError
  end.

(** constants.py:9-10 *)
Definition KM_ORIGIN_GENERATED : Z := 0.
Definition KM_PURPOSE_SIGN : Z := 2.

(** attest_android_key, /repo/webauthn_rp/attesters.py:130-240. *)
Definition attest_android_key (a : option (form * alg)) (sig : option bytes)
           (x5c : list bytes) (obj : attest_arg) (auth_data_bytes : bytes)
           (client_data_hash : bytes) : res (att_type * option (list cert)) :=
  match x5c with
  | [] => raise AttestationError
  | leaf :: _ =>
      c <- lift (w_load_cert W leaf) ;;
      cert_pk <- lift (ce_public_key c) ;;
      check (match cert_pk with CEC _ _ _ | CEd25519 _ | CEd448 _ => true
                           | COther _ => false end) (Lib AttestationError) ;;;
      ado <- arg_auth_data obj ;;
      ad <- assert_some ado ;;
      acd <- assert_some (ad_attested ad) ;;
      cpk <- match at_key acd with
             | Some k => cryptography_public_key k
             | None => raise UnimplementedError (* singledispatch default on None *)
             end ;;
      let verification_data := auth_data_bytes ++ client_data_hash in
      s <- assert_some sig ;;
      catch (match cert_pk with
             | CEd25519 _ | CEd448 _ =>
                 lift (w_verify W cert_pk PureEdDSA s verification_data)
             | _ =>
                 al <- assert_some a ;;
                 h <- ec2_hash_algorithm al ;;
                 lift (w_verify W cert_pk (ECDSA h) s verification_data)
             end)
            is_InvalidSignature (Lib AttestationError) ;;;
      check (bytes_eqb (w_spki W cpk) (w_spki W cert_pk)) (Lib AttestationError) ;;;
      ext <- catch (e <- lift (ce_keydesc c) ;; assert_some e)
                   is_ExtensionNotFound (Lib AttestationError) ;;
      kd <- catch (lift (w_keydesc W ext)) is_PyAsn1Error (Lib AttestationError) ;;
      check (bytes_eqb (kd_challenge kd) client_data_hash) (Lib AttestationError) ;;;
      check (negb (al_all_applications (kd_software kd)
                   || al_all_applications (kd_tee kd))) (Lib AttestationError) ;;;
      check (match al_origin (kd_tee kd) with
             | Some o => Z.eqb o KM_ORIGIN_GENERATED | None => false end)
            (Lib AttestationError) ;;;
      check (match al_purpose (kd_tee kd) with
             | Some l => existsb (Z.eqb KM_PURPOSE_SIGN) l | None => false end)
            (Lib AttestationError) ;;;
      Ok (AT_BASIC, Some [c])
  end.

(** attest, /repo/webauthn_rp/attesters.py:37-56, 243-262: dispatch on the class of
    the statement. *)
Definition attest (stmt : att_stmt) (obj : attest_arg) (auth_data_bytes : bytes)
           (client_data_hash : bytes) : res (att_type * option (list cert)) :=
  match stmt with
  | S_U2F sig x5c => attest_fido_u2f sig x5c obj client_data_hash
  | S_AndroidKey a sig x5c =>
      attest_android_key a sig x5c obj auth_data_bytes client_data_hash
  | S_None => Ok (AT_NONE, None)
  | _ => raise UnimplementedError
  end.

End WithWorld.

(** ** cose_key as a dictionary, /repo/webauthn_rp/converters.py:163-223 *)

(** [if x is not None: d[k] = f(x)], converters.py:163-175. *)
Definition opt_entry {A} (k : Z) (o : option A) (f : A -> pyval) : pydict :=
  match o with Some a => [(VInt k, f a)] | None => [] end.

(** _build_base_cose_dictionary, converters.py:163-175: label 5 is written when
    [key_ops] is not None (and may then hold None). *)
Definition base_cose_dictionary (b : key_base) : res pydict :=
  a <- assert_some (kb_alg b) ;;
  Ok ([(VInt 1, enum_val kty_enum (kb_kty b))]
      ++ opt_entry 2 (kb_kid b) VBytes
      ++ [(VInt 3, enum_val alg_enum a)]
      ++ opt_entry 4 (kb_key_ops b) (fun l => VList (map (enum_val keyop_enum) l))
      ++ opt_entry 5 (kb_key_ops b)
           (fun _ => match kb_base_IV b with Some iv => VBytes iv | None => VNone end)).

(** [crv.value], converters.py:190-223. *)
Definition crv_val (crv : form * curve) : pyval := enum_val ec2curve_enum crv.

(** The dictionary that cose_ec2_public_key / cose_okp_public_key hand to
    cbor2.dumps, converters.py:190-223. *)
Definition cose_dictionary (k : pubkey) : res pydict :=
  match k with
  | OtherKey _ => raise UnimplementedError
  | EC2Key b x y crv =>
      d <- base_cose_dictionary b ;;
      Ok (d ++ [(VInt (-1), crv_val crv); (VInt (-2), VBytes x); (VInt (-3), VBytes y)])
  | OKPKey b crv x =>
      d <- base_cose_dictionary b ;;
      Ok (d ++ [(VInt (-1), crv_val crv); (VInt (-2), VBytes x)])
  end.
