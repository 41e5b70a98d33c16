(** * Base: bytes, Python strings, exceptions as values, result monad.

    Models the vocabulary shared by every module of /repo/webauthn_rp. *)
From Coq Require Import List NArith ZArith Bool.
From Coq Require Import Strings.Byte.
From Coq Require Strings.String Strings.Ascii.
Import ListNotations.

(** Python [bytes]: a list of octets.  (Coq's [byte] has exactly 256 values.) *)
Definition bytes := list byte.

(** Python [str]: a list of code points (surrogates included, as in CPython). *)
Definition pystr := list N.

(** ASCII literals.  [lit "abc"] is the Python string literal 'abc'. *)
Definition lit (s : String.string) : pystr :=
  map Ascii.N_of_ascii (String.list_ascii_of_string s).
Definition blit (s : String.string) : bytes := String.list_byte_of_string s.

(** The octet with value [n mod 256]. *)
Definition byte_of_N (n : N) : byte :=
  match Byte.of_N (n mod 256) with Some b => b | None => x00 end.
Definition N_of_byte (b : byte) : N := Byte.to_N b.

(** Comparisons of bytes and of sequences. *)
Definition byte_eqb (a b : byte) : bool := Byte.eqb a b.

Fixpoint list_eqb {A} (eqb : A -> A -> bool) (l1 l2 : list A) : bool :=
  match l1, l2 with
  | [], [] => true
  | x :: t1, y :: t2 => eqb x y && list_eqb eqb t1 t2
  | _, _ => false
  end.

(** Python [==] on [bytes] and on [str]. *)
Definition bytes_eqb : bytes -> bytes -> bool := list_eqb byte_eqb.
Definition str_eqb : pystr -> pystr -> bool := list_eqb N.eqb.

(** [int.from_bytes(b, 'big')] and [struct.unpack('>I'/'>H', b)]. *)
Definition be_to_N (b : bytes) : N :=
  fold_left (fun acc x => (acc * 256 + N_of_byte x)%N) b 0%N.

(** Big-endian serialisation of [v] on [n] octets (used by specifications). *)
Fixpoint N_to_be (n : nat) (v : N) : bytes :=
  match n with
  | O => []
  | S n' => N_to_be n' (v / 256) ++ [byte_of_N v]
  end.

(** ** Exceptions *)

(** Exceptions of /repo/webauthn_rp/errors.py (lines 1-130), class by class. *)
Inductive libexn :=
| WebAuthnRPError | BackendError | ClientDataTypeError | ChallengeError
| TokenBindingError | RPIDHashError | UserPresenceError | UserVerificationError
| ExtensionError | CredentialNotAllowedError | UserIDError | UserHandleError
| RPNotFoundError | RPIDError | RegistrationError | CredentialDataError
| SignatureCountError | ConverterError | JSONConversionError
| PublicKeyConversionError | ParserError | DecodingError | OriginError
| VerificationError | UnimplementedError | ValidationError | BuilderError
| AttestationError | InternalError.

(** Exceptions raised by Python itself or by third-party libraries. *)
Inductive pyexn :=
| EValueError | EUnicodeDecodeError | EUnicodeEncodeError | EJSONDecodeError
| EBinasciiError | EKeyError | ETypeError | EAttributeError | EAssertionError
| EEOFError | ECBORDecodeError | ECBORDecodeEOF | ECBORDecodeValueError
| EInvalidSignature | EUnsupportedAlgorithm | EExtensionNotFound | EPyAsn1Error
| ERecursionError | EIntegrityError | EOperationalError
| EOther (n : N).

(** [Abort]: exceptions that derive from BaseException but not from Exception, such as
    KeyboardInterrupt, SystemExit and the Timeout of gevent. *)
Inductive exn := Lib (e : libexn) | Py (e : pyexn) | Abort (n : N).

(** Direct superclass of each library exception
    (/repo/webauthn_rp/errors.py:1-130); the root derives from [Exception]. *)
Definition lib_parent (e : libexn) : option libexn :=
  match e with
  | WebAuthnRPError => None
  | BackendError | ConverterError | ParserError | OriginError
  | VerificationError | UnimplementedError | ValidationError | BuilderError
  | AttestationError | InternalError => Some WebAuthnRPError
  | JSONConversionError | PublicKeyConversionError => Some ConverterError
  | DecodingError => Some ParserError
  | _ => Some BackendError
  end.

Scheme Equality for libexn.

(** [issubclass(e, c)] for the exceptions of the libraries; the hierarchy is at most [n] deep. *)
Fixpoint lib_isa_fuel (n : nat) (e c : libexn) : bool :=
  libexn_beq e c ||
  match n with
  | O => false
  | S n' => match lib_parent e with
            | Some p => lib_isa_fuel n' p c
            | None => false
            end
  end.

(** [isinstance(e, c)] for library exceptions; the hierarchy has depth 3. *)
Definition lib_isa (e c : libexn) : bool := lib_isa_fuel 3 e c.

(** [except c:] for a library class [c]. *)
Definition is_lib (c : libexn) (e : exn) : bool :=
  match e with Lib l => lib_isa l c | _ => false end.
(** [except Exception:] *)
Definition is_Exception (e : exn) : bool := match e with Abort _ => false | _ => true end.

(** [except ValueError:].  UnicodeDecodeError, UnicodeEncodeError,
    json.JSONDecodeError, binascii.Error and cbor2.CBORDecodeValueError derive
    from ValueError. *)
Definition is_ValueError (e : exn) : bool :=
  match e with
  | Py (EValueError | EUnicodeDecodeError | EUnicodeEncodeError
       | EJSONDecodeError | EBinasciiError | ECBORDecodeValueError) => true
  | _ => false
  end.

(** [except KeyError:] *)
Definition is_KeyError (e : exn) : bool :=
  match e with Py EKeyError => true | _ => false end.

(** [except EOFError:].  cbor2.CBORDecodeEOF derives from EOFError. *)
Definition is_EOFError (e : exn) : bool :=
  match e with Py (EEOFError | ECBORDecodeEOF) => true | _ => false end.

(** [except cbor2.CBORDecodeError:] *)
Definition is_CBORDecodeError (e : exn) : bool :=
  match e with
  | Py (ECBORDecodeError | ECBORDecodeEOF | ECBORDecodeValueError) => true
  | _ => false
  end.

Definition is_AttributeError (e : exn) : bool :=
  match e with Py EAttributeError => true | _ => false end.
Definition is_InvalidSignature (e : exn) : bool :=
  match e with Py EInvalidSignature => true | _ => false end.
Definition is_ExtensionNotFound (e : exn) : bool :=
  match e with Py EExtensionNotFound => true | _ => false end.
Definition is_PyAsn1Error (e : exn) : bool :=
  match e with Py EPyAsn1Error => true | _ => false end.
(** [except (UnicodeDecodeError, json.JSONDecodeError):] *)
Definition is_UnicodeOrJSONDecodeError (e : exn) : bool :=
  match e with Py (EUnicodeDecodeError | EJSONDecodeError) => true | _ => false end.
(** [except (KeyError, ValueError):] *)
Definition is_KeyOrValueError (e : exn) : bool := is_KeyError e || is_ValueError e.

(** ** Computations that may raise *)

(** A value, or an exception that was raised. *)
Inductive res (A : Type) := Ok (a : A) | Raise (e : exn).
Arguments Ok {A} a.
Arguments Raise {A} e.

(** Sequencing: an exception ends the rest. *)
Definition bind {A B} (m : res A) (k : A -> res B) : res B :=
  match m with Ok a => k a | Raise e => Raise e end.

Declare Scope res_scope.
Delimit Scope res_scope with res.
Notation "x <- m ;; k" := (bind m (fun x => k))
  (at level 61, m at next level, right associativity) : res_scope.
Notation "' p <- m ;; k" := (bind m (fun p => k))
  (at level 61, p pattern, m at next level, right associativity) : res_scope.
Notation "m ;;; k" := (bind m (fun _ => k))
  (at level 61, right associativity) : res_scope.

(** [try: m  except C: raise e'], where [p] recognises class [C]. *)
Definition catch {A} (m : res A) (p : exn -> bool) (e' : exn) : res A :=
  match m with
  | Ok a => Ok a
  | Raise e => if p e then Raise e' else Raise e
  end.

(** [if not b: raise e] *)
Definition check (b : bool) (e : exn) : res unit := if b then Ok tt else Raise e.

Definition raise {A} (e : libexn) : res A := Raise (Lib e).
(** [assert b] *)
Definition passert (b : bool) : res unit := check b (Py EAssertionError).

(** Results of third-party code: it cannot raise a class of errors.py. *)
Inductive wres (A : Type) := WOk (a : A) | WRaise (e : pyexn).
Arguments WOk {A} a.
Arguments WRaise {A} e.
Definition lift {A} (m : wres A) : res A :=
  match m with WOk a => Ok a | WRaise e => Raise (Py e) end.

(** [o is not None]. *)
Definition is_some {A} (o : option A) : bool := match o with Some _ => true | _ => false end.

(** Slices [b[:n]] and [b[n:]]. *)
Definition take {A} (n : nat) (l : list A) : list A := firstn n l.
Definition drop {A} (n : nat) (l : list A) : list A := skipn n l.
