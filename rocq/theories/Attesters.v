(** * Attesters: registration with attesters of the application, and with the call of attest
    corrected. *)
From Coq Require Import List NArith ZArith Bool String.
From Verif Require Import Base PyVal Types World Parsers Crypto Backends.
Import ListNotations.

(** What attest has become, attesters.py:37-56: a function of the statement, the second
    argument, the raw authenticator data and the hash. *)
Definition attester := att_stmt -> attest_arg -> bytes -> bytes -> res (att_type * option (list cert)).

Definition fmt_eqb (f g : att_fmt) : bool :=
  match f, g with
  | F_PACKED, F_PACKED | F_TPM, F_TPM | F_ANDROID_KEY, F_ANDROID_KEY
  | F_ANDROID_SAFETYNET, F_ANDROID_SAFETYNET | F_FIDO_U2F, F_FIDO_U2F | F_NONE, F_NONE => true
  | _, _ => false
  end.
(** attest.register(cls)(impl), functools.singledispatch, for the class of the statements of a
    format (types.py:1805-2050; the variants of packed and tpm are subclasses). *)
Definition register (f : att_fmt) (impl at_ : attester) : attester :=
  fun st => if fmt_eqb (stmt_fmt st) f then impl st else at_ st.

(** backends.py:203-206 with such a function. *)
Definition application_call (at_ : attester) : attest_call :=
  fun att acd raw_ad h => at_ (ao_stmt att) (ArgKey (at_key acd)) raw_ad h.

(** backends.py:203-206 as it should be: attest is given [attestation]. *)
Definition repaired_call (W : World) : attest_call :=
  fun att acd raw_ad h => attest W (ao_stmt att) (ArgObj att) raw_ad h.
