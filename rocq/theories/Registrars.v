(** * Registrars: CredentialsRegistrar as it is, /repo/webauthn_rp/registrars.py:36-120.

    Applications subclass it and override its methods; a method that is not overridden raises
    UnimplementedError. *)
From Coq Require Import List NArith ZArith Bool.
From Verif Require Import Base PyVal Types World Backends.
Import ListNotations.
Local Open Scope list_scope.

(** get_credential_data, registrars.py:106-120. *)
Definition base_get {S} (s : S) (credential_id : bytes) : S * res (option cred_data) :=
  (s, raise UnimplementedError).
(** register_credential_assertion, registrars.py:80-104. *)
Definition base_assert {S} (s : S) (c : credential) (ad : auth_data) (u : user_entity) (rp : rp_entity)
  : S * reg_answer := (s, raise UnimplementedError).
(** register_credential_attestation, registrars.py:46-78. *)
Definition base_attest {S} (s : S) (c : credential) (att : att_obj) (ty : att_type) (u : user_entity)
  (rp : rp_entity) (path : option (list cert)) : S * reg_answer := (s, raise UnimplementedError).
Definition base_registrar (S : Type) : registrar S :=
  {| r_get := base_get; r_assert := base_assert; r_attest := base_attest |}.

(** A subclass that overrides the chosen methods by those of [R]. *)
Definition subclass {S} (get assert_ attest_ : bool) (R : registrar S) : registrar S :=
  {| r_get := if get then r_get R else base_get;
     r_assert := if assert_ then r_assert R else base_assert;
     r_attest := if attest_ then r_attest R else base_attest |}.
