(** * PropsRegistrar: registrars that leave methods of CredentialsRegistrar as they are (C93). *)
From Coq Require Import List NArith ZArith Bool.
From Verif Require Import Base PyVal Types World Backends History Registrars Examples.
Import ListNotations.
Local Open Scope list_scope.

Section Facts.
Context {S : Type} (W : World) (R : registrar S).

Lemma attest_whole g a s A :
  run (subclass g a true R) s (handle_credential_attestation W A) = run R s (handle_credential_attestation W A).
Proof.
  unfold handle_credential_attestation, handle_credential_attestation_with.
  destruct (attestation_checks_with _ _ _) as [[att [ty path]]|]; reflexivity.
Qed.
Lemma attest_lacking g a s A :
  let o := run (subclass g a false R) s (handle_credential_attestation W A) in
  out_state o = s /\ (exists e, out_result o = Raise e) /\
  (forall s', out_result (run R s' (handle_credential_attestation W A)) = Ok tt ->
     out_result o = Raise (Lib RegistrationError)).
Proof.
  unfold handle_credential_attestation, handle_credential_attestation_with. cbv zeta.
  destruct (attestation_checks_with _ _ _) as [[att [ty path]]|e].
  - cbn. split; [reflexivity|]. split; [eexists; reflexivity|]. reflexivity.
  - cbn [run out_state out_result]. split; [reflexivity|].
    unfold wrap. destruct (is_lib _ e), (is_Exception e); (split; [eexists; reflexivity|]); intros; discriminate.
Qed.
Lemma assert_whole t s A :
  run (subclass true true t R) s (handle_credential_assertion W A) = run R s (handle_credential_assertion W A).
Proof.
  unfold handle_credential_assertion. destruct (assertion_pre W A) as [l|]; [|reflexivity].
  cbn [run subclass r_get]. destruct (r_get R s _) as [s1 [[cdt|]|]]; try reflexivity.
  destruct (assertion_checks _ _ _ _) as [[[ad u] rp]|]; reflexivity.
Qed.
Lemma assert_lacking g a t s A : g && a = false ->
  let o := run (subclass g a t R) s (handle_credential_assertion W A) in
  (exists e, out_result o = Raise e) /\ (g = false -> out_state o = s) /\
  (out_result (run R s (handle_credential_assertion W A)) = Ok tt ->
     out_result o = Raise (Lib RegistrationError)).
Proof.
  intro GA. unfold handle_credential_assertion. cbv zeta. destruct (assertion_pre W A) as [l|e].
  2: { cbn [run out_state out_result]. unfold wrap. destruct (is_lib _ e), (is_Exception e); (split; [eexists; reflexivity|]); split; auto; discriminate. }
  cbn [run]. destruct g.
  - cbn in GA. subst a. cbn [subclass r_get]. destruct (r_get R s _) as [s1 [[cdt|]|e]]; cbn [run out_state out_result].
    + destruct (assertion_checks _ _ _ _) as [[[ad u] rp]|e]; [cbn|cbn [run out_state out_result]; unfold wrap].
      * split; [eexists; reflexivity|]. split; [discriminate|reflexivity].
      * destruct (is_lib _ e), (is_Exception e); (split; [eexists; reflexivity|]); split; discriminate.
    + split; [eexists; reflexivity|]. split; discriminate.
    + destruct (wrap (Raise (refusal W e))) as [[]|e'] eqn:Q.
      * exfalso. unfold wrap in Q. destruct (is_lib _ (refusal W e)), (is_Exception (refusal W e)); discriminate.
      * split; [eauto|]. split; discriminate.
  - cbn. split; [eexists; reflexivity|]. split; [reflexivity|]. reflexivity.
Qed.
End Facts.

(** C93: registration needs register_credential_attestation, and nothing else. *)
Theorem C93_registration :
  forall (S : Type) (W : World) (R : registrar S) (get assert_ : bool) (s : S) (A : attestation_args),
  run (subclass get assert_ true R) s (handle_credential_attestation W A) =
    run R s (handle_credential_attestation W A) /\
  let o := run (subclass get assert_ false R) s (handle_credential_attestation W A) in
  out_state o = s /\ (exists e, out_result o = Raise e) /\
  (forall s', out_result (run R s' (handle_credential_attestation W A)) = Ok tt ->
     out_result o = Raise (Lib RegistrationError)).
Proof. intros. split; [apply attest_whole|apply attest_lacking]. Qed.
Print Assumptions C93_registration.

(** C93: login needs the two other methods; without one of them a request that would succeed is
    a RegistrationError. *)
Theorem C93_login :
  forall (S : Type) (W : World) (R : registrar S) (attest_ : bool) (s : S) (A : assertion_args),
  run (subclass true true attest_ R) s (handle_credential_assertion W A) =
    run R s (handle_credential_assertion W A) /\
  forall get assert_, (get && assert_)%bool = false ->
  let o := run (subclass get assert_ attest_ R) s (handle_credential_assertion W A) in
  (exists e, out_result o = Raise e) /\ (get = false -> out_state o = s) /\
  (out_result (run R s (handle_credential_assertion W A)) = Ok tt ->
     out_result o = Raise (Lib RegistrationError)).
Proof. intros. split; [apply assert_whole|intros; now apply assert_lacking]. Qed.
Print Assumptions C93_login.

(** A request each that would succeed, and what the classes give. *)
Example registrar_cases :
  out_result (run mem_registrar [] (handle_credential_attestation ex_world ex_reg_none)) = Ok tt /\
  out_result (run (base_registrar mem_state) [] (handle_credential_attestation ex_world ex_reg_none)) =
    Raise (Lib RegistrationError) /\
  out_result (run mem_registrar (ex_store (Some 4%Z)) (handle_credential_assertion ex_world (ex_auth 5))) = Ok tt /\
  out_result (run (subclass true false true mem_registrar) (ex_store (Some 4%Z))
                  (handle_credential_assertion ex_world (ex_auth 5))) = Raise (Lib RegistrationError).
Proof. vm_compute. repeat split; reflexivity. Qed.
Example base_is_subclass : forall S (R : registrar S), subclass false false false R = base_registrar S.
Proof. reflexivity. Qed.
