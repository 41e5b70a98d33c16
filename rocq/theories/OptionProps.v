(** * OptionProps: lemmas behind PropsOptions. *)
From Coq Require Import List NArith ZArith Bool Lia String.
From Coq Require Import Strings.Byte.
From Verif Require Import Base PyVal BaseFacts B64 CaseConv CodecSpec FormatSpec Types World Parsers
  Jsonify Builders OptionSpec JsonifyFacts OptionFacts.
Import ListNotations.
Local Open Scope list_scope.

Lemma ascii_unicode_ok : ascii_ok ascii_unicode.
Proof. constructor; reflexivity. Qed.

Lemma c36 (W : World) (U : unicode) (depth : nat) (c : credential) :
  ascii_ok U -> (3 <= depth)%nat ->
  exists d, jsonify U depth true (obj_of_credential c) = Ok (VDict d) /\
    parse_public_key_credential W d = Ok c.
Proof.
  intros OK L. destruct (c_credential U OK c) as [_ H]. destruct (H depth L) as (v & E & J).
  destruct (credential_parses W c v J) as (d & -> & P). eauto.
Qed.

Definition cred_a : credential :=
  {| cr_id := lit "AAEC"; cr_type := lit "public-key"; cr_raw_id := [x00; x01; x02];
     cr_response := AttestationResponse [x7b; x7d] [xa0] |}.
Definition cred_b : credential :=
  {| cr_id := lit "AAEC"; cr_type := lit "public-key"; cr_raw_id := [x00; x01; x02];
     cr_response := AssertionResponse [x7b; x7d] [x01] [xff; xfe] (Some []) |}.

Lemma c47_result (U : unicode) (cc : bool) (depth : nat) (t : pobj) (v : pyval) :
  jsonify U depth cc t = Ok v ->
  Json (fun k => if cc then snake_to_camel U k else k) t v /\ PureJson v.
Proof.
  intro H. split; [exact (jsonify_json U cc depth t v H)|exact (jsonify_pure U cc depth t v H)].
Qed.

Lemma c47_iff (U : unicode) (cc : bool) (depth : nat) (t : pobj) :
  (exists v, jsonify U depth cc t = Ok v) <->
  (forall n u, Path n t u -> (n < depth)%nat /\ (forall e, ~ Defect u e)).
Proof.
  apply jsonify_iff.
Qed.

Lemma c47_fail (U : unicode) (cc : bool) (depth : nat) (t : pobj) (e : exn) :
  jsonify U depth cc t = Raise e ->
  (exists x u n, e = Lib x /\ Path n t u /\ Defect u x) \/
  (e = Py ERecursionError /\ exists n u, Path n t u /\ (depth <= n)%nat).
Proof.
  apply jsonify_raise.
Qed.

Lemma c47_null (U : unicode) (cc : bool) (depth : nat) (t : pobj) (v : pyval) :
  jsonify U depth cc t = Ok v -> (forall n, ~ Path n t (OEnum ONone)) -> NullFree v.
Proof.
  apply jsonify_null_free.
Qed.

Lemma c47_enum_null (U : unicode) (cc : bool) (k : pystr) (depth : nat) :
  (2 < depth)%nat ->
  jsonify U depth cc (ODict [(KStr k, OEnum ONone)])
  = Ok (VDict [(VStr (if cc then snake_to_camel U k else k), VNone)]) /\
  ~ NullFree (VDict [(VStr (if cc then snake_to_camel U k else k), VNone)]).
Proof.
  intro L. split.
  - do 3 (destruct depth as [|depth]; [lia|]). reflexivity.
  - intro H. inversion H as [|d F|v _ N]; subst.
    + inversion F as [|? ? [X _]]; subst. now apply X.
    + now apply (N _ eq_refl).
Qed.

Definition tree_ok : pobj :=
  OObj [(KStr (lit "client_data"), OBytes [x01; x02]); (KStr (lit "user_handle"), ONone);
        (KStr (lit "items"), OTuple [OInt 3; OEnum (OStr (lit "usb")); OList []]);
        (KStr (lit "clientData"), OBool true)].
Definition tree_bad : pobj := OList [OInt 1; ODict [(KStr (lit "a"), ODict [(KOther, OInt 1)])]].

Lemma c48_creation (U : unicode) (depth : nat) (b : creation_builder) (user : user_entity) (challenge : bytes)
  (o : creation_options) :
  ascii_ok U -> (7 <= depth)%nat -> creation_build b user challenge = Ok o ->
  exists v, jsonify U depth true (obj_of_creation o) = Ok v /\
    JCreation o v /\ PureJson v /\
    Some (co_rp o) = cb_rp b /\ Some (co_pub_key_cred_params o) = cb_pub_key_cred_params b /\
    Some (co_attestation o) = cb_attestation b /\ co_user o = user /\ co_challenge o = challenge /\
    co_timeout o = cb_timeout b /\ co_exclude_credentials o = cb_exclude_credentials b /\
    co_authenticator_selection o = cb_authenticator_selection b /\ co_extensions o = cb_extensions b.
Proof.
  intros OK L B. destruct (c_creation U OK o) as [_ H]. destruct (H depth L) as (v & E & J).
  exists v. split; [exact E|]. split; [exact J|]. split; [exact (jsonify_pure U true depth _ v E)|].
  unfold creation_build in B.
  destruct (cb_rp b), (cb_pub_key_cred_params b), (cb_attestation b); try discriminate.
  injection B as <-. cbn. repeat split.
Qed.

Lemma c48_request (U : unicode) (depth : nat) (b : request_builder) (challenge : bytes)
  (allow : option (list descriptor)) (o : request_options) :
  ascii_ok U -> (7 <= depth)%nat -> request_build b challenge allow = Ok o ->
  exists v, jsonify U depth true (obj_of_request o) = Ok v /\
    JRequest o v /\ PureJson v /\
    Some (ro_mediation o) = rb_mediation b /\ ro_challenge o = challenge /\
    ro_allow_credentials o = allow /\ ro_timeout o = rb_timeout b /\ ro_rp_id o = rb_rp_id b /\
    ro_user_verification o = rb_user_verification b /\ ro_extensions o = rb_extensions b.
Proof.
  intros OK L B. destruct (c_request U OK o) as [_ H]. destruct (H depth L) as (v & E & J).
  exists v. split; [exact E|]. split; [exact J|]. split; [exact (jsonify_pure U true depth _ v E)|].
  unfold request_build in B. destruct (rb_mediation b); try discriminate.
  injection B as <-. cbn. repeat split.
Qed.

Definition rp_x : rp_entity := {| rp_name := lit "RP"; rp_icon := None; rp_id := lit "example.com" |}.
Definition user_x : user_entity :=
  {| us_name := lit "ann"; us_icon := None; us_id := [xff; xee]; us_display_name := lit "Ann" |}.
Definition calls_x : list creation_call :=
  [set_rp (Some rp_x); set_timeout (Some 1%Z); set_pub_key_cred_params (Some [(FValue, ES256)]);
   set_timeout (Some 60000%Z);
   set_authenticator_selection (Some {| se_authenticator_attachment := Some CROSS_PLATFORM;
     se_require_resident_key := false; se_user_verification := UV_REQUIRED |});
   set_exclude_credentials (Some [{| de_id := [x00]; de_transports := Some [USB; BLE] |}])].

Lemma c49_creation (b : creation_builder) (l : list creation_call) :
  (forall b', chain creation_set b l = Ok b' <->
    Forall (fun c => ~ unsets_required c) l /\
    b' = {| cb_rp := written to_rp (cb_rp b) l;
            cb_pub_key_cred_params := written to_params (cb_pub_key_cred_params b) l;
            cb_timeout := written to_timeout (cb_timeout b) l;
            cb_authenticator_selection := written to_selection (cb_authenticator_selection b) l;
            cb_extensions := written to_extensions (cb_extensions b) l;
            cb_attestation := written to_attestation (cb_attestation b) l;
            cb_exclude_credentials := written to_exclude (cb_exclude_credentials b) l |}) /\
  (forall e, chain creation_set b l = Raise e -> e = Py EAssertionError).
Proof.
  split; [intro b'; apply creation_chain|]. revert b.
  induction l as [|c l IH]; intros b e H; [discriminate|]. cbn [chain] in H.
  destruct (creation_set b c) as [b1|e1] eqn:E; cbn [bind] in H; [exact (IH _ _ H)|].
  injection H as <-. destruct b, c as [[?|]|[?|]| | | |[?|]|]; cbn in E; congruence.
Qed.

Lemma c49_creation_build (b : creation_builder) (user : user_entity) (challenge : bytes) :
  (forall o, creation_build b user challenge = Ok o <->
     cb_rp b = Some (co_rp o) /\ cb_pub_key_cred_params b = Some (co_pub_key_cred_params o) /\
     cb_attestation b = Some (co_attestation o) /\ co_user o = user /\ co_challenge o = challenge /\
     co_timeout o = cb_timeout b /\ co_exclude_credentials o = cb_exclude_credentials b /\
     co_authenticator_selection o = cb_authenticator_selection b /\ co_extensions o = cb_extensions b) /\
  (creation_build b user challenge = raise BuilderError <->
     cb_rp b = None \/ cb_pub_key_cred_params b = None \/ cb_attestation b = None).
Proof.
  unfold creation_build. split.
  - intro o. destruct (cb_rp b), (cb_pub_key_cred_params b), (cb_attestation b);
      (split; [intro H; try discriminate; injection H as <-; cbn; repeat split|]);
      intros (H1 & H2 & H3 & H4 & H5 & H6 & H7 & H8 & H9); try discriminate.
    injection H1 as ->; injection H2 as ->; injection H3 as ->.
    rewrite <- H4, <- H5, <- H6, <- H7, <- H8, <- H9. now destruct o.
  - unfold raise. destruct (cb_rp b), (cb_pub_key_cred_params b), (cb_attestation b); split; auto;
      intros; try congruence; intuition congruence.
Qed.

Lemma c49_request (b : request_builder) (l : list request_call) :
  (forall b', chain request_set b l = Ok b' <->
    Forall (fun c => ~ runsets_required c) l /\
    b' = {| rb_mediation := written to_mediation (rb_mediation b) l;
            rb_timeout := written to_rtimeout (rb_timeout b) l;
            rb_rp_id := written to_rp_id (rb_rp_id b) l;
            rb_extensions := written to_rextensions (rb_extensions b) l;
            rb_user_verification := written to_uv (rb_user_verification b) l |}) /\
  (forall e, chain request_set b l = Raise e -> e = Py EAssertionError).
Proof.
  split; [intro b'; apply request_chain|]. revert b.
  induction l as [|c l IH]; intros b e H; [discriminate|]. cbn [chain] in H.
  destruct (request_set b c) as [b1|e1] eqn:E; cbn [bind] in H; [exact (IH _ _ H)|].
  injection H as <-. destruct b, c as [[?|]| | | |]; cbn in E; congruence.
Qed.

Lemma c49_request_build (b : request_builder) (challenge : bytes) (allow : option (list descriptor)) :
  (forall o, request_build b challenge allow = Ok o <->
     rb_mediation b = Some (ro_mediation o) /\ ro_challenge o = challenge /\
     ro_allow_credentials o = allow /\ ro_timeout o = rb_timeout b /\ ro_rp_id o = rb_rp_id b /\
     ro_user_verification o = rb_user_verification b /\ ro_extensions o = rb_extensions b) /\
  (request_build b challenge allow = raise BuilderError <-> rb_mediation b = None).
Proof.
  unfold request_build. split.
  - intro o. destruct (rb_mediation b);
      (split; [intro H; try discriminate; injection H as <-; cbn; repeat split|]);
      intros (H1 & H2 & H3 & H4 & H5 & H6 & H7); try discriminate.
    injection H1 as ->. rewrite <- H2, <- H3, <- H4, <- H5, <- H6, <- H7. now destruct o.
  - unfold raise. destruct (rb_mediation b); split; intros; congruence.
Qed.

(** WebAuthn 5.3: alg is a COSEAlgorithmIdentifier, a number. *)
Definition numeric_alg (v : pyval) : Prop := exists d z, v = VDict d /\ member "alg" d (VInt z).

Lemma c58_refuted :
  exists (p : params) (v : pyval),
    jsonify ascii_unicode 3 true (obj_of_params p) = Ok v /\ ~ numeric_alg v.
Proof.
  exists (FName, ES256). eexists. split; [vm_compute; reflexivity|].
  intros (d & z & H & M). injection H as <-. vm_compute in M. discriminate.
Qed.

Lemma c58_general (U : unicode) (depth : nat) (a : alg) (v : pyval) :
  ascii_ok U -> jsonify U depth true (obj_of_params (FName, a)) = Ok v -> ~ numeric_alg v.
Proof.
  intros OK H (d & z & -> & M).
  assert (L : (3 <= depth)%nat).
  { pose proof (jsonify_clean U true depth _ _ H 2) as P.
    assert (X : (2 < depth)%nat); [|lia]. eapply P.
    eapply path_obj; [right; left; reflexivity|discriminate|]. apply path_enum. apply path_here. }
  destruct (c_params U OK (FName, a)) as [_ C]. destruct (C depth L) as (v & E & J).
  rewrite H in E. injection E as <-. destruct J as (d' & E & (_ & (w & M' & A)) & _).
  injection E as <-. unfold member in *. rewrite M in M'. injection M' as <-.
  destruct a; discriminate.
Qed.

Lemma c58_value (U : unicode) (depth : nat) (a : alg) :
  ascii_ok U -> (3 <= depth)%nat ->
  exists v, jsonify U depth true (obj_of_params (FValue, a)) = Ok v /\ numeric_alg v /\
    JParams (FValue, a) v.
Proof.
  intros OK L. destruct (c_params U OK (FValue, a)) as [_ C]. destruct (C depth L) as (v & E & J).
  exists v. split; [exact E|]. split; [|exact J].
  destruct J as (d & -> & (_ & (w & M & A)) & _).
  exists d. destruct a; cbn in A; subst w; eexists; split; try reflexivity; exact M.
Qed.
