(** * RaiseFacts: which exceptions a computation may raise. *)
From Coq Require Import List NArith ZArith Bool Lia String.
From Verif Require Import Base PyVal BaseFacts B64 Utf8 Url Types World Parsers Crypto
  Backends.
Import ListNotations.
Local Open Scope res_scope.
Local Open Scope list_scope.

(** Every exception [m] raises satisfies [P]. *)
Definition raises {A} (P : exn -> Prop) (m : res A) : Prop :=
  forall e, m = Raise e -> P e.

(** Only library errors of the given classes, or ValueError from making a
    message, if there are values that cannot be shown. *)
Definition OnlyLib (W : World) (l : list libexn) (e : exn) : Prop :=
  match e with Lib c => In c l | Py p => p = EValueError /\ exists v, shows W v = false | Abort _ => False end.
Lemma complaint_only W vs l : In ParserError l -> OnlyLib W l (complaint W vs).
Proof.
  intro H. unfold complaint. destruct (forallb _ _) eqn:F; cbn; [auto|]. split; [reflexivity|].
  clear H. induction vs as [|v t IH]; [discriminate|]. cbn in F.
  destruct (shows W v) eqn:S; [exact (IH F)|eauto].
Qed.
(** Library errors only of the given classes; any Python exception. *)
Definition LibOrPy (l : list libexn) (e : exn) : Prop :=
  match e with Lib c => In c l | Py _ => True | Abort _ => False end.

Section R.
Context {A B : Type}.
Variable P : exn -> Prop.

Lemma raises_ok (a : A) : raises P (Ok a).
Proof. intros e H; discriminate. Qed.
Lemma raises_raise e : P e -> raises P (@Raise A e).
Proof. intros H e' E; injection E as <-; exact H. Qed.
Lemma raises_lib c : P (Lib c) -> raises P (@raise A c).
Proof. intros H e' E; injection E as <-; exact H. Qed.
Lemma raises_bind (m : res A) (k : A -> res B) :
  raises P m -> (forall a, m = Ok a -> raises P (k a)) -> raises P (bind m k).
Proof.
  intros H1 H2 e H. apply bind_raise in H as [H|(a & E & H)]; [now apply H1|].
  now apply (H2 a E).
Qed.
Lemma raises_catch (m : res A) p e' :
  raises (fun e => p e = false -> P e) m ->
  ((exists e, m = Raise e /\ p e = true) -> P e') -> raises P (catch m p e').
Proof.
  intros H1 H2 e H. apply catch_raise in H as (e0 & E & [[Hp ->]|[Hp ->]]).
  - apply H2. eauto.
  - now apply (H1 e0).
Qed.
Lemma raises_check b e : (b = false -> P e) -> raises P (check b e).
Proof. intros H e' E. apply check_raise in E as [E ->]. auto. Qed.
Lemma raises_passert b : (b = false -> P (Py EAssertionError)) -> raises P (passert b).
Proof. apply raises_check. Qed.
Lemma raises_lift (m : wres A) : (forall p, m = WRaise p -> P (Py p)) -> raises P (lift m).
Proof. intros H e E. apply lift_raise in E as (p & E & ->). auto. Qed.
Lemma raises_assert_some (o : option A) :
  (o = None -> P (Py EAssertionError)) -> raises P (assert_some o).
Proof. destruct o; cbn; intros H e E; [discriminate|]. injection E as <-; auto. Qed.
End R.

Lemma raises_weaken {A} (P Q : exn -> Prop) (m : res A) :
  (forall e, P e -> Q e) -> raises P m -> raises Q m.
Proof. intros H1 H2 e H. apply H1, H2, H. Qed.

(** A syntax-directed prover. *)
Ltac raises_step :=
  lazymatch goal with
  | |- raises _ (Ok _) => apply raises_ok
  | |- raises _ (Raise _) => apply raises_raise
  | |- raises _ (raise _) => apply raises_lib
  | |- raises _ (bind _ _) => apply raises_bind; [|intros ? ?]
  | |- raises _ (catch _ _ _) => apply raises_catch; [|intros _]
  | |- raises _ (check _ _) => apply raises_check; intros _
  | |- raises _ (passert _) => apply raises_passert; intros _
  | |- raises _ (lift _) => apply raises_lift; intros ? _
  | |- raises _ (assert_some _) => apply raises_assert_some; intros _
  | |- OnlyLib _ _ (complaint _ _) => apply complaint_only
  | |- raises _ (match ?x with _ => _ end) => destruct x
  | |- raises _ (let '(_, _) := ?x in _) => destruct x
  end.
Ltac raises_fin := cbn; intros; auto 20; try discriminate.
Ltac raises_tac := repeat raises_step; raises_fin.

(** ** Base64 *)
Lemma a2b_go_raises s : forall q l p acc,
  raises (fun e => e = Py EBinasciiError) (a2b_go s q l p acc).
Proof.
  induction s as [|c t IH]; intros q l p acc; cbn [a2b_go].
  - destruct (q =? 0)%N; raises_tac.
  - repeat (match goal with |- raises _ (if ?b then _ else _) => destruct b
                       | |- raises _ (match ?b with _ => _ end) => destruct b end);
      try apply IH; raises_tac.
Qed.

Lemma url_base64_decode_raises s :
  raises (fun e => is_ValueError e = true) (url_base64_decode s).
Proof.
  unfold url_base64_decode. destruct (is_ascii _); [|raises_tac].
  eapply raises_weaken; [|apply a2b_go_raises]. intros e ->. reflexivity.
Qed.

Lemma b64decode_raises s : raises (fun e => is_ValueError e = true) (b64decode s).
Proof.
  unfold b64decode. destruct (is_ascii _); [|raises_tac].
  eapply raises_weaken; [|apply a2b_go_raises]. intros e ->. reflexivity.
Qed.

(** ** Utf8 *)
Lemma utf8_decode_raises b : raises (fun e => e = Py EUnicodeDecodeError) (utf8_decode b).
Proof.
  assert (R : forall c m, raises (fun e => e = Py EUnicodeDecodeError) m ->
                     raises (fun e => e = Py EUnicodeDecodeError) (rcons (A := N) c m)).
  { intros c m H e E. destruct m; cbn in E; [discriminate|]. apply H. congruence. }
  revert b. fix IH 1. intros [|b0 t0]; cbn [utf8_decode]; [apply raises_ok|].
  destruct (N_of_byte b0 <? 128)%N; [apply R, IH|].
  destruct t0 as [|b1 t1]; [apply raises_raise; reflexivity|]. cbv beta iota zeta.
  destruct (negb _); [apply raises_raise; reflexivity|].
  destruct (_ && _); [apply R, IH|].
  destruct t1 as [|b2 t2]; [apply raises_raise; reflexivity|]. cbv beta iota zeta.
  destruct (negb _); [apply raises_raise; reflexivity|].
  destruct (_ && _).
  { destruct (_ || _); [apply raises_raise; reflexivity|apply R, IH]. }
  destruct t2 as [|b3 t3]; [apply raises_raise; reflexivity|]. cbv beta iota zeta.
  destruct (negb _); [apply raises_raise; reflexivity|].
  destruct (_ && _); [|apply raises_raise; reflexivity].
  destruct (_ || _); [apply raises_raise; reflexivity|apply R, IH].
Qed.

(** ** Parsers *)
Lemma field_raises W k ts d r :
  raises (OnlyLib W [ParserError]) (parse_dictionary_field k ts d r).
Proof. unfold parse_dictionary_field. raises_tac. Qed.

Lemma field_type k ts d r v :
  parse_dictionary_field k ts d r = Ok v -> v <> VNone -> In (type_of v) ts.
Proof.
  unfold parse_dictionary_field. destruct (is_none _) eqn:N.
  - destruct r; [discriminate|]. intro H; injection H as <-. congruence.
  - destruct (type_in _ _) eqn:T; [|discriminate]. intro H; injection H as <-.
    intros _. now apply type_in_spec.
Qed.

Lemma field_req_not_none k ts d v :
  parse_dictionary_field k ts d true = Ok v -> v <> VNone.
Proof.
  unfold parse_dictionary_field. destruct (is_none _) eqn:N; [discriminate|].
  destruct (type_in _ _); [|discriminate]. intro H; injection H as <-.
  intro Z; rewrite Z in N; discriminate.
Qed.

Lemma field_bytes_raises W k d : raises (OnlyLib W [ParserError]) (field_bytes k d).
Proof.
  unfold field_bytes. apply raises_bind; [apply field_raises|]. intros v H.
  pose proof (field_req_not_none _ _ _ _ H) as N. apply field_type in H; [|assumption].
  destruct v; cbn in H; destruct H as [H|[]]; try discriminate; apply raises_ok.
Qed.
Lemma field_str_raises W k d : raises (OnlyLib W [ParserError]) (field_str k d).
Proof.
  unfold field_str. apply raises_bind; [apply field_raises|]. intros v H.
  pose proof (field_req_not_none _ _ _ _ H) as N. apply field_type in H; [|assumption].
  destruct v; cbn in H; destruct H as [H|[]]; try discriminate; apply raises_ok.
Qed.
Lemma field_dict_raises W k d : raises (OnlyLib W [ParserError]) (field_dict k d).
Proof.
  unfold field_dict. apply raises_bind; [apply field_raises|]. intros v H.
  pose proof (field_req_not_none _ _ _ _ H) as N. apply field_type in H; [|assumption].
  destruct v; cbn in H; destruct H as [H|[]]; try discriminate; apply raises_ok.
Qed.
Lemma field_opt_bytes_raises W k d : raises (OnlyLib W [ParserError]) (field_opt_bytes k d).
Proof.
  unfold field_opt_bytes. apply raises_bind; [apply field_raises|]. intros v H.
  destruct v; [apply raises_ok| | | | | | | | | |];
    (apply field_type in H; [|discriminate]); cbn in H; destruct H as [H|[]];
    try discriminate; apply raises_ok.
Qed.
Lemma field_opt_str_raises W k d : raises (OnlyLib W [ParserError]) (field_opt_str k d).
Proof.
  unfold field_opt_str. apply raises_bind; [apply field_raises|]. intros v H.
  destruct v; [apply raises_ok| | | | | | | | | |];
    (apply field_type in H; [|discriminate]); cbn in H; destruct H as [H|[]];
    try discriminate; apply raises_ok.
Qed.

Lemma unsupported_raises W l d : raises (OnlyLib W [ParserError]) (check_unsupported_keys W l d).
Proof. unfold check_unsupported_keys. raises_tac. Qed.

Lemma enum_raises {A} W (t : enum_table A) v vs :
  raises (OnlyLib W [ParserError])
         (catch (enum_call t v) is_KeyOrValueError (complaint W vs)).
Proof.
  apply raises_catch; [|intros _; apply complaint_only; cbn; auto]. unfold enum_call. raises_tac.
Qed.

Create HintDb raises.
#[global] Hint Resolve field_raises field_bytes_raises field_str_raises field_dict_raises
  field_opt_bytes_raises field_opt_str_raises unsupported_raises enum_raises : raises.

Ltac ptac := repeat first [solve [auto with raises] | raises_step]; raises_fin.

Lemma parse_kty_raises W d : raises (OnlyLib W [ParserError]) (parse_kty W d).
Proof. unfold parse_kty. ptac. Qed.
Lemma parse_alg_raises W d : raises (OnlyLib W [ParserError]) (parse_alg W d).
Proof. unfold parse_alg. ptac. Qed.
Lemma parse_crv_raises W t d : raises (OnlyLib W [ParserError]) (parse_crv W t d).
Proof. unfold parse_crv. ptac. Qed.
Lemma parse_stmt_alg_raises W d : raises (OnlyLib W [ParserError]) (parse_stmt_alg W d).
Proof. unfold parse_stmt_alg. ptac. Qed.
Lemma key_op_list_raises W all l : raises (OnlyLib W [ParserError]) (parse_key_op_list W all l).
Proof. induction l as [|v t IH]; cbn [parse_key_op_list]; [ptac|]. ptac; assumption. Qed.
#[global] Hint Resolve parse_kty_raises parse_alg_raises parse_crv_raises parse_stmt_alg_raises
  key_op_list_raises : raises.

Lemma as_seq_raises W k d r v :
  parse_dictionary_field k [TList; TTuple] d r = Ok v -> v <> VNone ->
  raises (OnlyLib W [ParserError]) (as_seq v).
Proof.
  intros H N. apply field_type in H; [|assumption].
  destruct v; cbn in H; destruct H as [H|[H|[]]]; try discriminate; apply raises_ok.
Qed.

Lemma parse_key_ops_raises W d : raises (OnlyLib W [ParserError]) (parse_key_ops W d).
Proof.
  unfold parse_key_ops. apply raises_bind; [auto with raises|]. intros v H.
  destruct (is_none v) eqn:N; [apply raises_ok|].
  apply raises_bind.
  - eapply as_seq_raises; [exact H|]. intros ->; discriminate.
  - intros; ptac.
Qed.
#[global] Hint Resolve parse_key_ops_raises : raises.

Lemma parse_key_base_raises W d : raises (OnlyLib W [ParserError]) (parse_key_base W d).
Proof. unfold parse_key_base. ptac. Qed.
#[global] Hint Resolve parse_key_base_raises : raises.

Lemma parse_okp_raises W d : raises (OnlyLib W [ParserError]) (parse_okp_public_key W d).
Proof. unfold parse_okp_public_key. ptac. Qed.
Lemma parse_ec2_raises W d : raises (OnlyLib W [ParserError]) (parse_ec2_public_key W d).
Proof. unfold parse_ec2_public_key. ptac. Qed.
#[global] Hint Resolve parse_okp_raises parse_ec2_raises : raises.

Lemma parse_cose_key_dict_raises W d :
  raises (OnlyLib W [ParserError]) (parse_cose_key_dict W d).
Proof.
  unfold parse_cose_key_dict. apply raises_bind.
  - apply raises_catch; [|cbn; auto]. unfold dict_index, enum_call. raises_tac.
  - intros; ptac.
Qed.
#[global] Hint Resolve parse_cose_key_dict_raises : raises.

Lemma all_str_raises W l : raises (OnlyLib W [ParserError]) (all_str l).
Proof. induction l as [|v t IH]; cbn [all_str]; ptac. Qed.
Lemma all_int_raises W l : raises (OnlyLib W [ParserError]) (all_int l).
Proof. induction l as [|v t IH]; cbn [all_int]; ptac. Qed.
#[global] Hint Resolve all_str_raises all_int_raises : raises.
Lemma all_int_lists_raises W l : raises (OnlyLib W [ParserError]) (all_int_lists l).
Proof. induction l as [|v t IH]; cbn [all_int_lists]; ptac. Qed.
Lemma all_bytes_raises W l : raises (OnlyLib W [ParserError]) (all_bytes l).
Proof. induction l as [|v t IH]; cbn [all_bytes]; ptac. Qed.
#[global] Hint Resolve all_int_lists_raises all_bytes_raises : raises.

Lemma parse_extensions_raises W d : raises (OnlyLib W [ParserError]) (parse_extensions W d).
Proof.
  unfold parse_extensions, ext_bool, ext_str, ext_bytes, ext_exts, ext_uvm, ext_loc. ptac.
Qed.
#[global] Hint Resolve parse_extensions_raises : raises.

Lemma parse_x5c_raises W d : raises (OnlyLib W [ParserError]) (parse_x5c d).
Proof.
  unfold parse_x5c. apply raises_bind; [auto with raises|]. intros v H.
  apply raises_bind; [|auto with raises].
  eapply as_seq_raises; [exact H|]. eapply field_req_not_none; exact H.
Qed.
#[global] Hint Resolve parse_x5c_raises : raises.

Lemma statement_raises W f d : raises (OnlyLib W [ParserError]) (statement_parser W f d).
Proof.
  destruct f; cbn [statement_parser];
    unfold parse_packed_attestation_statement, parse_tpm_attestation_statement,
      parse_android_key_attestation_statement, parse_android_safetynet_attestation_statement,
      parse_fido_u2f_attestation_statement, parse_none_attestation_statement; ptac.
Qed.

Lemma bytes_from_base64_raises W s :
  raises (OnlyLib W [ParserError; DecodingError]) (bytes_from_base64 s).
Proof.
  unfold bytes_from_base64. apply raises_catch; [|cbn; auto]. intros e H N. apply b64decode_raises in H. now destruct e.
Qed.

Lemma parse_public_key_credential_raises W d :
  raises (OnlyLib W [ParserError; DecodingError]) (parse_public_key_credential W d).
Proof.
  assert (Wk : forall A (m : res A), raises (OnlyLib W [ParserError]) m ->
                               raises (OnlyLib W [ParserError; DecodingError]) m).
  { intros A m. apply raises_weaken. intros [c|p|n]; cbn; tauto. }
  unfold parse_public_key_credential.
  repeat first [solve [apply Wk; auto with raises] | apply bytes_from_base64_raises
               | raises_step]; raises_fin.
Qed.

Section W.
Variable W : World.

Lemma parse_client_data_raises_lib b :
  raises (LibOrPy [ParserError; DecodingError]) (parse_client_data W b).
Proof.
  unfold parse_client_data.
  apply raises_bind.
  - apply raises_catch; [|cbn; auto]. apply raises_bind.
    + eapply raises_weaken; [|apply utf8_decode_raises]. intros e -> _. cbn. auto.
    + intros; ptac.
  - intros; ptac.
Qed.

Lemma parse_origin_raises UE s : raises (LibOrPy [OriginError]) (parse_origin UE s).
Proof.
  unfold parse_origin. apply raises_bind; [ptac|intros _ _].
  apply raises_bind.
  - unfold urlparse. destruct (split_scheme _) as [sch u].
    apply raises_bind.
    + repeat raises_step; raises_fin.
    + intros [nl u2] _. destruct (split1 35 u2) as [u3 fr]. destruct (split1 63 u3) as [u4 q].
      apply raises_bind; [ptac|intros _ _].
      destruct (if _ : bool then _ else _) as [pa pr]. apply raises_ok.
  - intros u _. unfold url_port. ptac.
Qed.

Lemma parse_origins_raises l : raises (LibOrPy [OriginError]) (parse_origins W l).
Proof.
  induction l; cbn [parse_origins]; repeat first [apply parse_origin_raises | assumption
    | raises_step]; raises_fin.
Qed.
Lemma extract_allowed_raises e :
  raises (LibOrPy [OriginError]) (extract_allowed_origins W e).
Proof.
  unfold extract_allowed_origins. destruct e as [s|[|s t]]; [| |apply parse_origins_raises];
    repeat first [apply parse_origin_raises | raises_step]; raises_fin.
Qed.

Lemma validate_raises k :
  raises (LibOrPy [ValidationError; UnimplementedError]) (validate k).
Proof. unfold validate. ptac. Qed.

Lemma read_bytes_raises b n :
  raises (fun e => e = Py EEOFError) (read_bytes b n).
Proof. unfold read_bytes. ptac. Qed.

Definition auth_errors :=
  [ParserError; DecodingError; ValidationError; UnimplementedError].

Lemma parse_authenticator_data_raises b :
  raises (LibOrPy auth_errors) (parse_authenticator_data W b).
Proof.
  unfold parse_authenticator_data.
  assert (K : forall A (m : res A), raises (OnlyLib W [ParserError]) m ->
                raises (fun e => is_EOFError e = false -> LibOrPy auth_errors e) m).
  { intros A m. apply raises_weaken. intros [c|p|n]; cbn; tauto. }
  apply raises_bind; [ptac|intros _ _].
  apply raises_bind.
  { destruct (has_flag _ _); [|apply raises_ok].
    apply raises_bind; [|intros [? ?] _; apply raises_ok].
    unfold parse_attested. apply raises_catch; [|cbn; auto].
    apply raises_bind; [|intros [? ?] _].
    { eapply raises_weaken; [|apply read_bytes_raises]. intros e ->; cbn; auto. }
    apply raises_bind; [|intros [? ?] _].
    { eapply raises_weaken; [|apply read_bytes_raises]. intros e ->; cbn; auto. }
    apply raises_bind; [|intros [? ?] _].
    { eapply raises_weaken; [|apply read_bytes_raises]. intros e ->; cbn; auto. }
    apply raises_bind; [|intros [v r] _].
    { ptac. }
    destruct v; try (apply raises_lib; cbn; auto; fail).
    apply raises_bind; [apply K; auto with raises|intros k _].
    apply raises_bind; [|intros; apply raises_ok].
    eapply raises_weaken; [|apply validate_raises]. intros [c|p|n]; cbn; tauto. }
  intros [att bio] _.
  apply raises_bind.
  { destruct (has_flag _ _); [|apply raises_ok].
    apply raises_bind; [|intros [? ?] _; apply raises_ok].
    unfold parse_ext_data. apply raises_catch; [|cbn; auto].
    apply raises_bind; [|intros [v r] _].
    { ptac. }
    destruct v; try (apply raises_lib; cbn; auto; fail).
    apply raises_bind; [apply K; auto with raises|intros; apply raises_ok]. }
  intros [ext bio'] _. ptac.
Qed.

Lemma cryptography_public_key_raises k :
  raises (LibOrPy [UnimplementedError; PublicKeyConversionError])
         (cryptography_public_key W k).
Proof. unfold cryptography_public_key. ptac. Qed.

Lemma verify_raises k s d :
  raises (LibOrPy [UnimplementedError; PublicKeyConversionError; VerificationError])
         (verify W k s d).
Proof.
  assert (K : raises (LibOrPy [UnimplementedError; PublicKeyConversionError; VerificationError])
                (cryptography_public_key W k)).
  { eapply raises_weaken; [|apply cryptography_public_key_raises]. intros [c|p|n]; cbn; tauto. }
  unfold verify. destruct k; [| |ptac]; (apply raises_bind; [exact K|intros pk _]);
    unfold ec2_hash_algorithm; ptac.
Qed.

Definition att_errors := [AttestationError; UnimplementedError; PublicKeyConversionError].

Lemma attest_raises st o a h : raises (LibOrPy att_errors) (attest W st o a h).
Proof.
  assert (K : forall k, raises (LibOrPy att_errors) (cryptography_public_key W k)).
  { intro k. eapply raises_weaken; [|apply cryptography_public_key_raises].
    intros [c|p|n]; cbn; tauto. }
  destruct st; cbn [attest]; try (apply raises_lib; cbn; auto; fail); [| |apply raises_ok].
  - unfold attest_android_key, arg_auth_data, ec2_hash_algorithm.
    repeat first [apply K | raises_step]; raises_fin.
  - unfold attest_fido_u2f, arg_auth_data.
    repeat first [apply K | raises_step]; raises_fin.
Qed.

Lemma parse_attestation_object_raises b :
  raises (LibOrPy auth_errors) (parse_attestation_object W b).
Proof.
  unfold parse_attestation_object. apply raises_bind.
  - unfold cbor_loads. ptac.
  - intros v _. destruct v; try (apply raises_lib; cbn; auto; fail).
    apply raises_bind.
    + apply raises_catch; [|cbn; auto]. unfold dict_index.
      assert (K : forall b0, raises (fun e => is_KeyError e = false -> LibOrPy auth_errors e)
                               (parse_authenticator_data W b0)).
      { intro b0. eapply raises_weaken; [|apply parse_authenticator_data_raises]. cbn; auto. }
      repeat first [apply K | raises_step]; raises_fin.
    + intros [[f ad] sv] _. destruct sv; try (apply raises_lib; cbn; auto; fail).
      apply raises_bind; [|intros; apply raises_ok].
      apply raises_catch; [|cbn; auto].
      eapply raises_weaken; [|apply statement_raises]. intros [c|p|n]; cbn; tauto.
Qed.

End W.

Lemma utf8_encode_raises s : raises (fun e => e = Py EUnicodeEncodeError) (utf8_encode s).
Proof.
  induction s as [|c t IH]; cbn [utf8_encode]; [apply raises_ok|].
  destruct (utf8_enc1 c); [|apply raises_raise; reflexivity].
  intros e H. apply (IH e). destruct (utf8_encode t); congruence.
Qed.

(** ** The checks raise Exceptions only *)
Definition civil (e : exn) : Prop := is_Exception e = true.
Lemma civil_py e : (exists p, e = Py p) -> civil e. Proof. now intros (p & ->). Qed.
Lemma libpy_civil {A} l (m : res A) : raises (LibOrPy l) m -> raises civil m.
Proof. apply raises_weaken. intros [c|p|n]; cbn; easy. Qed.
Lemma resp_user_handle_civil r : raises civil (resp_user_handle r).
Proof. destruct r; intros e H; [injection H as <-; reflexivity|discriminate]. Qed.
Lemma resp_authenticator_data_civil r : raises civil (resp_authenticator_data r).
Proof. destruct r; intros e H; [injection H as <-; reflexivity|discriminate]. Qed.
Lemma resp_signature_civil r : raises civil (resp_signature r).
Proof. destruct r; intros e H; [injection H as <-; reflexivity|discriminate]. Qed.
Lemma utf8_encode_civil s : raises civil (utf8_encode s).
Proof. eapply raises_weaken; [|apply utf8_encode_raises]. now intros e ->. Qed.
Lemma check_challenge_civil b cd : raises civil (check_challenge b cd).
Proof.
  unfold check_challenge. apply raises_catch; [|reflexivity]. apply raises_bind; [|intros; apply raises_check; reflexivity].
  eapply raises_weaken; [|apply url_base64_decode_raises]. intros e H _. now destruct e.
Qed.
Lemma check_extensions_civil x l : raises civil (check_extensions x l).
Proof.
  induction l as [|i l IH]; cbn [check_extensions]; [apply raises_ok|].
  repeat first [apply IH | apply raises_check; reflexivity | apply raises_ok | apply raises_raise; reflexivity | apply raises_lib; reflexivity
    | apply raises_assert_some; reflexivity | apply raises_bind; [|intros ? _]
    | match goal with |- raises _ (match ?b with _ => _ end) => destruct b end].
Qed.
Ltac civil_step :=
  first [ apply resp_user_handle_civil | apply resp_authenticator_data_civil | apply resp_signature_civil
        | apply utf8_encode_civil | apply check_challenge_civil | apply check_extensions_civil
        | eapply libpy_civil; apply parse_client_data_raises_lib
        | eapply libpy_civil; apply extract_allowed_raises
        | eapply libpy_civil; apply parse_authenticator_data_raises
        | eapply libpy_civil; apply parse_attestation_object_raises
        | eapply libpy_civil; apply parse_origin_raises
        | eapply libpy_civil; apply verify_raises | eapply libpy_civil; apply attest_raises
        | apply raises_check; reflexivity | apply raises_ok | apply raises_raise; reflexivity
        | apply raises_lib; reflexivity | apply raises_assert_some; reflexivity
        | apply raises_bind; [|intros ? _]
        | match goal with |- raises _ (match ?b with _ => _ end) => destruct b end ].
Section Civil.
Variable W : World.
Lemma assertion_pre_civil A : raises civil (assertion_pre W A).
Proof. unfold assertion_pre. repeat civil_step. Qed.
Lemma assertion_checks_civil A l cdt : raises civil (assertion_checks W A l cdt).
Proof.
  unfold assertion_checks, resolve_user, resolve_rp, check_origin, check_token_binding, check_auth_data, check_sign_count.
  cbv zeta. repeat civil_step.
Qed.
Lemma attestation_checks_civil call A : (forall att acd b h, raises civil (call att acd b h)) ->
  raises civil (attestation_checks_with W call A).
Proof.
  intro C. unfold attestation_checks_with, check_origin, check_token_binding, check_auth_data, resp_attestation_object, dict_index, as_bytes.
  cbv zeta. repeat first [apply C | civil_step].
Qed.
Lemma call_attest_civil att acd b h : raises civil (call_attest W att acd b h).
Proof. unfold call_attest. repeat civil_step. Qed.
Lemma attest_checks_civil A : raises civil (attestation_checks W A).
Proof. apply attestation_checks_civil. intros. apply call_attest_civil. Qed.
End Civil.
Lemma refusal_civil W e : civil e -> civil (refusal W e).
Proof. unfold refusal. destruct e; [..|easy]; cbn [is_Exception]; now destruct (shows_exn W _). Qed.
Lemma answer_civil W a : raises civil a -> raises civil (answer_result W a).
Proof.
  intros H e. destruct a as [[v|]|x]; cbn [answer_result]; intro Q; try discriminate.
  - destruct (shows W v); injection Q as <-; reflexivity.
  - injection Q as <-. apply refusal_civil. now apply H.
Qed.
