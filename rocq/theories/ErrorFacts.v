(** * ErrorFacts: which error an authentication run reports, and why. *)
From Coq Require Import List NArith ZArith Bool Lia String.
From Coq Require Import Strings.Byte.
From Verif Require Import Base PyVal BaseFacts B64 Utf8 Url Types World Parsers Crypto
  Backends Spec ClientFacts AuthFacts RaiseFacts CryptoFacts BackendFacts.
Import ListNotations.
Local Open Scope res_scope.
Local Open Scope list_scope.

(** [e] is in [check_errors] and in a list disjoint from it. *)
Ltac disjoint := match goal with
  | H1 : In ?e check_errors, H2 : LibOrPy _ (Lib ?e) |- _ =>
      exfalso; cbn in H2; destruct e; cbn in H1; intuition discriminate
  | H1 : In ?e check_errors, H2 : OnlyLib _ _ (Lib ?e) |- _ =>
      exfalso; cbn in H2; destruct e; cbn in H1; intuition discriminate
  end.

Section W.
Variable W : World.
Context {S : Type}.
Variable R : registrar S.
Variable s : S.
Variable A : assertion_args.

Lemma parse_origins_raise_lib l e :
  parse_origins W l = Raise (Lib e) ->
  e = OriginError /\ exists o, In o l /\ parse_origin (w_url W) o = Raise (Lib OriginError).
Proof.
  induction l as [|x t IH]; cbn [parse_origins]; [discriminate|].
  intro H. apply bind_raise in H as [H|(o & _ & H)].
  - assert (P := parse_origin_raises _ _ _ H). cbn in P. destruct P as [<-|[]].
    split; [reflexivity|]. exists x; cbn; auto.
  - apply bind_raise in H as [H|(os & _ & H)]; [|discriminate].
    destruct (IH H) as (-> & o' & ? & ?). split; [reflexivity|]. exists o'; cbn; auto.
Qed.

Lemma pre_violation e :
  assertion_pre W A = Raise (Lib e) -> Violation W R s A e.
Proof.
  unfold assertion_pre. intro H. apply bind_raise in H as [H|(os & _ & H)].
  - assert (X : e = OriginError /\ (allowed_strings (aa_origin A) = [] \/
       exists o, In o (allowed_strings (aa_origin A)) /\
                 parse_origin (w_url W) o = Raise (Lib OriginError))).
    { destruct (aa_origin A) as [x|l]; cbn [extract_allowed_origins allowed_strings] in *.
      - apply bind_raise in H as [H|(o & _ & H)]; [|discriminate].
        assert (P := parse_origin_raises _ _ _ H). cbn in P. destruct P as [<-|[]].
        split; [reflexivity|]. right. exists x; cbn; auto.
      - destruct l as [|x t]; [injection H as <-; auto|].
        apply parse_origins_raise_lib in H as (-> & H). auto. }
    destruct X as [-> X]. now constructor.
  - apply bind_raise in H as [H|(u & _ & H)]; [|discriminate].
    destruct (aa_allow A) as [l|] eqn:E; [|discriminate].
    apply check_raise in H as [H E2]. injection E2 as ->.
    apply v_allow with (l := l); [assumption|]. intros d Hd Ed.
    assert (existsb (fun d => bytes_eqb (de_id d) (cr_raw_id (aa_credential A))) l = true).
    { apply existsb_exists. exists d. split; [assumption|]. now apply bytes_eqb_spec. }
    congruence.
Qed.

Lemma checks_violation os s1 cdt e :
  assertion_pre W A = Ok os ->
  r_get R s (cr_raw_id (aa_credential A)) = (s1, Ok (Some cdt)) ->
  assertion_checks W A os cdt = Raise (Lib e) ->
  In e check_errors ->
  Violation W R s A e.
Proof.
  intros HP HG H HI. apply assertion_pre_ok in HP as [HO HA].
  assert (LK : lookup R s A = Ok (Some cdt)) by (unfold lookup; now rewrite HG).
  unfold assertion_checks in H.
  apply bind_raise in H as [H|(u & HU & H)].
  { (* user *)
    unfold resolve_user in H.
    destruct (cr_response (aa_credential A)) as [c a|c a sg h] eqn:ER; cbn [resp_user_handle] in H.
    - destruct (aa_user A) as [v|] eqn:EU.
      + apply bind_raise in H as [H|(? & _ & H)]; [|discriminate].
        apply bind_raise in H as [H|(? & _ & H)]; [|discriminate].
        apply check_raise in H as [H E]. injection E as ->. apply bytes_eqb_false in H.
        eapply v_user_id; eauto.
      + discriminate.
    - cbn [bind] in H. destruct (aa_user A) as [v|] eqn:EU.
      + apply bind_raise in H as [H|(v' & Hv & H)].
        * apply bind_raise in H as [H|(? & _ & H)]; [|discriminate].
          apply check_raise in H as [H E]. injection E as ->. apply bytes_eqb_false in H.
          eapply v_user_id; eauto.
        * inv_ok Hv. apply bytes_eqb_spec in Hb.
          apply bind_raise in H as [H|(? & _ & H)]; [|discriminate].
          destruct h as [h|]; [|discriminate].
          apply check_raise in H as [H E]. injection E as ->. apply bytes_eqb_false in H.
          eapply v_handle_wrong; eauto. congruence.
      + apply bind_raise in H as [H|(v' & Hv & H)].
        * apply bind_raise in H as [H|(? & _ & H)]; [|discriminate].
          apply check_raise in H as [H E]. injection E as ->.
          destruct h; [discriminate|]. eapply v_handle_missing; eauto.
        * inv_ok Hv.
          apply bind_raise in H as [H|(? & _ & H)]; [|discriminate].
          destruct h as [h|]; [|discriminate].
          apply check_raise in H as [H E]. injection E as ->. apply bytes_eqb_false in H.
          eapply v_handle_wrong; eauto. }
  apply resolve_user_ok in HU as (cdj & adb & sig & h & ER & HU).
  rewrite ER in H. cbn [resp_client_data_JSON resp_authenticator_data resp_signature] in H.
  assert (AD : AssertionData A adb) by (exists cdj, sig, h; assumption).
  apply bind_raise in H as [H|(rp & HR & H)].
  { unfold resolve_rp in H. destruct (cdt_rp cdt) as [r|] eqn:E1, (aa_rp A) as [r'|] eqn:E2;
      try discriminate.
    - apply bind_raise in H as [H|(? & _ & H)]; [|discriminate].
      apply check_raise in H as [H E]. injection E as ->. apply str_eqb_false in H.
      eapply v_rp_id; eauto.
    - injection H as <-. eapply v_no_rp; eauto. }
  apply resolve_rp_ok in HR.
  apply bind_raise in H as [H|(cd & HC & H)].
  { apply parse_client_data_raises_lib in H. disjoint. }
  apply parse_client_data_ok in HC as (d & text & C1 & C2 & C3 & C4 & C5 & C6).
  assert (CO : ClientObject W A d).
  { exists text. rewrite ER. split; assumption. }
  apply bind_raise in H as [H|(? & HT & H)].
  { apply check_raise in H as [H E]. injection E as ->. apply str_eqb_false in H.
    eapply v_type; eauto. }
  apply bind_raise in H as [H|(? & HCh & H)].
  { unfold check_challenge in H. apply catch_raise in H as (e0 & H & [[V E]|[V <-]]).
    - injection E as ->. cbn in HI. intuition discriminate.
    - apply bind_raise in H as [H|(ch & Hch & H)].
      + apply url_base64_decode_raises in H. congruence.
      + apply check_raise in H as [H E]. injection E as ->. apply bytes_eqb_false in H.
        eapply v_challenge; eauto. }
  apply bind_raise in H as [H|([] & HOr & H)].
  { assert (NO : ~ OriginSpec W (aa_origin A) (cd_origin cd)).
    { intro Q. apply origin_spec_iff in Q as (os' & o & Q1 & Q2 & Q3).
      assert (os' = os) by congruence. subst os'.
      rewrite (proj2 (check_origin_ok W os cd)) in H by eauto. discriminate. }
    assert (e = OriginError).
    { unfold check_origin in H. apply bind_raise in H as [H|(? & _ & H)].
      - apply parse_origin_raises in H. cbn in H. intuition congruence.
      - apply check_raise in H as [_ E]. congruence. }
    subst e. eapply v_origin; eauto. }
  apply bind_raise in H as [H|([] & HTb & H)].
  { assert (NT : ~ TokenBindingSpec (aa_token_binding A) d).
    { rewrite <- (check_token_binding_ok _ _ cd) by assumption. congruence. }
    assert (e = TokenBindingError).
    { unfold check_token_binding in H. destruct (aa_token_binding A), (cd_token_binding cd).
      - apply bind_raise in H as [H|(? & _ & H)]; apply check_raise in H as [_ E]; congruence.
      - injection H as <-. reflexivity.
      - injection H as <-. reflexivity.
      - discriminate. }
    subst e. eapply v_token_binding; eauto. }
  apply bind_raise in H as [H|(rpb & HRb & H)].
  { apply utf8_encode_raises in H. discriminate. }
  cbn [bind] in H.
  apply bind_raise in H as [H|(ad & HAd & H)].
  { apply parse_authenticator_data_raises in H. disjoint. }
  destruct (auth_fields _ _ _ HAd) as (_ & F1 & F2 & F3 & _).
  apply bind_raise in H as [H|([] & HCa & H)].
  { unfold check_auth_data in H.
    apply bind_raise in H as [H|(? & _ & H)].
    { apply check_raise in H as [H E]. injection E as ->. apply bytes_eqb_false in H.
      rewrite F1 in H. eapply v_rp_hash; eauto. }
    rewrite flag_up, flag_uv, F2 in H.
    apply bind_raise in H as [H|(? & _ & H)].
    { apply check_raise in H as [H E]. injection E as ->. eapply v_presence; eauto. }
    apply bind_raise in H as [H|(? & _ & H)].
    { apply check_raise in H as [H E]. injection E as ->.
      apply orb_false_iff in H as [H1 H2]. apply negb_false_iff in H1.
      eapply v_verification; eauto. }
    destruct (aa_extensions A) as [l|] eqn:EX; [|discriminate].
    apply check_extensions_raise in H as (E & i & Hi & Hn). injection E as ->.
    apply auth_reads_iff in HAd. eapply v_extension; eauto. }
  cbn [bind] in H.
  apply bind_raise in H as [H|([] & HV & H)].
  { assert (NV : ~ SignatureSpec W (cdt_key cdt) sig (adb ++ w_sha256 W cdj))
      by (rewrite <- verify_iff; congruence).
    assert (e = VerificationError).
    { apply verify_raises in H. cbn in H. destruct H as [<-|[<-|[<-|[]]]]; try reflexivity;
        cbn in HI; intuition discriminate. }
    subst e. eapply v_signature; eauto. }
  apply bind_raise in H as [H|(? & _ & H)]; [|discriminate].
  unfold check_sign_count in H. destruct (cdt_sign_count cdt) as [n|] eqn:EN; [|discriminate].
  apply check_raise in H as [H E]. injection E as ->.
  apply orb_false_iff in H as [H1 H2]. apply negb_false_iff, Z.leb_le in H1.
  rewrite F3 in H1. eapply v_counter; eauto.
Qed.

Lemma error_accuracy e :
  out_result (run R s (handle_credential_assertion W A)) = Raise (Lib e) ->
  In e check_errors -> Violation W R s A e.
Proof.
  destruct (assert_run W R s A) as [x P|os s1 x P G|os s1 P G|os s1 cdt x P G C|s1 cdt ad u rp s2 a G C U];
    cbn [out_result]; intros H HI.
  - apply wrap_raise in H as [(l & E & H)|[(E & _)|(? & E & _)]]; [| |discriminate].
    + injection E as <-. injection H as ->. now apply pre_violation.
    + injection E as ->. cbn in HI. intuition discriminate.
  - unfold refusal in H. destruct (is_Exception x) eqn:X; [|destruct x; discriminate].
    destruct (shows_exn W x) eqn:Q; cbn in H; injection H as <-; [|cbn in HI; intuition discriminate].
    eapply v_lookup_raised; [unfold lookup; now rewrite G|intros n ->; discriminate X|exact Q].
  - injection H as <-. apply v_no_data. unfold lookup. now rewrite G.
  - apply wrap_raise in H as [(l & E & H)|[(E & _)|(? & E & _)]]; [| |discriminate].
    + injection E as <-. injection H as ->. eapply checks_violation; eauto.
    + injection E as ->. cbn in HI. intuition discriminate.
  - apply wrap_raise in H as [(l & E & H)|[(E & _)|(? & E & _)]]; [| |discriminate].
    + injection E as <-. pose proof H as HA. apply answer_raise in H as [N [[E|E]|(n & E & _)]]; [|discriminate..]. injection E as ->.
      eapply v_register_failed with (a := a); eauto; [now rewrite U|..].
      * intros n ->. discriminate.
      * intros v ->. cbn [answer_result] in HA. destruct (shows W v); [reflexivity|discriminate].
      * intros x ->. cbn [answer_result] in HA. injection HA as HA. unfold refusal in HA.
        destruct (is_Exception x) eqn:X; [|destruct x; discriminate]. destruct (shows_exn W x); [reflexivity|discriminate].
    + injection E as ->. cbn in HI. intuition discriminate.
Qed.

End W.
