(** * BackendFacts: the two ceremony handlers. *)
From Coq Require Import List NArith ZArith Bool Lia String.
From Coq Require Import Strings.Byte.
From Verif Require Import Base PyVal BaseFacts B64 Utf8 Url Types World Parsers Crypto
  Backends Spec ClientFacts AuthFacts RaiseFacts CryptoFacts.
Import ListNotations.
Local Open Scope res_scope.
Local Open Scope list_scope.

Lemma wrap_ok r u : wrap r = Ok u <-> r = Ok u.
Proof. destruct r as [|[l| |]]; cbn; [easy|destruct l|..]; split; discriminate. Qed.

Lemma is_lib_root l : is_lib WebAuthnRPError (Lib l) = true.
Proof. destruct l; reflexivity. Qed.

Lemma wrap_raise r e :
  wrap r = Raise e <->
  (exists l, e = Lib l /\ r = Raise (Lib l)) \/
  (e = Lib InternalError /\ exists p, r = Raise (Py p)) \/
  (exists n, e = Abort n /\ r = Raise (Abort n)).
Proof.
  destruct r as [u|[l|p|n]]; cbn [wrap].
  - split; [discriminate|]. intros [(? & _ & ?)|[(_ & ? & ?)|(? & _ & ?)]]; discriminate.
  - rewrite is_lib_root. split.
    + intro H; injection H as <-. left; eauto.
    + intros [(l' & -> & E)|[(_ & ? & E)|(? & _ & E)]]; congruence.
  - cbn. split.
    + intro H; injection H as <-. right; left; eauto.
    + intros [(l' & -> & E)|[(-> & ? & E)|(? & _ & E)]]; [discriminate|reflexivity|discriminate].
  - cbn. split.
    + intro H; injection H as <-. right; right; eauto.
    + intros [(l' & -> & E)|[(_ & ? & E)|(? & -> & E)]]; congruence.
Qed.

Lemma wrap_lib_or_abort r e : wrap r = Raise e -> (exists l, e = Lib l) \/ exists n, e = Abort n /\ r = Raise (Abort n).
Proof. intro H. apply wrap_raise in H as [(l & -> & _)|[(-> & _)|X]]; eauto. Qed.

Lemma answer_ok W a u : answer_result W a = Ok u <-> a = Ok None.
Proof.
  destruct a as [[v|]|e], u; cbn [answer_result]; try destruct (shows W v); split; (discriminate || reflexivity).
Qed.
Lemma refusal_cases W e : (refusal W e = Lib RegistrationError \/ refusal W e = Py EValueError) \/
  exists n, refusal W e = Abort n /\ e = Abort n.
Proof.
  unfold refusal. destruct e as [l|p|n]; cbn [is_Exception]; [left|left|right; eauto];
    destruct (shows_exn W _); auto.
Qed.
Lemma answer_raise W a e : answer_result W a = Raise e ->
  a <> Ok None /\ ((e = Lib RegistrationError \/ e = Py EValueError) \/ exists n, e = Abort n /\ a = Raise (Abort n)).
Proof.
  destruct a as [[v|]|x]; cbn [answer_result]; intro H; try discriminate; (split; [congruence|]).
  - destruct (shows W v); injection H as <-; auto.
  - injection H as <-. destruct (refusal_cases W x) as [C|(n & C & ->)]; [now left|right; eauto].
Qed.

(** ** Identities *)
Lemma resolve_user_ok A cdt u :
  resolve_user A cdt = Ok u <->
  exists cdj adb sig handle,
    cr_response (aa_credential A) = AssertionResponse cdj adb sig handle /\
    UserSpec (aa_user A) (cdt_user cdt) handle u.
Proof.
  unfold resolve_user, UserSpec. destruct (cr_response (aa_credential A)) as [c a|c a s h].
  - cbn [resp_user_handle]. split.
    + destruct (aa_user A) as [v|]; cbn [bind]; [|discriminate].
      destruct (bytes_eqb _ _); discriminate.
    + intros (? & ? & ? & ? & E & _). discriminate.
  - cbn [resp_user_handle bind]. split.
    + intro H. exists c, a, s, h. split; [reflexivity|].
      destruct (aa_user A) as [v|].
      * apply bind_ok in H as (v' & H1 & H). inv_ok H1. apply bytes_eqb_spec in Hb.
        destruct h as [h|]; inv_ok H.
        -- apply bytes_eqb_spec in Hb0. repeat split; try congruence.
        -- repeat split; congruence.
      * apply bind_ok in H as (v' & H1 & H). inv_ok H1.
        destruct h as [h|]; [|discriminate]. inv_ok H.
        apply bytes_eqb_spec in Hb0. repeat split; congruence.
    + intros (? & ? & ? & ? & E & H1 & H2 & H3 & H4). injection E as <- <- <- <-.
      destruct (aa_user A) as [v|]; subst u.
      * rewrite H2, bytes_eqb_refl. cbn [check bind].
        destruct h as [h|]; [|reflexivity]. rewrite (H3 h eq_refl), H2, bytes_eqb_refl. reflexivity.
      * destruct h as [h|]; [|exfalso; now apply H4]. cbn [is_some check bind].
        rewrite (H3 h eq_refl), bytes_eqb_refl. reflexivity.
Qed.

Lemma resolve_rp_ok A cdt rp :
  resolve_rp A cdt = Ok rp <-> RpSpec (aa_rp A) (cdt_rp cdt) rp.
Proof.
  unfold resolve_rp, RpSpec. destruct (cdt_rp cdt) as [r|], (aa_rp A) as [r'|].
  - split.
    + intro H. inv_ok H. apply str_eqb_spec in Hb. split; congruence.
    + intros [-> H]. rewrite (H r eq_refl), str_eqb_refl. reflexivity.
  - split; congruence.
  - split; [intro H; injection H as <-; split; congruence|intros [-> _]; reflexivity].
  - split; discriminate.
Qed.

Lemma allow_ok A :
  (match aa_allow A with
   | None => Ok tt
   | Some l => check (existsb (fun d => bytes_eqb (de_id d) (cr_raw_id (aa_credential A))) l)
                     (Lib CredentialNotAllowedError)
   end) = Ok tt <-> AllowSpec (aa_allow A) (cr_raw_id (aa_credential A)).
Proof.
  unfold AllowSpec. destruct (aa_allow A) as [l|]; [|split; [congruence|reflexivity]].
  rewrite check_ok, existsb_exists. split.
  - intros (d & H1 & H2) l' E. injection E as <-. apply bytes_eqb_spec in H2. eauto.
  - intro H. destruct (H l eq_refl) as (d & H1 & H2). exists d. split; [assumption|].
    now apply bytes_eqb_spec.
Qed.

Lemma counter_ok A cdt ad :
  check_sign_count A cdt ad = Ok tt <->
  CounterSpec (aa_ignore_clone A) (cdt_sign_count cdt) (ad_sign_count ad).
Proof.
  unfold check_sign_count, CounterSpec. destruct (cdt_sign_count cdt) as [n|].
  - rewrite check_ok, orb_true_iff, negb_true_iff, Z.leb_gt. split.
    + intros [H|H]; [right; right; eauto|auto].
    + intros [H|[H|(m & E & H)]]; [auto|discriminate|]. injection E as <-. auto.
  - split; auto.
Qed.

Section W.
Variable W : World.

Lemma assertion_pre_ok A os :
  assertion_pre W A = Ok os <->
  extract_allowed_origins W (aa_origin A) = Ok os /\
  AllowSpec (aa_allow A) (cr_raw_id (aa_credential A)).
Proof.
  unfold assertion_pre. split.
  - intro H. apply bind_ok in H as (l & H1 & H). apply bind_ok in H as ([] & H2 & H).
    apply allow_ok in H2. injection H as <-. auto.
  - intros [H1 H2]. rewrite H1. cbn [bind]. apply allow_ok in H2. rewrite H2. reflexivity.
Qed.

(** The checks of an assertion, exactly. *)
Lemma assertion_iff A cdt ad u rp :
  (exists os, assertion_pre W A = Ok os /\ assertion_checks W A os cdt = Ok (ad, u, rp)) <->
  AssertionSpec W A cdt ad u rp.
Proof.
  unfold AssertionSpec. split.
  - intros (os & HP & H). apply assertion_pre_ok in HP as [HO HA].
    unfold assertion_checks in H.
    apply bind_ok in H as (u' & HU & H). apply resolve_user_ok in HU as (cdj & adb & sig & h & ER & HU).
    rewrite ER in H. cbn [resp_client_data_JSON resp_authenticator_data resp_signature] in H.
    apply bind_ok in H as (rp' & HR & H). apply resolve_rp_ok in HR.
    apply bind_ok in H as (cd & HC & H).
    apply bind_ok in H as (? & HT & H). apply check_ok, str_eqb_spec in HT.
    apply bind_ok in H as ([] & HCh & H).
    apply bind_ok in H as ([] & HOr & H).
    apply bind_ok in H as ([] & HTb & H).
    apply bind_ok in H as (rpb & HRb & H). cbn [bind] in H.
    apply bind_ok in H as (ad' & HAd & H).
    apply bind_ok in H as ([] & HCa & H). cbn [bind] in H.
    apply bind_ok in H as ([] & HV & H). apply verify_iff in HV.
    apply bind_ok in H as ([] & HSc & H). apply counter_ok in HSc.
    injection H as <- <- <-.
    exists cdj, adb, sig, h. split; [assumption|]. split; [assumption|].
    split; [assumption|]. split; [assumption|].
    split; [apply client_data_spec_iff; exists os, cd; repeat split; auto|].
    split; [apply auth_data_spec_iff; eauto|].
    split; [assumption|].
    destruct (auth_fields _ _ _ HAd) as (_ & _ & _ & <- & _). assumption.
  - intros (cdj & adb & sig & h & ER & HA & HU & HR & HC & HAd & HV & HSc).
    apply client_data_spec_iff in HC as (os & cd & C1 & C2 & C3 & C4 & C5 & C6).
    apply auth_data_spec_iff in HAd as (rpb & A1 & A2 & A3).
    destruct (auth_fields _ _ _ A2) as (_ & _ & _ & EC & _). rewrite <- EC in HSc.
    exists os. split; [now apply assertion_pre_ok|].
    unfold assertion_checks.
    rewrite (proj2 (resolve_user_ok A cdt u)) by eauto 8. cbn [bind].
    apply resolve_rp_ok in HR. rewrite HR, ER.
    cbn [bind resp_client_data_JSON resp_authenticator_data resp_signature].
    rewrite C2. cbn [bind]. rewrite C3, str_eqb_refl. cbn [check bind].
    rewrite C4. cbn [bind]. rewrite C5. cbn [bind]. rewrite C6. cbn [bind].
    rewrite A1. cbn [bind]. rewrite A2. cbn [bind]. rewrite A3. cbn [bind].
    apply verify_iff in HV. rewrite HV. cbn [bind].
    apply counter_ok in HSc. rewrite HSc. reflexivity.
Qed.

Context {S : Type}.
Variable R : registrar S.

(** Every run of the authentication handler, case by case. *)
Inductive AssertRun (s : S) (A : assertion_args) : outcome S -> Prop :=
| ar_pre e : assertion_pre W A = Raise e ->
    AssertRun s A {| out_state := s; out_trace := []; out_result := wrap (Raise e) |}
| ar_get_raise os s1 e : assertion_pre W A = Ok os ->
    r_get R s (cr_raw_id (aa_credential A)) = (s1, Raise e) ->
    AssertRun s A {| out_state := s1; out_trace := [EvGet (cr_raw_id (aa_credential A))];
                     out_result := wrap (Raise (refusal W e)) |}
| ar_get_none os s1 : assertion_pre W A = Ok os ->
    r_get R s (cr_raw_id (aa_credential A)) = (s1, Ok None) ->
    AssertRun s A {| out_state := s1; out_trace := [EvGet (cr_raw_id (aa_credential A))];
                     out_result := raise CredentialDataError |}
| ar_checks os s1 cdt e : assertion_pre W A = Ok os ->
    r_get R s (cr_raw_id (aa_credential A)) = (s1, Ok (Some cdt)) ->
    assertion_checks W A os cdt = Raise e ->
    AssertRun s A {| out_state := s1; out_trace := [EvGet (cr_raw_id (aa_credential A))];
                     out_result := wrap (Raise e) |}
| ar_update s1 cdt ad u rp s2 a :
    r_get R s (cr_raw_id (aa_credential A)) = (s1, Ok (Some cdt)) ->
    AssertionSpec W A cdt ad u rp ->
    r_assert R s1 (aa_credential A) ad u rp = (s2, a) ->
    AssertRun s A {| out_state := s2;
                     out_trace := [EvGet (cr_raw_id (aa_credential A));
                                   EvAssert (aa_credential A) ad u rp];
                     out_result := wrap (answer_result W a) |}.

Lemma assert_run s A : AssertRun s A (run R s (handle_credential_assertion W A)).
Proof.
  unfold handle_credential_assertion. destruct (assertion_pre W A) as [os|e] eqn:HP.
  2:{ cbn [run]. now constructor. }
  cbn [run]. destruct (r_get R s (cr_raw_id (aa_credential A))) as [s1 r] eqn:HG.
  destruct r as [[cdt|]|e].
  - destruct (assertion_checks W A os cdt) as [[[ad u] rp]|e] eqn:HC.
    + cbn [run]. destruct (r_assert R s1 (aa_credential A) ad u rp) as [s2 a] eqn:HU.
      cbn [run out_state out_trace out_result].
      apply ar_update with (s1 := s1) (cdt := cdt); auto.
      apply assertion_iff. eauto.
    + cbn [run out_state out_trace out_result]. eapply ar_checks; eauto.
  - cbn [run out_state out_trace out_result]. eapply ar_get_none; eauto.
  - cbn [run out_state out_trace out_result]. eapply ar_get_raise; eauto.
Qed.

Lemma assertion_exact s A :
  out_result (run R s (handle_credential_assertion W A)) = Ok tt <->
  exists s1 cdt ad u rp s2,
    r_get R s (cr_raw_id (aa_credential A)) = (s1, Ok (Some cdt)) /\
    AssertionSpec W A cdt ad u rp /\
    r_assert R s1 (aa_credential A) ad u rp = (s2, Ok None).
Proof.
  split.
  - destruct (assert_run s A) as [e P|os s1 e P G|os s1 P G|os s1 cdt e P G C|s1 cdt ad u rp s2 a G C U];
      cbn [out_result]; intro H; try discriminate;
      try (rewrite wrap_ok in H; discriminate).
    rewrite wrap_ok, answer_ok in H. subst a. eauto 10.
  - intros (s1 & cdt & ad & u & rp & s2 & G & C & U).
    unfold handle_credential_assertion.
    apply assertion_iff in C as (os & P & C). rewrite P. cbn [run]. rewrite G, C.
    cbn [run]. rewrite U. reflexivity.
Qed.

(** ** Registration *)

Lemma find_fmt fmt f :
  find (fun g => str_eqb (fmt_value g) fmt) all_fmts = Some f <-> fmt = fmt_value f.
Proof.
  split.
  - intro H. apply find_some in H as [_ H]. now apply str_eqb_spec in H.
  - intros ->. destruct f; reflexivity.
Qed.

(** The attestation object parser. *)
Lemma parse_attestation_object_ok b o d :
  parse_attestation_object W b = Ok (o, d) <->
  exists rest adb sd ad f st,
    w_cbor_load W b = WOk (VDict d, rest) /\
    member "authData" d (VBytes adb) /\ member "fmt" d (VStr (fmt_value f)) /\
    member "attStmt" d (VDict sd) /\
    parse_authenticator_data W adb = Ok ad /\
    statement_parser W f sd = Ok st /\
    o = {| ao_auth_data := Some ad; ao_fmt := f; ao_stmt := st |}.
Proof.
  unfold parse_attestation_object, cbor_loads, dict_index, member, skey. split.
  - intro H. apply bind_ok in H as (v & H1 & H). apply catch_ok in H1.
    destruct (w_cbor_load W b) as [[v' rest]|] eqn:HC; [|discriminate]. injection H1 as ->.
    destruct v as [| | | | | | | |d'| |]; try discriminate.
    apply bind_ok in H as ([[f ad] sv] & H1 & H). apply catch_ok in H1.
    destruct (dict_find (VStr (lit "authData")) d') as [av|] eqn:Ea; [|discriminate]. cbn [bind] in H1.
    destruct (dict_find (VStr (lit "fmt")) d') as [fv|] eqn:Ef; [|discriminate]. cbn [bind] in H1.
    destruct (dict_find (VStr (lit "attStmt")) d') as [stv|] eqn:Es; [|discriminate]. cbn [bind] in H1.
    destruct fv; try discriminate.
    destruct (find _ _) as [f'|] eqn:F; [|discriminate]. apply find_fmt in F. cbn [bind] in H1.
    destruct av; try discriminate.
    apply bind_ok in H1 as (ad' & HA & H1). injection H1 as -> -> ->.
    destruct sv; try discriminate. apply bind_ok in H as (st & HS & H). apply catch_ok in HS.
    injection H as <- <-. subst s. exists rest, b0, d0, ad, f, st. auto 10.
  - intros (rest & adb & sd & ad & f & st & H1 & H2 & H3 & H4 & H5 & H6 & ->).
    rewrite H1. cbn [catch bind]. rewrite H2, H3, H4. cbn [bind].
    rewrite (proj2 (find_fmt _ f) eq_refl). cbn [bind]. rewrite H5. cbn [bind catch].
    rewrite H6. reflexivity.
Qed.

Lemma none_statement_ok sd st : statement_parser W F_NONE sd = Ok st <-> sd = [] /\ st = S_None.
Proof.
  cbn [statement_parser]. unfold parse_none_attestation_statement, check_unsupported_keys.
  destruct sd as [|[k v] t]; cbn.
  - split; [intro H; injection H as <-; auto|intros [_ ->]; reflexivity].
  - split; [discriminate|intros [? _]; discriminate].
Qed.

Lemma stmt_fmt_ok f sd st : statement_parser W f sd = Ok st -> stmt_fmt st = f.
Proof.
  intro H. destruct f; cbn [statement_parser] in H;
    unfold parse_packed_attestation_statement, parse_tpm_attestation_statement,
      parse_android_key_attestation_statement, parse_android_safetynet_attestation_statement,
      parse_fido_u2f_attestation_statement, parse_none_attestation_statement in H;
    repeat first [ progress inv_ok H | match type of H with
      (if ?b then _ else _) = _ => destruct b end]; reflexivity.
Qed.

Lemma attestation_iff A att ty path :
  attestation_checks W A = Ok (att, (ty, path)) <->
  RegistrationSpec W A att /\ ty = AT_NONE /\ path = None.
Proof.
  unfold attestation_checks, attestation_checks_with, call_attest, RegistrationSpec. split.
  - intro H.
    apply bind_ok in H as (os & HO & H).
    apply bind_ok in H as (cd & HC & H).
    apply bind_ok in H as (? & HT & H). apply check_ok, str_eqb_spec in HT.
    apply bind_ok in H as ([] & HCh & H).
    apply bind_ok in H as ([] & HOr & H).
    apply bind_ok in H as ([] & HTb & H).
    apply bind_ok in H as (rpb & HRb & H).
    apply bind_ok in H as (aob & HRe & H).
    destruct (cr_response (ra_credential A)) as [cdj aob'|] eqn:ER; [|discriminate].
    injection HRe as ->. cbn [resp_client_data_JSON] in *.
    apply bind_ok in H as ([o raw] & HP & H).
    apply parse_attestation_object_ok in HP as (rest & adb & sd & ad & f & st & P1 & P2 & P3 & P4 & P5 & P6 & ->).
    cbn [ao_auth_data ao_stmt] in H. cbn [bind] in H.
    apply bind_ok in H as ([] & HCa & H).
    apply bind_ok in H as (acd & HAt & H).
    apply bind_ok in H as (rv & HRv & H). apply bind_ok in H as (rad & HRa & H).
    apply bind_ok in H as (r & HR & H). injection H as <- ->.
    apply attest_key_ok in HR as [-> HR]. injection HR as -> ->.
    split; [|auto].
    assert (f = F_NONE) by (symmetry; now apply (stmt_fmt_ok f sd S_None)). subst f.
    apply none_statement_ok in P6 as [-> _].
    exists cdj, aob, adb, ad. split; [reflexivity|].
    split; [apply client_data_spec_iff; exists os, cd; repeat split; auto|].
    split; [exists raw, rest; auto|].
    split; [apply auth_data_spec_iff; eauto|].
    split; [|reflexivity].
    destruct (auth_fields _ _ _ P5) as (_ & _ & _ & _ & <- & _).
    destruct (ad_attested ad); [reflexivity|discriminate].
  - intros ((cdj & aob & adb & ad & ER & HC & (d & rest & P1 & P2 & P3 & P4) & HA & HF & ->) & -> & ->).
    apply client_data_spec_iff in HC as (os & cd & C1 & C2 & C3 & C4 & C5 & C6).
    apply auth_data_spec_iff in HA as (rpb & A1 & A2 & A3).
    rewrite C1, ER. cbn [bind resp_client_data_JSON resp_attestation_object].
    rewrite C2. cbn [bind]. rewrite C3, str_eqb_refl. cbn [check bind].
    rewrite C4. cbn [bind]. rewrite C5. cbn [bind]. rewrite C6. cbn [bind]. rewrite A1. cbn [bind].
    erewrite (proj2 (parse_attestation_object_ok aob _ d)).
    2:{ exists rest, adb, [], ad, F_NONE, S_None. repeat split; eauto. }
    cbn [bind ao_auth_data ao_stmt]. rewrite A3. cbn [bind].
    destruct (auth_fields _ _ _ A2) as (_ & _ & _ & _ & E6 & _). rewrite HF in E6.
    destruct (ad_attested ad) as [acd|]; [|discriminate]. cbn [assert_some bind].
    unfold dict_index, skey. unfold member in P4. rewrite P4. reflexivity.
Qed.

Inductive AttestRun (s : S) (A : attestation_args) : outcome S -> Prop :=
| tr_checks e : attestation_checks W A = Raise e ->
    AttestRun s A {| out_state := s; out_trace := []; out_result := wrap (Raise e) |}
| tr_store att s1 a :
    RegistrationSpec W A att ->
    r_attest R s (ra_credential A) att AT_NONE (ra_user A) (ra_rp A) None = (s1, a) ->
    AttestRun s A {| out_state := s1;
                     out_trace := [EvAttest (ra_credential A) att AT_NONE (ra_user A) (ra_rp A) None];
                     out_result := wrap (answer_result W a) |}.

Lemma attest_run s A : AttestRun s A (run R s (handle_credential_attestation W A)).
Proof.
  unfold handle_credential_attestation, handle_credential_attestation_with. fold (attestation_checks W).
  destruct (attestation_checks W A) as [[att [ty path]]|e] eqn:HC.
  - apply attestation_iff in HC as (HC & -> & ->). cbn [run].
    destruct (r_attest R s (ra_credential A) att AT_NONE (ra_user A) (ra_rp A) None) as [s1 a] eqn:U.
    cbn [run out_state out_trace out_result]. now apply tr_store.
  - cbn [run]. now constructor.
Qed.

Lemma attestation_exact s A :
  out_result (run R s (handle_credential_attestation W A)) = Ok tt <->
  exists att s1,
    RegistrationSpec W A att /\
    r_attest R s (ra_credential A) att AT_NONE (ra_user A) (ra_rp A) None = (s1, Ok None).
Proof.
  split.
  - destruct (attest_run s A) as [e P|att s1 a G U]; cbn [out_result]; intro H.
    + rewrite wrap_ok in H. discriminate.
    + rewrite wrap_ok, answer_ok in H. subst a. eauto.
  - intros (att & s1 & G & U). unfold handle_credential_attestation, handle_credential_attestation_with.
    fold (attestation_checks W). rewrite (proj2 (attestation_iff A att AT_NONE None)) by auto. cbn [run]. rewrite U. reflexivity.
Qed.

End W.
