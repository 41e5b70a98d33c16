(** * AttestFacts: consequences of the exact characterisation of registration. *)
From Coq Require Import List NArith ZArith Bool Lia String.
From Coq Require Import Strings.Byte.
From Verif Require Import Base PyVal BaseFacts B64 Utf8 Url Types World Parsers Crypto
  Backends Spec FormatFacts ClientFacts AuthFacts RaiseFacts CryptoFacts BackendFacts
  History HistoryFacts AssertFacts Examples.
Import ListNotations.
Local Open Scope res_scope.
Local Open Scope list_scope.

Lemma skipn_add {A} n m (l : list A) : skipn (n + m) l = skipn n (skipn m l).
Proof.
  revert l; induction m as [|m IH]; intro l.
  - now rewrite Nat.add_0_r.
  - rewrite Nat.add_succ_r. destruct l as [|x t]; [now rewrite !skipn_nil|]. apply IH.
Qed.

Lemma lit_inj_fmt f g : lit (fmt_name f) = lit (fmt_name g) -> f = g.
Proof. destruct f, g; intro H; try reflexivity; discriminate. Qed.

Lemma registration_spec_checks W A att :
  RegistrationSpec W A att <->
  exists cdj aob adb ad,
    RegistrationChecks W A "none" [] cdj aob adb ad /\ att = att_obj_of ad F_NONE S_None.
Proof.
  unfold RegistrationSpec, RegistrationChecks. split.
  - intros (cdj & aob & adb & ad & H1 & H2 & H3 & H4 & H5 & H6). exists cdj, aob, adb, ad. auto 10.
  - intros (cdj & aob & adb & ad & (H1 & H2 & H3 & H4 & H5) & H6). exists cdj, aob, adb, ad. auto 10.
Qed.

Lemma att_obj_unique W aob f1 s1 b1 f2 s2 b2 :
  AttObjSpec W aob f1 s1 b1 -> AttObjSpec W aob f2 s2 b2 ->
  lit f1 = lit f2 /\ s1 = s2 /\ b1 = b2.
Proof.
  intros (d & r & C & M1 & M2 & M3) (d' & r' & C' & M1' & M2' & M3').
  rewrite C in C'. injection C' as <- <-. unfold member in *.
  rewrite M1 in M1'. rewrite M2 in M2'. rewrite M3 in M3'.
  injection M1' as ?. injection M2' as ?. injection M3' as ?. auto.
Qed.

Lemma attest_nothing {S} W (R : registrar S) s A :
  (forall att, ~ RegistrationSpec W A att) ->
  nothing s (run R s (handle_credential_attestation W A)).
Proof.
  intro HN. destruct (attest_run W R s A) as [e P|att s1 a G U].
  - split; [reflexivity|]. split; [reflexivity|]. cbn [out_result].
    destruct (wrap (Raise e)) eqn:EW; [|eauto]. rewrite wrap_ok in EW. discriminate.
  - exfalso. eapply HN; eauto.
Qed.

(** Computable forms of the specifications, for the examples. *)
Lemma ex_client_data tb e cdj ceremony os c :
  extract_allowed_origins ex_world e = Ok os -> parse_client_data ex_world cdj = Ok c ->
  cd_type c = lit ceremony -> check_challenge ex_challenge c = Ok tt ->
  check_origin ex_world os c = Ok tt -> check_token_binding tb c = Ok tt ->
  ClientDataSpec ex_world ceremony ex_challenge e tb cdj.
Proof. intros. apply client_data_spec_iff. eauto 10. Qed.

Lemma ex_checks fmt sd :
  AttObjSpec ex_world (ex_att_obj fmt sd (ex_reg_ad 0)) fmt sd (ex_reg_ad 0) ->
  RegistrationChecks ex_world (ex_reg fmt sd (ex_reg_ad 0)) fmt sd ex_reg_cdj
    (ex_att_obj fmt sd (ex_reg_ad 0)) (ex_reg_ad 0) ex_reg_parsed.
Proof.
  intro H. split; [reflexivity|]. split; [|split; [exact H|split]].
  - eapply ex_client_data; vm_compute; reflexivity.
  - apply auth_data_spec_iff. exists (blit "example.com").
    split; [vm_compute; reflexivity|]. split; vm_compute; reflexivity.
  - vm_compute. reflexivity.
Qed.

Lemma c18 {S} (W : World) (R : registrar S) (s : S) (A : attestation_args) :
  registration_succeeds W R s A ->
  exists cdj aob text d ch org o allowed fmt sd adb rpb,
    cr_response (ra_credential A) = AttestationResponse cdj aob /\
    utf8_decode cdj = Ok text /\ w_json_loads W text = WOk (VDict d) /\
    member "type" d (VStr (lit "webauthn.create")) /\
    member "challenge" d (VStr ch) /\ url_base64_decode ch = Ok (ra_challenge A) /\
    member "origin" d (VStr org) /\ parse_origin (w_url W) org = Ok o /\
    In allowed (allowed_strings (ra_origin A)) /\ parse_origin (w_url W) allowed = Ok o /\
    TokenBindingSpec (ra_token_binding A) d /\
    AttObjSpec W aob fmt sd adb /\
    utf8_encode (rp_id (ra_rp A)) = Ok rpb /\ firstn 32 adb = w_sha256 W rpb /\
    N.testbit (Byte.to_N (nth 32 adb x00)) 0 = true /\
    (ra_require_uv A = true -> N.testbit (Byte.to_N (nth 32 adb x00)) 2 = true) /\
    (forall l e, ra_extensions A = Some l -> In e l ->
       exists m v, ExtensionMap W adb m /\ member (ext_name e) m v /\ v <> VNone).
Proof.
  intro H. apply attestation_exact in H as (att & s1 & C & U).
  destruct C as (cdj & aob & adb & ad & E & HC & HO & HA & _).
  destruct HC as (text & d & ch & org & H1 & H2 & H3 & H4 & H5 & H6 & HOr & HT).
  destruct HOr as (_ & x & o & O1 & O2 & O3).
  destruct HA as (A1 & (rpb & A2 & A3) & A4 & A5 & HX).
  exists cdj, aob, text, d, ch, org, o, x, "none"%string, [], adb, rpb.
  repeat (split; [assumption|]).
  intros l e El He. destruct (HX l e El He) as (y & X1 & X2). eapply ext_present_member; eauto.
Qed.

Lemma c19 {S} (W : World) (R : registrar S) (s : S) (A : attestation_args) :
  registration_succeeds W R s A <->
  exists f sd st cdj aob adb ad acd ty path s1,
    RegistrationChecks W A (fmt_name f) sd cdj aob adb ad /\
    StmtMap sd f st /\
    ad_attested ad = Some acd /\
    attest W st (ArgKey (at_key acd)) adb (w_sha256 W cdj) = Ok (ty, path) /\
    r_attest R s (ra_credential A) (att_obj_of ad f st) ty (ra_user A) (ra_rp A) path
      = (s1, Ok None).
Proof.
  rewrite attestation_exact. split.
  - intros (att & s1 & C & U). apply registration_spec_checks in C as (cdj & aob & adb & ad & C & ->).
    assert (X : exists acd, ad_attested ad = Some acd).
    { destruct C as (_ & _ & _ & (HA & _) & HF). apply auth_reads_iff in HA.
      destruct (auth_fields _ _ _ HA) as (_ & _ & _ & _ & E & _). rewrite HF in E.
      destruct (ad_attested ad); [eauto|discriminate]. }
    destruct X as (acd & X).
    exists F_NONE, [], S_None, cdj, aob, adb, ad, acd, AT_NONE, None, s1.
    split; [exact C|]. split; [apply (statement_iff (W := W)); reflexivity|]. split; [assumption|].
    split; [reflexivity|exact U].
  - intros (f & sd & st & cdj & aob & adb & ad & acd & ty & path & s1 & C & HS & X & HA & U).
    apply attest_key_ok in HA as [-> HA]. injection HA as -> ->.
    apply (statement_iff (W := W)) in HS. assert (f = F_NONE) by (symmetry; now apply (stmt_fmt_ok W f sd S_None)).
    subst f. apply none_statement_ok in HS as [-> _].
    exists (att_obj_of ad F_NONE S_None), s1. split; [|exact U].
    apply registration_spec_checks. exists cdj, aob, adb, ad. split; [exact C|reflexivity].
Qed.

Lemma c19_none {S} (W : World) (R : registrar S) (s : S) (A : attestation_args) :
  registration_succeeds W R s A <->
  exists att s1,
    RegistrationSpec W A att /\
    r_attest R s (ra_credential A) att AT_NONE (ra_user A) (ra_rp A) None = (s1, Ok None).
Proof.
  apply attestation_exact.
Qed.

Lemma c20 {S} (W : World) (R : registrar S) (s : S) (A : attestation_args) :
  let o := run R s (handle_credential_attestation W A) in
  nothing s o \/
  exists f sd st cdj aob adb ad acd ty path,
    RegistrationChecks W A (fmt_name f) sd cdj aob adb ad /\
    StmtMap sd f st /\ ad_attested ad = Some acd /\
    attest W st (ArgKey (at_key acd)) adb (w_sha256 W cdj) = Ok (ty, path) /\
    out_trace o = [EvAttest (ra_credential A) (att_obj_of ad f st) ty (ra_user A) (ra_rp A) path] /\
    out_state o = fst (r_attest R s (ra_credential A) (att_obj_of ad f st) ty
                                (ra_user A) (ra_rp A) path).
Proof.
  cbv zeta. destruct (attest_run W R s A) as [e P|att s1 a C U].
  - left. split; [reflexivity|]. split; [reflexivity|]. cbn [out_result].
    destruct (wrap (Raise e)) eqn:EW; [|eauto]. rewrite wrap_ok in EW. discriminate.
  - right. apply registration_spec_checks in C as (cdj & aob & adb & ad & C & ->).
    assert (X : exists acd, ad_attested ad = Some acd).
    { destruct C as (_ & _ & _ & (HA & _) & HF). apply auth_reads_iff in HA.
      destruct (auth_fields _ _ _ HA) as (_ & _ & _ & _ & E & _). rewrite HF in E.
      destruct (ad_attested ad); [eauto|discriminate]. }
    destruct X as (acd & X).
    exists F_NONE, [], S_None, cdj, aob, adb, ad, acd, AT_NONE, None.
    split; [exact C|]. split; [apply (statement_iff (W := W)); reflexivity|]. split; [assumption|].
    split; [reflexivity|]. cbn [out_trace out_state]. rewrite U. split; reflexivity.
Qed.

Lemma c21_u2f :
  exists (W : World) (R : registrar mem_state) s A sd sig x5c cdj aob adb ad c,
    RegistrationChecks W A (fmt_name F_FIDO_U2F) sd cdj aob adb ad /\
    StmtMap sd F_FIDO_U2F (S_U2F sig x5c) /\
    U2FSpec W sig x5c (att_obj_of ad F_FIDO_U2F (S_U2F sig x5c)) (w_sha256 W cdj) c /\
    run R s (handle_credential_attestation W A) =
      {| out_state := s; out_trace := []; out_result := Raise (Lib InternalError) |}.
Proof.
  pose (x5c := [ex_cert []]). pose (sig := Some (toy_sign 77 ex_u2f_data)).
  assert (Q : exists c, attest ex_world (S_U2F sig x5c)
     (ArgObj (att_obj_of ex_reg_parsed F_FIDO_U2F (S_U2F sig x5c))) (ex_reg_ad 0)
     (w_sha256 ex_world ex_reg_cdj) = Ok (AT_BASIC, Some [c])).
  { eexists. vm_compute. reflexivity. }
  destruct Q as (c & Q). apply u2f_iff in Q as (c' & E & Q). injection E as <-.
  exists ex_world, mem_registrar, [], ex_reg_u2f, ex_u2f_stmt, sig, x5c, ex_reg_cdj,
    (ex_att_obj "fido-u2f" ex_u2f_stmt (ex_reg_ad 0)), (ex_reg_ad 0), ex_reg_parsed, c.
  split; [apply ex_checks|split; [|split; [exact Q|]]].
  - eexists _, []. split; [vm_compute; reflexivity|]. repeat split; vm_compute; reflexivity.
  - apply (statement_iff (W := ex_world)). vm_compute. reflexivity.
  - vm_compute. reflexivity.
Qed.

Lemma c21_android :
  exists (W : World) (R : registrar mem_state) s A sd a sig x5c cdj aob adb ad c,
    RegistrationChecks W A (fmt_name F_ANDROID_KEY) sd cdj aob adb ad /\
    StmtMap sd F_ANDROID_KEY (S_AndroidKey a sig x5c) /\
    AndroidSpec W a sig x5c (att_obj_of ad F_ANDROID_KEY (S_AndroidKey a sig x5c)) adb
                (w_sha256 W cdj) c /\
    run R s (handle_credential_attestation W A) =
      {| out_state := s; out_trace := []; out_result := Raise (Lib InternalError) |}.
Proof.
  pose (x5c := [ex_android_cert; blit "ca"]).
  pose (sig := Some (toy_sign 123456789 (ex_reg_ad 0 ++ toy_hash ex_reg_cdj))).
  pose (a := Some (FValue, ES256)).
  assert (Q : exists c, attest ex_world (S_AndroidKey a sig x5c)
     (ArgObj (att_obj_of ex_reg_parsed F_ANDROID_KEY (S_AndroidKey a sig x5c))) (ex_reg_ad 0)
     (w_sha256 ex_world ex_reg_cdj) = Ok (AT_BASIC, Some [c])).
  { eexists. vm_compute. reflexivity. }
  destruct Q as (c & Q). apply android_iff in Q as (c' & E & Q). injection E as <-.
  exists ex_world, mem_registrar, [], ex_reg_android, ex_android_stmt, a, sig, x5c, ex_reg_cdj,
    (ex_att_obj "android-key" ex_android_stmt (ex_reg_ad 0)), (ex_reg_ad 0), ex_reg_parsed, c.
  split; [apply ex_checks|split; [|split; [exact Q|]]].
  - eexists _, []. split; [vm_compute; reflexivity|]. repeat split; vm_compute; reflexivity.
  - apply (statement_iff (W := ex_world)). vm_compute. reflexivity.
  - vm_compute. reflexivity.
Qed.

Lemma c21_partial (W : World) (o : att_obj) (adb h : bytes) (c : cert) :
  (forall sig x5c, U2FSpec W sig x5c o h c ->
     attest W (S_U2F sig x5c) (ArgObj o) adb h = Ok (AT_BASIC, Some [c])) /\
  (forall a sig x5c, AndroidSpec W a sig x5c o adb h c ->
     attest W (S_AndroidKey a sig x5c) (ArgObj o) adb h = Ok (AT_BASIC, Some [c])).
Proof.
  split; intros; [apply u2f_iff|apply android_iff]; eauto.
Qed.

Lemma c21_only_none {S} (W : World) (R : registrar S) (s : S) (A : attestation_args) c att ty u rp path :
  In (EvAttest c att ty u rp path) (out_trace (run R s (handle_credential_attestation W A))) ->
  ao_fmt att = F_NONE /\ ao_stmt att = S_None /\ ty = AT_NONE /\ path = None.
Proof.
  destruct (attest_run W R s A) as [e P|att' s1 a C U]; cbn [out_trace]; [intros []|].
  intros [H|[]]. injection H as <- <- <- <- <- <-.
  apply registration_spec_checks in C as (? & ? & ? & ? & _ & ->). auto.
Qed.

Lemma c22 {S} (W : World) (R : registrar S) (s : S) (A : attestation_args) cdj aob d rest fmt :
  cr_response (ra_credential A) = AttestationResponse cdj aob ->
  w_cbor_load W aob = WOk (VDict d, rest) ->
  member "fmt" d (VStr (lit fmt)) ->
  In fmt ["packed"; "tpm"; "android-safetynet"]%string ->
  nothing s (run R s (handle_credential_attestation W A)).
Proof.
  intros ER HC HM HI. apply attest_nothing. intros att (cdj' & aob' & adb & ad & E & _ & HO & _).
  rewrite ER in E. injection E as <- <-. destruct HO as (d' & r' & C & M & _).
  rewrite HC in C. injection C as <- <-. unfold member in *. rewrite HM in M. injection M as M.
  destruct HI as [<-|[<-|[<-|[]]]]; discriminate.
Qed.

Lemma c23_refuted :
  exists (W : World) (R : registrar mem_state) s A att ad acd,
    registration_succeeds W R s A /\
    RegistrationSpec W A att /\ ao_auth_data att = Some ad /\ ad_attested ad = Some acd /\
    cr_raw_id (ra_credential A) <> at_id acd /\
    mem_find (cr_raw_id (ra_credential A))
      (out_state (run R s (handle_credential_attestation W A))) <> None.
Proof.
  exists ex_world, mem_registrar, [], (with_raw_id ex_reg_none (blit "victim")).
  assert (H : registration_succeeds ex_world mem_registrar [] (with_raw_id ex_reg_none (blit "victim")))
    by (vm_compute; reflexivity).
  exists (att_obj_of ex_reg_parsed F_NONE S_None), ex_reg_parsed,
    {| at_aaguid := ex_aaguid; at_id_length := 6; at_id := ex_raw_id; at_key := Some ex_key |}.
  split; [exact H|]. split; [|split; [reflexivity|split; [reflexivity|split; [discriminate|]]]].
  - apply registration_spec_checks.
    exists ex_reg_cdj, (ex_att_obj "none" [] (ex_reg_ad 0)), (ex_reg_ad 0), ex_reg_parsed.
    split; [|reflexivity]. apply (ex_checks "none" []).
    eexists _, []. split; [vm_compute; reflexivity|]. repeat split; vm_compute; reflexivity.
  - vm_compute. discriminate.
Qed.

Lemma c23_ignored (W : World) (A : attestation_args) (id : bytes) (att : att_obj) :
  RegistrationSpec W A att <-> RegistrationSpec W (with_raw_id A id) att.
Proof.
  reflexivity.
Qed.

Lemma c23_partial {S} (W : World) (R : registrar S) (s : S) (A : attestation_args) c att ty u rp path :
  In (EvAttest c att ty u rp path) (out_trace (run R s (handle_credential_attestation W A))) ->
  exists cdj aob fmt sd adb ad acd,
    cr_response (ra_credential A) = AttestationResponse cdj aob /\
    AttObjSpec W aob fmt sd adb /\
    ao_auth_data att = Some ad /\ ad_attested ad = Some acd /\
    firstn 2 (skipn 53 adb) = N_to_be 2 (N.of_nat (List.length (at_id acd))) /\
    firstn (List.length (at_id acd)) (skipn 55 adb) = at_id acd.
Proof.
  destruct (attest_run W R s A) as [e P|att' s1 a C U]; cbn [out_trace]; [intros []|].
  intros [H|[]]. injection H as <- <- <- <- <- <-.
  apply registration_spec_checks in C as (cdj & aob & adb & ad & (C1 & _ & C3 & (HA & _) & HF) & ->).
  assert (HA' := HA). destruct HA' as [hash flags ctr tl extb att0 ext L1 L2 HAt HE].
  assert (FB : N.testbit (Byte.to_N flags) 6 = true).
  { unfold flag_bit in HF. rewrite app_nth2 in HF by lia. rewrite L1 in HF. exact HF. }
  rewrite FB in HAt. inversion HAt as [|aaguid cid tl' follow d k LA LC HL HK HU]; subst.
  exists cdj, aob, "none"%string, [], (hash ++ [flags] ++ ctr ++ aaguid ++ N_to_be 2 (N.of_nat (List.length cid)) ++ cid ++ tl').
  eexists _, _. split; [exact C1|]. split; [exact C3|]. split; [reflexivity|]. split; [reflexivity|].
  cbn [at_id].
  assert (S53 : skipn 53 (hash ++ [flags] ++ ctr ++ aaguid ++ N_to_be 2 (N.of_nat (List.length cid)) ++ cid ++ tl')
    = N_to_be 2 (N.of_nat (List.length cid)) ++ cid ++ tl').
  { replace 53 with (List.length (hash ++ [flags] ++ ctr ++ aaguid)) by (rewrite !app_length; cbn; lia).
    rewrite !app_assoc. rewrite <- !(app_assoc _ (N_to_be 2 _)), <- !app_assoc.
    replace (hash ++ [flags] ++ ctr ++ aaguid ++ N_to_be 2 (N.of_nat (List.length cid)) ++ cid ++ tl')
      with ((hash ++ [flags] ++ ctr ++ aaguid) ++ N_to_be 2 (N.of_nat (List.length cid)) ++ cid ++ tl')
      by (rewrite <- !app_assoc; reflexivity).
    rewrite skipn_app, skipn_all, Nat.sub_diag. reflexivity. }
  split.
  - rewrite S53. reflexivity.
  - replace 55 with (2 + 53) by reflexivity. rewrite skipn_add, S53.
    cbn [N_to_be]. cbn [skipn app]. rewrite firstn_app, Nat.sub_diag, firstn_all.
    cbn. apply app_nil_r.
Qed.

Lemma c24 {S} (W : World) (R : registrar S) (s : S) (A : attestation_args) cdj aob fmt sd adb :
  cr_response (ra_credential A) = AttestationResponse cdj aob ->
  AttObjSpec W aob fmt sd adb ->
  N.testbit (Byte.to_N (nth 32 adb x00)) 6 = false ->
  nothing s (run R s (handle_credential_attestation W A)).
Proof.
  intros ER HO HF. apply attest_nothing. intros att (cdj' & aob' & adb' & ad & E & _ & HO' & _ & HF' & _).
  rewrite ER in E. injection E as <- <-.
  destruct (att_obj_unique _ _ _ _ _ _ _ _ HO HO') as (_ & _ & <-).
  unfold flag_bit in HF'. congruence.
Qed.

Lemma c25 {S T} (W : World) (R : registrar S) (R' : registrar T) (s : S) (t : T)
  (A : assertion_args) (B : attestation_args) :
  login_succeeds W R s A -> registration_succeeds W R' t B ->
  resp_client_data_JSON (cr_response (aa_credential A)) <>
  resp_client_data_JSON (cr_response (ra_credential B)).
Proof.
  intros HA HB E.
  apply assertion_exact in HA as (s1 & cdt & ad & u & rp & s2 & _ & C & _).
  destruct C as (cdj & adb & sig & h & E1 & _ & _ & _ & HC & _).
  apply attestation_exact in HB as (att & t1 & C & _).
  destruct C as (cdj' & aob & adb' & ad' & E2 & HC' & _).
  rewrite E1, E2 in E. cbn [resp_client_data_JSON] in E. subst cdj'.
  destruct HC as (text & d & _ & _ & H1 & H2 & H3 & _).
  destruct HC' as (text' & d' & _ & _ & H1' & H2' & H3' & _).
  rewrite H1 in H1'. injection H1' as <-. rewrite H2 in H2'. injection H2' as <-.
  unfold member in *. rewrite H3 in H3'. discriminate.
Qed.

Lemma c25_class {S} (W : World) (R : registrar S) (s : S) :
  (forall A, login_succeeds W R s A ->
     exists cdj adb sig h, cr_response (aa_credential A) = AssertionResponse cdj adb sig h) /\
  (forall A, registration_succeeds W R s A ->
     exists cdj aob, cr_response (ra_credential A) = AttestationResponse cdj aob).
Proof.
  split; intros A H.
  - apply assertion_exact in H as (s1 & cdt & ad & u & rp & s2 & _ & C & _).
    destruct C as (cdj & adb & sig & h & E1 & _). eauto.
  - apply attestation_exact in H as (att & t1 & C & _).
    destruct C as (cdj' & aob & adb' & ad' & E2 & _). eauto.
Qed.

Lemma c26 (W : World) (sig : option bytes) (x5c : list bytes) (o : att_obj) (adb h : bytes) r :
  attest W (S_U2F sig x5c) (ArgObj o) adb h = Ok r <->
  exists c, r = (AT_BASIC, Some [c]) /\ U2FSpec W sig x5c o h c.
Proof.
  apply u2f_iff.
Qed.

Lemma c27 (W : World) a (sig : option bytes) (x5c : list bytes) (o : att_obj) (adb h : bytes) r :
  attest W (S_AndroidKey a sig x5c) (ArgObj o) adb h = Ok r <->
  exists c, r = (AT_BASIC, Some [c]) /\ AndroidSpec W a sig x5c o adb h c.
Proof.
  apply android_iff.
Qed.

Lemma c28 (W : World) (st : att_stmt) (arg : attest_arg) (adb h : bytes) :
  (stmt_fmt st = F_NONE -> attest W st arg adb h = Ok (AT_NONE, None)) /\
  (In (stmt_fmt st) [F_PACKED; F_TPM; F_ANDROID_SAFETYNET] ->
     attest W st arg adb h = Raise (Lib UnimplementedError)).
Proof.
  split; destruct st; cbn [stmt_fmt attest]; intro H; try discriminate; try reflexivity;
    cbn in H; intuition discriminate.
Qed.
