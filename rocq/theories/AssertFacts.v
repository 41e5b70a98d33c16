(** * AssertFacts: consequences of the exact characterisation of authentication. *)
From Coq Require Import List NArith ZArith Bool Lia String.
From Coq Require Import Strings.Byte.
From Verif Require Import Base PyVal BaseFacts B64 Utf8 Url Types World Parsers Crypto
  Backends Spec FormatFacts ClientFacts AuthFacts RaiseFacts CryptoFacts BackendFacts ErrorFacts.
Import ListNotations.
Local Open Scope res_scope.
Local Open Scope list_scope.

Lemma usable_origins_extract W e :
  UsableOrigins W e -> exists os, extract_allowed_origins W e = Ok os.
Proof.
  intros [NE Hall].
  assert (F : exists os, Forall2 (fun s o => parse_origin (w_url W) s = Ok o)
                           (allowed_strings e) os).
  { clear NE. induction (allowed_strings e) as [|x t IH].
    - exists []. constructor.
    - destruct (Hall x (or_introl eq_refl)) as (o & Ho).
      destruct IH as (os & Hos). { intros; apply Hall; cbn; auto. }
      exists (o :: os). now constructor. }
  destruct F as (os & F). exists os. now apply extract_allowed_ok.
Qed.

Lemma shape_bool a : ~ is_bool a VNone. Proof. discriminate. Qed.
Lemma shape_str a : ~ is_str a VNone. Proof. discriminate. Qed.
Lemma shape_bytes a : ~ is_bytes a VNone. Proof. discriminate. Qed.
Lemma shape_seq {A} (f : A -> pyval) a : ~ seq_of f a VNone.
Proof. intros [?|?]; discriminate. Qed.
Lemma shape_loc a : ~ loc_shape a VNone. Proof. intros (m & ? & _). discriminate. Qed.
Lemma shape_uvm a : ~ uvm_shape a VNone. Proof. discriminate. Qed.

Lemma ext_present_member W adb ad e x :
  AuthReads W adb ad -> ad_extensions ad = Some x -> ExtPresent e x ->
  exists d v, ExtensionMap W adb d /\ member (ext_name e) d v /\ v <> VNone.
Proof.
  intros HR HX HP. destruct HR as [hash flags ctr tl extb att ext H1 H2 HA HE].
  cbn [ad_extensions] in HX. subst ext.
  inversion HE as [E1 E2|b d x' HL HM E1 E2 E3]; subst; try discriminate.
  exists d.
  assert (Q : exists v, member (ext_name e) d v /\ v <> VNone).
  { destruct HM as (_ & M1 & M2 & M3 & M4 & M5 & M6 & M7 & M8 & M9).
    destruct e; cbn [ExtPresent] in HP; cbn [ext_name];
      [ apply (opt_member_present _ _ _ _ shape_bool M1)
      | apply (opt_member_present _ _ _ _ shape_str M2)
      | apply (opt_member_present _ _ _ _ shape_bytes M3)
      | apply (opt_member_present _ _ _ _ shape_bool M4)
      | apply (opt_member_present _ _ _ _ (shape_seq VStr) M5)
      | apply (opt_member_present _ _ _ _ shape_bytes M6)
      | apply (opt_member_present _ _ _ _ shape_loc M7)
      | apply (opt_member_present _ _ _ _ shape_uvm M8)
      | apply (opt_member_present _ _ _ _ shape_bool M9) ]; exact HP. }
  destruct Q as (v & Q1 & Q2). exists v. repeat split; try assumption.
  exists hash, flags, ctr, tl, extb, att. repeat split; auto.
Qed.

Lemma c01 {S} (W : World) (R : registrar S) (s : S) (A : assertion_args) :
  login_succeeds W R s A ->
  exists s1 cdt cdj adb sig handle,
    r_get R s (cr_raw_id (aa_credential A)) = (s1, Ok (Some cdt)) /\
    cr_response (aa_credential A) = AssertionResponse cdj adb sig handle /\
    SignatureSpec W (cdt_key cdt) sig (adb ++ w_sha256 W cdj).
Proof.
  intro H. apply assertion_exact in H as (s1 & cdt & ad & u & rp & s2 & G & C & U).
  destruct C as (cdj & adb & sig & h & E & _ & _ & _ & _ & _ & HS & _). eauto 10.
Qed.

Lemma c02 {S} (W : World) (R : registrar S) (s : S) (A : assertion_args) :
  login_succeeds W R s A ->
  exists cdj adb sig handle text d ch org o allowed,
    cr_response (aa_credential A) = AssertionResponse cdj adb sig handle /\
    utf8_decode cdj = Ok text /\ w_json_loads W text = WOk (VDict d) /\
    member "type" d (VStr (lit "webauthn.get")) /\
    member "challenge" d (VStr ch) /\ url_base64_decode ch = Ok (aa_challenge A) /\
    member "origin" d (VStr org) /\ parse_origin (w_url W) org = Ok o /\
    In allowed (allowed_strings (aa_origin A)) /\ parse_origin (w_url W) allowed = Ok o.
Proof.
  intro H. apply assertion_exact in H as (s1 & cdt & ad & u & rp & s2 & G & C & U).
  destruct C as (cdj & adb & sig & h & E & _ & _ & _ & HC & _).
  destruct HC as (text & d & ch & org & H1 & H2 & H3 & H4 & H5 & H6 & HO & _).
  destruct HO as (_ & x & o & O1 & O2 & O3).
  exists cdj, adb, sig, h, text, d, ch, org, o, x. auto 15.
Qed.

Lemma c03_login {S} (W : World) (R : registrar S) (s : S) (A : assertion_args) :
  login_succeeds W R s A ->
  exists cdj adb sig handle text d,
    cr_response (aa_credential A) = AssertionResponse cdj adb sig handle /\
    utf8_decode cdj = Ok text /\ w_json_loads W text = WOk (VDict d) /\
    TokenBindingSpec (aa_token_binding A) d.
Proof.
  intro H. apply assertion_exact in H as (s1 & cdt & ad & u & rp & s2 & G & C & U).
  destruct C as (cdj & adb & sig & h & E & _ & _ & _ & HC & _).
  destruct HC as (text & d & ch & org & H1 & H2 & _ & _ & _ & _ & _ & HT).
  exists cdj, adb, sig, h, text, d. auto.
Qed.

Lemma c03_registration {S} (W : World) (R : registrar S) (s : S) (A : attestation_args) :
  registration_succeeds W R s A ->
  exists cdj aob text d,
    cr_response (ra_credential A) = AttestationResponse cdj aob /\
    utf8_decode cdj = Ok text /\ w_json_loads W text = WOk (VDict d) /\
    TokenBindingSpec (ra_token_binding A) d.
Proof.
  intro H. apply attestation_exact in H as (att & s1 & C & U).
  destruct C as (cdj & aob & adb & ad & E & HC & _).
  destruct HC as (text & d & ch & org & H1 & H2 & _ & _ & _ & _ & _ & HT).
  exists cdj, aob, text, d. auto.
Qed.

Lemma c04 {S} (W : World) (R : registrar S) (s : S) (A : assertion_args) :
  login_succeeds W R s A ->
  exists s1 cdt cdj adb sig handle ad u rp rpb,
    r_get R s (cr_raw_id (aa_credential A)) = (s1, Ok (Some cdt)) /\
    cr_response (aa_credential A) = AssertionResponse cdj adb sig handle /\
    out_trace (run R s (handle_credential_assertion W A)) =
      [EvGet (cr_raw_id (aa_credential A)); EvAssert (aa_credential A) ad u rp] /\
    RpSpec (aa_rp A) (cdt_rp cdt) rp /\
    utf8_encode (rp_id rp) = Ok rpb /\ firstn 32 adb = w_sha256 W rpb /\
    N.testbit (Byte.to_N (nth 32 adb x00)) 0 = true /\
    (aa_require_uv A = true -> N.testbit (Byte.to_N (nth 32 adb x00)) 2 = true).
Proof.
  destruct (assert_run W R s A) as [e P|os s1 e P G|os s1 P G|os s1 cdt e P G C|s1 cdt ad u rp s2 a G C U];
    cbn [out_result out_trace]; intro H; try discriminate;
    try (rewrite wrap_ok in H; discriminate).
  destruct C as (cdj & adb & sig & h & E & _ & _ & HR & _ & HA & _).
  destruct HA as (_ & (rpb & A1 & A2) & A3 & A4 & _).
  exists s1, cdt, cdj, adb, sig, h, ad, u, rp, rpb. auto 15.
Qed.

Lemma c05_login {S} (W : World) (R : registrar S) (s : S) (A : assertion_args) (l : list ext_id) :
  login_succeeds W R s A -> aa_extensions A = Some l ->
  exists cdj adb sig handle,
    cr_response (aa_credential A) = AssertionResponse cdj adb sig handle /\
    forall e, In e l ->
      exists d v, ExtensionMap W adb d /\ member (ext_name e) d v /\ v <> VNone.
Proof.
  intros H EL. apply assertion_exact in H as (s1 & cdt & ad & u & rp & s2 & G & C & U).
  destruct C as (cdj & adb & sig & h & E & _ & _ & _ & _ & HA & _).
  destruct HA as (A1 & _ & _ & _ & HX). exists cdj, adb, sig, h. split; [assumption|].
  intros e He. destruct (HX l e EL He) as (x & X1 & X2). eapply ext_present_member; eauto.
Qed.

Lemma c05_registration {S} (W : World) (R : registrar S) (s : S) (A : attestation_args) (l : list ext_id) :
  registration_succeeds W R s A -> ra_extensions A = Some l ->
  exists cdj aob fmt stmt adb,
    cr_response (ra_credential A) = AttestationResponse cdj aob /\
    AttObjSpec W aob fmt stmt adb /\
    forall e, In e l ->
      exists d v, ExtensionMap W adb d /\ member (ext_name e) d v /\ v <> VNone.
Proof.
  intros H EL. apply attestation_exact in H as (att & s1 & C & U).
  destruct C as (cdj & aob & adb & ad & E & _ & HO & HA & _).
  destruct HA as (A1 & _ & _ & _ & HX). exists cdj, aob, "none"%string, [], adb.
  split; [assumption|]. split; [assumption|].
  intros e He. destruct (HX l e EL He) as (x & X1 & X2). eapply ext_present_member; eauto.
Qed.

Lemma c06_refused {S} (W : World) (R : registrar S) (s : S) (A : assertion_args) (l : list descriptor) :
  aa_allow A = Some l ->
  (forall d, In d l -> de_id d <> cr_raw_id (aa_credential A)) ->
  let o := run R s (handle_credential_assertion W A) in
  out_trace o = [] /\ out_state o = s /\ (exists e, out_result o = Raise e) /\
  (UsableOrigins W (aa_origin A) ->
   out_result o = Raise (Lib CredentialNotAllowedError)).
Proof.
  intros EL HN. cbv zeta. unfold handle_credential_assertion.
  destruct (assertion_pre W A) as [os|e] eqn:HP.
  { apply assertion_pre_ok in HP as [_ HA]. destruct (HA l EL) as (d & H1 & H2).
    exfalso. eapply HN; eauto. }
  cbn [run out_trace out_state out_result]. repeat split.
  - destruct (wrap (Raise e)) eqn:EW; [|eauto].
    rewrite wrap_ok in EW. discriminate.
  - intro HU. destruct (usable_origins_extract _ _ HU) as (os & HO).
    unfold assertion_pre in HP. rewrite HO in HP. cbn [bind] in HP.
    rewrite EL in HP. apply bind_raise in HP as [HP|(? & _ & HP)]; [|discriminate].
    apply check_raise in HP as [_ ->]. reflexivity.
Qed.

Lemma c06_allowed {S} (W : World) (R : registrar S) (s : S) (A : assertion_args) (l : list descriptor) :
  login_succeeds W R s A -> aa_allow A = Some l ->
  exists d, In d l /\ de_id d = cr_raw_id (aa_credential A).
Proof.
  intros H EL. apply assertion_exact in H as (s1 & cdt & ad & u & rp & s2 & G & C & U).
  destruct C as (cdj & adb & sig & h & E & HA & _). exact (HA l EL).
Qed.

Lemma c07 {S} (W : World) (R : registrar S) (s : S) (A : assertion_args) :
  login_succeeds W R s A ->
  exists s1 cdt cdj adb sig handle ad u rp,
    r_get R s (cr_raw_id (aa_credential A)) = (s1, Ok (Some cdt)) /\
    cr_response (aa_credential A) = AssertionResponse cdj adb sig handle /\
    out_trace (run R s (handle_credential_assertion W A)) =
      [EvGet (cr_raw_id (aa_credential A)); EvAssert (aa_credential A) ad u rp] /\
    us_id u = us_id (cdt_user cdt) /\
    u = match aa_user A with Some v => v | None => cdt_user cdt end /\
    (forall v, aa_user A = Some v -> us_id v = us_id (cdt_user cdt)) /\
    (forall h, handle = Some h -> h = us_id (cdt_user cdt)) /\
    (aa_user A = None -> exists h, handle = Some h).
Proof.
  destruct (assert_run W R s A) as [e P|os s1 e P G|os s1 P G|os s1 cdt e P G C|s1 cdt ad u rp s2 a G C U];
    cbn [out_result out_trace]; intro H; try discriminate;
    try (rewrite wrap_ok in H; discriminate).
  destruct C as (cdj & adb & sig & h & E & _ & (U1 & U2 & U3 & U4) & _).
  exists s1, cdt, cdj, adb, sig, h, ad, u, rp.
  split; [assumption|]. split; [assumption|]. split; [reflexivity|]. split; [assumption|].
  split; [assumption|]. split; [|split; [assumption|]].
  - intros v EV. rewrite EV in U1. congruence.
  - intro EN. destruct h; [eauto|]. exfalso. now apply U4.
Qed.

Lemma c08 {S} (W : World) (R : registrar S) (s : S) (A : assertion_args) :
  login_succeeds W R s A ->
  exists s1 cdt cdj adb sig handle ad u rp rpb,
    r_get R s (cr_raw_id (aa_credential A)) = (s1, Ok (Some cdt)) /\
    cr_response (aa_credential A) = AssertionResponse cdj adb sig handle /\
    out_trace (run R s (handle_credential_assertion W A)) =
      [EvGet (cr_raw_id (aa_credential A)); EvAssert (aa_credential A) ad u rp] /\
    utf8_encode (rp_id rp) = Ok rpb /\ firstn 32 adb = w_sha256 W rpb /\
    (forall r, aa_rp A = Some r -> rp = r) /\
    (aa_rp A = None -> cdt_rp cdt = Some rp) /\
    (forall r r', aa_rp A = Some r -> cdt_rp cdt = Some r' -> rp_id r = rp_id r').
Proof.
  destruct (assert_run W R s A) as [e P|os s1 e P G|os s1 P G|os s1 cdt e P G C|s1 cdt ad u rp s2 a G C U];
    cbn [out_result out_trace]; intro H; try discriminate;
    try (rewrite wrap_ok in H; discriminate).
  destruct C as (cdj & adb & sig & h & E & _ & _ & HR & _ & HA & _).
  destruct HA as (_ & (rpb & A1 & A2) & _).
  exists s1, cdt, cdj, adb, sig, h, ad, u, rp, rpb.
  split; [assumption|]. split; [assumption|]. split; [reflexivity|].
  split; [assumption|]. split; [assumption|]. unfold RpSpec in HR.
  destruct (aa_rp A) as [r|].
  - destruct HR as [-> HR]. split; [congruence|]. split; [discriminate|].
    intros r1 r2 E1 E2. injection E1 as <-. symmetry. now apply HR.
  - split; [discriminate|]. split; [auto|discriminate].
Qed.

Lemma c08_missing {S} (W : World) (R : registrar S) (s s1 : S) (A : assertion_args) (cdt : cred_data) :
  r_get R s (cr_raw_id (aa_credential A)) = (s1, Ok (Some cdt)) ->
  aa_rp A = None -> cdt_rp cdt = None ->
  let o := run R s (handle_credential_assertion W A) in
  (exists e, out_result o = Raise e) /\
  (forall c ad u rp, ~ In (EvAssert c ad u rp) (out_trace o)) /\
  (forall cdj adb sig handle u,
     UsableOrigins W (aa_origin A) ->
     AllowSpec (aa_allow A) (cr_raw_id (aa_credential A)) ->
     cr_response (aa_credential A) = AssertionResponse cdj adb sig handle ->
     UserSpec (aa_user A) (cdt_user cdt) handle u ->
     o = {| out_state := s1; out_trace := [EvGet (cr_raw_id (aa_credential A))];
            out_result := Raise (Lib RPNotFoundError) |}).
Proof.
  intros HG EA EC. cbv zeta. unfold handle_credential_assertion.
  assert (RR : resolve_rp A cdt = raise RPNotFoundError) by (unfold resolve_rp; now rewrite EC, EA).
  assert (NC : forall os x, assertion_checks W A os cdt <> Ok x).
  { intros os x H. unfold assertion_checks in H. apply bind_ok in H as (u & _ & H).
    rewrite RR in H. discriminate. }
  assert (WR : forall e, exists e', wrap (Raise e) = Raise e').
  { intro e. destruct (wrap (Raise e)) eqn:EW; [|eauto]. rewrite wrap_ok in EW. discriminate. }
  destruct (assertion_pre W A) as [os|e] eqn:HP.
  - cbn [run]. rewrite HG.
    destruct (assertion_checks W A os cdt) as [x|e] eqn:HC; [now apply NC in HC|].
    cbn [run out_result out_trace out_state]. split; [apply WR|]. split.
    + intros c ad u rp [H|[]]. discriminate.
    + intros cdj adb sig h u HU HA ER HUs. unfold assertion_checks in HC.
      rewrite (proj2 (resolve_user_ok A cdt u)) in HC by eauto 8. cbn [bind] in HC.
      rewrite RR in HC. injection HC as <-. reflexivity.
  - cbn [run out_result out_trace out_state]. split; [apply WR|]. split; [easy|].
    intros cdj adb sig h u HU HA ER HUs. destruct (usable_origins_extract _ _ HU) as (os & HO).
    rewrite (proj2 (assertion_pre_ok W A os)) in HP by auto. discriminate.
Qed.

Lemma c09 {S} (W : World) (R : registrar S) (s : S) (A : assertion_args) :
  login_succeeds W R s A -> aa_ignore_clone A = false ->
  exists s1 cdt cdj adb sig handle,
    r_get R s (cr_raw_id (aa_credential A)) = (s1, Ok (Some cdt)) /\
    cr_response (aa_credential A) = AssertionResponse cdj adb sig handle /\
    (cdt_sign_count cdt = None \/
     exists n, cdt_sign_count cdt = Some n /\ (n < Z.of_N (counter_of adb))%Z).
Proof.
  intros H EI. apply assertion_exact in H as (s1 & cdt & ad & u & rp & s2 & G & C & U).
  destruct C as (cdj & adb & sig & h & E & _ & _ & _ & _ & _ & _ & HC).
  exists s1, cdt, cdj, adb, sig, h. split; [assumption|]. split; [assumption|].
  destruct HC as [HC|HC]; [congruence|exact HC].
Qed.

Lemma c09_clone {S} (W : World) (R : registrar S) (s s1 : S) (A : assertion_args) cdt ad u rp
    cdj adb sig handle n :
  r_get R s (cr_raw_id (aa_credential A)) = (s1, Ok (Some cdt)) ->
  AssertionSpec W (ignoring A) cdt ad u rp ->
  aa_ignore_clone A = false ->
  cr_response (aa_credential A) = AssertionResponse cdj adb sig handle ->
  cdt_sign_count cdt = Some n -> (Z.of_N (counter_of adb) <= n)%Z ->
  run R s (handle_credential_assertion W A) =
  {| out_state := s1; out_trace := [EvGet (cr_raw_id (aa_credential A))];
     out_result := Raise (Lib SignatureCountError) |}.
Proof.
  intros HG HS EI ER EN HL. apply assertion_iff in HS as (os & HP & HC).
  unfold handle_credential_assertion.
  assert (HP' : assertion_pre W A = Ok os) by exact HP. rewrite HP'. cbn [run]. rewrite HG.
  assert (E : assertion_checks W A os cdt = raise SignatureCountError).
  { unfold assertion_checks in HC |- *.
    change (resolve_user (ignoring A) cdt) with (resolve_user A cdt) in HC.
    change (resolve_rp (ignoring A) cdt) with (resolve_rp A cdt) in HC.
    cbn [ignoring aa_credential aa_challenge aa_token_binding aa_require_uv aa_extensions] in HC.
    apply bind_ok in HC as (u' & E & HC); rewrite E; cbn [bind].
    apply bind_ok in HC as (rp' & E1 & HC); rewrite E1; cbn [bind].
    apply bind_ok in HC as (cd & E2 & HC); rewrite E2; cbn [bind].
    apply bind_ok in HC as (? & E3 & HC); rewrite E3; cbn [bind].
    apply bind_ok in HC as (? & E4 & HC); rewrite E4; cbn [bind].
    apply bind_ok in HC as (? & E5 & HC); rewrite E5; cbn [bind].
    apply bind_ok in HC as (? & E6 & HC); rewrite E6; cbn [bind].
    apply bind_ok in HC as (? & E7 & HC); rewrite E7; cbn [bind].
    apply bind_ok in HC as (? & E8 & HC); rewrite E8; cbn [bind].
    apply bind_ok in HC as (ad' & E9 & HC); rewrite E9; cbn [bind].
    apply bind_ok in HC as (? & E10 & HC); rewrite E10; cbn [bind].
    apply bind_ok in HC as (? & E11 & HC); rewrite E11; cbn [bind].
    apply bind_ok in HC as (? & E12 & HC); rewrite E12; cbn [bind].
    rewrite ER in E8. injection E8 as <-.
    destruct (auth_fields _ _ _ E9) as (_ & _ & _ & EC & _).
    unfold check_sign_count. rewrite EN, EC, EI. rewrite (proj2 (Z.leb_le _ _) HL).
    reflexivity. }
  rewrite E. reflexivity.
Qed.

Lemma c10 {S} (W : World) (R : registrar S) (s : S) (A : assertion_args) :
  login_succeeds W R s A <->
  exists s1 cdt ad u rp s2,
    r_get R s (cr_raw_id (aa_credential A)) = (s1, Ok (Some cdt)) /\
    AssertionSpec W A cdt ad u rp /\
    r_assert R s1 (aa_credential A) ad u rp = (s2, Ok None).
Proof.
  apply assertion_exact.
Qed.

Lemma c11 {S} (W : World) (R : registrar S) (s : S) (A : assertion_args) :
  let o := run R s (handle_credential_assertion W A) in
  let get := EvGet (cr_raw_id (aa_credential A)) in
  (out_trace o = [] /\ out_state o = s /\ out_result o <> Ok tt) \/
  (out_trace o = [get] /\ out_state o = fst (r_get R s (cr_raw_id (aa_credential A))) /\
   out_result o <> Ok tt) \/
  (exists s1 cdt ad u rp,
     r_get R s (cr_raw_id (aa_credential A)) = (s1, Ok (Some cdt)) /\
     AssertionSpec W A cdt ad u rp /\
     out_trace o = [get; EvAssert (aa_credential A) ad u rp] /\
     out_state o = fst (r_assert R s1 (aa_credential A) ad u rp)).
Proof.
  cbv zeta.
  destruct (assert_run W R s A) as [e P|os s1 e P G|os s1 P G|os s1 cdt e P G C|s1 cdt ad u rp s2 a G C U];
    cbn [out_result out_trace out_state].
  - left. repeat split. intro H. rewrite wrap_ok in H. discriminate.
  - right; left. rewrite G. repeat split. intro H. rewrite wrap_ok in H. discriminate.
  - right; left. rewrite G. repeat split. discriminate.
  - right; left. rewrite G. repeat split. intro H. rewrite wrap_ok in H. discriminate.
  - right; right. exists s1, cdt, ad, u, rp. rewrite U. auto.
Qed.

Lemma c11_failed {S} (W : World) (R : registrar S) (s : S) (A : assertion_args) :
  (forall s1 cdt ad u rp, r_get R s (cr_raw_id (aa_credential A)) = (s1, Ok (Some cdt)) ->
     ~ AssertionSpec W A cdt ad u rp) ->
  let o := run R s (handle_credential_assertion W A) in
  (forall c ad u rp, ~ In (EvAssert c ad u rp) (out_trace o)) /\
  (out_state o = s \/ out_state o = fst (r_get R s (cr_raw_id (aa_credential A)))).
Proof.
  intro HN. cbv zeta.
  destruct (c11 W R s A) as [(E1 & E2 & _)|[(E1 & E2 & _)|(s1 & cdt & ad & u & rp & G & C & _)]].
  - rewrite E1, E2. split; [easy|auto].
  - rewrite E1, E2. split; [|auto]. intros c ad u rp [H|[]]. discriminate.
  - exfalso. eapply HN; eauto.
Qed.

Lemma c12_login {S} (W : World) (R : registrar S) (s : S) (A : assertion_args) :
  let o := run R s (handle_credential_assertion W A) in
  let id := cr_raw_id (aa_credential A) in
  out_result o = Ok tt \/
  (exists l, out_result o = Raise (Lib l) /\ lib_isa l WebAuthnRPError = true) \/
  exists n, out_result o = Raise (Abort n) /\
    ((out_trace o = [EvGet id] /\ snd (r_get R s id) = Raise (Abort n)) \/
     (exists s1 cdt ad u rp, out_trace o = [EvGet id; EvAssert (aa_credential A) ad u rp] /\
        r_get R s id = (s1, Ok (Some cdt)) /\
        snd (r_assert R s1 (aa_credential A) ad u rp) = Raise (Abort n))).
Proof.
  cbv zeta.
  destruct (assert_run W R s A) as [e P|os s1 e P G|os s1 P G|os s1 cdt e P G C|s1 cdt ad u rp s2 a G C U];
    cbn [out_result out_trace].
  - right; left. apply assertion_pre_civil in P. destruct e as [l|p|n]; [| |discriminate]; [exists l|exists InternalError].
    + cbn [wrap]. rewrite is_lib_root. split; [reflexivity|now destruct l].
    + split; reflexivity.
  - rewrite G. right. destruct (refusal_cases W e) as [[->| ->]|(n & -> & ->)]; [left; eexists; split; reflexivity..|right].
    exists n. split; [reflexivity|]. now left.
  - right; left. eexists. split; reflexivity.
  - right; left. apply assertion_checks_civil in C. destruct e as [l|p|n]; [| |discriminate]; [exists l|exists InternalError].
    + cbn [wrap]. rewrite is_lib_root. split; [reflexivity|now destruct l].
    + split; reflexivity.
  - destruct (answer_result W a) as [[]|e] eqn:Q; [now left|right].
    apply answer_raise in Q as [_ [[->| ->]|(n & -> & ->)]]; [left; eexists; split; reflexivity..|right].
    exists n. split; [reflexivity|]. right. exists s1, cdt, ad, u, rp. now rewrite U.
Qed.

Lemma c12_registration {S} (W : World) (R : registrar S) (s : S) (A : attestation_args) :
  let o := run R s (handle_credential_attestation W A) in
  out_result o = Ok tt \/
  (exists l, out_result o = Raise (Lib l) /\ lib_isa l WebAuthnRPError = true) \/
  exists n att ty path, out_result o = Raise (Abort n) /\
    out_trace o = [EvAttest (ra_credential A) att ty (ra_user A) (ra_rp A) path] /\
    snd (r_attest R s (ra_credential A) att ty (ra_user A) (ra_rp A) path) = Raise (Abort n).
Proof.
  cbv zeta. destruct (attest_run W R s A) as [e P|att s1 a G U]; cbn [out_result out_trace].
  - right; left. apply attest_checks_civil in P. destruct e as [l|p|n]; [| |discriminate]; [exists l|exists InternalError].
    + cbn [wrap]. rewrite is_lib_root. split; [reflexivity|now destruct l].
    + split; reflexivity.
  - destruct (answer_result W a) as [[]|e] eqn:Q; [now left|right].
    apply answer_raise in Q as [_ [[->| ->]|(n & -> & ->)]]; [left; eexists; split; reflexivity..|right].
    exists n, att, AT_NONE, None. now rewrite U.
Qed.

(** A registrar that raises Exceptions only. *)
Definition CivilRegistrar {S} (R : registrar S) : Prop :=
  (forall s i, raises civil (snd (r_get R s i))) /\
  (forall s c ad u rp, raises civil (snd (r_assert R s c ad u rp))) /\
  (forall s c att ty u rp path, raises civil (snd (r_attest R s c att ty u rp path))).
Lemma civil_login {S} (W : World) (R : registrar S) (s : S) (A : assertion_args) : CivilRegistrar R ->
  out_result (run R s (handle_credential_assertion W A)) = Ok tt \/
  exists l, out_result (run R s (handle_credential_assertion W A)) = Raise (Lib l) /\
            lib_isa l WebAuthnRPError = true.
Proof.
  intros (G & C & _). destruct (c12_login W R s A) as [H|[H|(n & _ & [(_ & H)|(s1 & cdt & ad & u & rp & _ & _ & H)])]]; auto.
  - now apply G in H.
  - now apply C in H.
Qed.
Lemma civil_registration {S} (W : World) (R : registrar S) (s : S) (A : attestation_args) : CivilRegistrar R ->
  out_result (run R s (handle_credential_attestation W A)) = Ok tt \/
  exists l, out_result (run R s (handle_credential_attestation W A)) = Raise (Lib l) /\
            lib_isa l WebAuthnRPError = true.
Proof.
  intros (_ & _ & C). destruct (c12_registration W R s A) as [H|[H|(n & att & ty & path & _ & _ & H)]]; auto. now apply C in H.
Qed.

Lemma c13 {S} (W : World) (R : registrar S) (s : S) (A : assertion_args) (e : libexn) :
  out_result (run R s (handle_credential_assertion W A)) = Raise (Lib e) ->
  In e check_errors ->
  Violation W R s A e.
Proof.
  apply error_accuracy.
Qed.
