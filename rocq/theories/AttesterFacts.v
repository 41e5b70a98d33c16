(** * AttesterFacts: registration, whatever attest does. *)
From Coq Require Import List NArith ZArith Bool Lia String.
From Coq Require Import Strings.Byte.
From Verif Require Import Base PyVal BaseFacts B64 Utf8 Url Types World Parsers Crypto
  Backends Spec FormatFacts ClientFacts AuthFacts RaiseFacts CryptoFacts BackendFacts
  History HistoryFacts AssertFacts AttestFacts Attesters AttesterSpec.
Import ListNotations.
Local Open Scope res_scope.
Local Open Scope list_scope.

Section With.
Variable W : World.
Variable call : attest_call.

(** The checks before attest is called. *)
Lemma checks_with A f sd st cdj aob adb ad acd :
  RegistrationChecks W A (fmt_name f) sd cdj aob adb ad -> StmtMap sd f st -> ad_attested ad = Some acd ->
  attestation_checks_with W call A =
  (r <- call (att_obj_of ad f st) acd adb (w_sha256 W cdj) ;; Ok (att_obj_of ad f st, r)).
Proof.
  intros (ER & HC & (d & rest & P1 & P2 & P3 & P4) & HA & HF) HS X. unfold attestation_checks_with.
  apply client_data_spec_iff in HC as (os & cd & C1 & C2 & C3 & C4 & C5 & C6).
  apply auth_data_spec_iff in HA as (rpb & A1 & A2 & A3). apply (statement_iff (W := W)) in HS.
  rewrite C1, ER. cbn [bind resp_client_data_JSON resp_attestation_object].
  rewrite C2. cbn [bind]. rewrite C3, str_eqb_refl. cbn [check bind].
  rewrite C4. cbn [bind]. rewrite C5. cbn [bind]. rewrite C6. cbn [bind]. rewrite A1. cbn [bind].
  assert (P2' : member "fmt" d (VStr (fmt_value f))) by (destruct f; exact P2).
  erewrite (proj2 (parse_attestation_object_ok W aob (att_obj_of ad f st) d)).
  2:{ exists rest, adb, sd, ad, f, st. repeat split; eauto. }
  cbn [bind ao_auth_data att_obj_of]. rewrite A3. cbn [bind]. rewrite X. cbn [assert_some bind].
  unfold dict_index, skey. unfold member in P4. rewrite P4. reflexivity.
Qed.

Lemma attestation_with_iff A att ty path :
  attestation_checks_with W call A = Ok (att, (ty, path)) <->
  exists f sd st cdj aob adb ad acd,
    RegistrationChecks W A (fmt_name f) sd cdj aob adb ad /\ StmtMap sd f st /\ ad_attested ad = Some acd /\
    att = att_obj_of ad f st /\ call att acd adb (w_sha256 W cdj) = Ok (ty, path).
Proof.
  split.
  - intro H. unfold attestation_checks_with in H.
    apply bind_ok in H as (os & HO & H).
    apply bind_ok in H as (cd & HC & H).
    apply bind_ok in H as (? & HT & H). apply check_ok, str_eqb_spec in HT.
    apply bind_ok in H as ([] & HCh & H).
    apply bind_ok in H as ([] & HOr & H).
    apply bind_ok in H as ([] & HTb & H).
    apply bind_ok in H as (rpb & HRb & H).
    apply bind_ok in H as (aob & HRe & H).
    destruct (cr_response (ra_credential A)) as [cdj aob'|] eqn:ER; [|discriminate].
    injection HRe as ->. cbn [resp_client_data_JSON] in *.
    apply bind_ok in H as ([o raw] & HP & H).
    apply parse_attestation_object_ok in HP as (rest & adb & sd & ad & f & st & P1 & P2 & P3 & P4 & P5 & P6 & ->).
    cbn [ao_auth_data ao_stmt] in H. cbn [bind] in H.
    apply bind_ok in H as ([] & HCa & H).
    apply bind_ok in H as (acd & HAt & H).
    apply bind_ok in H as (rv & HRv & H). apply bind_ok in H as (rad & HRa & H).
    apply bind_ok in H as (r & HR & H). injection H as <- ->.
    unfold dict_index, skey in HRv. unfold member in P2. rewrite P2 in HRv. injection HRv as <-. injection HRa as <-.
    destruct (ad_attested ad) as [acd'|] eqn:X; [|discriminate]. injection HAt as ->.
    exists f, sd, st, cdj, aob, adb, ad, acd.
    split; [|split; [now apply (statement_iff (W := W))|split; [exact X|split; [reflexivity|exact HR]]]].
    split; [exact ER|]. split; [apply client_data_spec_iff; exists os, cd; repeat split; auto|].
    split; [exists raw, rest; repeat split; auto; destruct f; exact P3|].
    split; [apply auth_data_spec_iff; eauto|].
    destruct (auth_fields _ _ _ P5) as (_ & _ & _ & _ & <- & _). now rewrite X.
  - intros (f & sd & st & cdj & aob & adb & ad & acd & C & HS & X & -> & HA).
    rewrite (checks_with A f sd st cdj aob adb ad acd C HS X), HA. reflexivity.
Qed.

Context {S : Type}.
Variable R : registrar S.

Lemma with_exact s A :
  out_result (run R s (handle_credential_attestation_with W call A)) = Ok tt <->
  exists f sd st cdj aob adb ad acd ty path s1,
    RegistrationChecks W A (fmt_name f) sd cdj aob adb ad /\ StmtMap sd f st /\ ad_attested ad = Some acd /\
    call (att_obj_of ad f st) acd adb (w_sha256 W cdj) = Ok (ty, path) /\
    r_attest R s (ra_credential A) (att_obj_of ad f st) ty (ra_user A) (ra_rp A) path = (s1, Ok None).
Proof.
  unfold handle_credential_attestation_with. split.
  - destruct (attestation_checks_with W call A) as [[att [ty path]]|e] eqn:HC; cbn [run out_result]; intro H.
    + apply attestation_with_iff in HC as (f & sd & st & cdj & aob & adb & ad & acd & C & HS & X & -> & HA).
      destruct (r_attest R s (ra_credential A) (att_obj_of ad f st) ty (ra_user A) (ra_rp A) path) as [s1 a] eqn:U.
      cbn [run out_result] in H. rewrite wrap_ok, answer_ok in H. subst a.
      exists f, sd, st, cdj, aob, adb, ad, acd, ty, path, s1. auto 10.
    + rewrite wrap_ok in H. discriminate.
  - intros (f & sd & st & cdj & aob & adb & ad & acd & ty & path & s1 & C & HS & X & HA & U).
    rewrite (proj2 (attestation_with_iff A (att_obj_of ad f st) ty path)); [|exists f, sd, st, cdj, aob, adb, ad, acd; auto].
    cbn [run]. rewrite U. reflexivity.
Qed.

Lemma with_discipline s A :
  let o := run R s (handle_credential_attestation_with W call A) in
  nothing s o \/
  exists f sd st cdj aob adb ad acd ty path,
    RegistrationChecks W A (fmt_name f) sd cdj aob adb ad /\ StmtMap sd f st /\ ad_attested ad = Some acd /\
    call (att_obj_of ad f st) acd adb (w_sha256 W cdj) = Ok (ty, path) /\
    out_trace o = [EvAttest (ra_credential A) (att_obj_of ad f st) ty (ra_user A) (ra_rp A) path] /\
    out_state o = fst (r_attest R s (ra_credential A) (att_obj_of ad f st) ty (ra_user A) (ra_rp A) path).
Proof.
  cbv zeta. unfold handle_credential_attestation_with.
  destruct (attestation_checks_with W call A) as [[att [ty path]]|e] eqn:HC.
  - right. apply attestation_with_iff in HC as (f & sd & st & cdj & aob & adb & ad & acd & C & HS & X & -> & HA).
    exists f, sd, st, cdj, aob, adb, ad, acd, ty, path. do 4 (split; [assumption|]). cbn [run].
    destruct (r_attest R s (ra_credential A) (att_obj_of ad f st) ty (ra_user A) (ra_rp A) path) as [s1 a].
    split; reflexivity.
  - left. cbn [run]. split; [reflexivity|]. split; [reflexivity|]. cbn [out_result].
    destruct (wrap (Raise e)) eqn:EW; [|eauto]. rewrite wrap_ok in EW. discriminate.
Qed.

Lemma with_failure s A f sd st cdj aob adb ad acd e :
  RegistrationChecks W A (fmt_name f) sd cdj aob adb ad -> StmtMap sd f st -> ad_attested ad = Some acd ->
  call (att_obj_of ad f st) acd adb (w_sha256 W cdj) = Raise e ->
  run R s (handle_credential_attestation_with W call A) =
  {| out_state := s; out_trace := [];
     out_result := Raise (match e with Py _ => Lib InternalError | _ => e end) |}.
Proof.
  intros C HS X HA. unfold handle_credential_attestation_with.
  rewrite (checks_with A f sd st cdj aob adb ad acd C HS X), HA. cbn [bind run]. f_equal. destruct e as [[]| |]; reflexivity.
Qed.
End With.

(** Attesters of the application. *)
Lemma fmt_eqb_spec f g : fmt_eqb f g = true <-> f = g.
Proof. destruct f, g; cbn; split; intro H; try reflexivity; discriminate. Qed.

Lemma registered_exact {S} (W : World) (R : registrar S) (s : S) (A : attestation_args) (f : att_fmt) (impl at_ : attester) :
  out_result (run R s (handle_credential_attestation_with W (application_call (register f impl at_)) A)) = Ok tt <->
  exists g sd st cdj aob adb ad acd ty path s1,
    RegistrationChecks W A (fmt_name g) sd cdj aob adb ad /\ StmtMap sd g st /\ ad_attested ad = Some acd /\
    (g = f /\ impl st (ArgKey (at_key acd)) adb (w_sha256 W cdj) = Ok (ty, path) \/
     g <> f /\ at_ st (ArgKey (at_key acd)) adb (w_sha256 W cdj) = Ok (ty, path)) /\
    r_attest R s (ra_credential A) (att_obj_of ad g st) ty (ra_user A) (ra_rp A) path = (s1, Ok None).
Proof.
  rewrite with_exact. unfold application_call, register. cbn [ao_stmt att_obj_of].
  assert (G : forall sd g st x adb h r, StmtMap sd g st ->
    ((if fmt_eqb (stmt_fmt st) f then impl st else at_ st) x adb h = Ok r <->
     g = f /\ impl st x adb h = Ok r \/ g <> f /\ at_ st x adb h = Ok r)).
  { intros sd g st x adb h r M. apply (statement_iff (W := W)), stmt_fmt_ok in M. rewrite M.
    destruct (fmt_eqb g f) eqn:Q.
    - apply fmt_eqb_spec in Q. split; [auto|intros [[_ ?]|[? _]]; [assumption|contradiction]].
    - assert (g <> f) by (intros ->; now rewrite (proj2 (fmt_eqb_spec f f) eq_refl) in Q).
      split; [auto|intros [[? _]|[_ ?]]; [contradiction|assumption]]. }
  split; intros (g & sd & st & cdj & aob & adb & ad & acd & ty & path & s1 & C & HS & X & HA & U);
    exists g, sd, st, cdj, aob, adb, ad, acd, ty, path, s1; do 3 (split; [assumption|]);
    (split; [now apply (G sd g st)|exact U]).
Qed.

(** The corrected call. *)
Lemma attested_by_iff W o adb h ty path :
  attest W (ao_stmt o) (ArgObj o) adb h = Ok (ty, path) <-> AttestedBy W o adb h ty path.
Proof.
  split.
  - intro H. destruct (ao_stmt o) as [| | | | | |a sig x5c| |sig x5c|] eqn:Q; try discriminate.
    + apply android_iff in H as (c & Q' & H). injection Q' as -> ->. eapply by_android; eauto.
    + apply u2f_iff in H as (c & Q' & H). injection Q' as -> ->. eapply by_u2f; eauto.
    + injection H as <- <-. now apply by_none.
  - intros [Q|sig x5c c Q H|a sig x5c c Q H]; rewrite Q; [reflexivity|..].
    + apply u2f_iff. eauto.
    + apply android_iff. eauto.
Qed.

Lemma repaired_exact {S} (W : World) (R : registrar S) (s : S) (A : attestation_args) :
  out_result (run R s (handle_credential_attestation_with W (repaired_call W) A)) = Ok tt <->
  exists f sd st cdj aob adb ad ty path s1,
    RegistrationChecks W A (fmt_name f) sd cdj aob adb ad /\ StmtMap sd f st /\
    AttestedBy W (att_obj_of ad f st) adb (w_sha256 W cdj) ty path /\
    r_attest R s (ra_credential A) (att_obj_of ad f st) ty (ra_user A) (ra_rp A) path = (s1, Ok None).
Proof.
  rewrite with_exact. unfold repaired_call. split.
  - intros (f & sd & st & cdj & aob & adb & ad & acd & ty & path & s1 & C & HS & X & HA & U).
    apply attested_by_iff in HA. exists f, sd, st, cdj, aob, adb, ad, ty, path, s1. auto.
  - intros (f & sd & st & cdj & aob & adb & ad & ty & path & s1 & C & HS & HA & U). apply attested_by_iff in HA.
    assert (X : exists acd, ad_attested ad = Some acd).
    { destruct C as (_ & _ & _ & (HR & _) & HF). apply auth_reads_iff in HR.
      destruct (auth_fields _ _ _ HR) as (_ & _ & _ & _ & E & _). rewrite HF in E.
      destruct (ad_attested ad); [eauto|discriminate]. }
    destruct X as (acd & X). exists f, sd, st, cdj, aob, adb, ad, acd, ty, path, s1. auto 10.
Qed.

Lemma repaired_conservative {S} (W : World) (R : registrar S) (s : S) (A : attestation_args) :
  registration_succeeds W R s A ->
  run R s (handle_credential_attestation_with W (repaired_call W) A) = run R s (handle_credential_attestation W A).
Proof.
  intro H. unfold handle_credential_attestation in *. apply with_exact in H as
    (f & sd & st & cdj & aob & adb & ad & acd & ty & path & s1 & C & HS & X & HA & U).
  unfold handle_credential_attestation_with.
  rewrite !(checks_with W _ A f sd st cdj aob adb ad acd C HS X), HA.
  apply attest_key_ok in HA as [HA Q]. injection Q as -> ->. cbn [ao_stmt att_obj_of] in HA. subst st. reflexivity.
Qed.
