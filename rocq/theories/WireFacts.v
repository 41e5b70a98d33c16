(** * WireFacts: lemmas behind PropsWire. *)
From Coq Require Import List NArith ZArith Bool String Lia.
From Coq Require Import Strings.Byte.
From Verif Require Import Base BaseFacts PyVal B64 Utf8 Utf8Sound Url UrlFacts Json JsonSpec JsonFacts
  Cbor CborSpec CborExact CodecSpec Types World Parsers Crypto Backends Spec AuthFacts KeyFacts
  AssertFacts AttestFacts Examples WireSpec.
Import ListNotations.
Local Open Scope list_scope.

Lemma reads_cbor_model W tags depth :
  (forall b, w_cbor_load W b = cbor_load_tags tags depth b) -> reads_cbor W tags depth.
Proof. intros H b v rest. rewrite H. apply cbor_load_iff. Qed.
Lemma reads_json_model W E : (forall s, w_json_loads W s = json_loads E s) -> reads_json W E.
Proof. intros H s v. rewrite H. apply json_loads_iff. Qed.

Section Wire.
Variable W : World.
Variable tags : tagsem.
Variable depth : nat.
Hypothesis RC : reads_cbor W tags depth.

Lemma wire_whole b v : w_cbor_load W b = WOk (v, []) <-> Cbor tags depth false v b.
Proof.
  rewrite (RC b v []). split; [intros (i & -> & C); rewrite app_nil_r; exact C|].
  intros C. exists b. rewrite app_nil_r. auto.
Qed.

Lemma two_bytes l n : List.length l = 2 -> be_to_N l = n -> l = N_to_be 2 n.
Proof.
  intros L <-. apply be_to_N_inj; [now rewrite N_to_be_length|]. symmetry. apply be_to_N_to_be.
  assert (B := be_to_N_bound l). rewrite L in B. exact B.
Qed.

Lemma wire_ext f b x : ExtRead W f b x <-> ExtBytes tags depth f b x.
Proof.
  split; (intros [|b' d y C M]; [constructor|]); apply wire_whole in C; econstructor; eassumption.
Qed.

Lemma wire_att f tl follow att :
  AttRead W f tl follow att <-> exists attb, tl = attb ++ follow /\ AttBytes tags depth f attb att.
Proof.
  split.
  - intros [follow'|aaguid cid tl' follow' d k LA LC C K U].
    + exists []. split; [reflexivity|constructor].
    + apply RC in C as (key & -> & C).
      exists (aaguid ++ N_to_be 2 (N.of_nat (List.length cid)) ++ cid ++ key).
      split; [rewrite <- !app_assoc; reflexivity|].
      apply (atb_present tags depth aaguid _ cid key d k); try assumption.
      * apply N_to_be_length.
      * apply be_to_N_to_be. exact LC.
  - intros (attb & -> & A). destruct A as [|aaguid len cid key d k LA LL EL C K U]; [constructor|].
    rewrite <- !app_assoc, (two_bytes len _ LL EL).
    apply att_present with (d := d); try assumption.
    + rewrite <- EL. assert (B := be_to_N_bound len). rewrite LL in B. exact B.
    + apply RC. exists key. auto.
Qed.

Lemma wire_auth b ad : AuthReads W b ad <-> AuthBytes tags depth b ad.
Proof.
  split.
  - intros [hash flags ctr tl extb att ext L1 L2 A X].
    apply wire_ext in X. apply wire_att in A as (attb & -> & A). apply auth_bytes; assumption.
  - intros [hash flags ctr attb extb att ext L1 L2 A X].
    apply auth_reads with (extb := extb); try assumption.
    + apply wire_att. eauto.
    + apply wire_ext. exact X.
Qed.

Lemma wire_auth_data rpid uv exts adb ad :
  AuthDataSpec W rpid uv exts adb ad <-> WireAuthData W tags depth rpid uv exts adb ad.
Proof. unfold AuthDataSpec, WireAuthData, Text. rewrite wire_auth. reflexivity. Qed.

Lemma wire_att_obj aob fmt stmt adb :
  AttObjSpec W aob fmt stmt adb <-> exists d, AttObjMap tags depth aob d fmt stmt adb.
Proof.
  split.
  - intros (d & rest & C & H). apply RC in C as (item & -> & C). exists d, item, rest. auto.
  - intros (d & item & rest & -> & C & H). exists d, rest. split; [|exact H]. apply RC. eauto.
Qed.

Lemma wire_key b k : parse_cose_key_bytes W b = Ok k <->
  exists item rest d, b = item ++ rest /\ Cbor tags depth false (VDict d) item /\ CoseKey d k.
Proof.
  rewrite c33_bytes. split.
  - intros (d & rest & C & K). apply RC in C as (item & -> & C). eauto 7.
  - intros (item & rest & d & -> & C & K). exists d, rest. split; [apply RC; eauto|exact K].
Qed.

Lemma wire_auth_parse b ad : parse_authenticator_data W b = Ok ad <-> AuthBytes tags depth b ad.
Proof. rewrite auth_reads_iff. apply wire_auth. Qed.

Lemma wire_object_parse b o d : parse_attestation_object W b = Ok (o, d) <->
  exists adb sd ad f st,
    AttObjMap tags depth b d (fmt_name f) sd adb /\ StmtMap sd f st /\ stmt_fmt st = f /\
    AuthBytes tags depth adb ad /\ o = {| ao_auth_data := Some ad; ao_fmt := f; ao_stmt := st |}.
Proof.
  rewrite c43. split.
  - intros (rest & adb & sd & ad & f & st & C & M1 & M2 & M3 & M4 & M5 & M6 & ->).
    apply RC in C as (item & -> & C). apply wire_auth in M6.
    exists adb, sd, ad, f, st. unfold AttObjMap. eauto 12.
  - intros (adb & sd & ad & f & st & (item & rest & -> & C & M1 & M2 & M5) & M3 & M4 & M6 & ->).
    apply wire_auth in M6. exists rest, adb, sd, ad, f, st. split; [apply RC; eauto|auto 10].
Qed.

(** Accepted bytes have one reading. *)
Lemma wire_one_reading b ad ad' : AuthBytes tags depth b ad -> AuthBytes tags depth b ad' -> ad = ad'.
Proof.
  intros H1 H2. apply wire_auth_parse in H1, H2. rewrite H1 in H2. injection H2. auto.
Qed.

Variable E : jsonenv.
Hypothesis RJ : reads_json W E.

Lemma wire_origin e org : OriginSpec W e org <-> WireOrigin (w_url W) e org.
Proof.
  unfold OriginSpec, WireOrigin. split; intros [H1 (s & o & H2 & H3 & H4)]; split.
  - intros t I. destruct (H1 t I) as (o' & H). exists o'. apply parse_origin_iff, H.
  - exists s, o. split; [exact H2|]. split; apply parse_origin_iff; assumption.
  - intros t I. destruct (H1 t I) as (o' & H). exists o'. apply parse_origin_iff, H.
  - exists s, o. split; [exact H2|]. split; apply parse_origin_iff; assumption.
Qed.

Lemma wire_client ty ch org tb cdj :
  ClientDataSpec W ty ch org tb cdj <-> WireClientData E (w_url W) ty ch org tb cdj.
Proof.
  unfold ClientDataSpec, WireClientData, Text.
  split; intros (text & d & c & o & H1 & H2 & H3 & H4 & H5 & H6 & H7 & H8); exists text, d, c, o.
  - apply utf8_decode_iff in H1. apply RJ in H2. apply wire_origin in H7. auto 10.
  - apply utf8_decode_iff in H1. apply RJ in H2. apply wire_origin in H7. auto 10.
Qed.

Lemma wire_assertion A cdt ad u rp :
  AssertionSpec W A cdt ad u rp <-> WireAssertion W tags depth E A cdt ad u rp.
Proof.
  unfold AssertionSpec, WireAssertion.
  split; intros (cdj & adb & sig & h & H1 & H2 & H3 & H4 & H5 & H6 & H7);
    exists cdj, adb, sig, h; apply wire_client in H5; apply wire_auth_data in H6; auto 10.
Qed.

Lemma wire_registration A att : RegistrationSpec W A att <-> WireRegistration W tags depth E A att.
Proof.
  unfold RegistrationSpec, WireRegistration. split.
  - intros (cdj & aob & adb & ad & H1 & H2 & H3 & H4 & H5).
    apply wire_client in H2. apply wire_att_obj in H3 as (d & H3). apply wire_auth_data in H4.
    exists cdj, aob, d, adb, ad. auto 10.
  - intros (cdj & aob & d & adb & ad & H1 & H2 & H3 & H4 & H5).
    apply wire_client in H2. apply wire_auth_data in H4.
    exists cdj, aob, adb, ad. assert (AttObjSpec W aob "none" [] adb) by (apply wire_att_obj; eauto).
    auto 10.
Qed.

Lemma wire_login {S} (R : registrar S) (s : S) A :
  login_succeeds W R s A <->
  exists s1 cdt ad u rp s2,
    r_get R s (cr_raw_id (aa_credential A)) = (s1, Ok (Some cdt)) /\
    WireAssertion W tags depth E A cdt ad u rp /\
    r_assert R s1 (aa_credential A) ad u rp = (s2, Ok None).
Proof.
  rewrite (@c10 S W R s A).
  split; intros (s1 & cdt & ad & u & rp & s2 & H1 & H2 & H3); exists s1, cdt, ad, u, rp, s2;
    apply wire_assertion in H2; auto.
Qed.

Lemma wire_register {S} (R : registrar S) (s : S) A :
  registration_succeeds W R s A <->
  exists att s1, WireRegistration W tags depth E A att /\
    r_attest R s (ra_credential A) att AT_NONE (ra_user A) (ra_rp A) None = (s1, Ok None).
Proof.
  rewrite (@c19_none S W R s A).
  split; intros (att & s1 & H1 & H2); exists att, s1; apply wire_registration in H1; auto.
Qed.
End Wire.
