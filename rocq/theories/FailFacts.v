(** * FailFacts: the failures of FailSpec are those of the model. *)
From Coq Require Import List NArith ZArith Bool String Lia.
From Coq Require Import Strings.Byte.
From Verif Require Import Base PyVal Types World Parsers Crypto FormatSpec Spec BaseFacts
  FormatFacts StepSpec MapFailSpec MapFails CryptoFacts AuthFacts KeyFacts BackendFacts RaiseFacts Json Cbor CborSpec CborExact FailSpec.
Import ListNotations.
Local Open Scope list_scope.

(** ** Translation of exceptions *)

Lemma catch_becomes {A} classes (p : exn -> bool) c (x : pyexn) (e : exn) :
  (forall q, p (Py q) = true <-> In q classes) ->
  catch (@Raise A (Py x)) p (Lib c) = Raise e <-> becomes classes c x e.
Proof.
  intro P. cbn [catch]. unfold becomes. specialize (P x). destruct (p (Py x)).
  - split; [intros [= <-]; left; tauto|intros [[_ ->]|[N _]]; [reflexivity|tauto]].
  - split; [intros [= <-]; right; split; [intro I; apply P in I; discriminate|reflexivity]|].
    intros [[I _]|[_ ->]]; [apply P in I; discriminate|reflexivity].
Qed.

Ltac class_tac := intros []; cbn; intuition (try congruence; try discriminate).
Lemma cls_value q : is_ValueError (Py q) = true <-> In q value_errors.
Proof. revert q. class_tac. Qed.
Lemma cls_sig q : is_InvalidSignature (Py q) = true <-> In q [EInvalidSignature].
Proof. revert q. class_tac. Qed.
Lemma cls_cbor q : is_CBORDecodeError (Py q) = true <-> In q cbor_errors.
Proof. revert q. class_tac. Qed.
Lemma cls_ext q : is_ExtensionNotFound (Py q) = true <-> In q [EExtensionNotFound].
Proof. revert q. class_tac. Qed.
Lemma cls_asn1 q : is_PyAsn1Error (Py q) = true <-> In q [EPyAsn1Error].
Proof. revert q. class_tac. Qed.

Lemma becomes_fun cl c p e e' : becomes cl c p e -> becomes cl c p e' -> e = e'.
Proof. unfold becomes. intuition congruence. Qed.

(** ** Keys *)

Section W.
Variable W : World.

Lemma key_fails_raise k e : KeyFails W k e -> cryptography_public_key W k = Raise e.
Proof.
  intro H; destruct H; cbn [cryptography_public_key snd]; try reflexivity.
  - destruct c; try discriminate; reflexivity.
  - destruct c; try discriminate; injection H as <-; cbn [bind]; rewrite H0; cbn [lift bind];
      apply (catch_becomes value_errors _ _ _ _ cls_value); assumption.
  - destruct c; try reflexivity; contradiction.
  - rewrite H; cbn [lift bind]; apply (catch_becomes value_errors _ _ _ _ cls_value); assumption.
  - rewrite H; cbn [lift bind]; apply (catch_becomes value_errors _ _ _ _ cls_value); assumption.
Qed.

Lemma raise_key_fails k e : cryptography_public_key W k = Raise e -> KeyFails W k e.
Proof.
  destruct k as [b x y [f c]|b [f c] x|b]; cbn [cryptography_public_key snd].
  - destruct (ec_curve c) as [n|] eqn:EC.
    + intro H.
      assert (E : catch (bind (lift (w_ec_load W n (be_to_N x) (be_to_N y)))
                     (fun _ => Ok (CEC n (be_to_N x) (be_to_N y)))) is_ValueError
                     (Lib PublicKeyConversionError) = Raise e).
      { destruct c; try discriminate; injection EC as <-; exact H. }
      destruct (w_ec_load W n (be_to_N x) (be_to_N y)) as [|p] eqn:L; [discriminate|].
      eapply kf_ec; eauto. apply (catch_becomes value_errors _ _ _ _ cls_value) in E. exact E.
    + intro H. assert (e = Lib UnimplementedError) as -> by (destruct c; try discriminate;
        now injection H as <-). now constructor.
  - intro H. destruct c; try (injection H as <-; constructor; discriminate).
    + destruct (w_ed25519_load W x) as [|p] eqn:L; [discriminate|].
      eapply kf_ed25519; eauto. now apply (catch_becomes value_errors _ _ _ _ cls_value) in H.
    + destruct (w_ed448_load W x) as [|p] eqn:L; [discriminate|].
      eapply kf_ed448; eauto. now apply (catch_becomes value_errors _ _ _ _ cls_value) in H.
  - intros [= <-]. constructor.
Qed.

Lemma key_fails_iff k e : cryptography_public_key W k = Raise e <-> KeyFails W k e.
Proof. split; [apply raise_key_fails|apply key_fails_raise]. Qed.

Lemma key_object_eq k o : KeyObject W k o -> cryptography_public_key W k = Ok o.
Proof. apply cpk_iff. Qed.

Lemma hash_of f a h : AlgHash a h -> ec2_hash_algorithm (f, a) = Ok h.
Proof. now intros []. Qed.

(** ** Signatures *)

Lemma verify_fails_iff k sig data e :
  verify W k sig data = Raise e <-> VerifyFails W sig data k e.
Proof.
  split.
  - intro H. destruct (cryptography_public_key W k) as [o|e'] eqn:EK.
    2:{ apply vf_key. apply raise_key_fails. destruct k; cbn [verify] in H;
        [rewrite EK in H; cbn [bind] in H; congruence|rewrite EK in H; cbn [bind] in H; congruence|injection H as <-; reflexivity]. }
    pose proof (proj1 (cpk_iff W k o) EK) as KO.
    destruct k as [b x y crv|b crv x|b]; cbn [verify] in H; [| |discriminate].
    + rewrite EK in H. cbn [bind] in H. destruct (kb_alg b) as [[f a]|] eqn:EA.
      2:{ injection H as <-. eapply vf_no_alg; eauto. }
      destruct (ec2_hash_algorithm (f, a)) as [h|e'] eqn:EH; cbn [bind] in H.
      * assert (AH : AlgHash a h) by (destruct a; try discriminate; injection EH as <-; constructor).
        destruct (w_verify W o (ECDSA h) sig data) as [[]|p] eqn:EV; [discriminate|].
        apply (catch_becomes _ _ _ _ _ cls_sig) in H. eapply vf_ec2; eauto.
      * injection H as <-. destruct a; try discriminate. injection EH as <-.
        eapply vf_eddsa; eauto.
    + rewrite EK in H. cbn [bind] in H.
      destruct (w_verify W o PureEdDSA sig data) as [[]|p] eqn:EV; [discriminate|].
      apply (catch_becomes _ _ _ _ _ cls_sig) in H. eapply vf_okp; eauto.
  - intros [k' e' HK|b x y crv o HK HA|b x y crv o f HK HA|b x y crv o f a h p e' HK HA HH HV HB
           |b x crv o p e' HK HV HB].
    + apply key_fails_raise in HK. destruct k'; cbn [verify];
        [rewrite HK; reflexivity|rewrite HK; reflexivity|injection HK as <-; reflexivity].
    + cbn [verify]. rewrite (key_object_eq _ _ HK). cbn [bind]. now rewrite HA.
    + cbn [verify]. rewrite (key_object_eq _ _ HK). cbn [bind]. now rewrite HA.
    + cbn [verify]. rewrite (key_object_eq _ _ HK). cbn [bind]. rewrite HA, (hash_of _ _ _ HH).
      cbn [bind]. rewrite HV. cbn [lift]. now apply (catch_becomes _ _ _ _ _ cls_sig).
    + cbn [verify]. rewrite (key_object_eq _ _ HK). cbn [bind].
      rewrite HV. cbn [lift]. now apply (catch_becomes _ _ _ _ _ cls_sig).
Qed.

(** ** FIDO U2F *)

Lemma u2f_fails_iff sig x5c arg h e :
  attest_fido_u2f W sig x5c arg h = Raise e <-> U2FFails W h sig x5c arg e.
Proof.
  split.
  - intro H. destruct x5c as [|der [|d2 t]]; cbn [attest_fido_u2f] in H.
    { injection H as <-. now constructor. }
    2:{ injection H as <-. apply uf_count. cbn. lia. }
    destruct (w_load_cert W der) as [c|p] eqn:EL.
    2:{ eapply uf_load; eauto. destruct (catch _ _ _) eqn:EC in H; cbn [bind] in H.
        - apply catch_ok in EC. discriminate.
        - injection H as <-. now apply (catch_becomes _ _ _ _ _ cls_value) in EC. }
    cbn [lift catch bind] in H. destruct (ce_public_key c) as [pk|p] eqn:EP; cbn [lift bind] in H.
    2:{ injection H as <-. eapply uf_key; eauto. }
    assert (D : (exists px py, pk = CEC SECP256R1 px py) \/ (forall px py, pk <> CEC SECP256R1 px py)).
    { destruct pk as [[] px py| | |]; try (right; congruence). left; eauto. }
    destruct D as [(px & py & ->)|D].
    2:{ assert (e = Lib AttestationError) as ->.
        { destruct pk as [[] px py| | |]; try (injection H as <-; reflexivity).
          exfalso; eapply D; reflexivity. }
        eapply uf_curve; eauto. }
    assert (UC : U2FCert W [der] c px py) by (exists der; auto).
    destruct arg as [o|k]; cbn [arg_auth_data bind] in H.
    2:{ injection H as <-. eapply uf_arg; eauto. }
    destruct (ao_auth_data o) as [ad|] eqn:E1; cbn [assert_some bind] in H.
    2:{ injection H as <-. eapply uf_none; eauto. left; left; auto. }
    destruct (ad_attested ad) as [acd|] eqn:E2; cbn [assert_some bind] in H.
    2:{ injection H as <-. eapply uf_none; eauto. left; right; eauto. }
    destruct (at_key acd) as [k|] eqn:E3; cbn [assert_some bind] in H.
    2:{ injection H as <-. eapply uf_none; eauto. right; exists ad, acd; auto. }
    destruct k as [b x y crv|b crv x|b]; cbn [bind] in H.
    2:{ injection H as <-. eapply uf_ec2; [eauto|repeat split; eauto|congruence]. }
    2:{ injection H as <-. eapply uf_ec2; [eauto|repeat split; eauto|congruence]. }
    destruct sig as [s|]; cbn [assert_some bind] in H.
    2:{ injection H as <-. eapply uf_nosig; [eauto|repeat split; eauto]. }
    destruct (w_verify _ _ _ _ _) as [[]|p] eqn:EV in H; [discriminate|].
    cbn [lift] in H. destruct (catch _ _ _) eqn:EC in H; cbn [bind] in H.
    { apply catch_ok in EC. discriminate. }
    injection H as <-. apply (catch_becomes _ _ _ _ _ cls_sig) in EC.
    eapply uf_sig; [eauto|repeat split; eauto| |eauto]. exact EV.
  - intros [sig' x5c' arg' L|sig' der arg' p e' EL B|sig' der arg' c p EL EP|sig' der arg' c pk EL EP D
            |sig' x5c' k c px py (der & -> & EL & EP)|sig' x5c' o c px py (der & -> & EL & EP) N
            |sig' x5c' o c px py ad acd k (der & -> & EL & EP) (E1 & E2 & E3) N
            |x5c' o c px py ad acd b x y crv (der & -> & EL & EP) (E1 & E2 & E3)
            |s x5c' o c px py ad acd b x y crv p e' (der & -> & EL & EP) (E1 & E2 & E3) EV B].
    + destruct x5c' as [|? [|? ?]]; try reflexivity. cbn in L. lia.
    + cbn [attest_fido_u2f]. rewrite EL. cbn [lift].
      apply (catch_becomes (A := cert) _ _ _ _ _ cls_value) in B. now rewrite B.
    + cbn [attest_fido_u2f]. rewrite EL. cbn [lift catch bind]. now rewrite EP.
    + cbn [attest_fido_u2f]. rewrite EL. cbn [lift catch bind]. rewrite EP. cbn [lift bind].
      destruct pk as [[] px py| | |]; try reflexivity. exfalso; eapply D; reflexivity.
    + cbn [attest_fido_u2f]. rewrite EL. cbn [lift catch bind]. rewrite EP. reflexivity.
    + cbn [attest_fido_u2f]. rewrite EL. cbn [lift catch bind]. rewrite EP.
      cbn [lift bind arg_auth_data].
      destruct N as [[E1|(ad & E1 & E2)]|(ad & acd & E1 & E2 & E3)]; rewrite E1;
        cbn [assert_some bind]; try reflexivity; rewrite E2; cbn [assert_some bind]; try reflexivity.
      now rewrite E3.
    + cbn [attest_fido_u2f]. rewrite EL. cbn [lift catch bind]. rewrite EP.
      cbn [lift bind arg_auth_data]. rewrite E1; cbn [assert_some bind]; rewrite E2;
        cbn [assert_some bind]; rewrite E3; cbn [assert_some bind].
      destruct k; try reflexivity. exfalso; eapply N; reflexivity.
    + cbn [attest_fido_u2f]. rewrite EL. cbn [lift catch bind]. rewrite EP.
      cbn [lift bind arg_auth_data]. rewrite E1; cbn [assert_some bind]; rewrite E2;
        cbn [assert_some bind]; rewrite E3; reflexivity.
    + cbn [attest_fido_u2f]. rewrite EL. cbn [lift catch bind]. rewrite EP.
      cbn [lift bind arg_auth_data]. rewrite E1; cbn [assert_some bind]; rewrite E2;
        cbn [assert_some bind]; rewrite E3; cbn [assert_some bind].
      apply (catch_becomes (A := unit) _ _ _ _ _ cls_sig) in B.
      replace (w_verify _ _ _ _ _) with (@WRaise unit p) by (symmetry; exact EV).
      cbn [lift]. now rewrite B.
Qed.

(** ** Android Key *)

Definition cert_check (pk : cpk) (a : option (form * alg)) (s data : bytes) : res unit :=
  catch (match pk with
         | CEd25519 _ | CEd448 _ => lift (w_verify W pk PureEdDSA s data)
         | _ =>
             bind (assert_some a) (fun al =>
             bind (ec2_hash_algorithm al) (fun h => lift (w_verify W pk (ECDSA h) s data)))
         end) is_InvalidSignature (Lib AttestationError).

Lemma cert_check_ok pk a s data : can_verify pk ->
  cert_check pk a s data = Ok tt <-> CertVerifies W pk a s data.
Proof.
  intro CV. unfold cert_check. rewrite catch_ok. split.
  - intro H. destruct pk as [c x y|b|b|n].
    + destruct a as [[f a]|]; [|discriminate]. cbn [assert_some bind] in H.
      destruct a; try discriminate; cbn [ec2_hash_algorithm snd bind] in H;
        (destruct (w_verify _ _ _ _ _) as [[]|] eqn:EV in H; [|discriminate]);
        (eapply cv_ec; [constructor|exact EV]).
    + destruct (w_verify _ _ _ _ _) as [[]|] eqn:EV in H; [|discriminate]. now constructor.
    + destruct (w_verify _ _ _ _ _) as [[]|] eqn:EV in H; [|discriminate]. now constructor.
    + exfalso. eapply CV. reflexivity.
  - intros [c x y f a' h sig d HH HV|b oa sig d HV|b oa sig d HV].
    + cbn [assert_some bind]. rewrite (hash_of f _ _ HH). cbn [bind]. now rewrite HV.
    + now rewrite HV.
    + now rewrite HV.
Qed.

Lemma cert_check_fails pk a s data e : can_verify pk ->
  cert_check pk a s data = Raise e <-> CertFails W pk a s data e.
Proof.
  intro CV. unfold cert_check. split.
  - intro H. destruct pk as [c x y|b|b|n].
    + destruct a as [[f a]|]; [|injection H as <-; constructor]. cbn [assert_some bind] in H.
      destruct a; try (injection H as <-; constructor); cbn [ec2_hash_algorithm snd bind] in H;
        (destruct (w_verify _ _ _ _ _) as [[]|] eqn:EV in H; [discriminate|]);
        apply (catch_becomes _ _ _ _ _ cls_sig) in H;
        (eapply cf_ec; [constructor|exact EV|exact H]).
    + destruct (w_verify _ _ _ _ _) as [[]|] eqn:EV in H; [discriminate|].
      apply (catch_becomes _ _ _ _ _ cls_sig) in H. eapply cf_25519; eauto.
    + destruct (w_verify _ _ _ _ _) as [[]|] eqn:EV in H; [discriminate|].
      apply (catch_becomes _ _ _ _ _ cls_sig) in H. eapply cf_448; eauto.
    + exfalso. eapply CV. reflexivity.
  - intros [c x y sig d|c x y f sig d|c x y f a' h sig d p e' HH HV B|b oa sig d p e' HV B|b oa sig d p e' HV B];
      try reflexivity.
    + cbn [assert_some bind]. rewrite (hash_of f _ _ HH). cbn [bind]. rewrite HV.
      now apply (catch_becomes _ _ _ _ _ cls_sig).
    + rewrite HV. now apply (catch_becomes _ _ _ _ _ cls_sig).
    + rewrite HV. now apply (catch_becomes _ _ _ _ _ cls_sig).
Qed.

Definition desc_check (c : cert) (h : bytes) : res (att_type * option (list cert)) :=
  (ext <- catch (e <- lift (ce_keydesc c) ;; assert_some e)
                is_ExtensionNotFound (Lib AttestationError) ;;
   kd <- catch (lift (w_keydesc W ext)) is_PyAsn1Error (Lib AttestationError) ;;
   check (bytes_eqb (kd_challenge kd) h) (Lib AttestationError) ;;;
   check (negb (al_all_applications (kd_software kd)
                || al_all_applications (kd_tee kd))) (Lib AttestationError) ;;;
   check (match al_origin (kd_tee kd) with
          | Some o => Z.eqb o KM_ORIGIN_GENERATED | None => false end)
         (Lib AttestationError) ;;;
   check (match al_purpose (kd_tee kd) with
          | Some l => existsb (Z.eqb KM_PURPOSE_SIGN) l | None => false end)
         (Lib AttestationError) ;;;
   Ok (AT_BASIC, Some [c]))%res.

Inductive DescFails (c : cert) (h : bytes) : exn -> Prop :=
| df_ext p e : ce_keydesc c = WRaise p -> becomes [EExtensionNotFound] AttestationError p e ->
    DescFails c h e
| df_class : ce_keydesc c = WOk None -> DescFails c h (Py EAssertionError)
| df_decode ext p e : ce_keydesc c = WOk (Some ext) -> w_keydesc W ext = WRaise p ->
    becomes [EPyAsn1Error] AttestationError p e -> DescFails c h e
| df_desc ext kd : ce_keydesc c = WOk (Some ext) -> w_keydesc W ext = WOk kd ->
    BadDescription h kd -> DescFails c h (Lib AttestationError).

Lemma desc_check_fails c h e : desc_check c h = Raise e <-> DescFails c h e.
Proof.
  unfold desc_check. destruct (ce_keydesc c) as [[ext|]|p] eqn:E1.
  - cbn [lift assert_some catch bind].
    destruct (w_keydesc W ext) as [kd|p] eqn:E2.
    + cbn [lift catch bind]. split.
      * intro H.
        destruct (bytes_eqb (kd_challenge kd) h) eqn:B1.
        2:{ injection H as <-. eapply df_desc; eauto. left. intro E. rewrite E in B1.
            rewrite bytes_eqb_refl in B1. discriminate. }
        cbn [check bind] in H.
        destruct (al_all_applications (kd_software kd)) eqn:B2.
        { injection H as <-. eapply df_desc; eauto. unfold BadDescription. auto. }
        destruct (al_all_applications (kd_tee kd)) eqn:B3.
        { injection H as <-. eapply df_desc; eauto. unfold BadDescription. auto. }
        cbn [orb negb check bind] in H.
        destruct (al_origin (kd_tee kd)) as [o|] eqn:B4.
        2:{ injection H as <-. eapply df_desc; eauto. unfold BadDescription. rewrite B4.
            do 3 right; left. discriminate. }
        destruct (Z.eqb o KM_ORIGIN_GENERATED) eqn:B5.
        2:{ injection H as <-. eapply df_desc; eauto. unfold BadDescription. rewrite B4.
            do 3 right; left. intros [= ->]. discriminate. }
        cbn [check bind] in H.
        destruct (al_purpose (kd_tee kd)) as [l|] eqn:B6.
        2:{ injection H as <-. eapply df_desc; eauto. unfold BadDescription. rewrite B6.
            do 4 right. discriminate. }
        destruct (existsb (Z.eqb KM_PURPOSE_SIGN) l) eqn:B7; [discriminate|].
        injection H as <-. eapply df_desc; eauto. unfold BadDescription. rewrite B6.
        do 4 right. intros l' [= <-] I.
        assert (X : existsb (Z.eqb KM_PURPOSE_SIGN) l = true) by (apply existsb_exists; exists 2%Z; auto).
        congruence.
      * intros [p e' X|X|ext' p e' X Y|ext' kd' X Y B]; try congruence.
        assert (ext' = ext) by congruence. subst ext'. assert (kd' = kd) by congruence. subst kd'.
        destruct (bytes_eqb (kd_challenge kd) h) eqn:B1; [|reflexivity]. cbn [check bind].
        apply bytes_eqb_spec in B1.
        destruct (al_all_applications (kd_software kd)) eqn:B2; [reflexivity|].
        destruct (al_all_applications (kd_tee kd)) eqn:B3; [reflexivity|]. cbn [orb negb check bind].
        destruct (al_origin (kd_tee kd)) as [o|] eqn:B4; [|reflexivity].
        destruct (Z.eqb o KM_ORIGIN_GENERATED) eqn:B5; [|reflexivity]. cbn [check bind].
        apply Z.eqb_eq in B5. unfold KM_ORIGIN_GENERATED in B5. subst o.
        destruct (al_purpose (kd_tee kd)) as [l|] eqn:B6; [|reflexivity].
        destruct (existsb (Z.eqb KM_PURPOSE_SIGN) l) eqn:B7; [|reflexivity].
        exfalso. destruct B as [B|[B|[B|[B|B]]]]; try congruence.
        apply (B l B6). apply existsb_exists in B7 as (z & I & Z).
        apply Z.eqb_eq in Z. unfold KM_PURPOSE_SIGN in Z. now subst z.
    + cbn [lift]. split.
      * intro H. destruct (catch _ _ _) eqn:EC in H; cbn [bind] in H.
        { apply catch_ok in EC. discriminate. }
        injection H as <-. apply (catch_becomes _ _ _ _ _ cls_asn1) in EC. eapply df_decode; eauto.
      * intros [p' e' X|X|ext' p' e' X Y B|ext' kd' X Y B]; try congruence.
        assert (ext' = ext) by congruence. subst ext'. assert (p' = p) by congruence. subst p'.
        apply (catch_becomes (A := key_description) _ _ _ _ _ cls_asn1) in B. now rewrite B.
  - cbn. split.
    + intros [= <-]. now apply df_class.
    + intros [p' e' X|X|ext' p' e' X Y B|ext' kd' X Y B]; congruence.
  - cbn [lift bind]. split.
    + intro H. destruct (catch _ _ _) eqn:EC in H; cbn [bind] in H.
      { apply catch_ok in EC. discriminate. }
      injection H as <-. apply (catch_becomes _ _ _ _ _ cls_ext) in EC. eapply df_ext; eauto.
    + intros [p' e' X B|X|ext' p' e' X Y B|ext' kd' X Y B]; try congruence.
      assert (p' = p) by congruence. subst p'.
      apply (catch_becomes (A := bytes) _ _ _ _ _ cls_ext) in B. now rewrite B.
Qed.

(** The attester past the certificate and the attested key. *)
Definition android_tail (a : option (form * alg)) (sig : option bytes) (data h : bytes) (c : cert)
           (pk ko : cpk) : res (att_type * option (list cert)) :=
  (s <- assert_some sig ;;
   cert_check pk a s data ;;;
   check (bytes_eqb (w_spki W ko) (w_spki W pk)) (Lib AttestationError) ;;;
   desc_check c h)%res.

Lemma android_unfold a sig x5c o adb h c pk ko : AndroidKeys W x5c o c pk ko ->
  attest_android_key W a sig x5c (ArgObj o) adb h = android_tail a sig (adb ++ h) h c pk ko.
Proof.
  intros ((leaf & chain & -> & EL & EP) & CV & ad & acd & k & (E1 & E2 & E3) & KO).
  cbn [attest_android_key]. rewrite EL. cbn [lift bind]. rewrite EP. cbn [lift bind].
  replace (match pk with CEC _ _ _ | CEd25519 _ | CEd448 _ => true | COther _ => false end)
    with true by (destruct pk; try reflexivity; exfalso; eapply CV; reflexivity).
  cbn [check bind arg_auth_data]. rewrite E1. cbn [assert_some bind]. rewrite E2.
  cbn [assert_some bind]. rewrite E3, (key_object_eq _ _ KO). cbn [bind]. reflexivity.
Qed.

Lemma android_tail_fails a sig data h c pk ko e : can_verify pk ->
  android_tail a sig data h c pk ko = Raise e <->
  (sig = None /\ e = Py EAssertionError) \/
  exists s, sig = Some s /\
    (CertFails W pk a s data e \/
     CertVerifies W pk a s data /\
       (w_spki W ko <> w_spki W pk /\ e = Lib AttestationError \/
        w_spki W ko = w_spki W pk /\ DescFails c h e)).
Proof.
  intro CV. unfold android_tail. destruct sig as [s|]; cbn [assert_some bind].
  2:{ split; [intros [= <-]; auto|intros [[_ ->]|(s & X & _)]; [reflexivity|discriminate]]. }
  destruct (cert_check pk a s data) as [[]|e'] eqn:EC; cbn [bind].
  - apply cert_check_ok in EC; [|assumption].
    destruct (bytes_eqb (w_spki W ko) (w_spki W pk)) eqn:EB; cbn [check bind].
    + apply bytes_eqb_spec in EB. rewrite desc_check_fails. split.
      * intro H. right. exists s. auto 6.
      * intros [[X _]|(s' & [= <-] & [X|(_ & [[X _]|[_ X]])])]; try discriminate; try assumption;
          [|contradiction].
        apply cert_check_fails in X; [|assumption]. apply cert_check_ok in EC; [|assumption].
        congruence.
    + assert (NE : w_spki W ko <> w_spki W pk)
        by (intro E; rewrite E, bytes_eqb_refl in EB; discriminate).
      split.
      * intros [= <-]. right. exists s. auto 7.
      * intros [[X _]|(s' & [= <-] & [X|(_ & [[_ ->]|[X _]])])]; try discriminate;
          [|reflexivity|contradiction].
        apply cert_check_fails in X; [|assumption]. apply cert_check_ok in EC; [|assumption].
        congruence.
  - split.
    + intros [= <-]. right. exists s. split; [reflexivity|]. left. now apply cert_check_fails.
    + intros [[X _]|(s' & [= <-] & [X|(X & _)])]; try discriminate.
      * apply cert_check_fails in X; [|assumption]. congruence.
      * apply cert_check_ok in X; [|assumption]. congruence.
Qed.

Lemma can_verify_dec pk : {can_verify pk} + {exists n, pk = COther n}.
Proof. destruct pk; try (left; intro; discriminate). right. eauto. Qed.

Lemma android_fails_iff a sig x5c arg adb h e :
  attest_android_key W a sig x5c arg adb h = Raise e <-> AndroidFails W adb h a sig x5c arg e.
Proof.
  split.
  - destruct x5c as [|leaf chain]; [intros [= <-]; constructor|].
    destruct (w_load_cert W leaf) as [c|p] eqn:EL.
    2:{ cbn [attest_android_key]. rewrite EL. intros [= <-]. now constructor. }
    destruct (ce_public_key c) as [pk|p] eqn:EP.
    2:{ cbn [attest_android_key]. rewrite EL. cbn [lift bind]. rewrite EP. intros [= <-].
        eapply af_key; eauto. }
    assert (LC : LeafCert W (leaf :: chain) c pk) by (exists leaf, chain; auto).
    destruct (can_verify_dec pk) as [CV|[n ->]].
    2:{ cbn [attest_android_key]. rewrite EL. cbn [lift bind]. rewrite EP. intros [= <-].
        eapply af_type; eauto. }
    assert (CT : match pk with CEC _ _ _ | CEd25519 _ | CEd448 _ => true | COther _ => false end = true)
      by (destruct pk; try reflexivity; exfalso; eapply CV; reflexivity).
    destruct arg as [o|k].
    2:{ cbn [attest_android_key]. rewrite EL. cbn [lift bind]. rewrite EP. cbn [lift bind].
        rewrite CT. intros [= <-]. eapply af_arg; eauto. }
    destruct (ao_auth_data o) as [ad|] eqn:E1.
    2:{ cbn [attest_android_key]. rewrite EL. cbn [lift bind]. rewrite EP. cbn [lift bind].
        rewrite CT. cbn [check bind arg_auth_data]. rewrite E1. intros [= <-].
        eapply af_none; eauto. left; auto. }
    destruct (ad_attested ad) as [acd|] eqn:E2.
    2:{ cbn [attest_android_key]. rewrite EL. cbn [lift bind]. rewrite EP. cbn [lift bind].
        rewrite CT. cbn [check bind arg_auth_data]. rewrite E1. cbn [assert_some bind]. rewrite E2.
        intros [= <-]. eapply af_none; eauto. right; eauto. }
    destruct (at_key acd) as [k|] eqn:E3.
    2:{ cbn [attest_android_key]. rewrite EL. cbn [lift bind]. rewrite EP. cbn [lift bind].
        rewrite CT. cbn [check bind arg_auth_data]. rewrite E1. cbn [assert_some bind]. rewrite E2.
        cbn [assert_some bind]. rewrite E3.
        intros [= <-]. eapply af_nokey; eauto. exists ad, acd; auto. }
    destruct (cryptography_public_key W k) as [ko|e'] eqn:EK.
    2:{ cbn [attest_android_key]. rewrite EL. cbn [lift bind]. rewrite EP. cbn [lift bind].
        rewrite CT. cbn [check bind arg_auth_data]. rewrite E1. cbn [assert_some bind]. rewrite E2.
        cbn [assert_some bind]. rewrite E3, EK.
        intros [= <-]. apply raise_key_fails in EK. eapply af_convert; [eauto|eauto|repeat split; eauto|eauto]. }
    assert (AK : AndroidKeys W (leaf :: chain) o c pk ko).
    { split; [assumption|]. split; [assumption|]. exists ad, acd, k. split; [repeat split; auto|].
      now apply cpk_iff. }
    rewrite (android_unfold _ _ _ _ _ _ _ _ _ AK), android_tail_fails by assumption.
    intros [[-> ->]|(s & -> & [X|(V & [[NE ->]|[EQ X]])])].
    + eapply af_nosig; eauto.
    + eapply af_sig; eauto.
    + eapply af_spki; eauto.
    + assert (AS : AndroidSigned W a s (leaf :: chain) o (adb ++ h) c) by (exists pk, ko; auto).
      destruct X; [eapply af_ext|eapply af_ext_class|eapply af_decode|eapply af_description]; eauto.
  - assert (T : forall sig x5c o c e, (exists pk ko, AndroidKeys W x5c o c pk ko /\
              ((sig = None /\ e = Py EAssertionError) \/
                exists s, sig = Some s /\
                  (CertFails W pk a s (adb ++ h) e \/
                   CertVerifies W pk a s (adb ++ h) /\
                   (w_spki W ko <> w_spki W pk /\ e = Lib AttestationError \/
                    w_spki W ko = w_spki W pk /\ DescFails c h e)))) ->
              attest_android_key W a sig x5c (ArgObj o) adb h = Raise e).
    { intros sig' x5c' o c e' (pk & ko & AK & X).
      rewrite (android_unfold _ _ _ _ _ _ _ _ _ AK). apply android_tail_fails; [apply AK|exact X]. }
    intros [sig' arg'|sig' leaf chain arg' p EL|sig' leaf chain arg' c p EL EP
           |sig' x5c' arg' c n (leaf & chain & -> & EL & EP)
           |sig' x5c' k c pk (leaf & chain & -> & EL & EP) CV
           |sig' x5c' o c pk (leaf & chain & -> & EL & EP) CV N
           |sig' x5c' o c pk (leaf & chain & -> & EL & EP) CV (ad & acd & E1 & E2 & E3)
           |sig' x5c' o c pk ad acd k e' (leaf & chain & -> & EL & EP) CV (E1 & E2 & E3) KF
           |x5c' o c pk ko AK|s x5c' o c pk ko e' AK CF|s x5c' o c pk ko AK V NE
           |s x5c' o c p e' (pk & ko & AK & V & EQ) X B
           |s x5c' o c (pk & ko & AK & V & EQ) X
           |s x5c' o c ext p e' (pk & ko & AK & V & EQ) X Y B
           |s x5c' o c ext kd (pk & ko & AK & V & EQ) X Y B].
    + reflexivity.
    + cbn [attest_android_key]. now rewrite EL.
    + cbn [attest_android_key]. rewrite EL. cbn [lift bind]. now rewrite EP.
    + cbn [attest_android_key]. rewrite EL. cbn [lift bind]. now rewrite EP.
    + cbn [attest_android_key]. rewrite EL. cbn [lift bind]. rewrite EP. cbn [lift bind].
      destruct pk; try reflexivity; exfalso; eapply CV; reflexivity.
    + cbn [attest_android_key]. rewrite EL. cbn [lift bind]. rewrite EP. cbn [lift bind].
      replace (match pk with CEC _ _ _ | CEd25519 _ | CEd448 _ => true | COther _ => false end)
        with true by (destruct pk; try reflexivity; exfalso; eapply CV; reflexivity).
      cbn [check bind arg_auth_data].
      destruct N as [E1|(ad & E1 & E2)]; rewrite E1; cbn [assert_some bind]; [reflexivity|].
      now rewrite E2.
    + cbn [attest_android_key]. rewrite EL. cbn [lift bind]. rewrite EP. cbn [lift bind].
      replace (match pk with CEC _ _ _ | CEd25519 _ | CEd448 _ => true | COther _ => false end)
        with true by (destruct pk; try reflexivity; exfalso; eapply CV; reflexivity).
      cbn [check bind arg_auth_data]. rewrite E1; cbn [assert_some bind]; rewrite E2;
        cbn [assert_some bind]; now rewrite E3.
    + cbn [attest_android_key]. rewrite EL. cbn [lift bind]. rewrite EP. cbn [lift bind].
      replace (match pk with CEC _ _ _ | CEd25519 _ | CEd448 _ => true | COther _ => false end)
        with true by (destruct pk; try reflexivity; exfalso; eapply CV; reflexivity).
      cbn [check bind arg_auth_data]. rewrite E1; cbn [assert_some bind]; rewrite E2;
        cbn [assert_some bind]; rewrite E3, (key_fails_raise _ _ KF). reflexivity.
    + eapply T. exists pk, ko. split; [exact AK|]. auto.
    + eapply T. exists pk, ko. split; [exact AK|]. right; eauto 10.
    + eapply T. exists pk, ko. split; [exact AK|]. right; eauto 10.
    + eapply T. exists pk, ko. split; [exact AK|]. right. exists s. split; [reflexivity|]. right.
      split; [assumption|]. right. split; [assumption|]. eapply df_ext; eauto.
    + eapply T. exists pk, ko. split; [exact AK|]. right. exists s. split; [reflexivity|]. right.
      split; [assumption|]. right. split; [assumption|]. eapply df_class; eauto.
    + eapply T. exists pk, ko. split; [exact AK|]. right. exists s. split; [reflexivity|]. right.
      split; [assumption|]. right. split; [assumption|]. eapply df_decode; eauto.
    + eapply T. exists pk, ko. split; [exact AK|]. right. exists s. split; [reflexivity|]. right.
      split; [assumption|]. right. split; [assumption|]. eapply df_desc; eauto.
Qed.

(** ** Parsers *)

Lemma not_map v : ~ is_map v -> forall A (f : pydict -> A) (g : A),
  match v with VDict d => f d | _ => g end = g.
Proof. intros N A f g. destruct v; try reflexivity. exfalso. apply N. eexists; reflexivity. Qed.
Lemma map_dec v : {d | v = VDict d} + {~ is_map v}.
Proof.
  destruct v; try (right; intros [? ?]; discriminate). left; eauto.
Qed.

Lemma cose_fails_iff b e : parse_cose_key_bytes W b = Raise e <-> CoseFails W b e.
Proof.
  unfold parse_cose_key_bytes, cbor_loads. split.
  - intro H. destruct (w_cbor_load W b) as [[v rest]|p] eqn:E.
    + cbn [catch bind] in H. destruct (map_dec v) as [[d ->]|N].
      * apply cose_map_fails_iff in H. eapply cof_key; eauto.
      * rewrite (not_map v N) in H. injection H as <-. eapply cof_map; eauto.
    + destruct (catch _ _ _) eqn:EC in H; cbn [bind] in H.
      { apply catch_ok in EC. discriminate. }
      injection H as <-. apply (catch_becomes _ _ _ _ _ cls_cbor) in EC. eapply cof_cbor; eauto.
  - intros [p e' E B|v rest E N|d rest e' E N]; rewrite E.
    + apply (catch_becomes (A := pyval) _ _ _ _ _ cls_cbor) in B. now rewrite B.
    + cbn [catch bind]. now apply not_map.
    + cbn [catch bind]. now apply cose_map_fails_iff.
Qed.

Lemma read_bytes_short bio n : List.length bio < n -> read_bytes bio n = Raise (Py EEOFError).
Proof.
  intro L. unfold read_bytes, take. rewrite firstn_length.
  replace (Nat.eqb _ _) with false; [reflexivity|]. symmetry. apply Nat.eqb_neq. lia.
Qed.
Lemma read_bytes_cases bio n :
  (List.length bio < n /\ read_bytes bio n = Raise (Py EEOFError)) \/
  exists x rest, bio = x ++ rest /\ List.length x = n /\ read_bytes bio n = Ok (x, rest).
Proof.
  destruct (Nat.lt_ge_cases (List.length bio) n) as [L|L].
  - left. split; [assumption|]. now apply read_bytes_short.
  - right. exists (firstn n bio), (skipn n bio).
    assert (E : bio = firstn n bio ++ skipn n bio) by now rewrite firstn_skipn.
    assert (E' : List.length (firstn n bio) = n) by (rewrite firstn_length; lia).
    split; [assumption|]. split; [assumption|]. apply read_bytes_ok. auto.
Qed.

(** One CBOR item of the stream. *)
Lemma stream_catch {A B} (p : pyexn) (k : A -> res B) e :
  catch (bind (catch (Raise (Py p)) is_CBORDecodeError (Lib DecodingError)) k)
        is_EOFError (Lib ParserError) = Raise e <-> stream_error p e.
Proof.
  unfold stream_error, becomes, cbor_errors.
  destruct p; cbn; (split; [intros [= <-]; intuition congruence|]); intuition (congruence || (subst; reflexivity)).
Qed.

Lemma cose_validate d k : CoseKey d k -> ~ UsableKey k -> validate k = Raise (Lib ValidationError).
Proof.
  intros K U. apply (proj2 (c52 k)); [|exact U].
  destruct K as [b x y crv v (B1 & B2 & (w & a & _ & _ & B3) & _) B4|b x crv v (B1 & B2 & (w & a & _ & _ & B3) & _) B4];
    (split; [assumption|congruence]).
Qed.

Lemma att_fails_iff b e : parse_attested W b = Raise e <-> AttFails W b e.
Proof.
  split.
  - unfold parse_attested. intro H.
    destruct (read_bytes_cases b 16) as [[L E]|(aaguid & b1 & -> & L1 & E)]; rewrite E in H.
    { injection H as <-. apply atf_short. lia. }
    cbn [bind] in H.
    destruct (read_bytes_cases b1 2) as [[L E2]|(len & b2 & -> & L2 & E2)]; rewrite E2 in H.
    { injection H as <-. apply atf_short. rewrite app_length. lia. }
    cbn [bind] in H.
    destruct (read_bytes_cases b2 (N.to_nat (be_to_N len))) as [[L E3]|(cid & b3 & -> & L3 & E3)];
      rewrite E3 in H.
    { injection H as <-. eapply atf_cut; eauto. lia. }
    cbn [bind] in H.
    assert (L4 : be_to_N len = N.of_nat (List.length cid)) by lia.
    destruct (w_cbor_load W b3) as [[v rest]|p] eqn:EC.
    2:{ cbn [lift] in H. apply stream_catch in H. eapply atf_cbor; eauto. }
    cbn [lift bind] in H. change (catch (@Ok (pyval * bytes) (v, rest)) is_CBORDecodeError (Lib DecodingError))
      with (@Ok (pyval * bytes) (v, rest)) in H. cbn [bind] in H.
    destruct (map_dec v) as [[d ->]|N].
    2:{ rewrite (not_map v N) in H. injection H as <-. eapply atf_map; eauto. }
    destruct (parse_cose_key_dict W d) as [k|e'] eqn:EK; cbn [bind] in H.
    2:{ assert (CE : is_EOFError e' = false).
        { apply parse_cose_key_dict_raises in EK. destruct e' as [c|p|n]; [reflexivity| |contradiction].
          destruct EK as [-> _]. reflexivity. }
        apply cose_map_fails_iff in EK. cbn [catch] in H. rewrite CE in H. injection H as <-.
        eapply atf_key; eauto. }
    apply cose_key_iff in EK.
    destruct (validate k) as [[]|e'] eqn:EV; cbn [bind] in H; [discriminate|].
    assert (NU : ~ UsableKey k) by (intro U; apply validate_iff in U; congruence).
    rewrite (cose_validate d k EK NU) in EV. injection EV as <-. injection H as <-.
    eapply atf_unusable; eauto.
  - intro H. unfold parse_attested.
    assert (R : forall aaguid len tl, List.length aaguid = 16 -> List.length len = 2 ->
       read_bytes (aaguid ++ len ++ tl) 16 = Ok (aaguid, len ++ tl) /\
       read_bytes (len ++ tl) 2 = Ok (len, tl)).
    { intros aaguid len tl L1 L2. split; apply read_bytes_ok; auto. }
    assert (C : forall len cid tl, be_to_N len = N.of_nat (List.length cid) ->
       read_bytes (cid ++ tl) (N.to_nat (be_to_N len)) = Ok (cid, tl)).
    { intros len cid tl L. apply read_bytes_ok. split; [reflexivity|]. lia. }
    destruct H as [L|aaguid len tl -> L1 L2 L|aaguid len cid tl p e -> L1 L2 L3 EC X
      |aaguid len cid tl v rest -> L1 L2 L3 EC N|aaguid len cid tl d rest e' -> L1 L2 L3 EC N
      |aaguid len cid tl d rest k -> L1 L2 L3 EC K U].
    + destruct (read_bytes_cases b 16) as [[_ E]|(aaguid & b1 & -> & L1 & E)]; rewrite E; [reflexivity|].
      cbn [bind]. rewrite read_bytes_short; [reflexivity|]. rewrite app_length in L. lia.
    + destruct (R aaguid len tl L1 L2) as [-> E2]. cbn [bind]. rewrite E2. cbn [bind].
      rewrite read_bytes_short by lia. reflexivity.
    + destruct (R aaguid len (cid ++ tl) L1 L2) as [-> E2]. cbn [bind]. rewrite E2. cbn [bind].
      rewrite (C _ _ _ L3). cbn [bind]. rewrite EC. cbn [lift]. now apply stream_catch.
    + destruct (R aaguid len (cid ++ tl) L1 L2) as [-> E2]. cbn [bind]. rewrite E2. cbn [bind].
      rewrite (C _ _ _ L3). cbn [bind]. rewrite EC. cbn [lift]. cbn [catch bind].
      now rewrite (not_map v N).
    + destruct (R aaguid len (cid ++ tl) L1 L2) as [-> E2]. cbn [bind]. rewrite E2. cbn [bind].
      rewrite (C _ _ _ L3). cbn [bind]. rewrite EC. cbn [lift]. cbn [catch bind].
      apply cose_map_fails_iff in N. rewrite N. cbn [bind catch].
      apply parse_cose_key_dict_raises in N. destruct e' as [c|p|n]; [reflexivity| |contradiction].
      now destruct N as [-> _].
    + destruct (R aaguid len (cid ++ tl) L1 L2) as [-> E2]. cbn [bind]. rewrite E2. cbn [bind].
      rewrite (C _ _ _ L3). cbn [bind]. rewrite EC. cbn [lift]. cbn [catch bind].
      rewrite (proj2 (cose_key_iff d k) K). cbn [bind]. now rewrite (cose_validate d k K U).
Qed.

(** The part after the attested credential data. *)
Definition ext_part (b : bytes) (f : bool) : res (option ext_outputs) :=
  ('(ext, bio) <- (if f then
                    '(x, bio) <- parse_ext_data W b ;; Ok (Some x, bio)
                  else Ok (None, b)) ;;
   check (match bio with [] => true | _ => false end) (Lib ParserError) ;;;
   Ok ext)%res.

Lemma ext_part_fails b f e : ext_part b f = Raise e <-> ExtFails W b f e.
Proof.
  unfold ext_part. destruct f.
  - unfold parse_ext_data. split.
    + intro H. destruct (w_cbor_load W b) as [[v rest]|p] eqn:EC.
      2:{ cbn [lift] in H. destruct (catch (bind _ _) _ _) as [[x r]|e'] eqn:EE in H; cbn [bind] in H.
          - apply catch_ok in EE. apply bind_ok in EE as (? & EE & _). apply catch_ok in EE. discriminate.
          - injection H as <-. apply stream_catch in EE. eapply exf_cbor; eauto. }
      cbn [lift] in H. change (catch (@Ok (pyval * bytes) (v, rest)) is_CBORDecodeError (Lib DecodingError))
        with (@Ok (pyval * bytes) (v, rest)) in H. cbn [bind] in H.
      destruct (map_dec v) as [[d ->]|N].
      2:{ rewrite (not_map v N) in H. injection H as <-. eapply exf_map; eauto. }
      destruct (parse_extensions W d) as [x|e'] eqn:EX; cbn [bind catch] in H.
      2:{ assert (CE : is_EOFError e' = false).
          { apply parse_extensions_raises in EX. destruct e' as [c|p|n]; [reflexivity| |contradiction].
            destruct EX as [-> _]. reflexivity. }
          apply ext_map_fails_iff in EX. rewrite CE in H. cbn [bind] in H. injection H as <-.
          eapply exf_value; eauto. }
      apply extensions_iff in EX. destruct rest as [|c t]; [discriminate|].
      injection H as <-. eapply exf_rest; eauto. discriminate.
    + intro H. inversion H as [|p e' EC X|v rest EC N|d rest e' EC N|d rest x EC X N]; subst;
        rewrite EC; cbn [lift].
      * apply (stream_catch (A := pyval * bytes) (B := ext_outputs * bytes) p
          (fun '(v, bio) => match v with
             | VDict d => bind (parse_extensions W d) (fun x => Ok (x, bio))
             | _ => raise ParserError end)) in X. now rewrite X.
      * cbn [catch bind]. now rewrite (not_map v N).
      * cbn [catch bind]. apply ext_map_fails_iff in N. rewrite N. cbn [bind catch].
        apply parse_extensions_raises in N. destruct e as [c|p|n]; [reflexivity| |contradiction].
        now destruct N as [-> _].
      * cbn [catch bind]. rewrite (proj2 (extensions_iff d x) X). cbn [catch bind].
        destruct rest; [contradiction|reflexivity].
  - split.
    + intro H. destruct b; [discriminate|]. injection H as <-. constructor. discriminate.
    + intro H. inversion H; subst. destruct b; [contradiction|reflexivity].
Qed.

Lemma parse_header_parts hash f ctr tl :
  List.length hash = 32 -> List.length ctr = 4 ->
  parse_authenticator_data W (hash ++ [f] ++ ctr ++ tl) =
  ('(att, bio) <- (if N.testbit (Byte.to_N f) 6 then
                    '(a, bio) <- parse_attested W tl ;; Ok (Some a, bio)
                  else Ok (None, tl)) ;;
   ext <- ext_part bio (N.testbit (Byte.to_N f) 7) ;;
   Ok {| ad_rp_id_hash := hash; ad_flags := Byte.to_N f; ad_sign_count := be_to_N ctr;
        ad_attested := att; ad_extensions := ext |})%res.
Proof.
  intros L1 L2. rewrite parse_header by assumption.
  destruct (if N.testbit (Byte.to_N f) 6 then _ else _) as [[att bio]|e]; [|reflexivity].
  cbn [bind]. unfold ext_part.
  destruct (if N.testbit (Byte.to_N f) 7 then _ else _) as [[ext bio2]|e]; [|reflexivity].
  cbn [bind]. destruct bio2; reflexivity.
Qed.

Lemma att_read_iff (f : bool) tl att extb :
  (if f then '(a, bio) <- parse_attested W tl ;; Ok (Some a, bio) else Ok (None, tl))%res
  = Ok (att, extb) <-> AttRead W f tl extb att.
Proof.
  destruct f; split; intro H.
  - apply bind_ok in H as ([a0 bio0] & HA & E). injection E as <- <-.
    apply parse_attested_ok in HA as (aaguid & cid & bio' & d & k & -> & A1 & A2 & A3 & A4 & A5 & ->).
    econstructor; eauto.
  - inversion H as [|aaguid cid tl' follow d k A1 A2 A3 A4 A5 B]; subst.
    erewrite (proj2 (parse_attested_ok _ _ _ _)).
    2:{ exists aaguid, cid, tl', d, k. repeat split; eauto. }
    reflexivity.
  - injection H as <- <-. constructor.
  - inversion H; subst. reflexivity.
Qed.

Lemma auth_fails_iff b e : parse_authenticator_data W b = Raise e <-> AuthFails W b e.
Proof.
  split.
  - intro H. destruct (Nat.lt_ge_cases (List.length b) 37) as [L|L].
    { unfold parse_authenticator_data in H. rewrite (proj2 (Nat.ltb_lt _ _) L) in H.
      injection H as <-. now constructor. }
    destruct (nth_split32 b L) as (hash & f & ctr & tl & -> & L1 & L2).
    rewrite parse_header_parts in H by assumption.
    destruct (if N.testbit (Byte.to_N f) 6 then _ else _) as [[att extb]|e'] eqn:EA in H.
    + apply att_read_iff in EA. cbn [bind] in H.
      destruct (ext_part extb _) as [x|e'] eqn:EX in H; [discriminate|]. injection H as <-.
      apply ext_part_fails in EX. eapply auf_ext; eauto.
    + cbn [bind] in H. injection H as <-. destruct (N.testbit (Byte.to_N f) 6) eqn:T; [|discriminate].
      destruct (parse_attested W tl) as [[a bio]|e2] eqn:EP; [discriminate|]. injection EA as <-.
      apply att_fails_iff in EP. eapply auf_att; eauto.
  - intros [b' L|hash f ctr tl e' L1 L2 T X|hash f ctr tl extb att e' L1 L2 R X].
    + unfold parse_authenticator_data. now rewrite (proj2 (Nat.ltb_lt _ _) L).
    + rewrite parse_header_parts by assumption. rewrite T. apply att_fails_iff in X. now rewrite X.
    + rewrite parse_header_parts by assumption. apply att_read_iff in R.
      match goal with |- bind ?m _ = _ => replace m with (@Ok (option attested * bytes) (att, extb))
        by (symmetry; exact R) end. cbn [bind].
      apply ext_part_fails in X. now rewrite X.
Qed.

Lemma fmt_find s : (exists f, s = lit (fmt_name f) /\
    find (fun g => str_eqb (fmt_value g) s) all_fmts = Some f) \/
  ((forall f, s <> lit (fmt_name f)) /\ find (fun g => str_eqb (fmt_value g) s) all_fmts = None).
Proof.
  assert (FN : forall f, fmt_value f = lit (fmt_name f)) by (intros []; reflexivity).
  destruct (find _ _) as [f|] eqn:F.
  - left. exists f. split; [|reflexivity]. apply find_fmt in F. now rewrite F, FN.
  - right. split; [|reflexivity]. intros f E. rewrite <- FN in E.
    rewrite (proj2 (find_fmt s f) E) in F. discriminate.
Qed.

Lemma attobj_fails_iff b e :
  parse_attestation_object W b = Raise e <-> AttObjFails W b e.
Proof.
  unfold parse_attestation_object, cbor_loads, dict_index, skey. split.
  - intro H. destruct (w_cbor_load W b) as [[v rest]|p] eqn:EC.
    2:{ destruct (catch _ _ _) eqn:EE in H; cbn [bind] in H.
        - apply catch_ok in EE. discriminate.
        - injection H as <-. apply (catch_becomes _ _ _ _ _ cls_cbor) in EE. eapply aof_cbor; eauto. }
    cbn [catch bind] in H. destruct (map_dec v) as [[d ->]|N].
    2:{ rewrite (not_map v N) in H. injection H as <-. eapply aof_map; eauto. }
    destruct (dict_find (VStr (lit "authData")) d) as [av|] eqn:Ea.
    2:{ injection H as <-. eapply (aof_member W b d rest "authData"); eauto; [cbn; auto|].
        unfold member. congruence. }
    cbn [bind] in H.
    destruct (dict_find (VStr (lit "fmt")) d) as [fv|] eqn:Ef.
    2:{ injection H as <-. eapply (aof_member W b d rest "fmt"); eauto; [cbn; auto|].
        unfold member. congruence. }
    cbn [bind] in H.
    destruct (dict_find (VStr (lit "attStmt")) d) as [sv|] eqn:Es.
    2:{ injection H as <-. eapply (aof_member W b d rest "attStmt"); eauto; [cbn; auto|].
        unfold member. congruence. }
    cbn [bind] in H.
    assert (AM : AttMembers W b fv av sv) by (exists d, rest; auto).
    destruct fv as [| | | |s| | | | | |]; try (injection H as <-; eapply aof_fmt; [eauto|discriminate]).
    destruct (fmt_find s) as [(f & -> & F)|[NF F]]; rewrite F in H; cbn [bind] in H.
    2:{ injection H as <-. eapply aof_fmt; eauto. intros f [= X]. exact (NF f X). }
    destruct av as [| | | | |adb| | | | |]; try (injection H as <-; eapply aof_bytes; [eauto|discriminate]).
    destruct (parse_authenticator_data W adb) as [ad|e'] eqn:EA; cbn [bind] in H.
    2:{ apply auth_fails_iff in EA. destruct (is_KeyError e') eqn:EK.
        - assert (e' = Py EKeyError) as -> by (destruct e' as [|[]|]; try discriminate; reflexivity).
          injection H as <-. eapply aof_auth; eauto.
        - cbn [catch] in H. rewrite EK in H. injection H as <-. eapply aof_auth; eauto.
          right. split; [|reflexivity]. intros ->. discriminate. }
    cbn [catch bind] in H. apply auth_reads_iff in EA.
    destruct (map_dec sv) as [[sd ->]|N].
    2:{ rewrite (not_map sv N) in H. injection H as <-. eapply aof_stmt_map; eauto. }
    destruct (statement_parser W f sd) as [st|e'] eqn:S; cbn [catch bind] in H; [discriminate|].
    assert (CE : is_AttributeError e' = false).
    { apply statement_raises in S. destruct e' as [c|p|n]; [reflexivity| |contradiction]. now destruct S as [-> _]. }
    rewrite CE in H. cbn [bind] in H. injection H as <-. apply stmt_map_fails_iff in S.
    eapply aof_stmt; eauto.
  - assert (T : forall fv av sv e, AttMembers W b fv av sv ->
       forall k : pydict -> res (att_obj * pydict),
       (forall d, k d = ('(asfi, ad, stmt_v) <- catch (
          match fv with
          | VStr fmt =>
              asfi <- match find (fun f => str_eqb (fmt_value f) fmt) all_fmts with
                      | Some f => Ok f
                      | None => raise ParserError
                      end ;;
              match av with
              | VBytes adb =>
                  ad <- parse_authenticator_data W adb ;;
                  Ok (asfi, ad, sv)
              | _ => raise ParserError
              end
          | _ => raise ParserError
          end) is_KeyError (Lib ParserError) ;;
        match stmt_v with
        | VDict sd =>
            stmt <- catch (statement_parser W asfi sd) is_AttributeError (Lib ParserError) ;;
            Ok ({| ao_auth_data := Some ad; ao_fmt := asfi; ao_stmt := stmt |}, d)
        | _ => raise ParserError
        end)%res) ->
       (forall d, k d = Raise e) -> parse_attestation_object W b = Raise e).
    { intros fv av sv e' (d & rest & EC & Ef & Ea & Es) k K X.
      unfold parse_attestation_object, cbor_loads, dict_index, skey, member in *.
      rewrite EC. cbn [catch bind]. rewrite Ea, Ef, Es. cbn [bind]. rewrite <- K. apply X. }
    unfold parse_attestation_object, cbor_loads, dict_index, skey in T.
    assert (FN : forall f, find (fun g => str_eqb (fmt_value g) (lit (fmt_name f))) all_fmts = Some f).
    { intro f. apply find_fmt. now destruct f. }
    intros [p e' EC B|v rest EC N|d rest m EC I N|fv av sv AM N|f av sv AM N
           |f adb sv e1 e' AM X Y|f adb sv ad AM R N|f adb sd ad e' AM R N].
    + rewrite EC. apply (catch_becomes (A := pyval) _ _ _ _ _ cls_cbor) in B. now rewrite B.
    + rewrite EC. cbn [catch bind]. now apply not_map.
    + rewrite EC. cbn [catch bind]. unfold member in N.
      assert (M : dict_find (VStr (lit m)) d = None)
        by (destruct (dict_find (VStr (lit m)) d) as [v|]; [destruct (N v eq_refl)|reflexivity]).
      destruct (dict_find (VStr (lit "authData")) d) as [av|] eqn:Ea; [|reflexivity].
      destruct (dict_find (VStr (lit "fmt")) d) as [fv|] eqn:Ef; [|reflexivity].
      destruct (dict_find (VStr (lit "attStmt")) d) as [sv|] eqn:Es; [|reflexivity].
      cbn [In] in I. destruct I as [<-|[<-|[<-|[]]]]; congruence.
    + eapply T; [exact AM|intro; reflexivity|]. intro d.
      destruct fv as [| | | |s| | | | | |]; try reflexivity.
      destruct (fmt_find s) as [(f & -> & F)|[NF F]]; [exfalso; eapply N; reflexivity|].
      rewrite F. reflexivity.
    + eapply T; [exact AM|intro; reflexivity|]. intro d. rewrite FN. cbn [bind].
      destruct av; try reflexivity. exfalso; eapply N; reflexivity.
    + eapply T; [exact AM|intro; reflexivity|]. intro d. rewrite FN. cbn [bind].
      apply auth_fails_iff in X. rewrite X. cbn [bind].
      destruct Y as [[-> ->]|[NE ->]]; [reflexivity|].
      cbn [catch]. replace (is_KeyError e1) with false; [reflexivity|].
      destruct e1 as [|[]|]; try reflexivity. contradiction.
    + eapply T; [exact AM|intro; reflexivity|]. intro d. rewrite FN. cbn [bind].
      apply auth_reads_iff in R. rewrite R. cbn [catch bind].
      now rewrite (not_map sv N).
    + eapply T; [exact AM|intro; reflexivity|]. intro d. rewrite FN. cbn [bind].
      apply auth_reads_iff in R. rewrite R. cbn [catch bind].
      apply stmt_map_fails_iff in N. rewrite N. cbn [catch].
      apply statement_raises in N. destruct e' as [c|p|n]; [reflexivity| |contradiction]. now destruct N as [-> _].
Qed.

End W.

(** ** With the CBOR decoder of Cbor.v *)

Definition cbor_escapes : list pyexn := [EUnicodeDecodeError; ERecursionError; EOther 998].

(** What else can come out, given what the tags raise. *)
Definition escapes (tags : tagsem) (p : pyexn) : Prop :=
  In p cbor_escapes \/
  (exists imm t v, tags imm t v = WRaise p) /\ ~ In p [ECBORDecodeEOF; ECBORDecodeValueError].

Lemma cbor_becomes tags depth b p e :
  cbor_load_tags tags depth b = WRaise p -> becomes cbor_errors DecodingError p e ->
  e = Lib DecodingError \/ (exists q, e = Py q /\ escapes tags q).
Proof.
  intros H B. apply cbor_load_fails in H. unfold becomes, cbor_errors, escapes, cbor_escapes in *.
  destruct B as [[_ ->]|[N ->]]; [auto|]. right. exists p. split; [reflexivity|].
  destruct H as [H|H]; [left|right; split; [exact H|cbn [In] in *; tauto]].
  cbn [In cbor_exns] in *. destruct H as [<-|[<-|[<-|[<-|[<-|[]]]]]]; tauto.
Qed.
Lemma cbor_stream tags depth b p e :
  cbor_load_tags tags depth b = WRaise p -> stream_error p e ->
  e = Lib DecodingError \/ e = Lib ParserError \/ (exists q, e = Py q /\ escapes tags q).
Proof.
  intros H [[-> ->]|[_ B]]; [auto|].
  destruct (cbor_becomes _ _ _ _ _ H B); auto.
Qed.

Section Cbor.
Variable W : World.
Variable tags : tagsem.
Variable depth : nat.
Hypothesis MC : forall b, w_cbor_load W b = cbor_load_tags tags depth b.

Definition parser_outcome (e : exn) : Prop :=
  (exists c, e = Lib c /\ In c [ParserError; DecodingError; ValidationError]) \/
  (exists q, e = Py q /\ escapes tags q) \/
  (e = Py EValueError /\ exists v, shows W v = false).

Lemma outcome_lib c : In c [ParserError; DecodingError; ValidationError] -> parser_outcome (Lib c).
Proof. left. eauto. Qed.
Lemma outcome_cbor e : e = Lib DecodingError \/ (exists q, e = Py q /\ escapes tags q) ->
  parser_outcome e.
Proof. intros [->|H]; [apply outcome_lib; cbn; auto|right; left; exact H]. Qed.
Lemma outcome_stream e :
  e = Lib DecodingError \/ e = Lib ParserError \/ (exists q, e = Py q /\ escapes tags q) ->
  parser_outcome e.
Proof. intros [->|[->|H]]; [| |right; left; exact H]; apply outcome_lib; cbn; auto. Qed.
Hint Resolve outcome_lib : core.

Lemma outcome_map e : map_error W [ParserError] e -> parser_outcome e.
Proof.
  intros [(c & -> & I)|H]; [|right; right; exact H]. apply outcome_lib. cbn in *. tauto.
Qed.

Lemma cose_outcome b e : parse_cose_key_bytes W b = Raise e -> parser_outcome e.
Proof.
  intro H. apply cose_fails_iff in H.
  destruct H as [p e E B| |d rest e _ M]; try (apply outcome_lib; cbn; auto; fail).
  - rewrite MC in E. apply outcome_cbor. eapply cbor_becomes; eauto.
  - apply outcome_map. exact (proj1 (map_errors W F_NONE d e) M).
Qed.
Lemma auth_outcome b e : parse_authenticator_data W b = Raise e -> parser_outcome e.
Proof.
  intro H. apply auth_fails_iff in H.
  destruct H as [|hash f ctr tl e _ _ _ X|hash f ctr tl extb att e _ _ _ X].
  - apply outcome_lib; cbn; auto.
  - destruct X as [| |aaguid len cid tl' p e' _ _ _ _ E B| |aaguid len cid tl' d rest e' _ _ _ _ _ M|];
      try (apply outcome_lib; cbn; auto; fail).
    + rewrite MC in E. apply outcome_stream. eapply cbor_stream; eauto.
    + apply outcome_map. exact (proj1 (map_errors W F_NONE d e') M).
  - destruct X as [|p e E B| |d rest e _ M|]; try (apply outcome_lib; cbn; auto; fail).
    + rewrite MC in E. apply outcome_stream. eapply cbor_stream; eauto.
    + apply outcome_map. exact (proj1 (proj2 (proj2 (map_errors W F_NONE d e))) M).
Qed.
Lemma attobj_outcome b e : parse_attestation_object W b = Raise e -> parser_outcome e.
Proof.
  intro H. apply attobj_fails_iff in H.
  destruct H as [p e E B| | | | |f adb sv e e' _ X Y| |f adb sd ad e _ _ M]; try (apply outcome_lib; cbn; auto; fail).
  - rewrite MC in E. apply outcome_cbor. eapply cbor_becomes; eauto.
  - apply auth_fails_iff, auth_outcome in X. destruct Y as [[_ ->]|[_ ->]]; [|exact X].
    apply outcome_lib; cbn; auto.
  - apply outcome_map. exact (proj1 (proj2 (map_errors W f sd e)) M).
Qed.

Lemma deep_list imm t : forall d k,
  cdec tags (S (2 * d + k)) d imm (repeat x81 (S d) ++ t) = WRaise ERecursionError.
Proof.
  induction d as [|d IH]; intro k; [reflexivity|].
  replace (S (2 * S d + k)) with (S (S (S (2 * d + k)))) by lia.
  cbn [repeat app]. cbn [cdec]. change (N_of_byte x81) with 129%N.
  change (129 / 32)%N with 4%N. change (129 mod 32)%N with 1%N. cbn [N.eqb Pos.eqb].
  change (clength 1 true ?r) with (@WOk (option N * bytes) (Some 1%N, r)). cbn [wbind].
  cbn [citems]. cbn [N.eqb]. change (x81 :: repeat x81 d ++ t) with (repeat x81 (S d) ++ t).
  rewrite IH. reflexivity.
Qed.

Lemma deep_object t :
  parse_cose_key_bytes W (repeat x81 (S depth) ++ t) = Raise (Py ERecursionError) /\
  parse_attestation_object W (repeat x81 (S depth) ++ t) = Raise (Py ERecursionError).
Proof.
  assert (E : cbor_load_tags tags depth (repeat x81 (S depth) ++ t) = WRaise ERecursionError).
  { unfold cbor_load_tags. rewrite app_length, repeat_length.
    replace (2 * (S depth + List.length t) + 2) with (S (2 * depth + (2 * List.length t + 3))) by lia.
    apply deep_list. }
  split; [unfold parse_cose_key_bytes|unfold parse_attestation_object];
    unfold cbor_loads; rewrite MC, E; reflexivity.
Qed.

(** Authenticator data: a header with the ED flag, then the nested lists. *)
Lemma deep_auth hash ctr t : List.length hash = 32 -> List.length ctr = 4 ->
  parse_authenticator_data W (hash ++ [x80] ++ ctr ++ repeat x81 (S depth) ++ t)
  = Raise (Py ERecursionError).
Proof.
  intros L1 L2. apply auth_fails_iff. eapply auf_ext; [assumption|assumption| |].
  - change (N.testbit (to_N x80) 6) with false. constructor.
  - change (N.testbit (to_N x80) 7) with true. eapply exf_cbor.
    + rewrite MC. unfold cbor_load_tags. rewrite app_length, repeat_length.
      replace (2 * (S depth + List.length t) + 2) with (S (2 * depth + (2 * List.length t + 3))) by lia.
      apply deep_list.
    + right. split; [discriminate|]. right. split; [|reflexivity]. cbn. intuition discriminate.
Qed.

End Cbor.
