(** * CryptoFacts: keys, signatures, attestation statements. *)
From Coq Require Import List NArith ZArith Bool Lia String.
From Coq Require Import Strings.Byte.
From Verif Require Import Base PyVal BaseFacts B64 Utf8 Url Types World Parsers Crypto
  Backends Spec AuthFacts RaiseFacts.
Import ListNotations.
Local Open Scope res_scope.
Local Open Scope list_scope.

Section W.
Variable W : World.

Lemma cpk_iff k o : cryptography_public_key W k = Ok o <-> KeyObject W k o.
Proof.
  split.
  - intro H. destruct k as [b x y [f c]|b [f c] x|b]; cbn in H; [| |discriminate].
    + destruct c; cbn in H; try discriminate; inv_ok H; destruct a; now constructor.
    + apply catch_ok in H. destruct c; cbn in H; try discriminate; inv_ok H; destruct a;
        now constructor.
  - intro H. inversion H as [b x y f E|b x y f E|b x y f E|b x f E|b x f E]; subst;
      cbn; rewrite E; reflexivity.
Qed.

Lemma key_object_fun k o o' : KeyObject W k o -> KeyObject W k o' -> o = o'.
Proof. rewrite <- !cpk_iff. congruence. Qed.

Lemma hash_iff f a h : ec2_hash_algorithm (f, a) = Ok h <-> AlgHash a h.
Proof.
  split.
  - destruct a; cbn; intro H; try discriminate; injection H as <-; constructor.
  - intro H; inversion H; reflexivity.
Qed.

Lemma verify_iff k s d : verify W k s d = Ok tt <-> SignatureSpec W k s d.
Proof.
  split.
  - intro H. destruct k as [b x y c|b c x|b]; cbn - [cryptography_public_key ec2_hash_algorithm] in H;
      [| |discriminate].
    + apply bind_ok in H as (o & Ho & H). apply cpk_iff in Ho.
      destruct (kb_alg b) as [[f a]|] eqn:Ea; [|discriminate].
      apply bind_ok in H as (h & Hh & H). apply hash_iff in Hh. inv_ok H.
      econstructor; eauto.
    + apply bind_ok in H as (o & Ho & H). apply cpk_iff in Ho. inv_ok H.
      econstructor; eauto.
  - intro H. inversion H as [b x y c o f a h s' d' H1 H2 H3 H4|b x c o s' d' H1 H2]; subst;
      cbn - [cryptography_public_key ec2_hash_algorithm].
    + apply cpk_iff in H1. rewrite H1. cbn [bind]. rewrite H2.
      apply (hash_iff f) in H3. rewrite H3. cbn [bind]. rewrite H4. reflexivity.
    + apply cpk_iff in H1. rewrite H1. cbn [bind]. rewrite H2. reflexivity.
Qed.

(** With the key type and the algorithm set, a failure is a ValidationError. *)
Lemma validate_error k :
  (match k with
   | EC2Key b _ _ _ => snd (kb_kty b) = KT_EC2 /\ kb_alg b <> None
   | OKPKey b _ _ => snd (kb_kty b) = KT_OKP /\ kb_alg b <> None
   | OtherKey _ => False
   end) -> ~ UsableKey k -> validate k = Raise (Lib ValidationError).
Proof.
  intros HK HN. rewrite <- validate_iff in HN.
  destruct k as [b x y c|b c x|b]; [| |destruct HK]; destruct HK as [K1 K2];
    cbn [validate] in *; rewrite K1 in *; cbn [passert check bind] in *;
    destruct (kb_alg b) as [[f a]|]; try congruence; cbn [is_some passert check bind] in *;
    destruct (snd c); cbn in *; try reflexivity; destruct a; cbn in *; try reflexivity;
    congruence.
Qed.

(** ** Attestation *)
Lemma u2f_iff sig x5c o adb h r :
  attest W (S_U2F sig x5c) (ArgObj o) adb h = Ok r <->
  exists c, r = (AT_BASIC, Some [c]) /\ U2FSpec W sig x5c o h c.
Proof.
  cbn [attest]. unfold attest_fido_u2f. split.
  - intro H. destruct x5c as [|der [|? ?]]; try discriminate.
    apply bind_ok in H as (c & Hc & H). apply catch_ok, lift_ok in Hc.
    apply bind_ok in H as (pk & Hpk & H). apply lift_ok in Hpk.
    destruct pk as [crv px py| | |]; try discriminate.
    destruct crv; try discriminate.
    cbn [arg_auth_data bind] in H.
    destruct (ao_auth_data o) as [ad|] eqn:Ead; [|discriminate]. cbn [assert_some bind] in H.
    destruct (ad_attested ad) as [acd|] eqn:Eacd; [|discriminate]. cbn [assert_some bind] in H.
    destruct (at_key acd) as [k|] eqn:Ek; [|discriminate]. cbn [assert_some bind] in H.
    destruct k as [b x y c'|b c' x|b]; try discriminate. cbn [bind] in H.
    destruct sig as [s|]; [|discriminate]. cbn [assert_some bind] in H.
    apply bind_ok in H as (u & Hu & H). apply catch_ok, lift_ok in Hu. destruct u.
    injection H as <-. exists c. split; [reflexivity|].
    exists der, px, py, ad, acd, b, x, y, c', s. repeat split; auto.
  - intros (c & -> & der & px & py & ad & acd & b & x & y & crv & s & -> & H1 & H2 & H3 & H4 & H5 & -> & H6).
    rewrite H1. cbn [lift catch bind]. rewrite H2. cbn [lift bind arg_auth_data].
    rewrite H3. cbn [assert_some bind]. rewrite H4. cbn [assert_some bind].
    rewrite H5. cbn [assert_some bind].
    change (byte_of_N 0) with x00. change (byte_of_N 4) with x04.
    cbn [app] in H6. rewrite H6. reflexivity.
Qed.

Lemma cert_verifies_iff pk a s d :
  match pk with COther _ => False | _ => True end ->
  ((match pk with
    | CEd25519 _ | CEd448 _ => lift (w_verify W pk PureEdDSA s d)
    | _ => al <- assert_some a ;; h <- ec2_hash_algorithm al ;;
           lift (w_verify W pk (ECDSA h) s d)
    end) = Ok tt <-> CertVerifies W pk a s d).
Proof.
  intro NO. destruct pk as [c x y|b|b|n]; [| | |destruct NO].
  - split.
    + intro H. destruct a as [[f a]|]; [|discriminate]. cbn [assert_some bind] in H.
      apply bind_ok in H as (h & Hh & H). apply hash_iff in Hh. apply lift_ok in H.
      econstructor; eauto.
    + intro H. inversion H as [c' x' y' f a' h s' d' H1 H2| |]; subst.
      cbn [assert_some bind]. apply (hash_iff f) in H1. rewrite H1. cbn [bind].
      rewrite H2. reflexivity.
  - rewrite lift_ok. split; [now constructor|]. intro H; inversion H; assumption.
  - rewrite lift_ok. split; [now constructor|]. intro H; inversion H; assumption.
Qed.

Lemma existsb_Z_in z l : existsb (Z.eqb z) l = true <-> In z l.
Proof.
  rewrite existsb_exists. split.
  - intros (y & Hy & E). apply Z.eqb_eq in E. now subst.
  - intro H. exists z. split; [assumption|apply Z.eqb_refl].
Qed.

Lemma android_iff a sig x5c o adb h r :
  attest W (S_AndroidKey a sig x5c) (ArgObj o) adb h = Ok r <->
  exists c, r = (AT_BASIC, Some [c]) /\ AndroidSpec W a sig x5c o adb h c.
Proof.
  cbn [attest]. unfold attest_android_key. split.
  - intro H. destruct x5c as [|leaf chain]; try discriminate.
    apply bind_ok in H as (c & Hc & H). apply lift_ok in Hc.
    apply bind_ok in H as (pk & Hpk & H). apply lift_ok in Hpk.
    apply bind_ok in H as (? & Hk & H). apply check_ok in Hk.
    cbn [arg_auth_data bind] in H.
    destruct (ao_auth_data o) as [ad|] eqn:Ead; [|discriminate]. cbn [assert_some bind] in H.
    destruct (ad_attested ad) as [acd|] eqn:Eacd; [|discriminate]. cbn [assert_some bind] in H.
    destruct (at_key acd) as [k|] eqn:Ek; [|discriminate].
    apply bind_ok in H as (ko & Hko & H). apply cpk_iff in Hko.
    destruct sig as [s|]; [|discriminate]. cbn [assert_some bind] in H.
    apply bind_ok in H as (u & Hv & H). apply catch_ok in Hv. destruct u.
    rewrite cert_verifies_iff in Hv by (destruct pk; auto; discriminate).
    apply bind_ok in H as (? & Hs & H). apply check_ok, bytes_eqb_spec in Hs.
    apply bind_ok in H as (ext & He & H). apply catch_ok in He.
    apply bind_ok in He as (e & He & Hs'). apply lift_ok in He.
    destruct e as [e|]; [|discriminate]. injection Hs' as ->.
    apply bind_ok in H as (kd & Hd & H). apply catch_ok, lift_ok in Hd.
    apply bind_ok in H as (? & C1 & H). apply check_ok, bytes_eqb_spec in C1.
    apply bind_ok in H as (? & C2 & H). apply check_ok, negb_true_iff, orb_false_iff in C2 as [C2 C3].
    apply bind_ok in H as (? & C4 & H). apply check_ok in C4.
    apply bind_ok in H as (? & C5 & H). apply check_ok in C5.
    destruct (al_origin (kd_tee kd)) as [z|] eqn:Eo; [|discriminate].
    apply Z.eqb_eq in C4. unfold KM_ORIGIN_GENERATED in C4. subst z.
    destruct (al_purpose (kd_tee kd)) as [l|] eqn:Ep; [|discriminate].
    apply existsb_Z_in in C5. injection H as <-.
    exists c. split; [reflexivity|].
    exists leaf, chain, pk, ad, acd, k, ko, s, ext, kd, l.
    repeat split; auto.
  - intros (c & -> & leaf & chain & pk & ad & acd & k & ko & s & ext & kd & l & -> & H1 & H2
            & H3 & H4 & H5 & H6 & -> & H7 & H8 & H9 & H10 & H11 & H12 & H13 & H14 & H15 & H16).
    rewrite H1. cbn [lift bind]. rewrite H2. cbn [lift bind].
    assert (K : match pk with CEC _ _ _ | CEd25519 _ | CEd448 _ => true | COther _ => false end = true)
      by (inversion H7; reflexivity).
    rewrite K. cbn [check bind arg_auth_data].
    rewrite H3. cbn [assert_some bind]. rewrite H4. cbn [assert_some bind]. rewrite H5.
    apply cpk_iff in H6. rewrite H6. cbn [bind].
    apply cert_verifies_iff in H7; [|destruct pk; auto; discriminate].
    cbn [assert_some bind] in H7 |- *. rewrite H7. cbn [catch bind].
    rewrite H8, bytes_eqb_refl. cbn [check bind]. rewrite H9. cbn [lift bind assert_some catch].
    rewrite H10. cbn [lift catch bind]. rewrite H11, bytes_eqb_refl. cbn [check bind].
    rewrite H12, H13. cbn [orb negb check bind]. rewrite H14. cbn [Z.eqb check bind].
    rewrite H15. apply existsb_Z_in in H16. unfold KM_PURPOSE_SIGN. rewrite H16. reflexivity.
Qed.

(** Called as the backend calls it, only the "none" statement attests. *)
Lemma attest_key_ok st ko adb h r :
  attest W st (ArgKey ko) adb h = Ok r <-> st = S_None /\ r = (AT_NONE, None).
Proof.
  split.
  - destruct st; cbn [attest]; try discriminate.
    + unfold attest_android_key. intro H. destruct x5c; [discriminate|].
      apply bind_ok in H as (? & _ & H). apply bind_ok in H as (? & _ & H).
      apply bind_ok in H as (? & _ & H). discriminate.
    + unfold attest_fido_u2f. intro H. destruct x5c as [|? [|? ?]]; try discriminate.
      apply bind_ok in H as (? & _ & H). apply bind_ok in H as (pk & _ & H).
      destruct pk as [[]| | |]; discriminate.
    + intro H; injection H as <-. auto.
  - intros [-> ->]. reflexivity.
Qed.

End W.
