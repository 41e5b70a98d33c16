(** * Utf8Facts: encoding then decoding. *)
From Coq Require Import List NArith ZArith Bool Lia ZifyBool ZifyNat ZifyN.
From Verif Require Import Base BaseFacts Utf8.
Import ListNotations.
Local Open Scope N_scope.
Ltac Zify.zify_post_hook ::= Z.div_mod_to_equations.

Ltac decide_if :=
  match goal with |- (if ?b then _ else _) = _ =>
    first [replace b with true by lia | replace b with false by lia]; cbv iota
  end.

Lemma Some_inj {A} (a b : A) : Some a = Some b -> a = b.
Proof. congruence. Qed.

Lemma utf8_enc1_decode c e t :
  utf8_enc1 c = Some e -> utf8_decode (e ++ t) = rcons c (utf8_decode t).
Proof.
  unfold utf8_enc1. intro H.
  destruct (c <? 128) eqn:E1.
  { apply Some_inj in H; subst e. cbn [app]; cbn [utf8_decode]; cbv zeta. rewrite N_of_byte_of_N.
    replace (c mod 256) with c by lia. now rewrite E1. }
  destruct (c <? 2048) eqn:E2.
  { apply Some_inj in H; subst e. cbn [app]; cbn [utf8_decode]; cbv zeta. rewrite !N_of_byte_of_N. unfold cont_byte.
    repeat decide_if. f_equal. lia. }
  destruct (is_surrogate c) eqn:ES; [discriminate|]. unfold is_surrogate in ES.
  destruct (c <? 65536) eqn:E3.
  { apply Some_inj in H; subst e. cbn [app]; cbn [utf8_decode]; cbv zeta. rewrite !N_of_byte_of_N.
    unfold cont_byte, is_surrogate.
    match goal with |- context [?a * 4096 + ?b * 64 + ?d] =>
      replace (a * 4096 + b * 64 + d) with c by lia end.
    repeat decide_if. reflexivity. }
  destruct (c <=? 1114111) eqn:E4; [|discriminate].
  apply Some_inj in H; subst e. cbn [app]; cbn [utf8_decode]; cbv zeta. rewrite !N_of_byte_of_N.
  unfold cont_byte, is_surrogate.
  match goal with |- context [?a * 262144 + ?b * 4096 + ?d * 64 + ?e] =>
    replace (a * 262144 + b * 4096 + d * 64 + e) with c by lia end.
  repeat decide_if. reflexivity.
Qed.

Lemma utf8_roundtrip s b : utf8_encode s = Ok b -> utf8_decode b = Ok s.
Proof.
  revert b; induction s as [|c t IH]; cbn [utf8_encode]; intros b H.
  - injection H as <-. reflexivity.
  - destruct (utf8_enc1 c) as [e|] eqn:E; [|discriminate].
    destruct (utf8_encode t) as [r|]; [|discriminate]. injection H as <-.
    rewrite (utf8_enc1_decode c e r E), (IH r eq_refl). reflexivity.
Qed.

Lemma utf8_encode_inj s s' b : utf8_encode s = Ok b -> utf8_encode s' = Ok b -> s = s'.
Proof. intros H H'. apply utf8_roundtrip in H, H'. congruence. Qed.
