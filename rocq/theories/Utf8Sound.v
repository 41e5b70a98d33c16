(** * Utf8Sound: decoding then encoding; what is encodable. *)
From Coq Require Import List NArith ZArith Bool Lia ZifyBool ZifyNat ZifyN.
From Verif Require Import Base BaseFacts Utf8 Utf8Facts.
Import ListNotations.
Local Open Scope N_scope.
Ltac Zify.zify_post_hook ::= idtac.

Lemma rcons_ok {A} (a : A) m l : rcons a m = Ok l -> exists l', m = Ok l' /\ l = a :: l'.
Proof. destruct m; cbn; [|discriminate]. intro H. injection H as <-. eauto. Qed.

Lemma byte_eq n b : n = N_of_byte b -> byte_of_N n = b.
Proof. intros ->. apply byte_of_N_of_byte. Qed.

Lemma utf8_decode_sound n : forall b s, (List.length b <= n)%nat -> utf8_decode b = Ok s -> utf8_encode s = Ok b.
Proof.
  induction n as [|n IH]; intros b s L H; destruct b as [|b0 t0]; cbn [List.length] in L;
    try lia; try (injection H as <-; reflexivity).
  cbn [utf8_decode] in H; cbv zeta in H.
  destruct (N.ltb_spec (N_of_byte b0) 128) as [L0|L0].
  { apply rcons_ok in H as (s' & H & ->). apply IH in H; [|lia]. cbn [utf8_encode]. unfold utf8_enc1.
    replace (N_of_byte b0 <? 128) with true by lia. rewrite H, byte_of_N_of_byte. reflexivity. }
  destruct t0 as [|b1 t1]; [discriminate|]. cbn [List.length] in L.
  destruct (cont_byte (N_of_byte b1)) eqn:C1; [|discriminate]. cbn [negb] in H.
  unfold cont_byte in C1. apply andb_true_iff in C1 as [C1 C1']. apply N.leb_le in C1, C1'.
  destruct ((194 <=? N_of_byte b0) && (N_of_byte b0 <=? 223)) eqn:R2.
  { apply andb_true_iff in R2 as [R2 R2']. apply N.leb_le in R2, R2'.
    apply rcons_ok in H as (s' & H & ->). apply IH in H; [|lia].
    remember (N_of_byte b0) as n0 eqn:E0. remember (N_of_byte b1) as n1 eqn:E1.
    set (c := (n0 - 192) * 64 + (n1 - 128)).
    assert (Q1 : c / 64 = n0 - 192) by (subst c; symmetry; apply N.div_unique with (r := n1 - 128); lia).
    assert (Q2 : c mod 64 = n1 - 128) by (subst c; symmetry; apply N.mod_unique with (q := n0 - 192); lia).
    assert (Q3 : 128 <= c < 2048) by (subst c; lia).
    cbn [utf8_encode]. unfold utf8_enc1.
    replace (c <? 128) with false by lia. replace (c <? 2048) with true by lia.
    rewrite H, Q1, Q2. cbn [app]. f_equal. f_equal; [apply byte_eq; lia|]. f_equal. apply byte_eq; lia. }
  destruct t1 as [|b2 t2]; [discriminate|]. cbn [List.length] in L.
  destruct (cont_byte (N_of_byte b2)) eqn:C2; [|discriminate]. cbn [negb] in H.
  unfold cont_byte in C2. apply andb_true_iff in C2 as [C2 C2']. apply N.leb_le in C2, C2'.
  destruct ((224 <=? N_of_byte b0) && (N_of_byte b0 <=? 239)) eqn:R3.
  { apply andb_true_iff in R3 as [R3 R3']. apply N.leb_le in R3, R3'. clear R2.
    remember (N_of_byte b0) as n0 eqn:E0. remember (N_of_byte b1) as n1 eqn:E1. remember (N_of_byte b2) as n2 eqn:E2.
    set (c := (n0 - 224) * 4096 + (n1 - 128) * 64 + (n2 - 128)) in *.
    destruct (N.ltb_spec c 2048) as [S1|S1]; [discriminate|]. cbn [orb] in H.
    destruct (is_surrogate c) eqn:S2; [discriminate|].
    apply rcons_ok in H as (s' & H & ->). apply IH in H; [|lia].
    assert (Q0 : c / 64 = (n0 - 224) * 64 + (n1 - 128)) by (symmetry; apply N.div_unique with (r := n2 - 128); subst c; lia).
    assert (Q1 : c / 4096 = n0 - 224) by (symmetry; apply N.div_unique with (r := (n1 - 128) * 64 + (n2 - 128)); subst c; lia).
    assert (Q2 : (c / 64) mod 64 = n1 - 128) by (rewrite Q0; symmetry; apply N.mod_unique with (q := n0 - 224); lia).
    assert (Q3 : c mod 64 = n2 - 128) by (symmetry; apply N.mod_unique with (q := (n0 - 224) * 64 + (n1 - 128)); subst c; lia).
    assert (Q4 : c < 65536) by (subst c; lia).
    cbn [utf8_encode]. unfold utf8_enc1. rewrite S2.
    replace (c <? 128) with false by lia. replace (c <? 2048) with false by lia. replace (c <? 65536) with true by lia.
    rewrite H, Q1, Q2, Q3. cbn [app]. f_equal.
    f_equal; [apply byte_eq; lia|]. f_equal; [apply byte_eq; lia|]. f_equal; apply byte_eq; lia. }
  destruct t2 as [|b3 t3]; [discriminate|]. cbn [List.length] in L.
  destruct (cont_byte (N_of_byte b3)) eqn:C3; [|discriminate]. cbn [negb] in H.
  unfold cont_byte in C3. apply andb_true_iff in C3 as [C3 C3']. apply N.leb_le in C3, C3'.
  destruct ((240 <=? N_of_byte b0) && (N_of_byte b0 <=? 244)) eqn:R4; [|discriminate].
  apply andb_true_iff in R4 as [R4 R4']. apply N.leb_le in R4, R4'. clear R2 R3.
  remember (N_of_byte b0) as n0 eqn:E0. remember (N_of_byte b1) as n1 eqn:E1.
  remember (N_of_byte b2) as n2 eqn:E2. remember (N_of_byte b3) as n3 eqn:E3.
  set (c := (n0 - 240) * 262144 + (n1 - 128) * 4096 + (n2 - 128) * 64 + (n3 - 128)) in *.
  destruct (N.ltb_spec c 65536) as [S1|S1]; [discriminate|]. cbn [orb] in H.
  destruct (N.ltb_spec 1114111 c) as [S2|S2]; [discriminate|].
  apply rcons_ok in H as (s' & H & ->). apply IH in H; [|lia].
  assert (Q0 : c / 64 = (n0 - 240) * 4096 + (n1 - 128) * 64 + (n2 - 128)) by (symmetry; apply N.div_unique with (r := n3 - 128); subst c; lia).
  assert (Q0' : c / 4096 = (n0 - 240) * 64 + (n1 - 128)) by (symmetry; apply N.div_unique with (r := (n2 - 128) * 64 + (n3 - 128)); subst c; lia).
  assert (Q1 : c / 262144 = n0 - 240) by (symmetry; apply N.div_unique with (r := (n1 - 128) * 4096 + (n2 - 128) * 64 + (n3 - 128)); subst c; lia).
  assert (Q2 : (c / 4096) mod 64 = n1 - 128) by (rewrite Q0'; symmetry; apply N.mod_unique with (q := n0 - 240); lia).
  assert (Q3 : (c / 64) mod 64 = n2 - 128) by (rewrite Q0; symmetry; apply N.mod_unique with (q := (n0 - 240) * 64 + (n1 - 128)); lia).
  assert (Q4 : c mod 64 = n3 - 128) by (symmetry; apply N.mod_unique with (q := (n0 - 240) * 4096 + (n1 - 128) * 64 + (n2 - 128)); subst c; lia).
  cbn [utf8_encode]. unfold utf8_enc1, is_surrogate.
  replace (c <? 128) with false by lia. replace (c <? 2048) with false by lia.
  replace ((55296 <=? c) && (c <=? 57343)) with false by lia.
  replace (c <? 65536) with false by lia. replace (c <=? 1114111) with true by lia.
  rewrite H, Q1, Q2, Q3, Q4. cbn [app]. f_equal.
  f_equal; [apply byte_eq; lia|]. f_equal; [apply byte_eq; lia|]. f_equal; [apply byte_eq; lia|]. f_equal; apply byte_eq; lia.
Qed.

Lemma utf8_decode_iff b s : utf8_decode b = Ok s <-> utf8_encode s = Ok b.
Proof. split; [exact (utf8_decode_sound _ _ _ (le_n _))|apply utf8_roundtrip]. Qed.

Lemma utf8_encode_length s : forall b, utf8_encode s = Ok b -> (List.length s <= List.length b)%nat.
Proof.
  induction s as [|c t IH]; intros b H; cbn [utf8_encode] in H; [cbn; lia|].
  destruct (utf8_enc1 c) as [e|] eqn:E; [|discriminate].
  destruct (utf8_encode t) as [r|]; [|discriminate]. injection H as <-. specialize (IH r eq_refl).
  assert (1 <= List.length e)%nat.
  { unfold utf8_enc1 in E. repeat match type of E with (if ?b then _ else _) = _ => destruct b end;
      try discriminate; injection E as <-; cbn; lia. }
  rewrite app_length. cbn. lia.
Qed.

Lemma utf8_encode_app s1 : forall s2 b1 b2, utf8_encode s1 = Ok b1 -> utf8_encode s2 = Ok b2 ->
  utf8_encode (s1 ++ s2) = Ok (b1 ++ b2).
Proof.
  induction s1 as [|c t IH]; intros s2 b1 b2 H1 H2; cbn [utf8_encode app] in *.
  - injection H1 as <-. exact H2.
  - destruct (utf8_enc1 c) as [e|]; [|discriminate]. destruct (utf8_encode t) as [r|] eqn:E; [|discriminate].
    injection H1 as <-. rewrite (IH s2 r b2 eq_refl H2). now rewrite app_assoc.
Qed.

(** Unicode scalar values are encodable. *)
Lemma utf8_encode_total s : Forall (fun c => c < 55296 \/ 57343 < c <= 1114111) s -> exists b, utf8_encode s = Ok b.
Proof.
  induction 1 as [|c t Hc _ (b & IH)]; cbn [utf8_encode]; [eauto|]. rewrite IH.
  unfold utf8_enc1, is_surrogate. replace ((55296 <=? c) && (c <=? 57343)) with false by lia.
  replace (c <=? 1114111) with true by lia. destruct (c <? 128), (c <? 2048), (c <? 65536); eauto.
Qed.
