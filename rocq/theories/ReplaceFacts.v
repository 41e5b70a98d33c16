(** * ReplaceFacts: decoding with replacement is exact. *)
From Coq Require Import List NArith ZArith Bool Lia ZifyBool ZifyNat ZifyN.
From Verif Require Import Base BaseFacts Utf8 Utf8Facts Utf8Sound Utf8Replace ReplaceSpec.
Import ListNotations.
Local Open Scope N_scope.
Ltac Zify.zify_post_hook ::= idtac.

Definition Second (n0 n1 : N) : Prop :=
  (194 <= n0 <= 223 /\ 128 <= n1 <= 191) \/ (n0 = 224 /\ 160 <= n1 <= 191) \/
  (225 <= n0 <= 239 /\ n0 <> 237 /\ 128 <= n1 <= 191) \/ (n0 = 237 /\ 128 <= n1 <= 159) \/
  (n0 = 240 /\ 144 <= n1 <= 191) \/ (241 <= n0 <= 243 /\ 128 <= n1 <= 191) \/ (n0 = 244 /\ 128 <= n1 <= 143).
Lemma second_iff n0 n1 : second_ok n0 n1 = true <-> Second n0 n1.
Proof.
  unfold second_ok, Second, cont_byte.
  destruct (N.ltb_spec n0 194); [split; [discriminate|lia]|].
  destruct (N.eqb_spec n0 224); [rewrite andb_true_iff, !N.leb_le; lia|].
  destruct (N.eqb_spec n0 237); [rewrite andb_true_iff, !N.leb_le; lia|].
  destruct (N.eqb_spec n0 240); [rewrite andb_true_iff, !N.leb_le; lia|].
  destruct (N.eqb_spec n0 244); [rewrite andb_true_iff, !N.leb_le; lia|].
  destruct (N.ltb_spec n0 244); [rewrite andb_true_iff, !N.leb_le; lia|split; [discriminate|lia]].
Qed.
Lemma cont_iff n : cont_byte n = true <-> 128 <= n <= 191.
Proof. unfold cont_byte. rewrite andb_true_iff, !N.leb_le. reflexivity. Qed.

(** ** Characters *)

Lemma enc1_iff c a : Enc c [a] <-> N_of_byte a < 128 /\ c = N_of_byte a.
Proof. split; [intro H; inversion H; subst; auto|]. intros [H ->]. now constructor. Qed.
Lemma enc2_iff c a b : Enc c [a; b] <-> 194 <= N_of_byte a <= 223 /\ 128 <= N_of_byte b <= 191 /\
  c = (N_of_byte a - 192) * 64 + (N_of_byte b - 128).
Proof.
  split.
  - intro H. inversion H; subst. lia.
  - intros (A & B & ->). apply (enc_2 _ (N_of_byte a - 192) (N_of_byte b - 128)); lia.
Qed.
Lemma enc3_iff c a b d : Enc c [a; b; d] <-> 224 <= N_of_byte a <= 239 /\ Second (N_of_byte a) (N_of_byte b) /\
  128 <= N_of_byte d <= 191 /\ c = (N_of_byte a - 224) * 4096 + (N_of_byte b - 128) * 64 + (N_of_byte d - 128).
Proof.
  unfold Second. split.
  - intro H. inversion H; subst. lia.
  - intros (A & B & D & ->). apply (enc_3 _ (N_of_byte a - 224) (N_of_byte b - 128) (N_of_byte d - 128)); lia.
Qed.
Lemma enc4_iff c a b d e : Enc c [a; b; d; e] <-> 240 <= N_of_byte a <= 244 /\ Second (N_of_byte a) (N_of_byte b) /\
  128 <= N_of_byte d <= 191 /\ 128 <= N_of_byte e <= 191 /\
  c = (N_of_byte a - 240) * 262144 + (N_of_byte b - 128) * 4096 + (N_of_byte d - 128) * 64 + (N_of_byte e - 128).
Proof.
  unfold Second. split.
  - intro H. inversion H; subst. lia.
  - intros (A & B & D & F & ->).
    apply (enc_4 _ (N_of_byte a - 240) (N_of_byte b - 128) (N_of_byte d - 128) (N_of_byte e - 128)); lia.
Qed.
Lemma enc_forms c e : Enc c e -> exists a, e = [a] \/ exists b, e = [a; b] \/ exists d, e = [a; b; d] \/ exists f, e = [a; b; d; f].
Proof. intro H. destruct H; eauto 10. Qed.
Lemma enc_scalar c e : Enc c e -> c < 55296 \/ 57343 < c <= 1114111.
Proof. intro H. destruct H; lia. Qed.

(** ** Beginnings *)

Lemma byte128 : N_of_byte (byte_of_N 128) = 128.
Proof. reflexivity. Qed.
Ltac forms H := apply enc_forms in H as [?a [H|[?b [H|[?d [H|[?f H]]]]]]]; try discriminate H.

Lemma starts1 a : Starts [a] <-> N_of_byte a < 128 \/ 194 <= N_of_byte a <= 244.
Proof.
  split.
  - intros (c & e & H). cbn [app] in H. inversion H; subst; lia.
  - set (n := N_of_byte a). intro H.
    set (m := byte_of_N (if n =? 224 then 160 else if n =? 240 then 144 else 128)).
    assert (M : N_of_byte m = if n =? 224 then 160 else if n =? 240 then 144 else 128)
      by (unfold m; destruct (n =? 224); [reflexivity|]; destruct (n =? 240); reflexivity).
    destruct (N.ltb_spec n 128); [exists n, []; now apply enc1_iff|].
    assert (SC : Second n (N_of_byte m)).
    { rewrite M. unfold Second. destruct (N.eqb_spec n 224); [lia|]. destruct (N.eqb_spec n 240); lia. }
    clear M. clearbody m.
    destruct (N.ltb_spec n 224).
    { eexists. exists [m]. apply enc2_iff. fold n. unfold Second in SC. repeat split; lia. }
    destruct (N.ltb_spec n 240).
    { eexists. exists [m; byte_of_N 128]. apply enc3_iff. fold n. rewrite byte128. repeat split; try exact SC; lia. }
    eexists. exists [m; byte_of_N 128; byte_of_N 128]. apply enc4_iff. fold n. rewrite byte128. repeat split; try exact SC; lia.
Qed.
Lemma starts2 a b : Starts [a; b] <-> Second (N_of_byte a) (N_of_byte b).
Proof.
  split.
  - intros (c & e & H). destruct e as [|x [|y [|z e]]]; cbn [app] in H.
    + apply enc2_iff in H. unfold Second. lia.
    + apply enc3_iff in H. tauto.
    + apply enc4_iff in H. tauto.
    + inversion H.
  - intro S. destruct (N.ltb_spec (N_of_byte a) 224).
    { eexists. exists []. apply enc2_iff. unfold Second in S. repeat split; lia. }
    destruct (N.ltb_spec (N_of_byte a) 240).
    { eexists. exists [byte_of_N 128]. apply enc3_iff. rewrite byte128. repeat split; try assumption; lia. }
    eexists. exists [byte_of_N 128; byte_of_N 128]. apply enc4_iff. rewrite byte128. repeat split; try assumption; try lia.
    unfold Second in S. lia.
Qed.
Lemma starts3 a b d : Starts [a; b; d] <->
  224 <= N_of_byte a /\ Second (N_of_byte a) (N_of_byte b) /\ 128 <= N_of_byte d <= 191.
Proof.
  split.
  - intros (c & e & H). destruct e as [|y [|z e]]; cbn [app] in H.
    + apply enc3_iff in H as (A & S & D & _). repeat split; try exact S; lia.
    + apply enc4_iff in H as (A & S & D & _). repeat split; try exact S; lia.
    + inversion H.
  - intros (A & S & D). destruct (N.ltb_spec (N_of_byte a) 240).
    { eexists. exists []. apply enc3_iff. repeat split; try assumption; lia. }
    eexists. exists [byte_of_N 128]. apply enc4_iff. rewrite byte128. repeat split; try assumption; try lia.
    unfold Second in S. lia.
Qed.
Lemma starts4 a b d f : Starts [a; b; d; f] <-> exists c, Enc c [a; b; d; f].
Proof.
  split.
  - intros (c & e & H). destruct e as [|y e]; cbn [app] in H; [eauto|inversion H].
  - intros (c & H). exists c, []. exact H.
Qed.

(** ** One step *)

Lemma replace_char c e b : Enc c e -> utf8_replace (e ++ b) = c :: utf8_replace b.
Proof.
  intro H. pose proof (enc_forms _ _ H) as (a0 & [->|(b0 & [->|(d0 & [->|(f0 & ->)])])]); cbn [app utf8_replace]; cbv zeta.
  - apply enc1_iff in H as [A ->]. now replace (N_of_byte a0 <? 128) with true by lia.
  - apply enc2_iff in H as (A & B & ->). replace (N_of_byte a0 <? 128) with false by lia.
    replace ((N_of_byte a0 <? 194) || (244 <? N_of_byte a0)) with false by lia.
    rewrite (proj2 (second_iff (N_of_byte a0) (N_of_byte b0))) by (left; lia). cbn [negb].
    now replace (N_of_byte a0 <? 224) with true by lia.
  - apply enc3_iff in H as (A & B & D & ->). replace (N_of_byte a0 <? 128) with false by lia.
    replace ((N_of_byte a0 <? 194) || (244 <? N_of_byte a0)) with false by lia.
    rewrite (proj2 (second_iff _ _) B), (proj2 (cont_iff _) D). cbn [negb].
    replace (N_of_byte a0 <? 224) with false by lia. now replace (N_of_byte a0 <? 240) with true by lia.
  - apply enc4_iff in H as (A & B & D & F & ->). replace (N_of_byte a0 <? 128) with false by lia.
    replace ((N_of_byte a0 <? 194) || (244 <? N_of_byte a0)) with false by lia.
    rewrite (proj2 (second_iff _ _) B), (proj2 (cont_iff _) D), (proj2 (cont_iff _) F). cbn [negb].
    replace (N_of_byte a0 <? 224) with false by lia. now replace (N_of_byte a0 <? 240) with false by lia.
Qed.
Lemma replace_byte x b : ~ Starts [x] -> utf8_replace (x :: b) = 65533 :: utf8_replace b.
Proof.
  intro N. rewrite starts1 in N. cbn [utf8_replace]. cbv zeta. replace (N_of_byte x <? 128) with false by lia.
  now replace ((N_of_byte x <? 194) || (244 <? N_of_byte x)) with true by lia.
Qed.
Lemma replace_part p b : p <> [] -> Starts p -> (forall c, ~ Enc c p) ->
  (forall x t, b = x :: t -> ~ Starts (p ++ [x])) -> utf8_replace (p ++ b) = 65533 :: utf8_replace b.
Proof.
  intros NE S NC M. destruct p as [|a [|a1 [|a2 [|a3 p]]]]; [congruence| | | |].
  - apply starts1 in S. assert (A : ~ N_of_byte a < 128) by (intro A; apply (NC (N_of_byte a)); now apply enc1_iff).
    cbn [app utf8_replace]. cbv zeta. replace (N_of_byte a <? 128) with false by lia.
    replace ((N_of_byte a <? 194) || (244 <? N_of_byte a)) with false by lia.
    destruct b as [|x b]; [reflexivity|]. specialize (M x b eq_refl). cbn [app] in M. rewrite starts2 in M.
    rewrite <- second_iff in M. apply not_true_is_false in M. rewrite M. reflexivity.
  - apply starts2 in S. cbn [app utf8_replace]. cbv zeta.
    assert (A : 224 <= N_of_byte a).
    { destruct (N.lt_ge_cases (N_of_byte a) 224) as [L|L]; [exfalso|exact L].
      eapply NC. apply enc2_iff. unfold Second in S. repeat split; lia. }
    assert (A' : N_of_byte a <= 244) by (unfold Second in S; lia).
    replace (N_of_byte a <? 128) with false by lia.
    replace ((N_of_byte a <? 194) || (244 <? N_of_byte a)) with false by lia.
    rewrite (proj2 (second_iff _ _) S). cbn [negb]. replace (N_of_byte a <? 224) with false by lia.
    destruct b as [|x b]; [reflexivity|]. specialize (M x b eq_refl). cbn [app] in M. rewrite starts3 in M.
    destruct (cont_byte (N_of_byte x)) eqn:C; [apply cont_iff in C; tauto|]. reflexivity.
  - apply starts3 in S as (A & S & D). cbn [app utf8_replace]. cbv zeta.
    assert (A1 : 240 <= N_of_byte a).
    { destruct (N.lt_ge_cases (N_of_byte a) 240) as [L|L]; [exfalso|exact L].
      eapply NC. apply enc3_iff. repeat split; try eassumption; lia. }
    assert (A' : N_of_byte a <= 244) by (unfold Second in S; lia).
    replace (N_of_byte a <? 128) with false by lia.
    replace ((N_of_byte a <? 194) || (244 <? N_of_byte a)) with false by lia.
    rewrite (proj2 (second_iff _ _) S), (proj2 (cont_iff _) D). cbn [negb]. replace (N_of_byte a <? 224) with false by lia.
    replace (N_of_byte a <? 240) with false by lia.
    destruct b as [|x b]; [reflexivity|]. specialize (M x b eq_refl). cbn [app] in M. rewrite starts4 in M.
    destruct (cont_byte (N_of_byte x)) eqn:C; [|reflexivity]. apply cont_iff in C.
    exfalso. apply M. eexists. apply enc4_iff. repeat split; try eassumption; lia.
  - exfalso. destruct S as (c & e & H). cbn [app] in H.
    pose proof (enc_forms _ _ H) as (a0 & [Q|(b0 & [Q|(d0 & [Q|(f0 & Q)])])]); try discriminate Q.
    injection Q as -> -> -> -> Q. apply app_eq_nil in Q as [-> ->]. exact (NC c H).
Qed.

(** ** Exactness *)

Lemma replaced_sound b s : Replaced b s -> utf8_replace b = s.
Proof.
  induction 1 as [|c e b s E R IH|x b s N R IH|p b s NE S NC M R IH].
  - reflexivity.
  - now rewrite (replace_char _ _ _ E), IH.
  - now rewrite (replace_byte _ _ N), IH.
  - now rewrite (replace_part _ _ NE S NC M), IH.
Qed.
Lemma replaced_complete n : forall b, (List.length b <= n)%nat -> Replaced b (utf8_replace b).
Proof.
  induction n as [|n IH]; intros b L; destruct b as [|a t]; cbn [List.length] in L; try lia; try constructor.
  destruct (N.ltb_spec (N_of_byte a) 128) as [L0|L0].
  { change (a :: t) with ([a] ++ t). assert (E : Enc (N_of_byte a) [a]) by now constructor.
    rewrite (replace_char _ _ _ E). constructor; [exact E|]. apply IH. lia. }
  destruct (N.ltb_spec (N_of_byte a) 194) as [L1|L1].
  { assert (N : ~ Starts [a]) by (rewrite starts1; lia). rewrite (replace_byte _ _ N). constructor; [exact N|]. apply IH. lia. }
  destruct (N.ltb_spec 244 (N_of_byte a)) as [L2|L2].
  { assert (N : ~ Starts [a]) by (rewrite starts1; lia). rewrite (replace_byte _ _ N). constructor; [exact N|]. apply IH. lia. }
  assert (S1 : Starts [a]) by (rewrite starts1; lia).
  assert (P : forall p b', p ++ b' = a :: t -> p <> [] -> Starts p -> (forall c, ~ Enc c p) ->
     (forall x u, b' = x :: u -> ~ Starts (p ++ [x])) -> Replaced (a :: t) (utf8_replace (a :: t))).
  { intros p b' Q NE S NC M. rewrite <- Q, (replace_part _ _ NE S NC M). apply rp_part; auto. apply IH.
    apply (f_equal (@List.length _)) in Q. rewrite app_length in Q. cbn [List.length] in Q.
    destruct p; [congruence|]. cbn [List.length] in Q. lia. }
  assert (C : forall c e b', e ++ b' = a :: t -> Enc c e -> Replaced (a :: t) (utf8_replace (a :: t))).
  { intros c e b' Q E. rewrite <- Q, (replace_char _ _ _ E). constructor; [exact E|]. apply IH.
    apply (f_equal (@List.length _)) in Q. rewrite app_length in Q. cbn [List.length] in Q.
    pose proof (enc_forms _ _ E) as (a0 & [->|(b0 & [->|(d0 & [->|(f0 & ->)])])]); cbn [List.length] in Q; lia. }
  assert (N1 : forall c, ~ Enc c [a]) by (intros c H; apply enc1_iff in H; lia).
  destruct t as [|b1 t].
  { apply (P [a] [] eq_refl); auto; discriminate. }
  destruct (second_ok (N_of_byte a) (N_of_byte b1)) eqn:S2.
  2: { apply (P [a] (b1 :: t) eq_refl); auto; [discriminate|]. intros x u Q. injection Q as <- <-. cbn [app].
       rewrite starts2, <- second_iff. congruence. }
  apply second_iff in S2.
  destruct (N.ltb_spec (N_of_byte a) 224) as [L3|L3].
  { eapply (C _ [a; b1] t eq_refl). apply enc2_iff. unfold Second in S2. repeat split; lia. }
  assert (N2 : forall c, ~ Enc c [a; b1]) by (intros c H; apply enc2_iff in H; lia).
  destruct t as [|b2 t].
  { apply (P [a; b1] [] eq_refl); auto; try discriminate. now apply starts2. }
  destruct (cont_byte (N_of_byte b2)) eqn:C2.
  2: { apply (P [a; b1] (b2 :: t) eq_refl); auto; [discriminate|now apply starts2|]. intros x u Q. injection Q as <- <-. cbn [app].
       rewrite starts3, <- cont_iff. intros (_ & _ & X). congruence. }
  apply cont_iff in C2.
  destruct (N.ltb_spec (N_of_byte a) 240) as [L4|L4].
  { eapply (C _ [a; b1; b2] t eq_refl). apply enc3_iff. repeat split; try eassumption; lia. }
  assert (N3 : forall c, ~ Enc c [a; b1; b2]) by (intros c H; apply enc3_iff in H; lia).
  assert (S3 : Starts [a; b1; b2]) by (apply starts3; repeat split; try assumption; lia).
  destruct t as [|b3 t].
  { apply (P [a; b1; b2] [] eq_refl); auto; discriminate. }
  destruct (cont_byte (N_of_byte b3)) eqn:C3.
  2: { apply (P [a; b1; b2] (b3 :: t) eq_refl); auto; [discriminate|]. intros x u Q. injection Q as <- <-. cbn [app].
       rewrite starts4. intros (c & X%enc4_iff). rewrite <- cont_iff in X. destruct X as (_ & _ & _ & X & _).
       apply cont_iff in X. congruence. }
  apply cont_iff in C3. eapply (C _ [a; b1; b2; b3] t eq_refl). apply enc4_iff. repeat split; try eassumption; lia.
Qed.
Lemma replaced_iff b s : utf8_replace b = s <-> Replaced b s.
Proof. split; [intros <-; eapply replaced_complete; reflexivity|apply replaced_sound]. Qed.

Lemma replaced_scalars b s : Replaced b s -> Forall (fun c => c < 55296 \/ 57343 < c <= 1114111) s.
Proof. induction 1 as [|c e b s E R IH|x b s N R IH|p b s NE S NC M R IH]; constructor; auto; [now apply enc_scalar in E|right; lia..]. Qed.

(** ** What is UTF-8 is decoded *)

Lemma byte_small n : n < 256 -> N_of_byte (byte_of_N n) = n.
Proof. intro H. rewrite N_of_byte_of_N. now apply N.mod_small. Qed.
Lemma enc1_enc c e : utf8_enc1 c = Some e -> Enc c e.
Proof.
  unfold utf8_enc1, is_surrogate. intro H.
  destruct (N.ltb_spec c 128); [injection H as <-|].
  { assert (Q : N_of_byte (byte_of_N c) = c) by (rewrite N_of_byte_of_N, N.mod_small; lia).
    rewrite <- Q at 1. constructor. lia. }
  assert (D64 : c = 64 * (c / 64) + c mod 64) by (apply N.div_mod; discriminate).
  assert (M64 : c mod 64 < 64) by (apply N.mod_lt; discriminate).
  destruct (N.ltb_spec c 2048); [injection H as <-|].
  { apply (enc_2 _ (c / 64) (c mod 64)); try (apply byte_small; lia); lia. }
  set (q := c / 64) in *.
  assert (D1 : q = 64 * (q / 64) + q mod 64) by (apply N.div_mod; discriminate).
  assert (M1 : q mod 64 < 64) by (apply N.mod_lt; discriminate).
  destruct ((55296 <=? c) && (c <=? 57343)) eqn:SU; [discriminate|].
  replace (c / 4096) with (q / 64) in H by (unfold q; rewrite N.div_div by discriminate; reflexivity).
  destruct (N.ltb_spec c 65536); [injection H as <-|].
  { apply (enc_3 _ (q / 64) (q mod 64) (c mod 64)); try (apply byte_small; lia); lia. }
  set (r := q / 64) in *.
  assert (D2 : r = 64 * (r / 64) + r mod 64) by (apply N.div_mod; discriminate).
  assert (M2 : r mod 64 < 64) by (apply N.mod_lt; discriminate).
  replace (c / 262144) with (r / 64) in H by (unfold r, q; rewrite !N.div_div by discriminate; reflexivity).
  destruct (N.leb_spec c 1114111); [injection H as <-|discriminate].
  apply (enc_4 _ (r / 64) (r mod 64) (q mod 64) (c mod 64)); try (apply byte_small; lia); lia.
Qed.
Lemma replace_valid b s : utf8_decode b = Ok s -> utf8_replace b = s.
Proof.
  intro H. apply utf8_decode_iff in H. revert b H. induction s as [|c s IH]; intros b H.
  - injection H as <-. reflexivity.
  - cbn [utf8_encode] in H. destruct (utf8_enc1 c) as [e|] eqn:E; [|discriminate].
    destruct (utf8_encode s) as [r|] eqn:R; [|discriminate]. injection H as <-.
    rewrite (replace_char _ _ _ (enc1_enc _ _ E)). f_equal. now apply IH.
Qed.
