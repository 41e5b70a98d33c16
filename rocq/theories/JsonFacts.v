(** * JsonFacts: the scanner reads exactly the JSON texts. *)
From Coq Require Import List NArith ZArith Bool Lia ZifyBool ZifyNat ZifyN String.
From Verif Require Import Base PyVal Json JsonSpec.
Import ListNotations.
Local Open Scope N_scope.
Local Open Scope list_scope.

(** ** White space *)
Lemma is_ws_iff c : is_ws c = true <-> c = 32 \/ c = 9 \/ c = 10 \/ c = 13.
Proof. unfold is_ws. lia. Qed.

Definition no_ws (s : pystr) : Prop := match s with [] => True | c :: _ => is_ws c = false end.

Lemma skip_ws_app w s : WS w -> no_ws s -> skip_ws (w ++ s) = s.
Proof.
  intros W N. induction W as [|c w Hc W IH]; cbn.
  - destruct s as [|c s]; [reflexivity|]. cbn in *. now rewrite N.
  - apply is_ws_iff in Hc. now rewrite Hc.
Qed.
Lemma skip_ws_inv s : exists w, WS w /\ s = w ++ skip_ws s /\ no_ws (skip_ws s).
Proof.
  induction s as [|c s IH]; [exists []; repeat constructor|]. cbn.
  destruct (is_ws c) eqn:E.
  - destruct IH as (w & W & H & N). exists (c :: w). split.
    + constructor; [now apply is_ws_iff|assumption].
    + cbn. split; [congruence|assumption].
  - exists []. repeat constructor. exact E.
Qed.

(** ** Strings *)
Lemma hex_val_iff c n : hex_val c = Some n <-> HexDigit c n.
Proof.
  unfold hex_val, HexDigit. split.
  - intro H. destruct ((48 <=? c) && (c <=? 57)) eqn:E1; [injection H as <-; lia|].
    destruct ((97 <=? c) && (c <=? 102)) eqn:E2; [injection H as <-; lia|].
    destruct ((65 <=? c) && (c <=? 70)) eqn:E3; [injection H as <-; lia|discriminate].
  - intro H. destruct ((48 <=? c) && (c <=? 57)) eqn:E1; [f_equal; lia|].
    destruct ((97 <=? c) && (c <=? 102)) eqn:E2; [f_equal; lia|].
    destruct ((65 <=? c) && (c <=? 70)) eqn:E3; [f_equal; lia|lia].
Qed.
Lemma hex4_iff a b c d u : hex4 a b c d = Some u <-> Hex4 a b c d u.
Proof.
  unfold hex4, Hex4. split.
  - destruct (hex_val a) as [w|] eqn:A; [|discriminate].
    destruct (hex_val b) as [x|] eqn:B; [|discriminate].
    destruct (hex_val c) as [y|] eqn:C; [|discriminate].
    destruct (hex_val d) as [z|] eqn:D; [|discriminate].
    apply hex_val_iff in A, B, C, D. intro H. injection H as <-.
    exists w, x, y, z. repeat split; try assumption. lia.
  - intros (w & x & y & z & A & B & C & D & ->). apply hex_val_iff in A, B, C, D.
    rewrite A, B, C, D. f_equal. lia.
Qed.
Lemma hex4_det a b c d u u' : Hex4 a b c d u -> Hex4 a b c d u' -> u = u'.
Proof. intros H H'. apply hex4_iff in H, H'. congruence. Qed.
Lemma high_iff u : high_surrogate u = true <-> High u.
Proof. unfold high_surrogate, High. lia. Qed.
Lemma low_iff u : low_surrogate u = true <-> Low u.
Proof. unfold low_surrogate, Low. lia. Qed.
Lemma escape_iff e x : simple_escape e = Some x <-> Escape e x.
Proof.
  split.
  - unfold simple_escape. intro H.
    repeat match type of H with
    | (if ?e =? ?k then _ else _) = _ => destruct (N.eqb_spec e k) as [->|_]; [injection H as <-; constructor|]
    end. discriminate.
  - intros []; reflexivity.
Qed.

Lemma scan_str_complete t v r : JString t v -> scan_str (t ++ 34 :: r) = WOk (v, r).
Proof.
  induction 1 as [|c t v H1 H2 H3 H IH|e x t v X H IH|a b c d u t v X N H IH
                  |a b c d u a' b' c' d' u' t v X N X' N' H IH|a b c d u t v X N L H IH].
  - reflexivity.
  - cbn [app scan_str]. replace (c =? 34) with false by lia. replace (c <? 32) with false by lia.
    replace (c =? 92) with false by lia. now rewrite IH.
  - cbn [app scan_str]. change (92 =? 34) with false. change (92 <? 32) with false. change (92 =? 92) with true.
    cbv iota. assert (e <> 117) by (destruct X; discriminate). replace (e =? 117) with false by lia.
    apply escape_iff in X. rewrite X, IH. reflexivity.
  - cbn [app scan_str]. change (92 =? 34) with false. change (92 <? 32) with false. change (92 =? 92) with true.
    change (117 =? 117) with true. cbv iota. apply hex4_iff in X. rewrite X.
    rewrite <- high_iff in N. apply not_true_is_false in N. rewrite N, IH. reflexivity.
  - cbn [app scan_str]. change (92 =? 34) with false. change (92 <? 32) with false. change (92 =? 92) with true.
    change (117 =? 117) with true. cbv iota. cbn [andb]. apply hex4_iff in X, X'. rewrite X, X'.
    apply high_iff in N. apply low_iff in N'. rewrite N, N', IH. cbn [wcons].
    do 3 f_equal. unfold join_surrogates. rewrite high_iff in N. rewrite low_iff in N'. unfold High, Low in *. lia.
  - cbn [app scan_str]. change (92 =? 34) with false. change (92 <? 32) with false. change (92 =? 92) with true.
    change (117 =? 117) with true. cbv iota. apply hex4_iff in X. rewrite X.
    apply high_iff in N. rewrite N.
    assert (G : forall q p a' b' c' d' t3, t ++ 34 :: r = q :: p :: a' :: b' :: c' :: d' :: t3 ->
       (q =? 92) && (p =? 117) = true -> exists u', hex4 a' b' c' d' = Some u' /\ low_surrogate u' = false).
    { intros q p a' b' c' d' t3 Q P. apply andb_true_iff in P as [P1 P2]. apply N.eqb_eq in P1, P2. subst q p.
      clear IH X N. destruct H as [|c0 t v H1 H2 H3 H|e x t v X H|a0 b0 c0 d0 u0 t v X N H
                  |a0 b0 c0 d0 u0 a1 b1 c1 d1 u1 t v X N X' N' H|a0 b0 c0 d0 u0 t v X N L' H]; cbn [app] in Q.
      - discriminate.
      - congruence.
      - injection Q as -> _. inversion X.
      - injection Q as -> -> -> -> _. exists u0. split; [now apply hex4_iff|].
        apply not_true_is_false. rewrite low_iff. eapply L; [reflexivity|exact X].
      - injection Q as -> -> -> -> _. exists u0. split; [now apply hex4_iff|].
        apply not_true_is_false. rewrite low_iff. unfold High, Low in *. lia.
      - injection Q as -> -> -> -> _. exists u0. split; [now apply hex4_iff|].
        apply not_true_is_false. rewrite low_iff. unfold High, Low in *. lia. }
    rewrite IH. destruct (t ++ 34 :: r) as [|q [|p [|a' [|b' [|c' [|d' t3]]]]]] eqn:Q; try reflexivity.
    destruct ((q =? 92) && (p =? 117)) eqn:P; [|reflexivity].
    destruct (G _ _ _ _ _ _ _ eq_refl P) as (u' & -> & ->). reflexivity.
Qed.

Lemma wcons_ok {A B} (a : A) (m : wres (list A * B)) l r :
  wcons a m = WOk (l, r) <-> exists l', m = WOk (l', r) /\ l = a :: l'.
Proof.
  destruct m as [[l' r']|e]; cbn; split.
  - intro H. injection H as <- <-. eauto.
  - intros (l1 & H & ->). now injection H as <- <-.
  - discriminate.
  - intros (l1 & H & _). discriminate.
Qed.

Lemma scan_str_sound n : forall s v r, (List.length s <= n)%nat -> scan_str s = WOk (v, r) ->
  exists t, s = t ++ 34 :: r /\ JString t v.
Proof.
  induction n as [|n IH]; intros s v r Hn H; destruct s as [|c s]; try discriminate;
    cbn [List.length] in Hn; [lia|].
  cbn [scan_str] in H.
  destruct (N.eqb_spec c 34) as [->|N1]. { injection H as <- <-. exists []. repeat constructor. }
  destruct (N.ltb_spec c 32) as [L|L]; [discriminate|].
  destruct (N.eqb_spec c 92) as [->|N2].
  2:{ apply wcons_ok in H as (v' & H & ->). apply IH in H as (t & -> & H); [|lia].
      exists (c :: t). split; [reflexivity|]. now constructor. }
  destruct s as [|e s]; [discriminate|].
  destruct (N.eqb_spec e 117) as [->|N3].
  2:{ destruct (simple_escape e) as [x|] eqn:X; [|discriminate]. apply escape_iff in X.
      apply wcons_ok in H as (v' & H & ->). apply IH in H as (t & -> & H); [|cbn in Hn; lia].
      exists (92 :: e :: t). split; [reflexivity|]. now constructor. }
  destruct s as [|a [|b [|c [|d s]]]]; try discriminate.
  destruct (hex4 a b c d) as [u|] eqn:X; [|discriminate]. apply hex4_iff in X.
  destruct (high_surrogate u) eqn:HS.
  2:{ apply wcons_ok in H as (v' & H & ->). apply IH in H as (t & -> & H); [|cbn in Hn; lia].
      exists (92 :: 117 :: a :: b :: c :: d :: t). split; [reflexivity|].
      apply jstr_unicode; [assumption| |assumption]. rewrite <- high_iff. congruence. }
  apply high_iff in HS.
  assert (LONE : forall v', scan_str s = WOk (v', r) -> v = u :: v' ->
     (forall a' b' c' d' u' t', s = 92 :: 117 :: a' :: b' :: c' :: d' :: t' ->
       Hex4 a' b' c' d' u' -> ~ Low u') ->
     exists t, 92 :: 117 :: a :: b :: c :: d :: s = t ++ 34 :: r /\ JString t v).
  { intros v' H' -> L'. apply IH in H' as (t & -> & H'); [|cbn in Hn; lia].
    exists (92 :: 117 :: a :: b :: c :: d :: t). split; [reflexivity|].
    apply jstr_lone; try assumption. intros a' b' c' d' u' t' -> X'. eapply L'; [|exact X']. reflexivity. }
  destruct s as [|q [|p [|a' [|b' [|c' [|d' s]]]]]];
    try (apply wcons_ok in H as (v' & H & ->); apply (LONE v' H eq_refl); intros; discriminate).
  destruct ((q =? 92) && (p =? 117)) eqn:P.
  - destruct (hex4 a' b' c' d') as [u'|] eqn:X'; [|discriminate]. apply hex4_iff in X'.
    destruct (low_surrogate u') eqn:LS.
    + apply low_iff in LS. apply wcons_ok in H as (v' & H & ->). apply IH in H as (t & -> & H); [|cbn in Hn; lia].
      assert (q = 92 /\ p = 117) as [-> ->] by lia.
      exists (92 :: 117 :: a :: b :: c :: d :: 92 :: 117 :: a' :: b' :: c' :: d' :: t). split; [reflexivity|].
      replace (join_surrogates u u') with (65536 + 1024 * (u - 0xD800) + (u' - 0xDC00))
        by (unfold join_surrogates, High, Low in *; lia).
      now apply jstr_pair.
    + apply wcons_ok in H as (v' & H & ->). apply (LONE v' H eq_refl).
      intros a1 b1 c1 d1 u1 t' Q Y. injection Q as -> -> -> -> -> -> ->.
      rewrite (hex4_det _ _ _ _ _ _ Y X'). rewrite <- low_iff. congruence.
  - apply wcons_ok in H as (v' & H & ->). apply (LONE v' H eq_refl).
    intros a1 b1 c1 d1 u1 t' Q Y. injection Q as -> -> -> -> -> -> ->. discriminate.
Qed.

Lemma scan_str_raises n : forall s e, (List.length s <= n)%nat -> scan_str s = WRaise e -> e = EJSONDecodeError.
Proof.
  assert (WC : forall (a : N) (m : wres (pystr * pystr)) e, wcons a m = WRaise e -> m = WRaise e).
  { intros a [[? ?]|e0] e; cbn; congruence. }
  induction n as [|n IH]; intros s e Hn H; destruct s as [|c s]; cbn [List.length] in Hn; try lia;
    cbn [scan_str] in H; try (unfold jerr in H; congruence).
  destruct (c =? 34); [discriminate|].
  destruct (c <? 32); [unfold jerr in H; congruence|].
  destruct (c =? 92).
  2:{ apply WC in H. eapply IH; [|exact H]. lia. }
  destruct s as [|x s]; [unfold jerr in H; congruence|]. cbn in Hn.
  destruct (x =? 117).
  2:{ destruct (simple_escape x); [|unfold jerr in H; congruence]. apply WC in H. eapply IH; [|exact H]. lia. }
  destruct s as [|a [|b [|c1 [|d s]]]]; try (unfold jerr in H; congruence). cbn in Hn.
  destruct (hex4 a b c1 d); [|unfold jerr in H; congruence].
  destruct (high_surrogate n0).
  2:{ apply WC in H. eapply IH; [|exact H]. lia. }
  destruct s as [|q [|p [|a' [|b' [|c' [|d' s]]]]]];
    try (apply WC in H; eapply IH; [|exact H]; cbn in *; lia).
  destruct ((q =? 92) && (p =? 117)).
  2:{ apply WC in H; eapply IH; [|exact H]; cbn in *; lia. }
  destruct (hex4 a' b' c' d'); [|unfold jerr in H; congruence].
  destruct (low_surrogate n1); apply WC in H; eapply IH; try exact H; cbn in *; lia.
Qed.

(** ** Numbers *)
Lemma is_dec_iff c : is_dec c = true <-> Digit c.
Proof. unfold is_dec, Digit. lia. Qed.

Definition no_digit (s : pystr) : Prop := match s with [] => True | c :: _ => is_dec c = false end.

Lemma span_digits_app ds r : Forall Digit ds -> no_digit r -> span_digits (ds ++ r) = (ds, r).
Proof.
  intros D N. induction D as [|c ds Hc D IH]; cbn.
  - destruct r as [|c r]; [reflexivity|]. cbn in *. now rewrite N.
  - apply is_dec_iff in Hc. now rewrite Hc, IH.
Qed.
Lemma span_digits_inv s : forall a b, span_digits s = (a, b) -> s = a ++ b /\ Forall Digit a /\ no_digit b.
Proof.
  induction s as [|c s IH]; intros a b H; cbn in H.
  - injection H as <- <-. repeat constructor.
  - destruct (is_dec c) eqn:D.
    + destruct (span_digits s) as [a' b'] eqn:Sp. injection H as <- <-.
      destruct (IH _ _ eq_refl) as (-> & H1 & H2). repeat split; [|assumption].
      constructor; [now apply is_dec_iff|assumption].
    + injection H as <- <-. repeat split; [constructor|]. exact D.
Qed.

Lemma decimal_dec s n : Decimal s n -> dec_N s = n.
Proof.
  induction 1 as [|s n c H IH D]; [reflexivity|]. unfold dec_N in *. rewrite fold_left_app, IH. cbn [fold_left]. lia.
Qed.
Lemma dec_decimal s : Forall Digit s -> Decimal s (dec_N s).
Proof.
  induction s as [|c s IH] using rev_ind; intro D; [constructor|].
  apply Forall_app in D as [D Hc]. inversion Hc; subst.
  replace (dec_N (s ++ [c])) with (10 * dec_N s + (c - 48)).
  - constructor; auto.
  - unfold dec_N. rewrite fold_left_app. cbn [fold_left]. lia.
Qed.
Lemma int_digits s : IntPart s -> Forall Digit s /\ s <> [].
Proof.
  intros [->|(c & t & -> & H & D)]; (split; [|discriminate]); (constructor; [unfold Digit; lia|]); auto.
Qed.

(** What may follow a number: nothing, white space, or one of , ] } *)
Definition follow (s : pystr) : Prop :=
  match s with [] => True | c :: _ => is_ws c = true \/ c = 44 \/ c = 93 \/ c = 125 end.
Lemma follow_digit s : follow s -> no_digit s.
Proof. destruct s as [|c s]; cbn; auto. unfold is_ws, is_dec. lia. Qed.

Lemma span_frac_none s : (match s with c :: d :: _ => (c =? 46) && is_dec d = false | _ => True end) ->
  span_frac s = ([], s).
Proof. destruct s as [|c [|d s]]; cbn; auto. now intros ->. Qed.
Lemma span_exp_none s : (match s with c :: _ => (c =? 101) || (c =? 69) = false | _ => True end) ->
  span_exp s = ([], s).
Proof. destruct s as [|c s]; cbn; auto. now intros ->. Qed.

Lemma span_frac_app fp s : Fraction fp -> no_digit s -> span_frac (fp ++ s) = (fp, s).
Proof.
  intros (t & -> & N & D) Hs. destruct t as [|d t]; [congruence|]. cbn [app span_frac].
  inversion D as [|? ? Hd Dt]; subst. pose proof Hd as Hd'. apply is_dec_iff in Hd'. rewrite Hd'.
  change (46 =? 46) with true. cbn [andb].
  change (d :: t ++ s) with ((d :: t) ++ s). now rewrite (span_digits_app (d :: t) s D Hs).
Qed.
Lemma span_exp_app ep s : Exponent ep -> no_digit s -> span_exp (ep ++ s) = (ep, s).
Proof.
  intros (e & g & t & -> & He & Hg & N & D) Hs. destruct t as [|d t]; [congruence|].
  pose proof (span_digits_app (d :: t) s D Hs) as Sp.
  inversion D as [|? ? Hd Dt]; subst. unfold Digit in Hd.
  assert (HE : (e =? 101) || (e =? 69) = true) by lia.
  destruct Hg as [->|[->| ->]]; cbn [app span_exp]; rewrite HE.
  - replace ((d =? 43) || (d =? 45)) with false by lia.
    change (d :: t ++ s) with ((d :: t) ++ s). now rewrite Sp.
  - change ((43 =? 43) || (43 =? 45)) with true. cbv iota.
    change (d :: t ++ s) with ((d :: t) ++ s). now rewrite Sp.
  - change ((45 =? 43) || (45 =? 45)) with true. cbv iota.
    change (d :: t ++ s) with ((d :: t) ++ s). now rewrite Sp.
Qed.

Lemma span_int_app ip s : IntPart ip -> no_digit s -> span_int (ip ++ s) = Some (ip, s).
Proof.
  intros [->|(c & t & -> & H & D)] Hs; [reflexivity|]. cbn [app span_int].
  replace (c =? 48) with false by lia. replace (is_dec c) with true by (unfold is_dec; lia).
  change (c :: t ++ s) with ((c :: t) ++ s). rewrite span_digits_app; [reflexivity| |assumption].
  constructor; [unfold Digit; lia|assumption].
Qed.

Section Env.
Variable E : jsonenv.

Lemma frac_part fp s : (fp = [] \/ Fraction fp) -> (fp = [] -> forall d t, s <> 46 :: d :: t) -> no_digit s ->
  span_frac (fp ++ s) = (fp, s).
Proof.
  intros [->|H] Hn Hs; [|now apply span_frac_app]. cbn [app]. apply span_frac_none.
  destruct s as [|c [|d s]]; auto. destruct (N.eqb_spec c 46) as [->|]; [|reflexivity].
  exfalso. now apply (Hn eq_refl d s).
Qed.
Lemma exp_part ep s : (ep = [] \/ Exponent ep) -> follow s -> span_exp (ep ++ s) = (ep, s).
Proof.
  intros [->|H] Hs; [|apply span_exp_app; [assumption|now apply follow_digit]].
  cbn [app]. apply span_exp_none. destruct s as [|c s]; auto. cbn in Hs. unfold is_ws in Hs. lia.
Qed.

Lemma number_after_sign ip fp ep r : IntPart ip -> (fp = [] \/ Fraction fp) -> (ep = [] \/ Exponent ep) ->
  follow r ->
  span_int (ip ++ fp ++ ep ++ r) = Some (ip, fp ++ ep ++ r) /\
  span_frac (fp ++ ep ++ r) = (fp, ep ++ r) /\ span_exp (ep ++ r) = (ep, r).
Proof.
  intros Hi Hf He Hr.
  assert (HE : no_digit (ep ++ r) /\ forall d t, ep ++ r <> 46 :: d :: t).
  { destruct He as [->|(e & g & t & -> & He & _)]; cbn.
    - split; [now apply follow_digit|]. intros d t ->. cbn in Hr. unfold is_ws in Hr. lia.
    - split; [unfold is_dec; lia|]. intros d t' Q. injection Q as -> _. lia. }
  assert (HF : no_digit (fp ++ ep ++ r)).
  { destruct Hf as [->|(t & -> & _)]; [apply HE|reflexivity]. }
  split; [now apply span_int_app|]. split; [|now apply exp_part].
  apply frac_part; [assumption| |apply HE]. intros _. apply HE.
Qed.

Lemma int_head ip s : IntPart ip -> exists c t, ip ++ s = c :: t /\ Digit c.
Proof. intros [->|(c & t & -> & H & D)]; cbn; eexists; eexists; (split; [reflexivity|]); unfold Digit; lia. Qed.

Lemma scan_number_complete t v r : JNumber E t v -> follow r -> scan_number E (t ++ r) = WOk (v, r).
Proof.
  intros H Hr.
  assert (LIM : forall ip : pystr, (forall m, je_max_digits E = Some m -> N.of_nat (List.length ip) <= m) ->
    match je_max_digits E with Some m => m <? N.of_nat (List.length ip) | None => false end = false).
  { intros ip L. destruct (je_max_digits E) as [m|]; [|reflexivity]. specialize (L m eq_refl). lia. }
  destruct H as [ip n Hi Hd L|ip n Hi Hd L|g ip fp ep Hg Hi Hf He Hne]; unfold scan_number.
  - destruct (int_head ip r Hi) as (c & t & Q & Dc). rewrite Q. unfold Digit in Dc.
    replace (c =? 45) with false by lia. rewrite <- Q.
    destruct (number_after_sign ip [] [] r Hi (or_introl eq_refl) (or_introl eq_refl) Hr) as (A & B & C).
    cbn [app] in A, B, C. rewrite A, B, C, (LIM ip L), (decimal_dec _ _ Hd). reflexivity.
  - cbn [app]. change (45 =? 45) with true. cbv iota.
    destruct (number_after_sign ip [] [] r Hi (or_introl eq_refl) (or_introl eq_refl) Hr) as (A & B & C).
    cbn [app] in A, B, C. rewrite A, B, C, (LIM ip L), (decimal_dec _ _ Hd). reflexivity.
  - destruct (number_after_sign ip fp ep r Hi Hf He Hr) as (A & B & C).
    rewrite <- !app_assoc. destruct Hg as [->| ->]; cbn [app].
    + destruct (int_head ip (fp ++ ep ++ r) Hi) as (c & t & Q & Dc). rewrite Q. unfold Digit in Dc.
      replace (c =? 45) with false by lia. rewrite <- Q, A, B, C.
      destruct fp, ep; try reflexivity. now destruct Hne.
    + change (45 =? 45) with true. cbv iota. rewrite A, B, C.
      destruct fp, ep; try reflexivity. now destruct Hne.
Qed.

Lemma span_int_inv s ip s2 : span_int s = Some (ip, s2) -> s = ip ++ s2 /\ IntPart ip.
Proof.
  destruct s as [|c s]; [discriminate|]. unfold span_int.
  destruct (N.eqb_spec c 48) as [->|N]. { intro H. injection H as <- <-. split; [reflexivity|now left]. }
  destruct (is_dec c) eqn:D; [|discriminate]. intro H. injection H as H.
  pose proof D as D'. apply is_dec_iff in D'. unfold Digit in D'.
  cbn in H. rewrite D in H. destruct (span_digits s) as [a b] eqn:Sp. injection H as <- <-.
  destruct (span_digits_inv _ _ _ Sp) as (-> & Ha & _). split; [reflexivity|].
  right. exists c, a. repeat split; try assumption; lia.
Qed.
Lemma span_frac_inv s fp s2 : span_frac s = (fp, s2) -> s = fp ++ s2 /\ (fp = [] \/ Fraction fp).
Proof.
  destruct s as [|c [|d s]]; unfold span_frac; try (intro H; injection H as <- <-; auto).
  destruct ((c =? 46) && is_dec d) eqn:Q; [|intro H; injection H as <- <-; auto].
  apply andb_true_iff in Q as [Q1 Q2]. apply N.eqb_eq in Q1 as ->.
  destruct (span_digits (d :: s)) as [a b] eqn:Sp. intro H. injection H as <- <-.
  destruct (span_digits_inv _ _ _ Sp) as (-> & Ha & Hb). split; [reflexivity|]. right.
  exists a. repeat split; [|assumption]. intros ->. cbn in Sp. rewrite Q2 in Sp. now destruct (span_digits s).
Qed.
Lemma span_exp_inv s ep s2 : span_exp s = (ep, s2) -> s = ep ++ s2 /\ (ep = [] \/ Exponent ep).
Proof.
  destruct s as [|c s]; unfold span_exp; [intro H; injection H as <- <-; auto|].
  destruct ((c =? 101) || (c =? 69)) eqn:Q; [|intro H; injection H as <- <-; auto].
  destruct s as [|g s]; [intro H; injection H as <- <-; auto|].
  destruct ((g =? 43) || (g =? 45)) eqn:G.
  - destruct (span_digits s) as [a b] eqn:Sp.
    destruct (span_digits_inv _ _ _ Sp) as (-> & Ha & Hb).
    destruct a as [|d a]; intro H; injection H as <- <-; [auto|]. split; [reflexivity|].
    right. exists c, [g], (d :: a). repeat split; try assumption; try discriminate; try lia.
    assert (g = 43 \/ g = 45) as [-> | ->] by lia; auto.
  - destruct (span_digits (g :: s)) as [a b] eqn:Sp.
    destruct (span_digits_inv _ _ _ Sp) as (Qs & Ha & Hb). rewrite Qs.
    destruct a as [|d a]; intro H; injection H as <- <-; [split; [reflexivity|auto]|]. split; [reflexivity|].
    right. exists c, [], (d :: a). repeat split; try assumption; try discriminate; try lia. auto.
Qed.

Lemma scan_number_sound s v r : scan_number E s = WOk (v, r) -> exists t, s = t ++ r /\ JNumber E t v.
Proof.
  unfold scan_number. intro H.
  assert (SG : exists (neg : bool) s1, (match s with c :: t => if c =? 45 then (true, t) else (false, s)
        | [] => (false, s) end) = (neg, s1) /\ s = (if neg then [45] else []) ++ s1).
  { destruct s as [|c s]; [exists false, []; auto|]. destruct (N.eqb_spec c 45) as [->|].
    - exists true, s. auto.
    - exists false, (c :: s). auto. }
  destruct SG as (neg & s1 & Q & ->). rewrite Q in H. clear Q.
  destruct (span_int s1) as [[ip s2]|] eqn:Si; [|discriminate].
  destruct (span_frac s2) as [fp s3] eqn:Sf. destruct (span_exp s3) as [ep s4] eqn:Se.
  apply span_int_inv in Si as (-> & Hi). apply span_frac_inv in Sf as (-> & Hf).
  apply span_exp_inv in Se as (-> & He).
  assert (FL : (fp <> [] \/ ep <> []) ->
     WOk (VFloat (je_float E ((if neg then [45] else []) ++ ip ++ fp ++ ep)), s4) = WOk (v, r) ->
     exists t, (if neg then [45] else []) ++ ip ++ fp ++ ep ++ s4 = t ++ r /\ JNumber E t v).
  { intros Hne Q. injection Q as <- <-. exists ((if neg then [45] else []) ++ ip ++ fp ++ ep).
    split; [now rewrite <- !app_assoc|]. constructor; try assumption. destruct neg; auto. }
  destruct fp as [|f fp]; [destruct ep as [|x ep]|].
  - cbn [app] in *. destruct (match je_max_digits E with Some m => _ | None => _ end) eqn:L; [discriminate|].
    injection H as <- <-. exists ((if neg then [45] else []) ++ ip). split; [now rewrite <- app_assoc|].
    pose proof (dec_decimal ip (proj1 (int_digits _ Hi))) as Hd.
    assert (L' : forall m, je_max_digits E = Some m -> N.of_nat (List.length ip) <= m).
    { intros m Em. rewrite Em in L. lia. }
    destruct neg; cbn [app]; now constructor.
  - apply FL; [right; discriminate|exact H].
  - apply FL; [left; discriminate|exact H].
Qed.

Lemma scan_number_raises s e : scan_number E s = WRaise e ->
  e = EJSONDecodeError \/
  e = EValueError /\ exists m, je_max_digits E = Some m /\ m < N.of_nat (List.length s).
Proof.
  unfold scan_number. intro H.
  assert (SG : exists (neg : bool) s1, (match s with c :: t => if c =? 45 then (true, t) else (false, s)
        | [] => (false, s) end) = (neg, s1) /\ (List.length s1 <= List.length s)%nat).
  { destruct s as [|c s]; [exists false, []; auto|]. destruct (N.eqb_spec c 45) as [->|].
    - exists true, s. cbn. auto.
    - exists false, (c :: s). auto. }
  destruct SG as (neg & s1 & Q & Ls). rewrite Q in H. clear Q.
  destruct (span_int s1) as [[ip s2]|] eqn:Si; [|left; unfold jerr in H; congruence].
  destruct (span_frac s2) as [fp s3] eqn:Sf. destruct (span_exp s3) as [ep s4] eqn:Se.
  apply span_int_inv in Si as (-> & Hi). rewrite app_length in Ls.
  destruct fp; [destruct ep|]; try discriminate.
  destruct (je_max_digits E) as [m|] eqn:Em; [|discriminate].
  destruct (N.ltb_spec m (N.of_nat (List.length ip))) as [L|L]; [|discriminate].
  injection H as <-. right. split; [reflexivity|]. exists m. split; [reflexivity|]. lia.
Qed.

(** ** Values: every JSON text is read *)
Scheme jvalue_ind' := Minimality for JValue Sort Prop
  with jitems_ind' := Minimality for JItems Sort Prop
  with jmembers_ind' := Minimality for JMembers Sort Prop.
Combined Scheme json_mut from jvalue_ind', jitems_ind', jmembers_ind'.

Definition add_members (ps : list (pystr * pyval)) (acc : pydict) : pydict :=
  fold_left (fun d p => dict_set (VStr (fst p)) (snd p) d) ps acc.

Lemma const_digit c t : Digit c -> scan_const E (c :: t) = None.
Proof.
  unfold Digit. intro D. unfold scan_const. cbn [lit strip_prefix].
  repeat match goal with |- context [strip_prefix (lit ?x) _] => 
    let l := eval vm_compute in (lit x) in change (lit x) with l end.
  cbn [strip_prefix].
  replace (110 =? c) with false by lia. replace (116 =? c) with false by lia.
  replace (102 =? c) with false by lia. replace (78 =? c) with false by lia.
  replace (73 =? c) with false by lia. replace (45 =? c) with false by lia. reflexivity.
Qed.
Lemma const_minus c t : Digit c -> scan_const E (45 :: c :: t) = None.
Proof.
  unfold Digit. intro D. unfold scan_const.
  repeat match goal with |- context [strip_prefix (lit ?x) _] => 
    let l := eval vm_compute in (lit x) in change (lit x) with l end.
  cbn [strip_prefix].
  change (110 =? 45) with false. change (116 =? 45) with false. change (102 =? 45) with false.
  change (78 =? 45) with false. change (73 =? 45) with false. change (45 =? 45) with true. cbv iota.
  replace (73 =? c) with false by lia. reflexivity.
Qed.

(** The first characters of a number. *)
Lemma number_head t v s : JNumber E t v -> exists c t', t ++ s = c :: t' /\
  (Digit c \/ c = 45 /\ exists d t2, t' = d :: t2 /\ Digit d).
Proof.
  intros [ip n Hi Hd L|ip n Hi Hd L|g ip fp ep Hg Hi Hf He Hne].
  - destruct (int_head ip s Hi) as (c & t' & -> & D). eauto 6.
  - destruct (int_head ip s Hi) as (c & t' & Q & D). cbn [app]. rewrite Q.
    exists 45, (c :: t'). split; [reflexivity|]. right. split; [reflexivity|]. eauto.
  - destruct Hg as [->| ->]; cbn [app]; rewrite <- !app_assoc.
    + destruct (int_head ip (fp ++ ep ++ s) Hi) as (c & t' & -> & D). eauto 6.
    + destruct (int_head ip (fp ++ ep ++ s) Hi) as (c & t' & Q & D). rewrite Q.
      exists 45, (c :: t'). split; [reflexivity|]. right. split; [reflexivity|]. eauto.
Qed.

Lemma value_head n t v : JValue E n t v -> exists c t', t = c :: t' /\ is_ws c = false /\ c <> 93 /\ c <> 125.
Proof.
  intros [n' t' v' H|n' t' v' H|n' t' v' H|n' w H|n' w t' l H1 H2|n' w H|n' w t' ps H1 H2];
    try (eexists; eexists; split; [reflexivity|]; repeat split; discriminate).
  - destruct H; (eexists; eexists; split; [reflexivity|]; repeat split; discriminate).
  - destruct (number_head t' v' [] H) as (c & t2 & Q & D). rewrite app_nil_r in Q. subst t'.
    exists c, t2. split; [reflexivity|]. unfold Digit, is_ws in *. lia.
Qed.

Lemma ws_follow w c s : WS w -> (c = 44 \/ c = 93 \/ c = 125) -> follow (w ++ c :: s).
Proof.
  intros [|x w' Hx _] Hc; cbn; [auto|]. left. now apply is_ws_iff.
Qed.

Lemma value_no_ws n t v s : JValue E n t v -> no_ws (t ++ s).
Proof. intros H. destruct (value_head n t v H) as (c & t' & -> & Hw & _). exact Hw. Qed.
Lemma items_no_ws n t l s : JItems E n t l -> exists c t', t ++ s = c :: t' /\ is_ws c = false /\ c <> 93.
Proof.
  intros [n' t' v w H _|n' t' v w w' t2 l' H _ _ _]; destruct (value_head n' t' v H) as (c & t1 & -> & Hw & H1 & _);
    cbn; eauto.
Qed.
Lemma members_head n t ps s : JMembers E n t ps -> exists t', t ++ s = 34 :: t'.
Proof. intros []; cbn; eauto. Qed.

Lemma scan_complete :
  (forall n t v, JValue E n t v -> forall fuel r, (2 * List.length t <= fuel)%nat -> follow r ->
     scan E fuel n (t ++ r) = WOk (v, r)) /\
  (forall n t l, JItems E n t l -> forall fuel r, (2 * List.length t < fuel)%nat ->
     scan_items E fuel n (t ++ 93 :: r) = WOk (l, r)) /\
  (forall n t ps, JMembers E n t ps -> forall fuel r acc, (2 * List.length t < fuel)%nat ->
     scan_members E fuel n (t ++ 125 :: r) acc = WOk (add_members ps acc, r)).
Proof.
  apply (json_mut E
    (fun n t v => forall fuel r, (2 * List.length t <= fuel)%nat -> follow r ->
       scan E fuel n (t ++ r) = WOk (v, r))
    (fun n t l => forall fuel r, (2 * List.length t < fuel)%nat ->
       scan_items E fuel n (t ++ 93 :: r) = WOk (l, r))
    (fun n t ps => forall fuel r acc, (2 * List.length t < fuel)%nat ->
       scan_members E fuel n (t ++ 125 :: r) acc = WOk (add_members ps acc, r))).
  - intros n t v H [|f] r Hf Hr.
    { destruct H; cbn in Hf; lia. }
    destruct H; reflexivity.
  - intros n t v H f r Hf Hr. destruct (number_head t v r H) as (c & t' & Q & D).
    destruct f as [|f].
    { destruct (number_head t v [] H) as (c0 & t0 & Q0 & _). rewrite app_nil_r in Q0. subst t. cbn in Hf. lia. }
    pose proof (scan_number_complete t v r H Hr) as SN. rewrite Q in *. cbn [scan].
    assert (C : scan_const E (c :: t') = None).
    { destruct D as [D|(-> & d & t2 & -> & D)]; [now apply const_digit|now apply const_minus]. }
    rewrite C, SN. assert (c <> 34 /\ c <> 123 /\ c <> 91) as (N1 & N2 & N3) by (unfold Digit in D; lia).
    replace (c =? 34) with false by lia. replace (c =? 123) with false by lia. replace (c =? 91) with false by lia.
    reflexivity.
  - intros n t v H [|f] r Hf Hr; [cbn in Hf; lia|]. cbn [app scan]. change (34 =? 34) with true. cbv iota.
    rewrite <- app_assoc. cbn [app]. rewrite (scan_str_complete t v r H). reflexivity.
  - intros n w W [|f] r Hf Hr; [cbn in Hf; lia|]. cbn [app scan].
    change (91 =? 34) with false. change (91 =? 123) with false. change (91 =? 91) with true. cbv iota zeta.
    rewrite <- app_assoc. cbn [app]. rewrite skip_ws_app; [reflexivity|assumption|reflexivity].
  - intros n w t l W H IH [|f] r Hf Hr; [cbn in Hf; lia|]. cbn [app scan].
    change (91 =? 34) with false. change (91 =? 123) with false. change (91 =? 91) with true. cbv iota zeta.
    rewrite <- !app_assoc. cbn [app]. destruct (items_no_ws n t l (93 :: r) H) as (c & t' & Q & Hw & Hc).
    rewrite skip_ws_app; [|assumption|rewrite Q; exact Hw]. rewrite Q. replace (c =? 93) with false by lia.
    rewrite <- Q. rewrite IH; [reflexivity|]. cbn [List.length] in Hf. rewrite !app_length in Hf. cbn [List.length] in Hf. lia.
  - intros n w W [|f] r Hf Hr; [cbn in Hf; lia|]. cbn [app scan].
    change (123 =? 34) with false. change (123 =? 123) with true. cbv iota zeta.
    rewrite <- app_assoc. cbn [app]. rewrite skip_ws_app; [reflexivity|assumption|reflexivity].
  - intros n w t ps W H IH [|f] r Hf Hr; [cbn in Hf; lia|]. cbn [app scan].
    change (123 =? 34) with false. change (123 =? 123) with true. cbv iota zeta.
    rewrite <- !app_assoc. cbn [app]. destruct (members_head n t ps (125 :: r) H) as (t' & Q).
    rewrite skip_ws_app; [|assumption|rewrite Q; reflexivity]. rewrite Q. change (34 =? 125) with false. cbv iota.
    rewrite <- Q. rewrite IH; [reflexivity|]. cbn [List.length] in Hf. rewrite !app_length in Hf. cbn [List.length] in Hf. lia.
  - intros n t v w H IH W [|f] r Hf; [lia|]. cbn [scan_items]. rewrite <- app_assoc.
    rewrite app_length in Hf.
    rewrite IH; [|lia|apply ws_follow; auto]. cbn [wbind]. rewrite skip_ws_app; [reflexivity|assumption|reflexivity].
  - intros n t v w w' t' l H IH W W' H' IH' [|f] r Hf; [lia|]. cbn [scan_items]. rewrite <- !app_assoc. cbn [app].
    rewrite !app_length in Hf. cbn [List.length] in Hf. rewrite app_length in Hf.
    rewrite IH; [|lia|apply ws_follow; auto]. cbn [wbind].
    rewrite skip_ws_app; [|assumption|reflexivity]. change (44 =? 93) with false. change (44 =? 44) with true. cbv iota.
    rewrite <- app_assoc. destruct (items_no_ws n t' l (93 :: r) H') as (c & t2 & Q & Hw & Hc).
    rewrite skip_ws_app; [|assumption|rewrite Q; exact Hw]. rewrite IH'; [reflexivity|lia].
  - intros n k name w1 w2 t v w3 K W1 W2 H IH W3 [|f] r acc Hf; [lia|].
    cbn [List.length] in Hf. rewrite app_length in Hf. cbn [List.length] in Hf. rewrite app_length in Hf.
    cbn [List.length] in Hf. rewrite !app_length in Hf.
    cbn [app scan_members]. change (34 =? 34) with true. cbv iota. rewrite <- !app_assoc. cbn [app].
    rewrite (scan_str_complete k name _ K). cbn [wbind]. rewrite <- !app_assoc. cbn [app].
    rewrite skip_ws_app; [|assumption|reflexivity]. change (58 =? 58) with true. cbv iota.
    rewrite <- !app_assoc.
    rewrite skip_ws_app; [|assumption|apply (value_no_ws n t v _ H)].
    rewrite IH; [|lia|apply ws_follow; auto]. cbn [wbind].
    rewrite skip_ws_app; [|assumption|reflexivity]. reflexivity.
  - intros n k name w1 w2 t v w3 w4 t' l K W1 W2 H IH W3 W4 H' IH' [|f] r acc Hf; [lia|].
    cbn [List.length] in Hf. rewrite app_length in Hf. cbn [List.length] in Hf. rewrite app_length in Hf.
    cbn [List.length] in Hf. rewrite !app_length in Hf. cbn [List.length] in Hf. rewrite app_length in Hf.
    cbn [app scan_members]. change (34 =? 34) with true. cbv iota. rewrite <- !app_assoc. cbn [app].
    rewrite (scan_str_complete k name _ K). cbn [wbind]. rewrite <- !app_assoc. cbn [app].
    rewrite skip_ws_app; [|assumption|reflexivity]. change (58 =? 58) with true. cbv iota.
    rewrite <- !app_assoc. cbn [app].
    rewrite skip_ws_app; [|assumption|apply (value_no_ws n t v _ H)].
    rewrite IH; [|lia|apply ws_follow; auto]. cbn [wbind].
    rewrite skip_ws_app; [|assumption|reflexivity]. change (44 =? 125) with false. change (44 =? 44) with true. cbv iota.
    rewrite <- app_assoc. destruct (members_head n t' l (125 :: r) H') as (t2 & Q).
    rewrite skip_ws_app; [|assumption|rewrite Q; reflexivity]. rewrite IH'; [reflexivity|lia].
Qed.

(** ** Values: only JSON texts are read *)
Lemma strip_prefix_inv p : forall s t, strip_prefix p s = Some t -> s = p ++ t.
Proof.
  induction p as [|x p IH]; intros s t H; cbn in H; [now injection H as <-|].
  destruct s as [|y s]; [discriminate|]. destruct (N.eqb_spec x y) as [->|]; [|discriminate].
  cbn. f_equal. now apply IH.
Qed.
Lemma scan_const_sound s v r : scan_const E s = Some (v, r) -> exists t, s = t ++ r /\ JConst E t v.
Proof.
  assert (G : forall l w (k : option (pyval * pystr)),
    match strip_prefix l s with Some t => Some (w, t) | None => k end = Some (v, r) -> JConst E l w ->
    (exists t, s = t ++ r /\ JConst E t v) \/ k = Some (v, r)).
  { intros l w k H HC. destruct (strip_prefix l s) as [t|] eqn:Q; [|auto].
    apply strip_prefix_inv in Q. injection H as -> ->. eauto. }
  unfold scan_const. intro H.
  do 6 (destruct (G _ _ _ H) as [H'|H']; [constructor|exact H'|clear H; rename H' into H]). discriminate.
Qed.
Lemma wbind_ok {A B} (m : wres A) (k : A -> wres B) b :
  wbind m k = WOk b <-> exists a, m = WOk a /\ k a = WOk b.
Proof.
  destruct m as [a|e]; cbn; split.
  - eauto.
  - intros (a' & H & H'). congruence.
  - discriminate.
  - intros (a' & H & H'). discriminate.
Qed.
Lemma wbind_raise {A B} (m : wres A) (k : A -> wres B) e :
  wbind m k = WRaise e -> m = WRaise e \/ exists a, m = WOk a /\ k a = WRaise e.
Proof. destruct m as [a|e']; cbn; intro H; [eauto|left; congruence]. Qed.

Lemma scan_sound f :
  (forall n s v r, scan E f n s = WOk (v, r) -> exists t, s = t ++ r /\ JValue E n t v) /\
  (forall n s l r, scan_items E f n s = WOk (l, r) -> exists t, s = t ++ 93 :: r /\ JItems E n t l) /\
  (forall n s acc m r, scan_members E f n s acc = WOk (m, r) ->
     exists t ps, s = t ++ 125 :: r /\ JMembers E n t ps /\ m = add_members ps acc).
Proof.
  induction f as [|f (IH1 & IH2 & IH3)]; [repeat split; intros; discriminate|]. split; [|split].
  - intros n s v r H. cbn [scan] in H. destruct s as [|c s]; [discriminate|].
    destruct (N.eqb_spec c 34) as [->|N1].
    { apply wbind_ok in H as ([x r'] & H1 & H2). injection H2 as <- <-.
      apply (scan_str_sound _ _ _ _ (le_n _)) in H1 as (t & -> & H1). exists (34 :: t ++ [34]).
      split; [cbn; now rewrite <- app_assoc|now constructor]. }
    destruct (N.eqb_spec c 123) as [->|N2].
    { destruct n as [|n]; [discriminate|]. cbv zeta in H. destruct (skip_ws_inv s) as (w & W & Q & NW).
      destruct (skip_ws s) as [|q t'] eqn:SK; [discriminate|]. destruct (N.eqb_spec q 125) as [->|N3].
      - injection H as <- <-. exists (123 :: w ++ [125]). split; [cbn; rewrite <- app_assoc; now rewrite Q|now constructor].
      - apply wbind_ok in H as ([m r'] & H1 & H2). injection H2 as <- <-.
        apply IH3 in H1 as (t & ps & Q' & HM & ->). rewrite Q' in Q.
        exists (123 :: w ++ t ++ [125]). split; [cbn; rewrite Q, <- !app_assoc; reflexivity|]. now constructor. }
    destruct (N.eqb_spec c 91) as [->|N3].
    { destruct n as [|n]; [discriminate|]. cbv zeta in H. destruct (skip_ws_inv s) as (w & W & Q & NW).
      destruct (skip_ws s) as [|q t'] eqn:SK; [discriminate|]. destruct (N.eqb_spec q 93) as [->|N4].
      - injection H as <- <-. exists (91 :: w ++ [93]). split; [cbn; rewrite <- app_assoc; now rewrite Q|now constructor].
      - apply wbind_ok in H as ([m r'] & H1 & H2). injection H2 as <- <-.
        apply IH2 in H1 as (t & Q' & HM). rewrite Q' in Q.
        exists (91 :: w ++ t ++ [93]). split; [cbn; rewrite Q, <- !app_assoc; reflexivity|]. now constructor. }
    destruct (scan_const E (c :: s)) as [[v' r']|] eqn:SC.
    + injection H as <- <-. apply scan_const_sound in SC as (t & Q & HC). exists t. split; [exact Q|now constructor].
    + apply scan_number_sound in H as (t & Q & HN). exists t. split; [exact Q|now constructor].
  - intros n s l r H. cbn [scan_items] in H. apply wbind_ok in H as ([v r1] & H1 & H).
    apply IH1 in H1 as (t & -> & HV). destruct (skip_ws_inv r1) as (w & W & Q & NW).
    destruct (skip_ws r1) as [|x r2]; [discriminate|]. rewrite Q. destruct (N.eqb_spec x 93) as [->|N1].
    + injection H as <- <-. exists (t ++ w). split; [now rewrite <- app_assoc|now constructor].
    + destruct (N.eqb_spec x 44) as [->|N2]; [|discriminate].
      apply wcons_ok in H as (l' & H & ->). apply IH2 in H as (t' & Q' & HI).
      destruct (skip_ws_inv r2) as (w' & W' & Q2 & _). rewrite Q' in Q2.
      exists (t ++ w ++ 44 :: w' ++ t'). split; [rewrite Q2, <- !app_assoc; cbn; now rewrite <- app_assoc|now constructor].
  - intros n s acc m r H. cbn [scan_members] in H. destruct s as [|c s]; [discriminate|].
    destruct (N.eqb_spec c 34) as [->|N1]; [|discriminate].
    apply wbind_ok in H as ([k r1] & H1 & H).
    apply (scan_str_sound _ _ _ _ (le_n _)) in H1 as (kt & -> & HK).
    destruct (skip_ws_inv r1) as (w1 & W1 & Q1 & _). destruct (skip_ws r1) as [|col r2]; [discriminate|].
    destruct (N.eqb_spec col 58) as [->|N2]; [|discriminate].
    apply wbind_ok in H as ([v r3] & H2 & H). apply IH1 in H2 as (t & Q3 & HV).
    destruct (skip_ws_inv r2) as (w2 & W2 & Q2 & _). rewrite Q3 in Q2.
    destruct (skip_ws_inv r3) as (w3 & W3 & Q4 & _). destruct (skip_ws r3) as [|x r4]; [discriminate|].
    destruct (N.eqb_spec x 125) as [->|N3].
    + injection H as <- <-. exists (34 :: kt ++ 34 :: w1 ++ 58 :: w2 ++ t ++ w3), [(k, v)].
      split; [|split; [now constructor|reflexivity]].
      rewrite Q1, Q2, Q4. cbn. rewrite <- !app_assoc. cbn. rewrite <- !app_assoc. cbn. now rewrite <- !app_assoc.
    + destruct (N.eqb_spec x 44) as [->|N4]; [|discriminate].
      apply IH3 in H as (t' & ps & Q5 & HM & ->). destruct (skip_ws_inv r4) as (w4 & W4 & Q6 & _).
      rewrite Q5 in Q6.
      exists (34 :: kt ++ 34 :: w1 ++ 58 :: w2 ++ t ++ w3 ++ 44 :: w4 ++ t'), ((k, v) :: ps).
      split; [|split; [now constructor|reflexivity]].
      rewrite Q1, Q2, Q4, Q6. cbn. rewrite <- !app_assoc. cbn. rewrite <- !app_assoc. cbn. rewrite <- !app_assoc.
      cbn. now rewrite <- !app_assoc.
Qed.

(** ** Failures *)
Definition json_failure (n : nat) (s : pystr) (e : pyexn) : Prop :=
  e = EJSONDecodeError \/
  (e = EValueError /\ exists m, je_max_digits E = Some m /\ m < N.of_nat (List.length s)) \/
  (e = ERecursionError /\ (n < List.length s)%nat).

Lemma json_failure_mono n n' s s' e : json_failure n s e -> (List.length s <= List.length s')%nat ->
  (n' - n <= List.length s' - List.length s)%nat -> json_failure n' s' e.
Proof.
  intros [->|[(-> & m & Em & L)|(-> & L)]] H1 H2; [now left| |].
  - right. left. split; [reflexivity|]. exists m. split; [assumption|lia].
  - right. right. split; [reflexivity|]. lia.
Qed.

Lemma skip_ws_length s : (List.length (skip_ws s) <= List.length s)%nat.
Proof. induction s as [|c s IH]; cbn; [lia|]. destruct (is_ws c); cbn; lia. Qed.

Lemma scan_failures f :
  (forall n s e, (2 * List.length s < f)%nat -> scan E f n s = WRaise e -> json_failure n s e) /\
  (forall n s e, (2 * List.length s + 1 < f)%nat -> scan_items E f n s = WRaise e -> json_failure n s e) /\
  (forall n s acc e, (2 * List.length s + 1 < f)%nat -> scan_members E f n s acc = WRaise e -> json_failure n s e).
Proof.
  induction f as [|f (IH1 & IH2 & IH3)]; [repeat split; intros; lia|].
  assert (D : forall n s e, @jerr pyval = WRaise e -> json_failure n s e) by (intros n s e H; left; unfold jerr in H; congruence).
  assert (D' : forall A n s e, @jerr A = WRaise e -> json_failure n s e) by (intros A n s e H; left; unfold jerr in H; congruence).
  split; [|split].
  - intros n s e L H. cbn [scan] in H. destruct s as [|c s]; [exact (D' _ _ _ _ H)|]. cbn [List.length] in L.
    pose proof (skip_ws_length s) as SL.
    destruct (c =? 34).
    { apply wbind_raise in H as [H|([x r'] & _ & H)]; [|discriminate].
      left. exact (scan_str_raises _ _ _ (le_n _) H). }
    destruct (c =? 123).
    { destruct n as [|n]. { injection H as <-. right. right. split; [reflexivity|cbn; lia]. }
      cbv zeta in H. destruct (skip_ws s) as [|q t'] eqn:SK; [exact (D' _ _ _ _ H)|]. destruct (q =? 125); [discriminate|].
      apply wbind_raise in H as [H|([x r'] & _ & H)]; [|discriminate].
      apply IH3 in H; [|lia]. eapply json_failure_mono; [exact H| |]; cbn [List.length] in *; lia. }
    destruct (c =? 91).
    { destruct n as [|n]. { injection H as <-. right. right. split; [reflexivity|cbn; lia]. }
      cbv zeta in H. destruct (skip_ws s) as [|q t'] eqn:SK; [exact (D' _ _ _ _ H)|]. destruct (q =? 93); [discriminate|].
      apply wbind_raise in H as [H|([x r'] & _ & H)]; [|discriminate].
      apply IH2 in H; [|lia]. eapply json_failure_mono; [exact H| |]; cbn [List.length] in *; lia. }
    destruct (scan_const E (c :: s)); [discriminate|].
    apply scan_number_raises in H as [->|(-> & H)]; [now left|]. right. left. auto.
  - intros n s e L H. cbn [scan_items] in H. apply wbind_raise in H as [H|([v r1] & H1 & H)].
    { apply IH1 in H; [assumption|lia]. }
    apply (proj1 (scan_sound f)) in H1 as (t & -> & HV). destruct (value_head _ _ _ HV) as (c & t' & -> & _).
    pose proof (skip_ws_length r1) as SL. rewrite app_length in L. cbn [List.length] in L.
    destruct (skip_ws r1) as [|x r2]; [exact (D' _ _ _ _ H)|]. cbn [List.length] in SL.
    destruct (x =? 93); [discriminate|]. destruct (x =? 44); [|exact (D' _ _ _ _ H)].
    pose proof (skip_ws_length r2) as SL2.
    assert (R : scan_items E f n (skip_ws r2) = WRaise e).
    { destruct (scan_items E f n (skip_ws r2)) as [[? ?]|]; cbn in H; congruence. }
    apply IH2 in R; [|lia]. eapply json_failure_mono; [exact R| |]; rewrite ?app_length; cbn [List.length]; lia.
  - intros n s acc e L H. cbn [scan_members] in H. destruct s as [|c s]; [exact (D' _ _ _ _ H)|].
    destruct (c =? 34); [|exact (D' _ _ _ _ H)]. cbn [List.length] in L.
    apply wbind_raise in H as [H|([k r1] & H1 & H)].
    { left. exact (scan_str_raises _ _ _ (le_n _) H). }
    apply (scan_str_sound _ _ _ _ (le_n _)) in H1 as (kt & -> & HK).
    rewrite app_length in L. cbn [List.length] in L.
    pose proof (skip_ws_length r1) as SL. destruct (skip_ws r1) as [|col r2]; [exact (D' _ _ _ _ H)|].
    cbn [List.length] in SL. destruct (col =? 58); [|exact (D' _ _ _ _ H)].
    pose proof (skip_ws_length r2) as SL2.
    apply wbind_raise in H as [H|([v r3] & H2 & H)].
    { apply IH1 in H; [|lia]. eapply json_failure_mono; [exact H| |]; cbn [List.length]; rewrite app_length; cbn [List.length]; lia. }
    apply (proj1 (scan_sound f)) in H2 as (t & Q3 & HV). rewrite Q3, app_length in SL2.
    pose proof (skip_ws_length r3) as SL3. destruct (skip_ws r3) as [|x r4]; [exact (D' _ _ _ _ H)|].
    cbn [List.length] in SL3. destruct (x =? 125); [discriminate|]. destruct (x =? 44); [|exact (D' _ _ _ _ H)].
    pose proof (skip_ws_length r4) as SL4. apply IH3 in H; [|lia].
    eapply json_failure_mono; [exact H| |]; cbn [List.length]; rewrite app_length; cbn [List.length]; lia.
Qed.

(** ** json.loads *)
Lemma json_loads_iff s v : json_loads E s = WOk v <-> JText E s v.
Proof.
  unfold json_loads. split.
  - intro H. destruct (match s with c :: _ => c =? 65279 | [] => false end); [discriminate|].
    apply wbind_ok in H as ([v' r] & H1 & H). destruct (skip_ws_inv s) as (w & W & Q & _).
    destruct (skip_ws_inv r) as (w' & W' & Q' & _). destruct (skip_ws r); [|discriminate]. injection H as ->.
    apply (proj1 (scan_sound _)) in H1 as (t & Q1 & HV). exists w, t, w'.
    rewrite app_nil_r in Q'. split; [rewrite Q, Q1; congruence|auto].
  - intros (w & t & w' & -> & W & W' & HV).
    assert (BOM : match w ++ t ++ w' with c :: _ => c =? 65279 | [] => false end = false).
    { destruct W as [|c w Hc W]; cbn; [|lia]. destruct HV as [? ? ? H|? ? ? H|? ? ? H|? ? H|? ? ? ? H1 H2|? ? H|? ? ? ? H1 H2]; try reflexivity.
      - destruct H; reflexivity.
      - destruct (number_head t v w' H) as (c & t' & -> & D). unfold Digit in D. lia. }
    rewrite BOM, skip_ws_app; [|assumption|now apply (value_no_ws _ _ _ _ HV)].
    rewrite (proj1 scan_complete _ _ _ HV).
    + cbn [wbind]. rewrite <- (app_nil_r w'), skip_ws_app; [reflexivity|assumption|exact I].
    + rewrite !app_length. lia.
    + destruct W' as [|c w' Hc W']; cbn; [auto|]. left. now apply is_ws_iff.
Qed.

Lemma json_loads_raises s e : json_loads E s = WRaise e -> json_failure (je_depth E) s e.
Proof.
  unfold json_loads. intro H.
  destruct (match s with c :: _ => c =? 65279 | [] => false end). { left. unfold jerr in H. congruence. }
  apply wbind_raise in H as [H|([v r] & _ & H)].
  - pose proof (skip_ws_length s) as SL. apply (proj1 (scan_failures _)) in H; [|lia].
    eapply json_failure_mono; [exact H| |]; lia.
  - left. destruct (skip_ws r); unfold jerr in H; congruence.
Qed.
End Env.
