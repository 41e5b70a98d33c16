(** * PageSend: the forms that the page sends carry the credential unchanged. *)
From Coq Require Import List NArith ZArith Bool String Lia.
From Verif Require Import Base BaseFacts PyVal B64 B64Facts Json JsonSpec JsonFacts CodecSpec CodecFacts FormatSpec
  Types Jsonify Builders OptionSpec JsonifyFacts OptionFacts OptionProps World Parsers App AppSpec
  Dumps DumpsSpec DumpsFacts DumpsOptions Form Page PageSpec FormFacts PageText.
Import ListNotations.
Local Open Scope N_scope.
Local Open Scope list_scope.

(** ** Code units *)
Lemma units_app a b : Units a -> Units b -> Units (a ++ b).
Proof. intros A B. apply Forall_app. split; assumption. Qed.
Lemma units_lit s : Units (lit s).
Proof. eapply Forall_impl; [|apply lit_256]. cbn. lia. Qed.
Lemma units_ascii s : Ascii s -> Units s.
Proof. intro F. eapply Forall_impl; [|exact F]. cbn. lia. Qed.
Lemma units_utf16 s : CodePoints s -> Units (utf16 s).
Proof.
  induction 1 as [|c s H F IH]; [constructor|]. rewrite utf16_cons. apply units_app; [|exact IH].
  unfold utf16_char. destruct (N.ltb_spec c 65536); repeat constructor; [assumption| |].
  - assert ((c - 65536) / 1024 < 1024) by (apply N.div_lt_upper_bound; lia). lia.
  - assert ((c - 65536) mod 1024 < 1024) by (apply N.mod_upper_bound; lia). lia.
Qed.
Lemma units_escape u : Units (u_escape u).
Proof. eapply Forall_impl; [|apply u_escape_low]. cbn. lia. Qed.
Lemma units_quote_unit u : u < 65536 -> Units (quote_unit u).
Proof.
  intro H. unfold quote_unit.
  repeat match goal with |- context [if ?b then _ else _] => destruct b; [try (repeat constructor; fail)|] end;
    try (repeat constructor; (assumption || lia)). apply units_escape.
Qed.
Lemma units_quote n : forall s, (List.length s <= n)%nat -> Units s -> Units (quote_units s).
Proof.
  induction n as [|n IH]; intros [|u t] L F; try (constructor; fail); cbn [List.length] in L; [lia|].
  inversion F as [|? ? F1 F2]; subst. rewrite quote_cons. destruct (is_high u).
  - destruct t as [|v t']; [apply units_escape|]. inversion F2 as [|? ? F3 F4]; subst. destruct (is_low v).
    + constructor; [assumption|]. constructor; [assumption|]. apply IH; [cbn in L; lia|assumption].
    + apply units_app; [apply units_escape|]. apply IH; [cbn in L |- *; lia|assumption].
  - destruct (is_low u); (apply units_app; [|apply IH; [lia|assumption]]).
    + apply units_escape.
    + now apply units_quote_unit.
Qed.
Lemma units_string s : Units s -> Units (quote_string s).
Proof.
  intro F. constructor; [lia|]. apply units_app; [now apply (units_quote (List.length s))|repeat constructor].
Qed.
Lemma units_usv s : Units s -> Scalars (usv s).
Proof. now apply (usv_scalars (List.length s)). Qed.
Lemma units_join ws : Forall Units ws -> Units (join [44] ws).
Proof.
  induction 1 as [|w ws H F IH]; [constructor|]. destruct ws as [|w' ws]; [exact H|].
  rewrite join_cons. apply units_app; [exact H|]. constructor; [lia|exact IH].
Qed.
Lemma scalars_plain s : Scalars s -> PlainText s.
Proof.
  intro F. split.
  - eapply Forall_impl; [|exact F]. cbn. lia.
  - intros (a & h & l & b & -> & H & _). apply Forall_app in F as [_ F]. inversion F; subst. unfold High in H. lia.
Qed.

Section Send.
Variable B : browser.
Variable J : jsonenv.
Hypothesis LIM : limits J.

(** ** Values of strings and objects only *)
Inductive Strings : nat -> pyval -> Prop :=
| strs_str n s : PlainText s -> Strings n (VStr s)
| strs_dict n d : (forall k w, In (k, w) d -> exists s, k = VStr s /\ PlainText s /\ ~ (exists c t, s = c :: t /\ Digit c)) -> NoDup (map fst d) ->
    Forall (fun kv => Strings n (snd kv)) d -> Strings (S n) (VDict d).
Lemma strings_carried n : forall v, Strings n v -> Carried J (fun _ => []) n v /\ Exact v.
Proof.
  induction n as [|n IH]; intros v S; inversion S as [? s [C P]|? d K N F]; subst.
  - split; now constructor.
  - split; now constructor.
  - split; constructor; try assumption.
    + intros k w I. destruct (K k w I) as (s & -> & P & _). eauto.
    + eapply Forall_impl; [|exact F]. intros kv H. now apply IH.
    + intros k w I. destruct (K k w I) as (s & -> & _ & P). eauto.
    + eapply Forall_impl; [|exact F]. intros kv H. now apply IH.
Qed.
Lemma strings_units n : forall v, Strings n v -> Units (stringify B (js_of v)).
Proof.
  assert (STR : forall s, PlainText s -> Units (stringify B (js_of (VStr s)))).
  { intros s [C _]. apply units_string. now apply units_utf16. }
  induction n as [|n IH]; intros v S; inversion S as [? s P|? d K N F]; subst; auto.
  cbn [js_of]. rewrite stringify_object. constructor; [lia|]. apply units_app; [|repeat constructor].
  apply units_join. clear S N. induction F as [|[k w] d Fw F IHd]; [constructor|].
  cbn [map fst snd stringify_members].
  assert (T : Forall Units (stringify_members B (map (fun kv =>
      (match fst kv with VStr s => utf16 s | _ => [] end, js_of (snd kv))) d)))
    by (apply IHd; intros k' w' I; apply (K k' w'); now right).
  destruct (is_undefined (js_of w)); [exact T|]. constructor; [|exact T].
  destruct (K k w (or_introl eq_refl)) as (s & -> & [C _] & _).
  apply units_app; [apply units_string; now apply units_utf16|]. constructor; [lia|now apply IH].
Qed.
Lemma strings_sent n v : (n <= 7)%nat -> Strings n v ->
  JsonSpec.JText J (usv (stringify B (js_of v))) v /\ Scalars (usv (stringify B (js_of v))).
Proof.
  intros L S. split; [|apply units_usv; now apply (strings_units n)].
  destruct (strings_carried n v S) as [C X]. destruct LIM as [_ D].
  exists [], (usv (stringify B (js_of v))), []. rewrite app_nil_r. split; [reflexivity|].
  split; [constructor|]. split; [constructor|]. apply (stringify_read J (fun _ => []) B); [|exact X].
  apply (carried_mono J (fun _ => []) n); [exact C|lia].
Qed.

(** ** The credentials *)
Lemma b2a_utf16 b : utf16 (b2a b) = b2a b.
Proof. apply utf16_small. eapply Forall_impl; [|apply b2a_ascii]. cbn. lia. Qed.
Lemma b2a_plain b : PlainText (b2a b).
Proof. apply low_plain. eapply Forall_impl; [|apply b2a_ascii]. cbn. lia. Qed.
Lemma bytes_value b : JBytes b (VStr (b2a b)).
Proof.
  exists (b2a b). destruct (c44_std b) as [R D]. split; [reflexivity|]. split; [exact R|].
  unfold bytes_from_base64 in D. destruct (b64decode (b2a b)) as [|e]; [now injection D as ->|destruct e as [[]| |]; discriminate].
Qed.
Lemma lit_key n : (exists c t, lit n = c :: t /\ 57 < c) ->
  exists s, VStr (lit n) = VStr s /\ PlainText s /\ ~ (exists c t, s = c :: t /\ Digit c).
Proof.
  intros (c & t & Q & L). exists (lit n). split; [reflexivity|]. split; [apply lit_plain|].
  intros (c' & t' & Q' & D). rewrite Q in Q'. apply (f_equal (hd 0)) in Q'. cbn [hd] in Q'. subst. unfold Digit in D. lia.
Qed.
Ltac lkey := apply lit_key; eexists; eexists; split; [reflexivity|reflexivity].

Ltac parts X := cbn [In app] in X;
  repeat match type of X with _ \/ _ => destruct X as [X|X] end; try contradiction.
Ltac keys := let k := fresh "k" in let w := fresh "w" in let X := fresh "X" in
  intros k w X; parts X; injection X as <- <-.
Ltac nodup := cbn [map fst]; repeat (constructor; [let X := fresh "X" in intro X; parts X; discriminate X|]); constructor.

Lemma attestation_value c cr : Attests c cr ->
  exists v, attestationJSON c = js_of v /\ Strings 2 v /\ JCredential cr v.
Proof.
  intros (P1 & E1 & P2 & E2 & E3 & E4).
  exists (VDict [(VStr (lit "type"), VStr (cr_type cr)); (VStr (lit "id"), VStr (cr_id cr));
                 (VStr (lit "rawId"), VStr (b2a (ac_raw_id c)));
                 (VStr (lit "response"), VDict [(VStr (lit "attestationObject"), VStr (b2a (ac_object c)));
                                                (VStr (lit "clientDataJSON"), VStr (b2a (ac_client c)))])]).
  split; [|split].
  - unfold attestationJSON, base64encode. cbn [js_of map fst snd]. rewrite !utf16_lit, !b2a_utf16, E1, E2. reflexivity.
  - constructor; [keys; lkey|nodup|].
    do 3 (constructor; [constructor; (assumption || apply b2a_plain)|]). constructor; [|constructor].
    constructor; [keys; lkey|nodup|]. repeat (constructor; [constructor; apply b2a_plain|]). constructor.
  - eexists. split; [reflexivity|]. split.
    + split; [eexists; split; [reflexivity|reflexivity]|]. split; [eexists; split; [reflexivity|reflexivity]|].
      split; [eexists; split; [reflexivity|rewrite E3; apply bytes_value]|].
      eexists. split; [reflexivity|]. rewrite E4. cbn [JResponse]. eexists. split; [reflexivity|]. split.
      * split; (eexists; split; [reflexivity|apply bytes_value]).
      * keys; eexists; (split; [|reflexivity]); cbn [In]; tauto.
    + keys; eexists; (split; [|reflexivity]); cbn [In]; tauto.
Qed.
Lemma assertion_value c cr : Asserts c cr ->
  exists v, assertionJSON c = js_of v /\ Strings 2 v /\ JCredential cr v.
Proof.
  intros (P1 & E1 & P2 & E2 & E3 & h & E4 & E5).
  pose (tail := match h with Some b => [(VStr (lit "userHandle"), VStr (b2a b))] | None => [] end).
  exists (VDict [(VStr (lit "type"), VStr (cr_type cr)); (VStr (lit "id"), VStr (cr_id cr));
                 (VStr (lit "rawId"), VStr (b2a (sc_raw_id c)));
                 (VStr (lit "response"), VDict ([(VStr (lit "authenticatorData"), VStr (b2a (sc_data c)));
                                                (VStr (lit "clientDataJSON"), VStr (b2a (sc_client c)));
                                                (VStr (lit "signature"), VStr (b2a (sc_signature c)))] ++ tail))]).
  assert (HT : match sc_handle c with
               | Some (h0 :: t) => [(lit "userHandle", JsStr (base64encode (h0 :: t)))] | _ => [] end =
               map (fun kv => (match fst kv with VStr s => utf16 s | _ => [] end, js_of (snd kv))) tail).
  { subst tail. destruct (sc_handle c) as [[|b0 b]|] eqn:SH.
    - destruct h as [b|]; [|reflexivity]. destruct (proj1 (E5 b) eq_refl) as [Q N]. injection Q as <-. now elim N.
    - assert (h = Some (b0 :: b)) as -> by (apply E5; split; [reflexivity|discriminate]).
      cbn [map fst snd js_of]. now rewrite utf16_lit, b2a_utf16.
    - destruct h as [b|]; [|reflexivity]. destruct (proj1 (E5 b) eq_refl) as [Q _]. discriminate Q. }
  split; [|split].
  - unfold assertionJSON. rewrite HT. unfold base64encode. cbn [js_of map fst snd]. rewrite map_app. cbn [map fst snd js_of].
    rewrite !utf16_lit, !b2a_utf16, E1, E2. reflexivity.
  - constructor; [keys; lkey|nodup|].
    do 3 (constructor; [constructor; (assumption || apply b2a_plain)|]). constructor; [|constructor].
    subst tail. destruct h as [b|]; cbn [app snd]; (constructor; [keys; lkey|nodup|]);
      repeat (constructor; [constructor; apply b2a_plain|]); constructor.
  - eexists. split; [reflexivity|]. split.
    + split; [eexists; split; [reflexivity|reflexivity]|]. split; [eexists; split; [reflexivity|reflexivity]|].
      split; [eexists; split; [reflexivity|rewrite E3; apply bytes_value]|].
      eexists. split; [reflexivity|]. rewrite E4. cbn [JResponse]. eexists. split; [reflexivity|]. subst tail.
      destruct h as [b|]; (split;
      [ split; [eexists; split; [reflexivity|apply bytes_value]|]; split; [eexists; split; [reflexivity|apply bytes_value]|];
        split; [eexists; split; [reflexivity|apply bytes_value]|];
        first [eexists; split; [reflexivity|apply bytes_value] | reflexivity]
      | keys; eexists; (split; [|reflexivity]); cbn [In]; tauto ]).
    + keys; eexists; (split; [|reflexivity]); cbn [In]; tauto.
Qed.

(** ** Requests *)
Variable W : World.
Variable replaced : bytes -> pystr.
Hypothesis LOADS : forall s, w_json_loads W s = json_loads J s.

Lemma value_carries v cr : JsonSpec.JText J (usv (stringify B (js_of v))) v -> JCredential cr v ->
  Carries W (usv (stringify B (js_of v))) cr.
Proof.
  intros T C. destruct (credential_parses W cr v C) as (d & -> & P). exists d. split; [|exact P].
  rewrite LOADS. now apply json_loads_iff.
Qed.
Lemma three_fields i t n : Scalars i -> Scalars t -> Scalars n ->
  let form := form_decode replaced (form_encode [(lit "challengeID", i); (lit "credential", t); (lit "username", n)]) in
  form_field (lit "challengeID") form = Some i /\ form_field (lit "credential") form = Some t /\
  form_field (lit "username") form = Some n.
Proof.
  intros H1 H2 H3. cbv zeta. rewrite form_roundtrip.
  - split; [|split]; reflexivity.
  - repeat (constructor; [split; [apply lit_scalars|assumption]|]). constructor.
Qed.
Lemma one_field n : Scalars n ->
  form_field (lit "username") (form_decode replaced (form_encode [(lit "username", n)])) = Some n.
Proof.
  intro H. rewrite form_roundtrip; [reflexivity|]. constructor; [split; [apply lit_scalars|exact H]|constructor].
Qed.
End Send.
