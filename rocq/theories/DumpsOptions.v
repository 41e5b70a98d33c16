(** * DumpsOptions: the options and the answers of the example application as JSON text. *)
From Coq Require Import List NArith ZArith Bool String Lia.
From Coq Require Ascii.
From Verif Require Import Base BaseFacts PyVal Json JsonSpec JsonFacts B64 CodecSpec FormatSpec Types
  Jsonify Builders OptionSpec JsonifyFacts OptionFacts OptionProps World CaseConv App AppSpec AppTheorems
  Dumps DumpsSpec DumpsFacts.
Import ListNotations.
Local Open Scope N_scope.
Local Open Scope list_scope.

Lemma low_plain s : Forall (fun c => c < 256) s -> PlainText s.
Proof.
  intro F. split.
  - eapply Forall_impl; [|exact F]. cbn. intros; lia.
  - intros (a & h & l & b & -> & H & _). apply Forall_app in F as [_ F]. inversion F; subst.
    unfold High in H. lia.
Qed.
Lemma lit_plain s : PlainText (lit s).
Proof.
  apply low_plain. unfold lit. induction s as [|a s IH]; cbn; constructor; [|exact IH].
  pose proof (Ascii.N_ascii_bounded a). lia.
Qed.
Lemma b64_plain b : PlainText (rfc4648 std_alphabet b).
Proof.
  apply low_plain. unfold rfc4648. apply Forall_app. split.
  - unfold rfc4648_unpadded, symbols. apply Forall_forall. intros c I. apply in_map_iff in I as (v & <- & _).
    destruct (nth_in_or_default (N.to_nat v) std_alphabet 0) as [I| ->]; [|lia].
    revert I. generalize (nth (N.to_nat v) std_alphabet 0). apply Forall_forall. unfold std_alphabet, lit.
    generalize (b64_common ++ "+/")%string. intro s. induction s as [|a s IH]; cbn; constructor; [|exact IH].
    pose proof (Ascii.N_ascii_bounded a). lia.
  - apply Forall_forall. intros c I. apply repeat_spec in I. subst. lia.
Qed.

Lemma has_in d name Q w : str_keys d -> has d name Q -> In (VStr (lit name), w) d -> Q w.
Proof.
  intros SK (w' & M & H) I. apply (find_in d (lit name) w SK) in I. unfold member in M. congruence.
Qed.
Lemma may_in {A} d name (o : option A) Q w : str_keys d -> may d name o Q -> In (VStr (lit name), w) d ->
  exists a, o = Some a /\ Q a w.
Proof.
  intros SK M I. destruct o as [a|].
  - exists a. split; [reflexivity|]. now apply (has_in d name (Q a) w SK).
  - apply (find_in d (lit name) w SK) in I. cbn [may] in M. congruence.
Qed.

Section Env.
Variable E : jsonenv.
Variable repr : N -> pystr.
Hypothesis LIM : limits E.
Notation Carried := (Carried E repr).

Lemma short_small z : (Z.abs z < 10 ^ 640)%Z -> Short E z.
Proof.
  intros H m M. destruct LIM as [L _]. specialize (L m M). split; [lia|].
  eapply Z.lt_le_trans; [exact H|]. apply Z.pow_le_mono_r; lia.
Qed.

Lemma object_carried n names P v : JObject names P v -> PureJson v ->
  (forall d, str_keys d -> P d -> forall m w, In m names -> In (VStr (lit m), w) d -> PureJson w -> Carried n w) ->
  Carried (S n) v.
Proof.
  intros (d & -> & Pd & N) PJ H. inversion PJ as [| | | | | |d' K ND F]; subst.
  constructor; [|exact ND|].
  - intros k w I. destruct (N k w I) as (m & _ & ->). exists (lit m). split; [reflexivity|apply lit_plain].
  - rewrite Forall_forall in *. intros [k w] I. destruct (N k w I) as (m & Im & ->).
    apply (H d (conj K ND) Pd m w Im I). exact (F _ I).
Qed.
Lemma list_carried {A} n (P : A -> pyval -> Prop) l v : JList P l v -> PureJson v ->
  (forall a w, P a w -> PureJson w -> Carried n w) -> Carried (S n) v.
Proof.
  intros (vs & -> & F) PJ H. inversion PJ as [| | | | |l' FP|]; subst. clear PJ. constructor.
  revert FP. induction F as [|a w l vs HP F IH]; intro FP; [constructor|].
  inversion FP; subst. constructor; [now apply (H a)|now apply IH].
Qed.
Lemma bytes_carried n b v : JBytes b v -> Carried n v.
Proof. intros (s & -> & -> & _). destruct (b64_plain b). now constructor. Qed.
Lemma str_carried n s v : JStr s v -> PlainText s -> Carried n v.
Proof. intros -> [H1 H2]. now constructor. Qed.
Lemma text_carried n s v : OptionSpec.JText s v -> Carried n v.
Proof. intros ->. destruct (lit_plain s). now constructor. Qed.
Lemma bool_carried n b v : JBool b v -> Carried n v.
Proof. intros ->. constructor. Qed.

(** One member of an object. *)
Ltac members :=
  let d := fresh "d" in let SK := fresh "SK" in let P := fresh "P" in let m := fresh "m" in
  let w := fresh "w" in let I := fresh "I" in let J := fresh "J" in let PJ := fresh "PJ" in
  intros d SK P m w I J PJ; cbn [In] in I; cbv beta in P;
  repeat match type of P with _ /\ _ => let Q := fresh "Q" in destruct P as [Q P] end;
  repeat match goal with H : _ \/ _ |- _ => destruct H as [<-|H] end; [..|contradiction];
  repeat match goal with
  | H : has d ?x _, K : In (VStr (lit ?x), _) d |- _ => apply (has_in _ _ _ _ SK H) in K
  | H : may d ?x _ _, K : In (VStr (lit ?x), _) d |- _ =>
      apply (may_in _ _ _ _ _ SK H) in K as (? & ? & K)
  end.

Ltac plain :=
  eapply str_carried; [eassumption|];
  first [assumption | match goal with H : ?o = Some _, P : each _ ?o |- _ => exact (P _ H) end].

Lemma rp_carried n r v : JRp r v -> PureJson v -> PlainRp r -> Carried (S n) v.
Proof.
  intros J PJ (P1 & P2 & P3). eapply object_carried; [exact J|exact PJ|]. members; plain.
Qed.
Lemma user_carried n u v : JUser u v -> PureJson v -> PlainUser u -> Carried (S n) v.
Proof.
  intros J PJ (P1 & P2 & P3). eapply object_carried; [exact J|exact PJ|]. members;
    first [eapply bytes_carried; eassumption | plain].
Qed.
Lemma params_carried n p v : JParams p v -> PureJson v -> Carried (S n) v.
Proof.
  intros J PJ. eapply object_carried; [exact J|exact PJ|]. members; [eapply text_carried; eassumption|].
  unfold cose_alg in J0. destruct p as [[] []]; cbn [fst snd] in J0; rewrite J0;
    first [constructor; apply short_small; reflexivity | (eapply text_carried; reflexivity)].
Qed.
Lemma descriptor_carried n x v : JDescriptor x v -> PureJson v -> Carried (S (S n)) v.
Proof.
  intros J PJ. eapply object_carried; [exact J|exact PJ|]. members.
  - eapply text_carried; eassumption.
  - eapply bytes_carried; eassumption.
  - eapply list_carried; [eassumption|assumption|]. intros a w' T _. eapply text_carried; exact T.
Qed.
Lemma inputs_carried n e v : JInputs e v -> PureJson v -> PlainInputs E repr e -> Carried (S (S n)) v.
Proof.
  intros J PJ (P1 & P2 & P3 & P4). eapply object_carried; [exact J|exact PJ|]. members.
  - plain.
  - plain.
  - eapply object_carried; [eassumption|assumption|]. members.
    + eapply str_carried; [eassumption|]. now apply (P3 x).
    + eapply bytes_carried; eassumption.
  - eapply list_carried; [eassumption|assumption|]. intros a w' T _. eapply bytes_carried; exact T.
  - eapply bool_carried; eassumption.
  - eapply bool_carried; eassumption.
  - eapply bool_carried; eassumption.
  - eapply bool_carried; eassumption.
  - eapply object_carried; [eassumption|assumption|]. destruct (P4 x) as [F1 F2]; [assumption|].
    members; subst; constructor; assumption.
Qed.
Lemma selection_carried n s v : JSelection s v -> PureJson v -> Carried (S n) v.
Proof.
  intros J PJ. eapply object_carried; [exact J|exact PJ|]. members;
    first [eapply bool_carried; eassumption | eapply text_carried; eassumption].
Qed.

Lemma creation_carried o v : JCreation o v -> PureJson v -> PlainCreation E repr o -> Carried 5 v.
Proof.
  intros J PJ (P1 & P2 & P3 & P4). eapply object_carried; [exact J|exact PJ|]. members.
  eapply object_carried; [eassumption|assumption|]. members.
  - eapply rp_carried; eassumption.
  - eapply user_carried; eassumption.
  - eapply bytes_carried; eassumption.
  - eapply list_carried; [eassumption|assumption|]. intros a w' T PT. eapply params_carried; eassumption.
  - unfold JInt in *. subst. constructor. now apply P3.
  - eapply list_carried; [eassumption|assumption|]. intros a w' T PT. eapply descriptor_carried; eassumption.
  - eapply selection_carried; eassumption.
  - eapply text_carried; eassumption.
  - eapply inputs_carried; [eassumption|assumption|]. now apply P4.
Qed.
Lemma request_carried o v : JRequest o v -> PureJson v -> PlainRequest E repr o -> Carried 5 v.
Proof.
  intros J PJ (P1 & P2 & P3). eapply object_carried; [exact J|exact PJ|]. members.
  - eapply text_carried; eassumption.
  - eapply object_carried; [eassumption|assumption|]. members.
    + eapply bytes_carried; eassumption.
    + unfold JInt in *. subst. constructor. now apply P1.
    + plain.
    + eapply list_carried; [eassumption|assumption|]. intros a w' T PT. eapply descriptor_carried; eassumption.
    + eapply text_carried; eassumption.
    + eapply inputs_carried; [eassumption|assumption|]. now apply P3.
Qed.

(** Text of a carried value. *)
Lemma carried_text v : Carried (je_depth E) v ->
  exists t, json_dumps E repr v = WOk t /\ JsonSpec.JText E t v /\ json_loads E t = WOk v /\ Forall printable t.
Proof.
  intro C. destruct (dump_carried E repr _ v C) as (t & D & J & P). exists t. split; [exact D|].
  assert (T : JsonSpec.JText E t v).
  { exists [], t, []. rewrite app_nil_r. split; [reflexivity|]. split; [constructor|]. split; [constructor|exact J]. }
  split; [exact T|]. split; [now apply json_loads_iff|exact P].
Qed.
Lemma body_text name id v : Carried 5 v -> Short E (Z.of_N id) -> name <> "challengeID"%string ->
  exists t, options_body E repr name id v = WOk t /\ Forall printable t /\
    let answer := VDict [(VStr (lit "challengeID"), VInt (Z.of_N id)); (VStr (lit name), v)] in
    JsonSpec.JText E t answer /\ json_loads E t = WOk answer.
Proof.
  intros C S N. destruct LIM as [_ L].
  destruct (carried_text (VDict [(VStr (lit "challengeID"), VInt (Z.of_N id)); (VStr (lit name), v)])) as (t & D & J & R & P).
  2:{ exists t. auto. }
  apply (carried_mono E repr 6); [|lia]. constructor.
  - intros k w [Q|[Q|[]]]; injection Q as <- <-; eexists; (split; [reflexivity|apply lit_plain]).
  - cbn [map fst]. constructor; [|constructor; [intros []|constructor]].
    intros [Q|[]]. injection Q as Q. apply N. symmetry. apply lit_inj. congruence.
  - constructor; [now constructor|]. constructor; [exact C|constructor].
Qed.
End Env.

Lemma c77_strings (E : jsonenv) (repr : N -> pystr) (s : pystr) : CodePoints s ->
  exists t, json_dumps E repr (VStr s) = WOk t /\ Forall printable t /\
    (json_loads E t = WOk (VStr s) <-> ~ SplitPair s).
Proof.
  intro C. exists (quoted s). split; [unfold json_dumps; destruct (je_depth E); reflexivity|].
  split; [apply quoted_printable|]. rewrite json_loads_iff, <- (escaped_iff s C). split.
  - intro T. pose proof (escaped_merged _ s (le_n _) C) as M.
    assert (T' : JsonSpec.JText E (quoted s) (VStr (merged s))).
    { exists [], (quoted s), []. rewrite app_nil_r. split; [reflexivity|]. split; [constructor|].
      split; [constructor|]. now apply jval_string. }
    apply json_loads_iff in T, T'. rewrite T in T'. injection T' as Q. now rewrite <- Q in M.
  - intro H. exists [], (quoted s), []. rewrite app_nil_r. split; [reflexivity|]. split; [constructor|].
    split; [constructor|]. now apply jval_string.
Qed.
Lemma c77_failures (E : jsonenv) (repr : N -> pystr) (v : pyval) :
  (forall e, json_dumps E repr v = WRaise e -> DumpDefect E (je_depth E) v e) /\
  ((exists t, json_dumps E repr v = WOk t) <-> forall e, ~ DumpDefect E (je_depth E) v e).
Proof.
  unfold json_dumps. split; [intros e H; eapply dump_raise; exact H|]. split.
  - intros (t & H) e. exact (dump_no_defect E repr _ v t e H).
  - intro N. destruct (dump E repr (je_depth E) v) as [t|e] eqn:D; [eauto|].
    apply dump_raise in D. now apply N in D.
Qed.
Lemma c77_creation (U : unicode) (depth : nat) (E : jsonenv) (repr : N -> pystr) (b : creation_builder)
  (user : user_entity) (challenge : bytes) (o : creation_options) :
  ascii_ok U -> (7 <= depth)%nat -> limits E -> creation_build b user challenge = Ok o ->
  PlainCreation E repr o ->
  exists v t, jsonify U depth true (obj_of_creation o) = Ok v /\ JCreation o v /\
    json_dumps E repr v = WOk t /\ JsonSpec.JText E t v /\ json_loads E t = WOk v /\ Forall printable t.
Proof.
  intros A L LM B P. destruct (c48_creation U depth b user challenge o A L B) as (v & J & C & PJ & _).
  destruct (carried_text E repr v) as (t & T); [|exists v, t; auto].
  apply (carried_mono E repr 5); [now apply (creation_carried E repr LM o)|destruct LM; lia].
Qed.
Lemma c77_request (U : unicode) (depth : nat) (E : jsonenv) (repr : N -> pystr) (b : request_builder)
  (challenge : bytes) (allow : option (list descriptor)) (o : request_options) :
  ascii_ok U -> (7 <= depth)%nat -> limits E -> request_build b challenge allow = Ok o ->
  PlainRequest E repr o ->
  exists v t, jsonify U depth true (obj_of_request o) = Ok v /\ JRequest o v /\
    json_dumps E repr v = WOk t /\ JsonSpec.JText E t v /\ json_loads E t = WOk v /\ Forall printable t.
Proof.
  intros A L LM B P. destruct (c48_request U depth b challenge allow o A L B) as (v & J & C & PJ & _).
  destruct (carried_text E repr v) as (t & T); [|exists v, t; auto].
  apply (carried_mono E repr 5); [now apply (request_carried E repr o)|destruct LM; lia].
Qed.
Lemma id_short (E : jsonenv) id : limits E -> id < 10 ^ 640 -> Short E (Z.of_N id).
Proof.
  intros LM L. apply short_small; [exact (fun _ => [])|exact LM|]. rewrite Z.abs_eq by lia.
  apply N2Z.inj_lt in L. rewrite N2Z.inj_pow in L. exact L.
Qed.
Lemma c77_registration (W : World) (E : appenv) (J : jsonenv) (repr : N -> pystr) (l : list (chance * request))
  (c : chance) (n : pystr) (id : N) (v : pyval) :
  converts E -> limits J -> PlainText n -> id < 10 ^ 640 ->
  answer W E l (c, RegistrationRequest (Some n)) = Options id v ->
  exists t, options_body J repr "creationOptions" id v = WOk t /\ Forall printable t /\
    let a := VDict [(VStr (lit "challengeID"), VInt (Z.of_N id)); (VStr (lit "creationOptions"), v)] in
    JsonSpec.JText J t a /\ json_loads J t = WOk a.
Proof.
  intros CV LM PN L A. destruct (c60_creation W E l c n id v CV A) as (h & _ & PJ & JC & _).
  apply body_text; [exact LM| |now apply id_short|discriminate].
  eapply creation_carried; [exact LM|exact JC|exact PJ|].
  split; [|split; [|split]]; cbn [co_rp co_user co_timeout co_extensions].
  - split; [apply lit_plain|]. split; [intros a Q; discriminate Q|apply lit_plain].
  - split; [exact PN|]. split; [intros a Q; discriminate Q|exact PN].
  - intros a Q. injection Q as <-. now apply (short_small J repr LM).
  - intros a Q. discriminate Q.
Qed.
Lemma c77_login (W : World) (E : appenv) (J : jsonenv) (repr : N -> pystr) (l : list (chance * request))
  (c : chance) (n : pystr) (id : N) (v : pyval) :
  converts E -> limits J -> id < 10 ^ 640 ->
  answer W E l (c, AuthenticationRequest (Some n)) = Options id v ->
  exists t, options_body J repr "requestOptions" id v = WOk t /\ Forall printable t /\
    let a := VDict [(VStr (lit "challengeID"), VInt (Z.of_N id)); (VStr (lit "requestOptions"), v)] in
    JsonSpec.JText J t a /\ json_loads J t = WOk a.
Proof.
  intros CV LM L A. destruct (c60_request W E l c n id v CV A) as (PJ & JC & _).
  apply body_text; [exact LM| |now apply id_short|discriminate].
  eapply request_carried; [exact JC|exact PJ|]. split; [|split].
  - intros a Q. injection Q as <-. now apply (short_small J repr LM).
  - intros a Q. injection Q as <-. apply lit_plain.
  - intros a Q. discriminate Q.
Qed.
