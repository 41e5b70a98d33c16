(** * PageRun: one registration or login through the page, other clients in between. *)
From Coq Require Import List NArith ZArith Bool String Lia.
From Verif Require Import Base BaseFacts PyVal B64 Json JsonSpec JsonFacts CodecSpec FormatSpec
  Types Jsonify Builders OptionSpec JsonifyFacts OptionFacts OptionProps World Parsers App AppSpec AppTheorems
  HonestSpec AppHonest AgreeSpec Agree
  Dumps DumpsSpec DumpsFacts DumpsOptions Form Page PageSpec FormFacts PageText PageArgs PageSend.
Import ListNotations.
Local Open Scope N_scope.
Local Open Scope list_scope.

(** ** The options are held exactly *)
Definition worded (names : list string) : Prop := forall m, In m names -> exists c t, lit m = c :: t /\ 57 < c.
Lemma object_exact names P v : worded names -> JObject names P v -> PureJson v ->
  (forall d, str_keys d -> P d -> forall m w, In m names -> In (VStr (lit m), w) d -> PureJson w -> Exact w) ->
  Exact v.
Proof.
  intros WD (d & -> & Pd & N) PJ H. inversion PJ as [| | | | | |d' K ND F]; subst.
  constructor; [|exact ND|].
  - intros k w I. destruct (N k w I) as (m & Im & ->). exists (lit m). split; [reflexivity|].
    destruct (WD m Im) as (c & t & -> & L). intros (c' & t' & Q & D).
    apply (f_equal (hd 0)) in Q. cbn [hd] in Q. subst. unfold Digit in D. lia.
  - rewrite Forall_forall in *. intros [k w] I. destruct (N k w I) as (m & Im & ->).
    apply (H d (conj K ND) Pd m w Im I). exact (F _ I).
Qed.
Lemma list_exact {A} (P : A -> pyval -> Prop) l v : JList P l v -> PureJson v ->
  (forall a w, In a l -> P a w -> PureJson w -> Exact w) -> Exact v.
Proof.
  intros (vs & -> & F) PJ H. inversion PJ as [| | | | |l' FP|]; subst. clear PJ. constructor.
  revert FP H. induction F as [|a w l vs HP F IH]; intros FP H; [constructor|].
  inversion FP; subst. constructor; [apply (H a); [now left|assumption|assumption]|].
  apply IH; [assumption|]. intros a' w' I. apply H. now right.
Qed.
Lemma bytes_exact b v : JBytes b v -> Exact v.
Proof. intros (s & -> & _). constructor. Qed.
Lemma str_exact s v : JStr s v -> Exact v.
Proof. intros ->. constructor. Qed.
Lemma text_exact s v : OptionSpec.JText s v -> Exact v.
Proof. intros ->. constructor. Qed.
Lemma int_exact z v : JInt z v -> (Z.abs z <= 2 ^ 53)%Z -> Exact v.
Proof. intros ->. now constructor. Qed.

Ltac wordy := let m := fresh "m" in let I := fresh "I" in intros m I; cbn [In] in I;
  repeat match type of I with _ \/ _ => destruct I as [<-|I] end; [..|contradiction];
  eexists; eexists; (split; [reflexivity|reflexivity]).
Ltac members :=
  let d := fresh "d" in let SK := fresh "SK" in let P := fresh "P" in let m := fresh "m" in
  let w := fresh "w" in let I := fresh "I" in let J := fresh "J" in let PJ := fresh "PJ" in
  intros d SK P m w I J PJ; cbn [In] in I; cbv beta in P;
  repeat match type of P with _ /\ _ => let Q := fresh "Q" in destruct P as [Q P] end;
  repeat match goal with H : _ \/ _ |- _ => destruct H as [<-|H] end; [..|contradiction];
  repeat match goal with
  | H : has d ?x _, K : In (VStr (lit ?x), _) d |- _ => apply (has_in _ _ _ _ SK H) in K
  | H : may d ?x _ _, K : In (VStr (lit ?x), _) d |- _ =>
      apply (may_in _ _ _ _ _ SK H) in K as (? & ? & K)
  end.
Ltac leaf := first [eapply bytes_exact; eassumption | eapply str_exact; eassumption | eapply text_exact; eassumption].

Lemma creation_exact n h c v : JCreation (app_creation n h c) v -> PureJson v -> Exact v.
Proof.
  intros J PJ. eapply object_exact; [|exact J|exact PJ|]; [wordy|]. members.
  eapply object_exact; [|eassumption|assumption|]; [wordy|]. members; cbn [app_creation co_rp co_user co_challenge
    co_pub_key_cred_params co_timeout co_exclude_credentials co_authenticator_selection co_attestation co_extensions] in *;
    try discriminate; try leaf.
  - eapply object_exact; [|eassumption|assumption|]; [wordy|]. members; leaf.
  - eapply object_exact; [|eassumption|assumption|]; [wordy|]. members; leaf.
  - eapply list_exact; [eassumption|assumption|]. intros a w' [<-|[]] T PT.
    eapply object_exact; [|exact T|assumption|]; [wordy|]. members; [leaf|].
    match goal with H : cose_alg _ ?x |- Exact ?x => cbn [cose_alg snd] in H; first [rewrite H|idtac] end.
    unfold cose_alg in *. subst. constructor. reflexivity || discriminate.
  - match goal with H : Some _ = Some _ |- _ => injection H as <- end. eapply int_exact; [eassumption|]. discriminate.
Qed.
Lemma request_exact ids c v : JRequest (app_request ids c) v -> PureJson v -> Exact v.
Proof.
  intros J PJ. eapply object_exact; [|exact J|exact PJ|]; [wordy|]. members; [leaf|].
  eapply object_exact; [|eassumption|assumption|]; [wordy|]. members; cbn [app_request ro_mediation ro_challenge
    ro_timeout ro_rp_id ro_allow_credentials ro_user_verification ro_extensions] in *;
    try discriminate; try leaf.
  - match goal with H : Some _ = Some _ |- _ => injection H as <- end. eapply int_exact; [eassumption|]. discriminate.
  - eapply list_exact; [eassumption|assumption|]. intros a w' I' T PT.
    match goal with H : Some _ = Some _ |- _ => injection H as <- end. apply in_map_iff in I' as (i & <- & _).
    eapply object_exact; [|exact T|assumption|]; [wordy|]. members; cbn [de_id de_transports] in *; try discriminate; leaf.
Qed.
Lemma answer_exact name id v : id <= 2 ^ 53 -> (exists c t, lit name = c :: t /\ 57 < c) ->
  name <> "challengeID"%string -> Exact v ->
  Exact (VDict [(VStr (lit "challengeID"), VInt (Z.of_N id)); (VStr (lit name), v)]).
Proof.
  intros L K N X. constructor.
  - intros k w [Q|[Q|[]]]; injection Q as <- <-; eexists; (split; [reflexivity|]); intros (c' & t' & Q & D).
    + apply (f_equal (hd 0)) in Q. cbn in Q. subst. unfold Digit in D. lia.
    + destruct K as (c & t & R & H). rewrite R in Q. apply (f_equal (hd 0)) in Q. cbn [hd] in Q. subst. unfold Digit in D. lia.
  - cbn [map fst]. constructor; [|constructor; [intros []|constructor]].
    intros [Q|[]]. injection Q as Q. apply N. symmetry. apply lit_inj. congruence.
  - constructor; [|constructor; [exact X|constructor]]. cbn [snd]. constructor. rewrite Z.abs_eq by lia.
    apply N2Z.inj_le in L. exact L.
Qed.

(** ** Steps *)
Section Run.
Variable B : browser.
Variable W : World.
Variable E : appenv.
Variable J : jsonenv.
Variable repr : N -> pystr.
Variable replaced : bytes -> pystr.
Notation run := (run_page B W E J repr replaced).
Notation happens := (happens B W E J repr replaced).
Notation to_request := (to_request replaced).
Notation to_response := (to_response J repr).

Lemma run_app s a b : run s (a ++ b) = run (run s a) b.
Proof. unfold run_page. apply fold_left_app. Qed.
Lemma run_cons s e es : run s (e :: es) = run (happens s e) es.
Proof. reflexivity. Qed.

Lemma with_input_id g : with_input (g_input g) g = g.
Proof. destruct g. reflexivity. Qed.
Lemma else_run es : Elsewhere es -> forall s, exists t,
  run s es = {| sy_page := with_input t (sy_page s); sy_tasks := sy_tasks s; sy_log := sy_log s ++ requests es |}.
Proof.
  induction 1 as [|e es H F IH]; intro s.
  - exists (g_input (sy_page s)). cbn. rewrite with_input_id, app_nil_r. destruct s. reflexivity.
  - rewrite run_cons. destruct (IH (happens s e)) as (t & ->). exists t. destruct H as [(x & ->)|(t' & ->)]; cbn.
    + now rewrite <- app_assoc.
    + reflexivity.
Qed.

Lemma nth_last {A} (l : list A) x : nth_error (l ++ [x]) (List.length l) = Some x.
Proof. induction l; [reflexivity|exact IHl]. Qed.
Lemma update_last {A} (l : list A) x y : update (l ++ [x]) (List.length l) y = l ++ [y].
Proof. induction l as [|a l IH]; [reflexivity|]. cbn [app List.length update]. now rewrite IH. Qed.

(** The state when the last function is at [t]. *)
Definition at_task (ts : list task) (t : task) (g : globals) (l : list (chance * request)) : system :=
  {| sy_page := g; sy_tasks := ts ++ [t]; sy_log := l |}.
Lemma click_register s : happens s ClickRegister =
  at_task (sy_tasks s) (fst (register B (sy_page s))) (snd (register B (sy_page s))) (sy_log s).
Proof. reflexivity. Qed.
Lemma click_authenticate s : happens s ClickAuthenticate =
  at_task (sy_tasks s) (fst (authenticate B (sy_page s))) (snd (authenticate B (sy_page s))) (sy_log s).
Proof. reflexivity. Qed.
Lemma served ts u body k g l c :
  happens (at_task ts (Fetch u body k) g l) (Serve (List.length ts) c) =
  at_task ts (Arrived (to_response (to_request u body) (answer W E l (c, to_request u body))) k) g
    (l ++ [(c, to_request u body)]).
Proof. cbn [Page.happens at_task sy_tasks sy_page sy_log]. rewrite nth_last, update_last. reflexivity. Qed.
Lemma delivered ts r k g l :
  happens (at_task ts (Arrived r k) g l) (Deliver (List.length ts)) = at_task ts (fst (k r g)) (snd (k r g)) l.
Proof.
  cbn [Page.happens at_task sy_tasks sy_page sy_log]. rewrite nth_last. unfold continue. cbn [at_task sy_tasks sy_log].
  rewrite update_last. reflexivity.
Qed.
Lemma parsed ts t k g l j : br_parse B t = Some j ->
  happens (at_task ts (ReadJson t k) g l) (Parse (List.length ts)) = at_task ts (fst (k j g)) (snd (k j g)) l.
Proof.
  intro P. cbn [Page.happens at_task sy_tasks sy_page sy_log]. rewrite nth_last, P. unfold continue. cbn [at_task sy_tasks sy_log].
  rewrite update_last. reflexivity.
Qed.
Lemma created ts o k g l a :
  happens (at_task ts (Create o k) g l) (Created (List.length ts) a) = at_task ts (fst (k a g)) (snd (k a g)) l.
Proof.
  cbn [Page.happens at_task sy_tasks sy_page sy_log]. rewrite nth_last. unfold continue. cbn [at_task sy_tasks sy_log].
  rewrite update_last. reflexivity.
Qed.
Lemma got ts o k g l a :
  happens (at_task ts (Get o k) g l) (Got (List.length ts) a) = at_task ts (fst (k a g)) (snd (k a g)) l.
Proof.
  cbn [Page.happens at_task sy_tasks sy_page sy_log]. rewrite nth_last. unfold continue. cbn [at_task sy_tasks sy_log].
  rewrite update_last. reflexivity.
Qed.
Lemma resumed ts k g l :
  happens (at_task ts (Returned k) g l) (Resume (List.length ts)) = at_task ts (fst (k g)) (snd (k g)) l.
Proof.
  cbn [Page.happens at_task sy_tasks sy_page sy_log]. rewrite nth_last. unfold continue. cbn [at_task sy_tasks sy_log].
  rewrite update_last. reflexivity.
Qed.
Lemma elsewhere ts t g l es : Elsewhere es -> exists x,
  run (at_task ts t g l) es = at_task ts t (with_input x g) (l ++ requests es).
Proof. intro H. destruct (else_run es H (at_task ts t g l)) as (x & ->). now exists x. Qed.

(** ** Requests and answers *)
Lemma ask_request n : Scalars n ->
  to_request RegistrationRequestUrl (form_encode [(lit "username", n)]) = RegistrationRequest (Some n) /\
  to_request AuthenticationRequestUrl (form_encode [(lit "username", n)]) = AuthenticationRequest (Some n).
Proof. intro H. unfold Page.to_request. now rewrite one_field. Qed.
Lemma id_text id : exists i, to_text B (JsInt (Z.of_N id)) = i /\ IntPart i /\ Decimal i id /\ Units i /\ usv i = i.
Proof.
  exists (dec_text id). destruct (dec_text_spec id) as (D & I & _). cbn [to_text].
  assert (Q : (Z.of_N id <? 0)%Z = false) by lia. rewrite Q. cbn [app].
  assert (Z.abs_N (Z.of_N id) = id) as -> by lia.
  assert (A : Ascii (dec_text id)).
  { apply int_digits in I as [I _]. eapply Forall_impl; [|exact I]. unfold Digit. cbn. lia. }
  split; [reflexivity|]. split; [exact I|]. split; [exact D|]. split; [now apply units_ascii|]. now apply usv_ascii.
Qed.
Lemma small_id id : id <= 2 ^ 53 -> id < 10 ^ 640.
Proof. intro L. eapply N.le_lt_trans; [exact L|]. reflexivity. Qed.

Hypothesis LIM : limits J.
Hypothesis CV : converts E.
Hypothesis PARSE : ParsesJson B J.

Lemma creation_answer l c n id v : PlainText n -> id <= 2 ^ 53 ->
  answer W E l (c, RegistrationRequest (Some n)) = Options id v ->
  exists t j o h, to_response (RegistrationRequest (Some n)) (Options id v) = (200, t) /\
    br_parse B t = Some j /\ get j "challengeID" = Some (JsInt (Z.of_N id)) /\
    (exists x, get j "creationOptions" = Some x /\ parseCreationOptions B x = Some o) /\
    UserHandle W E (l ++ [(c, RegistrationRequest (Some n))]) n h /\ CreationArgument n h (ch_challenge c) o /\
    Issued W E (l ++ [(c, RegistrationRequest (Some n))]) n (ch_challenge c) id (ch_clock c).
Proof.
  intros P L A. pose proof (small_id id L) as L'.
  destruct (c77_registration W E J repr l c n id v CV LIM P L' A) as (t & T & PR & JT & _).
  destruct (c60_creation W E l c n id v CV A) as (h & UH & PJ & JC & IS & _).
  destruct (creation_argument B n h (ch_challenge c) v JC PJ) as (o & PC & CA).
  exists t, (js_of (VDict [(VStr (lit "challengeID"), VInt (Z.of_N id)); (VStr (lit "creationOptions"), v)])), o, h.
  split; [unfold Page.to_response; now rewrite T|]. split.
  { apply PARSE; [exact JT| |].
    - eapply Forall_impl; [|exact PR]. unfold printable. cbn. lia.
    - apply answer_exact; [exact L| |discriminate|now apply (creation_exact n h (ch_challenge c))].
      eexists; eexists; split; [reflexivity|reflexivity]. }
  split; [reflexivity|]. split; [exists (js_of v); split; [reflexivity|exact PC]|]. auto.
Qed.
Lemma request_answer l c n id v : id <= 2 ^ 53 ->
  answer W E l (c, AuthenticationRequest (Some n)) = Options id v ->
  exists t j o, to_response (AuthenticationRequest (Some n)) (Options id v) = (200, t) /\
    br_parse B t = Some j /\ get j "challengeID" = Some (JsInt (Z.of_N id)) /\
    (exists x, get j "requestOptions" = Some x /\ parseRequestOptions B x = Some o) /\
    RequestArgument (registered W E n empty_db l) (ch_challenge c) o /\
    Issued W E (l ++ [(c, AuthenticationRequest (Some n))]) n (ch_challenge c) id (ch_clock c).
Proof.
  intros L A. pose proof (small_id id L) as L'.
  destruct (c77_login W E J repr l c n id v CV LIM L' A) as (t & T & PR & JT & _).
  destruct (c60_request W E l c n id v CV A) as (PJ & JC & IS & _).
  destruct (request_argument B _ (ch_challenge c) v JC PJ) as (o & PC & CA).
  exists t, (js_of (VDict [(VStr (lit "challengeID"), VInt (Z.of_N id)); (VStr (lit "requestOptions"), v)])), o.
  split; [unfold Page.to_response; now rewrite T|]. split.
  { apply PARSE; [exact JT| |].
    - eapply Forall_impl; [|exact PR]. unfold printable. cbn. lia.
    - apply answer_exact; [exact L| |discriminate|now apply (request_exact _ (ch_challenge c) v JC)].
      eexists; eexists; split; [reflexivity|reflexivity]. }
  split; [reflexivity|]. split; [exists (js_of v); split; [reflexivity|exact PC]|]. auto.
Qed.

(** ** Up to the authenticator *)
Lemma asked_creation s c o id v :
  let u := g_input (sy_page s) in let n := usv u in
  let l := sy_log s ++ requests (o 0%nat) in
  (forall j, Elsewhere (o j)) -> Units u -> id <= 2 ^ 53 ->
  answer W E l (c, RegistrationRequest (Some n)) = Options id v ->
  exists g a h, run s (asking ClickRegister (List.length (sy_tasks s)) c o) =
      at_task (sy_tasks s) (Create a (registerCreated B)) g
        (l ++ (c, RegistrationRequest (Some n)) :: requests (o 1%nat) ++ requests (o 2%nat)) /\
    CreationArgument n h (ch_challenge c) a /\
    UserHandle W E (l ++ [(c, RegistrationRequest (Some n))]) n h /\
    Issued W E (l ++ [(c, RegistrationRequest (Some n))]) n (ch_challenge c) id (ch_clock c) /\
    g_registeredUsername g = Some u /\ get (g_registrationRequest g) "challengeID" = Some (JsInt (Z.of_N id)).
Proof.
  intros u n l HO HU L A.
  pose proof (units_usv u HU) as SC.
  destruct (creation_answer l c n id v (scalars_plain _ SC) L A) as (t & j & a & h & TR & PJ & GI & (x & GX & PX) & UH & CA & IS).
  unfold asking. rewrite run_cons, click_register, run_app.
  edestruct (elsewhere (sy_tasks s)) as (x1 & ->); [apply HO|]. fold l.
  unfold register at 1. unfold post. cbn [fst snd map]. fold u. fold n.
  rewrite run_cons, served, (proj1 (ask_request n SC)), A, TR, run_app.
  edestruct (elsewhere (sy_tasks s)) as (x2 & ->); [apply HO|].
  rewrite run_cons, delivered. unfold registerArrived at 1 2, response_ok. cbn [fst snd N.leb andb].
  change ((200 <=? 200) && (200 <=? 299)) with true. cbv iota. cbn [fst snd].
  rewrite run_app. edestruct (elsewhere (sy_tasks s)) as (x3 & ->); [apply HO|].
  rewrite run_cons, (parsed _ _ _ _ _ j PJ). unfold registerOptions. rewrite GX. cbn [obind]. rewrite PX.
  cbn [fst snd]. unfold run_page. cbn [fold_left]. eexists. exists a, h. split.
  { rewrite <- !app_assoc. reflexivity. }
  split; [exact CA|]. split; [exact UH|]. split; [exact IS|]. split; [reflexivity|exact GI].
Qed.
Lemma asked_request s c o id v :
  let u := g_input (sy_page s) in let n := usv u in
  let l := sy_log s ++ requests (o 0%nat) in
  (forall j, Elsewhere (o j)) -> Units u -> id <= 2 ^ 53 ->
  answer W E l (c, AuthenticationRequest (Some n)) = Options id v ->
  exists g a, run s (asking ClickAuthenticate (List.length (sy_tasks s)) c o) =
      at_task (sy_tasks s) (Get a (authenticateGot B)) g
        (l ++ (c, AuthenticationRequest (Some n)) :: requests (o 1%nat) ++ requests (o 2%nat)) /\
    RequestArgument (registered W E n empty_db l) (ch_challenge c) a /\
    Issued W E (l ++ [(c, AuthenticationRequest (Some n))]) n (ch_challenge c) id (ch_clock c) /\
    g_authenticatingUsername g = Some u /\ get (g_authenticationRequest g) "challengeID" = Some (JsInt (Z.of_N id)).
Proof.
  intros u n l HO HU L A.
  pose proof (units_usv u HU) as SC.
  destruct (request_answer l c n id v L A) as (t & j & a & TR & PJ & GI & (x & GX & PX) & CA & IS).
  unfold asking. rewrite run_cons, click_authenticate, run_app.
  edestruct (elsewhere (sy_tasks s)) as (x1 & ->); [apply HO|]. fold l.
  unfold authenticate at 1. unfold post. cbn [fst snd map]. fold u. fold n.
  rewrite run_cons, served, (proj2 (ask_request n SC)), A, TR, run_app.
  edestruct (elsewhere (sy_tasks s)) as (x2 & ->); [apply HO|].
  rewrite run_cons, delivered. unfold authenticateArrived at 1 2, response_ok. cbn [fst snd N.leb andb].
  change ((200 <=? 200) && (200 <=? 299)) with true. cbv iota. cbn [fst snd].
  rewrite run_app. edestruct (elsewhere (sy_tasks s)) as (x3 & ->); [apply HO|].
  rewrite run_cons, (parsed _ _ _ _ _ j PJ). unfold authenticateOptions. rewrite GX. cbn [obind]. rewrite PX.
  cbn [fst snd]. unfold run_page. cbn [fold_left]. eexists. exists a. split.
  { rewrite <- !app_assoc. reflexivity. }
  split; [exact CA|]. split; [exact IS|]. split; [reflexivity|exact GI].
Qed.

(** ** What is sent *)
Variable depth : nat.
Hypothesis LOADS : forall s, w_json_loads W s = json_loads J s.

Lemma sent_attestation g a cr u id : g_attestation g = Some a -> Attests a cr ->
  g_registeredUsername g = Some u -> Units u ->
  get (g_registrationRequest g) "challengeID" = Some (JsInt (Z.of_N id)) ->
  exists body i, fst (registerAttestation B g) = Fetch RegistrationResponseUrl body registerResult /\
    Registers W (to_request RegistrationResponseUrl body) i (usv u) cr /\ IntPart i /\ Decimal i id.
Proof.
  intros GA AT GU HU GI. destruct (id_text id) as (i & EI & I1 & I2 & I3 & I4).
  destruct (attestation_value a cr AT) as (v & EV & ST & JC).
  destruct (strings_sent B J LIM 2 v ltac:(lia) ST) as [JT SC].
  unfold registerAttestation. cbn [setStatus g_attestation g_registrationRequest g_registeredUsername].
  rewrite GA, GI, GU. cbn [fst shown]. unfold post. eexists. exists i. split; [reflexivity|].
  split; [|split; assumption]. cbn [map fst snd]. rewrite EI, I4, EV.
  exists (usv (stringify B (js_of v))). unfold Page.to_request.
  destruct (three_fields replaced i (usv (stringify B (js_of v))) (usv u)) as (F1 & F2 & F3).
  - rewrite <- I4. now apply units_usv.
  - exact SC.
  - now apply units_usv.
  - rewrite F1, F2, F3. split; [reflexivity|]. now apply (value_carries B J W LOADS).
Qed.
Lemma sent_assertion g a cr u id : g_assertion g = Some a -> Asserts a cr ->
  g_authenticatingUsername g = Some u -> Units u ->
  get (g_authenticationRequest g) "challengeID" = Some (JsInt (Z.of_N id)) ->
  exists body i, fst (assertAuthentication B g) = Fetch AuthenticationResponseUrl body authenticateResult /\
    Authenticates W (to_request AuthenticationResponseUrl body) i (usv u) cr /\ IntPart i /\ Decimal i id.
Proof.
  intros GA AT GU HU GI. destruct (id_text id) as (i & EI & I1 & I2 & I3 & I4).
  destruct (assertion_value a cr AT) as (v & EV & ST & JC).
  destruct (strings_sent B J LIM 2 v ltac:(lia) ST) as [JT SC].
  unfold assertAuthentication. cbn [setStatus g_assertion g_authenticationRequest g_authenticatingUsername].
  rewrite GA, GI, GU. cbn [fst shown]. unfold post. eexists. exists i. split; [reflexivity|].
  split; [|split; assumption]. cbn [map fst snd]. rewrite EI, I4, EV.
  exists (usv (stringify B (js_of v))). unfold Page.to_request.
  destruct (three_fields replaced i (usv (stringify B (js_of v))) (usv u)) as (F1 & F2 & F3).
  - rewrite <- I4. now apply units_usv.
  - exact SC.
  - now apply units_usv.
  - rewrite F1, F2, F3. split; [reflexivity|]. now apply (value_carries B J W LOADS).
Qed.

(** ** From the authenticator to the end *)
Lemma told_attestation ts x g l a cr u id c o :
  let l' := l ++ requests (o 3%nat) ++ requests (o 4%nat) ++ requests (o 5%nat) in
  (forall j, Elsewhere (o j)) -> Attests a cr ->
  g_registeredUsername g = Some u -> Units u ->
  get (g_registrationRequest g) "challengeID" = Some (JsInt (Z.of_N id)) ->
  exists i q, Registers W q i (usv u) cr /\ IntPart i /\ Decimal i id /\
    exists s, run (at_task ts (Create x (registerCreated B)) g l) (telling (Created (List.length ts) (Some a)) (List.length ts) c o) = s /\
    sy_log s = l' ++ (c, q) :: requests (o 6%nat) /\ sy_tasks s = ts ++ [Finished] /\
    (answer W E l' (c, q) = Success <-> g_status (sy_page s) = registered_text u) /\
    (answer W E l' (c, q) <> Success -> g_status (sy_page s) = register_failed_text u).
Proof.
  intros l' HO AT GU HU GI. unfold telling. rewrite run_app.
  edestruct (elsewhere ts) as (x1 & ->); [apply HO|].
  rewrite run_cons, created. unfold registerCreated at 1 2. cbn [fst snd].
  rewrite run_app. edestruct (elsewhere ts) as (x2 & ->); [apply HO|].
  rewrite run_cons, resumed, run_app. edestruct (elsewhere ts) as (x3 & ->); [apply HO|].
  replace (((l ++ requests (o 3%nat)) ++ requests (o 4%nat)) ++ requests (o 5%nat)) with l' by (unfold l'; now rewrite !app_assoc).
  match goal with |- context [at_task ts (fst (registerAttestation B ?x))] => set (g1 := x) end.
  destruct (sent_attestation g1 a cr u id eq_refl AT GU HU GI) as (body & i & EB & RG & I1 & I2).
  rewrite EB. exists i, (to_request RegistrationResponseUrl body). split; [exact RG|]. split; [exact I1|]. split; [exact I2|].
  rewrite run_cons, served, run_app. edestruct (elsewhere ts) as (x4 & ->); [apply HO|].
  rewrite run_cons, delivered. unfold run_page. cbn [fold_left]. rewrite <- app_assoc. eexists. split; [reflexivity|].
  cbn [at_task sy_log sy_tasks sy_page registerResult fst snd app]. split; [reflexivity|]. split; [reflexivity|].
  assert (GF : shown (g_registeredUsername (with_input x4 (with_input x3 (snd (registerAttestation B g1))))) = u).
  { cbn [with_input g_registeredUsername]. unfold registerAttestation. cbn [setStatus g_attestation g_registrationRequest g_registeredUsername].
    subst g1. cbn [g_attestation g_registrationRequest g_registeredUsername with_input]. rewrite GI. cbn [snd setStatus g_registeredUsername].
    now rewrite GU. }
  rewrite GF. cbn [setStatus g_status].
  assert (Q : exists i k n, to_request RegistrationResponseUrl body = RegistrationResponse i k n \/
                            to_request RegistrationResponseUrl body = AuthenticationResponse i k n)
    by (unfold Page.to_request; eauto).
  destruct Q as (j & k & n & Q). destruct (c61_answered W E l' c j k n _ Q) as [S|((st & tx & S & N) & _)]; rewrite S.
  - split; [split; reflexivity|]. intros []. reflexivity.
  - unfold response_ok. cbn [Page.to_response fst]. split; [split|].
    + intro H. injection H as -> _. destruct N; discriminate.
    + destruct N as [-> | ->]; intro H; apply (f_equal (hd 0)) in H; discriminate H.
    + intros _. destruct N as [-> | ->]; reflexivity.
Qed.
Lemma told_assertion ts x g l a cr u id c o :
  let l' := l ++ requests (o 3%nat) ++ requests (o 4%nat) ++ requests (o 5%nat) in
  (forall j, Elsewhere (o j)) -> Asserts a cr ->
  g_authenticatingUsername g = Some u -> Units u ->
  get (g_authenticationRequest g) "challengeID" = Some (JsInt (Z.of_N id)) ->
  exists i q, Authenticates W q i (usv u) cr /\ IntPart i /\ Decimal i id /\
    exists s, run (at_task ts (Get x (authenticateGot B)) g l) (telling (Got (List.length ts) (Some a)) (List.length ts) c o) = s /\
    sy_log s = l' ++ (c, q) :: requests (o 6%nat) /\ sy_tasks s = ts ++ [Finished] /\
    (answer W E l' (c, q) = Success <-> g_status (sy_page s) = authorized_text u) /\
    (answer W E l' (c, q) <> Success -> g_status (sy_page s) = authorize_failed_text u).
Proof.
  intros l' HO AT GU HU GI. unfold telling. rewrite run_app.
  edestruct (elsewhere ts) as (x1 & ->); [apply HO|].
  rewrite run_cons, got. unfold authenticateGot at 1 2. cbn [fst snd].
  rewrite run_app. edestruct (elsewhere ts) as (x2 & ->); [apply HO|].
  rewrite run_cons, resumed, run_app. edestruct (elsewhere ts) as (x3 & ->); [apply HO|].
  replace (((l ++ requests (o 3%nat)) ++ requests (o 4%nat)) ++ requests (o 5%nat)) with l' by (unfold l'; now rewrite !app_assoc).
  match goal with |- context [at_task ts (fst (assertAuthentication B ?x))] => set (g1 := x) end.
  destruct (sent_assertion g1 a cr u id eq_refl AT GU HU GI) as (body & i & EB & RG & I1 & I2).
  rewrite EB. exists i, (to_request AuthenticationResponseUrl body). split; [exact RG|]. split; [exact I1|]. split; [exact I2|].
  rewrite run_cons, served, run_app. edestruct (elsewhere ts) as (x4 & ->); [apply HO|].
  rewrite run_cons, delivered. unfold run_page. cbn [fold_left]. rewrite <- app_assoc. eexists. split; [reflexivity|].
  cbn [at_task sy_log sy_tasks sy_page authenticateResult fst snd app]. split; [reflexivity|]. split; [reflexivity|].
  assert (GF : shown (g_authenticatingUsername (with_input x4 (with_input x3 (snd (assertAuthentication B g1))))) = u).
  { cbn [with_input g_authenticatingUsername]. unfold assertAuthentication.
    cbn [setStatus g_assertion g_authenticationRequest g_authenticatingUsername].
    subst g1. cbn [g_assertion g_authenticationRequest g_authenticatingUsername with_input]. rewrite GI.
    cbn [snd setStatus g_authenticatingUsername]. now rewrite GU. }
  rewrite GF. cbn [setStatus g_status].
  assert (Q : exists i k n, to_request AuthenticationResponseUrl body = RegistrationResponse i k n \/
                            to_request AuthenticationResponseUrl body = AuthenticationResponse i k n)
    by (unfold Page.to_request; eauto).
  destruct Q as (j & k & n & Q). destruct (c61_answered W E l' c j k n _ Q) as [S|((st & tx & S & N) & _)]; rewrite S.
  - split; [split; reflexivity|]. intros []. reflexivity.
  - unfold response_ok. cbn [Page.to_response fst]. split; [split|].
    + intro H. injection H as -> _. destruct N; discriminate.
    + destruct N as [-> | ->]; intro H; apply (f_equal (hd 0)) in H; discriminate H.
    + intros _. destruct N as [-> | ->]; reflexivity.
Qed.

(** ** Requests that are refused *)
Lemma not_options l c q n : q = RegistrationRequest (Some n) \/ q = AuthenticationRequest (Some n) ->
  (forall id v, answer W E l (c, q) <> Options id v) ->
  response_ok (to_response q (answer W E l (c, q))) = false.
Proof.
  intros [-> | ->] N.
  - destruct (proj2 (c60_reg_outcome W E l c n CV)) as [(id & v & A)|A]; [destruct (N id v A)|]. rewrite A. reflexivity.
  - destruct (proj2 (proj2 (c60_auth_outcome W E l c n CV))) as [(id & v & A)|[A|A]]; [destruct (N id v A)| |]; rewrite A; reflexivity.
Qed.
End Run.

(** ** The theorems *)
Lemma c84_register_refused (B : browser) (W : World) (E : appenv) (J : jsonenv) (repr : N -> pystr) (replaced : bytes -> pystr)
  (s : system) (c : chance) (o : nat -> list event) :
  converts E -> (forall j, Elsewhere (o j)) ->
  let i := List.length (sy_tasks s) in
  let n := usv (g_input (sy_page s)) in let l := sy_log s ++ requests (o 0%nat) in
  let y := (c, RegistrationRequest (Some n)) in
  Units (g_input (sy_page s)) -> (forall id v, answer W E l y <> Options id v) ->
  let s' := run_page B W E J repr replaced s (ClickRegister :: o 0%nat ++ Serve i c :: o 1%nat ++ [Deliver i]) in
  g_status (sy_page s') = register_refused_text /\ nth_error (sy_tasks s') i = Some Threw /\
  sy_log s' = l ++ y :: requests (o 1%nat).
Proof.
  intros CV HO i n l y HU A s'. pose proof (units_usv _ HU) as SC. fold n in SC.
  assert (NO := not_options W E J repr CV l c _ n (or_introl eq_refl) A).
  enough (R : exists g, s' = at_task (sy_tasks s) Threw g (l ++ y :: requests (o 1%nat)) /\ g_status g = register_refused_text).
  { destruct R as (g & -> & R). split; [exact R|]. split; [apply nth_last|reflexivity]. }
  subst s'. rewrite run_cons, click_register, run_app.
  edestruct (elsewhere B W E J repr replaced (sy_tasks s)) as (x1 & ->); [apply HO|]. fold l.
  unfold register at 1. unfold post. cbn [fst snd map]. fold n. subst i.
  rewrite run_cons, served, (proj1 (ask_request replaced n SC)), run_app.
  edestruct (elsewhere B W E J repr replaced (sy_tasks s)) as (x2 & ->); [apply HO|].
  rewrite run_cons, delivered. unfold registerArrived. fold y. fold y in NO. rewrite NO.
  unfold run_page. cbn [fold_left fst snd]. rewrite <- app_assoc. eexists. split; reflexivity.
Qed.
Lemma c84_authenticate_refused (B : browser) (W : World) (E : appenv) (J : jsonenv) (repr : N -> pystr) (replaced : bytes -> pystr)
  (s : system) (c : chance) (o : nat -> list event) :
  converts E -> (forall j, Elsewhere (o j)) ->
  let i := List.length (sy_tasks s) in
  let n := usv (g_input (sy_page s)) in let l := sy_log s ++ requests (o 0%nat) in
  let y := (c, AuthenticationRequest (Some n)) in
  Units (g_input (sy_page s)) -> (forall id v, answer W E l y <> Options id v) ->
  let s' := run_page B W E J repr replaced s (ClickAuthenticate :: o 0%nat ++ Serve i c :: o 1%nat ++ [Deliver i]) in
  g_status (sy_page s') = authenticate_refused_text /\ nth_error (sy_tasks s') i = Some Threw /\
  sy_log s' = l ++ y :: requests (o 1%nat).
Proof.
  intros CV HO i n l y HU A s'. pose proof (units_usv _ HU) as SC. fold n in SC.
  assert (NO := not_options W E J repr CV l c _ n (or_intror eq_refl) A).
  enough (R : exists g, s' = at_task (sy_tasks s) Threw g (l ++ y :: requests (o 1%nat)) /\ g_status g = authenticate_refused_text).
  { destruct R as (g & -> & R). split; [exact R|]. split; [apply nth_last|reflexivity]. }
  subst s'. rewrite run_cons, click_authenticate, run_app.
  edestruct (elsewhere B W E J repr replaced (sy_tasks s)) as (x1 & ->); [apply HO|]. fold l.
  unfold authenticate at 1. unfold post. cbn [fst snd map]. fold n. subst i.
  rewrite run_cons, served, (proj2 (ask_request replaced n SC)), run_app.
  edestruct (elsewhere B W E J repr replaced (sy_tasks s)) as (x2 & ->); [apply HO|].
  rewrite run_cons, delivered. unfold authenticateArrived. fold y. fold y in NO. rewrite NO.
  unfold run_page. cbn [fold_left fst snd]. rewrite <- app_assoc. eexists. split; reflexivity.
Qed.
Lemma c81_creation (B : browser) (W : World) (E : appenv) (J : jsonenv) (repr : N -> pystr) (replaced : bytes -> pystr)
  (s : system) (c : chance) (o : nat -> list event) (id : N) (v : pyval) :
  limits J -> converts E -> ParsesJson B J -> (forall j, Elsewhere (o j)) ->
  let i := List.length (sy_tasks s) in
  let n := usv (g_input (sy_page s)) in let l := sy_log s ++ requests (o 0%nat) in
  let y := (c, RegistrationRequest (Some n)) in
  Units (g_input (sy_page s)) -> answer W E l y = Options id v -> id <= 2 ^ 53 ->
  exists a k h, nth_error (sy_tasks (run_page B W E J repr replaced s (asking ClickRegister i c o))) i = Some (Create a k) /\
    UserHandle W E (l ++ [y]) n h /\ CreationArgument n h (ch_challenge c) a.
Proof.
  intros LIM CV P HO i n l y HU A L.
  destruct (asked_creation B W E J repr replaced LIM CV P s c o id v HO HU L A) as (g & a & h & R & CA & UH & _).
  exists a, (registerCreated B), h. fold i in R. rewrite R. cbn [at_task sy_tasks]. split; [apply nth_last|]. auto.
Qed.
Lemma c81_request (B : browser) (W : World) (E : appenv) (J : jsonenv) (repr : N -> pystr) (replaced : bytes -> pystr)
  (s : system) (c : chance) (o : nat -> list event) (id : N) (v : pyval) :
  limits J -> converts E -> ParsesJson B J -> (forall j, Elsewhere (o j)) ->
  let i := List.length (sy_tasks s) in
  let n := usv (g_input (sy_page s)) in let l := sy_log s ++ requests (o 0%nat) in
  Units (g_input (sy_page s)) -> answer W E l (c, AuthenticationRequest (Some n)) = Options id v -> id <= 2 ^ 53 ->
  exists a k, nth_error (sy_tasks (run_page B W E J repr replaced s (asking ClickAuthenticate i c o))) i = Some (Get a k) /\
    RequestArgument (registered W E n empty_db l) (ch_challenge c) a.
Proof.
  intros LIM CV P HO i n l HU A L.
  destruct (asked_request B W E J repr replaced LIM CV P s c o id v HO HU L A) as (g & a & R & CA & _).
  exists a, (authenticateGot B). fold i in R. rewrite R. cbn [at_task sy_tasks]. split; [apply nth_last|]. auto.
Qed.
Lemma happened_more W E l l' n cid k : RegisteredKey W E l n cid k -> RegisteredKey W E (l ++ l') n cid k.
Proof.
  intros (l1 & y & i & cr & ((l2 & ->) & A) & R). exists l1, y, i, cr. split; [|exact R]. split; [|exact A].
  exists (l2 ++ l'). now rewrite <- app_assoc.
Qed.
Lemma c82_registration_run (B : browser) (W : World) (E : appenv) (J : jsonenv) (repr : N -> pystr) (replaced : bytes -> pystr)
  (s : system) (c c' : chance) (o : nat -> list event) (id : N) (v : pyval) (a : att_cred) (cr : credential) :
  limits J -> converts E -> (forall t, w_json_loads W t = json_loads J t) -> ParsesJson B J -> (forall j, Elsewhere (o j)) ->
  let i := List.length (sy_tasks s) in let u := g_input (sy_page s) in let n := usv u in
  let l := sy_log s ++ requests (o 0%nat) in let y := (c, RegistrationRequest (Some n)) in
  let l' := l ++ y :: requests (o 1%nat ++ o 2%nat ++ o 3%nat ++ o 4%nat ++ o 5%nat) in
  Units u -> answer W E l y = Options id v -> id <= 2 ^ 53 -> Attests a cr ->
  let s' := run_page B W E J repr replaced s (asking ClickRegister i c o ++ telling (Created i (Some a)) i c' o) in
  Issued W E l' n (ch_challenge c) id (ch_clock c) /\
  exists q t, Registers W q t n cr /\ IntPart t /\ Decimal t id /\
    sy_log s' = l' ++ (c', q) :: requests (o 6%nat) /\
    (answer W E l' (c', q) = Success <-> g_status (sy_page s') = registered_text u) /\
    (answer W E l' (c', q) <> Success -> g_status (sy_page s') = register_failed_text u).
Proof.
  intros LIM CV LD P HO i u n l y l' HU A L AT s'.
  destruct (asked_creation B W E J repr replaced LIM CV P s c o id v HO HU L A) as (g & o1 & h & R & CA & UH & IS & GU & GI).
  subst s'. rewrite run_app. fold i in R. rewrite R.
  edestruct (told_attestation B W E J repr replaced LIM LD (sy_tasks s) o1 g) with (o := o) (c := c')
    as (t & q & RG & I1 & I2 & s' & -> & LG & _ & ST); [exact HO|exact AT|exact GU|exact HU|exact GI|].
  assert (EL : (l ++ y :: requests (o 1%nat) ++ requests (o 2%nat)) ++ requests (o 3%nat) ++ requests (o 4%nat) ++ requests (o 5%nat) = l').
  { subst l'. unfold requests. rewrite !flat_map_app. rewrite <- !app_assoc. cbn [app]. now rewrite <- !app_assoc. }
  split.
  { subst l'. change (l ++ y :: ?r) with (l ++ [y] ++ r). rewrite app_assoc. apply issued_more. exact IS. }
  exists q, t. split; [exact RG|]. split; [exact I1|]. split; [exact I2|].
  split; [rewrite <- EL; exact LG|rewrite <- EL; exact ST].
Qed.
Lemma c82_login_run (B : browser) (W : World) (E : appenv) (J : jsonenv) (repr : N -> pystr) (replaced : bytes -> pystr)
  (s : system) (c c' : chance) (o : nat -> list event) (id : N) (v : pyval) (a : ass_cred) (cr : credential) :
  limits J -> converts E -> (forall t, w_json_loads W t = json_loads J t) -> ParsesJson B J -> (forall j, Elsewhere (o j)) ->
  let i := List.length (sy_tasks s) in let u := g_input (sy_page s) in let n := usv u in
  let l := sy_log s ++ requests (o 0%nat) in let y := (c, AuthenticationRequest (Some n)) in
  let l' := l ++ y :: requests (o 1%nat ++ o 2%nat ++ o 3%nat ++ o 4%nat ++ o 5%nat) in
  Units u -> answer W E l y = Options id v -> id <= 2 ^ 53 -> Asserts a cr ->
  let s' := run_page B W E J repr replaced s (asking ClickAuthenticate i c o ++ telling (Got i (Some a)) i c' o) in
  Issued W E l' n (ch_challenge c) id (ch_clock c) /\
  exists q t, Authenticates W q t n cr /\ IntPart t /\ Decimal t id /\
    sy_log s' = l' ++ (c', q) :: requests (o 6%nat) /\
    (answer W E l' (c', q) = Success <-> g_status (sy_page s') = authorized_text u) /\
    (answer W E l' (c', q) <> Success -> g_status (sy_page s') = authorize_failed_text u).
Proof.
  intros LIM CV LD P HO i u n l y l' HU A L AT s'.
  destruct (asked_request B W E J repr replaced LIM CV P s c o id v HO HU L A) as (g & o1 & R & CA & IS & GU & GI).
  subst s'. rewrite run_app. fold i in R. rewrite R.
  edestruct (told_assertion B W E J repr replaced LIM LD (sy_tasks s) o1 g) with (o := o) (c := c')
    as (t & q & RG & I1 & I2 & s' & -> & LG & _ & ST); [exact HO|exact AT|exact GU|exact HU|exact GI|].
  assert (EL : (l ++ y :: requests (o 1%nat) ++ requests (o 2%nat)) ++ requests (o 3%nat) ++ requests (o 4%nat) ++ requests (o 5%nat) = l').
  { subst l'. unfold requests. rewrite !flat_map_app. rewrite <- !app_assoc. cbn [app]. now rewrite <- !app_assoc. }
  split.
  { subst l'. change (l ++ y :: ?r) with (l ++ [y] ++ r). rewrite app_assoc. apply issued_more. exact IS. }
  exists q, t. split; [exact RG|]. split; [exact I1|]. split; [exact I2|].
  split; [rewrite <- EL; exact LG|rewrite <- EL; exact ST].
Qed.
Lemma c83_registration (B : browser) (W : World) (E : appenv) (J : jsonenv) (repr : N -> pystr) (replaced : bytes -> pystr)
  (depth : nat) (s : system) (c c' : chance) (o : nat -> list event) (id : N) (v : pyval) (a : att_cred) (cr : credential)
  (cid : bytes) (k : pubkey) (ctr : N) :
  limits J -> converts E -> Conforming W depth J -> ParsesJson B J -> reads_decimal E -> (forall j, Elsewhere (o j)) ->
  let i := List.length (sy_tasks s) in let u := g_input (sy_page s) in let n := usv u in
  let l := sy_log s ++ requests (o 0%nat) in let y := (c, RegistrationRequest (Some n)) in
  let l' := l ++ y :: requests (o 1%nat ++ o 2%nat ++ o 3%nat ++ o 4%nat ++ o 5%nat) in
  Units u -> answer W E l y = Options id v -> id <= 2 ^ 53 ->
  Attests a cr -> AppRegistration W depth cr (ch_challenge c) cid k ctr ->
  (forall n' k', ~ RegisteredKey W E l' n' cid k') -> (ch_clock c' - ch_clock c <= 60000)%Z ->
  let s' := run_page B W E J repr replaced s (asking ClickRegister i c o ++ telling (Created i (Some a)) i c' o) in
  g_status (sy_page s') = registered_text u /\ RegisteredKey W E (sy_log s') n cid k.
Proof.
  intros LIM CV CF P RD HO i u n l y l' HU A L AT AR NR CL s'.
  destruct (c82_registration_run B W E J repr replaced s c c' o id v a cr LIM CV (cf_json _ _ _ CF) P HO HU A L AT)
    as (IS & q & t & RG & I1 & I2 & LG & ST & _).
  destruct (c72_registration W E depth J CV CF l' (c', q) t n cr id (ch_challenge c) (ch_clock c) cid k ctr RG
    (RD _ _ I1 I2 L) IS CL AR NR) as [S RK].
  split; [now apply ST|]. subst s'. fold i in LG. rewrite LG. fold u n l y l'. change (l' ++ (c', q) :: ?r) with (l' ++ [(c', q)] ++ r). rewrite app_assoc.
  now apply happened_more.
Qed.
Lemma c83_login (B : browser) (W : World) (E : appenv) (J : jsonenv) (repr : N -> pystr) (replaced : bytes -> pystr)
  (depth : nat) (s : system) (c c' : chance) (o : nat -> list event) (id : N) (v : pyval) (a : ass_cred) (cr : credential)
  (cid : bytes) (k : pubkey) (handle : bytes) (ctr : N) :
  limits J -> converts E -> Conforming W depth J -> ParsesJson B J -> reads_decimal E -> (forall j, Elsewhere (o j)) ->
  let i := List.length (sy_tasks s) in let u := g_input (sy_page s) in let n := usv u in
  let l := sy_log s ++ requests (o 0%nat) in let y := (c, AuthenticationRequest (Some n)) in
  let l' := l ++ y :: requests (o 1%nat ++ o 2%nat ++ o 3%nat ++ o 4%nat ++ o 5%nat) in
  Units u -> answer W E l y = Options id v -> id <= 2 ^ 53 ->
  RegisteredKey W E l' n cid k -> UserHandle W E l' n handle ->
  Asserts a cr -> AppLogin W depth cr (ch_challenge c) cid k handle ctr ->
  SentBelow W cid k ctr l' -> (ch_clock c' - ch_clock c <= 60000)%Z ->
  let s' := run_page B W E J repr replaced s (asking ClickAuthenticate i c o ++ telling (Got i (Some a)) i c' o) in
  g_status (sy_page s') = authorized_text u /\
  exists x t, Happened W E (sy_log s') l' x Success /\ Authenticates W (snd x) t n cr.
Proof.
  intros LIM CV CF P RD HO i u n l y l' HU A L RK UH AT AR SB CL s'.
  destruct (c82_login_run B W E J repr replaced s c c' o id v a cr LIM CV (cf_json _ _ _ CF) P HO HU A L AT)
    as (IS & q & t & RG & I1 & I2 & LG & ST & _).
  pose proof (c72_login W E depth J CV CF l' (c', q) t n cr id (ch_challenge c) (ch_clock c) cid k handle ctr RG
    (RD _ _ I1 I2 L) IS CL RK UH AR SB) as S.
  split; [now apply ST|]. exists (c', q), t. split; [|exact RG]. split; [|exact S]. subst s'. eexists. exact LG.
Qed.
