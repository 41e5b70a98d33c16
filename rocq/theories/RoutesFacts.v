(** * RoutesFacts: HTTP requests and the handlers' requests. *)
From Coq Require Import List NArith ZArith Bool String Lia.
From Verif Require Import Base BaseFacts PyVal Types World Parsers Backends Spec HistoryFacts Json Dumps OptionFacts App AppSpec AppFacts
  AppHistory AppTheorems AppConcTheorems Form FormFacts Page Routes RoutesSpec.
Import ListNotations.
Local Open Scope list_scope.

(** ** Dispatch *)

Lemma only_post m : existsb (String.eqb m) (with_head ["POST"%string]) = true <-> m = "POST"%string.
Proof.
  change (with_head ["POST"%string]) with ["POST"%string]. cbn [existsb]. rewrite orb_false_r. apply String.eqb_eq.
Qed.
Lemma get_head m : existsb (String.eqb m) (with_head ["GET"%string]) = true <->
  m = "GET"%string \/ m = "HEAD"%string.
Proof.
  change (with_head ["GET"%string]) with ["GET"%string; "HEAD"%string]. cbn [existsb].
  rewrite orb_false_r, orb_true_iff, !String.eqb_eq. reflexivity.
Qed.
Lemma dispatch_eq m p : dispatch m p =
  let post := existsb (String.eqb m) (with_head ["POST"%string]) in
  if str_eqb (lit "/registration/request/") p && post then Some (Handler RegistrationRequestUrl)
  else if str_eqb (lit "/registration/response/") p && post then Some (Handler RegistrationResponseUrl)
  else if str_eqb (lit "/authentication/request/") p && post then Some (Handler AuthenticationRequestUrl)
  else if str_eqb (lit "/authentication/response/") p && post then Some (Handler AuthenticationResponseUrl)
  else if str_eqb (lit "/") p && existsb (String.eqb m) (with_head ["GET"%string]) then Some Index else None.
Proof.
  unfold dispatch, rules. cbn [find ru_path ru_methods].
  do 5 (match goal with |- context [if ?b then _ else _] => destruct b end; [reflexivity|]). reflexivity.
Qed.
Lemma dispatch_handler m p u : dispatch m p = Some (Handler u) <-> m = "POST"%string /\ Path u p.
Proof.
  rewrite dispatch_eq. cbv zeta. split.
  - intro H.
    repeat match goal with
    | H : (if ?b then _ else _) = _ |- _ => destruct b eqn:?
    end; inversion H; subst u;
    match goal with H : _ && _ = true |- _ => apply andb_true_iff in H as [P%str_eqb_spec M%only_post] end;
    subst; split; try reflexivity; constructor.
  - intros [-> Q]. destruct Q; reflexivity.
Qed.
Lemma dispatch_index m p : dispatch m p = Some Index <->
  (m = "GET"%string \/ m = "HEAD"%string) /\ p = lit "/".
Proof.
  rewrite dispatch_eq. cbv zeta. split.
  - intro H.
    repeat match goal with
    | H : (if ?b then _ else _) = _ |- _ => destruct b eqn:?
    end; inversion H.
    match goal with H : _ && _ = true |- _ => apply andb_true_iff in H as [P%str_eqb_spec M%get_head] end.
    subst; split; [assumption|reflexivity].
  - intros [[-> | ->] ->]; reflexivity.
Qed.

(** ** Fields *)

Lemma field_iff form name v : form_field (lit name) form = v <-> Field form name v.
Proof.
  unfold form_field. revert v. induction form as [|[k t] form IH]; intro v; cbn [find fst option_map].
  - split; [intros <-; cbn; tauto|]. destruct v as [t|]; [|reflexivity].
    intros (l1 & l2 & Q & _). destruct l1; discriminate.
  - destruct (str_eqb k (lit name)) eqn:K; cbn [option_map snd].
    + apply str_eqb_spec in K as ->. split.
      * intros <-. exists [], form. split; [reflexivity|intros []].
      * destruct v as [w|]; cbn [Field].
        -- intros ([|x l1] & l2 & Q & N); [injection Q as -> _; reflexivity|].
           injection Q as <- _. exfalso. apply N. now left.
        -- intro N. exfalso. apply N. now left.
    + apply str_eqb_false in K. rewrite IH. destruct v as [w|]; cbn [Field map fst In].
      * split.
        -- intros (l1 & l2 & -> & N). exists ((k, t) :: l1), l2. split; [reflexivity|].
           intros [Q|Q]; [now apply K|now apply N].
        -- intros ([|x l1] & l2 & Q & N); [injection Q as Q _; congruence|].
           injection Q as <- ->. exists l1, l2. split; [reflexivity|]. intro Q. apply N. now right.
      * split; [intros N [Q|Q]; [now apply K|now apply N]|tauto].
Qed.
Lemma finds_iff form u q : form_request u form = q <-> Finds form u q.
Proof.
  split.
  - intros <-. destruct u; constructor; now apply field_iff.
  - intros [n A|i k n A B C|n A|i k n A B C]; cbn [form_request];
      repeat match goal with H : Field _ _ _ |- _ => apply field_iff in H; rewrite H end; reflexivity.
Qed.

Section Server.
Variable W : World.
Variable E : appenv.
Variable J : jsonenv.
Variable repr : N -> pystr.
Variable replaced : bytes -> pystr.
Variable multipart : list N -> list (pystr * pystr).
Let hserve := http_serve W E J repr replaced multipart.
Let hall := http_serve_all W E J repr replaced multipart.
Let hafter := http_after W E J repr replaced multipart.
Let hanswer := http_answer W E J repr replaced multipart.

Lemma form_iff h form : request_form replaced multipart (ht_content h) (ht_body h) = form <->
  FormOf replaced multipart h form.
Proof. unfold FormOf. destruct (ht_content h); cbn [request_form]; split; auto. Qed.
Lemma reaches_iff h q : Reaches replaced multipart h q <->
  exists u, dispatch (ht_method h) (ht_path h) = Some (Handler u) /\
            form_request u (request_form replaced multipart (ht_content h) (ht_body h)) = q.
Proof.
  split.
  - intros (u & form & F & G & H). exists u. split; [now apply dispatch_handler|].
    apply form_iff in G. rewrite G. now apply finds_iff.
  - intros (u & D & Q). exists u, (request_form replaced multipart (ht_content h) (ht_body h)).
    split; [now apply dispatch_handler|]. split; [now apply form_iff|now apply finds_iff].
Qed.
Lemma serve_reaches d c h q : Reaches replaced multipart h q ->
  hserve d (c, h) = (Answer (fst (to_response J repr q (fst (serve W E d (c, q)))))
                            (snd (to_response J repr q (fst (serve W E d (c, q))))), snd (serve W E d (c, q))).
Proof.
  intros (u & D & <-)%reaches_iff. unfold hserve, http_serve. cbn [fst snd]. rewrite D. cbv zeta.
  destruct (serve W E d _) as [r d']. cbn [fst snd]. destruct (to_response J repr _ r) as [s t]. reflexivity.
Qed.
Lemma serve_other d c h : (forall u, ~ For u h) -> snd (hserve d (c, h)) = d.
Proof.
  intro N. unfold hserve, http_serve. cbn [fst snd].
  destruct (dispatch _ _) as [[u|]|] eqn:D; try reflexivity.
  apply dispatch_handler in D. exfalso. exact (N u D).
Qed.

Lemma hall_app l1 l2 d : snd (hall d (l1 ++ l2)) = snd (hall (snd (hall d l1)) l2).
Proof.
  unfold hall. revert d. induction l1 as [|x l1 IH]; intro d; cbn [http_serve_all app]; [reflexivity|].
  destruct (http_serve _ _ _ _ _ _ d x) as [r d1]. specialize (IH d1).
  destruct (http_serve_all _ _ _ _ _ _ d1 (l1 ++ l2)) as [rs d2].
  destruct (http_serve_all _ _ _ _ _ _ d1 l1) as [rs' d3]. exact IH.
Qed.
Lemma hafter_snoc l x : hafter (l ++ [x]) = snd (hserve (hafter l) x).
Proof.
  unfold hafter, http_after. fold hall. rewrite hall_app. cbn [http_serve_all hall].
  unfold hall at 1. cbn [http_serve_all]. fold hserve. fold hall.
  destruct (hserve _ x) as [r d]. reflexivity.
Qed.

Lemma c98_history l qs : Handled replaced multipart l qs -> hafter l = after W E qs.
Proof.
  induction 1 as [|c h q l qs _ IH R|c h l qs _ IH N].
  - reflexivity.
  - rewrite hafter_snoc, after_snoc, IH. now rewrite (serve_reaches _ _ _ _ R).
  - now rewrite hafter_snoc, serve_other.
Qed.
Lemma c98_handled l : exists qs, Handled replaced multipart l qs.
Proof.
  induction l as [|[c h] l [qs IH]] using rev_ind; [exists []; constructor|].
  destruct (dispatch (ht_method h) (ht_path h)) as [[u|]|] eqn:D.
  - exists (qs ++ [(c, form_request u (request_form replaced multipart (ht_content h) (ht_body h)))]).
    constructor; [exact IH|]. apply reaches_iff. eauto.
  - exists qs. constructor; [exact IH|]. intros u F. apply dispatch_handler in F. congruence.
  - exists qs. constructor; [exact IH|]. intros u F. apply dispatch_handler in F. congruence.
Qed.
Lemma c98_answer l qs c h q : Handled replaced multipart l qs -> Reaches replaced multipart h q ->
  hanswer l (c, h) = Answer (fst (to_response J repr q (answer W E qs (c, q))))
                            (snd (to_response J repr q (answer W E qs (c, q)))).
Proof.
  intros H R. unfold hanswer, http_answer. fold hafter hserve. rewrite (c98_history _ _ H).
  now rewrite (serve_reaches _ _ _ _ R).
Qed.
Lemma c98_page_sent l c h : hanswer l (c, h) = PageSent <-> ForPage h.
Proof.
  unfold hanswer, http_answer, http_serve, ForPage. cbn [fst snd]. rewrite <- dispatch_index.
  destruct (dispatch _ _) as [[u|]|]; cbn [fst]; [|tauto|split; discriminate].
  cbv zeta. destruct (serve W E _ _) as [r d']. destruct (to_response J repr _ r) as [s t]. cbn. split; discriminate.
Qed.
Lemma c98_by_flask l c h : hanswer l (c, h) = ByFlask <-> (forall u, ~ For u h) /\ ~ ForPage h.
Proof.
  assert (HP : ForPage h <-> dispatch (ht_method h) (ht_path h) = Some Index)
    by (unfold ForPage; now rewrite dispatch_index).
  assert (HF : forall u, For u h <-> dispatch (ht_method h) (ht_path h) = Some (Handler u))
    by (intro u; unfold For; now rewrite dispatch_handler).
  unfold hanswer, http_answer, http_serve. cbn [fst snd]. rewrite HP.
  destruct (dispatch _ _) as [[u|]|] eqn:D.
  - cbv zeta. destruct (serve W E _ _) as [r d']. destruct (to_response J repr _ r) as [s t]. cbn.
    split; [discriminate|]. intros [N _]. exfalso. apply (N u). now apply HF.
  - cbn. split; [discriminate|]. intros [_ N]. now exfalso.
  - cbn. split; [|reflexivity]. intros _. split; [|discriminate]. intros u F%HF. discriminate.
Qed.

Lemma c98_status l qs c h q : Handled replaced multipart l qs -> Reaches replaced multipart h q ->
  (forall s t, answer W E qs (c, q) = Reply s t -> hanswer l (c, h) = Answer s (lit t)) /\
  (forall e, answer W E qs (c, q) = ServerError e -> hanswer l (c, h) = Answer 500 (lit "Internal Server Error")).
Proof.
  intros H R. split; [intros s t A|intros e A]; rewrite (c98_answer _ _ _ _ _ H R), A; reflexivity.
Qed.
Lemma reaches_one h q1 q2 : Reaches replaced multipart h q1 -> Reaches replaced multipart h q2 -> q1 = q2.
Proof.
  intros (u1 & D1 & <-)%reaches_iff (u2 & D2 & <-)%reaches_iff. congruence.
Qed.
Lemma c98_one l qs1 qs2 : Handled replaced multipart l qs1 -> Handled replaced multipart l qs2 -> qs1 = qs2.
Proof.
  intro H1. revert qs2. induction H1 as [|c h q l qs _ IH R|c h l qs _ IH N]; intros qs2 H2.
  - inversion H2 as [|c h q l qs _ R Q|c h l qs _ N Q]; [reflexivity| |]; destruct l; discriminate.
  - inversion H2 as [Q|c' h' q' l' qs' H' R' Q|c' h' l' qs' H' N' Q].
    + destruct l; discriminate.
    + apply app_inj_tail in Q as [-> Q]. injection Q as -> ->. now rewrite (IH _ H'), (reaches_one _ _ _ R R').
    + apply app_inj_tail in Q as [-> Q]. injection Q as -> ->. destruct R as (u & form & F & _). now destruct (N' u).
  - inversion H2 as [Q|c' h' q' l' qs' H' R' Q|c' h' l' qs' H' N' Q].
    + destruct l; discriminate.
    + apply app_inj_tail in Q as [-> Q]. injection Q as -> ->. destruct R' as (u & form & F & _). now destruct (N u).
    + apply app_inj_tail in Q as [-> Q]. injection Q as -> ->. now apply IH.
Qed.

(** ** Success *)

Lemma c98_success l qs c h q : Handled replaced multipart l qs -> Reaches replaced multipart h q ->
  For RegistrationResponseUrl h \/ For AuthenticationResponseUrl h ->
  (hanswer l (c, h) = Answer 200 (lit "Success") <-> answer W E qs (c, q) = Success).
Proof.
  intros H R F. rewrite (c98_answer _ _ _ _ _ H R).
  assert (HQ : exists i k n, q = RegistrationResponse i k n \/ q = AuthenticationResponse i k n).
  { apply reaches_iff in R as (u & D & <-).
    destruct F as [F|F]; apply dispatch_handler in F; rewrite F in D; injection D as <-; cbn [form_request]; eauto. }
  assert (NO : forall id v, answer W E qs (c, q) <> Options id v).
  { intros id v. destruct HQ as (i & k & n & [-> | ->]); unfold answer, serve; cbn [fst snd];
      generalize (after W E qs) as d; intro d; unfold registration_response, authentication_response;
      destruct (parse_form W i k n) as [[[i' cr] n']|]; try discriminate;
      destruct (cr_response cr); try discriminate;
      destruct (find_ceremony E (ch_clock c) i' n' d) as [r|[h' u']] eqn:FC;
      try (cbn [fst]; unfold conclude; destruct (out_result _) as [[]|e]; [discriminate|];
           destruct (is_lib _ e); discriminate);
      cbn [fst]; revert FC; unfold find_ceremony;
      destruct (match ap_int E i' with Some m => _ | None => _ end); try congruence;
      destruct (user_by_name n' d); try congruence; destruct (Z.ltb _ _);
      intro FC; first [discriminate FC | injection FC as <-; discriminate]. }
  destruct (answer W E qs (c, q)) as [id v|s t|x] eqn:A; cbn [to_response fst snd].
  - exfalso. now apply (NO id v).
  - split; [|intro Q; now injection Q as -> ->]. intro Q. injection Q as -> Q. apply lit_inj in Q as ->. reflexivity.
  - split; [|discriminate]. intro Q. discriminate.
Qed.

(** ** A login over HTTP *)

Lemma handled_split l qs : Handled replaced multipart l qs -> forall qs1 c q qs2, qs = qs1 ++ (c, q) :: qs2 ->
  exists l1 h l2, l = l1 ++ (c, h) :: l2 /\ Handled replaced multipart l1 qs1 /\ Reaches replaced multipart h q.
Proof.
  induction 1 as [|c h q l qs H IH R|c h l qs H IH N]; intros qs1 c1 q1 qs2 Q.
  - destruct qs1; discriminate.
  - destruct qs2 as [|x qs2 _] using rev_ind.
    + apply app_inj_tail in Q as [-> Q]. injection Q as -> ->. exists l, h, []. auto.
    + rewrite app_comm_cons, app_assoc in Q. apply app_inj_tail in Q as [Q _].
      destruct (IH _ _ _ _ Q) as (l1 & h1 & l2 & -> & A & B). exists l1, h1, (l2 ++ [(c, h)]).
      rewrite <- app_assoc. auto.
  - destruct (IH _ _ _ _ Q) as (l1 & h1 & l2 & -> & A & B). exists l1, h1, (l2 ++ [(c, h)]).
    rewrite <- app_assoc. auto.
Qed.
Lemma c98_login depth l c h q i n cr :
  converts E -> decodes_cbor W depth -> 2 <= depth ->
  Reaches replaced multipart h q -> Authenticates W q i n cr -> hanswer l (c, h) = Answer 200 (lit "Success") ->
  exists l1 c1 h1 l2 q1 i1 cr1 k cdj adb sig uh,
    l = l1 ++ (c1, h1) :: l2 /\ For RegistrationResponseUrl h1 /\ Reaches replaced multipart h1 q1 /\
    Registers W q1 i1 n cr1 /\ hanswer l1 (c1, h1) = Answer 200 (lit "Success") /\
    cr_raw_id cr1 = cr_raw_id cr /\ AttestedKey W cr1 k /\
    cr_response cr = AssertionResponse cdj adb sig uh /\ SignatureSpec W k sig (adb ++ w_sha256 W cdj).
Proof.
  intros CV DC D R AU A. destruct (c98_handled l) as (qs & HQ).
  assert (F : For AuthenticationResponseUrl h).
  { apply reaches_iff in R as (u & DD & Q). destruct AU as (t & AU & _). apply dispatch_handler in DD.
    destruct u; cbn [form_request] in Q; try congruence; exact DD. }
  apply (c98_success _ _ _ _ _ HQ R (or_intror F)) in A.
  destruct (c59 W E depth qs (c, q) i n cr CV DC D AU A) as (k & cdj & adb & sig & uh & RK & _ & CR & SG).
  destruct RK as (qs1 & [c1 q1] & i1 & cr1 & ((qs2 & Q) & A1) & RG & ID & AK).
  destruct (handled_split _ _ HQ _ _ _ _ Q) as (l1 & h1 & l2 & -> & H1 & R1).
  assert (F1 : For RegistrationResponseUrl h1).
  { apply reaches_iff in R1 as (u & DD & QQ). destruct RG as (t & RG & _). apply dispatch_handler in DD.
    cbn [snd] in RG. destruct u; cbn [form_request] in QQ; try congruence; exact DD. }
  exists l1, c1, h1, l2, q1, i1, cr1, k, cdj, adb, sig, uh. repeat (split; [easy|]).
  split; [apply (c98_success _ _ _ _ _ H1 R1 (or_introl F1)); exact A1|]. auto.
Qed.

(** ** No form *)

Lemma c98_no_form l c h : ht_content h = OtherContent -> (exists u, For u h) ->
  (exists t, hanswer l (c, h) = Answer 400 t) /\ hafter (l ++ [(c, h)]) = hafter l.
Proof.
  intros O (u & F). apply dispatch_handler in F.
  rewrite hafter_snoc. unfold hanswer, http_answer. fold hafter. fold hserve. generalize (hafter l) as d. intro d.
  unfold hserve, http_serve. cbn [fst snd]. rewrite F, O.
  destruct u; cbn; split; try reflexivity; eexists; reflexivity.
Qed.

(** ** The page *)

Lemma c98_posted u body : For u (posted u body) /\
  Reaches replaced multipart (posted u body) (to_request replaced u body).
Proof.
  assert (D : For u (posted u body)) by (destruct u; split; constructor).
  split; [exact D|]. apply reaches_iff. exists u. split; [now apply dispatch_handler|]. destruct u; reflexivity.
Qed.

(** ** Every request of a handler can be sent *)

Definition url_of (q : request) : endpoint :=
  match q with
  | RegistrationRequest _ => RegistrationRequestUrl
  | RegistrationResponse _ _ _ => RegistrationResponseUrl
  | AuthenticationRequest _ => AuthenticationRequestUrl
  | AuthenticationResponse _ _ _ => AuthenticationResponseUrl
  end.
Definition given (name : string) (v : option pystr) : list (pystr * pystr) :=
  match v with Some t => [(lit name, t)] | None => [] end.
Definition fields_of (q : request) : list (pystr * pystr) :=
  match q with
  | RegistrationRequest n | AuthenticationRequest n => given "username" n
  | RegistrationResponse i k n | AuthenticationResponse i k n =>
      given "challengeID" i ++ given "credential" k ++ given "username" n
  end.
Definition wire (q : request) : http := posted (url_of q) (form_encode (fields_of q)).
Lemma wire_reaches q : Sendable q -> Reaches replaced multipart (wire q) q.
Proof.
  intro S.
  assert (T : forall t, In (Some t) (texts q) -> Scalars t) by (intros t I; apply Forall_forall; intros c; now apply S).
  enough (Q : to_request replaced (url_of q) (form_encode (fields_of q)) = q)
    by (rewrite <- Q at 2; exact (proj2 (c98_posted (url_of q) _))).
  unfold to_request. rewrite form_roundtrip.
  - destruct q as [[n|]|[i|] [k|] [n|]|[n|]|[i|] [k|] [n|]]; reflexivity.
  - apply Forall_forall. intros p I.
    assert (G : forall name v, In p (given name v) -> In v (texts q) -> Scalars (fst p) /\ Scalars (snd p)).
    { intros name [t|] IG IT; [|destruct IG]. destruct IG as [<-|[]]. split; [apply lit_scalars|now apply T]. }
    clear T S. destruct q as [n|i k n|n|i k n]; cbn [fields_of texts] in I, G.
    + eapply G; [exact I|now left].
    + apply in_app_or in I as [I|I]; [|apply in_app_or in I as [I|I]]; (eapply G; [exact I|cbn; tauto]).
    + eapply G; [exact I|now left].
    + apply in_app_or in I as [I|I]; [|apply in_app_or in I as [I|I]]; (eapply G; [exact I|cbn; tauto]).
Qed.
Lemma c98_sent qs : (forall x, In x qs -> Sendable (snd x)) ->
  Handled replaced multipart (map (fun x => (fst x, wire (snd x))) qs) qs.
Proof.
  induction qs as [|[c q] qs IH] using rev_ind; intro S; [constructor|].
  rewrite map_app. cbn [map fst snd]. constructor.
  - apply IH. intros x I. apply S. apply in_or_app. now left.
  - apply wire_reaches. apply (S (c, q)). apply in_or_app. right. now left.
Qed.
Lemma c98_realised qs : (forall x, In x qs -> Sendable (snd x)) -> exists l, Handled replaced multipart l qs.
Proof. intro S. eexists. now apply c98_sent. Qed.
End Server.
