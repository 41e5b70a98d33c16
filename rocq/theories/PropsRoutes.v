(** * PropsRoutes: C98, the example application behind HTTP. *)
From Coq Require Import List NArith ZArith Bool String.
From Verif Require Import Base BaseFacts PyVal Types World Parsers Spec HistoryFacts Json Dumps Examples App AppSpec
  AppExamples AppTheorems Form FormFacts Page DumpsFacts PageExamples Routes RoutesSpec RoutesFacts.
Import ListNotations.
Local Open Scope list_scope.

(** C98: the data base after any HTTP requests is the one after the requests among them that
    reach a handler; all others change nothing. *)
Theorem C98_history :
  forall (W : World) (E : appenv) (J : jsonenv) (repr : N -> pystr) (replaced : bytes -> pystr)
  (multipart : list N -> list (pystr * pystr)) (l : list (chance * http)) (qs : list (chance * request)),
  Handled replaced multipart l qs -> http_after W E J repr replaced multipart l = after W E qs.
Proof. exact (@c98_history). Qed.
Print Assumptions C98_history.

(** C98: these requests are determined. *)
Theorem C98_handled :
  forall (replaced : bytes -> pystr) (multipart : list N -> list (pystr * pystr)) (l : list (chance * http)),
  (exists qs, Handled replaced multipart l qs) /\
  (forall qs1 qs2, Handled replaced multipart l qs1 -> Handled replaced multipart l qs2 -> qs1 = qs2).
Proof. intros. split; [apply c98_handled|intros qs1 qs2; apply c98_one]. Qed.
Print Assumptions C98_handled.

(** C98: what is answered to a request that reaches a handler. *)
Theorem C98_answer :
  forall (W : World) (E : appenv) (J : jsonenv) (repr : N -> pystr) (replaced : bytes -> pystr)
  (multipart : list N -> list (pystr * pystr)) (l : list (chance * http)) (qs : list (chance * request))
  (c : chance) (h : http) (q : request),
  Handled replaced multipart l qs -> Reaches replaced multipart h q ->
  http_answer W E J repr replaced multipart l (c, h) =
  Answer (fst (to_response J repr q (answer W E qs (c, q)))) (snd (to_response J repr q (answer W E qs (c, q)))).
Proof. exact (@c98_answer). Qed.
Print Assumptions C98_answer.

(** C98: texts are sent as they are; an exception that a handler does not catch is status 500. *)
Theorem C98_status :
  forall (W : World) (E : appenv) (J : jsonenv) (repr : N -> pystr) (replaced : bytes -> pystr)
  (multipart : list N -> list (pystr * pystr)) (l : list (chance * http)) (qs : list (chance * request))
  (c : chance) (h : http) (q : request),
  Handled replaced multipart l qs -> Reaches replaced multipart h q ->
  (forall s t, answer W E qs (c, q) = Reply s t -> http_answer W E J repr replaced multipart l (c, h) = Answer s (lit t)) /\
  (forall e, answer W E qs (c, q) = ServerError e ->
     http_answer W E J repr replaced multipart l (c, h) = Answer 500 (lit "Internal Server Error")).
Proof. exact (@c98_status). Qed.
Print Assumptions C98_status.

(** C98: GET and HEAD of / get the page, and nothing else does; what is neither for the page nor
    for a handler is answered by Flask. *)
Theorem C98_others :
  forall (W : World) (E : appenv) (J : jsonenv) (repr : N -> pystr) (replaced : bytes -> pystr)
  (multipart : list N -> list (pystr * pystr)) (l : list (chance * http)) (c : chance) (h : http),
  (http_answer W E J repr replaced multipart l (c, h) = PageSent <-> ForPage h) /\
  (http_answer W E J repr replaced multipart l (c, h) = ByFlask <-> (forall u, ~ For u h) /\ ~ ForPage h).
Proof. intros. split; [apply c98_page_sent|apply c98_by_flask]. Qed.
Print Assumptions C98_others.

(** C98: a POST to a handler whose body is not a form gets 400 and changes nothing. *)
Theorem C98_no_form :
  forall (W : World) (E : appenv) (J : jsonenv) (repr : N -> pystr) (replaced : bytes -> pystr)
  (multipart : list N -> list (pystr * pystr)) (l : list (chance * http)) (c : chance) (h : http),
  ht_content h = OtherContent -> (exists u, For u h) ->
  (exists t, http_answer W E J repr replaced multipart l (c, h) = Answer 400 t) /\
  http_after W E J repr replaced multipart (l ++ [(c, h)]) = http_after W E J repr replaced multipart l.
Proof. exact (@c98_no_form). Qed.
Print Assumptions C98_no_form.

(** C98: what the page posts reaches the handler that it is for, with the fields of the body. *)
Theorem C98_page :
  forall (replaced : bytes -> pystr) (multipart : list N -> list (pystr * pystr)) (u : endpoint) (body : list N),
  For u (posted u body) /\ Reaches replaced multipart (posted u body) (to_request replaced u body).
Proof. exact (@c98_posted). Qed.
Print Assumptions C98_page.

(** C98: conversely, every history of requests whose texts have no lone surrogates can be sent. *)
Theorem C98_realised :
  forall (replaced : bytes -> pystr) (multipart : list N -> list (pystr * pystr)) (qs : list (chance * request)),
  (forall x, In x qs -> Sendable (snd x)) -> exists l, Handled replaced multipart l qs.
Proof. exact (@c98_realised). Qed.
Print Assumptions C98_realised.

(** C98: the responses' handlers say Success with status 200 exactly if they accept. *)
Theorem C98_success :
  forall (W : World) (E : appenv) (J : jsonenv) (repr : N -> pystr) (replaced : bytes -> pystr)
  (multipart : list N -> list (pystr * pystr)) (l : list (chance * http)) (qs : list (chance * request))
  (c : chance) (h : http) (q : request),
  Handled replaced multipart l qs -> Reaches replaced multipart h q ->
  For RegistrationResponseUrl h \/ For AuthenticationResponseUrl h ->
  (http_answer W E J repr replaced multipart l (c, h) = Answer 200 (lit "Success") <-> answer W E qs (c, q) = Success).
Proof. exact (@c98_success). Qed.
Print Assumptions C98_success.

(** C98: if a login gets Success, an earlier HTTP request for /registration/response/ got Success,
    for the same user and credential id, and the login is signed with the key in it. *)
Theorem C98_login :
  forall (W : World) (E : appenv) (J : jsonenv) (repr : N -> pystr) (replaced : bytes -> pystr)
  (multipart : list N -> list (pystr * pystr)) (depth : nat) (l : list (chance * http)) (c : chance) (h : http)
  (q : request) (i n : pystr) (cr : credential),
  converts E -> decodes_cbor W depth -> 2 <= depth ->
  Reaches replaced multipart h q -> Authenticates W q i n cr ->
  http_answer W E J repr replaced multipart l (c, h) = Answer 200 (lit "Success") ->
  exists l1 c1 h1 l2 q1 i1 cr1 k cdj adb sig uh,
    l = l1 ++ (c1, h1) :: l2 /\ For RegistrationResponseUrl h1 /\ Reaches replaced multipart h1 q1 /\
    Registers W q1 i1 n cr1 /\ http_answer W E J repr replaced multipart l1 (c1, h1) = Answer 200 (lit "Success") /\
    cr_raw_id cr1 = cr_raw_id cr /\ AttestedKey W cr1 k /\
    cr_response cr = AssertionResponse cdj adb sig uh /\ SignatureSpec W k sig (adb ++ w_sha256 W cdj).
Proof. exact (@c98_login). Qed.
Print Assumptions C98_login.

(** The session of AppExamples, sent with the page, a PUT, a path without its final slash, a GET
    of a handler's path and JSON in between. *)
Definition other (m p : string) (t : content) : chance * http :=
  (chance_of "" "" 0, {| ht_method := m; ht_path := lit p; ht_content := t; ht_body := form_encode [(lit "username", lit "eve")] |}).
Definition over_http (l : list (chance * request)) : list (chance * http) :=
  map (fun x => (fst x, wire (snd x))) l.
Lemma session_sendable x : In x session -> Sendable (snd x).
Proof.
  intros I t c T C.
  assert (B : forallb (fun x => forallb (fun v => match v with Some t => forallb (fun c => N.ltb c 55296) t
                                                    | None => true end) (texts (snd x))) session = true)
    by (vm_compute; reflexivity).
  rewrite forallb_forall in B. specialize (B x I). rewrite forallb_forall in B. specialize (B (Some t) T).
  cbv beta iota in B. rewrite forallb_forall in B. left. apply N.ltb_lt. now apply B.
Qed.
Example hyp_http replaced multipart :
  Handled replaced multipart
    (((((over_http (firstn 6 session) ++ [other "GET" "/" OtherContent]) ++ [other "PUT" "/registration/request/" Urlencoded])
      ++ [other "POST" "/registration/request" Urlencoded]) ++ [other "GET" "/registration/request/" Urlencoded])
     ++ [other "POST" "/registration/request/" OtherContent])
    (firstn 6 session ++ [(chance_of "" "" 0, RegistrationRequest None)]) /\
  Reaches replaced multipart (wire (snd (do_auth "4" "alice" "challenge-4" "cred-1" 7 7000)))
    (snd (do_auth "4" "alice" "challenge-4" "cred-1" 7 7000)) /\
  For AuthenticationResponseUrl (wire (snd (do_auth "4" "alice" "challenge-4" "cred-1" 7 7000))) /\
  answer ex_world ex_env (firstn 6 session ++ [(chance_of "" "" 0, RegistrationRequest None)])
    (do_auth "4" "alice" "challenge-4" "cred-1" 7 7000) = Success.
Proof.
  split; [|split; [|split; [split; constructor|vm_compute; reflexivity]]].
  - unfold other. apply hd_take.
    + do 4 (apply hd_skip; [|intros u F; apply dispatch_handler in F; discriminate F]).
      apply c98_sent. intros x I. apply session_sendable.
      rewrite <- (firstn_skipn 6 session). apply in_or_app. now left.
    + exists RegistrationRequestUrl, []. split; [split; constructor|]. split; [reflexivity|]. constructor. intros [].
  - apply wire_reaches. apply session_sendable. do 6 right. left. reflexivity.
Qed.
