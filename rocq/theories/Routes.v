(** * Routes: which view function an HTTP request reaches, examples/flask/app.py:149, 192, 234,
    276, 318. *)
From Coq Require Import List NArith ZArith Bool String.
From Verif Require Import Base PyVal Types World Parsers Json Dumps App Form Page.
Import ListNotations.
Local Open Scope list_scope.

(** A view function: one of the four handlers, or [index]. *)
Inductive view := Handler (u : endpoint) | Index.

(** The decorators @app.route, in their order; a rule without [methods] has GET. *)
Record rule := { ru_path : string; ru_methods : list string; ru_view : view }.
Definition rules : list rule :=
  [ {| ru_path := "/registration/request/"; ru_methods := ["POST"%string]; ru_view := Handler RegistrationRequestUrl |};
    {| ru_path := "/registration/response/"; ru_methods := ["POST"%string]; ru_view := Handler RegistrationResponseUrl |};
    {| ru_path := "/authentication/request/"; ru_methods := ["POST"%string]; ru_view := Handler AuthenticationRequestUrl |};
    {| ru_path := "/authentication/response/"; ru_methods := ["POST"%string]; ru_view := Handler AuthenticationResponseUrl |};
    {| ru_path := "/"; ru_methods := ["GET"%string]; ru_view := Index |} ].

(** werkzeug adds HEAD to rules with GET. Flask answers OPTIONS itself. *)
Definition with_head (ms : list string) : list string :=
  if existsb (String.eqb "GET") ms then ms ++ ["HEAD"%string] else ms.

(** The view function of a method and a decoded path. [None]: Flask answers without one (404,
    405, the redirection to a path with a final slash, OPTIONS, static files). *)
Definition dispatch (m : string) (p : pystr) : option view :=
  option_map ru_view
    (find (fun r => str_eqb (lit (ru_path r)) p && existsb (String.eqb m) (with_head (ru_methods r))) rules).

(** The Content-Type as far as [request.form] looks at it. *)
Inductive content := Urlencoded | Multipart | OtherContent.
Record http := { ht_method : string; ht_path : pystr; ht_content : content; ht_body : list N }.

(** What the client gets: status and body of a handler, the page, or an answer of Flask. *)
Inductive http_reply := Answer (status : N) (body : pystr) | PageSent | ByFlask.

Section Server.
Variable W : World.
Variable E : appenv.
Variable J : jsonenv.
Variable repr : N -> pystr.
Variable replaced : bytes -> pystr.
(** The fields of a multipart body, without its files. *)
Variable multipart : list N -> list (pystr * pystr).

(** request.form: empty for other contents. *)
Definition request_form (c : content) (body : list N) : list (pystr * pystr) :=
  match c with
  | Urlencoded => form_decode replaced body
  | Multipart => multipart body
  | OtherContent => []
  end.
(** The fields that the handlers read, app.py:151, 195-198, 236, 279-282. *)
Definition form_request (u : endpoint) (form : list (pystr * pystr)) : request :=
  let field name := form_field (lit name) form in
  match u with
  | RegistrationRequestUrl => RegistrationRequest (field "username"%string)
  | RegistrationResponseUrl =>
      RegistrationResponse (field "challengeID"%string) (field "credential"%string) (field "username"%string)
  | AuthenticationRequestUrl => AuthenticationRequest (field "username"%string)
  | AuthenticationResponseUrl =>
      AuthenticationResponse (field "challengeID"%string) (field "credential"%string) (field "username"%string)
  end.

(** One HTTP request, and a list of them, app.py:149-320. *)
Definition http_serve (d : database) (x : chance * http) : http_reply * database :=
  match dispatch (ht_method (snd x)) (ht_path (snd x)) with
  | Some (Handler u) =>
      let q := form_request u (request_form (ht_content (snd x)) (ht_body (snd x))) in
      let '(r, d') := serve W E d (fst x, q) in
      let '(s, t) := to_response J repr q r in (Answer s t, d')
  | Some Index => (PageSent, d)
  | None => (ByFlask, d)
  end.
Fixpoint http_serve_all (d : database) (l : list (chance * http)) : list http_reply * database :=
  match l with
  | [] => ([], d)
  | x :: t => let '(r, d1) := http_serve d x in
              let '(rs, d2) := http_serve_all d1 t in (r :: rs, d2)
  end.
End Server.

(** app.html:26, 110, 125, 145, 160: what the page appends to http://localhost:5000, the address
    of the server (app.py:328). *)
Definition endpoint_text (u : endpoint) : string :=
  match u with
  | RegistrationRequestUrl => "/registration/request/"
  | RegistrationResponseUrl => "/registration/response/"
  | AuthenticationRequestUrl => "/authentication/request/"
  | AuthenticationResponseUrl => "/authentication/response/"
  end.
(** The request that [post] makes, app.html:25-31: a URLSearchParams body sets the content. *)
Definition posted (u : endpoint) (body : list N) : http :=
  {| ht_method := "POST"; ht_path := lit (endpoint_text u); ht_content := Urlencoded; ht_body := body |}.
