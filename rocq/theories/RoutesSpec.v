(** * RoutesSpec: HTTP requests to the example application, specified. *)
From Coq Require Import List NArith ZArith Bool String.
From Verif Require Import Base PyVal Types World Parsers Json Dumps App AppSpec Form Page Routes.
Import ListNotations.
Local Open Scope list_scope.

(** The four paths. *)
Inductive Path : endpoint -> pystr -> Prop :=
| path_rr : Path RegistrationRequestUrl (lit "/registration/request/")
| path_rp : Path RegistrationResponseUrl (lit "/registration/response/")
| path_ar : Path AuthenticationRequestUrl (lit "/authentication/request/")
| path_ap : Path AuthenticationResponseUrl (lit "/authentication/response/").

(** Request [h] is one for handler [u]. *)
Definition For (u : endpoint) (h : http) : Prop := ht_method h = "POST"%string /\ Path u (ht_path h).
Definition ForPage (h : http) : Prop :=
  (ht_method h = "GET"%string \/ ht_method h = "HEAD"%string) /\ ht_path h = lit "/".

(** [q] is what the handler of [h] finds in the form; fields that are not there are [None]. *)
Definition Field (form : list (pystr * pystr)) (name : string) (v : option pystr) : Prop :=
  match v with
  | Some t => exists l1 l2, form = l1 ++ (lit name, t) :: l2 /\ ~ In (lit name) (map fst l1)
  | None => ~ In (lit name) (map fst form)
  end.
Inductive Finds (form : list (pystr * pystr)) : endpoint -> request -> Prop :=
| finds_rr n : Field form "username" n -> Finds form RegistrationRequestUrl (RegistrationRequest n)
| finds_rp i k n : Field form "challengeID" i -> Field form "credential" k -> Field form "username" n ->
    Finds form RegistrationResponseUrl (RegistrationResponse i k n)
| finds_ar n : Field form "username" n -> Finds form AuthenticationRequestUrl (AuthenticationRequest n)
| finds_ap i k n : Field form "challengeID" i -> Field form "credential" k -> Field form "username" n ->
    Finds form AuthenticationResponseUrl (AuthenticationResponse i k n).
Definition FormOf (replaced : bytes -> pystr) (multipart : list N -> list (pystr * pystr)) (h : http)
           (form : list (pystr * pystr)) : Prop :=
  match ht_content h with
  | Urlencoded => form = form_decode replaced (ht_body h)
  | Multipart => form = multipart (ht_body h)
  | OtherContent => form = []
  end.
Definition Reaches (replaced : bytes -> pystr) (multipart : list N -> list (pystr * pystr)) (h : http)
           (q : request) : Prop :=
  exists u form, For u h /\ FormOf replaced multipart h form /\ Finds form u q.

(** What forms can carry: the texts of [q] have no lone surrogates. *)
Definition texts (q : request) : list (option pystr) :=
  match q with
  | RegistrationRequest n | AuthenticationRequest n => [n]
  | RegistrationResponse i k n | AuthenticationResponse i k n => [i; k; n]
  end.
Definition Sendable (q : request) : Prop :=
  forall t c, In (Some t) (texts q) -> In c t -> (c < 55296 \/ 57343 < c <= 1114111)%N.

(** [qs] are the requests among [l] that reach a handler. *)
Inductive Handled (replaced : bytes -> pystr) (multipart : list N -> list (pystr * pystr))
  : list (chance * http) -> list (chance * request) -> Prop :=
| hd_nil : Handled replaced multipart [] []
| hd_take c h q l qs : Handled replaced multipart l qs -> Reaches replaced multipart h q ->
    Handled replaced multipart (l ++ [(c, h)]) (qs ++ [(c, q)])
| hd_skip c h l qs : Handled replaced multipart l qs -> (forall u, ~ For u h) ->
    Handled replaced multipart (l ++ [(c, h)]) qs.

(** The data base after, and the answer to a further request. *)
Definition http_after (W : World) (E : appenv) (J : jsonenv) (repr : N -> pystr) (replaced : bytes -> pystr)
           (multipart : list N -> list (pystr * pystr)) (l : list (chance * http)) : database :=
  snd (http_serve_all W E J repr replaced multipart empty_db l).
Definition http_answer (W : World) (E : appenv) (J : jsonenv) (repr : N -> pystr) (replaced : bytes -> pystr)
           (multipart : list N -> list (pystr * pystr)) (l : list (chance * http)) (x : chance * http) : http_reply :=
  fst (http_serve W E J repr replaced multipart (http_after W E J repr replaced multipart l) x).
