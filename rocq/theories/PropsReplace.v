(** * PropsReplace: C100, invalid UTF-8 in the forms of the example application. *)
From Coq Require Import List NArith ZArith Bool String Lia.
From Verif Require Import Base BaseFacts Utf8 PyVal Types World App AppSpec AppExamples AppTheorems Json Dumps DumpsSpec Form FormFacts Page
  Routes RoutesSpec RoutesFacts Utf8Replace ReplaceSpec ReplaceFacts ReplaceForms.
Import ListNotations.
Local Open Scope list_scope.

(** C100: decoding with replacement reads characters and replaces, one by one, the bytes that begin
    none and the longest beginnings that do not become one. *)
Theorem C100_exact : forall (b : bytes) (s : pystr), utf8_replace b = s <-> Replaced b s.
Proof. exact replaced_iff. Qed.
Print Assumptions C100_exact.

(** C100: what is UTF-8 is read as it is. *)
Theorem C100_valid : forall (b : bytes) (s : pystr), utf8_decode b = Ok s -> utf8_replace b = s.
Proof. exact replace_valid. Qed.
Print Assumptions C100_valid.

(** C100: every key and value of a form, whatever its bytes, is a sequence of Unicode scalar values. *)
Theorem C100_form :
  forall (body : list N) (k v : pystr), In (k, v) (form_decode utf8_replace body) ->
  (forall c, In c k -> (c < 55296 \/ 57343 < c <= 1114111)%N) /\ (forall c, In c v -> (c < 55296 \/ 57343 < c <= 1114111)%N).
Proof.
  intros body k v I. apply form_scalars in I as [K V]. unfold Scalars in *. rewrite Forall_forall in K, V. now split.
Qed.
Print Assumptions C100_form.

(** C100: the requests that reach the handlers in bodies that are no multipart bodies are exactly
    those without lone surrogates. *)
Theorem C100_histories :
  forall (multipart : list N -> list (pystr * pystr)) (qs : list (chance * request)),
  (forall x, In x qs -> Sendable (snd x)) <->
  exists l, Handled utf8_replace multipart l qs /\ forall x, In x l -> ht_content (snd x) <> Multipart.
Proof. exact c100_histories. Qed.
Print Assumptions C100_histories.

(** C100: so the user names in the data base can all be written in UTF-8. *)
Theorem C100_users :
  forall (W : World) (E : appenv) (J : jsonenv) (repr : N -> pystr) (multipart : list N -> list (pystr * pystr))
  (l : list (chance * http)) (u : user_row),
  (forall x, In x l -> ht_content (snd x) <> Multipart) ->
  In u (db_users (http_after W E J repr utf8_replace multipart l)) ->
  exists b, utf8_encode (ur_username u) = Ok b.
Proof. exact c100_users. Qed.
Print Assumptions C100_users.

(** C100: options are sent with status 200 as a JSON text of printable ASCII, whatever bytes named the user. *)
Theorem C100_options :
  forall (W : World) (E : appenv) (J : jsonenv) (repr : N -> pystr) (multipart : list N -> list (pystr * pystr)),
  converts E -> limits J ->
  forall (l : list (chance * http)) (qs : list (chance * request)) (c : chance) (h : http) (q : request)
  (name : string) (n : pystr) (id : N) (v : pyval),
  Handled utf8_replace multipart l qs -> Reaches utf8_replace multipart h q -> ht_content h <> Multipart ->
  q = RegistrationRequest (Some n) /\ name = "creationOptions"%string \/
  q = AuthenticationRequest (Some n) /\ name = "requestOptions"%string ->
  answer W E qs (c, q) = Options id v -> (id < 10 ^ 640)%N ->
  exists t, http_answer W E J repr utf8_replace multipart l (c, h) = Answer 200 t /\ Forall printable t /\
    JsonSpec.JText J t (VDict [(VStr (lit "challengeID"), VInt (Z.of_N id)); (VStr (lit name), v)]).
Proof. exact c100_options. Qed.
Print Assumptions C100_options.

(** C54: every user in the data base was named by a registration request, and has the handle drawn for it. *)
Theorem C54_user_origin :
  forall (W : World) (E : appenv) (qs : list (chance * request)) (u : user_row),
  In u (db_users (after W E qs)) ->
  exists c, In (c, RegistrationRequest (Some (ur_username u))) qs /\ ch_handle c = ur_handle u.
Proof. exact user_origin. Qed.
Print Assumptions C54_user_origin.

(** A byte that begins nothing, an overlong encoding, an encoded surrogate, a code point above
    U+10FFFF, an interrupted and a truncated character. *)
Definition odd_bytes : bytes :=
  map byte_of_N [97; 255; 98; 192; 175; 99; 237; 160; 128; 100; 244; 144; 128; 128; 101; 226; 130; 102; 240; 159; 152]%N.
Example hyp_replaced :
  Replaced odd_bytes [97; 65533; 98; 65533; 65533; 99; 65533; 65533; 65533; 100; 65533; 65533; 65533; 65533; 101; 65533; 102; 65533]%N.
Proof. apply replaced_iff. vm_compute. reflexivity. Qed.

(** username=%ff and username=%C3 name the same user. *)
Definition name_body (x : string) : list N := lit "username=" ++ lit x.
Definition named (x : string) : chance * http :=
  (chance_of "handle" "challenge" 0,
   {| ht_method := "POST"; ht_path := lit "/registration/request/"; ht_content := Urlencoded; ht_body := name_body x |}).
Example two_names_one_user multipart :
  Reaches utf8_replace multipart (snd (named "%ff")) (RegistrationRequest (Some [65533%N])) /\
  Reaches utf8_replace multipart (snd (named "%C3")) (RegistrationRequest (Some [65533%N])) /\
  ht_body (snd (named "%ff")) <> ht_body (snd (named "%C3")).
Proof.
  split; [|split; [|vm_compute; discriminate]];
    (apply reaches_iff; exists RegistrationRequestUrl; split; [apply dispatch_handler; split; constructor|vm_compute; reflexivity]).
Qed.
Example hyp_histories multipart :
  exists l, Handled utf8_replace multipart l session /\ forall x, In x l -> ht_content (snd x) <> Multipart.
Proof.
  apply C100_histories. intros x I t c T C.
  assert (B : forallb (fun x => forallb (fun v => match v with Some t => forallb (fun c => N.ltb c 55296) t
                                                    | None => true end) (texts (snd x))) session = true)
    by (vm_compute; reflexivity).
  rewrite forallb_forall in B. specialize (B x I). rewrite forallb_forall in B. specialize (B (Some t) T).
  cbv beta iota in B. rewrite forallb_forall in B. left. apply N.ltb_lt. now apply B.
Qed.
Example hyp_users J repr multipart :
  let l := [named "%ff"] in
  (forall x, In x l -> ht_content (snd x) <> Multipart) /\
  map ur_username (db_users (http_after Examples.ex_world ex_env J repr utf8_replace multipart l)) = [[65533%N]].
Proof.
  cbv zeta. split; [intros x [<-|[]]; discriminate|].
  assert (H : Handled utf8_replace multipart [named "%ff"] [(fst (named "%ff"), RegistrationRequest (Some [65533%N]))]).
  { apply (hd_take utf8_replace multipart (fst (named "%ff")) (snd (named "%ff")) _ [] []); [constructor|]. apply two_names_one_user. }
  rewrite (c98_history _ _ J repr utf8_replace multipart _ _ H). vm_compute. reflexivity.
Qed.

(** C100: so different bytes may name the same user. *)
Theorem C100_names :
  forall multipart : list N -> list (pystr * pystr), exists (h1 h2 : http) (t1 t2 : list N) (n : pystr),
  ht_body h1 = lit "username=" ++ t1 /\ ht_body h2 = lit "username=" ++ t2 /\ unquote t1 <> unquote t2 /\
  Reaches utf8_replace multipart h1 (RegistrationRequest (Some n)) /\
  Reaches utf8_replace multipart h2 (RegistrationRequest (Some n)).
Proof.
  intro multipart. exists (snd (named "%ff")), (snd (named "%C3")), (lit "%ff"), (lit "%C3"), [65533%N].
  split; [reflexivity|]. split; [reflexivity|]. split; [vm_compute; discriminate|]. split; apply two_names_one_user.
Qed.
Print Assumptions C100_names.

Example hyp_options multipart :
  converts ex_env /\ limits Examples.ex_json /\ Handled utf8_replace multipart [] [] /\
  Reaches utf8_replace multipart (snd (named "%ff")) (RegistrationRequest (Some [65533%N])) /\
  (exists v, answer Examples.ex_world ex_env [] (fst (named "%ff"), RegistrationRequest (Some [65533%N])) = Options 1 v) /\
  (1 < 10 ^ 640)%N.
Proof.
  split; [exact AppTheorems.ex_converts|].
  split; [split; [intros m Q; injection Q as <-; lia|vm_compute; lia]|].
  split; [constructor|]. split; [apply two_names_one_user|]. split; [eexists; vm_compute; reflexivity|]. now apply N.ltb_lt.
Qed.
