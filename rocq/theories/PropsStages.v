(** * Property C94: what the page of the example application shows while a function runs, and
    when the authenticator returns nothing. *)
From Coq Require Import List NArith ZArith Bool String.
From Verif Require Import Base PyVal Json JsonSpec Types World App AppSpec AppExamples AppTheorems DumpsSpec
  Form Page PageSpec PageRun PageExamples PageStages Examples.
Import ListNotations.
Local Open Scope N_scope.
Local Open Scope list_scope.

(** C94: from the click on, whatever happens elsewhere, the status says that the username is
    being registered until the answer is read, then that a credential is being created until
    the authenticator has answered, then that it is being attested until the server has. *)
Theorem C94_registration :
  forall (B : browser) (W : World) (E : appenv) (J : jsonenv) (repr : N -> pystr) (replaced : bytes -> pystr)
         (s : system) (c c' : chance) (a : option att_cred) (o : nat -> list event) (id : N) (v : pyval),
  limits J -> converts E -> ParsesJson B J -> (forall j, Elsewhere (o j)) ->
  let i := List.length (sy_tasks s) in
  let u := g_input (sy_page s) in
  Units u -> answer W E (sy_log s ++ requests (o 0%nat)) (c, RegistrationRequest (Some (usv u))) = Options id v -> id <= 2 ^ 53 ->
  forall p q, asking ClickRegister i c o ++ telling (Created i a) i c' o = p ++ q -> p <> [] ->
  Stages i (registering_text u) (creating_text u) (attesting_text u) q
    (g_status (sy_page (run_page B W E J repr replaced s p))).
Proof. exact c94_registration. Qed.
Print Assumptions C94_registration.
(** C94: for a login there is no message of its own while the authenticator is asked. *)
Theorem C94_login :
  forall (B : browser) (W : World) (E : appenv) (J : jsonenv) (repr : N -> pystr) (replaced : bytes -> pystr)
         (s : system) (c c' : chance) (a : option ass_cred) (o : nat -> list event) (id : N) (v : pyval),
  limits J -> converts E -> ParsesJson B J -> (forall j, Elsewhere (o j)) ->
  let i := List.length (sy_tasks s) in
  let u := g_input (sy_page s) in
  Units u -> answer W E (sy_log s ++ requests (o 0%nat)) (c, AuthenticationRequest (Some (usv u))) = Options id v -> id <= 2 ^ 53 ->
  forall p q, asking ClickAuthenticate i c o ++ telling (Got i a) i c' o = p ++ q -> p <> [] ->
  Stages i (requesting_text u) (requesting_text u) (asserting_text u) q
    (g_status (sy_page (run_page B W E J repr replaced s p))).
Proof. exact c94_login. Qed.
Print Assumptions C94_login.

(** C94: if the authenticator returns null, the function throws, and nothing is sent to the
    server but the request for options. *)
Theorem C94_null_created :
  forall (B : browser) (W : World) (E : appenv) (J : jsonenv) (repr : N -> pystr) (replaced : bytes -> pystr)
         (s : system) (c c' : chance) (o : nat -> list event) (id : N) (v : pyval),
  limits J -> converts E -> ParsesJson B J -> (forall j, Elsewhere (o j)) ->
  let i := List.length (sy_tasks s) in
  let n := usv (g_input (sy_page s)) in
  let l := sy_log s ++ requests (o 0%nat) in
  let y := (c, RegistrationRequest (Some n)) in
  Units (g_input (sy_page s)) -> answer W E l y = Options id v -> id <= 2 ^ 53 ->
  let s' := run_page B W E J repr replaced s (asking ClickRegister i c o ++ telling (Created i None) i c' o) in
  nth_error (sy_tasks s') i = Some Threw /\
  sy_log s' = l ++ y :: requests (flat_map o [1; 2; 3; 4; 5; 6]%nat).
Proof. exact c94_null_created. Qed.
Print Assumptions C94_null_created.
Theorem C94_null_got :
  forall (B : browser) (W : World) (E : appenv) (J : jsonenv) (repr : N -> pystr) (replaced : bytes -> pystr)
         (s : system) (c c' : chance) (o : nat -> list event) (id : N) (v : pyval),
  limits J -> converts E -> ParsesJson B J -> (forall j, Elsewhere (o j)) ->
  let i := List.length (sy_tasks s) in
  let n := usv (g_input (sy_page s)) in
  let l := sy_log s ++ requests (o 0%nat) in
  let y := (c, AuthenticationRequest (Some n)) in
  Units (g_input (sy_page s)) -> answer W E l y = Options id v -> id <= 2 ^ 53 ->
  let s' := run_page B W E J repr replaced s (asking ClickAuthenticate i c o ++ telling (Got i None) i c' o) in
  nth_error (sy_tasks s') i = Some Threw /\
  sy_log s' = l ++ y :: requests (flat_map o [1; 2; 3; 4; 5; 6]%nat).
Proof. exact c94_null_got. Qed.
Print Assumptions C94_null_got.

(** Alice asks, bob asks elsewhere, and something else is typed; the run has all stages. *)
Example hyp_stages :
  (forall j, Elsewhere (between j)) /\ Units (g_input (sy_page (page_of "alice" []))) /\
  (exists v, answer ex_world ex_env (sy_log (page_of "alice" []) ++ requests (between 0))
     (chance_of "handle-a" "challenge-1" 1000, RegistrationRequest (Some (usv (lit "alice")))) = Options 1 v) /\
  (exists v, answer ex_world ex_env (sy_log (page_of "alice" (firstn 5 session)) ++ requests (between 0))
     (chance_of "" "challenge-4" 6000, AuthenticationRequest (Some (usv (lit "alice")))) = Options 4 v) /\
  forall c c' a, let es := asking ClickRegister 0 c between ++ telling (Created 0 a) 0 c' between in
  In (Parse 0) (skipn 4 es) /\ ~ In (Parse 0) (skipn 5 es) /\ In (Resume 0) (skipn 7 es) /\
  ~ In (Resume 0) (skipn 8 es) /\ In (Deliver 0) (skipn 9 es).
Proof.
  split; [exact between_else|]. split; [repeat constructor|].
  split; [exact ex_registration_answer|]. split; [exact ex_login_answer|].
  intros c c' a. cbn. intuition discriminate.
Qed.
