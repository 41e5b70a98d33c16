(** * PropsLife: C99, starts, stops and kills of the example application. *)
From Coq Require Import List NArith ZArith Bool String.
From Verif Require Import Base BaseFacts PyVal Types World Parsers Spec HistoryFacts Examples App AppSpec AppExamples
  AppTheorems HonestSpec HonestFacts AppHonest Json Form Page AppConc AppConcSpec AppConcHonestSpec Routes RoutesSpec RoutesFacts
  Life LifeSpec LifeHonestSpec LifeFacts LifeHonest LifeEx.
Import ListNotations.
Local Open Scope list_scope.

(** C99: at every moment the data base is that of one server (AppConc.v) that is never stopped or
    killed and gets the requests since the data were last lost; the running process has the last
    requests of it, so all of C73 to C75, C95 and C96 holds of it. *)
Theorem C99_run :
  forall (W : World) (E : appenv) (replaced : bytes -> pystr) (multipart : list N -> list (pystr * pystr))
  (l : list life_event) (p : phase) (k : nat) (es : list sv_event),
  Since replaced multipart l p k es ->
  match p with
  | On b => ho_process (Lived W E replaced multipart l) = Some (skipn k (sv_threads (Served W E es))) /\
            ho_linked (Lived W E replaced multipart l) = b /\
            ho_db (Lived W E replaced multipart l) = sv_db (Served W E es) /\
            k <= List.length (sv_threads (Served W E es))
  | Off => ho_process (Lived W E replaced multipart l) = None /\
           (if ho_linked (Lived W E replaced multipart l)
            then ho_db (Lived W E replaced multipart l) = sv_db (Served W E es) else es = [])
  end.
Proof. exact (@c99_run). Qed.
Print Assumptions C99_run.

(** C99: that server is determined. *)
Theorem C99_determined :
  forall (replaced : bytes -> pystr) (multipart : list N -> list (pystr * pystr)) (l : list life_event),
  (exists p k es, Since replaced multipart l p k es) /\
  (forall p k es p' k' es', Since replaced multipart l p k es -> Since replaced multipart l p' k' es' ->
   p = p' /\ k = k' /\ es = es').
Proof. intros. split; [apply c99_total|intros p k es p' k' es'; apply c99_one]. Qed.
Print Assumptions C99_determined.

(** C99: what the running process answers, that server answers. *)
Theorem C99_says :
  forall (W : World) (E : appenv) (replaced : bytes -> pystr) (multipart : list N -> list (pystr * pystr))
  (l : list life_event) (p : phase) (k : nat) (es : list sv_event) (i : nat) (x : chance * request) (r : reply),
  Since replaced multipart l p k es -> Says (Lived W E replaced multipart l) i x r ->
  Replied (Served W E es) (k + i) x r.
Proof. exact (@c99_says). Qed.
Print Assumptions C99_says.

(** C99: killing the process and starting it again keeps all rows. *)
Theorem C99_kill :
  forall (W : World) (E : appenv) (replaced : bytes -> pystr) (multipart : list N -> list (pystr * pystr))
  (l : list life_event),
  ho_linked (Lived W E replaced multipart l) = true ->
  ho_db (Lived W E replaced multipart (l ++ [Kill; Start])) = ho_db (Lived W E replaced multipart l) /\
  ho_process (Lived W E replaced multipart (l ++ [Kill; Start])) = Some [] /\
  ho_linked (Lived W E replaced multipart (l ++ [Kill; Start])) = true.
Proof. exact (@c99_kill). Qed.
Print Assumptions C99_kill.

(** C99: stopping it removes them and the file. *)
Theorem C99_stop :
  forall (W : World) (E : appenv) (replaced : bytes -> pystr) (multipart : list N -> list (pystr * pystr))
  (l : list life_event) (ts : list (chance * request * thread)),
  ho_process (Lived W E replaced multipart l) = Some ts ->
  ho_process (Lived W E replaced multipart (l ++ [Stop])) = None /\
  ho_linked (Lived W E replaced multipart (l ++ [Stop])) = false /\
  ho_db (Lived W E replaced multipart (l ++ [Stop; Start])) = empty_db.
Proof.
  intros W E replaced multipart l ts P. destruct (c99_stop W E replaced multipart l ts P) as (A & B).
  rewrite A. auto.
Qed.
Print Assumptions C99_stop.

(** C99: after a stop, a login succeeds only with a credential that was registered for its user
    since, and signed with the key in that registration. *)
Theorem C99_forgotten :
  forall (W : World) (E : appenv) (replaced : bytes -> pystr) (multipart : list N -> list (pystr * pystr))
  (depth : nat) (l1 : list life_event) (ts : list (chance * request * thread)) (l2 : list life_event) (j : nat)
  (x : chance * request) (i n : pystr) (cr : credential),
  converts E -> decodes_cbor W depth -> 2 <= depth ->
  ho_process (Lived W E replaced multipart l1) = Some ts ->
  Says (Lived W E replaced multipart (l1 ++ Stop :: l2)) j x Success -> Authenticates W (snd x) i n cr ->
  exists c1 h1 q1 i1 cr1 k cdj adb sig uh,
    In (Incoming (c1, h1)) l2 /\ Reaches replaced multipart h1 q1 /\ Registers W q1 i1 n cr1 /\
    cr_raw_id cr1 = cr_raw_id cr /\ AttestedKey W cr1 k /\
    cr_response cr = AssertionResponse cdj adb sig uh /\ SignatureSpec W k sig (adb ++ w_sha256 W cdj).
Proof. exact (@c99_forgotten). Qed.
Print Assumptions C99_forgotten.

(** C99: if the program is started a second time while it runs, the rows are gone when the first
    process ends, however it ends. *)
Theorem C99_second :
  forall (W : World) (E : appenv) (replaced : bytes -> pystr) (multipart : list N -> list (pystr * pystr))
  (l : list life_event) (ts : list (chance * request * thread)) (l' : list life_event),
  ho_process (Lived W E replaced multipart l) = Some ts -> ~ In Stop l' -> ~ In Kill l' ->
  ho_process (Lived W E replaced multipart (l ++ Start :: l')) <> None /\
  ho_db (Lived W E replaced multipart (l ++ Start :: l' ++ [Kill; Start])) = empty_db /\
  ho_db (Lived W E replaced multipart (l ++ Start :: l' ++ [Stop; Start])) = empty_db.
Proof. exact (@c99_second). Qed.
Print Assumptions C99_second.

(** C99: and each answer of that server was given, by this process or by an earlier one. *)
Theorem C99_said :
  forall (W : World) (E : appenv) (replaced : bytes -> pystr) (multipart : list N -> list (pystr * pystr))
  (l : list life_event) (p : phase) (k : nat) (es : list sv_event) (m : nat) (x : chance * request) (r : reply),
  Since replaced multipart l p k es -> Replied (Served W E es) m x r ->
  exists l0 l0' p0 k0 es0 j, l = l0 ++ l0' /\ Since replaced multipart l0 p0 k0 es0 /\ m = k0 + j /\
    Says (Lived W E replaced multipart l0) j x r.
Proof. exact (@c99_said). Qed.
Print Assumptions C99_said.

(** C99: credentials and challenges outlast kills. If a registration was accepted, the program was
    not stopped since nor its file removed, but killed and started again any number of times, and
    a challenge was sent at most a minute ago, then the honest login with the credential is accepted,
    once six statements of its handler have been executed, with any others in between, if none of them fails
    and the counters of the other logins with the credential are smaller. *)
Theorem C99_survives :
  forall (W : World) (E : appenv) (replaced : bytes -> pystr) (multipart : list N -> list (pystr * pystr))
  (depth : nat) (JE : jsonenv), Conforming W depth JE ->
  forall (l1 l2 l2a l2b l3 : list life_event) (a : nat) (x : chance * request) (ir n : pystr) (crr : credential)
  (cid : bytes) (key : pubkey) (b : nat) (y : chance * request) (id : N) (v : pyval) (clock : chance) (h : http)
  (q : request) (i : pystr) (cr : credential) (u : user_row) (ctr : N) (ts : list (chance * request * thread)),
  Says (Lived W E replaced multipart l1) a x Success -> Registers W (snd x) ir n crr ->
  cr_raw_id crr = cid -> AttestedKey W crr key ->
  Keeps W E replaced multipart l1 l2 ->
  l2 = l2a ++ l2b -> Says (Lived W E replaced multipart (l1 ++ l2a)) b y (Options id v) -> Asks (snd y) n ->
  ho_process (Lived W E replaced multipart (l1 ++ l2)) = Some ts ->
  Reaches replaced multipart h q -> Authenticates W q i n cr -> ap_int E i = Some id ->
  (ch_clock clock - ch_clock (fst y) <= 60000)%Z ->
  In u (db_users (ho_db (Lived W E replaced multipart (l1 ++ l2)))) -> ur_username u = n ->
  AppLogin W depth cr (ch_challenge (fst y)) cid key (ur_handle u) ctr ->
  ~ In Stop l3 -> ~ In Kill l3 -> ~ In (Break_ (List.length ts)) l3 -> 6 <= steps_of (List.length ts) l3 ->
  Largest W E replaced multipart (l1 ++ l2) (Incoming (clock, h) :: l3) (List.length ts) cid ctr ->
  Says (Lived W E replaced multipart (l1 ++ l2 ++ Incoming (clock, h) :: l3)) (List.length ts) (clock, q) Success.
Proof. exact (@c99_survives). Qed.
Print Assumptions C99_survives.

(** A challenge sent before kills can be answered after them: if options were sent to a name, the program was
    not stopped since nor its file removed, but killed and started again any number of times, and no more
    than a minute has passed, then the honest registration is accepted once six statements of its handler
    have been executed, if none of them fails and no other registration of the credential id is accepted. *)
Theorem C99_registers :
  forall (W : World) (E : appenv) (replaced : bytes -> pystr) (multipart : list N -> list (pystr * pystr))
  (depth : nat) (JE : jsonenv), Conforming W depth JE ->
  forall (l1 l2 l3 : list life_event) (n : pystr) (b : nat) (y : chance * request) (id : N) (v : pyval)
  (clock : chance) (h : http) (q : request) (i : pystr) (cr : credential) (cid : bytes) (key : pubkey) (ctr : N)
  (ts : list (chance * request * thread)),
  Says (Lived W E replaced multipart l1) b y (Options id v) -> Asks (snd y) n ->
  Keeps W E replaced multipart l1 l2 ->
  ho_process (Lived W E replaced multipart (l1 ++ l2)) = Some ts ->
  Reaches replaced multipart h q -> Registers W q i n cr -> ap_int E i = Some id ->
  (ch_clock clock - ch_clock (fst y) <= 60000)%Z ->
  AppRegistration W depth cr (ch_challenge (fst y)) cid key ctr ->
  ~ In Stop l3 -> ~ In Kill l3 -> ~ In (Break_ (List.length ts)) l3 -> 6 <= steps_of (List.length ts) l3 ->
  OnlyOne W E replaced multipart (l1 ++ l2) (Incoming (clock, h) :: l3) (List.length ts) cid ->
  Says (Lived W E replaced multipart (l1 ++ l2 ++ Incoming (clock, h) :: l3)) (List.length ts) (clock, q) Success.
Proof. exact (@c99_registers). Qed.
Print Assumptions C99_registers.

(** Alice registers; bob's request is interrupted when the process is killed; alice logs in after
    the new start. After a stop they cannot, until they register again. *)
Definition go (n i : nat) : list life_event := repeat (Go i) n.
Definition sent (x : chance * request) : life_event := Incoming (fst x, wire (snd x)).
Definition killed : list life_event :=
  [Start; sent (ask_reg "alice" "handle-a" "challenge-1" 1000)] ++ go 6 0 ++
  [sent (do_reg "1" "alice" "challenge-1" "cred-1" 2000)] ++ go 6 1 ++
  [sent (ask_reg "bob" "handle-b" "challenge-3" 2500); Go 2; Go 2; Kill; Start; sent (ask_auth "alice" "challenge-4" 6000)] ++ go 6 0 ++
  [sent (do_auth "2" "alice" "challenge-4" "cred-1" 7 7000)] ++ go 6 1.
Definition restarted : list life_event :=
  [Start; sent (ask_reg "alice" "handle-a" "challenge-1" 9000)] ++ go 6 0 ++
  [sent (do_auth "1" "alice" "challenge-1" "cred-1" 8 9100)] ++ go 6 1 ++
  [sent (do_reg "1" "alice" "challenge-1" "cred-1" 9200)] ++ go 6 2 ++
  [sent (do_auth "1" "alice" "challenge-1" "cred-1" 8 9300)] ++ go 6 3.
Definition ex_lived (l : list life_event) : host := Lived ex_world ex_env (fun _ => []) (fun _ => []) l.
Definition replies (o : host) : option (list (option (N * string))) :=
  option_map (map (fun t => match snd t with Answered r => Some (status r) | Statement _ _ => None end)) (ho_process o).
Example hyp_killed :
  (let o := ex_lived killed in (replies o, List.length (db_users (ho_db o)), ho_linked o)) =
  (Some [Some (2%N, "options"%string); Some (200%N, "Success"%string)], 2, true).
Proof. vm_compute. reflexivity. Qed.
Example hyp_restarted :
  replies (ex_lived (killed ++ Stop :: restarted)) =
  Some [Some (1%N, "options"%string); Some (400%N, "Could not handle credential assertion"%string);
        Some (200%N, "Success"%string); Some (200%N, "Success"%string)].
Proof. vm_compute. reflexivity. Qed.
Example hyp_second : ~ In Stop restarted /\ ~ In Kill restarted.
Proof.
  assert (B : forallb (fun e => match e with Stop | Kill => false | _ => true end) restarted = true)
    by (vm_compute; reflexivity).
  rewrite forallb_forall in B. split; intro I; specialize (B _ I); discriminate B.
Qed.
Definition before_kill : list life_event :=
  [Start; sent (ask_reg "alice" "handle-a" "challenge-1" 1000)] ++ go 6 0 ++
  [sent (do_reg "1" "alice" "challenge-1" "cred-1" 2000)] ++ go 6 1.
Definition and_after : list life_event :=
  [sent (ask_reg "bob" "handle-b" "challenge-3" 2500); Go 2; Go 2; Kill; Start; sent (ask_auth "alice" "challenge-4" 6000)] ++ go 6 0.
Definition again : chance * request := do_auth "2" "alice" "challenge-4" "cred-1" 7 7000.
Lemma again_sendable : Sendable (snd again).
Proof.
  intros t c T C.
  assert (B : forallb (fun v => match v with Some t => forallb (fun c => N.ltb c 55296) t | None => true end)
                (texts (snd again)) = true) by (vm_compute; reflexivity).
  rewrite forallb_forall in B. specialize (B (Some t) T). cbv beta iota in B. rewrite forallb_forall in B.
  left. apply N.ltb_lt. now apply B.
Qed.
Example hyp_survives :
  let replaced := fun _ => [] in let multipart := fun _ => [] in
  let lived := Lived ex_world ex_env replaced multipart in
  exists crr y v u ts,
  Says (lived before_kill) 1 (do_reg "1" "alice" "challenge-1" "cred-1" 2000) Success /\
  Registers ex_world (snd (do_reg "1" "alice" "challenge-1" "cred-1" 2000)) (lit "1") (lit "alice") crr /\
  cr_raw_id crr = blit "cred-1" /\ AttestedKey ex_world crr ex_key /\
  Keeps ex_world ex_env replaced multipart before_kill and_after /\
  Says (lived (before_kill ++ and_after)) 0 y (Options 2 v) /\ Asks (snd y) (lit "alice") /\
  ho_process (lived (before_kill ++ and_after)) = Some ts /\ List.length ts = 1 /\
  Reaches replaced multipart (wire (snd again)) (snd again) /\
  Authenticates ex_world (snd again) (lit "2") (lit "alice") ex_login /\ ap_int ex_env (lit "2") = Some 2%N /\
  In u (db_users (ho_db (lived (before_kill ++ and_after)))) /\ ur_username u = lit "alice" /\
  AppLogin ex_world 900 ex_login (ch_challenge (fst y)) (blit "cred-1") ex_key (ur_handle u) 7 /\
  6 <= steps_of 1 (go 6 1) /\
  Largest ex_world ex_env replaced multipart (before_kill ++ and_after) (sent again :: go 6 1) 1 (blit "cred-1") 7.
Proof.
  cbv zeta. exists ex_registration. eexists. eexists. eexists. eexists.
  split; [eexists; split; [vm_compute; reflexivity|reflexivity]|].
  split; [exact ex_registration_sent|]. split; [vm_compute; reflexivity|].
  split; [exact (honest_key ex_world 900 ex_json ex_conforming _ _ _ _ _ ex_registration_honest)|].
  split; [apply keeps_by; vm_compute; reflexivity|].
  split; [eexists; split; [vm_compute; reflexivity|reflexivity]|].
  split; [now right|]. split; [vm_compute; reflexivity|]. split; [reflexivity|].
  split; [apply wire_reaches; exact again_sendable|].
  split; [eexists; split; [reflexivity|]; eexists; split; [vm_compute; reflexivity|vm_compute; reflexivity]|].
  split; [vm_compute; reflexivity|].
  split; [vm_compute; left; reflexivity|]. split; [reflexivity|]. split; [exact ex_login_honest|].
  split; [vm_compute; repeat constructor|]. apply largest_by. vm_compute. reflexivity.
Qed.
Definition asked_before : list life_event :=
  [Start; sent (ask_reg "alice" "handle-a" "challenge-1" 1000)] ++ go 6 0.
Definition answered_after : chance * request := do_reg "1" "alice" "challenge-1" "cred-1" 2000.
Lemma answered_sendable : Sendable (snd answered_after).
Proof.
  intros t c T C.
  assert (B : forallb (fun v => match v with Some t => forallb (fun c => N.ltb c 55296) t | None => true end)
                (texts (snd answered_after)) = true) by (vm_compute; reflexivity).
  rewrite forallb_forall in B. specialize (B (Some t) T). cbv beta iota in B. rewrite forallb_forall in B.
  left. apply N.ltb_lt. now apply B.
Qed.
Example hyp_registers :
  let replaced := fun _ => [] in let multipart := fun _ => [] in
  let lived := Lived ex_world ex_env replaced multipart in
  exists y v cr key ctr ts,
  Says (lived asked_before) 0 y (Options 1 v) /\ Asks (snd y) (lit "alice") /\
  Keeps ex_world ex_env replaced multipart asked_before [Kill; Start] /\
  ho_process (lived (asked_before ++ [Kill; Start])) = Some ts /\ List.length ts = 0 /\
  Reaches replaced multipart (wire (snd answered_after)) (snd answered_after) /\
  Registers ex_world (snd answered_after) (lit "1") (lit "alice") cr /\ ap_int ex_env (lit "1") = Some 1%N /\
  (ch_clock (fst answered_after) - ch_clock (fst y) <= 60000)%Z /\
  AppRegistration ex_world 900 cr (ch_challenge (fst y)) (blit "cred-1") key ctr /\
  6 <= steps_of 0 (go 6 0) /\
  OnlyOne ex_world ex_env replaced multipart (asked_before ++ [Kill; Start]) (sent answered_after :: go 6 0) 0 (blit "cred-1").
Proof.
  cbv zeta. eexists. eexists. exists ex_registration. eexists. eexists. eexists.
  split; [eexists; split; [vm_compute; reflexivity|reflexivity]|].
  split; [now left|]. split; [apply keeps_by; vm_compute; reflexivity|].
  split; [vm_compute; reflexivity|]. split; [reflexivity|].
  split; [apply wire_reaches; exact answered_sendable|].
  split; [exact ex_registration_sent|]. split; [vm_compute; reflexivity|].
  split; [vm_compute; discriminate|]. split; [exact ex_registration_honest|].
  split; [vm_compute; repeat constructor|]. apply only_one_by. vm_compute. reflexivity.
Qed.
