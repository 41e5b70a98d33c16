(** * Property C95: what is in order is accepted, with requests in flight together. *)
From Coq Require Import List NArith ZArith Bool String.
From Verif Require Import Base PyVal Url Json JsonSpec Cbor Types World Parsers Crypto Backends Spec Examples
  OptionSpec App AppSpec AppExamples AppTheorems AppConc AppConcSpec AppConcInv AppConcExamples
  AppConcTheorems HonestSpec HonestFacts AppHonest AppConcHonestSpec AppConcHonest
  AppConcHonestEx.
Import ListNotations.
Local Open Scope list_scope.

(** C95: a registration that is in order when it arrives succeeds, whatever else arrives and
    however the statements interleave, unless its credential id is registered meanwhile. *)
Theorem C95_registration :
  forall (W : World) (E : appenv) (l1 : list sv_event) (x : chance * request) (l2 : list sv_event)
         (i n : pystr) (cr : credential),
  Registers W (snd x) i n cr ->
  FitRegistration W E (Served W E l1) (ch_clock (fst x)) i n cr ->
  OnlyRegistration W (Served W E (l1 ++ Arrive x :: l2)) (next (Served W E l1)) (cr_raw_id cr) ->
  Succeeds W E l1 l2 x.
Proof. exact (@c95_registration). Qed.
Print Assumptions C95_registration.

(** C95: a login that is in order when it arrives succeeds, whatever else arrives and however
    the statements interleave, if the counters of the other accepted logins with its
    credential are smaller. *)
Theorem C95_login :
  forall (W : World) (E : appenv) (depth : nat) (l1 : list sv_event) (x : chance * request)
         (l2 : list sv_event) (i n : pystr) (cr : credential) (ctr : N),
  decodes_cbor W depth -> 2 <= depth ->
  Authenticates W (snd x) i n cr ->
  SharedLogin W E (Served W E l1) (ch_clock (fst x)) i n cr -> LoginCounter cr ctr ->
  LargestLogin W (Served W E (l1 ++ Arrive x :: l2)) (next (Served W E l1)) (cr_raw_id cr) ctr ->
  Succeeds W E l1 l2 x.
Proof. exact (@c95_login). Qed.
Print Assumptions C95_login.

(** C95: in particular the honest answer to a challenge registers a new credential. *)
Theorem C95_honest_registration :
  forall (W : World) (E : appenv) (depth : nat) (JE : jsonenv), Conforming W depth JE ->
  forall (l1 : list sv_event) (x : chance * request) (l2 : list sv_event) i n cr id c t cid k ctr,
  Registers W (snd x) i n cr -> ap_int E i = Some id -> SentChallenge (Served W E l1) n c id t ->
  (ch_clock (fst x) - t <= 60000)%Z -> AppRegistration W depth cr c cid k ctr ->
  OnlyRegistration W (Served W E (l1 ++ Arrive x :: l2)) (next (Served W E l1)) cid ->
  Succeeds W E l1 l2 x /\
  (~ In (Fail (next (Served W E l1))) l2 -> 6 <= turns (next (Served W E l1)) l2 ->
   AcceptedKey W (Served W E (l1 ++ Arrive x :: l2)) n cid k).
Proof. exact (@c95_honest_registration). Qed.
Print Assumptions C95_honest_registration.

(** C95: and the honest answer with a registered credential logs in. *)
Theorem C95_honest_login :
  forall (W : World) (E : appenv) (depth : nat) (JE : jsonenv), Conforming W depth JE ->
  forall (l1 : list sv_event) (x : chance * request) (l2 : list sv_event) i n cr id c t cid k handle ctr,
  Authenticates W (snd x) i n cr -> ap_int E i = Some id -> SentChallenge (Served W E l1) n c id t ->
  (ch_clock (fst x) - t <= 60000)%Z -> AcceptedKey W (Served W E l1) n cid k ->
  HasHandle (Served W E l1) n handle -> AppLogin W depth cr c cid k handle ctr ->
  LargestLogin W (Served W E (l1 ++ Arrive x :: l2)) (next (Served W E l1)) cid ctr ->
  Succeeds W E l1 l2 x.
Proof. exact (@c95_honest_login). Qed.
Print Assumptions C95_honest_login.

(** Alice and Bob register together; then Alice logs in twice with one credential, the
    statements of both logins alternating; [AppConcHonestEx.v]. *)
Example hyp_serve_registration :
  next (Served ex_world ex_env asked) = 2 /\
  SentChallenge (Served ex_world ex_env asked) (lit "alice") (blit "challenge-1") 1 1000 /\
  (exists cr, Registers ex_world (snd alice_reg) (lit "1") (lit "alice") cr /\
     AppRegistration ex_world 900 cr (blit "challenge-1") (blit "cred-1") ex_key 0) /\
  OnlyRegistration ex_world (Served ex_world ex_env (asked ++ Arrive alice_reg :: bob_too)) 2 (blit "cred-1") /\
  6 <= turns 2 bob_too.
Proof.
  split; [vm_compute; reflexivity|].
  split; [exists 0; eexists; eexists; split; [vm_compute; reflexivity|]; split; [now left|]; split; reflexivity|].
  split; [exact ex_app_registration|]. split; [|vm_compute; repeat constructor].
  apply only_registration_by. vm_compute. reflexivity.
Qed.
Example hyp_serve_login :
  next (Served ex_world ex_env asked_again) = 6 /\
  SentChallenge (Served ex_world ex_env asked_again) (lit "alice") (blit "challenge-4") 4 6000 /\
  HasHandle (Served ex_world ex_env asked_again) (lit "alice") (blit "handle-a") /\
  (exists cr, Authenticates ex_world (snd alice_log) (lit "4") (lit "alice") cr /\
     AppLogin ex_world 900 cr (blit "challenge-4") (blit "cred-1") ex_key (blit "handle-a") 7) /\
  AcceptedKey ex_world (Served ex_world ex_env asked_again) (lit "alice") (blit "cred-1") ex_key /\
  LargestLogin ex_world (Served ex_world ex_env (asked_again ++ Arrive alice_log :: another)) 6 (blit "cred-1") 7 /\
  Replied (Served ex_world ex_env (asked_again ++ Arrive alice_log :: another)) 7
    (do_auth "3" "alice" "challenge-3" "cred-1" 5 6500) Success /\
  6 <= turns 6 another.
Proof.
  split; [vm_compute; reflexivity|].
  split; [exists 5; eexists; eexists; split; [vm_compute; reflexivity|]; split; [now right|]; split; reflexivity|].
  split; [eexists; split; [vm_compute; left; reflexivity|]; split; reflexivity|].
  split; [exact ex_app_login|].
  split; [exact alice_accepted|].
  split; [apply largest_login_by; vm_compute; reflexivity|].
  split; [vm_compute; reflexivity|]. vm_compute. repeat constructor.
Qed.
