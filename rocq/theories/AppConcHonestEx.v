(** * AppConcHonestEx: concrete interleavings for C95. *)
From Coq Require Import List NArith ZArith Bool String Lia.
From Verif Require Import Base PyVal Url Json JsonSpec Cbor Types World Parsers Crypto Backends Spec Examples
  OptionSpec BaseFacts App AppSpec AppExamples AppTheorems AppConc AppConcSpec AppConcInv AppConcExamples
  AppConcTheorems HonestSpec HonestFacts AppHonest AppConcHonestSpec AppConcHonest.
Import ListNotations.
Local Open Scope list_scope.

(** Alice and Bob register together; then Alice logs in twice with one credential, the
    statements of both logins alternating. *)
Definition asked : list sv_event :=
  [Arrive (ask_reg "alice" "handle-a" "challenge-1" 1000); Arrive (ask_reg "bob" "handle-b" "challenge-2" 1500)] ++
  turn 5 0 ++ turn 5 1.
Definition alice_reg : chance * request := do_reg "1" "alice" "challenge-1" "cred-1" 2000.
Definition bob_too : list sv_event :=
  Arrive (do_reg "2" "bob" "challenge-2" "cred-2" 2100) ::
  flat_map (fun _ => [Proceed 2; Proceed 3]) (seq 0 6).
Definition asked_again : list sv_event :=
  (asked ++ Arrive alice_reg :: bob_too) ++
  Arrive (ask_auth "alice" "challenge-3" 5000) :: turn 5 4 ++
  Arrive (ask_auth "alice" "challenge-4" 6000) :: turn 5 5.
Definition alice_log : chance * request := do_auth "4" "alice" "challenge-4" "cred-1" 7 7000.
Definition another : list sv_event :=
  Arrive (do_auth "3" "alice" "challenge-3" "cred-1" 5 6500) ::
  flat_map (fun _ => [Proceed 6; Proceed 7]) (seq 0 6).


(** The hypotheses on the other requests can be decided. *)
Definition response_of (W : World) (q : request) : option (bool * credential) :=
  match q with
  | RegistrationResponse (Some _) (Some t) (Some _) =>
      match w_json_loads W t with
      | WOk (VDict m) => match parse_public_key_credential W m with Ok c => Some (true, c) | Raise _ => None end
      | _ => None
      end
  | AuthenticationResponse (Some _) (Some t) (Some _) =>
      match w_json_loads W t with
      | WOk (VDict m) => match parse_public_key_credential W m with Ok c => Some (false, c) | Raise _ => None end
      | _ => None
      end
  | _ => None
  end.
Lemma response_of_registers W q i n cr : Registers W q i n cr -> response_of W q = Some (true, cr).
Proof. intros (t & -> & m & J & P). cbn. now rewrite J, P. Qed.
Lemma response_of_authenticates W q i n cr : Authenticates W q i n cr -> response_of W q = Some (false, cr).
Proof. intros (t & -> & m & J & P). cbn. now rewrite J, P. Qed.

Fixpoint others (f : request -> bool) (j : option nat) (l : list (chance * request * thread)) : bool :=
  match l with
  | [] => true
  | (x, t) :: l' =>
      (match j with Some O => true | _ => match t with Answered (Reply 200 _) => f (snd x) | _ => true end end) &&
      others f (match j with Some (S m) => Some m | _ => None end) l'
  end.
Lemma others_ok f l : forall j j' x, others f j l = true -> Some j' <> j ->
  nth_error l j' = Some (x, Answered Success) -> f (snd x) = true.
Proof.
  induction l as [|[y t] l IH]; intros j j' x O J N; [now destruct j'|].
  cbn [others] in O. apply andb_prop in O as [O1 O2]. destruct j' as [|j'].
  - injection N as -> ->. destruct j as [[|m]|]; [now destruct J|exact O1|exact O1].
  - apply (IH _ j' x O2); [|exact N]. destruct j as [[|m]|]; [discriminate| |discriminate].
    intro Q. apply J. now injection Q as <-.
Qed.

Lemma only_registration_by W s j id :
  others (fun q => match response_of W q with Some (true, cr) => negb (bytes_eqb (cr_raw_id cr) id) | _ => true end)
    (Some j) (sv_threads s) = true -> OnlyRegistration W s j id.
Proof.
  intros O j' y i n cr J R RG Q. apply (others_ok _ _ _ j' y) in O; [|congruence|exact R].
  cbv beta in O. rewrite (response_of_registers W _ i n cr RG), Q, bytes_eqb_refl in O. discriminate.
Qed.
Lemma largest_login_by W s j id ctr :
  others (fun q => match response_of W q with
    | Some (false, cr) => negb (bytes_eqb (cr_raw_id cr) id) ||
        match cr_response cr with AssertionResponse _ adb _ _ => (counter_of adb <? ctr)%N | _ => true end
    | _ => true end)
    (Some j) (sv_threads s) = true -> LargestLogin W s j id ctr.
Proof.
  intros O j' y i n cr c J R AU Q (cdj & adb & sig & uh & RE & ->). apply (others_ok _ _ _ j' y) in O; [|congruence|exact R].
  cbv beta in O. rewrite (response_of_authenticates W _ i n cr AU), Q, bytes_eqb_refl, RE in O. now apply N.ltb_lt in O.
Qed.

Lemma alice_accepted : AcceptedKey ex_world (Served ex_world ex_env asked_again) (lit "alice") (blit "cred-1") ex_key.
Proof.
  destruct ex_app_registration as (cr & RG & AR).
  destruct (c95_honest_registration ex_world ex_env 900 ex_json ex_conforming asked alice_reg
    (bob_too ++ Arrive (ask_auth "alice" "challenge-3" 5000) :: turn 5 4 ++
     Arrive (ask_auth "alice" "challenge-4" 6000) :: turn 5 5)
    (lit "1") (lit "alice") cr 1 (blit "challenge-1") 1000 (blit "cred-1") ex_key 0) as [_ K].
  - exact RG.
  - vm_compute. reflexivity.
  - exists 0. eexists. eexists. split; [vm_compute; reflexivity|]. split; [now left|]. split; reflexivity.
  - vm_compute. discriminate.
  - exact AR.
  - apply only_registration_by. vm_compute. reflexivity.
  - unfold asked_again. rewrite <- app_assoc. apply K; [|vm_compute; repeat constructor].
    apply undisturbed_by. vm_compute. reflexivity.
Qed.
