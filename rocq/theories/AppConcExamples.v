(** * AppConcExamples: concrete interleavings. *)
From Coq Require Import List NArith ZArith Bool String Lia.
From Verif Require Import Base PyVal B64 Utf8 Url CaseConv Cbor Types World Parsers Crypto
  Backends Spec Examples OptionSpec BaseFacts App AppSpec AppExamples AppConc AppConcSpec AppConcInv.
Import ListNotations.
Local Open Scope list_scope.

(** [Exclusive] can be decided. *)
Definition login_id (W : World) (q : request) : option bytes :=
  match q with
  | AuthenticationResponse (Some _) (Some t) (Some _) =>
      match w_json_loads W t with
      | WOk (VDict m) => match parse_public_key_credential W m with Ok c => Some (cr_raw_id c) | Raise _ => None end
      | _ => None
      end
  | _ => None
  end.
Lemma login_id_ok W q i n cr : Authenticates W q i n cr -> login_id W q = Some (cr_raw_id cr).
Proof. intros (t & -> & m & J & P). cbn. now rewrite J, P. Qed.

Fixpoint flying (W : World) (l : list (chance * request * thread)) : list bytes :=
  match l with
  | [] => []
  | (x, Answered _) :: t => flying W t
  | (x, Statement _ _) :: t =>
      match login_id W (snd x) with Some b => b :: flying W t | None => flying W t end
  end.
Fixpoint distinct (l : list bytes) : bool :=
  match l with [] => true | b :: t => negb (existsb (bytes_eqb b) t) && distinct t end.
Fixpoint exclusive_from (W : World) (E : appenv) (s : server) (l : list sv_event) : bool :=
  distinct (flying W (sv_threads s)) &&
  match l with [] => true | e :: t => exclusive_from W E (happen W E s e) t end.

Lemma flying_in W ts j x f g b : nth_error ts j = Some (x, Statement f g) -> login_id W (snd x) = Some b ->
  In b (flying W ts).
Proof.
  revert j. induction ts as [|[y [r|f' g']] ts IH]; intros j N L; [now destruct j| |].
  - destruct j as [|j]; [discriminate|]. cbn. eauto.
  - destruct j as [|j].
    + injection N as -> -> ->. cbn. rewrite L. now left.
    + cbn. destruct (login_id W (snd y)); [right|]; eauto.
Qed.
Lemma flying_distinct W ts : distinct (flying W ts) = true ->
  forall j1 j2 x1 x2 f1 g1 f2 g2 b, nth_error ts j1 = Some (x1, Statement f1 g1) -> nth_error ts j2 = Some (x2, Statement f2 g2) ->
  login_id W (snd x1) = Some b -> login_id W (snd x2) = Some b -> j1 = j2.
Proof.
  induction ts as [|[y [r|f' g']] ts IH]; intros D j1 j2 x1 x2 f1 g1 f2 g2 b N1 N2 L1 L2; [now destruct j1| |].
  - destruct j1 as [|j1], j2 as [|j2]; try discriminate. f_equal. eapply IH; eauto.
  - cbn in D. destruct j1 as [|j1], j2 as [|j2]; [reflexivity| | |].
    + injection N1 as -> -> ->. rewrite L1 in D. cbn in D. apply andb_prop in D as [D _]. exfalso.
      pose proof (flying_in W ts j2 x2 f2 g2 b N2 L2) as I. apply negb_true_iff in D.
      assert (existsb (bytes_eqb b) (flying W ts) = true) by (apply existsb_exists; exists b; split; [assumption|now apply bytes_eqb_spec]).
      congruence.
    + injection N2 as -> -> ->. rewrite L2 in D. cbn in D. apply andb_prop in D as [D _]. exfalso.
      pose proof (flying_in W ts j1 x1 f1 g1 b N1 L1) as I. apply negb_true_iff in D.
      assert (existsb (bytes_eqb b) (flying W ts) = true) by (apply existsb_exists; exists b; split; [assumption|now apply bytes_eqb_spec]).
      congruence.
    + f_equal. eapply IH; eauto. destruct (login_id W (snd y)); [|exact D]. cbn in D. now apply andb_prop in D.
Qed.
Lemma exclusive_from_spec W E s l : exclusive_from W E s l = true -> forall l1 l2, l = l1 ++ l2 ->
  distinct (flying W (sv_threads (happen_all W E s l1))) = true.
Proof.
  revert s. induction l as [|e l IH]; intros s H l1 l2 EQ.
  - destruct l1; [|discriminate]. cbn in H. now apply andb_prop in H.
  - cbn [exclusive_from] in H. apply andb_prop in H as [H1 H2]. destruct l1 as [|e' l1]; [exact H1|].
    injection EQ as <- ->. exact (IH _ H2 l1 l2 eq_refl).
Qed.
Lemma exclusive_by W E l : exclusive_from W E new_server l = true -> Exclusive W E l.
Proof.
  intros H l1 l2 EQ j1 j2 x1 x2 i1 i2 n1 n2 cr1 cr2 (f1 & g1 & N1) (f2 & g2 & N2) A1 A2 Q.
  pose proof (exclusive_from_spec _ _ _ _ H l1 l2 EQ) as D.
  eapply (flying_distinct W _ D); eauto using login_id_ok. rewrite Q. now apply login_id_ok in A2.
Qed.

(** ** Runs *)

Definition turn (n i : nat) : list sv_event := repeat (Proceed i) n.
(** Alice has credential cred-1 and asks for a challenge. *)
Definition prologue : list sv_event :=
  [Arrive (ask_reg "alice" "handle-a" "challenge-1" 1000)] ++ turn 5 0 ++
  [Arrive (do_reg "1" "alice" "challenge-1" "cred-1" 2000)] ++ turn 4 1 ++
  [Arrive (ask_auth "alice" "challenge-2" 3000)] ++ turn 5 2.
Definition login7 : chance * request := do_auth "2" "alice" "challenge-2" "cred-1" 7 4000.
Definition login8 : chance * request := do_auth "2" "alice" "challenge-2" "cred-1" 8 4000.
(** The same login twice at once. *)
Definition replay : list sv_event :=
  prologue ++ [Arrive login7; Arrive login7] ++ turn 5 3 ++ turn 6 4 ++ turn 1 3.
(** Two logins; the one with the lower counter is written last. *)
Definition overtaken : list sv_event :=
  prologue ++ [Arrive login7; Arrive login8] ++ turn 5 3 ++ turn 6 4.
(** Two requests for one new user at once. *)
Definition newcomers : list sv_event :=
  [Arrive (ask_reg "alice" "handle-a" "challenge-1" 1000);
   Arrive (ask_reg "alice" "handle-b" "challenge-2" 1000)] ++ [Proceed 0; Proceed 1] ++ turn 4 0 ++ turn 1 1.
(** Two logins one after the other, a registration of bob in between. *)
Definition orderly : list sv_event :=
  prologue ++ [Arrive login7; Arrive (ask_reg "bob" "handle-b" "challenge-3" 3000)] ++
  [Proceed 4; Proceed 3; Proceed 4; Proceed 3; Proceed 3] ++ turn 3 3 ++ turn 3 4 ++ [Arrive login8] ++ turn 6 5.
(** The challenge is stored, but the handler cannot read it again: it is not sent. *)
Definition locked : list sv_event :=
  [Arrive (ask_reg "alice" "handle-a" "challenge-1" 1000)] ++ turn 4 0 ++ [Fail 0] ++
  [Arrive (do_reg "1" "alice" "challenge-1" "cred-1" 2000)] ++ turn 3 1 ++ [Fail 1].
