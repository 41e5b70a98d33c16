(** * AppConcTheorems: C73 to C76. *)
From Coq Require Import List NArith ZArith Bool String Lia.
From Verif Require Import Base PyVal B64 Utf8 Url CaseConv Cbor CborFacts Types World Parsers Crypto
  Backends Spec Examples Jsonify Builders OptionSpec BaseFacts AuthFacts RaiseFacts BackendFacts KeyFacts
  App AppSpec AppExamples AppFacts AppHistory AppAccept AppTheorems AppReplySpec AppReply
  AppConc AppConcSpec AppConcFacts AppConcInv AppConcExamples.
Import ListNotations.
Local Open Scope list_scope.

Lemma replace_same {A} (l : list A) i a : nth_error l i = Some a -> replace l i a = l.
Proof.
  revert i. induction l as [|b l IH]; intros [|i] H; cbn in *; try discriminate; [congruence|].
  now rewrite IH.
Qed.
Lemma replace_replace {A} (l : list A) i a b : replace (replace l i a) i b = replace l i b.
Proof. revert i. induction l as [|c l IH]; intros [|i]; cbn; [reflexivity..|]. now rewrite IH. Qed.
Lemma replace_last {A} (l : list A) a b : replace (l ++ [a]) (List.length l) b = l ++ [b].
Proof. induction l; cbn; [reflexivity|]. now rewrite IHl. Qed.

Fixpoint happen_alone W E (t : thread) : forall s j x, nth_error (sv_threads s) j = Some (x, t) ->
  exists n, happen_all W E s (repeat (Proceed j) n) =
  {| sv_db := snd (alone t (sv_db s));
     sv_threads := replace (sv_threads s) j (x, Answered (fst (alone t (sv_db s)))) |}.
Proof.
  intros s j x N. destruct t as [r|f g].
  - exists 0. cbn. rewrite replace_same by assumption. now destruct s.
  - pose proof (happen_alone W E (fst (f (sv_db s)))) as IH.
    destruct (f (sv_db s)) as [t d] eqn:F. cbn [fst] in IH.
    destruct (IH {| sv_db := d; sv_threads := replace (sv_threads s) j (x, t) |} j x) as (n & Q).
    { cbn. now rewrite nth_replace, Nat.eqb_refl, N. }
    exists (S n). cbn [repeat]. change (happen_all W E s (Proceed j :: repeat (Proceed j) n))
      with (happen_all W E (happen W E s (Proceed j)) (repeat (Proceed j) n)).
    cbn [happen]. rewrite N, F, Q. cbn [alone sv_db sv_threads]. rewrite F. now rewrite replace_replace.
Qed.

Lemma c73_sequential (W : World) (E : appenv) (l : list (chance * request)) :
  exists ev, Undisturbed ev /\ sv_db (Served W E ev) = after W E l /\
    forall l1 x l2, l = l1 ++ x :: l2 ->
    Replied (Served W E ev) (List.length l1) x (answer W E l1 x).
Proof.
  enough (exists ev, Undisturbed ev /\ sv_db (Served W E ev) = after W E l /\
    List.length (sv_threads (Served W E ev)) = List.length l /\
    forall l1 x l2, l = l1 ++ x :: l2 ->
    Replied (Served W E ev) (List.length l1) x (answer W E l1 x)) as (ev & H0 & H1 & _ & H2) by (exists ev; auto).
  induction l as [|x l (ev & H0 & H1 & H2 & H3)] using rev_ind.
  - exists []. split; [now intros i|]. split; [reflexivity|]. split; [reflexivity|]. intros [|] ? ? ?; discriminate.
  - set (j := List.length l) in *.
    destruct (happen_alone W E (handle W E x) (happen W E (Served W E ev) (Arrive x)) j x) as (m & HA).
    { cbn. rewrite <- H2. now rewrite nth_error_app2, Nat.sub_diag by lia. }
    exists (ev ++ Arrive x :: repeat (Proceed j) m). split.
    { intros i F. apply in_app_or in F as [F|[F|F]]; [now apply (H0 i)|discriminate|].
      apply repeat_spec in F. discriminate. }
    assert (S : Served W E (ev ++ Arrive x :: repeat (Proceed j) m) =
      {| sv_db := after W E (l ++ [x]);
         sv_threads := sv_threads (Served W E ev) ++ [(x, Answered (answer W E l x))] |}).
    { unfold Served. rewrite happen_all_app. fold (Served W E ev).
      change (happen_all W E (Served W E ev) (Arrive x :: repeat (Proceed j) m)) with
        (happen_all W E (happen W E (Served W E ev) (Arrive x)) (repeat (Proceed j) m)).
      rewrite HA. cbn [happen sv_db sv_threads]. rewrite handle_alone, H1. unfold answer. rewrite after_snoc.
      f_equal. rewrite <- H2. apply replace_last. }
    rewrite S. cbn [sv_db sv_threads]. split; [reflexivity|].
    split; [rewrite !app_length, H2; reflexivity|].
    intros l1 y l2 EQ. unfold Replied. cbn [sv_threads].
    destruct l2 as [|z l2 _] using rev_ind.
    + apply app_inj_tail in EQ as [-> ->]. rewrite nth_error_app2; rewrite H2; [|reflexivity].
      now rewrite Nat.sub_diag.
    + rewrite app_comm_cons, app_assoc in EQ. apply app_inj_tail in EQ as [-> _].
      apply nth_grow. now apply (H3 l1 y l2).
Qed.

Lemma c73_consistent (W : World) (E : appenv) (l : list sv_event) : Consistent (sv_db (Served W E l)).
Proof. apply (in_con _ _ _ _ (inv_served W E l)). Qed.

Lemma c73_rows (W : World) (E : appenv) (l1 l2 : list sv_event) :
  (forall u, In u (db_users (sv_db (Served W E l1))) -> In u (db_users (sv_db (Served W E (l1 ++ l2))))) /\
  (forall h, In h (db_chals (sv_db (Served W E l1))) -> In h (db_chals (sv_db (Served W E (l1 ++ l2))))) /\
  (forall c, In c (db_creds (sv_db (Served W E l1))) ->
     exists c', In c' (db_creds (sv_db (Served W E (l1 ++ l2)))) /\
       kr_id c' = kr_id c /\ kr_key c' = kr_key c /\ kr_user c' = kr_user c).
Proof.
  pose proof (served_grow W E l1 l2) as G.
  split; [intros u; now apply grow_user|]. split; [intros h; now apply grow_chal|]. apply G.
Qed.

Lemma c73_provenance (W : World) (E : appenv) (l : list sv_event) (c : cred_row) :
  In c (db_creds (sv_db (Served W E l))) ->
  exists u k, In u (db_users (sv_db (Served W E l))) /\ kr_user c = ur_id u /\
    AcceptedKey W (Served W E l) (ur_username u) (kr_id c) k /\ cose_key (Some k) = Ok (kr_key c).
Proof.
  intro I. destruct (in_cred _ _ _ _ (inv_served W E l) c I)
    as (j & y & i & n & cr & u & k & R & H1 & H2 & H3 & H4 & H5 & H6 & H7).
  exists u, k. split; [assumption|]. split; [assumption|]. split; [|assumption].
  exists j, y, i, cr. rewrite H4. auto.
Qed.

Lemma c73_once (W : World) (E : appenv) (l : list sv_event) (j1 j2 : nat) (y1 y2 : chance * request)
  (i1 n1 i2 n2 : pystr) (cr1 cr2 : credential) :
  Replied (Served W E l) j1 y1 Success -> Replied (Served W E l) j2 y2 Success ->
  Registers W (snd y1) i1 n1 cr1 -> Registers W (snd y2) i2 n2 cr2 ->
  cr_raw_id cr1 = cr_raw_id cr2 -> j1 = j2.
Proof.
  intros R1 R2 G1 G2 Q. exact (in_once _ _ _ _ (inv_served W E l) _ _ _ _ _ _ _ _ _ _ R1 R2 G1 G2 Q).
Qed.

Lemma c73_answered (W : World) (E : appenv) (l1 l2 : list sv_event) (x : chance * request) :
  let j := List.length (sv_threads (Served W E l1)) in
  let s := Served W E (l1 ++ Arrive x :: l2) in
  needs (snd x) (List.length (db_creds (sv_db s))) <= turns j l2 -> exists r, Replied s j x r.
Proof.
  cbv zeta. rewrite served_cons. intro T.
  eapply ends; [|apply (steps_handle W E x)|exact T].
  rewrite served_snoc. cbn. now rewrite nth_error_app2, Nat.sub_diag by lia.
Qed.

(** ** Users, options and errors *)

(** What stores no more users. *)
Fixpoint settled (t : thread) : Prop :=
  match t with
  | Answered _ => True
  | Statement f _ => forall d, db_users (snd (f d)) = db_users d /\ settled (fst (f d))
  end.

Fixpoint trace (x : chance * request) (t : thread) : Prop :=
  match t with
  | Answered _ => True
  | Statement f g => forall d, match f d with (t', d') =>
      (forall u, In u (db_users d') -> In u (db_users d) \/
         settled t' /\ Asks (snd x) (ur_username u) /\ ur_handle u = ch_handle (fst x)) /\
      (forall e, t' = Answered (ServerError e) -> e = Py EIntegrityError /\ exists n, Asks (snd x) n /\
         ((exists h, In h (db_chals d) /\ hr_request h = ch_challenge (fst x)) \/
          (~ settled (Statement f g) /\
           exists u, In u (db_users d) /\ (ur_username u = n \/ ur_handle u = ch_handle (fst x))))) /\
      trace x t' end
  end.

Section App.
Variable W : World.
Variable E : appenv.
Hypothesis CV : converts E.

Definition quiet (r : reply) : Prop :=
  match r with Reply _ _ => True | _ => False end.
Lemma quiet_conclude f r : raises civil r -> quiet (conclude f (wrap r)).
Proof. intro V. now destruct (conclude_wrap f r V) as [->| ->]. Qed.

(** A statement that leaves users and does not end in an error. *)
Lemma trace_quiet x (d d' : database) f g t' : db_users d' = db_users d ->
  match t' with Answered (ServerError _) => False | _ => True end -> trace x t' ->
  (forall u, In u (db_users d') -> In u (db_users d) \/
     settled t' /\ Asks (snd x) (ur_username u) /\ ur_handle u = ch_handle (fst x)) /\
  (forall e, t' = Answered (ServerError e) -> e = Py EIntegrityError /\ exists n, Asks (snd x) n /\
     ((exists h, In h (db_chals d) /\ hr_request h = ch_challenge (fst x)) \/
      (~ settled (Statement f g) /\
       exists u, In u (db_users d) /\ (ur_username u = n \/ ur_handle u = ch_handle (fst x))))) /\
  trace x t'.
Proof.
  intros U Q T. rewrite U. split; [auto|]. split; [intros e ->; destruct Q|assumption].
Qed.
Lemma quiet_calm r : quiet r -> match Answered r with Answered (ServerError _) => False | _ => True end.
Proof. now destruct r. Qed.

Ltac answered := apply trace_quiet; [reflexivity|first [exact I|apply quiet_calm, quiet_conclude; civil_fin]|exact I].
Ltac more := apply trace_quiet; [reflexivity|exact I|].

Lemma settled_reloads m r : settled (reloads m (reload (Answered r))).
Proof. induction m as [|m IH]; intro d; (split; [reflexivity|]); [exact I|exact IH]. Qed.
Lemma settled_issue c u m o : settled (issue E c u m o).
Proof.
  intro d. cbn [issue]. destruct (insert_chal _ _ _ d) as [[h d']|e] eqn:Q; cbn [fst snd].
  - apply insert_chal_ok in Q as (_ & _ & ->). split; [reflexivity|apply settled_reloads].
  - now split.
Qed.
Lemma trace_reloads x m r : match r with ServerError _ => False | _ => True end ->
  trace x (reloads m (reload (Answered r))).
Proof.
  intro Q. induction m as [|m IH]; intro d; cbn [reload].
  - apply trace_quiet; [reflexivity|exact Q|exact I].
  - apply trace_quiet; [reflexivity|now destruct m|exact IH].
Qed.

Lemma trace_issue x n un m o : Asks (snd x) n -> Built o -> trace x (issue E (fst x) un m (Ok o)).
Proof.
  intros A B d. destruct (insert_chal (ch_challenge (fst x)) (ch_clock (fst x)) un d) as [[h d']|e] eqn:I.
  - apply insert_chal_ok in I as (I1 & I2 & ->).
    split; [intros u; now left|]. split; [now destruct m|].
    destruct (send_options_sent E h o CV B) as [v' ->]. now apply trace_reloads.
  - split; [intros u; now left|]. split; [|exact Logic.I].
    intros e' Q. injection Q as <-. unfold insert_chal in I.
    destruct (existsb _ _) eqn:X; [|discriminate]. injection I as <-. split; [reflexivity|].
    exists n. split; [assumption|]. left. apply existsb_exists in X as (h & X & Y).
    apply bytes_eqb_spec in Y. eauto.
Qed.

Lemma trace_ceremony x i n go : (forall h u, trace x (go h u)) -> (forall h u, match go h u with Answered (ServerError _) => False | _ => True end) ->
  trace x (t_ceremony E (ch_clock (fst x)) i n go).
Proof.
  intros G Q d. destruct (match ap_int E i with Some m => chal_by_id m d | None => None end) as [h|]; [|answered].
  more. intro d'. destruct (user_by_name n d') as [u|]; [|answered].
  destruct (Z.ltb _ _); [answered|]. apply trace_quiet; [reflexivity|apply Q|apply G].
Qed.

Lemma trace_handle x : trace x (handle W E x).
Proof.
  destruct x as [c q]. unfold handle. cbn [fst snd]. destruct q as [[n|]|i k n|[n|]|i k n]; try exact I.
  - assert (A : Asks (snd (c, RegistrationRequest (Some n))) n) by now left.
    intro d. destruct (user_by_name n d) as [u|].
    + more. apply (trace_issue (c, RegistrationRequest (Some n)) n); [assumption|].
      left. eexists _, APP_CCO_BUILDER, (app_user n (ur_handle u)), (ch_challenge c); now split.
    + more. intro d'. destruct (insert_user n (ch_handle c) d') as [[u d'']|e] eqn:IU.
      * apply insert_user_ok in IU as (I1 & I2 & I3 & ->).
        split; [|split; [discriminate|]].
        { intros u' H. cbn in H. apply in_app_or in H as [H|[<-|[]]]; [now left|]. right.
          split; [intro d3; split; [reflexivity|apply settled_issue]|].
          subst u. split; [exact A|reflexivity]. }
        intro d3. more. apply (trace_issue (c, RegistrationRequest (Some n)) n); [assumption|].
        left. eexists _, APP_CCO_BUILDER, (app_user n _), (ch_challenge c); now split.
      * split; [intros u; now left|]. split; [|exact I].
        intros e' QE. injection QE as <-.
        unfold insert_user in IU. destruct (existsb _ _) eqn:X; [|discriminate]. injection IU as <-. split; [reflexivity|].
        exists n. split; [assumption|]. right. split.
        { intro S. specialize (S empty_db). destruct S as [S _]. discriminate. }
        apply existsb_exists in X as (u & X & Y). exists u. split; [assumption|].
        apply orb_prop in Y as [Y|Y]; [left; now apply str_eqb_spec|right; now apply bytes_eqb_spec].
  - unfold t_registration_response. destruct (parse_form W i k n) as [[[i' cr] n']|]; [|exact I].
    destruct (cr_response cr); [|exact I].
    apply (trace_ceremony (c, RegistrationResponse i k n)).
    + intros h u. unfold handle_credential_attestation, handle_credential_attestation_with. fold (attestation_checks W).
      destruct (attestation_checks W _) as [[att [ty path]]|e] eqn:Ec1; cbn [statements]; [|exact I].
      destruct (ao_auth_data att) as [ad|]; [|exact I].
      destruct (ad_attested ad) as [acd|]; [|exact I].
      intro d. destruct (user_by_handle _ d) as [u'|]; [|answered].
      destruct (cose_key (at_key acd)) as [kb|e] eqn:Ec2; [|answered].
      more. intro d'. destruct (insert_cred _ d') as [d''|e] eqn:IC; [|answered].
      apply insert_cred_ok in IC as [_ ->]. answered.
    + intros h u. unfold handle_credential_attestation, handle_credential_attestation_with. fold (attestation_checks W).
      destruct (attestation_checks W _) as [[att [ty path]]|e] eqn:Ec3; cbn [statements]; [|apply quiet_calm, quiet_conclude; civil_fin].
      destruct (ao_auth_data att) as [ad|]; [|apply quiet_calm, quiet_conclude; civil_fin].
      destruct (ad_attested ad) as [acd|]; [exact I|apply quiet_calm, quiet_conclude; civil_fin].
  - assert (A : Asks (snd (c, AuthenticationRequest (Some n))) n) by now right.
    intro d. destruct (user_by_name n d) as [u|]; [|answered].
    more. intro d'. more. apply (trace_issue (c, AuthenticationRequest (Some n)) n); [assumption|].
    right. eexists _, APP_CRO_BUILDER, (ch_challenge c), _; now split.
  - unfold t_authentication_response. destruct (parse_form W i k n) as [[[i' cr] n']|]; [|exact I].
    destruct (cr_response cr); [exact I|].
    apply (trace_ceremony (c, AuthenticationResponse i k n)).
    + intros h' u. unfold handle_credential_assertion.
      destruct (assertion_pre W _) as [os|e] eqn:Ec4; cbn [statements]; [|exact I].
      intro d. destruct (cred_by_id _ d) as [row|]; [|answered].
      destruct (parse_cose_key_bytes W (kr_key row)) as [key|e] eqn:Ec5; [|answered].
      more. intro d'. destruct (user_by_id (kr_user row) d') as [u'|]; [|answered].
      destruct (assertion_checks W _ os _) as [[[ad u''] rp]|e] eqn:Ec6; [|answered].
      cbn [statements]. more. intro d2. destruct (cred_by_id _ d2) as [row'|]; [|answered].
      more. intro d3. answered.
    + intros h' u. unfold handle_credential_assertion.
      destruct (assertion_pre W _) as [os|e] eqn:Ec7; cbn [statements]; [exact I|apply quiet_calm, quiet_conclude; civil_fin].
Qed.

Lemma handle_quiet x r : handle W E x = Answered r -> quiet r.
Proof.
  unfold handle. destruct (snd x) as [[n|]|i k n|[n|]|i k n]; try discriminate; try (now intros [= <-]).
  - unfold t_registration_response. destruct (parse_form W i k n) as [[[i' cr] n']|]; [|now intros [= <-]].
    destruct (cr_response cr); [discriminate|now intros [= <-]].
  - unfold t_authentication_response. destruct (parse_form W i k n) as [[[i' cr] n']|]; [|now intros [= <-]].
    destruct (cr_response cr); [now intros [= <-]|discriminate].
Qed.

Definition Conflict (s : server) (j : nat) (x : chance * request) : Prop :=
  exists j' y, j' <> j /\ (exists t, nth_error (sv_threads s) j' = Some (y, t)) /\
    (exists n n', Asks (snd x) n /\ Asks (snd y) n' /\
     (ch_challenge (fst y) = ch_challenge (fst x) \/ ch_handle (fst y) = ch_handle (fst x) \/ n' = n)).

Record Traced (l : list sv_event) (s : server) : Prop := {
  tr_threads : forall j x t, nth_error (sv_threads s) j = Some (x, t) -> trace x t;
  tr_users : forall u, In u (db_users (sv_db s)) -> exists j y t,
    nth_error (sv_threads s) j = Some (y, t) /\ settled t /\ Asks (snd y) (ur_username u) /\
    ur_handle u = ch_handle (fst y);
  tr_errors : forall j x e, Replied s j x (ServerError e) ->
    e = Py EIntegrityError /\ Conflict s j x \/ e = Py EOperationalError /\ In (Fail j) l;
}.

Lemma traced l : Traced l (Served W E l).
Proof.
  induction l as [|e l IH] using rev_ind.
  { split; cbn; [intros j x t N; now destruct j|contradiction|intros j x e N; now destruct j]. }
  pose proof (inv_served W E l) as A.
  rewrite served_snoc in *. destruct IH as [T1 T2 T4]. destruct e as [y|i|i].
  - split; cbn [happen sv_db sv_threads].
    + intros j x t N. apply nth_snoc in N as [N|[-> N]]; [eauto|]. injection N as -> ->. apply trace_handle.
    + intros u H. apply T2 in H as (j & z & t & N & H). exists j, z, t. split; [now apply nth_grow|exact H].
    + intros j x e N. apply nth_snoc in N as [N|[_ N]].
      * apply T4 in N as [(EE & j' & z & D & (t & N') & H)|[EE F]]; [left|right; split; [exact EE|apply in_or_app; now left]].
        split; [exact EE|]. exists j', z. split; [assumption|].
        split; [exists t; now apply nth_grow|exact H].
      * injection N as -> N. symmetry in N. destruct (handle_quiet _ _ N).
  - destruct (proceed_cases W E (Served W E l) i) as [Q|(x & f & g & t & d & N & F & Q)]; rewrite Q in *.
    { split; [exact T1|exact T2|]. intros j x e R. destruct (T4 j x e R) as [C|[EE C]]; [now left|right].
      split; [exact EE|apply in_or_app; now left]. }
    cbn [sv_db sv_threads] in *.
    pose proof (T1 _ _ _ N) as T. cbn [trace] in T. specialize (T (sv_db (Served W E l))). rewrite F in T.
    destruct T as (U1 & U3 & U4).
    assert (KEEP : forall j z t0, nth_error (sv_threads (Served W E l)) j = Some (z, t0) ->
      exists t1, nth_error (replace (sv_threads (Served W E l)) i (x, t)) j = Some (z, t1) /\ (settled t0 -> settled t1)).
    { intros j z t0 N0. rewrite nth_replace. destruct (Nat.eqb_spec i j) as [<-|J]; [|eauto].
      rewrite N in N0 |- *. injection N0 as <- <-. exists t. split; [reflexivity|].
      intro S. specialize (S (sv_db (Served W E l))). rewrite F in S. apply S. }
    split; cbn [sv_db sv_threads].
    + intros j z t0 N0. rewrite nth_replace in N0. destruct (Nat.eqb_spec i j) as [<-|J]; [|eauto].
      rewrite N in N0. injection N0 as <- <-. exact U4.
    + intros u H. apply U1 in H as [H|(S & H)].
      * apply T2 in H as (j & z & t0 & N0 & S & H). destruct (KEEP _ _ _ N0) as (t1 & N1 & S1).
        exists j, z, t1. split; [assumption|]. split; [auto|exact H].
      * exists i, x, t. split; [rewrite nth_replace, Nat.eqb_refl; now rewrite N|]. auto.
    + intros j z e N0. red in N0. cbn [sv_threads] in N0. rewrite nth_replace in N0.
      assert (C : e = Py EIntegrityError /\ Conflict (Served W E l) j z \/ e = Py EOperationalError /\ In (Fail j) l).
      { destruct (Nat.eqb_spec i j) as [<-|J]; [|eauto].
        rewrite N in N0. injection N0 as <- ->. left.
        destruct (U3 e eq_refl) as (EE & n & AN & [(h & H & RQ)|(NS & u & H & UQ)]); (split; [exact EE|]).
        - destruct (in_chal _ _ _ _ A h H) as (j & y & t0 & n' & R & OW & AY & RQ' & _).
          exists j, y. split; [|split; [eauto|]].
          + intros ->. rewrite N in R. injection R as <- <-. destruct OW as [_ OW].
            specialize (OW (sv_db (Served W E l))). rewrite F in OW. destruct OW as [_ OW].
            apply (owes_answered E h _ CV) in OW as [(v & OW)|OW]; [discriminate|].
            red in OW. congruence.
          + exists n, n'. split; [assumption|]. split; [assumption|]. left. congruence.
        - destruct (T2 u H) as (j & y & t0 & N0 & S0 & AY & HY).
          exists j, y. split; [intros ->; rewrite N in N0; injection N0 as <- <-; contradiction|]. split; [eauto|].
          exists n, (ur_username u). split; [assumption|]. split; [assumption|]. right.
          destruct UQ as [UQ|UQ]; [now right|left; congruence]. }
      destruct C as [(EE & j' & y & D & (t0 & N1) & H)|[EE C]];
        [left; split; [exact EE|]|right; split; [exact EE|apply in_or_app; now left]].
      destruct (KEEP _ _ _ N1) as (t1 & N2 & _).
      exists j', y. split; [assumption|]. split; [eauto|exact H].
  - destruct (fail_cases W E (Served W E l) i) as [Q|(x & f & g & N & Q)]; rewrite Q in *.
    { split; [exact T1|exact T2|]. intros j x e R. destruct (T4 j x e R) as [C|[EE C]]; [now left|right].
      split; [exact EE|apply in_or_app; now left]. }
    cbn [sv_db sv_threads] in *.
    destruct (in_up _ _ _ _ A i x _ N) as ((r & -> & RF) & _).
    assert (KEEP : forall j z t0, nth_error (sv_threads (Served W E l)) j = Some (z, t0) ->
      exists t1, nth_error (replace (sv_threads (Served W E l)) i (x, Answered r)) j = Some (z, t1) /\ (settled t0 -> settled t1)).
    { intros j z t0 N0. rewrite nth_replace. destruct (Nat.eqb_spec i j) as [<-|J]; [|eauto].
      rewrite N in N0 |- *. injection N0 as <- <-. exists (Answered r). split; [reflexivity|]. intros _. exact I. }
    split; cbn [sv_db sv_threads].
    + intros j z t0 N0. rewrite nth_replace in N0. destruct (Nat.eqb_spec i j) as [<-|J]; [|eauto].
      rewrite N in N0. injection N0 as <- <-. exact I.
    + intros u H. apply T2 in H as (j & z & t0 & N0 & S & H). destruct (KEEP _ _ _ N0) as (t1 & N1 & S1).
      exists j, z, t1. split; [assumption|]. split; [auto|exact H].
    + intros j z e N0. red in N0. cbn [sv_threads] in N0. rewrite nth_replace in N0.
      destruct (Nat.eqb_spec i j) as [<-|J].
      * rewrite N in N0. injection N0 as <- ->. right. destruct RF as [RF|RF].
        -- red in RF. injection RF as ->. split; [reflexivity|]. apply in_or_app. right. now left.
        -- destruct (snd x); cbn in RF; try contradiction; discriminate.
      * destruct (T4 _ _ _ N0) as [(EE & j' & y & D & (t0 & N1) & H)|[EE C]];
          [left; split; [exact EE|]|right; split; [exact EE|apply in_or_app; now left]].
        destruct (KEEP _ _ _ N1) as (t1 & N2 & _).
        exists j', y. split; [assumption|]. split; [eauto|exact H].
Qed.

End App.

Section Known.
Variable W : World.
Variable E : appenv.

(** ** Users to whom options were sent, and the rows behind them *)

Fixpoint known (x : chance * request) (t : thread) (d : database) : Prop :=
  match t with
  | Answered r => forall id v, r = Options id v ->
      (exists u, In u (db_users d) /\ Asks (snd x) (ur_username u)) /\
      (exists h, In h (db_chals d) /\ hr_id h = id /\ hr_request h = ch_challenge (fst x) /\
         hr_timestamp h = ch_clock (fst x))
  | Statement f _ => forall d1, Grow d d1 -> match f d1 with (t', d2) => Grow d1 d2 -> known x t' d2 end
  end.

Lemma known_grow x t : forall d d', Grow d d' -> known x t d -> known x t d'.
Proof.
  destruct t as [r|f g]; cbn; intros d d' G S.
  - intros id v Q. destruct (S id v Q) as ((u & U & A) & (h & H & B)). split.
    + exists u. split; [eapply grow_user; eauto|exact A].
    + exists h. split; [eapply grow_chal; eauto|exact B].
  - intros d1 G1. apply S. eapply grow_trans; eauto.
Qed.
Lemma known_answered x r d : (forall id v, r <> Options id v) -> known x (Answered r) d.
Proof. intros N id v Q. now apply N in Q. Qed.

Lemma known_reloads x m t d : known x t d -> known x (reloads m t) d.
Proof.
  intro K. induction m as [|m IH]; [exact K|]. intros d1 G1 _. eapply known_grow; [exact G1|exact IH].
Qed.
Lemma known_issue x u m o d : In u (db_users d) -> Asks (snd x) (ur_username u) ->
  known x (issue E (fst x) (ur_id u) m o) d.
Proof.
  intros U A d1 G1.
  destruct (insert_chal (ch_challenge (fst x)) (ch_clock (fst x)) (ur_id u) d1) as [[h d2]|e] eqn:Q; intros G2;
    [|now apply known_answered].
  apply insert_chal_ok in Q as (_ & -> & ->). apply known_reloads. intros d3 G3 G4 id v Q. split.
  - exists u. split; [|exact A]. eapply grow_user; [|exact U]. eapply grow_trans; [exact G1|]. eapply grow_trans; eauto.
  - eexists. split; [eapply grow_chal; [exact G3|]; cbn; apply in_or_app; right; now left|].
    split; [|split; reflexivity]. unfold send_options in Q. destruct o as [o|]; [|discriminate].
    destruct (jsonify _ _ _ o); [|discriminate]. now injection Q.
Qed.

(** What ends in a verdict sends no options. *)
Fixpoint mute (t : thread) : Prop :=
  match t with
  | Answered r => forall id v, r <> Options id v
  | Statement f _ => forall d, mute (fst (f d))
  end.
Fixpoint mute_known x t : mute t -> forall d, known x t d.
Proof.
  destruct t as [r|f g]; cbn; intros M d; [now apply known_answered|].
  intros d1 _. specialize (M d1). pose proof (mute_known x (fst (f d1)) M) as K.
  destruct (f d1) as [t' d2]. intros _. apply K.
Qed.
Lemma conclude_mute f r id v : conclude f r <> Options id v.
Proof. destruct r as [[]|e]; cbn; [discriminate|]. destruct (is_lib WebAuthnRPError e); discriminate. Qed.
Lemma mute_statements f p : mute (statements W (fun r => conclude f r) p).
Proof.
  induction p as [r|id k IH|c ad u rp k IH|c att ty u rp path k IH]; cbn [statements].
  - intros id v. apply conclude_mute.
  - intro d. destruct (cred_by_id id d) as [row|]; cbn [fst]; [|apply IH].
    destruct (parse_cose_key_bytes W (kr_key row)) as [key|e]; cbn [fst]; [|apply IH].
    intro d'. destruct (user_by_id (kr_user row) d') as [u|]; apply IH.
  - intro d. destruct (cred_by_id (cr_raw_id c) d) as [row|]; cbn [fst]; [|apply IH]. intro d'. apply IH.
  - destruct (ao_auth_data att) as [ad|]; [|apply IH].
    destruct (ad_attested ad) as [acd|]; [|apply IH].
    intro d. destruct (user_by_handle (us_id u) d) as [row|]; cbn [fst]; [|apply IH].
    destruct (cose_key (at_key acd)) as [kb|e]; cbn [fst]; [|apply IH].
    intro d'. destruct (insert_cred _ d') as [d''|e]; apply IH.
Qed.
Lemma mute_ceremony clock i n go : (forall h u, mute (go h u)) -> mute (t_ceremony E clock i n go).
Proof.
  intros G d. destruct (match ap_int E i with Some m => chal_by_id m d | None => None end) as [h|]; cbn [fst]; [|discriminate].
  intro d'. destruct (user_by_name n d') as [u|]; cbn [fst]; [|discriminate].
  destruct (APP_TIMEOUT <? clock - hr_timestamp h)%Z; [discriminate|apply G].
Qed.

Lemma known_handle x d : known x (handle W E x) d.
Proof.
  unfold handle. destruct (snd x) as [[n|]|i k n|[n|]|i k n] eqn:Q; try (now apply known_answered).
  - intros d1 G1. destruct (user_by_name n d1) as [u|] eqn:U.
    + apply user_by_name_in in U as [U <-]. intros _. apply known_issue; [exact U|]. rewrite Q. now left.
    + intros _ d2 G2. destruct (insert_user n (ch_handle (fst x)) d2) as [[u d3]|e] eqn:I; intro G3; [|now apply known_answered].
      apply insert_user_ok in I as (_ & _ & Q1 & ->). intros d4 G4 _. apply known_issue; [eapply grow_user; [exact G4|]; cbn; apply in_or_app; right; now left|].
      rewrite Q. left. now subst u.
  - apply mute_known. unfold t_registration_response. destruct (parse_form W i k n) as [[[i' cr] n']|]; [|discriminate].
    destruct (cr_response cr); [|discriminate]. apply mute_ceremony. intros h u. apply mute_statements.
  - intros d1 G1. destruct (user_by_name n d1) as [u|] eqn:U; intros _; [|now apply known_answered].
    apply user_by_name_in in U as [U <-]. intros d2 G2 _. apply known_issue; [eapply grow_user; eauto|]. rewrite Q. now right.
  - apply mute_known. unfold t_authentication_response. destruct (parse_form W i k n) as [[[i' cr] n']|]; [|discriminate].
    destruct (cr_response cr); [discriminate|]. apply mute_ceremony. intros h u. apply mute_statements.
Qed.

Lemma known_served l j x t : nth_error (sv_threads (Served W E l)) j = Some (x, t) ->
  known x t (sv_db (Served W E l)).
Proof.
  revert j x t. induction l as [|e l IH] using rev_ind; intros j x t N; [now destruct j|].
  pose proof (step_grow W E l e) as G. pose proof (inv_served W E l) as A.
  rewrite served_snoc in *. destruct e as [y|i|i].
  - cbn [happen sv_threads sv_db] in *. apply nth_snoc in N as [N|[_ N]]; [eauto|]. injection N as -> ->. apply known_handle.
  - destruct (proceed_cases W E (Served W E l) i) as [Q|(y & f & g & t' & d & N' & F & Q)]; rewrite Q in *; [eauto|].
    cbn [sv_db sv_threads] in *. rewrite nth_replace in N. destruct (Nat.eqb_spec i j) as [<-|J].
    + rewrite N' in N. injection N as <- <-. specialize (IH _ _ _ N'). cbn [known] in IH.
      specialize (IH _ (grow_refl _)). rewrite F in IH. now apply IH.
    + eapply known_grow; [exact G|eauto].
  - destruct (fail_cases W E (Served W E l) i) as [Q|(y & f & g & N' & Q)]; rewrite Q in *; [eauto|].
    cbn [sv_db sv_threads] in *. rewrite nth_replace in N. destruct (Nat.eqb_spec i j) as [<-|J]; [|eauto].
    rewrite N' in N. injection N as <- <-. destruct (in_up _ _ _ _ A i y _ N') as ((r & -> & RF) & _).
    apply known_answered. intros id v ->. destruct RF as [RF|RF]; [discriminate|].
    destruct (snd y); cbn in RF; try contradiction; discriminate.
Qed.

Lemma options_row l j x id v : Replied (Served W E l) j x (Options id v) ->
  exists h, In h (db_chals (sv_db (Served W E l))) /\ hr_id h = id /\ hr_request h = ch_challenge (fst x) /\
    hr_timestamp h = ch_clock (fst x).
Proof. intro R. now apply (known_served _ _ _ _ R id v). Qed.

End Known.

Lemma c73_challenge (W : World) (E : appenv) (l : list sv_event) (n n' : pystr) (c c' : bytes) (id : N) (t t' : Z) :
  DrawnChallenge (Served W E l) n c id t -> DrawnChallenge (Served W E l) n' c' id t' -> c = c' /\ t = t'.
Proof.
  intros (j & y & th & h & _ & _ & _ & _ & H1 & H2 & <- & <- & _) (j' & y' & th' & h' & _ & _ & _ & _ & H1' & H2' & <- & <- & _).
  assert (h = h') as ->; [|auto].
  eapply (NoDup_map_eq hr_id); [apply (c73_consistent W E l)|assumption|assumption|congruence].
Qed.
Lemma c73_sent (W : World) (E : appenv) (l : list sv_event) (n : pystr) (c : bytes) (id : N) (t : Z) :
  SentChallenge (Served W E l) n c id t -> DrawnChallenge (Served W E l) n c id t.
Proof.
  intros (j & y & v & R & A & <- & <-). destruct (options_row W E l _ _ _ _ R) as (h & H1 & H2 & H3 & H4).
  exists j, y, (Answered (Options id v)), h. repeat (split; [assumption || reflexivity|]).
  intros r Q. injection Q as <-. left. eauto.
Qed.

Lemma c73_failed (W : World) (E : appenv) (l : list sv_event) (j : nat) (x : chance * request) :
  InFlight (Served W E l) j x ->
  exists r, (Broken r \/ FailedReply (snd x) r) /\ Replied (Served W E (l ++ [Fail j])) j x r /\
    sv_db (Served W E (l ++ [Fail j])) = sv_db (Served W E l).
Proof.
  intros (f & g & N). destruct (in_up _ _ _ _ (inv_served W E l) _ _ _ N) as ((r & -> & B) & _).
  exists r. split; [exact B|]. rewrite served_snoc. cbn [happen]. rewrite N. split; [|reflexivity].
  unfold Replied. cbn [sv_threads]. now rewrite nth_replace, Nat.eqb_refl, N.
Qed.

Lemma c75_answers (W : World) (E : appenv) (l : list sv_event) (j : nat) (x : chance * request) (r : reply) :
  converts E -> Replied (Served W E l) j x r -> AnswerOf x r \/ Broken r /\ In (Fail j) l.
Proof.
  intros CV R.
  destruct (served_always W E AnswerOf l j x _ (fun y => always_answer W E y (fun _ _ => CV)) R) as [A|(F & r' & Q & [B|B])].
  - now left.
  - injection Q as <-. now right.
  - injection Q as <-. left. unfold AnswerOf, FailedReply in *. destruct (snd x); try contradiction; right; do 5 right; exact B.
Qed.

Lemma c75_conflict (W : World) (E : appenv) (l : list sv_event) (j : nat) (x : chance * request) (e : exn) :
  converts E -> Replied (Served W E l) j x (ServerError e) ->
  e = Py EIntegrityError /\
  (exists j' y, j' <> j /\ (exists t, nth_error (sv_threads (Served W E l)) j' = Some (y, t)) /\
    (exists n n', Asks (snd x) n /\ Asks (snd y) n' /\
     (ch_challenge (fst y) = ch_challenge (fst x) \/ ch_handle (fst y) = ch_handle (fst x) \/ n' = n))) \/
  e = Py EOperationalError /\ In (Fail j) l.
Proof. intros CV R. exact (tr_errors _ _ (traced W E CV l) _ _ _ R). Qed.

(** ** Counters *)

Lemma c74_increasing (W : World) (E : appenv) (l : list sv_event) (j1 j2 : nat) (y1 y2 : chance * request)
  (i1 n1 i2 n2 : pystr) (cr1 cr2 : credential) (c1 c2 : N) :
  Exclusive W E l -> j1 < j2 ->
  Replied (Served W E l) j1 y1 Success -> Replied (Served W E l) j2 y2 Success ->
  Authenticates W (snd y1) i1 n1 cr1 -> Authenticates W (snd y2) i2 n2 cr2 ->
  cr_raw_id cr1 = cr_raw_id cr2 -> LoginCounter cr1 c1 -> LoginCounter cr2 c2 -> (c1 < c2)%N.
Proof.
  intros X L R1 R2 A1 A2 Q L1 L2. destruct (inv_exclusive W E l X) as [_ C].
  exact (co_pair _ _ C _ _ _ _ _ _ _ _ _ _ _ _ L R1 R2 A1 A2 Q L1 L2).
Qed.
Lemma c74_bound (W : World) (E : appenv) (l : list sv_event) (j : nat) (y : chance * request)
  (i n : pystr) (cr : credential) (c : N) :
  Exclusive W E l -> Replied (Served W E l) j y Success -> Authenticates W (snd y) i n cr ->
  LoginCounter cr c ->
  exists m, stored_count (cr_raw_id cr) (sv_db (Served W E l)) = Some m /\ (Z.of_N c <= m)%Z.
Proof.
  intros X R A L. destruct (inv_exclusive W E l X) as [_ C]. exact (co_stored _ _ C _ _ _ _ _ _ R A L).
Qed.

Lemma undisturbed_by l : forallb (fun e => match e with Fail _ => false | _ => true end) l = true -> Undisturbed l.
Proof. intros F i I. rewrite forallb_forall in F. now apply F in I. Qed.
Lemma ex_decodes : decodes_cbor ex_world 900.
Proof. intros b v rest H. exact H. Qed.
Definition login_cred : credential :=
  match parse_form ex_world (Some (lit "2")) (Some (auth_text (blit "challenge-2") (blit "cred-1") 7)) (Some (lit "alice")) with
  | Some (_, cr, _) => cr
  | None => {| cr_id := []; cr_type := []; cr_raw_id := []; cr_response := AttestationResponse [] [] |}
  end.
Lemma login7_is : Authenticates ex_world (snd login7) (lit "2") (lit "alice") login_cred.
Proof.
  eexists. split; [reflexivity|]. eexists. split; [vm_compute; reflexivity|]. vm_compute. reflexivity.
Qed.

Lemma c74_replay :
  exists W E l j1 j2 x i n cr depth, Undisturbed l /\
    converts E /\ decodes_cbor W depth /\ 2 <= depth /\ j1 <> j2 /\
    Authenticates W (snd x) i n cr /\
    Replied (Served W E l) j1 x Success /\ Replied (Served W E l) j2 x Success.
Proof.
  exists ex_world, ex_env, replay, 3, 4, login7, (lit "2"), (lit "alice"), login_cred, 900.
  split; [apply undisturbed_by; vm_compute; reflexivity|].
  split; [exact ex_converts|]. split; [exact ex_decodes|]. split; [lia|]. split; [lia|].
  split; [exact login7_is|]. split; vm_compute; reflexivity.
Qed.
Lemma c74_counter :
  exists W E l1 l2 id m m' depth, Undisturbed (l1 ++ l2) /\
    converts E /\ decodes_cbor W depth /\ 2 <= depth /\
    stored_count id (sv_db (Served W E l1)) = Some m /\
    stored_count id (sv_db (Served W E (l1 ++ l2))) = Some m' /\ (m' < m)%Z.
Proof.
  exists ex_world, ex_env, overtaken, [Proceed 3], (blit "cred-1"), 8%Z, 7%Z, 900.
  split; [apply undisturbed_by; vm_compute; reflexivity|].
  split; [exact ex_converts|]. split; [exact ex_decodes|]. split; [lia|].
  split; [vm_compute; reflexivity|]. split; [vm_compute; reflexivity|]. lia.
Qed.
Lemma in_flight_by s j x : option_map fst (nth_error (sv_threads s) j) = Some x ->
  match nth_error (sv_threads s) j with Some (_, Statement _ _) => true | _ => false end = true -> InFlight s j x.
Proof.
  intros H1 H2. destruct (nth_error (sv_threads s) j) as [[y [r|f g]]|] eqn:N; try discriminate.
  injection H1 as ->. now exists f, g.
Qed.
Lemma replay_not_exclusive : ~ Exclusive ex_world ex_env replay.
Proof.
  intro X. assert (3 = 4); [|discriminate].
  apply (X (prologue ++ [Arrive login7; Arrive login7]) (turn 5 3 ++ turn 6 4 ++ turn 1 3)) with
    (x1 := login7) (x2 := login7) (i1 := lit "2") (i2 := lit "2") (n1 := lit "alice") (n2 := lit "alice")
    (cr1 := login_cred) (cr2 := login_cred); try exact login7_is;
    [|apply in_flight_by; vm_compute; reflexivity|apply in_flight_by; vm_compute; reflexivity|reflexivity].
  unfold replay. now rewrite <- app_assoc.
Qed.

Lemma c75_new_user :
  exists W E x1 x2 l j, Undisturbed l /\
    converts E /\ ch_handle (fst x1) <> ch_handle (fst x2) /\
    ch_challenge (fst x1) <> ch_challenge (fst x2) /\
    (exists id v, answer W E [] x1 = Options id v) /\ (exists id v, answer W E [x1] x2 = Options id v) /\
    (exists id v, answer W E [] x2 = Options id v) /\ (exists id v, answer W E [x2] x1 = Options id v) /\
    (forall x, In (Arrive x) l -> x = x1 \/ x = x2) /\
    Replied (Served W E l) j x2 (ServerError (Py EIntegrityError)).
Proof.
  exists ex_world, ex_env, (ask_reg "alice" "handle-a" "challenge-1" 1000),
    (ask_reg "alice" "handle-b" "challenge-2" 1000), newcomers, 1.
  split; [apply undisturbed_by; vm_compute; reflexivity|].
  split; [exact ex_converts|]. split; [discriminate|]. split; [discriminate|].
  split; [eexists; eexists; vm_compute; reflexivity|]. split; [eexists; eexists; vm_compute; reflexivity|].
  split; [eexists; eexists; vm_compute; reflexivity|]. split; [eexists; eexists; vm_compute; reflexivity|].
  split; [|vm_compute; reflexivity].
  intros x H. cbn in H. repeat (destruct H as [H|H]; [first [discriminate|injection H as <-; auto]|]). destruct H.
Qed.

Lemma ex_locked :
  InFlight (Served ex_world ex_env (firstn 5 locked)) 0 (ask_reg "alice" "handle-a" "challenge-1" 1000) /\
  Replied (Served ex_world ex_env locked) 0 (ask_reg "alice" "handle-a" "challenge-1" 1000)
    (ServerError (Py EOperationalError)) /\
  DrawnChallenge (Served ex_world ex_env locked) (lit "alice") (blit "challenge-1") 1 1000 /\
  ~ SentChallenge (Served ex_world ex_env locked) (lit "alice") (blit "challenge-1") 1 1000 /\
  Replied (Served ex_world ex_env locked) 1 (do_reg "1" "alice" "challenge-1" "cred-1" 2000)
    (Reply 400 "Could not handle credential attestation") /\
  db_creds (sv_db (Served ex_world ex_env locked)) = [].
Proof.
  split; [apply in_flight_by; vm_compute; reflexivity|]. split; [vm_compute; reflexivity|].
  split; [|split; [|split; vm_compute; reflexivity]].
  - exists 0. do 3 eexists. split; [vm_compute; reflexivity|]. split; [now left|].
    split; [reflexivity|]. split; [reflexivity|]. split; [vm_compute; left; reflexivity|].
    split; [reflexivity|]. split; [reflexivity|]. split; [reflexivity|].
    intros r Q. injection Q as <-. now right.
  - intros (j & y & v & R & _). apply nth_error_In in R.
    assert (F : forallb (fun p => match snd p with Answered (Options _ _) => false | _ => true end)
      (sv_threads (Served ex_world ex_env locked)) = true) by (vm_compute; reflexivity).
    rewrite forallb_forall in F. now apply F in R.
Qed.

(** ** Answers *)

Definition c76_login := login_reply.
Definition c76_registration := registration_reply.
Definition c76_unreadable := unreadable_reply.
Lemma c76_nameless (W : World) (E : appenv) (l : list (chance * request)) (c : chance) (q : request) :
  q = RegistrationRequest None \/ q = AuthenticationRequest None ->
  answer W E l (c, q) = Reply 400 "Bad Request" /\ after W E (l ++ [(c, q)]) = after W E l.
Proof. intros [-> | ->]; rewrite after_snoc; split; reflexivity. Qed.
