(** * AppConcOptions: the options sent while other requests are being handled. *)
From Coq Require Import List NArith ZArith Bool String Lia.
From Verif Require Import Base BaseFacts PyVal Types World Parsers Crypto Backends Jsonify Builders OptionSpec OptionFacts OptionProps
  JsonifyFacts App AppSpec AppFacts AppHistory AppConc AppConcSpec AppConcHonestSpec AppConcFacts AppConcInv AppConcTheorems AppConcHonest.
Import ListNotations.
Local Open Scope res_scope.
Local Open Scope list_scope.

Section Informed.
Variable P : database -> reply -> Prop.
Hypothesis mono : forall d d' r, Grow d d' -> P d r -> P d' r.

(** [P] holds of the answer when it is given, whatever is added in between. *)
Fixpoint informed (t : thread) (d : database) : Prop :=
  match t with
  | Answered r => P d r
  | Statement f _ => forall d1, Consistent d1 -> Grow d d1 -> match f d1 with (t', d2) => Grow d1 d2 -> informed t' d2 end
  end.
Lemma informed_grow t d d' : Grow d d' -> informed t d -> informed t d'.
Proof.
  destruct t as [r|f g]; cbn; intros G S; [now apply (mono d)|].
  intros d1 C G1. apply S; [exact C|]. eapply grow_trans; eauto.
Qed.
Fixpoint informed_always t : always (fun r => forall d, P d r) t -> forall d, informed t d.
Proof.
  destruct t as [r|f g]; cbn; intros A d; [apply A|]. intros d1 _ _. specialize (A d1).
  pose proof (informed_always (fst (f d1)) A) as K. destruct (f d1) as [t' d2]. intros _. apply K.
Qed.
Lemma informed_reloads m t d : informed t d -> informed (reloads m t) d.
Proof.
  intro K. induction m as [|m IH]; [exact K|]. intros d1 _ G1 _. eapply informed_grow; [exact G1|exact IH].
Qed.
Lemma informed_issue E c u m o d : (forall d' e, P d' (ServerError e)) ->
  (forall h d', Grow d d' -> P d' (send_options E h o)) -> informed (issue E c u m o) d.
Proof.
  intros HE H d1 _ G1. destruct (insert_chal _ _ _ d1) as [[h d2]|e]; intro G2; [|apply HE].
  apply informed_reloads. intros d3 _ G3 _. cbn. apply H. eapply grow_trans; [exact G1|]. eapply grow_trans; eauto.
Qed.
End Informed.

Section App.
Variable W : World.
Variable E : appenv.

Lemma informed_served (P : database -> chance * request -> database -> reply -> Prop) :
  (forall d0 x d d' r, Grow d d' -> P d0 x d r -> P d0 x d' r) ->
  (forall d0 x, informed (P d0 x) (handle W E x) d0) ->
  (forall d0 x d r, Broken r \/ FailedReply (snd x) r -> P d0 x d r) ->
  forall l j x t, nth_error (sv_threads (Served W E l)) j = Some (x, t) ->
  exists l1 l2, l = l1 ++ Arrive x :: l2 /\ j = next (Served W E l1) /\
    informed (P (sv_db (Served W E l1)) x) t (sv_db (Served W E l)).
Proof.
  intros MO HA FA l. induction l as [|e l IH] using rev_ind; intros j x t N; [now destruct j|].
  pose proof (step_grow W E l e) as G. pose proof (inv_served W E l) as A.
  assert (OLD : nth_error (sv_threads (Served W E l)) j = Some (x, t) ->
    exists l1 l2, l ++ [e] = l1 ++ Arrive x :: l2 /\ j = next (Served W E l1) /\
    informed (P (sv_db (Served W E l1)) x) t (sv_db (Served W E (l ++ [e])))).
  { intro N'. destruct (IH _ _ _ N') as (l1 & l2 & -> & Q & H). exists l1, (l2 ++ [e]).
    split; [now rewrite <- app_assoc|]. split; [exact Q|]. eapply informed_grow; [apply MO|exact G|exact H]. }
  rewrite served_snoc in *. destruct e as [y|i|i].
  - cbn [happen sv_threads sv_db] in *. apply nth_snoc in N as [N|[-> N]]; [now apply OLD|]. injection N as -> ->.
    exists l, []. split; [reflexivity|]. split; [reflexivity|]. apply HA.
  - destruct (proceed_cases W E (Served W E l) i) as [Q|(y & f & g & t' & d & N' & F & Q)]; rewrite Q in *; [now apply OLD|].
    cbn [sv_db sv_threads] in *. rewrite nth_replace in N. destruct (Nat.eqb_spec i j) as [<-|J]; [|now apply OLD].
    rewrite N' in N. injection N as <- <-. destruct (IH _ _ _ N') as (l1 & l2 & -> & Q' & H). exists l1, (l2 ++ [Proceed i]).
    split; [now rewrite <- app_assoc|]. split; [exact Q'|]. cbn [informed] in H.
    specialize (H _ (in_con _ _ _ _ A) (grow_refl _)). rewrite F in H. now apply H.
  - destruct (fail_cases W E (Served W E l) i) as [Q|(y & f & g & N' & Q)]; rewrite Q in *; [now apply OLD|].
    cbn [sv_db sv_threads] in *. rewrite nth_replace in N. destruct (Nat.eqb_spec i j) as [<-|J]; [|now apply OLD].
    rewrite N' in N. injection N as <- <-. destruct (in_up _ _ _ _ A i y _ N') as ((r & -> & RF) & _).
    destruct (IH _ _ _ N') as (l1 & l2 & -> & Q' & _). exists l1, (l2 ++ [Fail i]).
    split; [now rewrite <- app_assoc|]. split; [exact Q'|]. now apply FA.
Qed.

(** What the options are made of; [d0] is the data base when the request came. *)
Definition told (d0 : database) (x : chance * request) (d : database) (r : reply) : Prop :=
  forall id v, r = Options id v ->
  (forall n, snd x = RegistrationRequest (Some n) -> exists u o,
     In u (db_users d) /\ ur_username u = n /\
     creation_build APP_CCO_BUILDER (app_user n (ur_handle u)) (ch_challenge (fst x)) = Ok o /\
     jsonify (ap_unicode E) (ap_depth E) true (obj_of_creation o) = Ok v) /\
  (forall n, snd x = AuthenticationRequest (Some n) -> exists u ids o,
     In u (db_users d) /\ ur_username u = n /\ NoDup ids /\
     (forall i, In i ids -> exists row, In row (db_creds d) /\ kr_id row = i /\ kr_user row = ur_id u) /\
     (forall row, In row (db_creds d0) -> kr_user row = ur_id u -> In (kr_id row) ids) /\
     request_build APP_CRO_BUILDER (ch_challenge (fst x))
       (Some (map (fun i => {| de_id := i; de_transports := None |}) ids)) = Ok o /\
     jsonify (ap_unicode E) (ap_depth E) true (obj_of_request o) = Ok v).
Lemma told_grow d0 x d d' r : Grow d d' -> told d0 x d r -> told d0 x d' r.
Proof.
  intros G H id v Q. destruct (H id v Q) as [H1 H2]. split.
  - intros n K. destruct (H1 n K) as (u & o & U & R). exists u, o. split; [eapply grow_user; eauto|exact R].
  - intros n K. destruct (H2 n K) as (u & ids & o & U & UN & ND & IN & R). exists u, ids, o.
    split; [eapply grow_user; eauto|]. split; [exact UN|]. split; [exact ND|]. split; [|exact R].
    intros i I. destruct (IN i I) as (row & R1 & R2 & R3). destruct (gr_creds _ _ G row R1) as (row' & I' & S1 & S2 & S3).
    exists row'. split; [exact I'|]. split; congruence.
Qed.
Lemma told_none d0 x d r : (forall id v, r <> Options id v) -> told d0 x d r.
Proof. intros H id v Q. now apply H in Q. Qed.
Fixpoint mute_always (P : reply -> Prop) (H : forall r, (forall id v, r <> Options id v) -> P r) t : mute t -> always P t.
Proof.
  destruct t as [r|f g]; cbn; intro M; [now apply H|]. intro d. apply (mute_always P H (fst (f d))), M.
Qed.

Lemma told_handle d0 x : informed (told d0 x) (handle W E x) d0.
Proof.
  assert (MT : forall t, mute t -> informed (told d0 x) t d0).
  { intros t M. apply informed_always. apply mute_always; [|exact M]. intros r H d. now apply told_none. }
  unfold handle. destruct (snd x) as [[n|]|i k n|[n|]|i k n] eqn:Q; try (apply told_none; discriminate).
  - assert (GO : forall u d, In u (db_users d) -> ur_username u = n ->
      informed (told d0 x) (issue E (fst x) (ur_id u) 0
        (o <- creation_build APP_CCO_BUILDER (app_user n (ur_handle u)) (ch_challenge (fst x)) ;; Ok (obj_of_creation o))) d).
    { intros u d U UN. apply informed_issue; [apply told_grow|intros d' e; now apply told_none|].
      intros h d' G id v S. split; [|intros m K; rewrite Q in K; discriminate K].
      intros m K. rewrite Q in K. injection K as <-.
      destruct (creation_build APP_CCO_BUILDER (app_user n (ur_handle u)) (ch_challenge (fst x))) as [o|e] eqn:CB; [|discriminate S].
      cbn [bind send_options] in S. exists u, o. split; [eapply grow_user; eauto|]. split; [exact UN|]. split; [exact CB|].
      destruct (jsonify _ _ _ _) as [w|e]; [|discriminate S]. now injection S as _ ->. }
    intros d1 _ G1. destruct (user_by_name n d1) as [u|] eqn:U.
    + apply user_by_name_in in U as [U UN]. intros _. now apply GO.
    + intros _ d2 _ G2. destruct (insert_user n (ch_handle (fst x)) d2) as [[u d3]|e] eqn:I; intro G3; [|now apply told_none].
      apply insert_user_ok in I as (_ & _ & Q1 & ->). intros d4 _ G4 _. apply GO; [|now subst u].
      eapply grow_user; [exact G4|]. cbn. apply in_or_app. right. now left.
  - apply MT. unfold t_registration_response. destruct (parse_form W i k n) as [[[i' cr] n']|]; [|discriminate].
    destruct (cr_response cr); [|discriminate]. apply mute_ceremony. intros h u. apply mute_statements.
  - intros d1 _ G1. destruct (user_by_name n d1) as [u|] eqn:U; intros _; [|now apply told_none].
    apply user_by_name_in in U as [U UN]. intros d2 C2 G2 _.
    set (creds := filter (fun k => N.eqb (kr_user k) (ur_id u)) (db_creds d2)).
    apply informed_issue; [apply told_grow|intros d' e; now apply told_none|].
    intros h d' G id v S. split; [intros m K; rewrite Q in K; discriminate K|].
    intros m K. rewrite Q in K. injection K as <-.
    replace (map (fun k => {| de_id := kr_id k; de_transports := None |}) creds) with
      (map (fun i => {| de_id := i; de_transports := None |}) (map kr_id creds)) in S by (rewrite map_map; reflexivity).
    destruct (request_build APP_CRO_BUILDER (ch_challenge (fst x)) _) as [o|e] eqn:CB; [|discriminate S].
    cbn [bind send_options] in S. exists u, (map kr_id creds), o.
    split; [eapply grow_user; [|exact U]; eapply grow_trans; eauto|]. split; [exact UN|]. split.
    { pose proof (con_cred_id _ C2) as ND. subst creds. clear -ND. induction (db_creds d2) as [|c cs IH]; [constructor|].
      cbn [map filter] in *. inversion ND as [|a b N1 N2]; subst. destruct (N.eqb (kr_user c) (ur_id u)); [|now apply IH].
      cbn [map]. constructor; [|now apply IH]. intro I. apply N1. apply in_map_iff in I as (c' & <- & I).
      apply filter_In in I as [I _]. now apply in_map. }
    split.
    { intros i I. apply in_map_iff in I as (c & <- & I). apply filter_In in I as [I EQ]. apply N.eqb_eq in EQ.
      destruct (gr_creds _ _ G c I) as (c' & I' & S1 & S2 & S3). exists c'. split; [exact I'|]. split; congruence. }
    split.
    { intros row I EQ. destruct (gr_creds _ _ (grow_trans _ _ _ G1 G2) row I) as (c' & I' & S1 & S2 & S3).
      rewrite <- S1. apply in_map. apply filter_In. split; [exact I'|]. apply N.eqb_eq. congruence. }
    split; [exact CB|]. destruct (jsonify _ _ _ _) as [w|e]; [|discriminate S]. now injection S as _ ->.
  - apply MT. unfold t_authentication_response. destruct (parse_form W i k n) as [[[i' cr] n']|]; [|discriminate].
    destruct (cr_response cr); [discriminate|]. apply mute_ceremony. intros h u. apply mute_statements.
Qed.
Lemma told_served l j x r : Replied (Served W E l) j x r ->
  exists l1 l2, l = l1 ++ Arrive x :: l2 /\ j = next (Served W E l1) /\
    told (sv_db (Served W E l1)) x (sv_db (Served W E l)) r.
Proof.
  intro R. apply (informed_served told) in R; [exact R|exact told_grow|exact told_handle|].
  intros d0 y d r' [H|H]; apply told_none; intros id v ->; [discriminate H|].
  unfold FailedReply in H. destruct (snd y); try contradiction; discriminate H.
Qed.

(** Requests arrive at their numbers. *)
Lemma next_more l1 l2 : next (Served W E l1) <= next (Served W E (l1 ++ l2)).
Proof.
  induction l2 as [|e l2 IH] using rev_ind; [rewrite app_nil_r; lia|]. rewrite app_assoc, served_snoc.
  etransitivity; [exact IH|]. unfold next. destruct e as [y|i|i].
  - cbn. rewrite app_length. lia.
  - destruct (proceed_cases W E (Served W E (l1 ++ l2)) i) as [->|(y & f & g & t' & d & N' & F & ->)]; [lia|].
    cbn. generalize (sv_threads (Served W E (l1 ++ l2))) i (y, t'). induction l as [|a l IHl]; intros [|m] b; cbn; auto.
    specialize (IHl m b). lia.
  - destruct (fail_cases W E (Served W E (l1 ++ l2)) i) as [->|(y & f & g & N' & ->)]; [lia|].
    cbn. generalize (sv_threads (Served W E (l1 ++ l2))) i (y, g). induction l as [|a l IHl]; intros [|m] b; cbn; auto.
    specialize (IHl m b). lia.
Qed.
Lemma next_arrive l1 x l2 : next (Served W E l1) < next (Served W E (l1 ++ Arrive x :: l2)).
Proof.
  rewrite arrived. eapply Nat.lt_le_trans; [|apply next_more]. rewrite served_snoc. unfold next. cbn. rewrite app_length. cbn. lia.
Qed.
Lemma arrival_unique l1 x l2 l1' x' l2' : l1 ++ Arrive x :: l2 = l1' ++ Arrive x' :: l2' ->
  next (Served W E l1) = next (Served W E l1') -> l1 = l1'.
Proof.
  intros H K. apply app_eq_app in H as (m & [[-> H]|[-> H]]); destruct m as [|e m].
  - now rewrite app_nil_r.
  - injection H as <- _. pose proof (next_arrive l1' x' m). lia.
  - now rewrite app_nil_r.
  - injection H as <- _. pose proof (next_arrive l1 x m). lia.
Qed.

(** The user of a row is known by name. *)
Lemma row_accepted l u row : In u (db_users (sv_db (Served W E l))) -> In row (db_creds (sv_db (Served W E l))) ->
  kr_user row = ur_id u -> exists k, AcceptedKey W (Served W E l) (ur_username u) (kr_id row) k.
Proof.
  intros U R Q. pose proof (inv_served W E l) as A.
  destruct (in_cred _ _ _ _ A row R) as (j0 & y & i0 & n1 & cr0 & u0 & k0 & R0 & G0 & Q1 & Q2 & Q3 & Q4 & AK & KB).
  assert (u0 = u) as ->.
  { eapply (NoDup_map_eq ur_id); [apply (in_con _ _ _ _ A)|assumption|assumption|congruence]. }
  exists k0, j0, y, i0, cr0. rewrite Q3. auto.
Qed.

Lemma c96_creation l j c n id v : converts E -> Replied (Served W E l) j (c, RegistrationRequest (Some n)) (Options id v) ->
  exists handle, HasHandle (Served W E l) n handle /\ PureJson v /\
    JCreation {| co_rp := {| rp_name := lit "localhost"; rp_icon := None; rp_id := lit "localhost" |};
                 co_user := {| us_name := n; us_icon := None; us_id := handle; us_display_name := n |};
                 co_challenge := ch_challenge c; co_pub_key_cred_params := [(FValue, ES256)];
                 co_timeout := Some 60000%Z; co_exclude_credentials := None;
                 co_authenticator_selection := None; co_attestation := AC_NONE;
                 co_extensions := None |} v.
Proof.
  intros [U D] R. destruct (told_served _ _ _ _ R) as (l1 & l2 & _ & _ & T).
  destruct (proj1 (T id v eq_refl) n eq_refl) as (u & o & I & UN & CB & JS).
  destruct (c48_creation _ _ _ _ _ _ U D CB) as (w & J1 & J2 & J3 & _). rewrite J1 in JS. injection JS as ->.
  exists (ur_handle u). split; [exists u; auto|]. split; [exact J3|]. injection CB as <-. exact J2.
Qed.
Lemma c96_request l1 c n l2 id v : converts E ->
  let l := l1 ++ Arrive (c, AuthenticationRequest (Some n)) :: l2 in
  Replied (Served W E l) (next (Served W E l1)) (c, AuthenticationRequest (Some n)) (Options id v) ->
  exists ids, PureJson v /\
    JRequest {| ro_mediation := MD_OPTIONAL; ro_challenge := ch_challenge c;
                ro_timeout := Some 60000%Z; ro_rp_id := Some (lit "localhost");
                ro_allow_credentials := Some (map (fun i => {| de_id := i; de_transports := None |}) ids);
                ro_user_verification := Some UV_PREFERRED; ro_extensions := None |} v /\
    NoDup ids /\ (forall i, In i ids -> exists k, AcceptedKey W (Served W E l) n i k) /\
    (forall i k, AcceptedKey W (Served W E l1) n i k -> In i ids).
Proof.
  intros [U D] l R. destruct (told_served _ _ _ _ R) as (l1' & l2' & Q & QN & T).
  assert (l1' = l1) as -> by (symmetry; eapply arrival_unique; [exact Q|exact QN]).
  destruct (proj2 (T id v eq_refl) n eq_refl) as (u & ids & o & I & UN & ND & IN & AL & CB & JS).
  destruct (c48_request _ _ _ _ _ _ U D CB) as (w & J1 & J2 & J3 & _). rewrite J1 in JS. injection JS as ->.
  exists ids. split; [exact J3|]. split; [injection CB as <-; exact J2|]. split; [exact ND|]. split.
  - intros i HI. destruct (IN i HI) as (row & R1 & <- & R3). rewrite <- UN. now apply row_accepted.
  - intros i k AK. destruct AK as (j & y & i0 & cr & R0 & RG & <- & AK).
    pose proof (inv_served W E l1) as A. destruct (in_safe _ _ _ _ A j y _ R0 eq_refl) as [S _].
    destruct (S i0 n cr RG) as (h & u' & att & ad & acd & k' & row & _ & _ & _ & U' & UN' & RS & H1 & H2 & H3 & I' & Q1 & Q2 & Q3).
    rewrite <- Q1. apply AL; [exact I'|]. rewrite Q2. f_equal.
    eapply (NoDup_map_eq ur_username); [apply (in_con _ _ _ _ (inv_served W E l))| |exact I|congruence].
    eapply grow_user; [apply served_grow|exact U'].
Qed.
End App.
