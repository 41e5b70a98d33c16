(** * AppConcInv: invariants of the server under all interleavings. *)
From Coq Require Import List NArith ZArith Bool String Lia.
From Verif Require Import Base PyVal B64 Utf8 Url CaseConv Cbor CborFacts Types World Parsers Crypto
  Backends Spec Jsonify Builders OptionSpec BaseFacts AuthFacts RaiseFacts BackendFacts KeyFacts
  App AppSpec AppFacts AppHistory AppAccept AppConc AppConcSpec AppConcFacts.
Import ListNotations.
Local Open Scope list_scope.

Lemma nth_replace {A} (l : list A) i j a : nth_error (replace l i a) j =
  if Nat.eqb i j then match nth_error l i with Some _ => Some a | None => None end
  else nth_error l j.
Proof.
  revert i j. induction l as [|y l IH]; intros i j.
  - destruct i, j; cbn; try reflexivity. now destruct (Nat.eqb i j).
  - destruct i, j; cbn; try reflexivity. apply IH.
Qed.
Lemma nth_snoc {A} (l : list A) a j b : nth_error (l ++ [a]) j = Some b ->
  nth_error l j = Some b \/ j = List.length l /\ b = a.
Proof.
  intro H. destruct (Nat.lt_ge_cases j (List.length l)) as [L|L].
  - left. now rewrite nth_error_app1 in H.
  - rewrite nth_error_app2 in H by assumption. right.
    destruct (j - List.length l) as [|m] eqn:D; [|destruct m; discriminate].
    cbn in H. injection H as <-. split; [lia|reflexivity].
Qed.
Lemma nth_grow {A} (l : list A) a j b : nth_error l j = Some b -> nth_error (l ++ [a]) j = Some b.
Proof. intro H. rewrite nth_error_app1; [assumption|]. apply nth_error_Some. congruence. Qed.

Section App.
Variable W : World.
Variable E : appenv.

Lemma happen_all_app s l1 l2 : happen_all W E s (l1 ++ l2) = happen_all W E (happen_all W E s l1) l2.
Proof. apply fold_left_app. Qed.
Lemma served_snoc l e : Served W E (l ++ [e]) = happen W E (Served W E l) e.
Proof. unfold Served. now rewrite happen_all_app. Qed.

(** What a step does to the threads. *)
Lemma proceed_cases s i :
  happen W E s (Proceed i) = s \/
  exists x f g t d, nth_error (sv_threads s) i = Some (x, Statement f g) /\ f (sv_db s) = (t, d) /\
    happen W E s (Proceed i) = {| sv_db := d; sv_threads := replace (sv_threads s) i (x, t) |}.
Proof.
  cbn [happen]. destruct (nth_error (sv_threads s) i) as [[x [r|f g]]|] eqn:N; auto.
  right. destruct (f (sv_db s)) as [t d] eqn:F. exists x, f, g, t, d. auto.
Qed.
Lemma fail_cases s i :
  happen W E s (Fail i) = s \/
  exists x f g, nth_error (sv_threads s) i = Some (x, Statement f g) /\
    happen W E s (Fail i) = {| sv_db := sv_db s; sv_threads := replace (sv_threads s) i (x, g) |}.
Proof.
  cbn [happen]. destruct (nth_error (sv_threads s) i) as [[x [r|f g]]|] eqn:N; auto.
  right. exists x, f, g. auto.
Qed.

(** ** Failures *)

(** Whichever statement fails, the handler ends with a refusal. *)
Fixpoint gives_up (x : chance * request) (t : thread) : Prop :=
  match t with
  | Answered _ => True
  | Statement f g => (exists r, g = Answered r /\ (Broken r \/ FailedReply (snd x) r)) /\
      forall d, gives_up x (fst (f d))
  end.
Lemma up_broken x f : (forall d, gives_up x (fst (f d))) -> gives_up x (Statement f broken).
Proof. intro H. split; [|exact H]. eexists. split; [reflexivity|]. now left. Qed.
Lemma up_reloads x m r : gives_up x (reloads m (reload (Answered r))).
Proof.
  induction m as [|m IH]; apply up_broken; intro d; [exact I|exact IH].
Qed.
Lemma up_issue x c u m o : gives_up x (issue E c u m o).
Proof. apply up_broken. intro d. destruct (insert_chal _ _ _ d) as [[h d']|e]; [apply up_reloads|exact I]. Qed.
Lemma up_ceremony x clock i n go : (forall h u, gives_up x (go h u)) -> gives_up x (t_ceremony E clock i n go).
Proof.
  intro G. apply up_broken. intro d.
  destruct (match ap_int E i with Some m => chal_by_id m d | None => None end) as [h|]; [|exact I].
  apply up_broken. intro d'. destruct (user_by_name n d') as [u|]; [|exact I].
  cbn [fst]. destruct (Z.ltb _ _); [exact I|apply G].
Qed.
Lemma conclude_raised f e : is_Exception e = true -> conclude f (wrap (Raise e)) = Reply 400 f.
Proof.
  intro V. unfold wrap. destruct (is_lib WebAuthnRPError e) eqn:L; cbn; [now rewrite L|]. now rewrite V.
Qed.
Lemma refusal_exception e : is_Exception e = true -> is_Exception (refusal W e) = true.
Proof. unfold refusal. intro H. rewrite H. now destruct (shows_exn W e). Qed.

Lemma up_handle x : gives_up x (handle W E x).
Proof.
  unfold handle. destruct (snd x) as [[n|]|i k n|[n|]|i k n] eqn:Q; try exact I.
  - apply up_broken. intro d. destruct (user_by_name n d) as [u|]; [apply up_issue|].
    apply up_broken. intro d'. destruct (insert_user n _ d') as [[u d'']|e]; [|exact I].
    apply up_broken. intro d3. apply up_issue.
  - unfold t_registration_response. destruct (parse_form W i k n) as [[[i' cr] n']|]; [|exact I].
    destruct (cr_response cr); [|exact I]. apply up_ceremony. intros h u.
    unfold handle_credential_attestation, handle_credential_attestation_with. fold (attestation_checks W).
    destruct (attestation_checks W _) as [[att [ty path]]|e]; cbn [statements]; [|exact I].
    destruct (ao_auth_data att) as [ad|]; [|exact I].
    destruct (ad_attested ad) as [acd|]; [|exact I].
    assert (G : exists r, Answered (conclude "Could not handle credential attestation"
        (wrap (Raise (refusal W (Py EOperationalError))))) = Answered r /\ (Broken r \/ FailedReply (snd x) r)).
    { eexists. split; [reflexivity|]. right. rewrite Q. apply conclude_raised, refusal_exception. reflexivity. }
    split; [exact G|].
    intro d. destruct (user_by_handle _ d) as [u'|]; [|exact I].
    destruct (cose_key (at_key acd)) as [kb|e]; [|exact I].
    split; [exact G|].
    intro d'. destruct (insert_cred _ d') as [d''|e]; exact I.
  - apply up_broken. intro d. destruct (user_by_name n d) as [u|]; [|exact I].
    apply up_broken. intro d'. apply up_issue.
  - unfold t_authentication_response. destruct (parse_form W i k n) as [[[i' cr] n']|]; [|exact I].
    destruct (cr_response cr); [exact I|]. apply up_ceremony. intros h' u.
    unfold handle_credential_assertion.
    destruct (assertion_pre W _) as [os|e]; cbn [statements]; [|exact I].
    split; [eexists; split; [reflexivity|]; right; rewrite Q; apply conclude_raised, refusal_exception; reflexivity|].
    intro d. destruct (cred_by_id _ d) as [row|]; [|exact I].
    destruct (parse_cose_key_bytes W (kr_key row)) as [key|e]; [|exact I].
    split; [eexists; split; [reflexivity|]; right; rewrite Q; apply conclude_raised, refusal_exception; reflexivity|].
    intro d'. destruct (user_by_id (kr_user row) d') as [u'|]; [|exact I].
    destruct (assertion_checks W _ os _) as [[[ad u''] rp]|e]; cbn [statements]; [|exact I].
    split; [eexists; split; [reflexivity|]; right; rewrite Q; apply conclude_raised, refusal_exception; reflexivity|].
    intro d2. destruct (cred_by_id _ d2) as [row'|]; [|exact I].
    split; [eexists; split; [reflexivity|]; right; rewrite Q; apply conclude_raised, refusal_exception; reflexivity|].
    intro d3. exact I.
Qed.
Lemma refused_not (x : chance * request) r : Broken r \/ FailedReply (snd x) r -> r <> Success.
Proof. intros [->|F]; [discriminate|]. destruct (snd x); cbn in F; try contradiction; rewrite F; discriminate. Qed.

Lemma handle_not_success x : handle W E x <> Answered Success.
Proof.
  unfold handle. destruct (snd x) as [[n|]|i k n|[n|]|i k n]; try discriminate.
  - unfold t_registration_response. destruct (parse_form W i k n) as [[[i' cr] n']|]; [|discriminate].
    now destruct (cr_response cr).
  - unfold t_authentication_response. destruct (parse_form W i k n) as [[[i' cr] n']|]; [|discriminate].
    now destruct (cr_response cr).
Qed.

Definition CredFrom (s : server) (c : cred_row) : Prop :=
  exists j y i n cr u k, Replied s j y Success /\ Registers W (snd y) i n cr /\ kr_id c = cr_raw_id cr /\
    In u (db_users (sv_db s)) /\ ur_username u = n /\ kr_user c = ur_id u /\
    AttestedKey W cr k /\ cose_key (Some k) = Ok (kr_key c).
Definition ChalFrom (s : server) (h : chal_row) : Prop :=
  exists j y t n, nth_error (sv_threads s) j = Some (y, t) /\ owes E h t /\ Asks (snd y) n /\
    hr_request h = ch_challenge (fst y) /\ hr_timestamp h = ch_clock (fst y).

Section Inv.
Variable ex : Prop.

Record Inv (s : server) : Prop := {
  in_con : Consistent (sv_db s);
  in_safe : forall j y t, nth_error (sv_threads s) j = Some (y, t) -> safe W E ex y t (sv_db s);
  in_up : forall j y t, nth_error (sv_threads s) j = Some (y, t) -> gives_up y t;
  in_cred : forall c, In c (db_creds (sv_db s)) -> CredFrom s c;
  in_chal : forall h, In h (db_chals (sv_db s)) -> ChalFrom s h;
  in_once : forall j1 j2 y1 y2 i1 n1 cr1 i2 n2 cr2,
    Replied s j1 y1 Success -> Replied s j2 y2 Success ->
    Registers W (snd y1) i1 n1 cr1 -> Registers W (snd y2) i2 n2 cr2 ->
    cr_raw_id cr1 = cr_raw_id cr2 -> j1 = j2;
}.

(** One more property of pairs of logins, when logins with one credential exclude each other. *)
Record Counters (s : server) : Prop := {
  co_order : forall j1 j2 y1 y2 i1 n1 cr1 i2 n2 cr2, j1 < j2 ->
    InFlight s j1 y1 -> Authenticates W (snd y1) i1 n1 cr1 -> Authenticates W (snd y2) i2 n2 cr2 ->
    cr_raw_id cr1 = cr_raw_id cr2 -> ~ Replied s j2 y2 Success;
  co_stored : forall j y i n cr c, Replied s j y Success -> Authenticates W (snd y) i n cr ->
    LoginCounter cr c -> exists m, stored_count (cr_raw_id cr) (sv_db s) = Some m /\ (Z.of_N c <= m)%Z;
  co_pair : forall j1 j2 y1 y2 i1 n1 cr1 c1 i2 n2 cr2 c2, j1 < j2 ->
    Replied s j1 y1 Success -> Replied s j2 y2 Success ->
    Authenticates W (snd y1) i1 n1 cr1 -> Authenticates W (snd y2) i2 n2 cr2 ->
    cr_raw_id cr1 = cr_raw_id cr2 -> LoginCounter cr1 c1 -> LoginCounter cr2 c2 -> (c1 < c2)%N;
}.

(** Logins with one credential exclude each other now. *)
Definition ExclusiveNow (s : server) : Prop :=
  forall j1 j2 x1 x2 i1 i2 n1 n2 cr1 cr2,
    InFlight s j1 x1 -> InFlight s j2 x2 ->
    Authenticates W (snd x1) i1 n1 cr1 -> Authenticates W (snd x2) i2 n2 cr2 ->
    cr_raw_id cr1 = cr_raw_id cr2 -> j1 = j2.

Lemma inv_new : Inv new_server.
Proof.
  split; cbn.
  - apply consistent_empty.
  - intros j y t H. now destruct j.
  - intros j y t H. now destruct j.
  - contradiction.
  - contradiction.
  - intros j1 j2 y1 y2 i1 n1 cr1 i2 n2 cr2 R. now destruct j1.
Qed.

Lemma inv_arrive s x : Inv s -> Inv (happen W E s (Arrive x)).
Proof.
  intros [A1 A2 A0 A3 A4 A5]. split; cbn [happen sv_db sv_threads].
  - assumption.
  - intros j y t H. apply nth_snoc in H as [H|[-> H]]; [eauto|]. injection H as -> ->. apply safe_handle.
  - intros j y t H. apply nth_snoc in H as [H|[-> H]]; [eauto|]. injection H as -> ->. apply up_handle.
  - intros c H. apply A3 in H as (j & y & i & n & cr & u & k & R & H).
    exists j, y, i, n, cr, u, k. split; [now apply nth_grow|]. exact H.
  - intros h H. apply A4 in H as (j & y & t & n & R & H).
    exists j, y, t, n. split; [now apply nth_grow|]. exact H.
  - intros j1 j2 y1 y2 i1 n1 cr1 i2 n2 cr2 R1 R2.
    apply nth_snoc in R1 as [R1|[_ R1]]; [|injection R1 as _ R1; symmetry in R1; now apply handle_not_success in R1].
    apply nth_snoc in R2 as [R2|[_ R2]]; [|injection R2 as _ R2; symmetry in R2; now apply handle_not_success in R2].
    eauto.
Qed.

(** Answers are not taken back. *)
Lemma replied_later s e j y r : Replied s j y r -> Replied (happen W E s e) j y r.
Proof.
  intro R. destruct e as [x|i|i]; [now apply nth_grow| |].
  - destruct (proceed_cases s i) as [->|(x & f & g & t & d & N & F & ->)]; [assumption|].
    red. cbn [sv_threads]. rewrite nth_replace. destruct (Nat.eqb_spec i j) as [->|_]; [|exact R].
    red in R. congruence.
  - destruct (fail_cases s i) as [->|(x & f & g & N & ->)]; [assumption|].
    red. cbn [sv_threads]. rewrite nth_replace. destruct (Nat.eqb_spec i j) as [->|_]; [|exact R].
    red in R. congruence.
Qed.
Lemma replied_all s l j y r : Replied s j y r -> Replied (happen_all W E s l) j y r.
Proof.
  revert s. induction l as [|e l IH]; intros s R; [exact R|]. apply IH. now apply replied_later.
Qed.

Lemma inv_proceed s i : (ex -> ExclusiveNow s) -> Inv s -> Inv (happen W E s (Proceed i)).
Proof.
  intros X [A1 A2 A0 A3 A4 A5].
  pose proof (fun j y r => replied_later s (Proceed i) j y r) as RL.
  destruct (proceed_cases s i) as [->|(x & f & g & t & d & N & F & EQ)]; [now split|].
  rewrite EQ in RL |- *. clear EQ.
  pose proof (A2 i x _ N) as S. cbn [safe] in S. specialize (S _ A1 (rely_refl _ _ _ _)).
  rewrite F in S. destruct S as [G S].
  assert (NEW : nth_error (replace (sv_threads s) i (x, t)) i = Some (x, t)).
  { rewrite nth_replace, Nat.eqb_refl. now rewrite N. }
  split; cbn [sv_db sv_threads].
  - apply G.
  - intros j y t' H. rewrite nth_replace in H. destruct (Nat.eqb_spec i j) as [<-|IJ].
    + rewrite N in H. injection H as <- <-. exact S.
    + pose proof (A2 j y t' H) as S'. destruct t' as [r|f' g'].
      * eapply fin_grow; [apply G|exact S'].
      * eapply safe_rely; [|exact S']. split; [apply G|]. intros e id (i0 & n0 & cr0 & O & Oid).
        destruct (gu_count _ _ _ _ _ _ _ G id) as [C|(T & i1 & n1 & cr1 & c1 & O' & Oid' & _)]; [exact C|].
        exfalso. apply IJ.
        apply (X e i j x y i1 i0 n1 n0 cr1 cr0); [exists f, g; exact N|exists f', g'; exact H|exact O'|exact O|congruence].
  - intros j y t' H. rewrite nth_replace in H. destruct (Nat.eqb_spec i j) as [<-|IJ]; [|eauto].
    rewrite N in H. injection H as <- <-. pose proof (A0 i x _ N) as [_ U]. specialize (U (sv_db s)). now rewrite F in U.
  - intros c H. destruct (gu_cred _ _ _ _ _ _ _ G c H) as [(c0 & I & Q1 & Q2 & Q3)|(T & i0 & n & cr & u & k & H1 & H2 & H3 & H4 & H5 & H6 & H7 & _)].
    + destruct (A3 c0 I) as (j & y & i0 & n & cr & u & k & R & H1 & H2 & H3 & H4 & H5 & H6 & H7).
      exists j, y, i0, n, cr, u, k. split; [now apply RL|]. rewrite Q1, Q2, Q3.
      repeat (split; [assumption|]). split; [eapply grow_user; [apply G|assumption]|]. auto.
    + exists i, x, i0, n, cr, u, k. split; [red; cbn; now rewrite NEW, T|]. repeat (split; auto).
  - intros h H. destruct (gu_chal _ _ _ _ _ _ _ G h H) as [I|(n & OW & H1 & H2 & H3)].
    + destruct (A4 h I) as (j & y & t0 & n & R & OW & H1 & H2 & H3).
      destruct (Nat.eq_dec i j) as [<-|IJ].
      * rewrite N in R. injection R as <- <-. exists i, x, t, n. split; [exact NEW|]. split; [|auto].
        destruct OW as [_ OW]. specialize (OW (sv_db s)). rewrite F in OW. apply OW.
      * exists j, y, t0, n. split; [|auto]. cbn [sv_threads]. rewrite nth_replace. now destruct (Nat.eqb_spec i j).
    + exists i, x, t, n. split; [exact NEW|]. auto.
  - assert (K : forall j y i1 n1 cr1 i2 n2 cr2, j <> i -> Replied s j y Success -> t = Answered Success ->
       Registers W (snd y) i1 n1 cr1 -> Registers W (snd x) i2 n2 cr2 -> cr_raw_id cr1 = cr_raw_id cr2 -> False).
    { intros j y i1 n1 cr1 i2 n2 cr2 _ R T G1 G2 Q.
      apply (gu_fresh _ _ _ _ _ _ _ G i2 n2 cr2 T G2). rewrite <- Q.
      pose proof (A2 j y _ R) as S'. destruct (S' eq_refl) as [S1 _].
      destruct (S1 _ _ _ G1) as (h & u & att & ad & acd & k & row & _ & _ & _ & _ & _ & _ & _ & _ & _ & I & Qr & _).
      rewrite <- Qr. now apply in_map. }
    intros j1 j2 y1 y2 i1 n1 cr1 i2 n2 cr2 R1 R2 G1 G2 Q. unfold Replied in R1, R2. cbn [sv_threads] in R1, R2.
    rewrite nth_replace in R1, R2.
    destruct (Nat.eqb_spec i j1) as [<-|J1]; destruct (Nat.eqb_spec i j2) as [<-|J2]; auto.
    + rewrite N in R1. injection R1 as <- ->. exfalso. eapply (K j2); eauto.
    + rewrite N in R2. injection R2 as <- ->. exfalso. eapply (K j1); eauto.
    + eauto.
Qed.

Lemma inv_fail s i : Inv s -> Inv (happen W E s (Fail i)).
Proof.
  intros [A1 A2 A0 A3 A4 A5].
  pose proof (fun j y r => replied_later s (Fail i) j y r) as RL.
  destruct (fail_cases s i) as [->|(x & f & g & N & EQ)]; [now split|].
  rewrite EQ in RL |- *. clear EQ.
  pose proof (A0 i x _ N) as ((r & -> & RF) & _). apply refused_not in RF as NS.
  assert (OLD : forall j y, Replied {| sv_db := sv_db s; sv_threads := replace (sv_threads s) i (x, Answered r) |} j y Success ->
    Replied s j y Success).
  { intros j y R. red in R. cbn [sv_threads] in R. rewrite nth_replace in R.
    destruct (Nat.eqb_spec i j) as [<-|J]; [|exact R]. rewrite N in R. injection R as _ R. contradiction. }
  split; cbn [sv_db sv_threads].
  - exact A1.
  - intros j y t H. rewrite nth_replace in H. destruct (Nat.eqb_spec i j) as [<-|IJ]; [|eauto].
    rewrite N in H. injection H as <- <-. now apply fin_refused.
  - intros j y t H. rewrite nth_replace in H. destruct (Nat.eqb_spec i j) as [<-|IJ]; [|eauto].
    rewrite N in H. injection H as <- <-. exact I.
  - intros c H. destruct (A3 c H) as (j & y & i0 & n & cr & u & k & R & H1).
    exists j, y, i0, n, cr, u, k. split; [now apply RL|]. exact H1.
  - intros h H. destruct (A4 h H) as (j & y & t0 & n & R & OW & H1).
    destruct (Nat.eq_dec i j) as [<-|IJ].
    + rewrite N in R. injection R as <- <-. exists i, x, (Answered r), n.
      split; [cbn [sv_threads]; rewrite nth_replace, Nat.eqb_refl; now rewrite N|].
      split; [|auto]. destruct OW as [OW _]. injection OW as ->. now right.
    + exists j, y, t0, n. split; [|auto]. cbn [sv_threads]. rewrite nth_replace. now destruct (Nat.eqb_spec i j).
  - intros j1 j2 y1 y2 i1 n1 cr1 i2 n2 cr2 R1 R2. apply OLD in R1, R2. eauto.
Qed.

Lemma authenticates_fun' q i n cr i' n' cr' : Authenticates W q i n cr -> Authenticates W q i' n' cr' -> cr = cr'.
Proof. intros A B. apply (authenticates_fun W _ _ _ _ _ _ _ A B). Qed.
Lemma login_counter_fun cr a b : LoginCounter cr a -> LoginCounter cr b -> a = b.
Proof. intros (? & ? & ? & ? & Q & ->) (? & ? & ? & ? & Q' & ->). rewrite Q in Q'. now injection Q' as <- <- <- <-. Qed.

Lemma inflight_back s i j y x f g t d : nth_error (sv_threads s) i = Some (x, Statement f g) ->
  InFlight {| sv_db := d; sv_threads := replace (sv_threads s) i (x, t) |} j y ->
  InFlight s j y.
Proof.
  intros N (f' & g' & H). cbn [sv_threads] in H. rewrite nth_replace in H.
  destruct (Nat.eqb_spec i j) as [->|_]; [|exists f', g'; exact H]. rewrite N in H. injection H as <- _. now exists f, g.
Qed.

Lemma counters_new : Counters new_server.
Proof.
  split; cbn.
  - intros j1 j2 y1 y2 i1 n1 cr1 i2 n2 cr2 L (f & g & N). now destruct j1.
  - intros j y i n cr c R. now destruct j.
  - intros j1 j2 y1 y2 i1 n1 cr1 c1 i2 n2 cr2 c2 L R. now destruct j1.
Qed.

Lemma inflight_snoc s x j y : InFlight (happen W E s (Arrive x)) j y -> 
  InFlight s j y \/ j = List.length (sv_threads s) /\ y = x.
Proof.
  intros (f & g & H). cbn in H. apply nth_snoc in H as [H|[-> H]]; [left; now exists f, g|].
  injection H as -> H. auto.
Qed.
Lemma replied_snoc s x j y : Replied (happen W E s (Arrive x)) j y Success -> Replied s j y Success.
Proof.
  intro H. apply nth_snoc in H as [H|[_ H]]; [exact H|].
  injection H as _ H. symmetry in H. now apply handle_not_success in H.
Qed.

Lemma counters_arrive s x : Counters s -> Counters (happen W E s (Arrive x)).
Proof.
  intros [B1 B2 B3]. split.
  - intros j1 j2 y1 y2 i1 n1 cr1 i2 n2 cr2 L F A1 A2 Q R. apply replied_snoc in R.
    apply inflight_snoc in F as [F|[-> ->]]; [eapply B1; eauto|].
    assert (j2 < List.length (sv_threads s)) by (apply nth_error_Some; red in R; congruence). lia.
  - intros j y i n cr c R. apply replied_snoc in R. cbn. eauto.
  - intros j1 j2 y1 y2 i1 n1 cr1 c1 i2 n2 cr2 c2 L R1 R2. apply replied_snoc in R1, R2. eauto.
Qed.

Lemma counters_proceed s i : ex -> ExclusiveNow s -> Inv s -> Counters s ->
  Counters (happen W E s (Proceed i)).
Proof.
  intros e X A [B1 B2 B3].
  destruct (proceed_cases s i) as [->|(x & f & g & t & d & N & F & ->)]; [now split|].
  pose proof (in_safe _ A i x _ N) as S. cbn [safe] in S. specialize (S _ (in_con _ A) (rely_refl _ _ _ _)).
  rewrite F in S. destruct S as [G _].
  assert (OLD : forall j y, Replied {| sv_db := d; sv_threads := replace (sv_threads s) i (x, t) |} j y Success ->
    j <> i /\ Replied s j y Success \/ j = i /\ y = x /\ t = Answered Success).
  { intros j y R. red in R. cbn [sv_threads] in R. rewrite nth_replace in R.
    destruct (Nat.eqb_spec i j) as [<-|J].
    - rewrite N in R. injection R as <- ->. auto.
    - left. split; [congruence|exact R]. }
  assert (FI : InFlight s i x) by now exists f, g.
  (* a login that is accepted now exceeds all accepted before *)
  assert (NEW : t = Answered Success -> forall i0 n0 cr0 c0, Authenticates W (snd x) i0 n0 cr0 ->
    LoginCounter cr0 c0 -> stored_count (cr_raw_id cr0) d = Some (Z.of_N c0) /\
    forall m, stored_count (cr_raw_id cr0) (sv_db s) = Some m -> (m < Z.of_N c0)%Z).
  { intros T i0 n0 cr0 c0 AU LC.
    destruct (gu_login _ _ _ _ _ _ _ G i0 n0 cr0 T AU) as (_ & i1 & n1 & cr1 & c1 & AU1 & _ & LC1 & ST & LT).
    pose proof (authenticates_fun' _ _ _ _ _ _ _ AU AU1) as <-.
    pose proof (login_counter_fun _ _ _ LC LC1) as <-. split; [exact ST|]. intros m M. now apply LT. }
  split.
  - intros j1 j2 y1 y2 i1 n1 cr1 i2 n2 cr2 L F1 A1 A2 Q R. apply (inflight_back s i) with (f := f) (g := g) in F1; [|exact N].
    apply OLD in R as [[J R]|(-> & -> & T)]; [eapply B1; eauto|].
    assert (j1 = i) by (eapply X; eauto). lia.
  - intros j y i0 n cr c R AU LC. cbn [sv_db]. apply OLD in R as [[J R]|(-> & -> & T)].
    + destruct (B2 j y i0 n cr c R AU LC) as (m & M & L).
      destruct (gu_count _ _ _ _ _ _ _ G (cr_raw_id cr)) as [C|(T & i1 & n1 & cr1 & c1 & A1 & Q & LC1 & ST & LT)].
      * exists m. now rewrite C.
      * exists (Z.of_N c1). split; [exact ST|]. specialize (LT e m M). lia.
    + exists (Z.of_N c). split; [|lia]. eapply NEW; eauto.
  - intros j1 j2 y1 y2 i1 n1 cr1 c1 i2 n2 cr2 c2 L R1 R2 A1 A2 Q L1 L2.
    apply OLD in R1 as [[J1 R1]|(-> & -> & T1)]; apply OLD in R2 as [[J2 R2]|(-> & -> & T2)].
    + eapply (B3 j1 j2); eauto.
    + destruct (B2 j1 y1 i1 n1 cr1 c1 R1 A1 L1) as (m & M & LE). rewrite Q in M.
      destruct (NEW T2 _ _ _ _ A2 L2) as [_ LT]. specialize (LT m M). lia.
    + exfalso. eapply (B1 i j2); eauto.
    + lia.
Qed.

Lemma counters_fail s i : Inv s -> Counters s -> Counters (happen W E s (Fail i)).
Proof.
  intros A [B1 B2 B3]. destruct (fail_cases s i) as [->|(x & f & g & N & ->)]; [now split|].
  pose proof (in_up _ A i x _ N) as ((r & -> & RF) & _). apply refused_not in RF as NS.
  assert (OLD : forall j y, Replied {| sv_db := sv_db s; sv_threads := replace (sv_threads s) i (x, Answered r) |} j y Success ->
    Replied s j y Success).
  { intros j y R. red in R. cbn [sv_threads] in R. rewrite nth_replace in R.
    destruct (Nat.eqb_spec i j) as [<-|J]; [|exact R]. rewrite N in R. injection R as _ R. contradiction. }
  split.
  - intros j1 j2 y1 y2 i1 n1 cr1 i2 n2 cr2 L F1 A1 A2 Q R. apply OLD in R.
    apply (inflight_back s i) with (f := f) (g := Answered r) in F1; [|exact N]. eapply B1; eauto.
  - intros j y i0 n cr c R. apply OLD in R. cbn [sv_db]. eauto.
  - intros j1 j2 y1 y2 i1 n1 cr1 c1 i2 n2 cr2 c2 L R1 R2. apply OLD in R1, R2. eauto.
Qed.

End Inv.

Lemma inv_served l : Inv False (Served W E l).
Proof.
  induction l as [|e l IH] using rev_ind; [apply inv_new|]. rewrite served_snoc.
  destruct e as [x|i|i]; [now apply inv_arrive|apply inv_proceed; [contradiction|assumption]|now apply inv_fail].
Qed.

Lemma exclusive_prefix l1 l2 : Exclusive W E (l1 ++ l2) -> Exclusive W E l1.
Proof. intros X a b ->. apply (X a (b ++ l2)). now rewrite app_assoc. Qed.
Lemma exclusive_now l : Exclusive W E l -> ExclusiveNow (Served W E l).
Proof. intros X. exact (X l [] (eq_sym (app_nil_r l))). Qed.

Lemma inv_exclusive l : Exclusive W E l -> Inv True (Served W E l) /\ Counters (Served W E l).
Proof.
  induction l as [|e l IH] using rev_ind; intro X; [split; [apply inv_new|apply counters_new]|].
  apply exclusive_prefix in X. destruct (IH X) as [A B]. pose proof (exclusive_now l X) as XN.
  rewrite served_snoc. destruct e as [x|i|i].
  - split; [now apply inv_arrive|now apply counters_arrive].
  - split; [apply inv_proceed; auto|]. apply (counters_proceed True); auto.
  - split; [now apply inv_fail|]. now apply (counters_fail True).
Qed.

(** Rows stay. *)
Lemma step_grow l e : Grow (sv_db (Served W E l)) (sv_db (Served W E (l ++ [e]))).
Proof.
  rewrite served_snoc. destruct e as [x|i|i]; [apply grow_refl| |].
  2:{ destruct (fail_cases (Served W E l) i) as [->|(x & f & g & N & ->)]; apply grow_refl. }
  pose proof (inv_served l) as A.
  destruct (proceed_cases (Served W E l) i) as [->|(x & f & g & t & d & N & F & ->)]; [apply grow_refl|].
  pose proof (in_safe _ _ A i x _ N) as S. cbn [safe] in S. specialize (S _ (in_con _ _ A) (rely_refl _ _ _ _)).
  rewrite F in S. apply S.
Qed.
Lemma served_grow l1 l2 : Grow (sv_db (Served W E l1)) (sv_db (Served W E (l1 ++ l2))).
Proof.
  induction l2 as [|e l2 IH] using rev_ind; [rewrite app_nil_r; apply grow_refl|].
  rewrite app_assoc. eapply grow_trans; [exact IH|apply step_grow].
Qed.

(** Counts do not fall in exclusive runs. *)
Lemma count_step l e id m : Exclusive W E (l ++ [e]) ->
  stored_count id (sv_db (Served W E l)) = Some m ->
  exists m', stored_count id (sv_db (Served W E (l ++ [e]))) = Some m' /\ (m <= m')%Z.
Proof.
  intros X M. apply exclusive_prefix in X. destruct (inv_exclusive l X) as [A _]. rewrite served_snoc.
  destruct e as [x|i|i]; [exists m; split; [assumption|lia]| |].
  2:{ exists m. split; [|lia]. now destruct (fail_cases (Served W E l) i) as [->|(x & f & g & N & ->)]. }
  destruct (proceed_cases (Served W E l) i) as [->|(x & f & g & t & d & N & F & ->)]; [exists m; split; [assumption|lia]|].
  pose proof (in_safe _ _ A i x _ N) as S. cbn [safe] in S. specialize (S _ (in_con _ _ A) (rely_refl _ _ _ _)).
  rewrite F in S. destruct S as [G _]. cbn [sv_db].
  destruct (gu_count _ _ _ _ _ _ _ G id) as [->|(_ & i1 & n1 & cr1 & c1 & _ & _ & _ & ST & LT)].
  - exists m. split; [assumption|lia].
  - exists (Z.of_N c1). split; [assumption|]. specialize (LT I m M). lia.
Qed.
Lemma count_grows l1 l2 id m : Exclusive W E (l1 ++ l2) ->
  stored_count id (sv_db (Served W E l1)) = Some m ->
  exists m', stored_count id (sv_db (Served W E (l1 ++ l2))) = Some m' /\ (m <= m')%Z.
Proof.
  induction l2 as [|e l2 IH] using rev_ind; intros X M; [rewrite app_nil_r; exists m; split; [assumption|lia]|].
  rewrite app_assoc in *. destruct (IH (exclusive_prefix _ _ X) M) as (m1 & M1 & L1).
  destruct (count_step _ _ _ _ X M1) as (m2 & M2 & L2). exists m2. split; [assumption|lia].
Qed.

(** ** What was accepted *)

Lemma owes_answered h r : converts E -> owes E h (Answered r) -> (exists v, r = Options (hr_id h) v) \/ Broken r.
Proof.
  intros CV [(o & B & ->)|B]; [left|now right].
  exact (send_options_sent E h o CV B).
Qed.
Lemma row_drawn l h : converts E -> In h (db_chals (sv_db (Served W E l))) ->
  exists n, DrawnChallenge (Served W E l) n (hr_request h) (hr_id h) (hr_timestamp h).
Proof.
  intros CV I. destruct (in_chal _ _ (inv_served l) h I) as (j & y & t & n & R & OW & A & H1 & H2).
  exists n, j, y, t, h. repeat (split; [auto; fail|]). intros r ->. now apply owes_answered.
Qed.

Lemma shared_login depth l j x i n cr :
  converts E -> decodes_cbor W depth -> 2 <= depth ->
  Replied (Served W E l) j x Success -> Authenticates W (snd x) i n cr ->
  SharedLogin W E (Served W E l) (ch_clock (fst x)) i n cr.
Proof.
  intros CV DC LD R AU. pose proof (inv_served l) as A.
  destruct (in_safe _ _ A j x _ R eq_refl) as [_ S].
  destruct (S i n cr AU) as (h & u & c & k & m & ad & u' & rp & H1 & H2 & H3 & H4 & H5 & H6 & H7 & H8 & H9 & H10).
  destruct (row_drawn l h CV H2) as (n0 & SC).
  destruct (in_cred _ _ A c H6) as (j0 & y & i0 & n1 & cr0 & u0 & k0 & R0 & G0 & Q1 & Q2 & Q3 & Q4 & AK & KB).
  assert (u0 = u) as ->.
  { eapply (NoDup_map_eq ur_id); [apply (in_con _ _ A)|assumption|assumption|congruence]. }
  destruct H10 as (cdj & adb & sig & uh & S1 & _ & S3 & S4 & S5 & S6 & S7 & _).
  cbn [app_assertion aa_credential aa_user aa_rp aa_challenge aa_origin aa_token_binding aa_require_uv
       aa_extensions cdt_key cdt_user cdt_rp] in *.
  pose proof AK as AK'. apply attested_key_well_formed in AK' as [WF _].
  rewrite (cose_key_read W depth k0 _ DC LD WF KB) in H9. injection H9 as <-.
  apply (signature_surviving W k0) in S7.
  exists (hr_id h), n0, (hr_request h), (hr_timestamp h), (ur_handle u), k0, cdj, adb, sig, uh, ad.
  split; [assumption|]. split; [assumption|]. split; [assumption|].
  split; [exists u; auto|].
  split; [exists j0, y, i0, cr0; rewrite <- H5, Q3; split; [assumption|]; split; [assumption|]; split; [congruence|assumption]|].
  split; [assumption|]. split; [exact S5|]. destruct S4 as [-> _]. split; [exact S6|]. split; [assumption|].
  apply S3.
Qed.

Lemma shared_registration l j x i n cr : converts E ->
  Replied (Served W E l) j x Success -> Registers W (snd x) i n cr ->
  SharedRegistration W E (Served W E l) (ch_clock (fst x)) i n cr.
Proof.
  intros CV R RG. pose proof (inv_served l) as A.
  destruct (in_safe _ _ A j x _ R eq_refl) as [S _].
  destruct (S i n cr RG) as (h & u & att & ad & acd & k & row & H1 & H2 & H3 & H4 & H5 & H6 & H7 & H8 & H9 & H10 & H11 & H12 & H13).
  destruct (row_drawn l h CV H2) as (n0 & SC).
  destruct H6 as (cdj & aob & adb & ad' & S1 & S2 & S3 & S4 & S5 & ->). cbn in H7. injection H7 as ->.
  exists (hr_id h), n0, (hr_request h), (hr_timestamp h), u, cdj, aob, adb, ad, acd, k, row.
  repeat (split; [assumption|]). auto.
Qed.

(** ** Every handler ends *)

(** At most [n] statements remain while there are at most [K] credentials. *)
Fixpoint steps (K n : nat) (t : thread) : Prop :=
  match t with
  | Answered _ => True
  | Statement f _ => match n with
      | O => False
      | S m => forall d, List.length (db_creds d) <= K -> steps K m (fst (f d))
      end
  end.

Lemma steps_mono K n : forall m t, n <= m -> steps K n t -> steps K m t.
Proof.
  induction n as [|n IH]; intros m t L H; destruct t as [r|f g]; try exact I; [destruct m; exact I|destruct H|destruct m; exact I|].
  destruct m as [|m]; [lia|]. cbn in *. intros d D. apply IH; [lia|now apply H].
Qed.

Lemma steps_answered K n r : steps K n (Answered r).
Proof. now destruct n. Qed.

Lemma steps_reloads K m n t : steps K n t -> steps K (m + n) (reloads m t).
Proof. intro H. induction m as [|m IH]; [exact H|]. intros d _. exact IH. Qed.

Lemma steps_issue K c u m o : steps K (2 + m) (issue E c u m o).
Proof.
  intros d _. destruct (insert_chal _ _ _ d) as [[h d']|e]; [|apply steps_answered].
  replace (1 + m) with (m + 1) by lia. apply steps_reloads. intros d2 _. exact I.
Qed.

Lemma steps_ceremony K n clock i name go : (forall h u, steps K n (go h u)) ->
  steps K (S (S n)) (t_ceremony E clock i name go).
Proof.
  intros G d _. destruct (match ap_int E i with Some m => chal_by_id m d | None => None end) as [h|];
    cbn [fst]; [|apply steps_answered].
  intros d' _. destruct (user_by_name name d') as [u|]; cbn [fst]; [|apply steps_answered].
  destruct (Z.ltb APP_TIMEOUT (clock - hr_timestamp h)); [apply steps_answered|apply G].
Qed.

Lemma filter_length_le {A} (f : A -> bool) l : List.length (filter f l) <= List.length l.
Proof. induction l as [|a l IH]; cbn; [lia|]. destruct (f a); cbn; lia. Qed.

Lemma steps_handle x K : steps K (needs (snd x) K) (handle W E x).
Proof.
  unfold handle. destruct (snd x) as [[n|]|i k n|[n|]|i k n]; try apply steps_answered.
  - apply (steps_mono K 5); [cbn; lia|]. intros d _. destruct (user_by_name n d) as [u|]; cbn [fst].
    + apply (steps_mono K 2); [lia|]. apply steps_issue.
    + intros d' _. destruct (insert_user n _ d') as [[u d'']|e]; [|apply steps_answered].
      intros d3 _. apply (steps_issue K _ _ 0).
  - unfold t_registration_response. destruct (parse_form W i k n) as [[[i' cr] n']|]; [|apply steps_answered].
    destruct (cr_response cr); [|apply steps_answered]. apply (steps_mono K 4); [cbn; lia|].
    apply steps_ceremony. intros h u. unfold handle_credential_attestation, handle_credential_attestation_with. fold (attestation_checks W).
    destruct (attestation_checks W _) as [[att [ty path]]|e]; cbn [statements]; [|apply steps_answered].
    destruct (ao_auth_data att) as [ad|]; [|apply steps_answered].
    destruct (ad_attested ad) as [acd|]; [|apply steps_answered].
    intros d _. destruct (user_by_handle _ d) as [u'|]; [|apply steps_answered].
    destruct (cose_key (at_key acd)) as [kb|e]; [|apply steps_answered]. cbn [fst].
    intros d' _. destruct (insert_cred _ d') as [d''|e]; apply steps_answered.
  - intros d _. destruct (user_by_name n d) as [u|]; cbn [fst]; [|apply steps_answered].
    intros d' D. cbn [fst]. eapply steps_mono; [|apply steps_issue].
    pose proof (filter_length_le (fun k => N.eqb (kr_user k) (ur_id u)) (db_creds d')). cbn [needs]. lia.
  - unfold t_authentication_response. destruct (parse_form W i k n) as [[[i' cr] n']|]; [|apply steps_answered].
    destruct (cr_response cr); [apply steps_answered|].
    apply (steps_ceremony K 4). intros h' u. unfold handle_credential_assertion.
    destruct (assertion_pre W _) as [os|e]; cbn [statements]; [|apply steps_answered].
    intros d _. destruct (cred_by_id _ d) as [row|]; cbn [fst]; [|apply steps_answered].
    destruct (parse_cose_key_bytes W (kr_key row)) as [key|e]; cbn [fst]; [|apply steps_answered].
    intros d' _. destruct (user_by_id (kr_user row) d') as [u'|]; cbn [fst]; [|apply steps_answered].
    destruct (assertion_checks W _ os _) as [[[ad u''] rp]|e]; cbn [statements]; [|apply steps_answered].
    intros d2 _. destruct (cred_by_id _ d2) as [row'|]; cbn [fst]; [|apply steps_answered].
    intros d3 _. apply steps_answered.
Qed.

(** Credentials do not become fewer. *)
Lemma creds_more l1 l2 :
  List.length (db_creds (sv_db (Served W E l1))) <= List.length (db_creds (sv_db (Served W E (l1 ++ l2)))).
Proof.
  rewrite <- (map_length kr_id), <- (map_length kr_id (db_creds (sv_db (Served W E (l1 ++ l2))))).
  apply NoDup_incl_length; [apply (in_con _ _ (inv_served l1))|].
  intros id H. apply in_map_iff in H as (c & <- & H).
  destruct (gr_creds _ _ (served_grow l1 l2) c H) as (c' & H' & S & _). rewrite <- S. now apply in_map.
Qed.

Lemma served_cons l1 e l2 : Served W E (l1 ++ e :: l2) = Served W E ((l1 ++ [e]) ++ l2).
Proof. now rewrite <- app_assoc. Qed.

Lemma ends l2 : forall l1 j x t n, nth_error (sv_threads (Served W E l1)) j = Some (x, t) ->
  steps (List.length (db_creds (sv_db (Served W E (l1 ++ l2))))) n t -> n <= turns j l2 ->
  exists r, Replied (Served W E (l1 ++ l2)) j x r.
Proof.
  induction l2 as [|e l2 IH]; intros l1 j x t n N ST L.
  - cbn in L. destruct n; [|lia]. rewrite app_nil_r. destruct t as [r|f g]; [|destruct ST]. exists r. exact N.
  - pose proof (creds_more l1 (e :: l2)) as K. rewrite served_cons in *.
    destruct t as [r|f g].
    { exists r. unfold Served. rewrite happen_all_app. apply replied_all. fold (Served W E (l1 ++ [e])).
      rewrite served_snoc. now apply replied_later. }
    destruct n as [|n]; [destruct ST|].
    assert (SAME : forall m, nth_error (sv_threads (Served W E (l1 ++ [e]))) j = Some (x, Statement f g) ->
      S n <= m -> m = turns j l2 -> exists r, Replied (Served W E ((l1 ++ [e]) ++ l2)) j x r).
    { intros m N' L' ->. eapply IH; [exact N'|exact ST|exact L']. }
    unfold turns in L. cbn [filter] in L. destruct e as [y|i|i].
    + eapply SAME; [|exact L|reflexivity]. rewrite served_snoc. now apply nth_grow.
    + destruct (Nat.eqb_spec i j) as [->|J].
      * destruct (f (sv_db (Served W E l1))) as [t' d] eqn:F.
        apply (IH _ j x t' n); [|specialize (ST (sv_db (Served W E l1)) K); now rewrite F in ST|cbn in L; unfold turns; lia].
        rewrite served_snoc. cbn [happen]. rewrite N, F. cbn. now rewrite nth_replace, Nat.eqb_refl, N.
      * eapply SAME; [|exact L|reflexivity]. rewrite served_snoc.
        destruct (proceed_cases (Served W E l1) i) as [->|(y & f' & g' & t' & d & N' & F & ->)]; [exact N|].
        cbn. rewrite nth_replace. now destruct (Nat.eqb_spec i j).
    + destruct (Nat.eqb_spec i j) as [->|J].
      * destruct (in_up _ _ (inv_served l1) j x _ N) as ((r & -> & _) & _).
        apply (IH _ j x (Answered r) n); [|apply steps_answered|cbn in L; unfold turns; lia].
        rewrite served_snoc. cbn [happen]. rewrite N. cbn. now rewrite nth_replace, Nat.eqb_refl, N.
      * eapply SAME; [|exact L|reflexivity]. rewrite served_snoc.
        destruct (fail_cases (Served W E l1) i) as [->|(y & f' & g' & N' & ->)]; [exact N|].
        cbn. rewrite nth_replace. now destruct (Nat.eqb_spec i j).
Qed.
(** ** What the answers can be *)

Fixpoint always (P : reply -> Prop) (t : thread) : Prop :=
  match t with
  | Answered r => P r
  | Statement f _ => forall d, always P (fst (f d))
  end.

Lemma served_always P l j x t : (forall y, always (P y) (handle W E y)) ->
  nth_error (sv_threads (Served W E l)) j = Some (x, t) ->
  always (P x) t \/ In (Fail j) l /\ exists r, t = Answered r /\ (Broken r \/ FailedReply (snd x) r).
Proof.
  intro H. revert j x t. induction l as [|e l IH] using rev_ind; intros j x t N; [now destruct j|].
  assert (OLD : nth_error (sv_threads (Served W E l)) j = Some (x, t) ->
    always (P x) t \/ In (Fail j) (l ++ [e]) /\ exists r, t = Answered r /\ (Broken r \/ FailedReply (snd x) r)).
  { intro O. destruct (IH _ _ _ O) as [A|[A B]]; [now left|]. right. split; [|exact B]. apply in_or_app. now left. }
  pose proof (inv_served l) as IN. rewrite served_snoc in N. destruct e as [y|i|i].
  - cbn in N. apply nth_snoc in N as [N|[-> N]]; [now apply OLD|]. injection N as -> ->. left. apply H.
  - destruct (proceed_cases (Served W E l) i) as [Q|(y & f & g & t' & d & N' & F & Q)]; rewrite Q in N; [now apply OLD|].
    cbn in N. rewrite nth_replace in N. destruct (Nat.eqb_spec i j) as [->|_]; [|now apply OLD].
    rewrite N' in N. injection N as -> ->. destruct (IH _ _ _ N') as [A|[_ (r & A & _)]]; [|discriminate].
    left. cbn in A. specialize (A (sv_db (Served W E l))). now rewrite F in A.
  - destruct (fail_cases (Served W E l) i) as [Q|(y & f & g & N' & Q)]; rewrite Q in N; [now apply OLD|].
    cbn in N. rewrite nth_replace in N. destruct (Nat.eqb_spec i j) as [->|_]; [|now apply OLD].
    rewrite N' in N. injection N as -> ->. right. split; [apply in_or_app; right; now left|].
    destruct (in_up _ _ IN j x _ N') as (G & _). exact G.
Qed.

Lemma conclude_wrap f r : raises civil r ->
  conclude f (wrap r) = Success \/ conclude f (wrap r) = Reply 400 f.
Proof.
  intro V. unfold wrap. destruct r as [[]|e]; [now left|]. right. specialize (V e eq_refl).
  destruct (is_lib WebAuthnRPError e) eqn:L; cbn; [now rewrite L|]. now rewrite V.
Qed.

Lemma always_answer x : (forall n, Asks (snd x) n -> converts E) -> always (AnswerOf x) (handle W E x).
Proof.
  intro CV. destruct x as [c q]. unfold handle, AnswerOf. cbn [fst snd].
  assert (CE : forall (go : chal_row -> user_row -> thread) i n f,
    (forall h u, always (fun r => r = Success \/ ResponseRefusal f r) (go h u)) ->
    always (fun r => r = Success \/ ResponseRefusal f r) (t_ceremony E (ch_clock c) i n go)).
  { intros go i n f G d. destruct (match ap_int E i with Some m => chal_by_id m d | None => None end) as [h|];
      cbn [fst]; [|right; right; right; now left].
    intro d'. destruct (user_by_name n d') as [u|]; cbn [fst]; [|right; do 3 right; now left].
    destruct (Z.ltb _ _); [|apply G]. right; do 4 right; now left. }
  assert (CW : forall f r, raises civil r -> conclude f (wrap r) = Success \/ ResponseRefusal f (conclude f (wrap r))).
  { intros f r V. destruct (conclude_wrap f r V) as [->|EQ]; [now left|right; do 5 right; exact EQ]. }
  assert (IS : forall un m o, converts E -> Built o -> always RequestAnswer (issue E c un m (Ok o))).
  { assert (RE : forall m r, RequestAnswer r -> always RequestAnswer (reloads m (reload (Answered r)))).
    { intros m r A. induction m as [|m IH]; intro d; [exact A|exact IH]. }
    intros un m o CE' B d. unfold insert_chal. destruct (existsb _ _); cbn [fst]; [right; right; now left|].
    destruct (send_options_sent E {| hr_id := next_id (map hr_id (db_chals d)); hr_request := ch_challenge c;
      hr_timestamp := ch_clock c; hr_user := un |} o CE' B) as [v ->]. apply RE. right; left. eauto. }
  destruct q as [[n|]|i k n|[n|]|i k n]; try (left; reflexivity).
  - intro d. destruct (user_by_name n d) as [u|]; cbn [fst].
    + apply IS; [apply (CV n); now left|]. left. eexists _, APP_CCO_BUILDER, (app_user n (ur_handle u)), (ch_challenge c); now split.
    + intro d'. unfold insert_user. match goal with |- context [if ?b then _ else _] => destruct b end; cbn [fst]; [right; right; now left|].
      intro d2. apply IS; [apply (CV n); now left|]. left. eexists _, APP_CCO_BUILDER, (app_user n _), (ch_challenge c); now split.
  - unfold t_registration_response. destruct (parse_form W i k n) as [[[i' cr] n']|]; [|right; now left].
    destruct (cr_response cr); [|right; right; now left].
    apply CE. intros h u. unfold handle_credential_attestation, handle_credential_attestation_with. fold (attestation_checks W).
    destruct (attestation_checks W _) as [[att [ty path]]|e] eqn:Ec1; cbn [statements]; [|apply CW; civil_fin].
    destruct (ao_auth_data att) as [ad|]; [|apply CW; civil_fin].
    destruct (ad_attested ad) as [acd|]; [|apply CW; civil_fin].
    intro d. destruct (user_by_handle _ d) as [u'|]; [|apply CW; civil_fin].
    destruct (cose_key (at_key acd)) as [kb|e] eqn:Ec2; [|apply CW; civil_fin]. cbn [fst].
    intro d'. destruct (insert_cred _ d') as [d''|e] eqn:Ec3; apply CW; civil_fin.
  - intro d. destruct (user_by_name n d) as [u|]; cbn [fst]; [|do 3 right; reflexivity].
    intro d'. cbn [fst]. apply IS; [apply (CV n); now right|]. right. eexists _, APP_CRO_BUILDER, (ch_challenge c), _; now split.
  - unfold t_authentication_response. destruct (parse_form W i k n) as [[[i' cr] n']|]; [|right; now left].
    destruct (cr_response cr); [right; right; now left|].
    apply CE. intros h' u. unfold handle_credential_assertion.
    destruct (assertion_pre W _) as [os|e] eqn:Ec4; cbn [statements]; [|apply CW; civil_fin].
    intro d. destruct (cred_by_id _ d) as [row|]; cbn [fst]; [|apply CW; civil_fin].
    destruct (parse_cose_key_bytes W (kr_key row)) as [key|e] eqn:Ec5; cbn [fst]; [|apply CW; civil_fin].
    intro d'. destruct (user_by_id (kr_user row) d') as [u'|]; cbn [fst]; [|apply CW; civil_fin].
    destruct (assertion_checks W _ os _) as [[[ad u''] rp]|e] eqn:Ec6; cbn [statements]; [|apply CW; civil_fin].
    intro d2. destruct (cred_by_id _ d2) as [row'|]; cbn [fst]; [|apply CW; civil_fin].
    intro d3. apply CW; civil_fin.
Qed.
End App.
