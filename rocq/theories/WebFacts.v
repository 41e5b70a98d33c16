(** * WebFacts: pages and server together. *)
From Coq Require Import List NArith ZArith Bool String Lia.
From Verif Require Import Base BaseFacts PyVal Json JsonSpec CodecSpec Types World Parsers Crypto Backends Spec App AppSpec
  Dumps DumpsSpec Form Page PageSpec FormFacts PageText PageSend PageRun PageStatus
  AppConc AppConcSpec AppConcHonestSpec AppFacts AppAccept AppConcFacts AppConcInv AppConcTheorems Web WebSpec.
Import ListNotations.
Local Open Scope list_scope.

(** ** What success means *)
Fixpoint always_true (P : reply -> Prop) (H : forall r, P r) (t : thread) : always P t :=
  match t with
  | Answered r => H r
  | Statement f _ => fun d => always_true P H (fst (f d))
  end.

Section Facts.
Variable B : browser.
Variable W : World.
Variable E : appenv.
Variable J : jsonenv.
Variable repr : N -> pystr.
Variable replaced : bytes -> pystr.
Notation happens := (happens B W E J repr replaced).
Notation to_request := (to_request replaced).
Notation to_response := (to_response J repr).
Notation web_happens := (web_happens B W E J repr replaced).
Notation local := (local B W E J repr replaced).
Notation Web := (Web B W E J repr replaced).
Notation IsPage := (IsPage B W E J repr replaced).
Notation Sent := (Sent B W E J repr replaced).
Notation WebAccepted := (WebAccepted B W E J repr replaced).
Notation Patient := (Patient B W E J repr replaced).

Definition answers (y : chance * request) (r : reply) : Prop :=
  match snd y with
  | RegistrationResponse _ _ _ | AuthenticationResponse _ _ _ => AnswerOf y r
  | _ => True
  end.
Lemma always_answers y : always (answers y) (handle W E y).
Proof.
  destruct y as [c [m|i t m|m|i t m]].
  - apply always_true. intro r. exact I.
  - exact (always_answer W E (c, RegistrationResponse i t m) ltac:(intros n [Q|Q]; discriminate Q)).
  - apply always_true. intro r. exact I.
  - exact (always_answer W E (c, AuthenticationResponse i t m) ltac:(intros n [Q|Q]; discriminate Q)).
Qed.
Lemma refusal_ok q f r : ResponseRefusal f r -> response_ok (to_response q r) = true -> False.
Proof. intros H K. unfold response_ok in K. unfold ResponseRefusal in H. decompose [or] H; subst; cbn [Page.to_response fst] in K; discriminate K. Qed.
Lemma ok_reply l j x r i t n :
  snd x = RegistrationResponse i t n \/ snd x = AuthenticationResponse i t n ->
  Replied (Served W E l) j x r -> response_ok (to_response (snd x) r) = true -> r = Success.
Proof.
  intros Q R K.
  assert (A : (exists f, r = Success \/ ResponseRefusal f r) \/ Broken r).
  { destruct (served_always W E answers l j x _ always_answers R) as [A|(F & r' & D & [H|H])].
    - cbn [always] in A. unfold answers, AnswerOf in A. destruct Q as [Q|Q]; rewrite Q in A; left; eauto.
    - injection D as <-. now right.
    - injection D as <-. unfold FailedReply in H. left. destruct Q as [Q|Q]; rewrite Q in H; eexists; right; do 5 right; exact H. }
  destruct A as [(f & [A|A])|A]; [exact A|now destruct (refusal_ok _ _ _ A K)|]. rewrite A in K. discriminate K.
Qed.

(** A response that is accepted has a number, a credential and a name. *)
Definition carries (y : chance * request) (r : reply) : Prop :=
  r = Success -> exists i n cr, Registers W (snd y) i n cr \/ Authenticates W (snd y) i n cr.
Lemma always_carries y : always (carries y) (handle W E y).
Proof.
  destruct y as [c q]. unfold handle. cbn [fst snd].
  assert (IS : forall c' un m o, always (carries (c, q)) (issue E c' un m o)).
  { intros c' un m o d. destruct (insert_chal _ _ _ d) as [[h d']|e]; [|intro H; discriminate H].
    cbn [fst]. induction m as [|m IH]; intro d2; [|exact IH]. intro H. now apply send_options_not in H. }
  destruct q as [[n|]|i t n|[n|]|i t n]; try (intro H; discriminate H).
  - intro d. destruct (user_by_name n d); cbn [fst]; [apply IS|].
    intro d'. destruct (insert_user _ _ d') as [[u d2]|e]; [|intro H; discriminate H]. intro d3. apply IS.
  - unfold t_registration_response. destruct (parse_form W i t n) as [[[i' cr] n']|] eqn:P; [|intro H; discriminate H].
    apply parse_form_ok in P as (t' & -> & -> & -> & P). apply always_true. intros r _. exists i', n', cr. left. exists t'. auto.
  - intro d. destruct (user_by_name n d); cbn [fst]; [|intro H; discriminate H]. intro d'. apply IS.
  - unfold t_authentication_response. destruct (parse_form W i t n) as [[[i' cr] n']|] eqn:P; [|intro H; discriminate H].
    apply parse_form_ok in P as (t' & -> & -> & -> & P). apply always_true. intros r _. exists i', n', cr. right. exists t'. auto.
Qed.
Lemma success_carries l j x : Replied (Served W E l) j x Success ->
  exists i n cr, Registers W (snd x) i n cr \/ Authenticates W (snd x) i n cr.
Proof.
  intro R. destruct (served_always W E carries l j x _ always_carries R) as [A|(F & r' & D & H)].
  - now apply A.
  - injection D as <-. now apply refused_not in H.
Qed.
Lemma replied_registered l j x i t n : Replied (Served W E l) j x Success -> snd x = RegistrationResponse i t (Some n) ->
  exists i cr k u row, Registers W (snd x) i n cr /\ AttestedKey W cr k /\
    In u (db_users (sv_db (Served W E l))) /\ ur_username u = n /\
    In row (db_creds (sv_db (Served W E l))) /\ kr_id row = cr_raw_id cr /\
    kr_user row = ur_id u /\ cose_key (Some k) = Ok (kr_key row).
Proof.
  intros R Q. destruct (success_carries l j x R) as (i' & n' & cr & [RG|AU]); [|destruct AU as (t' & D & _); congruence].
  assert (n' = n) as -> by (destruct RG as (t' & D & _); congruence).
  destruct (in_safe _ _ _ _ (inv_served W E l) j x _ R eq_refl) as [S _].
  destruct (S i' n cr RG) as (h & u & att & ad & acd & k & row & H1 & H2 & H3 & H4 & H5 & H6 & H7 & H8 & H9 & H10 & H11 & H12 & H13).
  destruct H6 as (cdj & aob & adb & ad' & S1 & S2 & S3 & S4 & S5 & ->). cbn in H7. injection H7 as ->.
  exists i', cr, k, u, row. repeat (split; [assumption|]). split; [|repeat (split; [assumption|]); assumption].
  exists cdj, aob, adb, ad, acd. destruct S4 as (S4 & _). auto.
Qed.
Lemma replied_logged_in l j x i t n : Replied (Served W E l) j x Success -> snd x = AuthenticationResponse i t (Some n) ->
  exists i cr, Authenticates W (snd x) i n cr.
Proof.
  intros R Q. destruct (success_carries l j x R) as (i' & n' & cr & [RG|AU]); [destruct RG as (t' & D & _); congruence|].
  assert (n' = n) as -> by (destruct AU as (t' & D & _); congruence). eauto.
Qed.

(** ** Runs *)
Lemma web_snoc l e : Web (l ++ [e]) = web_happens (Web l) e.
Proof. unfold WebSpec.Web, run_web. now rewrite fold_left_app. Qed.
(** The events of the server. *)
Definition to_server (s : web) (e : web_event) : list sv_event :=
  match e with
  | Load | At _ _ | Answer _ _ => []
  | Send p i c =>
      match nth_error (wb_pages s) p with
      | Some g =>
          match nth_error (pg_tasks g) i, request_of i g with
          | Some (Fetch u body _), None => [Arrive (c, to_request u body)]
          | _, _ => []
          end
      | None => []
      end
  | Server e => [e]
  end.
Lemma to_server_is s e : wb_server (web_happens s e) = happen_all W E (wb_server s) (to_server s e).
Proof.
  destruct e as [|p e|p i c|p i|e]; cbn [Web.web_happens to_server]; try reflexivity.
  - destruct (nth_error (wb_pages s) p); reflexivity.
  - destruct (nth_error (wb_pages s) p) as [g|]; [|reflexivity].
    destruct (nth_error (pg_tasks g) i) as [[]|]; try reflexivity. destruct (request_of i g); reflexivity.
  - destruct (nth_error (wb_pages s) p) as [g|]; [|reflexivity].
    destruct (nth_error (pg_tasks g) i) as [[]|]; try reflexivity. destruct (request_of i g) as [j|]; [|reflexivity].
    destruct (nth_error (sv_threads (wb_server s)) j) as [[x []]|]; reflexivity.
Qed.
Lemma web_server l : exists ev, wb_server (Web l) = Served W E ev.
Proof.
  induction l as [|e l (ev & IH)] using rev_ind; [now exists []|].
  exists (ev ++ to_server (Web l) e). rewrite web_snoc, to_server_is, IH. unfold Served. now rewrite happen_all_app.
Qed.
Lemma web_replied l e j x r : Replied (wb_server (Web l)) j x r -> Replied (wb_server (Web (l ++ [e]))) j x r.
Proof. intro H. rewrite web_snoc, to_server_is. now apply replied_all. Qed.

Lemma nth_update {A} (l : list A) i j a : nth_error (update l i a) j =
  if Nat.eqb i j then match nth_error l j with Some _ => Some a | None => None end else nth_error l j.
Proof.
  revert i j. induction l as [|x l IH]; intros [|i] [|j]; cbn; try reflexivity.
  - now destruct (Nat.eqb i j).
  - apply IH.
Qed.
Lemma closed_other i i' l : i <> i' -> find (fun p => Nat.eqb (fst p) i) (closed i' l) = find (fun p => Nat.eqb (fst p) i) l.
Proof.
  intro N. induction l as [|[a b] l IH]; [reflexivity|]. cbn. destruct (Nat.eqb_spec a i'); cbn.
  - destruct (Nat.eqb_spec a i); [congruence|exact IH].
  - destruct (Nat.eqb_spec a i); [reflexivity|exact IH].
Qed.
Lemma closed_same i l : find (fun p => Nat.eqb (fst p) i) (closed i l) = None.
Proof.
  induction l as [|[a b] l IH]; [reflexivity|]. cbn. destruct (Nat.eqb_spec a i); cbn; [exact IH|].
  destruct (Nat.eqb_spec a i); [congruence|exact IH].
Qed.

Lemma sent_more l e p u j x : Sent l p u j x -> Sent (l ++ [e]) p u j x.
Proof.
  intros (l1 & i & c & l2 & g & body & k & -> & H). exists l1, i, c, (l2 ++ [e]), g, body, k.
  split; [now rewrite <- app_assoc|exact H].
Qed.
Lemma accepted_web l e p u : WebAccepted l p u -> WebAccepted (l ++ [e]) p u.
Proof. intros (j & x & S & R). exists j, x. split; [now apply sent_more|now apply web_replied]. Qed.

(** The requests a page waits for are those it sent. *)
Definition Waits (l : list web_event) (p : nat) (g : page) : Prop :=
  forall i j, request_of i g = Some j -> exists u body k x t,
    nth_error (pg_tasks g) i = Some (Fetch u body k) /\ Sent l p u j x /\ snd x = to_request u body /\
    nth_error (sv_threads (wb_server (Web l))) j = Some (x, t).

(** A fetch stays until it is answered or rejected. *)
Lemma local_fetch g e i u body k : nth_error (pg_tasks g) i = Some (Fetch u body k) ->
  nth_error (pg_tasks (local g e)) i = Some (Fetch u body k) \/ e = Reject i.
Proof.
  intro N. destruct e as [t| | |i' c|i'|i'|i' a|i' a|i'|i'|x]; cbn [Web.local]; try (now left).
  - left. cbn. now apply nth_grow.
  - left. cbn. now apply nth_grow.
  - left. cbn. destruct (nth_error (pg_tasks g) i') as [[]|] eqn:N'; try exact N. cbn. rewrite nth_update.
    destruct (Nat.eqb_spec i' i); [congruence|exact N].
  - left. cbn. destruct (nth_error (pg_tasks g) i') as [[]|] eqn:N'; try exact N. cbn. rewrite nth_update.
    destruct (Nat.eqb_spec i' i); [congruence|exact N].
  - left. cbn. destruct (nth_error (pg_tasks g) i') as [[]|] eqn:N'; try exact N. cbn. rewrite nth_update.
    destruct (Nat.eqb_spec i' i); [congruence|exact N].
  - left. cbn. destruct (nth_error (pg_tasks g) i') as [[]|] eqn:N'; try exact N. cbn. rewrite nth_update.
    destruct (Nat.eqb_spec i' i); [congruence|exact N].
  - left. cbn. destruct (nth_error (pg_tasks g) i') as [[]|] eqn:N'; try exact N. cbn. rewrite nth_update.
    destruct (Nat.eqb_spec i' i); [congruence|exact N].
  - destruct (Nat.eq_dec i' i) as [->|D]; [now right|]. left. cbn.
    destruct (nth_error (pg_tasks g) i') as [[]|] eqn:N'; try exact N; cbn; rewrite nth_update;
    (destruct (Nat.eqb_spec i' i); [congruence|exact N]).
Qed.
Lemma local_open g e i j : request_of i (local g e) = Some j -> request_of i g = Some j /\ e <> Reject i.
Proof.
  destruct e as [t| | |i' c|i'|i'|i' a|i' a|i'|i'|x]; cbn [Web.local]; try (intro H; now split).
  unfold request_of. cbn [pg_open]. intro H. destruct (Nat.eq_dec i i') as [->|D].
  - rewrite closed_same in H. discriminate H.
  - rewrite closed_other in H by exact D. split; [exact H|congruence].
Qed.
Lemma threads_more l e j x t : nth_error (sv_threads (wb_server (Web l))) j = Some (x, t) ->
  exists t', nth_error (sv_threads (wb_server (Web (l ++ [e])))) j = Some (x, t').
Proof.
  rewrite web_snoc, to_server_is. generalize (to_server (Web l) e) as es. generalize (wb_server (Web l)) as s.
  intros s es. revert s t. induction es as [|e' es IH]; intros s t N; [eauto|].
  cbn [happen_all fold_left]. fold (happen_all W E (happen W E s e') es).
  destruct e' as [y|i|i].
  - apply (IH _ t). cbn. now apply nth_grow.
  - destruct (proceed_cases W E s i) as [->|(y & f & g & t' & d & N' & F & ->)]; [now apply (IH _ t)|].
    destruct (Nat.eq_dec i j) as [->|D].
    + apply (IH _ t'). cbn. rewrite nth_replace, Nat.eqb_refl, N. congruence.
    + apply (IH _ t). cbn. rewrite nth_replace. destruct (Nat.eqb_spec i j); [congruence|exact N].
  - destruct (fail_cases W E s i) as [->|(y & f & g & N' & ->)]; [now apply (IH _ t)|].
    destruct (Nat.eq_dec i j) as [->|D].
    + apply (IH _ g). cbn. rewrite nth_replace, Nat.eqb_refl, N. congruence.
    + apply (IH _ t). cbn. rewrite nth_replace. destruct (Nat.eqb_spec i j); [congruence|exact N].
Qed.
Lemma waits_more l e p g : Waits l p g -> Waits (l ++ [e]) p g.
Proof.
  intros H i j R. destruct (H i j R) as (u & body & k & x & t & N & S & Q & T).
  destruct (threads_more l e j x t T) as (t' & T'). exists u, body, k, x, t'. repeat split; auto. now apply sent_more.
Qed.

(** What a page does in one event of the whole: nothing, something of its own, a request is
    sent, or an answer comes. *)
Inductive Moves (l : list web_event) (p : nat) (g : page) : web_event -> page -> Prop :=
| mv_none e : Moves l p g e g
| mv_local e : Moves l p g (At p e) (local g e)
| mv_send i c u body k : nth_error (pg_tasks g) i = Some (Fetch u body k) -> request_of i g = None ->
    Moves l p g (Send p i c) {| pg_globals := pg_globals g; pg_tasks := pg_tasks g;
      pg_open := (i, next (wb_server (Web l))) :: pg_open g |}
| mv_answer i u body k j x r : nth_error (pg_tasks g) i = Some (Fetch u body k) -> request_of i g = Some j ->
    Replied (wb_server (Web l)) j x r ->
    Moves l p g (Answer p i) {| pg_globals := pg_globals g;
      pg_tasks := update (pg_tasks g) i (Arrived (to_response (snd x) r) k); pg_open := closed i (pg_open g) |}.
Lemma page_moves l e p g' : IsPage (l ++ [e]) p g' ->
  (e = Load /\ g' = new_page) \/ exists g, IsPage l p g /\ Moves l p g e g'.
Proof.
  unfold WebSpec.IsPage. rewrite web_snoc. intro H.
  assert (O : nth_error (wb_pages (Web l)) p = Some g' -> exists g, nth_error (wb_pages (Web l)) p = Some g /\ Moves l p g e g').
  { intro N. exists g'. split; [exact N|constructor]. }
  assert (UP : forall q g1 g2, nth_error (wb_pages (Web l)) q = Some g1 ->
    nth_error (update (wb_pages (Web l)) q g2) p = Some g' -> q = p /\ g' = g2 /\ nth_error (wb_pages (Web l)) p = Some g1 \/
    nth_error (wb_pages (Web l)) p = Some g').
  { intros q g1 g2 N U. rewrite nth_update in U. destruct (Nat.eqb_spec q p) as [->|]; [|now right].
    rewrite N in U. injection U as <-. left. auto. }
  destruct e as [|q e|q i c|q i|e]; cbn [Web.web_happens] in H.
  - cbn [wb_pages] in H. apply nth_snoc in H as [H|[_ H]]; [right; now apply O|]. left. auto.
  - right. destruct (nth_error (wb_pages (Web l)) q) as [g|] eqn:N; [|now apply O].
    cbn [wb_pages] in H. destruct (UP q g _ N H) as [(-> & -> & N')|N']; [|now apply O].
    exists g. split; [exact N'|constructor].
  - right. destruct (nth_error (wb_pages (Web l)) q) as [g|] eqn:N; [|now apply O].
    destruct (nth_error (pg_tasks g) i) as [[u body k| | | | | | |]|] eqn:T; try (now apply O).
    destruct (request_of i g) as [j|] eqn:R; [now apply O|].
    cbn [wb_pages] in H. destruct (UP q g _ N H) as [(-> & -> & N')|N']; [|now apply O].
    exists g. split; [exact N'|]. now apply (mv_send l p g i c u body k).
  - right. destruct (nth_error (wb_pages (Web l)) q) as [g|] eqn:N; [|now apply O].
    destruct (nth_error (pg_tasks g) i) as [[u body k| | | | | | |]|] eqn:T; try (now apply O).
    destruct (request_of i g) as [j|] eqn:R; [|now apply O].
    destruct (nth_error (sv_threads (wb_server (Web l))) j) as [[x [r|]]|] eqn:TH; try (now apply O).
    cbn [wb_pages] in H. destruct (UP q g _ N H) as [(-> & -> & N')|N']; [|now apply O].
    exists g. split; [exact N'|]. now apply (mv_answer l p g i u body k j x r).
  - right. now apply O.
Qed.

Lemma waits l : forall p g, IsPage l p g -> Waits l p g.
Proof.
  induction l as [|e l IH] using rev_ind; intros p g H.
  { unfold WebSpec.IsPage in H. destruct p; discriminate H. }
  apply page_moves in H as [[-> ->]|(g0 & H & M)]; [intros i j R; discriminate R|].
  pose proof (IH p g0 H) as WT. apply (waits_more l e) in WT.
  destruct M as [e|e|i c u body k N RO|i u body k j x r N RO R].
  - exact WT.
  - intros i j R. apply local_open in R as [R NR]. destruct (WT i j R) as (u & body & k & x & t & N & S).
    exists u, body, k, x, t. split; [|exact S]. destruct (local_fetch g0 e i u body k N) as [K|K]; [exact K|contradiction].
  - intros i' j R. unfold request_of in R. cbn [pg_open find fst] in R. destruct (Nat.eqb_spec i i') as [<-|D].
    + injection R as <-. exists u, body, k, (c, to_request u body), (handle W E (c, to_request u body)).
      split; [exact N|]. split.
      { exists l, i, c, [], g0, body, k. repeat (split; [assumption || reflexivity|]). reflexivity. }
      split; [reflexivity|]. rewrite web_snoc. cbn [Web.web_happens]. unfold WebSpec.IsPage in H. rewrite H, N, RO.
      cbn [wb_server happen sv_threads]. unfold next. rewrite nth_error_app2, Nat.sub_diag by lia. reflexivity.
    + exact (WT i' j R).
  - intros i' j' R'. unfold request_of in R'. cbn [pg_open] in R'. destruct (Nat.eq_dec i' i) as [->|D].
    + rewrite closed_same in R'. discriminate R'.
    + rewrite closed_other in R' by exact D. destruct (WT i' j' R') as (u' & body' & k' & x' & t' & N' & S').
      exists u', body', k', x', t'. split; [|exact S']. cbn [pg_tasks]. rewrite nth_update.
      destruct (Nat.eqb_spec i i'); [congruence|exact N'].
Qed.

(** ** What pages show *)
Lemma answered_ok l p g i u body k j x r : IsPage l p g -> nth_error (pg_tasks g) i = Some (Fetch u body k) ->
  request_of i g = Some j -> Replied (wb_server (Web l)) j x r ->
  Sent l p u j x /\ snd x = to_request u body /\
  (u = RegistrationResponseUrl \/ u = AuthenticationResponseUrl -> response_ok (to_response (snd x) r) = true -> r = Success).
Proof.
  intros H N RO R. destruct (waits l p g H i j RO) as (u' & body' & k' & x' & t' & N' & S & Q & T).
  rewrite N in N'. injection N' as <- <- <-. unfold Replied in R. rewrite R in T. injection T as <- <-.
  split; [exact S|]. split; [exact Q|]. intros U K. destruct (web_server l) as (ev & SV). rewrite SV in R.
  revert R K. eapply ok_reply. rewrite Q. unfold Page.to_request. destruct U as [-> | ->]; eauto.
Qed.

Lemma every_page l : forall p g, IsPage l p g ->
  Sound B (WebAccepted l p RegistrationResponseUrl) (WebAccepted l p AuthenticationResponseUrl) (view g).
Proof.
  induction l as [|e l IH] using rev_ind; intros p g H.
  { unfold WebSpec.IsPage in H. destruct p; discriminate H. }
  apply page_moves in H as [[-> ->]|(g0 & H & M)].
  { split; [constructor|]. split; intros n D; discriminate D. }
  pose proof (IH p g0 H) as S.
  apply (sound_mono _ _ (WebAccepted (l ++ [e]) p RegistrationResponseUrl) _
    (WebAccepted (l ++ [e]) p AuthenticationResponseUrl)) in S; [|apply accepted_web..].
  destruct M as [e|e|i c u body k N RO|i u body k j x r N RO R].
  - exact S.
  - destruct e as [t| | |i' c|i'|i'|i' a|i' a|i'|i'|x]; cbn [Web.local];
      try exact S; (eapply sound_local in S; [exact S|discriminate]).
  - exact S.
  - destruct (answered_ok l p g0 i u body k j x r H N RO R) as (SE & Q & OK).
    apply (sound_answer _ _ _ (view g0) i u body k (to_response (snd x) r) []); [exact N|..|exact S]; intros -> K;
      (exists j, x; split; [now apply sent_more|]; apply web_replied; rewrite <- OK; auto).
Qed.

Lemma patient_prefix p l e : Patient p (l ++ [e]) -> Patient p l.
Proof.
  intros [H1 H2]. split.
  - intros l1 e' l2 g -> C I. apply (H1 l1 e' (l2 ++ [e]) g); [now rewrite <- app_assoc|exact C|exact I].
  - intros t I. apply H2. apply in_or_app. now left.
Qed.
Notation Registered := (RegisteredBy B W E J repr replaced).
Notation Authorized := (AuthorizedBy B W E J repr replaced).
Lemma web_grow l e : Grow (sv_db (wb_server (Web l))) (sv_db (wb_server (Web (l ++ [e])))).
Proof.
  destruct (web_server l) as (ev & SV). rewrite web_snoc, to_server_is, SV. unfold Served. rewrite <- happen_all_app.
  apply served_grow.
Qed.
Lemma registered_later l e p n : Registered l p n -> Registered (l ++ [e]) p n.
Proof.
  intros (j & x & i & cr & k & u & row & H1 & H2 & H3 & H4 & H5 & H6 & H7 & H8 & H9 & H10).
  pose proof (web_grow l e) as G. destruct (gr_creds _ _ G row H7) as (row' & I & S1 & S2 & S3).
  exists j, x, i, cr, k, u, row'. split; [now apply sent_more|]. split; [now apply web_replied|].
  repeat (split; [assumption|]). split; [eapply grow_user; eauto|]. repeat split; congruence.
Qed.
Lemma authorized_later l e p n : Authorized l p n -> Authorized (l ++ [e]) p n.
Proof.
  intros (j & x & i & cr & H1 & H2 & H3). exists j, x, i, cr. split; [now apply sent_more|].
  split; [now apply web_replied|exact H3].
Qed.

Lemma patient_page l : forall p g, Patient p l -> IsPage l p g ->
  Solo B replaced (fun u => Registered l p (usv u)) (fun u => Authorized l p (usv u)) (view g).
Proof.
  induction l as [|e l IH] using rev_ind; intros p g PA H.
  { unfold WebSpec.IsPage in H. destruct p; discriminate H. }
  apply page_moves in H as [[-> ->]|(g0 & H & M)].
  { split; [constructor|]. split; [split; intros n D; discriminate D|now left]. }
  pose proof (IH p g0 (patient_prefix _ _ _ PA) H) as S.
  apply (solo_mono _ _ _ (fun u => Registered (l ++ [e]) p (usv u)) _ (fun u => Authorized (l ++ [e]) p (usv u))) in S;
    [|intro; apply registered_later|intro; apply authorized_later].
  destruct M as [e|e|i c u body k N RO|i u body k j x r N RO R].
  - exact S.
  - assert (L : (forall i c, e <> Serve i c) -> Solo B replaced (fun u => Registered (l ++ [At p e]) p (usv u))
      (fun u => Authorized (l ++ [At p e]) p (usv u)) (happens (view g0) e)).
    { intro NS. apply solo_local; [exact NS|exact S|..].
      - intros t ->. apply (proj2 PA). apply in_or_app. right. now left.
      - intro C. exact (proj1 PA l e [] g0 eq_refl C H). }
    destruct e as [t| | |i' c|i'|i'|i' a|i' a|i'|i'|x]; cbn [Web.local]; try exact S; (apply L; discriminate).
  - exact S.
  - destruct (answered_ok l p g0 i u body k j x r H N RO R) as (SE & Q & OK).
    apply (solo_answer _ _ _ _ (view g0) i u body k (to_response (snd x) r) []); [exact N|..|exact S]; intros v j' t -> QV K.
    + rewrite (OK (or_introl eq_refl) K) in R. apply registered_later. destruct (web_server l) as (ev & SV).
      pose proof R as R'. rewrite SV in R'.
      destruct (replied_registered ev j x j' t (usv v) R') as (i' & cr & k' & u & row & HH); [now rewrite Q, QV|].
      rewrite <- SV in HH. exists j, x, i', cr, k', u, row. auto.
    + rewrite (OK (or_intror eq_refl) K) in R. apply authorized_later. destruct (web_server l) as (ev & SV).
      pose proof R as R'. rewrite SV in R'.
      destruct (replied_logged_in ev j x j' t (usv v) R') as (i' & cr & HH); [now rewrite Q, QV|].
      exists j, x, i', cr. auto.
Qed.

Lemma c97_accepted l p g n : IsPage l p g ->
  (g_status (pg_globals g) = registered_text n -> WebAccepted l p RegistrationResponseUrl) /\
  (g_status (pg_globals g) = authorized_text n -> WebAccepted l p AuthenticationResponseUrl).
Proof. intro H. destruct (every_page l p g H) as [_ [S1 S2]]. split; [apply S1|apply S2]. Qed.
Lemma c97_named l p g n : Patient p l -> IsPage l p g ->
  (g_status (pg_globals g) = registered_text n -> Registered l p (usv n)) /\
  (g_status (pg_globals g) = authorized_text n -> Authorized l p (usv n)).
Proof. intros PA H. destruct (patient_page l p g PA H) as (_ & [S1 S2] & _). split; [apply S1|apply S2]. Qed.
End Facts.
