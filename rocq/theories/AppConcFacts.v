(** * AppConcFacts: rely and guarantee for the handlers of the example application. *)
From Coq Require Import List NArith ZArith Bool String Lia.
From Verif Require Import Base PyVal B64 Utf8 Url CaseConv Cbor CborFacts Types World Parsers Crypto
  Backends Spec Jsonify Builders OptionSpec BaseFacts AuthFacts BackendFacts KeyFacts
  App AppSpec AppFacts AppHistory AppAccept AppConc AppConcSpec.
Import ListNotations.
Local Open Scope list_scope.

(** ** Running alone *)

Fixpoint alone (t : thread) (d : database) : reply * database :=
  match t with
  | Answered r => (r, d)
  | Statement f _ => match f d with (t', d') => alone t' d' end
  end.

Section App.
Variable W : World.
Variable E : appenv.

Lemma statements_alone fin p : forall d,
  alone (statements W fin p) d =
  (fin (out_result (run (app_registrar W) d p)), out_state (run (app_registrar W) d p)).
Proof.
  induction p as [r|id k IH|c ad u rp k IH|c att ty u rp path k IH]; intro d.
  - reflexivity.
  - cbn [statements alone run app_registrar r_get]. unfold app_get.
    destruct (cred_by_id id d) as [row|]; [|apply IH].
    destruct (parse_cose_key_bytes W (kr_key row)) as [key|e]; cbn [alone bind]; [|apply IH].
    destruct (user_by_id (kr_user row) d) as [u|]; apply IH.
  - cbn [statements alone run app_registrar r_assert]. unfold app_assert.
    destruct (cred_by_id (cr_raw_id c) d) as [row|]; cbn [alone]; apply IH.
  - cbn [statements alone run app_registrar r_attest]. unfold app_attest.
    destruct (ao_auth_data att) as [ad|]; [|apply IH].
    destruct (ad_attested ad) as [acd|]; [|apply IH]. cbn [alone].
    destruct (user_by_handle (us_id u) d) as [row|]; [|apply IH].
    destruct (cose_key (at_key acd)) as [kb|e]; cbn [alone]; [|apply IH].
    destruct (insert_cred _ d) as [d'|e]; apply IH.
Qed.

Lemma reloads_alone n t d : alone (reloads n t) d = alone t d.
Proof. induction n as [|n IH]; [reflexivity|exact IH]. Qed.

Lemma handle_alone x d : alone (handle W E x) d = serve W E d x.
Proof.
  destruct x as [c q]. unfold handle, serve. cbn [fst snd]. destruct q as [un|i k n|un|i k n].
  - destruct un as [n|]; [|reflexivity]. cbn [t_registration_request registration_request alone].
    destruct (user_by_name n d) as [u|]; cbn [alone issue].
    + destruct (insert_chal _ _ _ d) as [[h d']|e]; reflexivity.
    + destruct (insert_user n (ch_handle c) d) as [[u d1]|e]; [|reflexivity]. cbn [alone issue reload].
      destruct (insert_chal _ _ _ d1) as [[h d']|e]; reflexivity.
  - unfold t_registration_response, registration_response.
    destruct (parse_form W i k n) as [[[i' cr] n']|]; [|reflexivity].
    destruct (cr_response cr); [|reflexivity].
    unfold t_ceremony, find_ceremony. cbn [alone].
    destruct (match ap_int E i' with Some m => chal_by_id m d | None => None end) as [h|]; [|reflexivity].
    cbn [alone]. destruct (user_by_name n' d) as [u|]; [|reflexivity].
    destruct (APP_TIMEOUT <? ch_clock c - hr_timestamp h)%Z; [reflexivity|]. apply statements_alone.
  - destruct un as [n|]; [|reflexivity]. cbn [t_authentication_request authentication_request alone].
    destruct (user_by_name n d) as [u|]; [|reflexivity]. cbn [alone issue].
    destruct (insert_chal _ _ _ d) as [[h d']|e]; [apply reloads_alone|reflexivity].
  - unfold t_authentication_response, authentication_response.
    destruct (parse_form W i k n) as [[[i' cr] n']|]; [|reflexivity].
    destruct (cr_response cr); [reflexivity|].
    unfold t_ceremony, find_ceremony. cbn [alone].
    destruct (match ap_int E i' with Some m => chal_by_id m d | None => None end) as [h'|]; [|reflexivity].
    cbn [alone]. destruct (user_by_name n' d) as [u|]; [|reflexivity].
    destruct (APP_TIMEOUT <? ch_clock c - hr_timestamp h')%Z; [reflexivity|]. apply statements_alone.
Qed.

(** ** Growth *)

Definition same_row (c c' : cred_row) : Prop :=
  kr_id c' = kr_id c /\ kr_key c' = kr_key c /\ kr_user c' = kr_user c.

Record Grow (d d' : database) : Prop := {
  gr_users : exists us, db_users d' = db_users d ++ us;
  gr_chals : exists hs, db_chals d' = db_chals d ++ hs;
  gr_creds : forall c, In c (db_creds d) -> exists c', In c' (db_creds d') /\ same_row c c';
}.
Lemma same_row_refl c : same_row c c.
Proof. repeat split. Qed.
Lemma same_row_trans a b c : same_row a b -> same_row b c -> same_row a c.
Proof. intros (A1 & A2 & A3) (B1 & B2 & B3). repeat split; congruence. Qed.
Lemma grow_refl d : Grow d d.
Proof.
  split; [exists []; now rewrite app_nil_r|exists []; now rewrite app_nil_r|].
  intros c I. exists c. split; [assumption|apply same_row_refl].
Qed.
Lemma grow_trans a b c : Grow a b -> Grow b c -> Grow a c.
Proof.
  intros [(u1 & U1) (h1 & H1) C1] [(u2 & U2) (h2 & H2) C2]. split.
  - exists (u1 ++ u2). now rewrite U2, U1, app_assoc.
  - exists (h1 ++ h2). now rewrite H2, H1, app_assoc.
  - intros x I. apply C1 in I as (y & I & S). apply C2 in I as (z & I & S').
    exists z. split; [assumption|eapply same_row_trans; eauto].
Qed.
Lemma grow_user d d' u : Grow d d' -> In u (db_users d) -> In u (db_users d').
Proof. intros [(us & ->) _ _] I. apply in_or_app. now left. Qed.
Lemma grow_chal d d' u : Grow d d' -> In u (db_chals d) -> In u (db_chals d').
Proof. intros [_ (us & ->) _] I. apply in_or_app. now left. Qed.

Lemma stored_count_set id i n d : stored_count id (set_count i n d) =
  if bytes_eqb i id then match cred_by_id id d with Some _ => Some n | None => None end
  else stored_count id d.
Proof.
  unfold stored_count, cred_by_id, set_count. cbn [db_creds].
  induction (db_creds d) as [|c l IH]; cbn [map find].
  - now destruct (bytes_eqb i id).
  - destruct (bytes_eqb (kr_id c) i) eqn:B; cbn [kr_id].
    + apply bytes_eqb_spec in B. rewrite B. destruct (bytes_eqb i id) eqn:B'; cbn [kr_count]; [reflexivity|].
      exact IH.
    + destruct (bytes_eqb (kr_id c) id) eqn:B'.
      * apply bytes_eqb_spec in B'. rewrite B' in B.
        destruct (bytes_eqb i id) eqn:B2; [|reflexivity].
        apply bytes_eqb_spec in B2. subst i. rewrite (proj2 (bytes_eqb_spec id id) eq_refl) in B. discriminate.
      * exact IH.
Qed.
Lemma stored_count_add id c d : ~ In (kr_id c) (map kr_id (db_creds d)) -> kr_count c = None ->
  stored_count id (add_cred c d) = stored_count id d.
Proof.
  intros N K. unfold stored_count, cred_by_id, add_cred. cbn [db_creds].
  induction (db_creds d) as [|c' l IH]; cbn [app find].
  - destruct (bytes_eqb (kr_id c) id); [exact K|reflexivity].
  - destruct (bytes_eqb (kr_id c') id); [reflexivity|]. apply IH. intro I. apply N. cbn. auto.
Qed.

(** ** What a handler may do *)

Section Thread.
Variable ex : Prop.
Variable x : chance * request.

Definition own (id : bytes) : Prop :=
  exists i n cr, Authenticates W (snd x) i n cr /\ cr_raw_id cr = id.
Definition Rely (d d' : database) : Prop :=
  Grow d d' /\ (ex -> forall id, own id -> stored_count id d' = stored_count id d).

Definition RegisteredBy (t : thread) (d d' : database) (c : cred_row) : Prop :=
  t = Answered Success /\
  exists i n cr u k, Registers W (snd x) i n cr /\ kr_id c = cr_raw_id cr /\
    In u (db_users d') /\ ur_username u = n /\ kr_user c = ur_id u /\
    AttestedKey W cr k /\ cose_key (Some k) = Ok (kr_key c) /\ kr_count c = None.
Definition Built (o : pobj) : Prop :=
  (exists co b u c, o = obj_of_creation co /\ creation_build b u c = Ok co) \/
  (exists ro b c a, o = obj_of_request ro /\ request_build b c a = Ok ro).
(** What is left of a handler that has stored challenge [h]. *)
Fixpoint owes (h : chal_row) (t : thread) : Prop :=
  match t with
  | Answered r => (exists o, Built o /\ r = send_options E h (Ok o)) \/ Broken r
  | Statement f g => g = broken /\ forall d, snd (f d) = d /\ owes h (fst (f d))
  end.
Definition IssuedBy (t : thread) (h : chal_row) : Prop :=
  exists n, owes h t /\ Asks (snd x) n /\
    hr_request h = ch_challenge (fst x) /\ hr_timestamp h = ch_clock (fst x).
Definition CountedBy (t : thread) (d d' : database) (id : bytes) : Prop :=
  t = Answered Success /\
  exists i n cr c, Authenticates W (snd x) i n cr /\ cr_raw_id cr = id /\ LoginCounter cr c /\
    stored_count id d' = Some (Z.of_N c) /\
    (ex -> forall m, stored_count id d = Some m -> (m < Z.of_N c)%Z).

Record Guar (d : database) (t : thread) (d' : database) : Prop := {
  gu_con : Consistent d';
  gu_grow : Grow d d';
  gu_cred : forall c, In c (db_creds d') ->
    (exists c0, In c0 (db_creds d) /\ same_row c0 c) \/ RegisteredBy t d d' c;
  gu_chal : forall h, In h (db_chals d') -> In h (db_chals d) \/ IssuedBy t h;
  gu_count : forall id, stored_count id d' = stored_count id d \/ CountedBy t d d' id;
  gu_fresh : forall i n cr, t = Answered Success -> Registers W (snd x) i n cr ->
    ~ In (cr_raw_id cr) (map kr_id (db_creds d));
  gu_login : forall i n cr, t = Answered Success -> Authenticates W (snd x) i n cr ->
    CountedBy t d d' (cr_raw_id cr);
}.

Definition RegRow (d : database) (i n : pystr) (cr : credential) : Prop :=
  exists h u att ad acd k row,
    ap_int E i = Some (hr_id h) /\ In h (db_chals d) /\
    (ch_clock (fst x) - hr_timestamp h <= 60000)%Z /\
    In u (db_users d) /\ ur_username u = n /\ RegistrationSpec W (app_attestation cr n u h) att /\
    ao_auth_data att = Some ad /\ ad_attested ad = Some acd /\ at_key acd = Some k /\
    In row (db_creds d) /\ kr_id row = cr_raw_id cr /\ kr_user row = ur_id u /\
    cose_key (Some k) = Ok (kr_key row).
Definition LoginRow (d : database) (i n : pystr) (cr : credential) : Prop :=
  exists h u c k m ad u' rp,
    ap_int E i = Some (hr_id h) /\ In h (db_chals d) /\
    (ch_clock (fst x) - hr_timestamp h <= 60000)%Z /\
    In u (db_users d) /\ ur_username u = n /\
    In c (db_creds d) /\ kr_id c = cr_raw_id cr /\ kr_user c = ur_id u /\
    parse_cose_key_bytes W (kr_key c) = Ok k /\
    AssertionSpec W (app_assertion cr n u h)
      {| cdt_key := k; cdt_sign_count := m; cdt_user := app_user (ur_username u) (ur_handle u);
         cdt_rp := None |} ad u' rp.
Definition Fin (d : database) (r : reply) : Prop :=
  r = Success ->
  (forall i n cr, Registers W (snd x) i n cr -> RegRow d i n cr) /\
  (forall i n cr, Authenticates W (snd x) i n cr -> LoginRow d i n cr).

Fixpoint safe (t : thread) (d : database) : Prop :=
  match t with
  | Answered r => Fin d r
  | Statement f _ => forall d1, Consistent d1 -> Rely d d1 ->
      match f d1 with (t', d2) => Guar d1 t' d2 /\ safe t' d2 end
  end.

Lemma rely_refl d : Rely d d.
Proof. split; [apply grow_refl|reflexivity]. Qed.
Lemma rely_trans a b c : Rely a b -> Rely b c -> Rely a c.
Proof.
  intros [A1 A2] [B1 B2]. split; [eapply grow_trans; eauto|].
  intros e id O. rewrite (B2 e id O). now apply A2.
Qed.

Lemma regrow_grow d d' i n cr : Grow d d' -> RegRow d i n cr -> RegRow d' i n cr.
Proof.
  intros G (h & u & att & ad & acd & k & row & H1 & H2 & H3 & H4 & H5 & H6 & H7 & H8 & H9 & H10 & H11 & H12 & H13).
  destruct (gr_creds _ _ G row H10) as (row' & I & S1 & S2 & S3).
  exists h, u, att, ad, acd, k, row'. repeat split; auto; try congruence.
  - eapply grow_chal; eauto.
  - eapply grow_user; eauto.
Qed.
Lemma loginrow_grow d d' i n cr : Grow d d' -> LoginRow d i n cr -> LoginRow d' i n cr.
Proof.
  intros G (h & u & c & k & m & ad & u' & rp & H1 & H2 & H3 & H4 & H5 & H6 & H7 & H8 & H9 & H10).
  destruct (gr_creds _ _ G c H6) as (c' & I & S1 & S2 & S3).
  exists h, u, c', k, m, ad, u', rp. repeat (split; auto); try congruence.
  - eapply grow_chal; eauto.
  - eapply grow_user; eauto.
Qed.
Lemma fin_grow d d' r : Grow d d' -> Fin d r -> Fin d' r.
Proof.
  intros G F S. destruct (F S) as [F1 F2]. split; intros i n cr Q.
  - eapply regrow_grow; eauto.
  - eapply loginrow_grow; eauto.
Qed.

Lemma safe_rely t : forall d d', Rely d d' -> safe t d -> safe t d'.
Proof.
  destruct t as [r|f g]; cbn; intros d d' R S.
  - eapply fin_grow; [apply R|assumption].
  - intros d1 C R1. apply S; [assumption|]. eapply rely_trans; eauto.
Qed.

Lemma guar_read d t : Consistent d -> t <> Answered Success -> Guar d t d.
Proof.
  intros C N. split; [assumption|apply grow_refl| |now left|now left| |].
  - intros c I. left. exists c. split; [assumption|apply same_row_refl].
  - intros; contradiction.
  - intros; contradiction.
Qed.
Lemma fin_refused d r : r <> Success -> Fin d r.
Proof. intros N S. contradiction. Qed.

(** A statement that only reads. *)
Lemma safe_answer d r : Consistent d -> r <> Success -> Guar d (Answered r) d /\ safe (Answered r) d.
Proof. intros C N. split; [apply guar_read; [assumption|congruence]|now apply fin_refused]. Qed.
Lemma safe_more d f g : Consistent d -> safe (Statement f g) d ->
  Guar d (Statement f g) d /\ safe (Statement f g) d.
Proof. intros C S. split; [apply guar_read; [assumption|discriminate]|assumption]. Qed.

Lemma send_options_not h o : send_options E h o <> Success.
Proof. unfold send_options. destruct o as [o|]; [|easy]. now destruct (jsonify _ _ _ o). Qed.

(** ** Requests for options *)

Lemma safe_reloads m r d : r <> Success -> safe (reloads m (reload (Answered r))) d.
Proof.
  intro N. revert d. induction m as [|m IH]; intros d d1 C R.
  - now apply safe_answer.
  - change (Guar d1 (reloads m (reload (Answered r))) d1 /\ safe (reloads m (reload (Answered r))) d1).
    specialize (IH d1). destruct m as [|m]; apply safe_more; assumption.
Qed.
Lemma owes_reloads m h o : Built o -> owes h (reloads m (reload (Answered (send_options E h (Ok o))))).
Proof.
  intro B. induction m as [|m IH]; cbn; split; try reflexivity; intro d; split; try reflexivity; [left; eauto|exact IH].
Qed.
Lemma reloads_not m t : reloads m (reload t) <> Answered Success.
Proof. now destruct m. Qed.

Lemma safe_issue n m u o d : Built o -> Asks (snd x) n -> In u (db_users d) ->
  safe (issue E (fst x) (ur_id u) m (Ok o)) d.
Proof.
  intros BU A U d1 C R.
  destruct (insert_chal (ch_challenge (fst x)) (ch_clock (fst x)) (ur_id u) d1) as [[h d2]|e] eqn:I.
  2:{ apply safe_answer; [assumption|discriminate]. }
  split; [|apply safe_reloads, send_options_not].
  assert (C2 : Consistent d2).
  { eapply consistent_chal; eauto. apply in_map. eapply grow_user; [apply R|assumption]. }
  apply insert_chal_ok in I as (I1 & I2 & ->).
  split.
  - assumption.
  - split; cbn; [exists []; now rewrite app_nil_r|eexists; reflexivity|].
    intros c HI. exists c. split; [assumption|apply same_row_refl].
  - intros c HI. left. exists c. split; [assumption|apply same_row_refl].
  - intros h' HI. cbn in HI. apply in_app_or in HI as [HI|[<-|[]]]; [now left|]. right.
    exists n. split; [now apply owes_reloads|]. subst h. auto.
  - intro id. now left.
  - intros i n' cr Q. now apply reloads_not in Q.
  - intros i n' cr Q. now apply reloads_not in Q.
Qed.

Lemma safe_registration_request n d : snd x = RegistrationRequest n ->
  safe (t_registration_request E (fst x) n) d.
Proof.
  intro Q. destruct n as [n|]; [|now apply fin_refused]. cbn [t_registration_request].
  assert (A : Asks (snd x) n) by now left.
  intros d1 C R. destruct (user_by_name n d1) as [u|] eqn:U.
  - apply user_by_name_in in U as [U _]. apply safe_more; [assumption|].
    eapply safe_issue; eauto. left. eexists _, APP_CCO_BUILDER, (app_user n (ur_handle u)), (ch_challenge (fst x)); now split.
  - apply safe_more; [assumption|]. intros d2 C2 R2.
    destruct (insert_user n (ch_handle (fst x)) d2) as [[u d3]|e] eqn:I.
    2:{ apply safe_answer; [assumption|discriminate]. }
    pose proof (consistent_user _ _ _ _ _ C2 I) as C3. apply insert_user_ok in I as (I1 & I2 & I3 & ->).
    split.
    + split.
      * assumption.
      * split; cbn; [eexists; reflexivity|exists []; now rewrite app_nil_r|].
        intros c HI. exists c. split; [assumption|apply same_row_refl].
      * intros c HI. left. exists c. split; [assumption|apply same_row_refl].
      * intros h HI. now left.
      * intro id. now left.
      * discriminate.
      * discriminate.
    + intros d4 C4 R4. apply safe_more; [assumption|].
      eapply safe_issue; eauto; [left; eexists _, APP_CCO_BUILDER, (app_user n (ur_handle u)), (ch_challenge (fst x)); now split|].
      eapply grow_user; [apply R4|]. cbn. apply in_or_app. right. now left.
Qed.

Lemma safe_authentication_request n d : snd x = AuthenticationRequest n ->
  safe (t_authentication_request E (fst x) n) d.
Proof.
  intro Q. destruct n as [n|]; [|now apply fin_refused]. cbn [t_authentication_request].
  assert (A : Asks (snd x) n) by now right.
  intros d1 C R. destruct (user_by_name n d1) as [u|] eqn:U.
  2:{ apply safe_answer; [assumption|discriminate]. }
  apply user_by_name_in in U as [U _]. apply safe_more; [assumption|].
  intros d2 C2 R2. apply safe_more; [assumption|].
  eapply safe_issue; eauto; [right; eexists _, APP_CRO_BUILDER, (ch_challenge (fst x)), _; now split|]. eapply grow_user; [apply R2|assumption].
Qed.

(** ** Responses *)

Lemma safe_ceremony i n go d :
  (forall h u d', ap_int E i = Some (hr_id h) -> In h (db_chals d') -> In u (db_users d') ->
     ur_username u = n -> (ch_clock (fst x) - hr_timestamp h <= 60000)%Z -> Consistent d' ->
     Guar d' (go h u) d' /\ safe (go h u) d') ->
  safe (t_ceremony E (ch_clock (fst x)) i n go) d.
Proof.
  intros G d1 C R. destruct (match ap_int E i with Some m => chal_by_id m d1 | None => None end) as [h|] eqn:H.
  2:{ apply safe_answer; [assumption|discriminate]. }
  destruct (ap_int E i) as [m|] eqn:I; [|discriminate]. apply chal_by_id_in in H as [H1 H2]. subst m.
  apply safe_more; [assumption|]. intros d2 C2 R2.
  destruct (user_by_name n d2) as [u|] eqn:U.
  2:{ apply safe_answer; [assumption|discriminate]. }
  apply user_by_name_in in U as [U1 U2].
  destruct (Z.ltb_spec APP_TIMEOUT (ch_clock (fst x) - hr_timestamp h)) as [L|L].
  - apply safe_answer; [assumption|discriminate].
  - apply G; auto. eapply grow_chal; [apply R2|assumption].
Qed.

Lemma conclude_raise f e : conclude f (wrap (Raise e)) <> Success.
Proof.
  destruct e as [[]| |]; discriminate.
Qed.

Lemma safe_attestation i n cr h u d : Registers W (snd x) i n cr ->
  ap_int E i = Some (hr_id h) -> In h (db_chals d) -> In u (db_users d) ->
  ur_username u = n -> (ch_clock (fst x) - hr_timestamp h <= 60000)%Z -> Consistent d ->
  let t := statements W (conclude "Could not handle credential attestation")
             (handle_credential_attestation W (app_attestation cr n u h)) in
  Guar d t d /\ safe t d.
Proof.
  intros RG H1 H2 H3 H4 H5 C. cbv zeta. unfold handle_credential_attestation, handle_credential_attestation_with. fold (attestation_checks W).
  destruct (attestation_checks W (app_attestation cr n u h)) as [[att [ty path]]|e] eqn:K.
  2:{ cbn [statements]. apply safe_answer; [assumption|apply conclude_raise]. }
  pose proof K as S. apply attestation_iff in S as (S & -> & ->).
  pose proof S as (cdj & aob & adb & ad & S1 & S2 & S3 & S4 & S5 & Eatt).
  cbn [statements app_attestation ra_credential ra_user ra_rp].
  rewrite Eatt. cbn [ao_auth_data].
  destruct (ad_attested ad) as [acd|] eqn:AA.
  2:{ cbn [statements]. apply safe_answer; [assumption|apply conclude_raise]. }
  assert (EA : ao_auth_data att = Some ad) by now rewrite Eatt.
  destruct (registration_key W _ _ _ _ _ _ _ S EA AA) as (k & KA & AK).
  apply safe_more; [assumption|]. intros d1 C1 R1.
  assert (U1 : In u (db_users d1)) by (eapply grow_user; [apply R1|assumption]).
  cbn [app_user us_id]. rewrite (user_by_handle_find d1 u C1 U1).
  destruct (cose_key (at_key acd)) as [kb|e] eqn:CK.
  2:{ cbn [statements]. apply safe_answer; [assumption|apply conclude_raise]. }
  apply safe_more; [assumption|]. intros d2 C2 R2.
  assert (U2 : In u (db_users d2)) by (eapply grow_user; [apply R2|assumption]).
  destruct (insert_cred _ d2) as [d3|e] eqn:I.
  2:{ cbn [statements]. apply safe_answer; [assumption|apply conclude_raise]. }
  cbn [statements answer_result wrap conclude].
  assert (C3 : Consistent d3) by (eapply consistent_cred; eauto; cbn; now apply in_map).
  apply insert_cred_ok in I as [I ->]. cbn [kr_id] in I.
  set (row := {| kr_id := cr_raw_id cr; kr_count := None; kr_key := kb; kr_user := ur_id u |}) in *.
  rewrite KA in CK.
  split; [split|].
  - assumption.
  - split; cbn; [exists []; now rewrite app_nil_r|exists []; now rewrite app_nil_r|].
    intros c HI. exists c. split; [apply in_or_app; now left|apply same_row_refl].
  - intros c HI. cbn in HI. apply in_app_or in HI as [HI|[<-|[]]].
    + left. exists c. split; [assumption|apply same_row_refl].
    + right. split; [reflexivity|]. exists i, n, cr, u, k. repeat (split; [assumption || reflexivity|]).
      repeat split; auto.
  - intros h' HI. now left.
  - intro id. left. now apply stored_count_add.
  - intros i' n' cr' _ RG'. destruct (registers_fun W _ _ _ _ _ _ _ RG RG') as (_ & _ & <-). exact I.
  - intros i' n' cr' _ (t & Q & _). destruct RG as (t' & Q' & _). congruence.
  - intros _. split.
    + intros i' n' cr' RG'. destruct (registers_fun W _ _ _ _ _ _ _ RG RG') as (<- & <- & <-).
      exists h, u, att, ad, acd, k, row. split; [assumption|].
      split; [cbn; eapply (grow_chal d d2); [eapply grow_trans; [apply R1|apply R2]|assumption]|].
      split; [assumption|]. split; [exact U2|]. split; [assumption|]. split; [exact S|].
      split; [assumption|]. split; [assumption|]. split; [assumption|].
      split; [cbn; apply in_or_app; right; now left|]. auto.
    + intros i' n' cr' (t & Q & _). destruct RG as (t' & Q' & _). congruence.
Qed.

Lemma cred_row_fun d c c' : Consistent d -> In c (db_creds d) -> In c' (db_creds d) ->
  kr_id c = kr_id c' -> c = c'.
Proof. intros C. apply NoDup_map_eq. apply C. Qed.

Lemma safe_assertion i n cr h u d : Authenticates W (snd x) i n cr ->
  ap_int E i = Some (hr_id h) -> In h (db_chals d) -> In u (db_users d) ->
  ur_username u = n -> (ch_clock (fst x) - hr_timestamp h <= 60000)%Z -> Consistent d ->
  let t := statements W (conclude "Could not handle credential assertion")
             (handle_credential_assertion W (app_assertion cr n u h)) in
  Guar d t d /\ safe t d.
Proof.
  intros AU H1 H2 H3 H4 H5 C. cbv zeta. unfold handle_credential_assertion.
  destruct (assertion_pre W (app_assertion cr n u h)) as [os|e] eqn:P.
  2:{ cbn [statements]. apply safe_answer; [assumption|apply conclude_raise]. }
  cbn [statements]. apply safe_more; [assumption|]. intros d1 C1 R1.
  cbn [app_assertion aa_credential].
  destruct (cred_by_id (cr_raw_id cr) d1) as [row|] eqn:CI.
  2:{ cbn [statements]. apply safe_answer; [assumption|apply conclude_raise]. }
  pose proof CI as CI'. apply cred_by_id_in in CI' as [CI1 CI2].
  destruct (parse_cose_key_bytes W (kr_key row)) as [k|e] eqn:PK.
  2:{ cbn [statements]. apply safe_answer; [assumption|apply conclude_raise]. }
  apply safe_more; [assumption|]. intros d2 C2 R2.
  destruct (user_by_id (kr_user row) d2) as [u2|] eqn:UI.
  2:{ cbn [statements]. apply safe_answer; [assumption|apply conclude_raise]. }
  apply user_by_id_in in UI as [UI1 UI2].
  destruct (assertion_checks W _ os _) as [[[ad u'] rp]|e] eqn:K.
  2:{ cbn [statements]. apply safe_answer; [assumption|apply conclude_raise]. }
  assert (S : AssertionSpec W (app_assertion cr n u h)
    {| cdt_key := k; cdt_sign_count := kr_count row;
       cdt_user := app_user (ur_username u2) (ur_handle u2); cdt_rp := None |} ad u' rp).
  { apply assertion_iff. exists os. split; [exact P|exact K]. }
  clear K. cbn [statements]. apply safe_more; [assumption|]. intros d3 C3 R3.
  destruct (cred_by_id (cr_raw_id cr) d3) as [row3|] eqn:CI3.
  2:{ cbn [statements]. apply safe_answer; [assumption|apply conclude_raise]. }
  apply safe_more; [assumption|]. intros d4 C4 R4.
  assert (R14 : Rely d1 d4) by (eapply rely_trans; [exact R2|]; eapply rely_trans; eauto).
  assert (R04 : Rely d d4) by (eapply rely_trans; eauto).
  assert (U4 : In u (db_users d4)) by (eapply grow_user; [apply R04|assumption]).
  assert (UI4 : In u2 (db_users d4)).
  { eapply grow_user; [|exact UI1]. eapply grow_trans; [apply R3|apply R4]. }
  (* the owner of the credential is the user *)
  assert (u2 = u) as ->.
  { destruct S as (cdj & adb & sig & uh & _ & _ & (S2 & S3 & _) & _). cbn in S2, S3. subst u'. cbn in S3.
    eapply (NoDup_map_eq ur_handle); [apply C4|assumption|assumption|]. now symmetry. }
  pose proof S as S0. destruct S0 as (cdj & adb & sig & uh & S1 & _ & _ & _ & _ & (S6 & _) & _ & S8).
  cbn [app_assertion aa_credential] in S1.
  assert (LC : LoginCounter cr (ad_sign_count ad)).
  { exists cdj, adb, sig, uh. split; [assumption|].
    now destruct (auth_fields _ _ _ (proj2 (auth_reads_iff W _ _) S6)) as (_ & _ & _ & -> & _). }
  destruct (gr_creds _ _ (proj1 R14) row CI1) as (row4 & I4 & T1 & T2 & T3).
  assert (F4 : cred_by_id (cr_raw_id cr) d4 = Some row4).
  { rewrite <- CI2, <- T1. now apply cred_by_id_find. }
  set (d5 := set_count (cr_raw_id cr) (Z.of_N (ad_sign_count ad)) d4).
  assert (SC : stored_count (cr_raw_id cr) d5 = Some (Z.of_N (ad_sign_count ad))).
  { unfold d5. rewrite stored_count_set, F4. now rewrite (proj2 (bytes_eqb_spec _ _) eq_refl). }
  assert (CB : CountedBy (Answered Success) d4 d5 (cr_raw_id cr)).
  { split; [reflexivity|]. exists i, n, cr, (ad_sign_count ad). repeat (split; [assumption || reflexivity|]).
    intros e m M. assert (O : own (cr_raw_id cr)) by (exists i, n, cr; auto).
    rewrite (proj2 R14 e _ O) in M. unfold stored_count in M. rewrite CI in M.
    destruct (spec_count W _ _ _ _ _ S eq_refl) as [Q|(z & Q & L)]; cbn in Q; [congruence|].
    rewrite M in Q. injection Q as ->. exact L. }
  cbn [statements answer_result wrap conclude].
  split; [split|].
  - now apply consistent_count.
  - split; cbn; [exists []; now rewrite app_nil_r|exists []; now rewrite app_nil_r|].
    intros c HI. destruct (bytes_eqb (kr_id c) (cr_raw_id cr)) eqn:B.
    + eexists. split; [apply in_map_iff; exists c; split; [reflexivity|assumption]|]. rewrite B. repeat split.
    + eexists. split; [apply in_map_iff; exists c; split; [reflexivity|assumption]|]. rewrite B. repeat split.
  - intros c HI. left. apply set_count_in in HI as (c0 & HI & [[_ ->]|[_ ->]]); exists c0;
      (split; [assumption|repeat split]).
  - intros h' HI. now left.
  - intro id. destruct (bytes_eqb (cr_raw_id cr) id) eqn:B.
    + apply bytes_eqb_spec in B. subst id. now right.
    + left. unfold d5. now rewrite stored_count_set, B.
  - intros i' n' cr' _ (t & Q & _). destruct AU as (t' & Q' & _). congruence.
  - intros i' n' cr' _ AU'. destruct (authenticates_fun W _ _ _ _ _ _ _ AU AU') as (_ & _ & <-). exact CB.
  - intros _. split.
    + intros i' n' cr' (t & Q & _). destruct AU as (t' & Q' & _). congruence.
    + intros i' n' cr' AU'. destruct (authenticates_fun W _ _ _ _ _ _ _ AU AU') as (<- & <- & <-).
      assert (I5 : exists row5, In row5 (db_creds d5) /\ same_row row4 row5).
      { unfold d5. cbn. eexists. split; [apply in_map_iff; exists row4; split; [reflexivity|assumption]|].
        destruct (bytes_eqb (kr_id row4) (cr_raw_id cr)); repeat split. }
      destruct I5 as (row5 & I5 & V1 & V2 & V3).
      exists h, u, row5, k, (kr_count row), ad, u', rp.
      split; [assumption|]. split; [cbn; eapply (grow_chal d d4); [apply R04|assumption]|].
      split; [assumption|]. split; [exact U4|]. split; [assumption|]. split; [exact I5|].
      split; [congruence|]. split; [congruence|]. split; [congruence|]. exact S.
Qed.

Lemma safe_handle d : safe (handle W E x) d.
Proof.
  destruct (snd x) as [n|i k n|n|i k n] eqn:Q; unfold handle; rewrite Q.
  - now apply safe_registration_request.
  - unfold t_registration_response. destruct (parse_form W i k n) as [[[i' cr] n']|] eqn:P;
      [|now apply fin_refused].
    apply parse_form_ok in P as (t & -> & -> & -> & P).
    destruct (cr_response cr) as [cdj aob|]; [|now apply fin_refused].
    apply safe_ceremony. intros h u d' A1 A2 A3 A4 A5 A6.
    eapply safe_attestation; eauto. exists t. auto.
  - now apply safe_authentication_request.
  - unfold t_authentication_response. destruct (parse_form W i k n) as [[[i' cr] n']|] eqn:P;
      [|now apply fin_refused].
    apply parse_form_ok in P as (t & -> & -> & -> & P).
    destruct (cr_response cr) as [|cdj adb sig uh]; [now apply fin_refused|].
    apply safe_ceremony. intros h u d' A1 A2 A3 A4 A5 A6.
    eapply safe_assertion; eauto. exists t. auto.
Qed.

End Thread.
End App.
