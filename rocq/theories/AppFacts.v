(** * AppFacts: proofs about the example application. *)
From Coq Require Import List NArith ZArith Bool String Lia.
From Verif Require Import Base PyVal B64 Utf8 Url CaseConv Cbor Types World Parsers Crypto
  Backends Spec Jsonify Builders OptionSpec BaseFacts RaiseFacts BackendFacts AssertFacts App AppSpec.
Import ListNotations.
Local Open Scope list_scope.

(** ** Queries *)

Lemma find_some_in {A} (f : A -> bool) l a : find f l = Some a -> In a l /\ f a = true.
Proof. apply find_some. Qed.

Lemma user_by_name_in n d u : user_by_name n d = Some u -> In u (db_users d) /\ ur_username u = n.
Proof. intro H. apply find_some in H as [H1 H2]. apply str_eqb_spec in H2. auto. Qed.
Lemma user_by_handle_in h d u : user_by_handle h d = Some u -> In u (db_users d) /\ ur_handle u = h.
Proof. intro H. apply find_some in H as [H1 H2]. apply bytes_eqb_spec in H2. auto. Qed.
Lemma user_by_id_in i d u : user_by_id i d = Some u -> In u (db_users d) /\ ur_id u = i.
Proof. intro H. apply find_some in H as [H1 H2]. apply N.eqb_eq in H2. auto. Qed.
Lemma cred_by_id_in i d c : cred_by_id i d = Some c -> In c (db_creds d) /\ kr_id c = i.
Proof. intro H. apply find_some in H as [H1 H2]. apply bytes_eqb_spec in H2. auto. Qed.
Lemma chal_by_id_in i d c : chal_by_id i d = Some c -> In c (db_chals d) /\ hr_id c = i.
Proof. intro H. apply find_some in H as [H1 H2]. apply N.eqb_eq in H2. auto. Qed.

Lemma NoDup_map_eq {A B} (f : A -> B) l x y :
  NoDup (map f l) -> In x l -> In y l -> f x = f y -> x = y.
Proof.
  induction l as [|a l IH]; cbn; [easy|]. intros H Hx Hy E. inversion H as [|? ? Hn Hd]; subst.
  destruct Hx as [->|Hx], Hy as [->|Hy]; auto.
  - destruct Hn. rewrite E. now apply in_map.
  - destruct Hn. rewrite <- E. now apply in_map.
Qed.

Lemma find_unique {A B} (f : A -> B) (p : A -> bool) l a :
  (forall x, p x = true <-> f x = f a) -> NoDup (map f l) -> In a l -> find p l = Some a.
Proof.
  intros HP HN HI. destruct (find p l) as [b|] eqn:F.
  - apply find_some in F as [F1 F2]. apply HP in F2.
    now rewrite (NoDup_map_eq f l b a HN F1 HI F2).
  - apply (find_none _ _ F) in HI. rewrite (proj2 (HP a) eq_refl) in HI. discriminate.
Qed.

Lemma user_by_name_find d u : Consistent d -> In u (db_users d) ->
  user_by_name (ur_username u) d = Some u.
Proof.
  intros C H. apply find_unique with (f := ur_username); [|apply C|assumption].
  intro x. apply str_eqb_spec.
Qed.
Lemma user_by_handle_find d u : Consistent d -> In u (db_users d) ->
  user_by_handle (ur_handle u) d = Some u.
Proof.
  intros C H. apply find_unique with (f := ur_handle); [|apply C|assumption].
  intro x. apply bytes_eqb_spec.
Qed.
Lemma user_by_id_find d u : Consistent d -> In u (db_users d) ->
  user_by_id (ur_id u) d = Some u.
Proof.
  intros C H. apply find_unique with (f := ur_id); [|apply C|assumption].
  intro x. apply N.eqb_eq.
Qed.
Lemma cred_by_id_find d c : Consistent d -> In c (db_creds d) ->
  cred_by_id (kr_id c) d = Some c.
Proof.
  intros C H. apply find_unique with (f := kr_id); [|apply C|assumption].
  intro x. apply bytes_eqb_spec.
Qed.
Lemma chal_by_id_find d c : Consistent d -> In c (db_chals d) ->
  chal_by_id (hr_id c) d = Some c.
Proof.
  intros C H. apply find_unique with (f := hr_id); [|apply C|assumption].
  intro x. apply N.eqb_eq.
Qed.

Lemma next_id_fresh l : ~ In (next_id l) l.
Proof.
  assert (G : forall x, In x l -> (x < next_id l)%N).
  { unfold next_id. induction l as [|a l IH]; cbn; [easy|]. intros x [->|H]; [lia|].
    specialize (IH x H). lia. }
  intro H. apply G in H. lia.
Qed.

Lemma existsb_none {A B} (f : A -> B) (p : A -> bool) l b :
  (forall x, f x = b -> p x = true) -> existsb p l = false -> ~ In b (map f l).
Proof.
  intros HP HE HI. apply in_map_iff in HI as (x & <- & HI).
  assert (existsb p l = true) by (apply existsb_exists; eauto). congruence.
Qed.

Lemma NoDup_snoc {A} (l : list A) a : NoDup l -> ~ In a l -> NoDup (l ++ [a]).
Proof.
  intros H N. induction H as [|x l Hx H IH]; cbn.
  - constructor; [easy|constructor].
  - cbn in N. constructor; [|apply IH; tauto].
    intro I. apply in_app_or in I as [I|[->|[]]]; tauto.
Qed.

(** ** Inserting *)

Definition add_user (u : user_row) (d : database) : database :=
  {| db_users := db_users d ++ [u]; db_creds := db_creds d; db_chals := db_chals d |}.
Definition add_cred (c : cred_row) (d : database) : database :=
  {| db_users := db_users d; db_creds := db_creds d ++ [c]; db_chals := db_chals d |}.
Definition add_chal (h : chal_row) (d : database) : database :=
  {| db_users := db_users d; db_creds := db_creds d; db_chals := db_chals d ++ [h] |}.

Lemma insert_user_ok n hd d u d' : insert_user n hd d = Ok (u, d') <->
  ~ In n (map ur_username (db_users d)) /\ ~ In hd (map ur_handle (db_users d)) /\
  u = {| ur_id := next_id (map ur_id (db_users d)); ur_username := n; ur_handle := hd |} /\
  d' = add_user u d.
Proof.
  unfold insert_user. destruct (existsb _ _) eqn:X.
  - split; [discriminate|]. intros (H1 & H2 & _). apply existsb_exists in X as (r & I & X).
    apply orb_true_iff in X as [X|X].
    + apply str_eqb_spec in X. subst n. destruct H1. now apply in_map.
    + apply bytes_eqb_spec in X. subst hd. destruct H2. now apply in_map.
  - split.
    + intro H. injection H as <- <-.
      split; [|split; [|split; reflexivity]].
      * apply (existsb_none _ _ _ _ (fun x (e : ur_username x = n) =>
          proj2 (orb_true_iff _ _) (or_introl (proj2 (str_eqb_spec _ _) e))) X).
      * apply (existsb_none _ _ _ _ (fun x (e : ur_handle x = hd) =>
          proj2 (orb_true_iff _ _) (or_intror (proj2 (bytes_eqb_spec _ _) e))) X).
    + intros (_ & _ & -> & ->). reflexivity.
Qed.

Lemma insert_cred_ok c d d' : insert_cred c d = Ok d' <->
  ~ In (kr_id c) (map kr_id (db_creds d)) /\ d' = add_cred c d.
Proof.
  unfold insert_cred. destruct (existsb _ _) eqn:X.
  - split; [discriminate|]. intros (H1 & _). apply existsb_exists in X as (r & I & X).
    apply bytes_eqb_spec in X. destruct H1. rewrite <- X. now apply in_map.
  - split.
    + intro H. injection H as <-. split; [|reflexivity].
      apply (existsb_none _ _ _ _ (fun x e => proj2 (bytes_eqb_spec _ _) e) X).
    + intros (_ & ->). reflexivity.
Qed.

Lemma insert_chal_ok b ts un d h d' : insert_chal b ts un d = Ok (h, d') <->
  ~ In b (map hr_request (db_chals d)) /\
  h = {| hr_id := next_id (map hr_id (db_chals d)); hr_request := b; hr_timestamp := ts;
         hr_user := un |} /\
  d' = add_chal h d.
Proof.
  unfold insert_chal. destruct (existsb _ _) eqn:X.
  - split; [discriminate|]. intros (H1 & _). apply existsb_exists in X as (r & I & X).
    apply bytes_eqb_spec in X. destruct H1. rewrite <- X. now apply in_map.
  - split.
    + intro H. injection H as <- <-. split; [|split; reflexivity].
      apply (existsb_none _ _ _ _ (fun x e => proj2 (bytes_eqb_spec _ _) e) X).
    + intros (_ & -> & ->). reflexivity.
Qed.

Lemma consistent_empty : Consistent empty_db.
Proof. split; cbn; try constructor; easy. Qed.

Lemma consistent_user d n hd u d' : Consistent d -> insert_user n hd d = Ok (u, d') ->
  Consistent d'.
Proof.
  intros [A1 A2 A3 A4 A5 A6 A7 A8] H. apply insert_user_ok in H as (H1 & H2 & -> & ->).
  split; cbn; rewrite ?map_app; cbn; auto using NoDup_snoc, next_id_fresh.
  - intros c I. apply in_or_app. left. auto.
  - intros c I. apply in_or_app. left. auto.
Qed.
Lemma consistent_cred d c d' : Consistent d -> insert_cred c d = Ok d' ->
  In (kr_user c) (map ur_id (db_users d)) -> Consistent d'.
Proof.
  intros [A1 A2 A3 A4 A5 A6 A7 A8] H HU. apply insert_cred_ok in H as (H1 & ->).
  split; cbn; rewrite ?map_app; cbn; auto using NoDup_snoc.
  intros k I. apply in_app_or in I as [I|[<-|[]]]; auto.
Qed.
Lemma consistent_chal d b ts un h d' : Consistent d -> insert_chal b ts un d = Ok (h, d') ->
  In un (map ur_id (db_users d)) -> Consistent d'.
Proof.
  intros [A1 A2 A3 A4 A5 A6 A7 A8] H HU. apply insert_chal_ok in H as (H1 & -> & ->).
  split; cbn; rewrite ?map_app; cbn; auto using NoDup_snoc, next_id_fresh.
  intros k I. apply in_app_or in I as [I|[<-|[]]]; auto.
Qed.
Lemma set_count_ids i n d : map kr_id (db_creds (set_count i n d)) = map kr_id (db_creds d).
Proof.
  cbn. rewrite map_map. apply map_ext. intro c. destruct (bytes_eqb (kr_id c) i); reflexivity.
Qed.
Lemma set_count_in i n d c : In c (db_creds (set_count i n d)) <->
  exists c0, In c0 (db_creds d) /\
    ((kr_id c0 <> i /\ c = c0) \/
     (kr_id c0 = i /\ c = {| kr_id := kr_id c0; kr_count := Some n; kr_key := kr_key c0;
                             kr_user := kr_user c0 |})).
Proof.
  cbn. rewrite in_map_iff. split.
  - intros (c0 & H & I). exists c0. split; [assumption|].
    destruct (bytes_eqb (kr_id c0) i) eqn:B.
    + apply bytes_eqb_spec in B. auto.
    + apply bytes_eqb_false in B. auto.
  - intros (c0 & I & [[B ->]|[B ->]]).
    + exists c0. split; [|assumption]. apply bytes_eqb_false in B. now rewrite B.
    + exists c0. split; [|assumption]. apply bytes_eqb_spec in B. now rewrite B.
Qed.
Lemma consistent_count i n d : Consistent d -> Consistent (set_count i n d).
Proof.
  intros [A1 A2 A3 A4 A5 A6 A7 A8]. split; try rewrite set_count_ids; auto.
  intros c I. apply set_count_in in I as (c0 & I & [[_ ->]|[_ ->]]); cbn; auto.
Qed.

(** ** One request *)

Section App.
Variable W : World.
Variable E : appenv.

Lemma parse_form_ok i k n i' cr n' :
  parse_form W i k n = Some (i', cr, n') <->
  exists t, i = Some i' /\ k = Some t /\ n = Some n' /\ Carries W t cr.
Proof.
  unfold parse_form, Carries. destruct i as [i|], k as [t|], n as [n|];
    try (split; [discriminate|intros (? & ? & ? & ? & _); congruence]).
  split.
  - destruct (w_json_loads W t) as [v|] eqn:J; [|discriminate].
    destruct v as [ | | | | | | | |m| | ]; try discriminate.
    destruct (parse_public_key_credential W m) as [c|] eqn:P; [|discriminate].
    intro H. injection H as <- <- <-. exists t. repeat split. exists m. auto.
  - intros (t' & [= ->] & [= ->] & [= ->] & m & J & P). now rewrite J, P.
Qed.

Lemma find_ceremony_ok clock i n d h u :
  find_ceremony E clock i n d = inr (h, u) <->
  (exists id, ap_int E i = Some id /\ chal_by_id id d = Some h) /\
  user_by_name n d = Some u /\ (clock - hr_timestamp h <= 60000)%Z.
Proof.
  unfold find_ceremony. destruct (ap_int E i) as [id|].
  2:{ split; [discriminate|]. intros ((? & ? & _) & _). discriminate. }
  destruct (chal_by_id id d) as [h'|] eqn:C.
  2:{ split; [discriminate|]. intros ((? & [= <-] & ?) & _). congruence. }
  destruct (user_by_name n d) as [u'|].
  2:{ split; [discriminate|]. intros (_ & ? & _). discriminate. }
  destruct (Z.ltb_spec APP_TIMEOUT (clock - hr_timestamp h')) as [L|L]; unfold APP_TIMEOUT in L.
  - split; [discriminate|]. intros ((? & [= <-] & ?) & _ & ?). assert (h = h') by congruence. subst. lia.
  - split.
    + intros [= <- <-]. eauto 10.
    + intros ((? & [= <-] & ?) & [= <-] & _). assert (h = h') by congruence. now subst.
Qed.

Lemma find_ceremony_refuses clock i n d r : find_ceremony E clock i n d = inl r ->
  r <> Success /\ forall i v, r <> Options i v.
Proof.
  unfold find_ceremony, Success.
  destruct (match ap_int E i with Some _ => _ | None => _ end); [|intros [= <-]; split; easy].
  destruct (user_by_name n d); [|intros [= <-]; split; easy].
  destruct (APP_TIMEOUT <? _)%Z; [|easy]. intros [= <-]; split; easy.
Qed.

Lemma conclude_success f r : conclude f r = Success -> f <> "Success"%string -> r = Ok tt.
Proof.
  unfold conclude, Success. destruct r as [[]|e]; [reflexivity|].
  destruct (is_lib WebAuthnRPError e); discriminate.
Qed.
Lemma conclude_no_options f r i v : conclude f r <> Options i v.
Proof.
  unfold conclude. destruct r as [[]|e]; [easy|]. destruct (is_lib WebAuthnRPError e); easy.
Qed.

Lemma app_attest_unchanged d c att u d' a : app_attest d c att u = (d', a) -> a <> Ok None -> d' = d.
Proof.
  unfold app_attest. destruct (ao_auth_data att) as [ad|]; [|congruence].
  destruct (ad_attested ad) as [acd|]; [|congruence].
  destruct (user_by_handle (us_id u) d) as [row|]; [|congruence].
  destruct (cose_key (at_key acd)) as [kb|]; [|congruence].
  destruct (insert_cred _ d); congruence.
Qed.

Lemma app_attest_ok d c att u d' : app_attest d c att u = (d', Ok None) <->
  exists ad acd row kb,
    ao_auth_data att = Some ad /\ ad_attested ad = Some acd /\
    user_by_handle (us_id u) d = Some row /\ cose_key (at_key acd) = Ok kb /\
    insert_cred {| kr_id := cr_raw_id c; kr_count := None; kr_key := kb; kr_user := ur_id row |} d
    = Ok d'.
Proof.
  unfold app_attest. split.
  - destruct (ao_auth_data att) as [ad|]; [|congruence].
    destruct (ad_attested ad) as [acd|] eqn:A; [|congruence].
    destruct (user_by_handle (us_id u) d) as [row|]; [|congruence].
    destruct (cose_key (at_key acd)) as [kb|] eqn:K; [|congruence].
    destruct (insert_cred _ d) eqn:I; [|congruence]. intros [= <-]. exists ad, acd, row, kb. auto.
  - intros (ad & acd & row & kb & -> & -> & -> & -> & ->). reflexivity.
Qed.

(** The answer to a registration response. *)
Lemma cose_key_civil k : raises civil (cose_key k).
Proof.
  unfold cose_key, cose_dictionary, base_cose_dictionary. repeat civil_step.
Qed.
Lemma parse_cose_key_bytes_civil b : raises civil (parse_cose_key_bytes W b).
Proof.
  unfold parse_cose_key_bytes. apply raises_bind.
  - apply raises_catch; [|reflexivity]. unfold cbor_loads.
    destruct (w_cbor_load W b) as [[v r]|p]; [apply raises_ok|]. intros e H _. now injection H as <-.
  - intros v _. destruct v; try (apply raises_lib; reflexivity).
    eapply raises_weaken; [|apply (parse_cose_key_dict_raises W)]. intros [c|p|n]; cbn; easy.
Qed.
Lemma insert_cred_civil c d : raises civil (insert_cred c d).
Proof. unfold insert_cred. repeat civil_step. Qed.
Lemma raise_civil {A} (m : res A) e : raises civil m -> m = Raise e -> forall B, raises (A := B) civil (Raise e).
Proof. intros H Q B. apply raises_raise. now apply H. Qed.
Lemma refuse_civil {A} (m : res A) e : raises civil m -> m = Raise e -> forall B, raises (A := B) civil (Raise (refusal W e)).
Proof. intros H Q B. apply raises_raise. apply refusal_civil. now apply H. Qed.
Lemma app_civil : CivilRegistrar (app_registrar W).
Proof.
  split; [|split]; intros; cbn [r_get r_assert r_attest app_registrar snd].
  - unfold app_get. repeat first [apply parse_cose_key_bytes_civil | civil_step].
  - unfold app_assert. destruct (cred_by_id _ _); cbn [snd]; civil_step.
  - unfold app_attest. destruct (ao_auth_data att) as [ad|]; cbn [snd]; [|civil_step].
    destruct (ad_attested ad) as [acd|]; cbn [snd]; [|civil_step].
    destruct (user_by_handle _ _); cbn [snd]; [|civil_step].
    destruct (cose_key (at_key acd)) as [kb|e] eqn:K; cbn [snd].
    + destruct (insert_cred _ _) as [d'|e] eqn:I; cbn [snd]; [civil_step|]. apply raises_raise. now apply insert_cred_civil in I.
    + apply raises_raise. now apply cose_key_civil in K.
Qed.

Lemma wrapped_raise e : wrap (Raise e) <> Ok tt.
Proof. unfold wrap. destruct (is_lib _ e), (is_Exception e); discriminate. Qed.
Lemma wrapped_answer a : a <> Ok None -> wrap (answer_result W a) <> Ok tt.
Proof.
  intro N. destruct (answer_result W a) as [u|e] eqn:Q; [now apply answer_ok in Q|]. apply wrapped_raise.
Qed.

Lemma registration_run d A r d' f :
  run (app_registrar W) d (handle_credential_attestation W A)
    = {| out_state := d'; out_trace := f; out_result := r |} ->
  (r <> Ok tt /\ d' = d) \/
  (r = Ok tt /\ exists att, RegistrationSpec W A att /\
     app_attest d (ra_credential A) att (ra_user A) = (d', Ok None)).
Proof.
  intro H. pose proof (attest_run W (app_registrar W) d A) as R. rewrite H in R.
  inversion R as [e P E1|att s1 a G U E1]; subst.
  - left. split; [|reflexivity]. destruct e as [[]| |]; discriminate.
  - cbn [r_attest app_registrar] in U.
    destruct a as [[v|]|e].
    + left. split; [now apply wrapped_answer|]. eapply app_attest_unchanged; [exact U|discriminate].
    + right. split; [reflexivity|]. eauto.
    + left. split; [now apply wrapped_answer|]. eapply app_attest_unchanged; [exact U|discriminate].
Qed.

Lemma authentication_run d A r d' f :
  run (app_registrar W) d (handle_credential_assertion W A)
    = {| out_state := d'; out_trace := f; out_result := r |} ->
  (r <> Ok tt /\ d' = d) \/
  (r = Ok tt /\ exists cdt ad u rp, app_get W d (cr_raw_id (aa_credential A)) = Ok (Some cdt) /\
     AssertionSpec W A cdt ad u rp /\
     d' = set_count (cr_raw_id (aa_credential A)) (Z.of_N (ad_sign_count ad)) d).
Proof.
  intro H. pose proof (assert_run W (app_registrar W) d A) as R. rewrite H in R.
  inversion R as [e P E1|os s1 e P G E1|os s1 P G E1|os s1 cdt e P G C E1|s1 cdt ad u rp s2 a G C U E1];
    subst; cbn [r_get r_assert app_registrar] in *.
  - left. split; [|reflexivity]. destruct e as [[]| |]; discriminate.
  - left. injection G as <- _. split; [apply wrapped_raise|reflexivity].
  - left. injection G as <- _. split; [discriminate|reflexivity].
  - left. injection G as <- _. split; [|reflexivity]. destruct e as [[]| |]; discriminate.
  - injection G as <- G. unfold app_assert in U.
    destruct (cred_by_id (cr_raw_id (aa_credential A)) d) eqn:K.
    + injection U as <- <-. right. split; [reflexivity|]. exists cdt, ad, u, rp. auto.
    + injection U as <- <-. left. split; [now apply wrapped_answer|reflexivity].
Qed.

(** What any request can do. *)
Inductive Move (d : database) (x : chance * request) : reply -> database -> Prop :=
| mv_refused r : r <> Success -> (forall i v, r <> Options i v) -> Move d x r d
| mv_user n u d' e :
    snd x = RegistrationRequest (Some n) -> user_by_name n d = None ->
    insert_user n (ch_handle (fst x)) d = Ok (u, d') ->
    Move d x (ServerError e) d'
| mv_issue n u d1 h d2 o :
    Asks (snd x) n ->
    (user_by_name n d = Some u /\ d1 = d \/
     snd x = RegistrationRequest (Some n) /\ user_by_name n d = None /\
     insert_user n (ch_handle (fst x)) d = Ok (u, d1)) ->
    insert_chal (ch_challenge (fst x)) (ch_clock (fst x)) (ur_id u) d1 = Ok (h, d2) ->
    (snd x = RegistrationRequest (Some n) /\
     (exists co, creation_build APP_CCO_BUILDER (app_user n (ur_handle u)) (ch_challenge (fst x)) = Ok co /\
                 o = obj_of_creation co) \/
     snd x = AuthenticationRequest (Some n) /\
     (exists ro, request_build APP_CRO_BUILDER (ch_challenge (fst x))
        (Some (map (fun k => {| de_id := kr_id k; de_transports := None |})
                   (filter (fun k => N.eqb (kr_user k) (ur_id u)) (db_creds d)))) = Ok ro /\
        o = obj_of_request ro)) ->
    Move d x (send_options E h (Ok o)) d2
| mv_register i n cr h u att d' :
    Registers W (snd x) i n cr ->
    find_ceremony E (ch_clock (fst x)) i n d = inr (h, u) ->
    RegistrationSpec W (app_attestation cr n u h) att ->
    app_attest d cr att (app_user n (ur_handle u)) = (d', Ok None) ->
    Move d x Success d'
| mv_login i n cr h u cdt ad u' rp :
    Authenticates W (snd x) i n cr ->
    find_ceremony E (ch_clock (fst x)) i n d = inr (h, u) ->
    app_get W d (cr_raw_id cr) = Ok (Some cdt) ->
    AssertionSpec W (app_assertion cr n u h) cdt ad u' rp ->
    Move d x Success (set_count (cr_raw_id cr) (Z.of_N (ad_sign_count ad)) d).

Lemma serve_move d x : Move d x (fst (serve W E d x)) (snd (serve W E d x)).
Proof.
  destruct x as [c q]. unfold serve. cbn [fst snd]. destruct q as [un|i k n|un|i k n].
  - unfold registration_request. destruct un as [n|]; [|apply mv_refused; easy].
    destruct (user_by_name n d) as [u|] eqn:U.
    + destruct (insert_chal _ _ _ d) as [[h d2]|e] eqn:I; cbn [fst snd]; [|apply mv_refused; easy].
      cbn [creation_build APP_CCO_BUILDER cb_rp cb_pub_key_cred_params cb_attestation bind].
      eapply mv_issue with (n := n); cbn [fst snd]; [now left|now left; eauto|exact I|].
      left. split; [reflexivity|]. eexists. split; [reflexivity|]. reflexivity.
    + destruct (insert_user n (ch_handle c) d) as [[u d1]|e] eqn:IU; [|apply mv_refused; easy].
      destruct (insert_chal _ _ _ d1) as [[h d2]|e] eqn:I; cbn [fst snd].
      * cbn [creation_build APP_CCO_BUILDER cb_rp cb_pub_key_cred_params cb_attestation bind].
        eapply mv_issue with (n := n); cbn [fst snd]; [now left|right; eauto|exact I|].
        left. split; [reflexivity|]. eexists. split; [reflexivity|]. reflexivity.
      * eapply mv_user; cbn [fst snd]; eauto.
  - unfold registration_response. destruct (parse_form W i k n) as [[[i' cr] n']|] eqn:P;
      [|apply mv_refused; easy].
    apply parse_form_ok in P as (t & -> & -> & -> & P).
    destruct (cr_response cr) as [cdj aob|]; [|apply mv_refused; easy].
    destruct (find_ceremony E (ch_clock c) i' n' d) as [r|[h u]] eqn:F.
    + apply find_ceremony_refuses in F as [F1 F2]. now apply mv_refused.
    + destruct (run _ d _) as [d' f r] eqn:R. cbn [out_result out_state fst snd].
      apply registration_run in R as [[R ->]|(-> & att & RS & AT)].
      * apply mv_refused; [|intros; apply conclude_no_options].
        intro Q. apply conclude_success in Q; easy.
      * eapply mv_register; cbn [fst snd]; eauto. exists t. auto.
  - unfold authentication_request. destruct un as [n|]; [|apply mv_refused; easy].
    destruct (user_by_name n d) as [u|] eqn:U; [|apply mv_refused; easy].
    destruct (insert_chal _ _ _ d) as [[h d2]|e] eqn:I; cbn [fst snd]; [|apply mv_refused; easy].
    cbn [request_build APP_CRO_BUILDER rb_mediation bind].
    eapply mv_issue with (n := n); cbn [fst snd]; [now right|now left; eauto|exact I|].
    right. split; [reflexivity|]. eexists. split; [reflexivity|]. reflexivity.
  - unfold authentication_response. destruct (parse_form W i k n) as [[[i' cr] n']|] eqn:P;
      [|apply mv_refused; easy].
    apply parse_form_ok in P as (t & -> & -> & -> & P).
    destruct (cr_response cr) as [|cdj adb sig uh]; [apply mv_refused; easy|].
    destruct (find_ceremony E (ch_clock c) i' n' d) as [r|[h u]] eqn:F.
    + apply find_ceremony_refuses in F as [F1 F2]. now apply mv_refused.
    + destruct (run _ d _) as [d' f r] eqn:R. cbn [out_result out_state fst snd].
      apply authentication_run in R as [[R ->]|(-> & cdt & ad & u' & rp & G & AS & ->)].
      * apply mv_refused; [|intros; apply conclude_no_options].
        intro Q. apply conclude_success in Q; easy.
      * eapply mv_login; cbn [fst snd]; eauto. exists t. auto.
Qed.

End App.

Ltac civil_fin := first
  [ apply raises_ok | apply raises_raise; reflexivity | apply raises_raise, refusal_civil; reflexivity
  | match goal with H : _ = Raise ?e |- raises civil (Raise ?e) =>
      eapply raise_civil; [|exact H]; first [apply attest_checks_civil | apply assertion_pre_civil
        | apply assertion_checks_civil | apply cose_key_civil | apply parse_cose_key_bytes_civil
        | apply insert_cred_civil] end
  | match goal with H : _ = Raise ?e |- raises civil (Raise (refusal _ ?e)) =>
      eapply refuse_civil; [|exact H]; first [apply cose_key_civil | apply parse_cose_key_bytes_civil
        | apply insert_cred_civil] end
  | apply answer_civil; civil_fin ].
