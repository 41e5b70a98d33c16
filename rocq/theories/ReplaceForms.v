(** * ReplaceForms: forms read with replacement, and what the handlers get from them. *)
From Coq Require Import List NArith ZArith Bool String Lia.
From Verif Require Import Base BaseFacts Utf8 PyVal Types World App AppSpec AppFacts AppHistory Json Dumps DumpsSpec DumpsOptions Form FormFacts Page
  Routes RoutesSpec RoutesFacts Utf8Replace ReplaceSpec ReplaceFacts.
Import ListNotations.
Local Open Scope list_scope.

Lemma form_string_replace s : form_string utf8_replace s = utf8_replace (unquote s).
Proof. unfold form_string. destruct (utf8_decode (unquote s)) as [r|e] eqn:D; [|reflexivity]. now rewrite (replace_valid _ _ D). Qed.
Lemma form_string_scalars s : Scalars (form_string utf8_replace s).
Proof. rewrite form_string_replace. eapply replaced_scalars. now apply replaced_iff. Qed.
Lemma form_scalars body k v : In (k, v) (form_decode utf8_replace body) -> Scalars k /\ Scalars v.
Proof.
  unfold form_decode. intro I. apply in_map_iff in I as (w & Q & _). destruct (split_pair w) as [a b].
  injection Q as <- <-. split; apply form_string_scalars.
Qed.
Lemma field_in name form t : form_field name form = Some t -> exists k, In (k, t) form.
Proof.
  unfold form_field. destruct (find _ form) as [[k v]|] eqn:F; [|discriminate]. intro Q. injection Q as <-.
  exists k. now apply find_some in F.
Qed.

Section Multipart.
Variable multipart : list N -> list (pystr * pystr).

Lemma c100_sendable h q : Reaches utf8_replace multipart h q -> ht_content h <> Multipart -> Sendable q.
Proof.
  intros (u & D & <-)%reaches_iff M t c T C.
  assert (F : forall name, form_field (lit name) (request_form utf8_replace multipart (ht_content h) (ht_body h)) = Some t ->
              (c < 55296 \/ 57343 < c <= 1114111)%N).
  { intros name Q. destruct (ht_content h); [|congruence|discriminate]. cbn [request_form] in Q.
    apply field_in in Q as (k & Q). apply form_scalars in Q as [_ Q]. unfold Scalars in Q.
    rewrite Forall_forall in Q. now apply Q. }
  destruct u; cbn [form_request texts In] in T; repeat destruct T as [T|T]; try contradiction; eapply F; exact T.
Qed.
Lemma c100_handled l qs : Handled utf8_replace multipart l qs -> (forall x, In x l -> ht_content (snd x) <> Multipart) ->
  forall x, In x qs -> Sendable (snd x).
Proof.
  induction 1 as [|c h q l qs H IH R|c h l qs H IH N]; intros M x I.
  - destruct I.
  - apply in_app_or in I as [I|[<-|[]]].
    + apply IH; [|exact I]. intros y J. apply M, in_or_app. now left.
    + apply (c100_sendable _ _ R). apply (M (c, h)), in_or_app. right. now left.
  - apply IH; [|exact I]. intros y J. apply M, in_or_app. now left.
Qed.
Lemma c100_histories qs : (forall x, In x qs -> Sendable (snd x)) <->
  exists l, Handled utf8_replace multipart l qs /\ forall x, In x l -> ht_content (snd x) <> Multipart.
Proof.
  split.
  - intro S. eexists. split; [exact (c98_sent utf8_replace multipart qs S)|].
    intros x I. apply in_map_iff in I as (y & <- & _). discriminate.
  - intros (l & H & M). exact (c100_handled l qs H M).
Qed.
End Multipart.

Section Users.
Variable W : World.
Variable E : appenv.
Lemma user_origin qs u : In u (db_users (after W E qs)) ->
  exists c, In (c, RegistrationRequest (Some (ur_username u))) qs /\ ch_handle c = ur_handle u.
Proof.
  induction qs as [|[c q] qs IH] using rev_ind; [intros []|].
  assert (OLD : In u (db_users (after W E qs)) ->
    exists c0, In (c0, RegistrationRequest (Some (ur_username u))) (qs ++ [(c, q)]) /\ ch_handle c0 = ur_handle u).
  { intro I. destruct (IH I) as (c0 & A & B). exists c0. split; [apply in_or_app; now left|exact B]. }
  assert (NEW : forall n v d', snd (c, q) = RegistrationRequest (Some n) ->
    insert_user n (ch_handle (fst (c, q))) (after W E qs) = Ok (v, d') -> In u (db_users d') ->
    exists c0, In (c0, RegistrationRequest (Some (ur_username u))) (qs ++ [(c, q)]) /\ ch_handle c0 = ur_handle u).
  { intros n v d' Q I J. apply insert_user_ok in I as (_ & _ & -> & ->). cbn [add_user db_users] in J.
    apply in_app_or in J as [J|[<-|[]]]; [now apply OLD|]. cbn [ur_username ur_handle fst snd] in *. subst q.
    exists c. split; [apply in_or_app; right; now left|reflexivity]. }
  pose proof (after_move W E qs (c, q)) as M. destruct M as [r _ _|n v d' e Q _ I|n v d1 h d2 o A U H _|i n cr h v att d' _ _ _ A|i n cr h v cdt ad u' rp _ _ _ _].
  - exact OLD.
  - now apply (NEW n v).
  - apply insert_chal_ok in H as (_ & _ & ->). cbn [add_chal db_users]. destruct U as [[_ ->]|(Q & _ & I)]; [exact OLD|].
    now apply (NEW n v).
  - apply app_attest_ok in A as (ad & acd & row & kb & _ & _ & _ & _ & A). apply insert_cred_ok in A as (_ & ->). exact OLD.
  - exact OLD.
Qed.
Lemma c100_users (J : jsonenv) (repr : N -> pystr) (multipart : list N -> list (pystr * pystr)) (l : list (chance * http)) (u : user_row) :
  (forall x, In x l -> ht_content (snd x) <> Multipart) ->
  In u (db_users (http_after W E J repr utf8_replace multipart l)) ->
  exists b, utf8_encode (ur_username u) = Ok b.
Proof.
  intros M I. destruct (c98_handled utf8_replace multipart l) as (qs & H).
  rewrite (c98_history W E J repr utf8_replace multipart l qs H) in I. apply user_origin in I as (c & I & _).
  apply Utf8Sound.utf8_encode_total. apply Forall_forall. intros x X.
  exact (c100_handled multipart l qs H M _ I _ x (or_introl eq_refl) X).
Qed.
End Users.

(** ** Options sent over HTTP *)
Lemma scalars_plain s : Scalars s -> PlainText s.
Proof.
  intro S. unfold Scalars in S. rewrite Forall_forall in S. split.
  - apply Forall_forall. intros c I. specialize (S c I). cbn. lia.
  - intros (a & h & l & b & -> & H & L). assert (I : In h (a ++ h :: l :: b)) by (apply in_or_app; right; now left).
    specialize (S h I). unfold JsonSpec.High in H. lia.
Qed.
Section Options.
Variable W : World.
Variable E : appenv.
Variable J : jsonenv.
Variable repr : N -> pystr.
Variable multipart : list N -> list (pystr * pystr).
Hypothesis CV : converts E.
Hypothesis LIM : limits J.
Lemma c100_options l qs c h q name n id v : Handled utf8_replace multipart l qs -> Reaches utf8_replace multipart h q ->
  ht_content h <> Multipart ->
  q = RegistrationRequest (Some n) /\ name = "creationOptions"%string \/ q = AuthenticationRequest (Some n) /\ name = "requestOptions"%string ->
  answer W E qs (c, q) = Options id v -> (id < 10 ^ 640)%N ->
  exists t, http_answer W E J repr utf8_replace multipart l (c, h) = Answer 200 t /\ Forall printable t /\
    JsonSpec.JText J t (VDict [(VStr (lit "challengeID"), VInt (Z.of_N id)); (VStr (lit name), v)]).
Proof.
  intros H R M D A L. rewrite (c98_answer _ _ _ _ _ _ _ _ c _ _ H R), A. destruct D as [[-> ->]|[-> ->]].
  - assert (P : PlainText n).
    { apply scalars_plain. apply Forall_forall. intros x X. exact (c100_sendable multipart _ _ R M n x (or_introl eq_refl) X). }
    destruct (c77_registration W E J repr qs c n id v CV LIM P L A) as (t & T & PR & JT & _). exists t. cbn [to_response].
    rewrite T. auto.
  - destruct (c77_login W E J repr qs c n id v CV LIM L A) as (t & T & PR & JT & _). exists t. cbn [to_response].
    rewrite T. auto.
Qed.
End Options.
