(** * AppReply: proofs of AppReplySpec. *)
From Coq Require Import List NArith ZArith Bool String Lia.
From Verif Require Import Base PyVal B64 Utf8 Url CaseConv Cbor CborFacts Types World Parsers Crypto
  Backends Spec Jsonify Builders OptionSpec BaseFacts AuthFacts BackendFacts KeyFacts AssertFacts AttestFacts
  App AppSpec AppFacts AppHistory AppAccept AppReplySpec AppConc AppConcSpec AppConcFacts AppConcInv.
Import ListNotations.
Local Open Scope list_scope.

Section App.
Variable W : World.
Variable E : appenv.

Lemma named_fun l i t t' : Named W E l i t -> Named W E l i t' -> t = t'.
Proof.
  intros (id & n & c & A & B) (id' & n' & c' & A' & B'). rewrite A in A'. injection A' as <-.
  apply (issued_unique W E _ _ _ _ _ _ _ _ B B').
Qed.
Lemma named_row l i t : converts E -> (Named W E l i t <->
  exists id h, ap_int E i = Some id /\ chal_by_id id (after W E l) = Some h /\ hr_timestamp h = t).
Proof.
  intro CV. split.
  - intros (id & n & c & A & B). apply issued_row in B as (h & H1 & _ & H3). eauto.
  - intros (id & h & A & B & <-). apply chal_by_id_in in B as [B <-].
    destruct (row_issued W E l h CV B) as (n & I & _). exists (hr_id h), n, (hr_request h). auto.
Qed.
Lemma known_row l n : Known W E l n <-> exists u, user_by_name n (after W E l) = Some u.
Proof.
  split.
  - intros (h & H). apply user_handle_row in H as (u & H & _). eauto.
  - intros (u & H). exists (ur_handle u). apply user_handle_row. eauto.
Qed.

Lemma reply_fun l clock i n cr kind ok f r r' : f <> "Success"%string ->
  ResponseReply W E l clock i n cr kind ok f r -> ResponseReply W E l clock i n cr kind ok f r' -> r = r'.
Proof.
  intros F A B. destruct A as [A1|A1 A2|t A1 A2 A3|t A1 A2 A3 A4|t A1 A2 A3 A4 A5|t A1 A2 A3 A4 A5];
  destruct B as [B1|B1 B2|t' B1 B2 B3|t' B1 B2 B3 B4|t' B1 B2 B3 B4 B5|t' B1 B2 B3 B4 B5];
  try reflexivity; try contradiction; exfalso;
  try (now eapply A2; eauto); try (now eapply B2; eauto);
  pose proof (named_fun _ _ _ _ A2 B2); subst; lia.
Qed.

Lemma find_ceremony_reply l clock i n cr kind ok f go : converts E -> attests cr = kind ->
  (forall h u, ResponseReply W E l clock i n cr kind ok f (go h u) \/ 
     ~ exists t, Named W E l i t /\ Known W E l n /\ (clock - t <= 60000)%Z) ->
  ResponseReply W E l clock i n cr kind ok f
    match find_ceremony E clock i n (after W E l) with inl r => r | inr (h, u) => go h u end.
Proof.
  intros CV K G. unfold find_ceremony.
  destruct (ap_int E i) as [id|] eqn:I.
  2:{ apply rr_challenge; [assumption|]. intros t (id & ? & ? & Q & _). congruence. }
  destruct (chal_by_id id (after W E l)) as [h|] eqn:C.
  2:{ apply rr_challenge; [assumption|]. intros t N. apply named_row in N as (id' & h & Q & Q' & _); [|assumption]. congruence. }
  assert (N : Named W E l i (hr_timestamp h)) by (apply named_row; eauto).
  destruct (user_by_name n (after W E l)) as [u|] eqn:U.
  2:{ eapply rr_user; eauto. intro KN. apply known_row in KN as (u & Q). congruence. }
  assert (KN : Known W E l n) by (apply known_row; eauto).
  destruct (Z.ltb_spec APP_TIMEOUT (clock - hr_timestamp h)) as [L|L]; unfold APP_TIMEOUT in L.
  - eapply rr_timeout; eauto. lia.
  - destruct (G h u) as [R|NO]; [exact R|]. exfalso. apply NO. eauto.
Qed.

(** In terms of success. *)
Lemma response_reply l clock i n cr kind ok f r :
  converts E -> attests cr = kind -> f <> "Success"%string ->
  (r = Success <-> ok) -> (ok -> exists t, Named W E l i t /\ Known W E l n /\ (clock - t <= 60000)%Z) ->
  (forall r', find_ceremony E clock i n (after W E l) = inl r' -> r = r') ->
  (forall h u, find_ceremony E clock i n (after W E l) = inr (h, u) -> r = Success \/ r = Reply 400 f) ->
  ResponseReply W E l clock i n cr kind ok f r.
Proof.
  intros CV K F S O R1 R2. destruct (find_ceremony E clock i n (after W E l)) as [r0|[h u]] eqn:FC.
  - rewrite (R1 r0 eq_refl).
    pose proof (find_ceremony_reply l clock i n cr kind ok f (fun _ _ => Success) CV K) as X.
    rewrite FC in X. apply X. intros h u.
    destruct (find_ceremony_refuses _ _ _ _ _ _ FC) as [NS _].
    right. intros (t & N & KN & L). apply named_row in N as (id & h' & Q1 & Q2 & <-); [|assumption].
    apply known_row in KN as (u' & Q3).
    assert (find_ceremony E clock i n (after W E l) = inr (h', u')) by (apply find_ceremony_ok; eauto).
    congruence.
  - apply find_ceremony_ok in FC as ((id & Q1 & Q2) & Q3 & Q4).
    assert (N : Named W E l i (hr_timestamp h)) by (apply named_row; eauto).
    assert (KN : Known W E l n) by (apply known_row; eauto).
    destruct (R2 h u eq_refl) as [-> | ->].
    + eapply rr_ok; eauto. now apply S.
    + eapply rr_failed; eauto. intro OK. apply S in OK. unfold Success in OK. congruence.
Qed.

Lemma login_reply depth l x i n cr r :
  converts E -> decodes_cbor W depth -> 2 <= depth -> Authenticates W (snd x) i n cr ->
  (answer W E l x = r <->
   ResponseReply W E l (ch_clock (fst x)) i n cr false (LoginSpec W E l (ch_clock (fst x)) i n cr)
     "Could not handle credential assertion" r).
Proof.
  intros CV DC LD AU.
  assert (R : ResponseReply W E l (ch_clock (fst x)) i n cr false (LoginSpec W E l (ch_clock (fst x)) i n cr)
     "Could not handle credential assertion" (answer W E l x)).
  { pose proof (login_exact W E depth l x i n cr CV DC LD AU) as EX.
    destruct (attests cr) eqn:K.
    - pose proof AU as (t & HQ & P). unfold answer, serve. rewrite HQ. unfold authentication_response.
      rewrite (proj2 (parse_form_ok W (Some i) (Some t) (Some n) i cr n)) by (exists t; auto).
      unfold attests in K. destruct (cr_response cr) eqn:RE; [|discriminate].
      apply rr_type. unfold attests. rewrite RE. discriminate.
    - apply response_reply; auto; [discriminate| | |].
      + intros (id & n0 & c & t & hd & k & cdj & adb & sig & uh & ad & I1 & I2 & I3 & I4 & _).
        exists t. split; [exists id, n0, c; auto|]. split; [exists hd; assumption|assumption].
      + pose proof AU as (t & HQ & P). unfold answer, serve. rewrite HQ. unfold authentication_response.
        rewrite (proj2 (parse_form_ok W (Some i) (Some t) (Some n) i cr n)) by (exists t; auto).
        unfold attests in K. destruct (cr_response cr) eqn:RE; [discriminate|].
        intros r' ->. reflexivity.
      + pose proof AU as (t & HQ & P). unfold answer, serve. rewrite HQ. unfold authentication_response.
        rewrite (proj2 (parse_form_ok W (Some i) (Some t) (Some n) i cr n)) by (exists t; auto).
        unfold attests in K. destruct (cr_response cr) eqn:RE; [discriminate|].
        intros h u ->. cbn [fst].
        destruct (civil_login W (app_registrar W) (after W E l) (app_assertion cr n u h) (app_civil W)) as [Q|(e & Q & Q')].
        * rewrite Q. now left.
        * rewrite Q. right. cbn [conclude is_lib]. now rewrite Q'. }
  split; [intros <-; exact R|]. intro R'. eapply reply_fun; eauto. discriminate.
Qed.

Lemma registration_reply l x i n cr r :
  converts E -> Registers W (snd x) i n cr ->
  (answer W E l x = r <->
   ResponseReply W E l (ch_clock (fst x)) i n cr true (RegisterSpec W E l (ch_clock (fst x)) i n cr)
     "Could not handle credential attestation" r).
Proof.
  intros CV RG.
  assert (R : ResponseReply W E l (ch_clock (fst x)) i n cr true (RegisterSpec W E l (ch_clock (fst x)) i n cr)
     "Could not handle credential attestation" (answer W E l x)).
  { pose proof (registration_exact W E l x i n cr CV RG) as EX.
    pose proof RG as (t & HQ & P).
    assert (PF : parse_form W (Some i) (Some t) (Some n) = Some (i, cr, n)) by (apply parse_form_ok; exists t; auto).
    destruct (attests cr) eqn:K.
    - apply response_reply; auto; [discriminate| | |].
      + intros (id & n0 & c & t' & hd & cdj & aob & adb & ad & acd & k & b & I1 & I2 & I3 & I4 & _).
        exists t'. split; [exists id, n0, c; auto|]. split; [exists hd; assumption|assumption].
      + unfold answer, serve. rewrite HQ. unfold registration_response. rewrite PF.
        unfold attests in K. destruct (cr_response cr) eqn:RE; [|discriminate].
        intros r' ->. reflexivity.
      + unfold answer, serve. rewrite HQ. unfold registration_response. rewrite PF.
        unfold attests in K. destruct (cr_response cr) eqn:RE; [|discriminate].
        intros h u ->. cbn [fst].
        destruct (civil_registration W (app_registrar W) (after W E l) (app_attestation cr n u h) (app_civil W)) as [Q|(e & Q & Q')].
        * rewrite Q. now left.
        * rewrite Q. right. cbn [conclude is_lib]. now rewrite Q'.
    - unfold answer, serve. rewrite HQ. unfold registration_response. rewrite PF.
      unfold attests in K. destruct (cr_response cr) eqn:RE; [discriminate|].
      apply rr_type. unfold attests. rewrite RE. discriminate. }
  split; [intros <-; exact R|]. intro R'. eapply reply_fun; eauto. discriminate.
Qed.

Lemma unreadable_reply l x : (exists i k n, snd x = RegistrationResponse i k n \/ snd x = AuthenticationResponse i k n) ->
  (answer W E l x = Reply 400 "Could not parse input data" <->
   forall i n cr, ~ Registers W (snd x) i n cr /\ ~ Authenticates W (snd x) i n cr).
Proof.
  intros (i & k & n & Q). unfold answer, serve.
  assert (FC : forall i n r, find_ceremony E (ch_clock (fst x)) i n (after W E l) = inl r ->
    r <> Reply 400 "Could not parse input data").
  { intros i0 n0 r. unfold find_ceremony.
    destruct (match ap_int E i0 with Some _ => _ | None => _ end); [|intros [= <-]; discriminate].
    destruct (user_by_name n0 (after W E l)); [|intros [= <-]; discriminate].
    destruct (_ <? _)%Z; [|discriminate]. intros [= <-]; discriminate. }
  destruct (parse_form W i k n) as [[[i' cr] n']|] eqn:PF.
  - split.
    + intro H. exfalso. destruct Q as [Q|Q]; rewrite Q in H.
      * unfold registration_response in H. rewrite PF in H. destruct (cr_response cr); [|discriminate].
        destruct (find_ceremony E _ i' n' _) as [r|[h u]] eqn:F; cbn [fst] in H; [now apply FC in F|].
        destruct (civil_registration W (app_registrar W) (after W E l) (app_attestation cr n' u h) (app_civil W)) as [X|(e & X & X')];
          rewrite X in H; cbn [conclude is_lib] in H; [discriminate|]. rewrite X' in H. discriminate.
      * unfold authentication_response in H. rewrite PF in H. destruct (cr_response cr); [discriminate|].
        destruct (find_ceremony E _ i' n' _) as [r|[h' u]] eqn:F; cbn [fst] in H; [now apply FC in F|].
        destruct (civil_login W (app_registrar W) (after W E l) (app_assertion cr n' u h') (app_civil W)) as [X|(e & X & X')];
          rewrite X in H; cbn [conclude is_lib] in H; [discriminate|]. rewrite X' in H. discriminate.
    + intro H. exfalso. apply parse_form_ok in PF as (t & -> & -> & -> & C).
      destruct (H i' n' cr) as [H1 H2]. destruct Q as [Q|Q]; [apply H1|apply H2]; exists t; auto.
  - split.
    + intros _ i' n' cr. split; intros (t & Q' & C); rewrite Q' in Q;
        destruct Q as [Q|Q]; try discriminate; injection Q as <- <- <-;
        rewrite (proj2 (parse_form_ok W (Some i') (Some t) (Some n') i' cr n')) in PF by (exists t; auto); discriminate.
    + intros _. destruct Q as [-> | ->]; [unfold registration_response|unfold authentication_response]; now rewrite PF.
Qed.
End App.
