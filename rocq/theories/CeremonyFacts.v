(** * CeremonyFacts: the ceremonies raise the exception of the first failing check. *)
From Coq Require Import List NArith ZArith Bool Lia String.
From Coq Require Import Strings.Byte.
From Verif Require Import Base PyVal BaseFacts B64 Utf8 Url Types World Parsers Crypto
  Backends Spec CodecSpec StepSpec StepFacts FailSpec ClientFacts AuthFacts RaiseFacts CryptoFacts FormatFacts
  BackendFacts FailFacts UrlFacts CeremonySpec OriginFacts.
Import ListNotations.
Local Open Scope res_scope.
Local Open Scope list_scope.

Lemma runs_reported r l : Runs r l ->
  (wrap r = Ok tt <-> Forall passes l) /\
  (forall e, wrap r = Raise e <-> exists e', FirstFailure l e' /\ Reported e' e) /\
  (forall e e', FirstFailure l e -> FirstFailure l e' -> e = e').
Proof.
  intros [O F]. split; [|split; [|intros e e' H1 H2; apply F in H1, H2; congruence]].
  - rewrite wrap_ok, <- O. split; [eauto|]. intros ([] & H). exact H.
  - intro e. rewrite wrap_raise. split.
    + intros [(c & -> & H)|[(-> & p & H)|(n & -> & H)]]; apply F in H; eexists; (split; [exact H|reflexivity]).
    + intros ([c|p|n] & H & R); apply F in H; cbn in R; subst e; eauto 6.
Qed.

Lemma refusal_iff W e e' : refusal W e = e' <-> Declined W e e'.
Proof.
  unfold refusal. split.
  - intros <-. destruct (is_Exception e) eqn:X.
    + assert (N : forall n, e <> Abort n) by (intros n ->; discriminate X).
      destruct (shows_exn W e) eqn:Q; now constructor.
    + destruct e; try discriminate X. constructor.
  - intros [n|x H Q|x H Q]; [reflexivity|..];
      (assert (X : is_Exception x = true) by (destruct x; try reflexivity; now destruct (H n))); now rewrite X, Q.
Qed.
Lemma answer_fails_iff W a e : answer_result W a = Raise e <-> AnswerFails W a e.
Proof.
  split.
  - destruct a as [[v|]|x]; cbn [answer_result]; intro H; [|discriminate|].
    + destruct (shows W v) eqn:Q; injection H as <-; now constructor.
    + injection H as H. constructor. now apply refusal_iff.
  - intros [v Q|v Q|x e' D]; cbn [answer_result]; [now rewrite Q..|]. f_equal. now apply refusal_iff.
Qed.

Section W.
Variable W : World.

(** ** Origins *)

Lemma runs_origins o : Runs (extract_allowed_origins W o) [origins_step W o].
Proof.
  apply runs_one; cbn [passes fails origins_step].
  - split.
    + intros (os & H). apply extract_allowed_ok in H as [H F]. split; [assumption|].
      intros s Hs. destruct (Forall2_in_l _ _ _ _ F Hs) as (x & _ & X). exists x. now apply parse_origin_iff.
    + intros [NE H]. assert (F : exists os, Forall2 (fun s x => parse_origin (w_url W) s = Ok x) (allowed_strings o) os).
      { clear NE. induction (allowed_strings o) as [|s l IH]; [exists []; constructor|].
        destruct (H s (or_introl eq_refl)) as (x & X). apply parse_origin_iff in X.
        destruct IH as (os & F); [intros; apply H; now right|]. exists (x :: os). now constructor. }
      destruct F as (os & F). exists os. now apply extract_allowed_ok.
  - intro e. assert (L : forall l, parse_origins W l = Raise e <-> OriginsFail W l e).
    { induction l as [|s l IH]; cbn [parse_origins].
      - split; [discriminate|intro H; inversion H].
      - split.
        + intro H. apply bind_raise in H as [H|(x & X & H)].
          * apply osf_here. now apply origin_fails_iff.
          * apply bind_raise in H as [H|(? & _ & H)]; [|discriminate].
            apply osf_later with (o := x); [now apply parse_origin_iff|]. now apply IH.
        + intro H. inversion H as [? ? ? X|? ? x ? X Y]; subst.
          * apply origin_fails_iff in X. now rewrite X.
          * apply parse_origin_iff in X. rewrite X. cbn [bind]. apply IH in Y. now rewrite Y. }
    destruct o as [s|[|s l]]; cbn [extract_allowed_origins allowed_strings].
    + split.
      * intro H. right. apply bind_raise in H as [H|(? & _ & H)]; [|discriminate].
        apply osf_here. now apply origin_fails_iff.
      * intros [[H _]|H]; [discriminate|]. inversion H as [? ? ? X|? ? x ? X Y]; subst; [|inversion Y].
        apply origin_fails_iff in X. now rewrite X.
    + split; [intro H; left; split; [reflexivity|now injection H]|].
      intros [[_ ->]|H]; [reflexivity|inversion H].
    + rewrite L. split; [auto|]. intros [[H _]|H]; [discriminate|assumption].
Qed.

(** ** Client data *)

Lemma client_object_fun cdj d d' : ClientDataObject W cdj d -> ClientDataObject W cdj d' -> d = d'.
Proof. intros (t & H1 & H2) (t' & H3 & H4). congruence. Qed.

Lemma tb_members d : (exists o, TbParsed d o) <->
  (absent_or_null "tokenBinding" d \/
   exists t, member "tokenBinding" d (VDict t) /\
     (member "status" t (VStr (lit "supported")) \/
      member "status" t (VStr (lit "present")) /\ ~ absent_or_null "id" t)).
Proof.
  split.
  - intros (o & [H|t [st i] H1 H2 H3 H4]); [auto|]. right. exists t. split; [assumption|].
    cbn in *. destruct st; [now left|]. right. split; [assumption|].
    rewrite <- dict_get_none, <- H3. auto.
  - intros [H|(t & H1 & [H2|[H2 H3]])].
    + exists None. now constructor.
    + exists (Some {| tb_status_ := TB_SUPPORTED; tb_id := dict_get (skey "id") t |}).
      econstructor; cbn; eauto. discriminate.
    + exists (Some {| tb_status_ := TB_PRESENT; tb_id := dict_get (skey "id") t |}).
      econstructor; cbn; eauto. rewrite dict_get_none. auto.
Qed.

Lemma client_ok cdj : (exists c, parse_client_data W cdj = Ok c) <->
  exists d, ClientDataObject W cdj d /\ ClientMembers d.
Proof.
  split.
  - intros (c & H). apply parse_client_data_ok in H as (d & text & H1 & H2 & H3 & H4 & H5 & H6).
    exists d. split; [exists text; auto|]. split.
    + intros m [<-|[<-|[<-|[]]]]; eauto.
    + apply tb_members. eauto.
  - intros (d & (text & H1 & H2) & M & T). apply tb_members in T as (o & T).
    destruct (M "type"%string) as (a & Ha); [cbn; auto|].
    destruct (M "challenge"%string) as (b & Hb); [cbn; auto|].
    destruct (M "origin"%string) as (c & Hc); [cbn; auto|].
    exists {| cd_type := a; cd_challenge := b; cd_origin := c; cd_token_binding := o |}.
    apply parse_client_data_ok. exists d, text. cbn. auto 8.
Qed.

Lemma cls_json q : is_UnicodeOrJSONDecodeError (Py q) = true <-> In q [EUnicodeDecodeError; EJSONDecodeError].
Proof. destruct q; cbn; intuition discriminate. Qed.

Lemma client_fails_iff cdj e : parse_client_data W cdj = Raise e <-> ClientDataFails W cdj e.
Proof.
  destruct (utf8_decode cdj) as [text|x] eqn:U.
  2:{ pose proof (utf8_decode_raises cdj x U) as EX. cbn beta in EX. subst x. unfold parse_client_data. rewrite U. cbn.
      split.
      - intro H. injection H as <-. apply cdf_utf8. intros ?; congruence.
      - intro H. destruct H as [|? ? ? H|? ? H|? (? & H & _)]; [reflexivity|congruence..]. }
  destruct (w_json_loads W text) as [v|p] eqn:J.
  2:{ unfold parse_client_data. rewrite U. cbn [bind]. rewrite J. cbn [lift].
      split.
      - intro H. eapply cdf_json; eauto. apply (catch_becomes (A := pyval) _ _ _ _ _ cls_json).
        apply bind_raise in H as [H|(? & H & _)]; [exact H|]. apply catch_ok in H. discriminate.
      - intro H. destruct H as [H|t p' e H1 H2 H3|? ? H1 H2|? (? & H1 & H2)]; [elim (H text); assumption| |congruence..].
        assert (t = text) by congruence. subst t. assert (p' = p) by congruence. subst p'.
        apply (catch_becomes (A := pyval) _ _ _ _ _ cls_json) in H3. now rewrite H3. }
  destruct (map_dec v) as [[d ->]|N].
  2:{ unfold parse_client_data. rewrite U. cbn [bind]. rewrite J. cbn [lift catch bind].
      rewrite (not_map v N). split.
      - intro H. injection H as <-. eapply cdf_object; eauto.
      - intro H. destruct H as [H|t p' e H1 H2 H3|? ? H1 H2|d (t & H1 & H2)];
          [elim (H text); assumption|congruence|reflexivity|].
        exfalso. apply N. exists d. congruence. }
  assert (CO : ClientDataObject W cdj d) by (exists text; auto).
  split.
  - intro H. assert (NM : ~ ClientMembers d).
    { intro M. destruct (proj2 (client_ok cdj)) as (c & C); [eauto|]. congruence. }
    assert (e = Lib ParserError).
    { unfold parse_client_data in H. rewrite U in H. cbn [bind] in H. rewrite J in H. cbn [lift catch bind] in H.
      destruct (dict_get (skey "type") d); try (injection H as <-; reflexivity).
      destruct (dict_get (skey "challenge") d); try (injection H as <-; reflexivity).
      destruct (dict_get (skey "origin") d); try (injection H as <-; reflexivity).
      apply bind_raise in H as [H|(? & _ & H)]; [|discriminate].
      destruct (dict_get (skey "tokenBinding") d); try discriminate; try (injection H as <-; reflexivity).
      apply bind_raise in H as [H|(? & _ & H)]; [now apply check_raise in H|].
      apply bind_raise in H as [H|(? & _ & H)]; [destruct (find _ _); [discriminate|now injection H]|].
      apply bind_raise in H as [H|(? & _ & H)]; [now apply check_raise in H|discriminate]. }
    subst e. eapply cdf_members; eauto.
  - intro H. destruct H as [H|t p' e H1 H2 H3|t v H1 H2 H3|d' D NM];
      [elim (H text); assumption|congruence|elim H3; exists d; congruence|].
    assert (d' = d) by (eapply client_object_fun; eauto). subst d'.
    destruct (parse_client_data W cdj) as [c|e] eqn:P.
    + exfalso. destruct (proj1 (client_ok cdj)) as (d' & D' & M); [eauto|].
      assert (d' = d) by (eapply client_object_fun; eauto). subst d'. contradiction.
    + f_equal. unfold parse_client_data in P. rewrite U in P. cbn [bind] in P. rewrite J in P. cbn [lift catch bind] in P.
      destruct (dict_get (skey "type") d); try (injection P as <-; reflexivity).
      destruct (dict_get (skey "challenge") d); try (injection P as <-; reflexivity).
      destruct (dict_get (skey "origin") d); try (injection P as <-; reflexivity).
      apply bind_raise in P as [P|(? & _ & P)]; [|discriminate].
      destruct (dict_get (skey "tokenBinding") d); try discriminate; try (injection P as <-; reflexivity).
      apply bind_raise in P as [P|(? & _ & P)]; [now apply check_raise in P|].
      apply bind_raise in P as [P|(? & _ & P)]; [destruct (find _ _); [discriminate|now injection P]|].
      apply bind_raise in P as [P|(? & _ & P)]; [now apply check_raise in P|discriminate].
Qed.

Lemma runs_client ceremony ch o tb cdj os {B} (k : res B) l :
  extract_allowed_origins W o = Ok os -> Runs k l ->
  Runs (cd <- parse_client_data W cdj ;;
        check (str_eqb (cd_type cd) (lit ceremony)) (Lib ClientDataTypeError) ;;;
        check_challenge ch cd ;;;
        check_origin W os cd ;;;
        check_token_binding tb cd ;;; k)
       (client_steps W ceremony ch o tb cdj ++ l).
Proof.
  intros HO K. unfold client_steps. cbn [app].
  apply (runs_bind _ _ [_]).
  { apply runs_one; cbn [passes fails]; [apply client_ok|]. intro e. apply client_fails_iff. }
  intros c HC. apply parse_client_data_ok in HC as (d & text & C1 & C2 & C3 & C4 & C5 & C6).
  assert (CO : ClientDataObject W cdj d) by (exists text; auto).
  assert (CT : forall m t t', member m d (VStr t) -> ClientText W cdj m t' -> t' = t).
  { intros m t t' M (d' & D & M'). assert (d' = d) by (eapply client_object_fun; eauto). subst d'.
    unfold member in *. congruence. }
  apply (runs_bind _ _ [_]).
  { apply runs_check. rewrite str_eqb_spec. split.
    - intros <-. exists d. auto.
    - intro H. symmetry. eapply CT; eauto. }
  intros _ _.
  change (?a :: ?b :: ?r) with ([a; b] ++ r) at 1. apply runs_bind.
  { assert (D : Runs (catch (url_base64_decode (cd_challenge c)) is_ValueError (Lib DecodingError))
       [otherwise (exists t c, ClientText W cdj "challenge" t /\ url_base64_decode t = Ok c) (Lib DecodingError)]).
    { apply runs_otherwise.
      - split.
        + intros (b & H). apply catch_ok in H. exists (cd_challenge c), b. split; [exists d; auto|assumption].
        + intros (t & b & H1 & H2). assert (t = cd_challenge c) by (eapply CT; eauto). subst t.
          rewrite H2. cbn. eauto.
      - intros e H. apply catch_raise in H as (e0 & H & [[_ E]|[V _]]); [assumption|].
        apply url_base64_decode_raises in H. congruence. }
    assert (E : check_challenge ch c =
       bind (catch (url_base64_decode (cd_challenge c)) is_ValueError (Lib DecodingError))
            (fun b => check (bytes_eqb b ch) (Lib ChallengeError))).
    { unfold check_challenge. destruct (url_base64_decode (cd_challenge c)) as [b|e]; cbn [bind catch].
      - destruct (bytes_eqb b ch); reflexivity.
      - destruct (is_ValueError e); reflexivity. }
    rewrite E. apply (runs_bind _ _ [_]); [exact D|]. intros b Hb. apply catch_ok in Hb.
    apply runs_check. rewrite bytes_eqb_spec. split.
    - intros <-. exists (cd_challenge c). split; [exists d; auto|assumption].
    - intros (t & H1 & H2). assert (t = cd_challenge c) by (eapply CT; eauto). subst t. congruence. }
  intros [] _.
  change (?a :: ?b :: ?r) with ([a; b] ++ r) at 1. apply runs_bind.
  { unfold check_origin. apply (runs_bind _ _ [_]).
    { apply runs_one; cbn [passes fails].
      - split.
        + intros (x & H). exists (cd_origin c), x. split; [exists d; auto|now apply parse_origin_iff].
        + intros (t & x & H1 & H2). assert (t = cd_origin c) by (eapply CT; eauto). subst t.
          exists x. now apply parse_origin_iff.
      - intro e. rewrite origin_fails_iff. split.
        + intro H. exists (cd_origin c). split; [exists d; auto|assumption].
        + intros (t & H1 & H2). assert (t = cd_origin c) by (eapply CT; eauto). now subst t. }
    intros x Hx. apply runs_check. apply extract_allowed_ok in HO as [_ F].
    rewrite existsb_exists. split.
    - intros (y & H1 & H2). apply origin_eqb_spec in H2. subst y.
      destruct (Forall2_in_r _ _ _ _ F H1) as (s & Hs & Ps).
      exists (cd_origin c), x, s. split; [exists d; auto|].
      split; [now apply parse_origin_iff|]. split; [assumption|now apply parse_origin_iff].
    - intros (t & y & s & H1 & H2 & H3 & H4). assert (t = cd_origin c) by (eapply CT; eauto). subst t.
      apply parse_origin_iff in H2, H4. assert (y = x) by congruence. subst y.
      destruct (Forall2_in_l _ _ _ _ F H3) as (y & Hy & Py). assert (y = x) by congruence. subst y.
      exists x. split; [assumption|now apply origin_eqb_spec]. }
  intros [] _. change (?a :: l) with ([a] ++ l). apply runs_bind; [|auto].
  apply runs_otherwise.
  - split.
    + intros ([] & H). exists d. split; [assumption|]. now apply check_token_binding_ok with (c := c).
    + intros (d' & D & H). assert (d' = d) by (eapply client_object_fun; eauto). subst d'.
      exists tt. now apply check_token_binding_ok with (d := d).
  - intros e H. unfold check_token_binding in H. destruct tb, (cd_token_binding c).
    + apply bind_raise in H as [H|(? & _ & H)]; now apply check_raise in H.
    + injection H as <-. reflexivity.
    + apply check_raise in H. now destruct H.
    + apply check_raise in H. now destruct H.
Qed.

(** ** Authenticator data *)

Lemma runs_rp_id (Id : pystr -> Prop) id : (forall i, Id i <-> i = id) ->
  Runs (utf8_encode id) [rp_id_step Id].
Proof.
  intro HI. apply runs_otherwise.
  - split.
    + intros (b & H). exists id, b. split; [now apply HI|assumption].
    + intros (i & b & H1 & H2). apply HI in H1. subst i. eauto.
  - intros e H. now apply utf8_encode_raises in H.
Qed.

Lemma runs_data (Id : pystr -> Prop) (Data : bytes -> Prop) id b adb ad uv exts :
  (forall i, Id i <-> i = id) -> (forall x, Data x <-> x = adb) ->
  utf8_encode id = Ok b -> parse_authenticator_data W adb = Ok ad ->
  Runs (check_auth_data (w_sha256 W b) uv exts ad) (data_steps W Id Data uv exts).
Proof.
  intros HI HD EB HA. destruct (auth_fields _ _ _ HA) as (_ & F1 & F2 & _ & _).
  unfold check_auth_data, data_steps.
  apply (runs_bind _ _ [_]).
  { apply runs_check. rewrite bytes_eqb_spec, F1. split.
    - intro H. exists id, b, adb. split; [now apply HI|]. split; [assumption|].
      split; [now apply HD|assumption].
    - intros (i & b' & x & H1 & H2 & H3 & H4). apply HI in H1. apply HD in H3. subst. congruence. }
  intros _ _. apply (runs_bind _ _ [_]).
  { apply runs_check. rewrite flag_up, F2. fold (flag_bit adb 0). split.
    - intro H. exists adb. split; [now apply HD|assumption].
    - intros (x & H1 & H2). apply HD in H1. now subst. }
  intros _ _. apply (runs_bind _ _ [_]).
  { apply runs_check. rewrite flag_uv, F2. fold (flag_bit adb 2). rewrite orb_true_iff, negb_true_iff. split.
    - intros [H|H] U; [congruence|]. exists adb. split; [now apply HD|assumption].
    - intro H. destruct uv; [|auto]. destruct (H eq_refl) as (x & H1 & H2). apply HD in H1. subst. auto. }
  intros _ _. apply runs_otherwise.
  - split.
    + intros (x & H). exists adb, ad. split; [now apply HD|]. split; [now apply auth_reads_iff|].
      intros l e -> He. destruct x. now apply (proj1 (check_extensions_ok _ _) H).
    + intros (x & ad' & H1 & H2 & H3). apply HD in H1. subst x. apply auth_reads_iff in H2.
      assert (ad' = ad) by congruence. subst ad'. exists tt. destruct exts as [l|]; [|reflexivity].
      apply check_extensions_ok. intros e He. now apply (H3 l e).
  - intros e H. destruct exts; [|discriminate]. now apply check_extensions_raise in H.
Qed.

(** ** Authentication *)
Section Login.
Context {S : Type}.
Variable R : registrar S.
Variable s : S.
Variable A : assertion_args.

(** The run as one sequence. *)
Definition login_chain : res unit :=
  os <- (os <- extract_allowed_origins W (aa_origin A) ;;
         match aa_allow A with
         | None => Ok tt
         | Some l => check (existsb (fun d => bytes_eqb (de_id d) (cr_raw_id (aa_credential A))) l)
                           (Lib CredentialNotAllowedError)
         end ;;; Ok os) ;;
  o <- match lookup R s A with Raise e => Raise (refusal W e) | Ok o => Ok o end ;;
  cdt <- match o with None => raise CredentialDataError | Some c => Ok c end ;;
  x <- assertion_checks W A os cdt ;;
  answer_result W (snd (r_assert R (fst (r_get R s (cr_raw_id (aa_credential A)))) (aa_credential A)
    (fst (fst x)) (snd (fst x)) (snd x))).

Lemma login_chain_eq :
  out_result (run R s (handle_credential_assertion W A)) = wrap login_chain.
Proof.
  unfold handle_credential_assertion, login_chain, lookup. change (bind (bind ?a ?b) _) with (bind (assertion_pre W A) (fun os => 
    o <- match snd (r_get R s (cr_raw_id (aa_credential A))) with Raise e => Raise (refusal W e) | Ok o => Ok o end ;;
    cdt <- match o with None => raise CredentialDataError | Some c => Ok c end ;;
    x <- assertion_checks W A os cdt ;;
    answer_result W (snd (r_assert R (fst (r_get R s (cr_raw_id (aa_credential A)))) (aa_credential A)
      (fst (fst x)) (snd (fst x)) (snd x))))).
  destruct (assertion_pre W A) as [os|e]; [|reflexivity]. cbn [run bind].
  destruct (r_get R s (cr_raw_id (aa_credential A))) as [s1 [[cdt|]|e]]; cbn [snd fst bind]; [|reflexivity..].
  destruct (assertion_checks W A os cdt) as [[[ad u] rp]|e]; [|reflexivity]. cbn [run bind fst snd].
  destruct (r_assert R s1 (aa_credential A) ad u rp) as [s2 a]. reflexivity.
Qed.

Lemma runs_allow :
  Runs (match aa_allow A with
        | None => Ok tt
        | Some l => check (existsb (fun d => bytes_eqb (de_id d) (cr_raw_id (aa_credential A))) l)
                          (Lib CredentialNotAllowedError)
        end)
       [otherwise (AllowSpec (aa_allow A) (cr_raw_id (aa_credential A))) (Lib CredentialNotAllowedError)].
Proof.
  apply runs_otherwise.
  - rewrite <- allow_ok. split; [intros ([] & H); exact H|eauto].
  - intros e H. destruct (aa_allow A); [now apply check_raise in H|discriminate].
Qed.

Lemma login_rp_fun cdt rp rp' : lookup R s A = Ok (Some cdt) ->
  resolve_rp A cdt = Ok rp -> login_rp R s A rp' <-> rp' = rp.
Proof.
  intros L H. apply resolve_rp_ok in H. unfold login_rp, RpSpec, Known in *.
  destruct (aa_rp A) as [r|].
  - destruct H as [-> _]. split; [intros [H|[H _]]; congruence|intros ->; auto].
  - split; [intros [H0|(_ & c & H1 & H2)]; congruence|intros ->; right; eauto].
Qed.
Lemma login_user_fun cdt u u' : lookup R s A = Ok (Some cdt) ->
  resolve_user A cdt = Ok u -> login_user R s A u' <-> u' = u.
Proof.
  intros L H. apply resolve_user_ok in H as (? & ? & ? & ? & _ & -> & _). unfold login_user, Known.
  destruct (aa_user A) as [v|].
  - split; [intros [H|[H _]]; congruence|intros ->; auto].
  - split; [intros [H|(_ & c & H1 & ->)]; congruence|intros ->; right; eauto].
Qed.

Lemma runs_user cdt : lookup R s A = Ok (Some cdt) ->
  Runs (resolve_user A cdt)
   [ otherwise (exists cdt u, Known R s A cdt /\ login_user R s A u /\ us_id u = us_id (cdt_user cdt))
               (Lib UserIDError);
     otherwise (exists cdj adb sig h, Response A cdj adb sig h) (Py EAttributeError);
     otherwise (aa_user A = None -> exists cdj adb sig h, Response A cdj adb sig (Some h))
               (Lib UserHandleError);
     otherwise (forall cdj adb sig h cdt, Response A cdj adb sig (Some h) -> Known R s A cdt ->
                  h = us_id (cdt_user cdt)) (Lib UserHandleError) ].
Proof.
  intro L. set (u := match aa_user A with Some u => u | None => cdt_user cdt end).
  assert (E : resolve_user A cdt =
    (match aa_user A with
     | Some v => check (bytes_eqb (us_id (cdt_user cdt)) (us_id v)) (Lib UserIDError)
     | None => Ok tt end ;;;
     match cr_response (aa_credential A) with
     | AssertionResponse _ _ _ _ => Ok tt | _ => Raise (Py EAttributeError) end ;;;
     match aa_user A, cr_response (aa_credential A) with
     | None, AssertionResponse _ _ _ None => raise UserHandleError | _, _ => Ok tt end ;;;
     match cr_response (aa_credential A) with
     | AssertionResponse _ _ _ (Some h) => check (bytes_eqb h (us_id u)) (Lib UserHandleError)
     | _ => Ok tt end ;;;
     Ok u)).
  { unfold resolve_user, u. destruct (aa_user A) as [v|].
    - destruct (bytes_eqb _ _); [|reflexivity].
      destruct (cr_response (aa_credential A)) as [|? ? ? [h|]]; cbn; try reflexivity.
    - destruct (cr_response (aa_credential A)) as [|? ? ? [h|]]; cbn; reflexivity. }
  rewrite E. clear E. unfold Response, login_user, Known.
  apply (runs_bind _ _ [_]).
  { apply runs_otherwise.
    - destruct (aa_user A) as [v|].
      + split.
        * intros (? & H). apply check_ok, bytes_eqb_spec in H. exists cdt, v. auto.
        * intros (c & w & H1 & [H2|[H2 _]] & H3); [|discriminate]. exists tt. apply check_ok, bytes_eqb_spec. congruence.
      + split; [|intros _; eexists; reflexivity]. intros _. exists cdt, (cdt_user cdt).
        split; [assumption|]. split; [right; eauto|reflexivity].
    - intros e H. destruct (aa_user A); [now apply check_raise in H|discriminate]. }
  intros [] HU. apply (runs_bind _ _ [_]).
  { apply runs_otherwise.
    - destruct (cr_response (aa_credential A)) as [|? ? ? h].
      + split; [intros (? & ?); discriminate|intros (? & ? & ? & ? & ?); discriminate].
      + split; [eauto 6|eauto].
    - intros e H. destruct (cr_response (aa_credential A)); congruence. }
  intros [] HR. destruct (cr_response (aa_credential A)) as [|cdj adb sig h] eqn:ER; [discriminate|].
  apply (runs_bind _ _ [_]).
  { apply runs_otherwise.
    - destruct (aa_user A) as [v|].
      + split; [intros _ H; discriminate|eauto].
      + destruct h as [h|].
        * split; eauto 6.
        * split; [intros (? & ?); discriminate|]. intro H. destruct (H eq_refl) as (? & ? & ? & ? & E); discriminate.
    - intros e H. destruct (aa_user A); [discriminate|]. destruct h; [discriminate|now injection H]. }
  intros [] _. apply runs_last; [|eauto]. apply runs_otherwise.
  - destruct h as [h|].
    + assert (EU : us_id u = us_id (cdt_user cdt)).
      { unfold u. destruct (aa_user A); [|reflexivity]. now apply check_ok, bytes_eqb_spec in HU. }
      rewrite EU. split.
      * intros (? & H) cdj' adb' sig' h' cdt' E K. apply check_ok, bytes_eqb_spec in H.
        injection E as <- <- <- <-. congruence.
      * intro H. exists tt. apply check_ok, bytes_eqb_spec. eapply H; eauto.
    + split; [intros _ ? ? ? ? ? E; discriminate|eauto].
  - intros e H. destruct h; [now apply check_raise in H|discriminate].
Qed.

Lemma runs_rp cdt : lookup R s A = Ok (Some cdt) ->
  Runs (resolve_rp A cdt)
   [ otherwise (exists rp, login_rp R s A rp) (Lib RPNotFoundError);
     otherwise (forall cdt r r', Known R s A cdt -> cdt_rp cdt = Some r -> aa_rp A = Some r' ->
                  rp_id r = rp_id r') (Lib RPIDError) ].
Proof.
  intro L.
  assert (E : resolve_rp A cdt =
    (rp <- match aa_rp A, cdt_rp cdt with
           | Some r, _ => Ok r | None, Some r => Ok r | None, None => raise RPNotFoundError end ;;
     match cdt_rp cdt, aa_rp A with
     | Some r, Some r' => check (str_eqb (rp_id r) (rp_id r')) (Lib RPIDError) | _, _ => Ok tt end ;;;
     Ok rp)).
  { unfold resolve_rp. destruct (cdt_rp cdt), (aa_rp A); reflexivity. }
  rewrite E. clear E. unfold login_rp, Known. apply (runs_bind _ _ [_]).
  { apply runs_otherwise.
    - destruct (aa_rp A) as [r|]; [split; eauto|]. destruct (cdt_rp cdt) as [r|] eqn:C.
      + split; [|eauto]. intros _. exists r. right. eauto.
      + split; [intros (? & ?); discriminate|]. intros (rp & [H|(_ & c & H1 & H2)]); congruence.
    - intros e H. destruct (aa_rp A), (cdt_rp cdt); try discriminate. now injection H. }
  intros rp _. apply runs_last; [|eauto]. apply runs_otherwise.
  - destruct (cdt_rp cdt) as [r|] eqn:C, (aa_rp A) as [r'|].
    + split.
      * intros ([] & H) c r1 r2 K H1 H2. apply check_ok, str_eqb_spec in H. congruence.
      * intro H. exists tt. apply check_ok, str_eqb_spec. eapply H; eauto.
    + split; [intros _ ? ? ? _ _ H; discriminate|eauto].
    + split; [|eauto]. intros _ c r1 r2 K H1 H2. congruence.
    + split; [intros _ ? ? ? _ _ H; discriminate|eauto].
  - intros e H. destruct (cdt_rp cdt), (aa_rp A); [now apply check_raise in H|discriminate..].
Qed.

(** The list in the groups of the code. *)
Lemma login_groups : exists user rp,
  LoginSteps W R s A =
  ([origins_step W (aa_origin A)] ++
   [otherwise (AllowSpec (aa_allow A) (cr_raw_id (aa_credential A))) (Lib CredentialNotAllowedError)]) ++
  [Step (exists o, lookup R s A = Ok o) (fun e => exists e', lookup R s A = Raise e' /\ Declined W e' e)] ++
  [otherwise (exists cdt, Known R s A cdt) (Lib CredentialDataError)] ++
  (user ++ rp ++
   client_steps W "webauthn.get" (aa_challenge A) (aa_origin A) (aa_token_binding A)
               (json_of (cr_response (aa_credential A))) ++
   [rp_id_step (login_rp_id R s A)] ++
   [Step (exists adb ad, login_data A adb /\ AuthReads W adb ad)
         (fun e => exists adb, login_data A adb /\ AuthFails W adb e)] ++
   data_steps W (login_rp_id R s A) (login_data A) (aa_require_uv A) (aa_extensions A) ++
   [Step (exists cdt cdj adb sig h, Known R s A cdt /\ Response A cdj adb sig h /\
            SignatureSpec W (cdt_key cdt) sig (adb ++ w_sha256 W cdj))
         (fun e => exists cdt cdj adb sig h, Known R s A cdt /\ Response A cdj adb sig h /\
            VerifyFails W sig (adb ++ w_sha256 W cdj) (cdt_key cdt) e)] ++
   [otherwise (exists cdt adb, Known R s A cdt /\ login_data A adb /\
                 CounterSpec (aa_ignore_clone A) (cdt_sign_count cdt) (counter_of adb))
              (Lib SignatureCountError)]) ++
  [Step (LoginAnswer W R s A (Ok None)) (fun e => exists a, LoginAnswer W R s A a /\ AnswerFails W a e)] /\
  (forall cdt, lookup R s A = Ok (Some cdt) -> Runs (resolve_user A cdt) user) /\
  (forall cdt, lookup R s A = Ok (Some cdt) -> Runs (resolve_rp A cdt) rp).
Proof.
  do 2 eexists. split; [|split; [exact runs_user|exact runs_rp]]. reflexivity.
Qed.

Lemma runs_login : Runs login_chain (LoginSteps W R s A).
Proof.
  destruct login_groups as (user & rps & -> & HU & HR).
  unfold login_chain. apply runs_bind.
  { apply runs_bind; [apply runs_origins|]. intros os _.
    apply runs_last; [apply runs_allow|eauto]. }
  intros os HO. apply bind_ok in HO as (os' & HO & H). apply bind_ok in H as ([] & _ & H).
  injection H as ->.
  apply runs_bind.
  { apply runs_one; cbn [passes fails].
    - destruct (lookup R s A); split; eauto; intros (? & ?); discriminate.
    - intro e. destruct (lookup R s A) as [o|x]; split.
      + discriminate.
      + intros (? & Q & _). discriminate.
      + intro H. injection H as H. exists x. split; [reflexivity|now apply refusal_iff].
      + intros (y & Q & D). injection Q as ->. apply refusal_iff in D. now rewrite D. }
  intros o Ho. apply runs_bind.
  { unfold Known. destruct (lookup R s A) as [o'|e]; [|discriminate]. injection Ho as ->.
    apply runs_otherwise.
    - destruct o as [c|]; split; eauto; intros (? & ?); discriminate.
    - intros e H. destruct o; [discriminate|now injection H]. }
  intros cdt Hc.
  assert (L : lookup R s A = Ok (Some cdt)).
  { destruct (lookup R s A) as [o'|e]; [|discriminate]. destruct o; [|discriminate]. congruence. }
  clear o Ho Hc. specialize (HU cdt L). specialize (HR cdt L). apply runs_bind.
  - unfold assertion_checks. apply runs_bind; [exact HU|].
    intros u Hu. destruct (proj1 (resolve_user_ok A cdt u) Hu) as (cdj & adb & sig & h & ER & _).
    rewrite ER. cbn [resp_client_data_JSON resp_authenticator_data resp_signature json_of].
    assert (LD : forall x, login_data A x <-> x = adb).
    { unfold login_data, Response. rewrite ER. intro x. split; [intros (? & ? & ? & E); congruence|intros ->; eauto]. }
    apply runs_bind; [exact HR|]. intros rp Hrp.
    assert (LR : forall i, login_rp_id R s A i <-> i = rp_id rp).
    { intro i. unfold login_rp_id. split.
      - intros (r & H & ->). apply (login_rp_fun cdt rp r L Hrp) in H. now subst.
      - intros ->. exists rp. split; [|reflexivity]. now apply (login_rp_fun cdt rp rp L Hrp). }
    apply (runs_client _ _ _ _ _ os); [exact HO|].
    apply runs_bind; [now apply runs_rp_id|]. intros b Hb. cbn [bind].
    apply runs_bind.
    { apply runs_one; cbn [passes fails].
      - split.
        + intros (ad & H). exists adb, ad. split; [now apply LD|now apply auth_reads_iff].
        + intros (x & ad & H1 & H2). apply LD in H1. subst x. exists ad. now apply auth_reads_iff.
      - intro e. rewrite auth_fails_iff. split.
        + intro H. exists adb. split; [now apply LD|assumption].
        + intros (x & H1 & H2). apply LD in H1. now subst x. }
    intros ad Had. apply runs_bind; [eapply runs_data; eauto|]. intros [] _. cbn [bind].
    apply runs_bind.
    { apply runs_one; cbn [passes fails]; unfold Known, Response; rewrite ER.
      - split.
        + intros ([] & H). apply verify_iff in H. exists cdt, cdj, adb, sig, h. auto.
        + intros (c & ? & ? & ? & ? & K & E & H). injection E as <- <- <- <-.
          assert (c = cdt) by congruence. subst c. exists tt. now apply verify_iff.
      - intro e. rewrite verify_fails_iff. split.
        + intro H. exists cdt, cdj, adb, sig, h. auto.
        + intros (c & ? & ? & ? & ? & K & E & H). injection E as <- <- <- <-.
          assert (c = cdt) by congruence. now subst c. }
    intros [] _. apply runs_last; [|eauto].
    destruct (auth_fields _ _ _ Had) as (_ & _ & _ & F3 & _).
    apply runs_otherwise; unfold Known.
    + rewrite <- F3 || idtac. split.
      * intros ([] & H). apply counter_ok in H. exists cdt, adb. split; [assumption|].
        split; [now apply LD|]. now rewrite <- F3.
      * intros (c & x & K & H1 & H2). apply LD in H1. subst x. assert (c = cdt) by congruence. subst c.
        exists tt. apply counter_ok. now rewrite F3.
    + intros e H. unfold check_sign_count in H. destruct (cdt_sign_count cdt); [now apply check_raise in H|discriminate].
  - intros [[ad u] rp] HX. cbn [fst snd].
    unfold assertion_checks in HX. apply bind_ok in HX as (u' & Hu & HX).
    destruct (proj1 (resolve_user_ok A cdt u') Hu) as (cdj & adb & sig & h & ER & _).
    rewrite ER in HX. cbn [resp_client_data_JSON resp_authenticator_data resp_signature] in HX.
    apply bind_ok in HX as (rp' & Hrp & HX).
    do 6 apply bind_ok in HX as (? & _ & HX). cbn [bind] in HX.
    apply bind_ok in HX as (ad' & Had & HX). apply bind_ok in HX as (? & _ & HX). cbn [bind] in HX.
    do 2 apply bind_ok in HX as (? & _ & HX). injection HX as -> -> ->.
    assert (LA : forall a, LoginAnswer W R s A a <->
      snd (r_assert R (fst (r_get R s (cr_raw_id (aa_credential A)))) (aa_credential A) ad u rp) = a).
    { intro a. split.
      * intros (adb' & ad' & u' & rp' & (? & ? & ? & E) & H1 & H2 & H3 & H4). unfold Response in E.
        assert (adb' = adb) by congruence. subst adb'. apply auth_reads_iff in H1.
        assert (ad' = ad) by congruence. subst ad'.
        apply (login_user_fun cdt u u' L Hu) in H2. apply (login_rp_fun cdt rp rp' L Hrp) in H3. now subst.
      * intro H. exists adb, ad, u, rp.
        split; [exists cdj, sig, h; assumption|]. split; [now apply auth_reads_iff|].
        split; [now apply (login_user_fun cdt u u L Hu)|].
        split; [now apply (login_rp_fun cdt rp rp L Hrp)|assumption]. }
    apply runs_one; cbn [passes fails].
    + rewrite LA. split; [intros ([] & H); now apply answer_ok in H|intro H; exists tt; now apply answer_ok].
    + intro e. rewrite answer_fails_iff. split; [intro H; eexists; split; [now apply LA|exact H]|].
      intros (a & H & F). apply LA in H. now rewrite H.
Qed.

End Login.

(** ** Registration *)
Section Registration.
Context {S : Type}.
Variable R : registrar S.
Variable s : S.
Variable A : attestation_args.

Definition reg_chain : res unit :=
  x <- attestation_checks W A ;;
  answer_result W (snd (r_attest R s (ra_credential A) (fst x) (fst (snd x)) (ra_user A) (ra_rp A) (snd (snd x)))).

Lemma reg_chain_eq :
  out_result (run R s (handle_credential_attestation W A)) = wrap reg_chain.
Proof.
  unfold handle_credential_attestation, handle_credential_attestation_with, reg_chain.
  fold (attestation_checks W).
  destruct (attestation_checks W A) as [[att [ty path]]|e]; [|reflexivity]. cbn [run bind fst snd].
  destruct (r_attest R s (ra_credential A) att ty (ra_user A) (ra_rp A) path) as [s1 a]. reflexivity.
Qed.

Lemma reg_groups :
  RegistrationSteps W R s A =
  ([ origins_step W (ra_origin A) ] ++
  client_steps W "webauthn.create" (ra_challenge A) (ra_origin A) (ra_token_binding A)
               (json_of (cr_response (ra_credential A))) ++
  [ rp_id_step (reg_rp_id A) ] ++
  [ otherwise (exists cdj aob, AttResponse A cdj aob) (Py EAttributeError) ] ++
  [ Step (exists f st ad cdj adb, ReadsObject W A f st ad cdj adb)
         (fun e => exists cdj aob, AttResponse A cdj aob /\ AttObjFails W aob e) ] ++
  data_steps W (reg_rp_id A) (reg_data W A) (ra_require_uv A) (ra_extensions A) ++
  [ otherwise (exists adb, reg_data W A adb /\ flag_bit adb 6 = true) (Py EAssertionError) ] ++
  [ Step (exists f ad cdj adb, ReadsObject W A f S_None ad cdj adb)
         (fun e => exists f st ad acd cdj adb, ReadsObject W A f st ad cdj adb /\
            ad_attested ad = Some acd /\
            StatementFails W adb (w_sha256 W cdj) (at_key acd) st e) ]) ++
  [ Step (RegAnswer W R s A (Ok None)) (fun e => exists a, RegAnswer W R s A a /\ AnswerFails W a e) ].
Proof. reflexivity. Qed.

Lemma fmt_value_name f : fmt_value f = lit (fmt_name f).
Proof. now destruct f. Qed.

Lemma object_reads cdj aob o d : cr_response (ra_credential A) = AttestationResponse cdj aob ->
  parse_attestation_object W aob = Ok (o, d) ->
  exists f st ad adb, ao_auth_data o = Some ad /\ ao_fmt o = f /\ ao_stmt o = st /\
    parse_authenticator_data W adb = Ok ad /\ member "authData" d (VBytes adb) /\
    ReadsObject W A f st ad cdj adb /\
    (forall x, reg_data W A x <-> x = adb) /\
    (forall f' st' ad' cdj' adb', ReadsObject W A f' st' ad' cdj' adb' ->
       f' = f /\ st' = st /\ ad' = ad /\ cdj' = cdj /\ adb' = adb).
Proof.
  intros ER H. apply parse_attestation_object_ok in H as (rest & adb & sd & ad & f & st & P1 & P2 & P3 & P4 & P5 & P6 & ->).
  exists f, st, ad, adb. cbn [ao_auth_data ao_fmt ao_stmt]. rewrite fmt_value_name in P3.
  assert (AO : AttObjSpec W aob (fmt_name f) sd adb) by (exists d, rest; auto).
  repeat (split; [first [reflexivity|assumption]|]). split; [|split].
  - exists aob, sd. split; [exact ER|]. split; [assumption|]. split; [now apply (statement_iff (W := W))|now apply auth_reads_iff].
  - intro x. split.
    + intros (c & a & fm & sd' & E & d' & rest' & Q1 & Q2 & Q3 & Q4). unfold AttResponse in E.
      assert (a = aob) by congruence. subst a. unfold member in *. congruence.
    + intros ->. exists cdj, aob, (fmt_name f), sd. auto.
  - intros f' st' ad' cdj' adb' (a & sd' & E & (d' & rest' & Q1 & Q2 & Q3 & Q4) & Q5 & Q6).
    unfold AttResponse in E. assert (a = aob) by congruence. assert (cdj' = cdj) by congruence. subst a cdj'.
    assert (d' = d) by congruence. subst d'. unfold member in *.
    assert (sd' = sd) by congruence. assert (adb' = adb) by congruence. subst sd' adb'.
    apply auth_reads_iff in Q6. assert (ad' = ad) by congruence. subst ad'.
    assert (FF : fmt_value f' = fmt_value f) by (rewrite !fmt_value_name; congruence).
    assert (f' = f) by (destruct f', f; try reflexivity; discriminate). subst f'.
    apply (statement_iff (W := W)) in Q5. assert (st' = st) by congruence. auto.
Qed.

Lemma runs_reg : Runs reg_chain (RegistrationSteps W R s A).
Proof.
  rewrite reg_groups. unfold reg_chain. apply runs_bind.
  - unfold attestation_checks, attestation_checks_with, call_attest.
    apply runs_bind; [apply runs_origins|]. intros os HO.
    replace (resp_client_data_JSON (cr_response (ra_credential A))) with (json_of (cr_response (ra_credential A)))
      by reflexivity.
    apply (runs_client _ _ _ _ _ os); [exact HO|].
    apply runs_bind; [apply runs_rp_id; reflexivity|]. intros b Hb.
    apply runs_bind.
    { unfold AttResponse. apply runs_otherwise.
      - destruct (cr_response (ra_credential A)) as [c a|]; cbn; split; eauto;
          [intros (? & ?); discriminate|intros (? & ? & ?); discriminate].
      - intros e H. destruct (cr_response (ra_credential A)); [discriminate|now injection H]. }
    intros aob HA. destruct (cr_response (ra_credential A)) as [cdj a|] eqn:ER; [|discriminate].
    injection HA as ->. cbn [json_of].
    apply runs_bind.
    { apply runs_one; cbn [passes fails]; unfold AttResponse; rewrite ?ER.
      - split.
        + intros ([o d] & H). destruct (object_reads cdj aob o d ER H) as (f & st & ad & adb & _ & _ & _ & _ & _ & RO & _).
          exists f, st, ad, cdj, adb. exact RO.
        + intros (f & st & ad & c & adb & a & sd & E & (d & rest & Q1 & Q2 & Q3 & Q4) & Q5 & Q6).
          unfold AttResponse in E. assert (a = aob) by congruence. subst a.
          eexists (_, d). apply parse_attestation_object_ok. exists rest, adb, sd, ad, f, st.
          rewrite fmt_value_name. apply auth_reads_iff in Q6. apply (statement_iff (W := W)) in Q5. auto 8.
      - intro e. rewrite attobj_fails_iff. split; [eauto|]. intros (c & a & E & H). congruence. }
    intros [o d] HP. destruct (object_reads cdj aob o d ER HP) as (f & st & ad & adb & E1 & E2 & E3 & PA & MA & RO & RD & RF).
    rewrite E1. cbn [bind].
    apply runs_bind; [eapply runs_data; eauto; reflexivity|]. intros [] _.
    destruct (auth_fields _ _ _ PA) as (_ & _ & _ & _ & F6 & _).
    apply runs_bind.
    { apply runs_otherwise.
      - split.
        + intros (acd & H). exists adb. split; [now apply RD|]. rewrite <- F6.
          destruct (ad_attested ad); [reflexivity|discriminate].
        + intros (x & H1 & H2). apply RD in H1. subst x. rewrite <- F6 in H2.
          destruct (ad_attested ad); [cbn; eauto|discriminate].
      - intros e H. destruct (ad_attested ad); [discriminate|now injection H]. }
    intros acd Hacd.
    assert (AC : ad_attested ad = Some acd) by (destruct (ad_attested ad); [cbn in Hacd; congruence|discriminate]).
    unfold dict_index, skey. unfold member in MA. rewrite MA. cbn [bind as_bytes].
    apply runs_last; [|eauto]. rewrite E3.
    apply runs_one; cbn [passes fails].
    + split.
      * intros (r & H). apply attest_key_ok in H as [-> _]. eauto 6.
      * intros (f' & ad' & c & x & H). apply RF in H as (_ & <- & _). eexists. reflexivity.
    + intro e. split.
      * intro H. exists f, st, ad, acd, cdj, adb. split; [assumption|]. split; [assumption|].
        destruct st; cbn [attest] in H; try (injection H as <-; apply sf_other; congruence).
        -- apply sf_android. now apply android_fails_iff.
        -- apply sf_u2f. now apply u2f_fails_iff.
        -- discriminate.
      * intros (f' & st' & ad' & acd' & c & x & H & H1 & H2). apply RF in H as (-> & -> & -> & -> & ->).
        assert (acd' = acd) by congruence. subst acd'.
        destruct H2 as [sig x5c e H2|al sig x5c e H2|st N1 N2 N3]; cbn [attest].
        -- now apply u2f_fails_iff.
        -- now apply android_fails_iff.
        -- destruct st; try reflexivity; [elim (N3 a sig x5c)|elim (N2 sig x5c)|elim N1]; reflexivity.
  - intros [att [ty path]] H. cbn [fst snd].
    apply attestation_iff in H as ((cdj & aob & adb & ad & ER & _ & AO & HA & _ & ->) & -> & ->).
    destruct HA as (HA & _).
    assert (RO : ReadsObject W A F_NONE S_None ad cdj adb).
    { exists aob, []. split; [exact ER|]. split; [exact AO|]. split; [|assumption].
      apply (statement_iff (W := W)). now apply none_statement_ok. }
    assert (LA : forall a, RegAnswer W R s A a <->
      snd (r_attest R s (ra_credential A) (att_obj_of ad F_NONE S_None) AT_NONE (ra_user A) (ra_rp A) None) = a).
    { intro a0. split.
      * intros (ad' & c & x & H1 & H2). 
        assert (ad' = ad); [|now subst].
        destruct H1 as (a & sd & E & (d & rest & Q1 & _ & _ & Q2) & _ & Q3). unfold AttResponse in E.
        assert (a = aob) by congruence. subst a. destruct AO as (d' & rest' & Q4 & _ & _ & Q5).
        unfold member in *. assert (x = adb) by congruence. subst x.
        apply auth_reads_iff in Q3, HA. congruence.
      * intro H. exists ad, cdj, adb. auto. }
    apply runs_one; cbn [passes fails].
    + rewrite LA. split; [intros ([] & H); now apply answer_ok in H|intro H; exists tt; now apply answer_ok].
    + intro e. rewrite answer_fails_iff. split; [intro H; eexists; split; [now apply LA|exact H]|].
      intros (a & H & F). apply LA in H. rewrite <- H in F. exact F.
Qed.
End Registration.

Lemma login_first {S} (R : registrar S) s A :
  (login_succeeds W R s A <-> Forall passes (LoginSteps W R s A)) /\
  (forall e, out_result (run R s (handle_credential_assertion W A)) = Raise e <->
     exists e', FirstFailure (LoginSteps W R s A) e' /\ Reported e' e) /\
  (forall e e', FirstFailure (LoginSteps W R s A) e -> FirstFailure (LoginSteps W R s A) e' -> e = e').
Proof. rewrite login_chain_eq. apply runs_reported, runs_login. Qed.

Lemma reg_first {S} (R : registrar S) s A :
  (registration_succeeds W R s A <-> Forall passes (RegistrationSteps W R s A)) /\
  (forall e, out_result (run R s (handle_credential_attestation W A)) = Raise e <->
     exists e', FirstFailure (RegistrationSteps W R s A) e' /\ Reported e' e) /\
  (forall e e', FirstFailure (RegistrationSteps W R s A) e -> FirstFailure (RegistrationSteps W R s A) e' -> e = e').
Proof. rewrite reg_chain_eq. apply runs_reported, runs_reg. Qed.

End W.
