(** * MapFails: the parsers of decoded maps raise the exception of the first failing check. *)
From Coq Require Import List NArith ZArith Bool Lia String.
From Verif Require Import Base PyVal BaseFacts B64 Utf8 Url Types World FormatSpec Parsers
  FormatFacts StepSpec StepFacts MapFailSpec RaiseFacts.
Import ListNotations.
Local Open Scope res_scope.
Local Open Scope list_scope.

Section WithWorld.
Variable W : World.

(** ** Messages *)

Lemma complains_spec (P : pyval -> Prop) vs e :
  (forall v, P v <-> In v vs) -> (Complains W P e <-> e = complaint W vs).
Proof.
  intro H. unfold Complains, complaint, parser_error. destruct (forallb (shows W) vs) eqn:F.
  - rewrite forallb_forall in F. split.
    + intros [[_ ->]|[(v & Pv & S) _]]; [reflexivity|]. apply H, F in Pv. congruence.
    + intros ->. left. split; [|reflexivity]. intros v Pv. now apply F, H.
  - assert (X : exists v, In v vs /\ shows W v = false).
    { clear H. induction vs as [|v t IH]; [discriminate|]. cbn in F.
      destruct (shows W v) eqn:S; [|exists v; cbn; auto].
      destruct (IH F) as (x & I & E). exists x; cbn; auto. }
    destruct X as (x & I & S). split.
    + intros [[A _]|[_ ->]]; [|reflexivity]. apply H, A in I. congruence.
    + intros ->. right. split; [|reflexivity]. exists x. split; [now apply H|assumption].
Qed.
Lemma complains_one v e : Complains W (eq v) e <-> e = complaint W [v].
Proof. apply complains_spec. intro x. cbn. split; [auto|intros [H|[]]; exact H]. Qed.

(** ** Common checks *)

Lemma enum_call_exn {A} (t : enum_table A) v e :
  enum_call t v = Raise e -> is_KeyOrValueError e = true.
Proof.
  unfold enum_call. destruct v; try (destruct (find _ _)); intro H; try discriminate;
    injection H as <-; reflexivity.
Qed.

Lemma field_error k ts d r e : parse_dictionary_field k ts d r = Raise e -> e = parser_error.
Proof.
  unfold parse_dictionary_field, raise. destruct (is_none _).
  - destruct r; intro H; [injection H as <-; reflexivity|discriminate].
  - destruct (type_in _ _); intro H; [discriminate|injection H as <-; reflexivity].
Qed.

Lemma int_or_text_type v : In (type_of v) [TInt; TStr] <-> int_or_text v.
Proof.
  unfold int_or_text. split.
  - intros [H|[H|[]]]; destruct v; try discriminate; eauto.
  - intros [(z & ->)|(s & ->)]; cbn; auto.
Qed.

Lemma runs_registered {A} (t : enum_table A) tbl k d (at_ : pyval -> Prop) :
  (forall v m, enum_call t v = Ok m <-> entry tbl v m) ->
  (forall v, at_ v <-> dict_find k d = Some v) ->
  Runs (raw <- parse_dictionary_field k [TInt; TStr] d true ;;
        catch (enum_call t raw) is_KeyOrValueError (complaint W [raw]))
       [registered W at_ tbl].
Proof.
  intros HE HA.
  set (r := bind _ _).
  assert (O : (exists a, r = Ok a) <-> exists v m, at_ v /\ entry tbl v m).
  { split.
    - intros (m & H). apply (field_entry _ _ _ _ _ _ (fun raw => complaint W [raw]) HE (or_introl eq_refl)) in H as (v & L & E).
      exists v, m. split; [now apply HA|assumption].
    - intros (v & m & L & E). exists m. apply (field_entry _ _ _ _ _ _ (fun raw => complaint W [raw]) HE (or_introl eq_refl)).
      exists v. split; [now apply HA|assumption]. }
  apply runs_one; cbn [passes fails registered]; [exact O|]. intro e.
  assert (F : (exists v, parse_dictionary_field k [TInt; TStr] d true = Ok v) <->
              exists v, at_ v /\ int_or_text v).
  { split.
    - intros (v & H). apply field_required in H as (L & _ & T). exists v.
      split; [now apply HA|now apply int_or_text_type].
    - intros (v & L & T). exists v. apply field_required. split; [now apply HA|]. split.
      + intros ->. destruct T as [(? & H)|(? & H)]; discriminate H.
      + now apply int_or_text_type. }
  subst r. destruct (parse_dictionary_field _ _ _ _) as [v|e0] eqn:EF; cbn [bind].
  - apply field_required in EF as (L & _ & T). apply int_or_text_type in T.
    assert (U : forall x, at_ x -> x = v) by (intros x X; apply HA in X; congruence).
    destruct (enum_call t v) as [m|e1] eqn:EC; cbn [catch].
    + apply HE in EC. split; [discriminate|]. intros [[N _]|(x & X & _ & NE & _)].
      * elim N. exists v. split; [now apply HA|assumption].
      * rewrite (U x X) in NE. elim (NE m EC).
    + rewrite (enum_call_exn _ _ _ EC). split.
      * intro H. injection H as <-. right. exists v. split; [now apply HA|]. split; [assumption|].
        split; [|now apply complains_one]. intros m M. apply HE in M. congruence.
      * intros [[N _]|(x & X & _ & _ & C)].
        -- elim N. exists v. split; [now apply HA|assumption].
        -- rewrite (U x X) in C. apply complains_one in C. now rewrite C.
  - apply field_error in EF. subst e0. split.
    + intro H. injection H as <-. left. split; [|reflexivity]. intro X. apply F in X as (v & H).
      discriminate H.
    + intros [[_ ->]|(x & X & T & _)]; [reflexivity|].
      destruct (proj2 F (ex_intro _ x (conj X T))) as (v & H). discriminate H.
Qed.

Lemma runs_keys names d :
  Runs (check_unsupported_keys W (map lit names) d) [known_members W names d].
Proof.
  apply runs_one; cbn [passes fails known_members].
  - split; [intros ([] & H); now apply check_keys_ok in H|].
    intro H. exists tt. now apply check_keys_ok.
  - intro e.
    assert (K : Complains W (fun k => (exists v, In (k, v) d) /\
                  ~ (exists n, In n names /\ k = VStr (lit n))) e <->
                e = complaint W (map fst (filter (fun kv =>
                      negb (existsb (fun s => py_eq (fst kv) (VStr s)) (map lit names))) d))).
    { apply complains_spec. intro k. rewrite in_map_iff. split.
      - intros ((v & I) & N). exists (k, v). split; [reflexivity|]. apply filter_In.
        split; [assumption|]. apply negb_true_iff. cbn [fst].
        destruct (existsb _ _) eqn:E; [|reflexivity]. elim N.
        apply existsb_exists in E as (s & Hs & E). apply in_map_iff in Hs as (n & <- & Hn).
        apply py_eq_str in E. eauto.
      - intros ([k' v] & <- & I). apply filter_In in I as [I E]. cbn [fst] in *.
        split; [eauto|]. intros (n & Hn & ->). apply negb_true_iff in E.
        assert (X : existsb (fun s => py_eq (VStr (lit n)) (VStr s)) (map lit names) = true).
        { apply existsb_exists. exists (lit n). split; [now apply in_map|]. now apply py_eq_str. }
        congruence. }
    rewrite K, <- (check_keys_ok (W := W)). unfold check_unsupported_keys.
    destruct (forallb _ d); cbn [check].
    + split; [discriminate|]. intros [N _]. now elim N.
    + split; [intro H; injection H as <-; split; [discriminate|reflexivity]|].
      intros [_ ->]. reflexivity.
Qed.

Lemma runs_bytes k d (at_ : pyval -> Prop) :
  (forall v, at_ v <-> dict_find k d = Some v) -> Runs (field_bytes k d) [bytes_at at_].
Proof.
  intro HA. apply runs_otherwise.
  - split; intros (b & H); exists b; [apply HA|apply HA in H]; now apply field_bytes_ok.
  - intros e H. unfold field_bytes in H. apply bind_raise in H as [H|(v & H & E)].
    + now apply field_error in H.
    + apply field_required in H as (_ & _ & [T|[]]). destruct v; discriminate.
Qed.
Lemma runs_str k d (at_ : pyval -> Prop) :
  (forall v, at_ v <-> dict_find k d = Some v) -> Runs (field_str k d) [text_at at_].
Proof.
  intro HA. apply runs_otherwise.
  - split; intros (b & H); exists b; [apply HA|apply HA in H]; now apply field_str_ok.
  - intros e H. unfold field_str in H. apply bind_raise in H as [H|(v & H & E)].
    + now apply field_error in H.
    + apply field_required in H as (_ & _ & [T|[]]). destruct v; discriminate.
Qed.
Lemma runs_dict name d :
  Runs (field_dict (skey name) d) [otherwise (exists r, member name d (VDict r)) parser_error].
Proof.
  apply runs_otherwise.
  - split; intros (b & H); exists b; now apply field_dict_ok in H || apply field_dict_ok.
  - intros e H. unfold field_dict in H. apply bind_raise in H as [H|(v & H & E)].
    + now apply field_error in H.
    + apply field_required in H as (_ & _ & [T|[]]). destruct v; discriminate.
Qed.
Lemma opt_bytes_error k d e : field_opt_bytes k d = Raise e -> e = parser_error.
Proof.
  unfold field_opt_bytes. intro H. apply bind_raise in H as [H|(v & H & E)].
  - now apply field_error in H.
  - apply field_optional in H as [[-> _]|(_ & _ & [T|[]])]; [discriminate|].
    destruct v; discriminate.
Qed.
Lemma opt_str_error k d e : field_opt_str k d = Raise e -> e = parser_error.
Proof.
  unfold field_opt_str. intro H. apply bind_raise in H as [H|(v & H & E)].
  - now apply field_error in H.
  - apply field_optional in H as [[-> _]|(_ & _ & [T|[]])]; [discriminate|].
    destruct v; discriminate.
Qed.

(** ** COSE keys *)

Lemma runs_opt_label z d :
  Runs (field_opt_bytes (ikey z) d) [otherwise (exists o, opt_label z d is_bytes o) parser_error].
Proof.
  apply runs_otherwise; [|apply opt_bytes_error].
  split; intros (o & H); exists o; now apply opt_label_bytes in H || apply opt_label_bytes.
Qed.

Lemma op_list_raise all l e :
  parse_key_op_list W all l = Raise e <->
  exists pre o post, l = pre ++ o :: post /\
    Forall (fun p => exists m, entry op_table p m) pre /\ (forall m, ~ entry op_table o m) /\
    ((~ int_or_text o /\ e = parser_error) \/ (int_or_text o /\ Complains W (eq all) e)).
Proof.
  induction l as [|v t IH]; cbn [parse_key_op_list].
  - split; [discriminate|]. intros (pre & o & post & H & _). destruct pre; discriminate H.
  - destruct (type_in v [TStr; TInt]) eqn:T; cbn [check bind].
    + assert (IT : int_or_text v).
      { apply type_in_spec in T as [T|[T|[]]]; destruct v; try discriminate; unfold int_or_text; eauto. }
      destruct (enum_call keyop_enum v) as [m|e0] eqn:E; cbn [catch bind].
      * apply op_entry in E. rewrite bind_raise, IH. split.
        -- intros [(pre & o & post & -> & P & N & X)|(a & _ & X)]; [|discriminate].
           exists (v :: pre), o, post. split; [reflexivity|]. split; [constructor; eauto|]. auto.
        -- intros (pre & o & post & H & P & N & X). left. destruct pre as [|p pre].
           { injection H as -> ->. elim (N m E). }
           injection H as -> ->. inversion_clear P. exists pre, o, post. auto.
      * assert (NE : forall m, ~ entry op_table v m) by (intros m M; apply op_entry in M; congruence).
        rewrite (enum_call_exn _ _ _ E). cbn [bind]. split.
        -- intro H. injection H as <-. exists [], v, t. split; [reflexivity|].
           split; [constructor|]. split; [assumption|]. right. split; [assumption|]. now apply complains_one.
        -- intros (pre & o & post & H & P & N & X). destruct pre as [|p pre].
           { injection H as -> ->. destruct X as [[X _]|[_ X]]; [elim (X IT)|].
             apply complains_one in X. now rewrite X. }
           injection H as -> ->. inversion_clear P as [|? ? (m & M)]. elim (NE m M).
    + assert (IT : ~ int_or_text v).
      { intro H. assert (X : type_in v [TStr; TInt] = true); [|congruence].
        apply type_in_spec. destruct H as [(z & ->)|(s & ->)]; cbn; auto. }
      assert (NE : forall m, ~ entry op_table v m).
      { intros m M. apply IT. exact (entry_shape _ _ _ M). }
      split.
      * intro H. injection H as <-. exists [], v, t. split; [reflexivity|].
        split; [constructor|]. split; [assumption|]. left. auto.
      * intros (pre & o & post & H & P & N & X). destruct pre as [|p pre].
        { injection H as -> ->. destruct X as [[_ ->]|[X _]]; [reflexivity|elim (IT X)]. }
        injection H as -> ->. inversion_clear P as [|? ? (m & M)]. elim (NE m M).
Qed.

Lemma runs_key_ops d : Runs (parse_key_ops W d) [key_ops_step W d].
Proof.
  apply runs_one; cbn [passes fails key_ops_step].
  - split; intros (o & H); exists o; now apply (parse_key_ops_ok (W := W)).
  - intro e. unfold parse_key_ops. destruct (parse_dictionary_field _ _ _ _) as [raw|e0] eqn:EF; cbn [bind].
    + apply field_optional in EF as [[-> A]|(N & L & T)].
      * cbn [is_none]. split; [discriminate|].
        intros [(v & L & N & _)|(v & pre & o & post & L & S & _)].
        -- elim N. exact (A _ L).
        -- rewrite (A _ L) in S. destruct S; discriminate.
      * replace (is_none raw) with false by (destruct raw; try reflexivity; congruence).
        assert (X : exists vs, as_seq raw = Ok vs /\ (raw = VList vs \/ raw = VTuple vs)).
        { destruct T as [T|[T|[]]]; destruct raw; try discriminate; eexists; split; try reflexivity; auto. }
        destruct X as (vs & -> & S). cbn [bind].
        assert (U : forall v, label 4 d v -> v = raw) by (unfold label; change (ikey 4) with (VInt 4) in L; congruence).
        destruct vs as [|v t]; cbn [List.length Nat.ltb Nat.leb negb check bind].
        -- split.
           ++ intro H. injection H as <-. left. exists raw. split; [exact L|]. split; [assumption|].
              split; [|reflexivity]. intros (o & l & [-> | ->]); destruct S; discriminate.
           ++ intros [(v & _ & _ & _ & ->)|(v & pre & o & post & L' & S' & _)]; [reflexivity|].
              apply U in L'. subst v. destruct pre, S as [-> | ->], S' as [S'|S']; discriminate.
        -- rewrite bind_raise, op_list_raise. split.
           ++ intros [(pre & o & post & E & P & NE & X)|(a & _ & X)]; [|discriminate].
              right. exists raw, pre, o, post. rewrite <- E. auto 6.
           ++ intros [(v' & L' & _ & NS & _)|(v' & pre & o & post & L' & S' & P & NE & X)].
              ** apply U in L'. subst v'. elim NS. exists v, t. exact S.
              ** apply U in L'. subst v'. left. exists pre, o, post. split; [|auto].
                 destruct S as [-> | ->], S' as [S'|S']; congruence.
    + pose proof (field_error _ _ _ _ _ EF) as ->.
      assert (X : exists v, label 4 d v /\ v <> VNone /\ type_in v [TList; TTuple] = false).
      { unfold parse_dictionary_field, dict_get in EF. unfold label. change (ikey 4) with (VInt 4) in EF.
        destruct (dict_find (VInt 4) d) as [v|]; [|discriminate].
        destruct (is_none v) eqn:N; [discriminate|]. destruct (type_in v _) eqn:T; [discriminate|].
        exists v. split; [reflexivity|]. split; [intros ->; discriminate|assumption]. }
      destruct X as (v & L & N & T). split.
      * intro H. injection H as <-. left. exists v. split; [assumption|]. split; [assumption|].
        split; [|reflexivity]. intros (o & l & [-> | ->]); discriminate T.
      * intros [(v' & _ & _ & _ & ->)|(v' & pre & o & post & L' & S' & _)]; [reflexivity|].
        unfold label in *. rewrite L in L'. injection L' as <-. destruct S' as [-> | ->]; discriminate T.
Qed.

(** The checks after the key type, which has been checked before. *)
Lemma runs_base d m : parse_kty W d = Ok m -> Runs (parse_key_base W d) (base_steps W d).
Proof.
  intro K. unfold parse_key_base, base_steps. rewrite K. cbn [bind].
  apply (runs_bind _ _ [_]); [apply runs_opt_label|]. intros kid _.
  apply (runs_bind _ _ [_]).
  { apply runs_registered; [exact alg_entry|reflexivity]. }
  intros a _. apply (runs_bind _ _ [_]); [apply runs_key_ops|]. intros ops _.
  apply runs_last; [apply runs_opt_label|]. intro iv. eexists; reflexivity.
Qed.

Lemma runs_okp d m : parse_kty W d = Ok m -> Runs (parse_okp_public_key W d) (okp_steps W d).
Proof.
  intro K. unfold parse_okp_public_key, okp_steps.
  apply (runs_bind _ _ [_]); [apply runs_bytes; reflexivity|]. intros x X.
  apply (runs_bind _ _ [_]); [apply runs_registered; [exact okp_entry|reflexivity]|]. intros crv C.
  cbn zeta. apply (runs_bind _ _ [_]).
  { apply runs_check. apply field_bytes_ok in X. apply parse_crv_okp_ok in C as (v & L & E).
    rewrite Nat.eqb_eq. split.
    - intros H v' crv' z b L' E' [<-|[]] B. unfold label in *. change (ikey (-2)) with (VInt (-2)) in X.
      rewrite X in B. injection B as <-. rewrite L in L'. injection L' as <-.
      apply okp_entry in E, E'. rewrite E in E'. injection E' as <-. exact H.
    - intro H. exact (H v crv (-2)%Z x L E (or_introl eq_refl) X). }
  intros _ _. apply runs_last; [now apply (runs_base d m)|]. intro b. eexists; reflexivity.
Qed.

Lemma runs_ec2 d m : parse_kty W d = Ok m -> Runs (parse_ec2_public_key W d) (ec2_steps W d).
Proof.
  intro K. unfold parse_ec2_public_key, ec2_steps.
  apply (runs_bind _ _ [_]); [apply runs_bytes; reflexivity|]. intros x X.
  apply (runs_bind _ _ [_]); [apply runs_bytes; reflexivity|]. intros y Y.
  apply (runs_bind _ _ [_]); [apply runs_registered; [exact ec2_entry|reflexivity]|]. intros crv C.
  cbn zeta. apply (runs_bind _ _ [_]).
  { apply runs_check. apply field_bytes_ok in X, Y. apply parse_crv_ec2_ok in C as (v & L & E).
    rewrite negb_true_iff, orb_false_iff, !negb_false_iff, !Nat.eqb_eq. split.
    - intros [H1 H2] v' crv' z b L' E' Hz B. unfold label in *.
      change (ikey (-2)) with (VInt (-2)) in X. change (ikey (-3)) with (VInt (-3)) in Y.
      rewrite L in L'. injection L' as <-.
      apply ec2_entry in E, E'. rewrite E in E'. injection E' as <-.
      destruct Hz as [<-|[<-|[]]]; [rewrite X in B|rewrite Y in B]; injection B as <-; assumption.
    - intro H. split; [exact (H v crv (-2)%Z x L E (or_introl eq_refl) X)|].
      exact (H v crv (-3)%Z y L E (or_intror (or_introl eq_refl)) Y). }
  intros _ _. apply runs_last; [now apply (runs_base d m)|]. intro b. eexists; reflexivity.
Qed.

Lemma cose_map_fails_iff d e : parse_cose_key_dict W d = Raise e <-> CoseMapFails W d e.
Proof.
  unfold parse_cose_key_dict.
  destruct (bind (dict_index (ikey 1) d) (enum_call kty_enum)) as [m|e0] eqn:T; cbn [catch bind].
  - apply bind_ok in T as (v & D & M).
    assert (L : label 1 d v).
    { unfold dict_index in D. unfold label. change (ikey 1) with (VInt 1) in D.
      destruct (dict_find (VInt 1) d); congruence. }
    apply kty_entry in M.
    assert (K : parse_kty W d = Ok m) by (apply parse_kty_ok; eauto).
    assert (U : forall v' m', label 1 d v' -> entry kty_table v' m' -> m' = m).
    { intros v' m' L' M'. unfold label in *. rewrite L in L'. injection L' as <-.
      apply kty_entry in M, M'. congruence. }
    destruct (snd m) eqn:S.
    + destruct (runs_okp d m K) as [_ R]. rewrite R. split.
      * intro F. eapply cmf_okp; eauto.
      * intros [N _|v' m' L' M' S' _|v' m' L' M' S' F]; [|rewrite (U _ _ L' M') in S'; congruence|exact F].
        specialize (N v m L M). congruence.
    + destruct (runs_ec2 d m K) as [_ R]. rewrite R. split.
      * intro F. eapply cmf_ec2; eauto.
      * intros [N _|v' m' L' M' S' F|v' m' L' M' S' _]; [|exact F|rewrite (U _ _ L' M') in S'; congruence].
        specialize (N v m L M). congruence.
    + split.
      * intro F. injection F as <-. apply cmf_type; [|reflexivity].
        intros v' m' L' M'. now rewrite (U _ _ L' M').
      * intros [_ ->|v' m' L' M' S' _|v' m' L' M' S' _]; [reflexivity| |];
          rewrite (U _ _ L' M') in S'; congruence.
  - assert (N : forall v m, label 1 d v -> ~ entry kty_table v m).
    { intros v m L M. unfold label in L. unfold dict_index, ikey in T. rewrite L in T. cbn [bind] in T.
      apply kty_entry in M. congruence. }
    assert (X : is_KeyOrValueError e0 = true).
    { apply bind_raise in T as [T|(v & _ & T)]; [|now apply enum_call_exn in T].
      unfold dict_index in T. destruct (dict_find _ _); [discriminate|]. injection T as <-. reflexivity. }
    rewrite X. cbn [bind]. split.
    + intro H. injection H as <-. apply cmf_type; [|reflexivity]. intros v m L M. elim (N v m L M).
    + intros [_ ->|v m L M _ _|v m L M _ _]; [reflexivity| |]; elim (N v m L M).
Qed.

(** ** Extensions *)

Lemma runs_optional {A} name d (shape : A -> pyval -> Prop) (f : pyval -> res (option A)) :
  (forall o, f (dict_get (skey name) d) = Ok o <-> opt_member name d shape o) ->
  (forall v e, f v = Raise e -> e = parser_error) ->
  Runs (f (dict_get (skey name) d)) [optional name d shape].
Proof.
  intros O E. apply runs_otherwise; [|apply E]. split; intros (o & H); exists o; now apply O.
Qed.

Lemma ext_bool_error v e : ext_bool v = Raise e -> e = parser_error.
Proof. destruct v; cbn; unfold raise, parser_error; congruence. Qed.
Lemma ext_str_error v e : ext_str v = Raise e -> e = parser_error.
Proof. destruct v; cbn; unfold raise, parser_error; congruence. Qed.
Lemma ext_bytes_error v e : ext_bytes v = Raise e -> e = parser_error.
Proof. destruct v; cbn; unfold raise, parser_error; congruence. Qed.
Lemma all_str_error l e : all_str l = Raise e -> e = parser_error.
Proof.
  induction l as [|v t IH]; cbn; [discriminate|]. destruct v; try (unfold raise, parser_error; congruence).
  intro H. apply bind_raise in H as [H|(? & _ & H)]; [auto|discriminate].
Qed.
Lemma all_bytes_error l e : all_bytes l = Raise e -> e = parser_error.
Proof.
  induction l as [|v t IH]; cbn; [discriminate|]. destruct v; try (unfold raise, parser_error; congruence).
  intro H. apply bind_raise in H as [H|(? & _ & H)]; [auto|discriminate].
Qed.
Lemma all_int_error l e : all_int l = Raise e -> e = parser_error.
Proof.
  induction l as [|v t IH]; cbn; [discriminate|]. destruct v; try (unfold raise, parser_error; congruence).
  intro H. apply bind_raise in H as [H|(? & _ & H)]; [auto|discriminate].
Qed.
Lemma all_int_lists_error l e : all_int_lists l = Raise e -> e = parser_error.
Proof.
  induction l as [|v t IH]; cbn; [discriminate|]. destruct v; try (unfold raise, parser_error; congruence).
  intro H. apply bind_raise in H as [H|(? & _ & H)]; [now apply all_int_error in H|].
  apply bind_raise in H as [H|(? & _ & H)]; [auto|discriminate].
Qed.
Lemma ext_exts_error v e : ext_exts v = Raise e -> e = parser_error.
Proof.
  destruct v; cbn; unfold raise, parser_error; try congruence; intro H;
    apply bind_raise in H as [H|(? & _ & H)]; try discriminate; now apply all_str_error in H.
Qed.
Lemma ext_uvm_error v e : ext_uvm v = Raise e -> e = parser_error.
Proof.
  destruct v; cbn; unfold raise, parser_error; try congruence; intro H;
    apply bind_raise in H as [H|(? & _ & H)]; try discriminate; now apply all_int_lists_error in H.
Qed.

Lemma runs_loc d : Runs (ext_loc W (dict_get (skey "loc") d)) [loc_step W d].
Proof.
  apply runs_one; cbn [passes fails loc_step].
  - split; intros (o & H); exists o; now apply (ext_loc_ok (W := W)).
  - intro e. set (v := dict_get (skey "loc") d).
    assert (V : forall x, member "loc" d x -> x = v).
    { intros x M. unfold v, dict_get, skey. unfold member in M. now rewrite M. }
    assert (V' : v <> VNone -> member "loc" d v) by (intro N; now apply get_some).
    assert (NM : (forall m, v <> VDict m) -> v <> VNone ->
       (Raise parser_error = Raise (A := option coordinates) e <->
        (exists v, member "loc" d v /\ v <> VNone /\
             ~ (exists m, v = VDict m /\ forall k x, In (k, x) m -> is_number x) /\
             e = parser_error) \/
          (exists m, member "loc" d (VDict m) /\ (forall k x, In (k, x) m -> is_number x) /\
             fails (known_members W ["latitude"; "longitude"; "altitude"; "accuracy";
                                   "altitudeAccuracy"; "heading"; "speed"]%string m) e))).
    { intros ND N. split.
      - intro H. injection H as <-. left. exists v. split; [auto|]. split; [assumption|].
        split; [|reflexivity]. intros (m & H & _). elim (ND _ H).
      - intros [(x & _ & _ & _ & ->)|(m & M & _)]; [reflexivity|]. apply V in M. elim (ND m). auto. }
    destruct v as [| | | | | | | |m| |] eqn:EV; cbn [ext_loc]; unfold raise;
      try (apply NM; discriminate).
    + split; [discriminate|]. intros [(x & M & N & _)|(m & M & _)]; apply V in M; [contradiction|discriminate].
    + clear NM. specialize (V' ltac:(discriminate)).
      destruct (forallb _ m) eqn:F; cbn [check bind].
      * assert (NB : forall k x, In (k, x) m -> is_number x).
        { intros k x I. rewrite forallb_forall in F. apply number_type. exact (F _ I). }
        pose proof (runs_keys ["latitude"; "longitude"; "altitude"; "accuracy";
                               "altitudeAccuracy"; "heading"; "speed"]%string m) as R.
        destruct R as [_ R]. fold loc_keys in R.
        rewrite bind_raise, R. split.
        -- intros [H|(a & _ & H)]; [|discriminate]. right. exists m. split; [assumption|]. split; [assumption|].
           inversion H as [|? ? ? ? X]; subst; [assumption|inversion X].
        -- intros [(x & M & _ & ND & _)|(m' & M & _ & H)].
           ++ apply V in M. subst x. elim ND. exists m. auto.
           ++ apply V in M. injection M as ->. left. now apply ff_here.
      * split.
        -- intro H. injection H as <-. left. exists (VDict m). split; [assumption|].
           split; [discriminate|]. split; [|reflexivity]. intros (m' & H & NB). injection H as <-.
           assert (X : forallb (fun kv => type_in (snd kv) [TInt; TFloat]) m = true); [|congruence].
           apply forallb_forall. intros [k x] I. apply number_type. exact (NB _ _ I).
        -- intros [(x & _ & _ & _ & ->)|(m' & M & NB & _)]; [reflexivity|].
           apply V in M. injection M as ->.
           assert (X : forallb (fun kv => type_in (snd kv) [TInt; TFloat]) m = true); [|congruence].
           apply forallb_forall. intros [k x] I. apply number_type. exact (NB _ _ I).
Qed.

Lemma ext_map_fails_iff d e : parse_extensions W d = Raise e <-> FirstFailure (ext_steps W d) e.
Proof.
  enough (R : Runs (parse_extensions W d) (ext_steps W d)) by apply R.
  unfold parse_extensions, ext_steps, supported_extensions.
  apply (runs_bind _ _ [_]); [apply runs_keys|]. intros _ _.
  repeat (apply (runs_bind _ _ [_]);
    [first [ apply runs_loc
           | apply runs_optional; [apply ext_bool_ok|apply ext_bool_error]
           | apply runs_optional; [apply ext_str_ok|apply ext_str_error]
           | apply runs_optional; [apply ext_bytes_ok|apply ext_bytes_error]
           | apply runs_optional; [apply ext_exts_ok|apply ext_exts_error]
           | apply runs_optional; [apply ext_uvm_ok|apply ext_uvm_error] ]|intros ? _]).
  apply runs_nil.
Qed.

(** ** Statements *)

Lemma runs_x5c d : Runs (parse_x5c d) [x5c_step d].
Proof.
  apply runs_otherwise.
  - split; intros (l & H); exists l; now apply x5c_ok.
  - intros e H. unfold parse_x5c in H. apply bind_raise in H as [H|(v & H & E)].
    + now apply field_error in H.
    + apply field_required in H as (_ & _ & T). apply bind_raise in E as [E|(l & _ & E)].
      * destruct T as [T|[T|[]]]; destruct v; discriminate.
      * now apply all_bytes_error in E.
Qed.

Lemma has_mem name d : dict_mem (skey name) d = true <-> has name d.
Proof.
  unfold dict_mem, has, member, skey. destruct (dict_find _ d) as [v|]; split; eauto; try discriminate.
  intros (v & H). discriminate.
Qed.
Lemma has_mem_not name d : dict_mem (skey name) d = false <-> ~ has name d.
Proof. rewrite <- has_mem. now rewrite not_true_iff_false. Qed.

Ltac run := lazymatch goal with
  | |- Runs (field_bytes _ _) _ => apply runs_bytes; reflexivity
  | |- Runs (field_str _ _) _ => apply runs_str; reflexivity
  | |- Runs (parse_stmt_alg _ _) _ => apply runs_registered; [exact alg_entry|reflexivity]
  | |- Runs (check_unsupported_keys _ _ _) _ => apply runs_keys
  | |- Runs (parse_x5c _) _ => apply runs_x5c
  end.
Ltac runs := repeat (apply (runs_bind _ _ [_]); [run|intros ? _]); apply runs_nil.

Lemma runs_stmt f d : exists l, StmtSteps W d f l /\ Runs (statement_parser W f d) l.
Proof.
  destruct f; cbn [statement_parser].
  - unfold parse_packed_attestation_statement.
    destruct (dict_mem (skey "x5c") d) eqn:X; [|destruct (dict_mem (skey "ecdaaKeyId") d) eqn:Y].
    + apply has_mem in X. eexists. split; [apply ss_packed; now apply fs_x5c|]. cbn [app]. runs.
    + apply has_mem_not in X. apply has_mem in Y. eexists.
      split; [apply ss_packed; now apply fs_ecdaa|]. cbn [app]. runs.
    + apply has_mem_not in X, Y. eexists. split; [apply ss_packed; now apply fs_self|]. cbn [app]. runs.
  - unfold parse_tpm_attestation_statement.
    destruct (dict_mem (skey "x5c") d) eqn:X; [|destruct (dict_mem (skey "ecdaaKeyId") d) eqn:Y].
    + apply has_mem in X. eexists. split; [apply ss_tpm; now apply fs_x5c|]. cbn [app]. runs.
    + apply has_mem_not in X. apply has_mem in Y. eexists.
      split; [apply ss_tpm; now apply fs_ecdaa|]. cbn [app]. runs.
    + apply has_mem_not in X, Y. eexists. split; [apply ss_tpm; now apply fs_self|]. cbn [app]. runs.
  - eexists. split; [constructor|]. unfold parse_android_key_attestation_statement. runs.
  - eexists. split; [constructor|]. unfold parse_android_safetynet_attestation_statement. runs.
  - eexists. split; [constructor|]. unfold parse_fido_u2f_attestation_statement. runs.
  - eexists. split; [constructor|]. unfold parse_none_attestation_statement.
    change (@nil pystr) with (map lit []). runs.
Qed.

Lemma form_steps_fun d names l l' : form_steps W d names l -> form_steps W d names l' -> l = l'.
Proof. intros [| |] [| |]; reflexivity || contradiction. Qed.
Lemma stmt_steps_fun d f l l' : StmtSteps W d f l -> StmtSteps W d f l' -> l = l'.
Proof.
  intros H H'. destruct H; inversion H'; subst; try reflexivity; f_equal;
    eapply form_steps_fun; eassumption.
Qed.

Lemma stmt_map_fails_iff f d e : statement_parser W f d = Raise e <-> StmtMapFails W d f e.
Proof.
  destruct (runs_stmt f d) as (l & S & R). unfold StmtMapFails. split.
  - intro H. exists l. split; [assumption|]. now apply R.
  - intros (l' & S' & F). apply R. now rewrite (stmt_steps_fun _ _ _ _ S S').
Qed.

(** ** Credentials *)

Lemma b64_error s e : bytes_from_base64 s = Raise e -> e = decoding_error.
Proof.
  unfold bytes_from_base64. intro H. apply catch_raise in H as (e0 & H & [[P ->]|[P ->]]); [reflexivity|].
  exfalso. apply b64decode_raises in H. now destruct e0.
Qed.

Lemma runs_b64 {B} name d (k : bytes -> res B) l :
  (forall b, b64_member name d b -> Runs (k b) l) ->
  Runs (s <- field_str (skey name) d ;; b <- bytes_from_base64 s ;; k b) (b64_steps name d ++ l).
Proof.
  intro K. unfold b64_steps. cbn [app].
  apply (runs_bind _ _ [_]); [apply runs_str; reflexivity|]. intros s S.
  apply (runs_bind _ _ [_]).
  - apply runs_otherwise; [|apply b64_error]. split.
    + intros (b & H). exists b. exact (b64_step _ _ _ _ S H).
    + intros (b & s' & M & H). exists b. apply field_str_ok in S. unfold member in M.
      change (skey name) with (VStr (lit name)) in S. rewrite S in M. injection M as <-.
      now apply b64_some.
  - intros b H. apply K. exact (b64_step _ _ _ _ S H).
Qed.

Lemma runs_opt_b64 {B} name d (k : option bytes -> res B) l :
  (forall b, Runs (k b) l) ->
  Runs (s <- field_opt_str (skey name) d ;;
        o <- match s with
             | None => Ok None
             | Some s => b <- bytes_from_base64 s ;; Ok (Some b)
             end ;; k o) (opt_b64_steps name d ++ l).
Proof.
  intro K. unfold opt_b64_steps. cbn [app].
  assert (X : forall o, field_opt_str (skey name) d = Ok o <-> opt_member name d is_str o).
  { intro o. rewrite field_opt_str_ok. destruct o as [s|]; cbn; [|reflexivity].
    unfold member, is_str, skey. split; [eauto|intros (v & H & ->); exact H]. }
  apply (runs_bind _ _ [_]).
  - apply runs_otherwise; [|apply opt_str_error]. split; intros (o & H); exists o; now apply X.
  - intros s S. apply (runs_bind _ _ [_]); [|intros; apply K].
    apply runs_otherwise.
    + destruct s as [s|].
      * apply X in S as (v & M & ->). split.
        -- intros (o & H). apply bind_ok in H as (b & H & E). exists (Some b), s.
           split; [exact M|]. now apply catch_ok in H.
        -- intros ([b|] & H); cbn in H.
           ++ destruct H as (s' & M' & H). unfold member in M, M'. rewrite M in M'. injection M' as <-.
              exists (Some b). rewrite (b64_some _ _ H). reflexivity.
           ++ discriminate (H _ M).
      * apply X in S. cbn in S. split; [|eauto]. intros _. exists None. exact S.
    + intros e H. destruct s; [|discriminate]. apply bind_raise in H as [H|(? & _ & H)]; [|discriminate].
      now apply b64_error in H.
Qed.

Definition outer {B} (d : pydict) (k : pystr -> pystr -> bytes -> pydict -> res B) : res B :=
  check_unsupported_keys W (map lit ["id"; "rawId"; "response"; "type"]%string) d ;;;
  id_ <- field_str (skey "id") d ;;
  type_ <- field_str (skey "type") d ;;
  raw_id_s <- field_str (skey "rawId") d ;;
  raw_id <- bytes_from_base64 raw_id_s ;;
  response <- field_dict (skey "response") d ;;
  k id_ type_ raw_id response.

Lemma runs_outer {B} d (k : pystr -> pystr -> bytes -> pydict -> res B) l :
  (forall i t b r, member "response" d (VDict r) -> Runs (k i t b r) l) ->
  Runs (outer d k) (outer_steps W d ++ l).
Proof.
  intro K. unfold outer, outer_steps. cbn [app].
  apply (runs_bind _ _ [_]); [apply runs_keys|]. intros _ _.
  apply (runs_bind _ _ [_]); [apply runs_str; reflexivity|]. intros i _.
  apply (runs_bind _ _ [_]); [apply runs_str; reflexivity|]. intros t _.
  apply runs_b64. intros b _. apply (runs_bind _ _ [_]); [apply runs_dict|].
  intros r H. apply field_dict_ok in H. now apply K.
Qed.

Lemma runs_response i t b r : exists l, ResponseSteps W r l /\
  Runs (cdj_s <- field_str (skey "clientDataJSON") r ;;
        client_data_JSON <- bytes_from_base64 cdj_s ;;
        if dict_mem (skey "attestationObject") r then
          check_unsupported_keys W (map lit ["clientDataJSON"; "attestationObject"]%string) r ;;;
          ao_s <- field_str (skey "attestationObject") r ;;
          attestation_object <- bytes_from_base64 ao_s ;;
          Ok {| cr_id := i; cr_type := t; cr_raw_id := b;
                cr_response := AttestationResponse client_data_JSON attestation_object |}
        else
          check_unsupported_keys W
            (map lit ["clientDataJSON"; "authenticatorData"; "signature"; "userHandle"]%string) r ;;;
          ad_s <- field_str (skey "authenticatorData") r ;;
          authenticator_data <- bytes_from_base64 ad_s ;;
          sig_s <- field_str (skey "signature") r ;;
          signature <- bytes_from_base64 sig_s ;;
          uh_s <- field_opt_str (skey "userHandle") r ;;
          user_handle <- match uh_s with
                         | None => Ok None
                         | Some s => b <- bytes_from_base64 s ;; Ok (Some b)
                         end ;;
          Ok {| cr_id := i; cr_type := t; cr_raw_id := b;
                cr_response := AssertionResponse client_data_JSON authenticator_data
                                                 signature user_handle |})
       (b64_steps "clientDataJSON" r ++ l).
Proof.
  destruct (dict_mem (skey "attestationObject") r) eqn:M.
  - apply has_mem in M. eexists. split; [now apply rs_attestation|].
    apply runs_b64. intros c _. apply (runs_bind _ _ [_]); [apply runs_keys|]. intros _ _.
    rewrite <- (app_nil_r (b64_steps _ _)). apply runs_b64. intros a _. apply runs_nil.
  - apply has_mem_not in M. eexists. split; [now apply rs_assertion|].
    apply runs_b64. intros c _. apply (runs_bind _ _ [_]); [apply runs_keys|]. intros _ _.
    apply runs_b64. intros a _. apply runs_b64. intros s _.
    rewrite <- (app_nil_r (opt_b64_steps _ _)). apply runs_opt_b64. intros u. apply runs_nil.
Qed.

Lemma outer_split {B} d (k : pystr -> pystr -> bytes -> pydict -> res B) :
  outer d k = bind (outer d (fun i t b r => Ok (i, t, b, r))) (fun '(i, t, b, r) => k i t b r).
Proof.
  unfold outer. destruct (check_unsupported_keys W _ d); cbn [bind]; [|reflexivity].
  destruct (field_str (skey "id") d); cbn [bind]; [|reflexivity].
  destruct (field_str (skey "type") d); cbn [bind]; [|reflexivity].
  destruct (field_str (skey "rawId") d); cbn [bind]; [|reflexivity].
  destruct (bytes_from_base64 _); cbn [bind]; [|reflexivity].
  destruct (field_dict (skey "response") d); reflexivity.
Qed.

Lemma response_steps_fun r l l' : ResponseSteps W r l -> ResponseSteps W r l' -> l = l'.
Proof. intros [|] [|]; reflexivity || contradiction. Qed.

Lemma credential_fails_iff d e :
  parse_public_key_credential W d = Raise e <-> CredentialFails W d e.
Proof.
  change (parse_public_key_credential W d) with
    (outer d (fun id_ type_ raw_id response =>
      cdj_s <- field_str (skey "clientDataJSON") response ;;
      client_data_JSON <- bytes_from_base64 cdj_s ;;
      if dict_mem (skey "attestationObject") response then
        check_unsupported_keys W (map lit ["clientDataJSON"; "attestationObject"]%string) response ;;;
        ao_s <- field_str (skey "attestationObject") response ;;
        attestation_object <- bytes_from_base64 ao_s ;;
        Ok {| cr_id := id_; cr_type := type_; cr_raw_id := raw_id;
              cr_response := AttestationResponse client_data_JSON attestation_object |}
      else
        check_unsupported_keys W
          (map lit ["clientDataJSON"; "authenticatorData"; "signature"; "userHandle"]%string) response ;;;
        ad_s <- field_str (skey "authenticatorData") response ;;
        authenticator_data <- bytes_from_base64 ad_s ;;
        sig_s <- field_str (skey "signature") response ;;
        signature <- bytes_from_base64 sig_s ;;
        uh_s <- field_opt_str (skey "userHandle") response ;;
        user_handle <- match uh_s with
                       | None => Ok None
                       | Some s => b <- bytes_from_base64 s ;; Ok (Some b)
                       end ;;
        Ok {| cr_id := id_; cr_type := type_; cr_raw_id := raw_id;
              cr_response := AssertionResponse client_data_JSON authenticator_data
                                               signature user_handle |})).
  rewrite outer_split.
  pose proof (runs_outer d (fun i t b r => Ok (i, t, b, r)) [] ltac:(intros; apply runs_nil)) as R.
  rewrite app_nil_r in R. destruct R as [RO RF].
  assert (M : forall i t b r, outer d (fun i t b r => Ok (i, t, b, r)) = Ok (i, t, b, r) ->
                member "response" d (VDict r)).
  { intros i t b r H. unfold outer in H. do 6 (apply bind_ok in H as (? & ? & H)).
    injection H as <- <- <- <-. now apply field_dict_ok. }
  destruct (outer d _) as [[[[i t] b] r]|e0] eqn:E; cbn [bind].
  - specialize (M _ _ _ _ eq_refl). destruct (runs_response i t b r) as (l & S & R).
    destruct R as [_ R]. rewrite R. split.
    + intro F. eapply crf_response; eauto. apply RO. eauto.
    + intros [F|r' l' _ M' S' F].
      * apply RF in F. discriminate.
      * unfold member in *. rewrite M in M'. injection M' as <-. now rewrite (response_steps_fun _ _ _ S S').
  - split.
    + intro H. injection H as <-. apply crf_outer. now apply RF.
    + intros [F|r' l' P _ _ _].
      * apply RF in F. now injection F as ->.
      * apply RO in P as (a & P). discriminate.
Qed.

End WithWorld.
