(** * JsonifyFacts: jsonify against its specification. *)
From Coq Require Import List NArith ZArith Bool Lia String.
From Coq Require Import Strings.Byte.
From Verif Require Import Base PyVal BaseFacts B64 CaseConv CodecSpec B64Facts B64Round FormatSpec
  Types Jsonify Builders OptionSpec CaseFacts.
Import ListNotations.
Local Open Scope list_scope.

Lemma bind_raise {A B} (m : res A) (k : A -> res B) e :
  bind m k = Raise e -> m = Raise e \/ exists a, m = Ok a /\ k a = Raise e.
Proof. destruct m as [a|x]; cbn; eauto. intro H. left. congruence. Qed.

Lemma str_eqb_eq (a b : pystr) : str_eqb a b = true <-> a = b.
Proof.
  unfold str_eqb. revert b. induction a as [|x a IH]; intros [|y b]; cbn; split; try congruence; try discriminate.
  - intro H. apply andb_true_iff in H as [H1 H2]. apply N.eqb_eq in H1. apply IH in H2. congruence.
  - intro H. injection H as -> ->. rewrite N.eqb_refl. now apply IH.
Qed.

Lemma Forall2_impl {A B} (P Q : A -> B -> Prop) l l' :
  (forall a b, P a b -> Q a b) -> Forall2 P l l' -> Forall2 Q l l'.
Proof. induction 2; constructor; auto. Qed.

(** ** [each] *)
Lemma each_ok {A B} (f : A -> res B) l vs :
  each f l = Ok vs <-> Forall2 (fun x y => f x = Ok y) l vs.
Proof.
  revert vs. induction l as [|x l IH]; intro vs; cbn [each].
  - split; [intro H; injection H as <-; constructor|]. intro H. now inversion H.
  - split.
    + intro H. apply bind_ok in H as (y & H1 & H). apply bind_ok in H as (ys & H2 & H).
      injection H as <-. constructor; [assumption|]. now apply IH.
    + intro H. inversion H as [|? y ? ys H1 H2]; subst. rewrite H1. cbn [bind].
      apply IH in H2. rewrite H2. reflexivity.
Qed.
Lemma each_raise {A B} (f : A -> res B) l e : each f l = Raise e -> exists x, In x l /\ f x = Raise e.
Proof.
  induction l as [|x l IH]; cbn [each]; [discriminate|]. intro H.
  apply bind_raise in H as [H|(y & H1 & H)]; [exists x; split; [now left|assumption]|].
  apply bind_raise in H as [H|(ys & H2 & H)]; [|discriminate].
  destruct (IH H) as (z & I & Hz). exists z. split; [now right|assumption].
Qed.

(** ** [members] *)
Section Members.
Variable conv : pystr -> pystr.
Variable f : pobj -> res pyval.

Lemma members_raise m acc e : members conv f m acc = Raise e ->
  exists k x, In (k, x) m /\ x <> ONone /\ f x = Raise e.
Proof.
  revert acc. induction m as [|[k x] m IH]; intros acc; cbn [members]; [discriminate|].
  destruct k as [k|].
  - destruct (is_onone x) eqn:N.
    + intro H. destruct (IH _ H) as (k' & x' & I & R). exists k', x'. split; [now right|assumption].
    + intro H. apply bind_raise in H as [H|(w & _ & H)].
      * exists (KStr k), x. split; [now left|]. split; [|assumption]. intros ->. discriminate.
      * destruct (IH _ H) as (k' & x' & I & R). exists k', x'. split; [now right|assumption].
  - intro H. destruct (IH _ H) as (k' & x' & I & R). exists k', x'. split; [now right|assumption].
Qed.

Lemma members_total m acc :
  (forall k x, In (k, x) m -> x <> ONone -> exists w, f x = Ok w) ->
  exists d, members conv f m acc = Ok d.
Proof.
  revert acc. induction m as [|[k x] m IH]; intros acc H; cbn [members]; [eauto|].
  assert (HT : forall k' x', In (k', x') m -> x' <> ONone -> exists w, f x' = Ok w).
  { intros. eapply H; [right; eassumption|assumption]. }
  destruct k as [k|]; [|now apply IH]. destruct (is_onone x) eqn:N; [now apply IH|].
  destruct (H (KStr k) x) as (w & ->); [now left|intros ->; discriminate|]. cbn [bind]. now apply IH.
Qed.

(** Keys that are strings, pairwise different. *)
Definition str_keys (d : pydict) : Prop :=
  (forall k w, In (k, w) d -> exists s, k = VStr s) /\ NoDup (map fst d).

Lemma dict_set_in k v d k' w : str_keys d -> In (k', w) (dict_set (VStr k) v d) <->
  (k' = VStr k /\ w = v) \/ (k' <> VStr k /\ In (k', w) d).
Proof.
  intros [HS HN]. revert HS HN. induction d as [|[a b] d IH]; intros HS HN; cbn [dict_set].
  - cbn. split; [intros [E|[]]; injection E as <- <-; auto|]. intros [[-> ->]|[_ []]]. auto.
  - destruct (HS a b (or_introl eq_refl)) as (s & ->). cbn [py_eq as_int].
    inversion HN as [|? ? NI HN']; subst. cbn [map fst] in NI.
    assert (HS' : forall k w, In (k, w) d -> exists s, k = VStr s) by (intros; eapply HS; right; eassumption).
    destruct (str_eqb s k) eqn:E.
    + apply str_eqb_eq in E as ->. cbn [In]. split.
      * intros [H|H]; [injection H as <- <-; auto|]. right. split; [|auto].
        intros ->. apply NI. apply in_map_iff. exists (VStr k, w). auto.
      * intros [[-> ->]|[H1 [H2|H2]]]; [auto| |auto]. injection H2 as <- _. congruence.
    + assert (NE : VStr s <> VStr k).
      { intro H. injection H as ->. rewrite (proj2 (str_eqb_eq k k) eq_refl) in E. discriminate. }
      cbn [In]. rewrite IH by assumption. split.
      * intros [H|[H|H]]; [injection H as <- <-; auto|auto|]. destruct H. auto.
      * intros [H|[H1 [H2|H2]]]; auto.
Qed.

Lemma dict_set_keys k v d : str_keys d -> str_keys (dict_set (VStr k) v d).
Proof.
  intros H. split.
  - intros k' w I. apply dict_set_in in I; [|assumption]. destruct I as [[-> _]|[_ I]]; [eauto|].
    destruct H as [HS _]. eauto.
  - destruct H as [HS HN]. revert HS HN. induction d as [|[a b] d IH]; intros HS HN; cbn [dict_set].
    + repeat constructor. intros [].
    + destruct (HS a b (or_introl eq_refl)) as (s & ->). cbn [py_eq as_int].
      inversion HN as [|? ? NI HN']; subst. cbn [map fst] in NI.
      assert (HS' : forall k w, In (k, w) d -> exists s, k = VStr s) by (intros; eapply HS; right; eassumption).
      destruct (str_eqb s k) eqn:E; [exact HN|]. cbn [map fst]. constructor; [|now apply IH].
      intro I. apply in_map_iff in I as ([k' w] & E1 & I). cbn [fst] in E1. subst k'.
      apply dict_set_in in I; [|now split]. destruct I as [[E1 _]|[_ I]].
      * injection E1 as ->. rewrite (proj2 (str_eqb_eq k k) eq_refl) in E. discriminate.
      * apply NI. apply in_map_iff. exists (VStr s, w). auto.
Qed.

(** The members of the result: the last of each name. *)
Definition in_last (m : list (pkey * pobj)) (n : pystr) (w : pyval) : Prop :=
  exists x, LastMember conv m n x /\ f x = Ok w.

Lemma last_nil n x : ~ LastMember conv [] n x.
Proof. intros (m1 & k & m2 & E & _). destruct m1; discriminate. Qed.
Lemma last_skip k x m n y : (forall s, k = KStr s -> x = ONone) ->
  LastMember conv ((k, x) :: m) n y <-> LastMember conv m n y.
Proof.
  intro H. split.
  - intros ([|p m1] & a & m2 & E & H1 & H2 & H3).
    + cbn in E. injection E as -> -> ->. exfalso. apply H2. now apply (H a).
    + cbn in E. injection E as <- ->. exists m1, a, m2. auto.
  - intros (m1 & a & m2 & -> & H1 & H2 & H3). exists ((k, x) :: m1), a, m2. auto.
Qed.
Lemma last_cons k x m n y : x <> ONone -> LastMember conv ((KStr k, x) :: m) n y <->
  LastMember conv m n y \/
  (conv k = n /\ y = x /\ forall n' x', In (KStr n', x') m -> x' <> ONone -> conv n' <> n).
Proof.
  intro H. split.
  - intros ([|p m1] & a & m2 & E & H1 & H2 & H3).
    + cbn in E. injection E as -> -> ->. auto.
    + cbn in E. injection E as <- ->. left. exists m1, a, m2. auto.
  - intros [(m1 & a & m2 & -> & H1 & H2 & H3)|(H1 & -> & H2)].
    + exists ((KStr k, x) :: m1), a, m2. auto.
    + exists [], k, m. auto.
Qed.
(** Either some later member has the name, or none has. *)
Lemma last_dec m n : (exists x, LastMember conv m n x) \/
  (forall n' x', In (KStr n', x') m -> x' <> ONone -> conv n' <> n).
Proof.
  induction m as [|[k x] m IH]; [right; intros ? ? []|].
  destruct IH as [(y & H)|H].
  - left. exists y. destruct H as (m1 & a & m2 & -> & H). exists ((k, x) :: m1), a, m2. auto.
  - destruct k as [k|].
    + destruct (is_onone x) eqn:N.
      * right. intros n' x' [E|I] HN; [|eauto]. injection E as -> ->. destruct x'; try discriminate; congruence.
      * destruct (str_eqb (conv k) n) eqn:E.
        -- apply str_eqb_eq in E. left. exists x, [], k, m. repeat split; auto. intros ->. discriminate.
        -- right. intros n' x' [E'|I] HN; [|eauto]. injection E' as -> ->. intro EQ.
           rewrite (proj2 (str_eqb_eq _ _) EQ) in E. discriminate.
    + right. intros n' x' [E|I] HN; [discriminate|eauto].
Qed.

Lemma members_ok m acc d : str_keys acc -> members conv f m acc = Ok d ->
  str_keys d /\
  (forall n w, In (VStr n, w) d <->
     in_last m n w \/
     ((forall n' x', In (KStr n', x') m -> x' <> ONone -> conv n' <> n) /\ In (VStr n, w) acc)) /\
  (forall k x, In (KStr k, x) m -> x <> ONone -> exists w, f x = Ok w).
Proof.
  revert acc. induction m as [|[k x] m IH]; intros acc HA; cbn [members].
  - intro H. injection H as <-. split; [assumption|]. split; [|intros ? ? []].
    intros n w. split.
    + intro H. right. split; [intros ? ? []|assumption].
    + intros [(x & H & _)|[_ H]]; [now apply last_nil in H|assumption].
  - assert (SK : (forall s, k = KStr s -> x = ONone) -> members conv f m acc = Ok d ->
      str_keys d /\
      (forall n w, In (VStr n, w) d <->
         in_last ((k, x) :: m) n w \/
         ((forall n' x', In (KStr n', x') ((k, x) :: m) -> x' <> ONone -> conv n' <> n) /\ In (VStr n, w) acc)) /\
      (forall k' x', In (KStr k', x') ((k, x) :: m) -> x' <> ONone -> exists w, f x' = Ok w)).
    { intros HK H. destruct (IH acc HA H) as (H1 & H2 & H3). split; [assumption|]. split.
      - intros n w. rewrite H2. unfold in_last. split.
        + intros [(y & H4 & H5)|[H4 H5]]; [left; exists y; rewrite last_skip; auto|]. right. split; [|assumption].
          intros n' x' [E|I] HN; [|eauto]. injection E as -> ->. now specialize (HK n' eq_refl).
        + intros [(y & H4 & H5)|[H4 H5]]; [left; exists y; rewrite last_skip in H4; auto|]. right.
          split; [|assumption]. intros n' x' I. apply (H4 n' x'). now right.
      - intros k' x' [E|I] HN; [|eauto]. injection E as -> ->. now specialize (HK k' eq_refl). }
    destruct k as [k|]; [|apply SK; discriminate].
    destruct (is_onone x) eqn:N.
    + apply SK. intros s _. destruct x; try discriminate. reflexivity.
    + clear SK. assert (NX : x <> ONone) by (intros ->; discriminate). intro H.
      apply bind_ok in H as (w0 & F & H). destruct (IH _ (dict_set_keys _ w0 _ HA) H) as (H1 & H2 & H3).
      split; [assumption|]. split.
      * intros n w. rewrite H2. rewrite dict_set_in by assumption. unfold in_last. split.
        -- intros [(y & H4 & H5)|[H4 [[E ->]|[NE I]]]].
           ++ left. exists y. rewrite last_cons by assumption. auto.
           ++ injection E as ->. left. exists x. rewrite last_cons by assumption. auto.
           ++ right. split; [|assumption]. intros n' x' [E|I'] HN; [|eauto].
              injection E as -> ->. congruence.
        -- intros [(y & H4 & H5)|[H4 I]].
           ++ rewrite last_cons in H4 by assumption. destruct H4 as [H4|(<- & -> & H4)]; [left; eauto|].
              right. split; [assumption|]. left. split; [reflexivity|congruence].
           ++ right. split; [intros n' x' I'; apply H4; now right|]. right. split; [|assumption].
              intro E. injection E as ->. eapply H4; [left; reflexivity|assumption|reflexivity].
      * intros k' x' [E|I] HN; [|eauto]. injection E as -> ->. eauto.
Qed.
End Members.

(** ** jsonify *)
Section Facts.
Variable U : unicode.
Variable cc : bool.
Notation conv := (fun k => if cc then snake_to_camel U k else k).
Notation J := (jsonify U).

Definition kids_ok (d : nat) (m : list (pkey * pobj)) : Prop :=
  forall k x, In (k, x) m -> x <> ONone -> exists w, J d cc x = Ok w.

Lemma dict_ok d m v :
  (check (forallb (fun kv => str_key (fst kv)) m) (Lib JSONConversionError) ;;;
   r <- members conv (J d cc) m [] ;; Ok (VDict r))%res = Ok v ->
  (forall x w, J d cc x = Ok w -> Json conv x w) ->
  exists r, v = VDict r /\ JsonMembers conv m r /\ kids_ok d m /\ (forall x, ~ In (KOther, x) m) /\
    str_keys r /\ (forall n w, In (VStr n, w) r -> exists x, LastMember conv m n x /\ J d cc x = Ok w).
Proof.
  intros H IH. apply bind_ok in H as ([] & HC & H). apply check_ok in HC.
  apply bind_ok in H as (r & H1 & H). injection H as <-. exists r. split; [reflexivity|].
  apply members_ok in H1; [|split; [intros ? ? []|constructor]]. destruct H1 as (K & M & T).
  assert (NO : forall x, ~ In (KOther, x) m).
  { intros x I. rewrite forallb_forall in HC. now apply HC in I. }
  split.
  { constructor.
    - intros k w I. destruct K as [K _]. destruct (K k w I) as (n & ->). apply M in I as [(x & L & F)|[_ []]].
      exists n, x. auto.
    - intros n x L. assert (exists w, J d cc x = Ok w) as (w & F).
      { destruct L as (m1 & a & m2 & -> & _ & NX & _). eapply T; [|exact NX]. apply in_app_iff. right. now left. }
      exists w. apply M. left. exists x. auto.
    - apply K. }
  split.
  { intros [k|] x I NX; [|now apply NO in I]. eapply T; eauto. }
  split; [assumption|]. split; [assumption|].
  intros n w I. apply M in I as [H|[_ []]]. exact H.
Qed.

Lemma jsonify_json depth t v : J depth cc t = Ok v -> Json conv t v.
Proof.
  revert t v. induction depth as [|d IH]; intros t v H; [discriminate|]. cbn [jsonify] in H.
  destruct t; try (injection H as <-; constructor).
  - injection H as <-. rewrite b2a_rfc. constructor.
  - apply bind_ok in H as (r & H1 & H). injection H as <-. apply each_ok in H1. constructor.
    eapply Forall2_impl; [|exact H1]. exact IH.
  - apply bind_ok in H as (r & H1 & H). injection H as <-. apply each_ok in H1. constructor.
    eapply Forall2_impl; [|exact H1]. exact IH.
  - apply dict_ok in H as (r & -> & H & _); [|exact IH]. now constructor.
  - constructor. now apply IH.
  - apply dict_ok in H as (r & -> & H & _); [|exact IH]. now constructor.
  - discriminate.
Qed.

Lemma jsonify_raise depth t e : J depth cc t = Raise e ->
  (exists x u n, e = Lib x /\ Path n t u /\ Defect u x) \/
  (e = Py ERecursionError /\ exists n u, Path n t u /\ (depth <= n)%nat).
Proof.
  revert t e. induction depth as [|d IH]; intros t e H; cbn [jsonify] in H.
  { injection H as <-. right. split; [reflexivity|]. exists 0%nat, t. split; [constructor|lia]. }
  assert (UP : forall x, J d cc x = Raise e -> (forall n u, Path n x u -> Path (S n) t u) ->
    (exists x u n, e = Lib x /\ Path n t u /\ Defect u x) \/
    (e = Py ERecursionError /\ exists n u, Path n t u /\ (S d <= n)%nat)).
  { intros x HX HP. apply IH in HX as [(z & u & n & E & P & D)|(E & n & u & P & L)].
    - left. exists z, u, (S n). auto.
    - right. split; [assumption|]. exists (S n), u. split; [auto|lia]. }
  assert (DC : forall m,
    (check (forallb (fun kv => str_key (fst kv)) m) (Lib JSONConversionError) ;;;
     r <- members conv (J d cc) m [] ;; Ok (VDict r))%res = Raise e ->
    (forall x, In (KOther, x) m -> Defect t JSONConversionError) ->
    (forall n k x u, In (k, x) m -> x <> ONone -> Path n x u -> Path (S n) t u) ->
    (exists x u n, e = Lib x /\ Path n t u /\ Defect u x) \/
    (e = Py ERecursionError /\ exists n u, Path n t u /\ (S d <= n)%nat)).
  { intros m HM HD HP. apply bind_raise in HM as [HM|([] & _ & HM)].
    - unfold check in HM. destruct (forallb _ m) eqn:E; [discriminate|]. injection HM as <-.
      left. exists JSONConversionError, t, 0%nat. split; [reflexivity|]. split; [constructor|].
      apply not_true_iff_false in E.
      destruct (existsb (fun kv => negb (str_key (fst kv))) m) eqn:X.
      + apply existsb_exists in X as ([[s|] x] & I & N); [discriminate|]. now apply (HD x).
      + exfalso. apply E. apply forallb_forall. intros kv I.
        destruct (str_key (fst kv)) eqn:S; [reflexivity|].
        assert (existsb (fun kv => negb (str_key (fst kv))) m = true); [|congruence].
        apply existsb_exists. exists kv. rewrite S. auto.
    - apply bind_raise in HM as [HM|(r & _ & HM)]; [|discriminate].
      apply members_raise in HM as (k & x & I & NX & F). apply (UP x F). intros. eapply HP; eauto. }
  destruct t; try discriminate.
  - apply bind_raise in H as [H|(r & _ & H)]; [|discriminate]. apply each_raise in H as (x & I & F).
    apply (UP x F). intros. econstructor; eauto.
  - apply bind_raise in H as [H|(r & _ & H)]; [|discriminate]. apply each_raise in H as (x & I & F).
    apply (UP x F). intros. econstructor; eauto.
  - apply (DC m H).
    + intros x I. econstructor; eauto.
    + intros. econstructor; eauto.
  - apply (UP t H). intros. now constructor.
  - apply (DC attrs H).
    + intros x I. econstructor; eauto.
    + intros. eapply path_obj; eauto.
  - injection H as <-. left. exists UnimplementedError, OOpaque, 0%nat. repeat constructor.
Qed.

Lemma jsonify_clean depth t v : J depth cc t = Ok v ->
  forall n u, Path n t u -> (n < depth)%nat /\ (forall e, ~ Defect u e).
Proof.
  revert t v. induction depth as [|d IH]; intros t v H n u P; [discriminate|]. cbn [jsonify] in H.
  assert (DC : forall m v', 
    (check (forallb (fun kv => str_key (fst kv)) m) (Lib JSONConversionError) ;;;
     r <- members conv (J d cc) m [] ;; Ok (VDict r))%res = Ok v' ->
    kids_ok d m /\ (forall x, ~ In (KOther, x) m)).
  { intros m v' HM. apply dict_ok in HM as (r & _ & _ & K & N & _); [auto|].
    intros. eapply jsonify_json; eauto. }
  assert (EC : forall l vs, each (J d cc) l = Ok vs -> forall x, In x l -> exists w, J d cc x = Ok w).
  { intros l vs HE. apply each_ok in HE. induction HE as [|x y l vs HX _ IHE]; [intros ? []|].
    intros z [<-|I]; eauto. }
  inversion P; subst.
  - split; [lia|]. intros e D. destruct D.
    + discriminate.
    + apply DC in H as [_ N]. now apply N in H0.
    + apply DC in H as [_ N]. now apply N in H0.
  - apply bind_ok in H as (r & H & _). destruct (EC _ _ H x H0) as (w & F).
    destruct (IH _ _ F _ _ H1). split; [lia|assumption].
  - apply bind_ok in H as (r & H & _). destruct (EC _ _ H x H0) as (w & F).
    destruct (IH _ _ F _ _ H1). split; [lia|assumption].
  - destruct (IH _ _ H _ _ H0). split; [lia|assumption].
  - apply DC in H as [K _]. destruct (K k x H0 H1) as (w & F).
    destruct (IH _ _ F _ _ H2). split; [lia|assumption].
  - apply DC in H as [K _]. destruct (K k x H0 H1) as (w & F).
    destruct (IH _ _ F _ _ H2). split; [lia|assumption].
Qed.

Lemma jsonify_iff depth t :
  (exists v, J depth cc t = Ok v) <->
  (forall n u, Path n t u -> (n < depth)%nat /\ (forall e, ~ Defect u e)).
Proof.
  split; [intros (v & H); exact (jsonify_clean _ _ _ H)|].
  intro H. destruct (J depth cc t) as [v|e] eqn:E; [eauto|]. exfalso.
  apply jsonify_raise in E as [(x & u & n & _ & P & D)|(_ & n & u & P & L)].
  - apply H in P as [_ N]. now apply N in D.
  - apply H in P as [N _]. lia.
Qed.

Lemma jsonify_pure depth t v : J depth cc t = Ok v -> PureJson v.
Proof.
  revert t v. induction depth as [|d IH]; intros t v H; [discriminate|]. cbn [jsonify] in H.
  assert (EC : forall l vs, each (J d cc) l = Ok vs -> PureJson (VList vs)).
  { intros l vs HE. apply each_ok in HE. constructor. induction HE; constructor; eauto. }
  assert (DC : forall m, 
    (check (forallb (fun kv => str_key (fst kv)) m) (Lib JSONConversionError) ;;;
     r <- members conv (J d cc) m [] ;; Ok (VDict r))%res = Ok v -> PureJson v).
  { intros m HM. apply dict_ok in HM as (r & -> & _ & _ & _ & [K1 K2] & HI);
      [|intros; eapply jsonify_json; eauto].
    constructor; [exact K1|exact K2|]. apply Forall_forall. intros [k w] I.
    destruct (K1 k w I) as (s & ->). apply HI in I as (x & _ & F). cbn [snd]. eauto. }
  destruct t; try (injection H as <-; constructor); eauto.
  - apply bind_ok in H as (r & H & E). injection E as <-. eauto.
  - apply bind_ok in H as (r & H & E). injection E as <-. eauto.
  - discriminate.
Qed.

Lemma jsonify_none depth t : J depth cc t = Ok VNone -> t = ONone \/ exists n, Path n t (OEnum ONone).
Proof.
  revert t. induction depth as [|d IH]; intros t H; [discriminate|]. cbn [jsonify] in H.
  destruct t; try discriminate; auto.
  - apply bind_ok in H as (r & _ & H). discriminate.
  - apply bind_ok in H as (r & _ & H). discriminate.
  - apply bind_ok in H as ([] & _ & H). apply bind_ok in H as (r & _ & H). discriminate.
  - right. destruct (IH _ H) as [->|(n & P)]; [exists 0%nat; constructor|]. exists (S n). now constructor.
  - apply bind_ok in H as ([] & _ & H). apply bind_ok in H as (r & _ & H). discriminate.
Qed.

Lemma jsonify_null_free depth t v : J depth cc t = Ok v -> (forall n, ~ Path n t (OEnum ONone)) -> NullFree v.
Proof.
  revert t v. induction depth as [|d IH]; intros t v H HN; [discriminate|]. cbn [jsonify] in H.
  assert (EC : forall l vs, each (J d cc) l = Ok vs ->
    (forall x n u, In x l -> Path n x u -> Path (S n) t u) -> NullFree (VList vs)).
  { intros l vs HE HP. apply each_ok in HE. constructor. clear H.
    induction HE as [|x y l vs HX HE IHE]; constructor.
    - apply (IH x y HX). intros n P. apply (HN (S n)). apply (HP x); [now left|assumption].
    - apply IHE. intros. eapply HP; eauto. now right. }
  assert (DC : forall m, 
    (check (forallb (fun kv => str_key (fst kv)) m) (Lib JSONConversionError) ;;;
     r <- members conv (J d cc) m [] ;; Ok (VDict r))%res = Ok v ->
    (forall n k x u, In (k, x) m -> x <> ONone -> Path n x u -> Path (S n) t u) -> NullFree v).
  { intros m HM HP. apply dict_ok in HM as (r & -> & _ & _ & _ & [K1 K2] & HI);
      [|intros; eapply jsonify_json; eauto].
    constructor. apply Forall_forall. intros [k w] I. cbn [snd].
    destruct (K1 k w I) as (s & ->). apply HI in I as (x & L & F).
    destruct L as (m1 & a & m2 & -> & _ & NX & _).
    assert (I : In (KStr a, x) (m1 ++ (KStr a, x) :: m2)) by (apply in_app_iff; right; now left).
    split.
    - intros ->. apply jsonify_none in F as [->|(n & P)]; [congruence|].
      apply (HN (S n)). eapply HP; eauto.
    - apply (IH x w F). intros n P. apply (HN (S n)). eapply HP; eauto. }
  destruct t; try (injection H as <-; apply nf_other; discriminate).
  - apply bind_ok in H as (r & H & E). injection E as <-. apply (EC _ _ H). intros. econstructor; eauto.
  - apply bind_ok in H as (r & H & E). injection E as <-. apply (EC _ _ H). intros. econstructor; eauto.
  - apply (DC m H). intros. econstructor; eauto.
  - apply (IH _ _ H). intros n P. apply (HN (S n)). now constructor.
  - apply (DC attrs H). intros. eapply path_obj; eauto.
  - discriminate.
Qed.
End Facts.
