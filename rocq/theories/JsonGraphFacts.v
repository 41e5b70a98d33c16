(** * JsonGraphFacts: lemmas about Stops and gjsonify. *)
From Coq Require Import List NArith ZArith Bool String Lia.
From Verif Require Import Base PyVal B64 CaseConv Types Jsonify OptionSpec BaseFacts JsonifyFacts JsonGraph
  JsonGraphSpec.
Import ListNotations.
Local Open Scope res_scope.
Local Open Scope list_scope.

Lemma each_raise {A B} (f : A -> res B) l e : each f l = Raise e <->
  exists l1 x l2, l = l1 ++ x :: l2 /\ Forall (fun y => exists v, f y = Ok v) l1 /\ f x = Raise e.
Proof.
  split.
  - induction l as [|x l IH]; cbn [each]; [discriminate|]. intro H.
    destruct (f x) as [y|e'] eqn:F; cbn [bind] in H.
    + destruct (each f l) as [ys|e'] eqn:G; [discriminate|]. cbn [bind] in H. injection H as ->.
      destruct (IH eq_refl) as (l1 & z & l2 & -> & O & Z). exists (x :: l1), z, l2.
      split; [reflexivity|]. split; [constructor; eauto|exact Z].
    + injection H as ->. exists [], x, l. auto.
  - intros (l1 & x & l2 & -> & O & Z). induction O as [|y l1 (v & V) O IH]; cbn [each app].
    + rewrite Z. reflexivity.
    + rewrite V. cbn [bind]. rewrite IH. reflexivity.
Qed.

Lemma is_onone_iff t : is_onone t = true <-> t = ONone.
Proof. destruct t; split; easy. Qed.

Lemma members_raise conv f m : (forall x, ~ In (KOther, x) m) -> forall acc e,
  members conv f m acc = Raise e <->
  exists m1 k x m2, m = m1 ++ (k, x) :: m2 /\ x <> ONone /\
    (forall k' y, In (k', y) m1 -> y <> ONone -> exists v, f y = Ok v) /\ f x = Raise e.
Proof.
  induction m as [|[[k|] x] m IH]; intros K acc e.
  - cbn. split; [discriminate|]. intros ([|? ?] & ? & ? & ? & Q & _); discriminate.
  - assert (K' : forall y, ~ In (KOther, y) m) by (intros y I; apply (K y); now right).
    cbn [members]. destruct (is_onone x) eqn:N.
    + apply is_onone_iff in N. subst x. rewrite IH by assumption. split.
      * intros (m1 & k' & x & m2 & -> & N & O & F). exists ((KStr k, ONone) :: m1), k', x, m2.
        split; [reflexivity|]. split; [exact N|]. split; [|exact F].
        intros k2 y [Q|I] NY; [injection Q as <- <-; now destruct NY|eauto].
      * intros ([|p m1] & k' & x & m2 & Q & N & O & F); [injection Q as <- <- <-; now destruct N|].
        injection Q as <- ->. exists m1, k', x, m2. split; [reflexivity|]. split; [exact N|]. split; [|exact F].
        intros k2 y I. apply (O k2 y). now right.
    + assert (NX : x <> ONone) by (intro Z; apply is_onone_iff in Z; congruence).
      destruct (f x) as [w|e'] eqn:F; cbn [bind].
      * rewrite IH by assumption. split.
        -- intros (m1 & k' & x' & m2 & -> & N' & O & F'). exists ((KStr k, x) :: m1), k', x', m2.
           split; [reflexivity|]. split; [exact N'|]. split; [|exact F'].
           intros k2 y [Q|I] NY; [injection Q as <- <-; eauto|eauto].
        -- intros ([|p m1] & k' & x' & m2 & Q & N' & O & F'); [injection Q as <- <- <-; congruence|].
           injection Q as <- ->. exists m1, k', x', m2. split; [reflexivity|]. split; [exact N'|]. split; [|exact F'].
           intros k2 y I. apply (O k2 y). now right.
      * split.
        -- intros [= <-]. exists [], (KStr k), x, m. repeat split; auto. intros k' y [].
        -- intros ([|p m1] & k' & x' & m2 & Q & N' & O & F'); [injection Q as <- <- <-; congruence|].
           injection Q as <- ->. destruct (O (KStr k) x (or_introl eq_refl) NX) as (v & V). congruence.
  - exfalso. apply (K x). now left.
Qed.

Lemma str_keys_iff {A} (m : list (pkey * A)) : forallb (fun kv => str_key (fst kv)) m = true <->
  forall x, ~ In (KOther, x) m.
Proof.
  rewrite forallb_forall. split.
  - intros F x I. apply F in I. discriminate.
  - intros N [[k|] x] I; [reflexivity|]. exfalso. exact (N x I).
Qed.
Lemma str_keys_false {A} (m : list (pkey * A)) : forallb (fun kv => str_key (fst kv)) m = false ->
  exists x, In (KOther, x) m.
Proof.
  induction m as [|[[k|] x] m IH]; cbn; intro F; [discriminate| |eauto].
  destruct (IH F) as (y & I). eauto.
Qed.

Section Stops.
Variable U : unicode.
Variable cc : bool.
Notation J d := (jsonify U d cc).

Lemma convertible_ok d t : (exists v, J d t = Ok v) <-> Convertible d t.
Proof. apply jsonify_iff. Qed.

Lemma dict_stops d m e :
  (check (forallb (fun kv => str_key (fst kv)) m) (Lib JSONConversionError) ;;;
   r <- members (fun k => if cc then snake_to_camel U k else k) (J d) m [] ;; Ok (VDict r)) = Raise e <->
  ((exists x, In (KOther, x) m) /\ e = Lib JSONConversionError) \/
  ((forall x, ~ In (KOther, x) m) /\ exists m1 k x m2, m = m1 ++ (k, x) :: m2 /\ x <> ONone /\
    (forall k' y, In (k', y) m1 -> y <> ONone -> Convertible d y) /\ J d x = Raise e).
Proof.
  destruct (forallb _ m) eqn:F; cbn [check bind].
  - pose proof (proj1 (str_keys_iff m) F) as F'. clear F. rename F' into F. split.
    + intro H. right. split; [exact F|].
      destruct (members _ _ m []) as [r|e'] eqn:M; [discriminate|]. cbn [bind] in H. injection H as ->.
      apply members_raise in M as (m1 & k & x & m2 & Q & N & O & X); [|exact F].
      exists m1, k, x, m2. split; [exact Q|]. split; [exact N|]. split; [|exact X].
      intros k' y I NY. apply convertible_ok. eauto.
    + intros [[(x & I) _]|[_ (m1 & k & x & m2 & Q & N & O & X)]]; [now apply F in I|].
      rewrite (proj2 (members_raise _ (J d) m F [] e)); [reflexivity|].
      exists m1, k, x, m2. split; [exact Q|]. split; [exact N|]. split; [|exact X].
      intros k' y I NY. apply convertible_ok. eauto.
  - apply str_keys_false in F. split.
    + intros [= <-]. now left.
    + intros [[_ ->]|[N _]]; [reflexivity|]. destruct F as (x & I). now apply N in I.
Qed.

Lemma jsonify_stops d : forall t e, J d t = Raise e <-> Stops d t e.
Proof.
  induction d as [|d IH]; intros t e.
  { cbn [jsonify]. split; [intros [= <-]; constructor|]. intro S. now inversion S. }
  assert (L : forall l, (r <- each (J d) l ;; Ok (VList r)) = Raise e <->
    exists l1 x l2, l = l1 ++ x :: l2 /\ Forall (Convertible d) l1 /\ Stops d x e).
  { intro l. assert (K : (r <- each (J d) l ;; Ok (VList r)) = Raise e <-> each (J d) l = Raise e).
    { destruct (each (J d) l); cbn [bind]; split; congruence. }
    rewrite K, each_raise. split; intros (l1 & x & l2 & Q & F & X); exists l1, x, l2; (split; [exact Q|]).
    - split; [|now apply IH]. eapply Forall_impl; [|exact F]. intros y Y. now apply convertible_ok.
    - split; [|now apply IH]. eapply Forall_impl; [|exact F]. intros y Y. now apply convertible_ok. }
  destruct t as [|b|z|x|s|b|l|l|m|v|m|]; cbn [jsonify];
    try (split; [discriminate|intro S; inversion S as [|? ? ? D| | | | |]; inversion D]).
  - rewrite L. split.
    + intros (l1 & x & l2 & -> & F & X). now constructor.
    + intro S. inversion S as [|? ? ? D|? l1 x l2 ? F X| | | |]; [inversion D|]. eauto 8.
  - rewrite L. split.
    + intros (l1 & x & l2 & -> & F & X). now constructor.
    + intro S. inversion S as [|? ? ? D| |? l1 x l2 ? F X| | |]; [inversion D|]. eauto 8.
  - rewrite dict_stops. split.
    + intros [[(x & I) ->]|[N (m1 & k & x & m2 & -> & NX & O & X)]]; [constructor; econstructor; exact I|].
      constructor; auto. now apply IH.
    + intro S. inversion S as [|? ? ? D| | | |? m1 k x m2 ? N O NX X|]; [inversion D; left; eauto|].
      right. subst m. split; [exact N|]. exists m1, k, x, m2. split; [auto|]. split; [exact NX|]. split; [exact O|]. now apply IH.
  - rewrite IH. split; [now constructor|]. intro S. inversion S as [|? ? ? D| | | | |]; [inversion D|assumption].
  - rewrite dict_stops. split.
    + intros [[(x & I) ->]|[N (m1 & k & x & m2 & -> & NX & O & X)]]; [constructor; eapply defect_obj; exact I|].
      constructor; auto. now apply IH.
    + intro S. inversion S as [|? ? ? D| | | | |? m1 k x m2 ? N O NX X]; [inversion D; left; eauto|].
      right. subst m. split; [exact N|]. exists m1, k, x, m2. split; [auto|]. split; [exact NX|]. split; [exact O|]. now apply IH.
  - split; [intros [= <-]; constructor; constructor|]. intro S. inversion S as [|? ? ? D| | | | |]. now inversion D.
Qed.

(** ** References *)

Variable g : graph.
Notation G d := (gjsonify U g d cc).

Lemma unfolds_none a t : Unfolds g a t -> (g a = GNone <-> t = ONone).
Proof. intro H. destruct H; split; congruence. Qed.

Lemma each_unfolds d l ts : (forall a t, Unfolds g a t -> G d a = J d t) ->
  Forall2 (Unfolds g) l ts -> each (G d) l = each (J d) ts.
Proof.
  intros E F. induction F as [|a t l ts U1 F IH]; [reflexivity|]. cbn [each]. now rewrite (E a t U1), IH.
Qed.
Lemma members_unfolds d m ts : (forall a t, Unfolds g a t -> G d a = J d t) ->
  Forall2 (fun p q => fst q = fst p /\ Unfolds g (snd p) (snd q)) m ts ->
  forall acc, gmembers g (fun k => if cc then snake_to_camel U k else k) (G d) m acc =
    members (fun k => if cc then snake_to_camel U k else k) (J d) ts acc.
Proof.
  intros E F. induction F as [|[k a] [k' t] m ts [Q U1] F IH]; intro acc; [reflexivity|].
  cbn [fst snd] in *. subst k'. cbn [gmembers members]. destruct k as [k|]; [|apply IH].
  destruct (is_onone t) eqn:N.
  - apply is_onone_iff in N. rewrite (proj2 (unfolds_none _ _ U1) N). apply IH.
  - assert (NG : g a <> GNone).
    { intro Z. apply (unfolds_none _ _ U1) in Z. apply is_onone_iff in Z. congruence. }
    rewrite (E a t U1). destruct (g a); try (now destruct NG);
      (destruct (J d t) as [w|e]; cbn [bind]; [apply IH|reflexivity]).
Qed.
Lemma keys_unfolds {R : nat * pobj -> Prop} (m : list (pkey * nat)) (ts : list (pkey * pobj)) :
  Forall2 (fun p q => fst q = fst p /\ Unfolds g (snd p) (snd q)) m ts ->
  forallb (fun kv => str_key (fst kv)) m = forallb (fun kv => str_key (fst kv)) ts.
Proof. intro F. induction F as [|p q m ts [Q _] F IH]; [reflexivity|]. cbn [forallb]. now rewrite Q, IH. Qed.

Lemma gjsonify_unfolds d : forall a t, Unfolds g a t -> G d a = J d t.
Proof.
  induction d as [|d IH]; intros a t H; [reflexivity|].
  destruct H as [a Q|a b Q|a z Q|a x Q|a s Q|a b Q|a l ts Q F|a l ts Q F|a m ts Q F|a v t Q H|a m ts Q F|a Q];
    cbn [gjsonify jsonify]; rewrite Q; try reflexivity.
  - now rewrite (each_unfolds d l ts IH F).
  - now rewrite (each_unfolds d l ts IH F).
  - now rewrite (keys_unfolds (R := fun _ => True) m ts F), (members_unfolds d m ts IH F).
  - now apply IH.
  - now rewrite (keys_unfolds (R := fun _ => True) m ts F), (members_unfolds d m ts IH F).
Qed.

Lemma each_trees d l vs : (forall a v, G d a = Ok v -> exists t, Unfolds g a t) ->
  each (G d) l = Ok vs -> exists ts, Forall2 (Unfolds g) l ts.
Proof.
  intro E. revert vs. induction l as [|a l IH]; intros vs H; [exists []; constructor|]. cbn [each] in H.
  apply bind_ok in H as (y & Y & H). apply bind_ok in H as (ys & YS & _).
  destruct (E a y Y) as (t & T). destruct (IH ys YS) as (ts & TS). exists (t :: ts). now constructor.
Qed.
Lemma members_trees d m : (forall a v, G d a = Ok v -> exists t, Unfolds g a t) ->
  (forall x, ~ In (KOther, x) m) -> forall acc r,
  gmembers g (fun k => if cc then snake_to_camel U k else k) (G d) m acc = Ok r ->
  exists ts, Forall2 (fun p q => fst q = fst p /\ Unfolds g (snd p) (snd q)) m ts.
Proof.
  intros E. induction m as [|[k a] m IH]; intros N acc r H; [exists []; constructor|].
  assert (N' : forall x, ~ In (KOther, x) m) by (intros x I; apply (N x); now right).
  cbn [gmembers] in H. destruct k as [k|]; [|exfalso; apply (N a); now left].
  assert (K : exists t acc', Unfolds g a t /\ gmembers g (fun k => if cc then snake_to_camel U k else k) (G d) m acc' = Ok r).
  { destruct (g a) eqn:Q; try (apply bind_ok in H as (w & H1 & H2); destruct (E a w H1) as (t & T); eauto).
    exists ONone, acc. split; [now constructor|exact H]. }
  destruct K as (t & acc' & T & H'). destruct (IH N' acc' r H') as (ts & TS).
  exists ((KStr k, t) :: ts). constructor; [now split|exact TS].
Qed.

(** Only finite trees are converted. *)
Lemma gjsonify_tree d : forall a v, G d a = Ok v -> exists t, Unfolds g a t.
Proof.
  induction d as [|d IH]; intros a v H; [discriminate|]. cbn [gjsonify] in H.
  destruct (g a) as [|b|z|x|s|b|l|l|m|w|m|] eqn:Q; try (eexists; constructor; eassumption).
  - apply bind_ok in H as (r & H & _). destruct (each_trees d l r IH H) as (ts & TS). eexists. eapply un_list; eauto.
  - apply bind_ok in H as (r & H & _). destruct (each_trees d l r IH H) as (ts & TS). eexists. eapply un_tuple; eauto.
  - apply bind_ok in H as (u & K & H). apply check_ok in K; pose proof (proj1 (str_keys_iff m) K) as K'; clear K; rename K' into K. apply bind_ok in H as (r & H & _).
    destruct (members_trees d m IH K [] r H) as (ts & TS). eexists. eapply un_dict; eauto.
  - destruct (IH w v H) as (t & T). eexists. eapply un_enum; eauto.
  - apply bind_ok in H as (u & K & H). apply check_ok in K; pose proof (proj1 (str_keys_iff m) K) as K'; clear K; rename K' into K. apply bind_ok in H as (r & H & _).
    destruct (members_trees d m IH K [] r H) as (ts & TS). eexists. eapply un_obj; eauto.
Qed.

Definition blamed (a : nat) (e : exn) : Prop :=
  e = Py ERecursionError \/ exists n b x, Within g n a b /\ Obstacle g b x /\ e = Lib x.
Lemma blamed_part a b e : Part g a b -> blamed b e -> blamed a e.
Proof.
  intros P [->|(n & c & x & W & O & ->)]; [now left|]. right. exists (S n), c, x.
  split; [econstructor; eauto|auto].
Qed.
Lemma gmembers_raise conv f m : forall acc e, gmembers g conv f m acc = Raise e ->
  exists b, In b (map snd m) /\ f b = Raise e.
Proof.
  induction m as [|[[k|] a] m IH]; intros acc e H; cbn [gmembers] in H; [discriminate| |].
  - assert (K : f a = Raise e \/ exists acc', gmembers g conv f m acc' = Raise e).
    { destruct (g a); [eauto|..]; (destruct (f a) as [w|e']; cbn [bind] in H; [eauto|left; congruence]). }
    destruct K as [K|(acc' & K)]; [exists a; cbn; auto|].
    destruct (IH acc' e K) as (b & I & F). exists b. cbn. auto.
  - destruct (IH acc e H) as (b & I & F). exists b. cbn. auto.
Qed.
Lemma gdict_raise d m e :
  (check (forallb (fun kv => str_key (fst kv)) m) (Lib JSONConversionError) ;;;
   r <- gmembers g (fun k => if cc then snake_to_camel U k else k) (G d) m [] ;; Ok (VDict r)) = Raise e ->
  (In KOther (map fst m) /\ e = Lib JSONConversionError) \/
  exists b, In b (map snd m) /\ G d b = Raise e.
Proof.
  destruct (forallb _ m) eqn:F; cbn [check bind]; intro H.
  - right. destruct (gmembers _ _ _ _ _) as [r|e'] eqn:M; [discriminate|]. cbn [bind] in H. injection H as ->.
    now apply gmembers_raise in M.
  - left. apply str_keys_false in F as (x & I). split; [|congruence]. apply in_map_iff.
    exists (KOther, x). auto.
Qed.
Lemma gjsonify_raise d : forall a e, G d a = Raise e -> blamed a e.
Proof.
  induction d as [|d IH]; intros a e H; [injection H as <-; now left|]. cbn [gjsonify] in H.
  destruct (g a) as [|b|z|x|s|b|l|l|m|w|m|] eqn:Q; try discriminate.
  - destruct (each (G d) l) as [r|e'] eqn:E; [discriminate|]. cbn [bind] in H. injection H as ->.
    apply each_raise in E as (l1 & x & l2 & -> & _ & X). apply (blamed_part a x); [|now apply IH].
    unfold Part. rewrite Q. apply in_elt.
  - destruct (each (G d) l) as [r|e'] eqn:E; [discriminate|]. cbn [bind] in H. injection H as ->.
    apply each_raise in E as (l1 & x & l2 & -> & _ & X). apply (blamed_part a x); [|now apply IH].
    unfold Part. rewrite Q. apply in_elt.
  - apply gdict_raise in H as [[I ->]|(b & I & X)].
    + right. exists 0, a, JSONConversionError. repeat split; [constructor|]. unfold Obstacle. rewrite Q. auto.
    + apply (blamed_part a b); [unfold Part; now rewrite Q|now apply IH].
  - apply (blamed_part a w); [unfold Part; now rewrite Q|now apply IH].
  - apply gdict_raise in H as [[I ->]|(b & I & X)].
    + right. exists 0, a, JSONConversionError. repeat split; [constructor|]. unfold Obstacle. rewrite Q. auto.
    + apply (blamed_part a b); [unfold Part; now rewrite Q|now apply IH].
  - injection H as <-. right. exists 0, a, UnimplementedError. repeat split; [constructor|].
    unfold Obstacle. now rewrite Q.
Qed.

End Stops.

(** What unfolds has no cycle: paths to parts are no longer than some bound. *)
Section Unfolding.
Variable g : graph.
Definition bounded (a : nat) : Prop := exists k, forall n b, Within g n a b -> n <= k.

Lemma bounded_list (l : list nat) : Forall bounded l ->
  exists k, forall a n b, In a l -> Within g n a b -> n <= k.
Proof.
  intro F. induction F as [|a l (k & K) F (k' & IH)]; [exists 0; intros a n b []|].
  exists (max k k'). intros a' n b [<-|I] X.
  - specialize (K n b X). lia.
  - specialize (IH a' n b I X). lia.
Qed.
Lemma bounded_parts a l : (forall b, Part g a b -> In b l) -> Forall bounded l -> bounded a.
Proof.
  intros P F. destruct (bounded_list l F) as (k & K). exists (S k). intros n b H.
  destruct H as [a|n a c b H X]; [lia|]. specialize (K c n b (P c H) X). lia.
Qed.

Fixpoint unfolds_bounded a t (H : Unfolds g a t) {struct H} : bounded a.
Proof.
  destruct H as [a Q|a b Q|a z Q|a x Q|a s Q|a b Q|a l ts Q F|a l ts Q F|a m ts Q F|a v t Q H|a m ts Q F|a Q].
  1-6,12: apply (bounded_parts a []); [intros b'; unfold Part; rewrite Q; easy|constructor].
  - apply (bounded_parts a l); [intros b; unfold Part; now rewrite Q|].
    clear Q. induction F as [|x y l ts X F IH]; constructor; [exact (unfolds_bounded x y X)|exact IH].
  - apply (bounded_parts a l); [intros b; unfold Part; now rewrite Q|].
    clear Q. induction F as [|x y l ts X F IH]; constructor; [exact (unfolds_bounded x y X)|exact IH].
  - apply (bounded_parts a (map snd m)); [intros b; unfold Part; now rewrite Q|].
    clear Q. induction F as [|x y l ts [_ X] F IH]; cbn [map]; constructor; [exact (unfolds_bounded _ _ X)|exact IH].
  - apply (bounded_parts a [v]); [intros b; unfold Part; rewrite Q; intros ->; now left|].
    constructor; [exact (unfolds_bounded v t H)|constructor].
  - apply (bounded_parts a (map snd m)); [intros b; unfold Part; now rewrite Q|].
    clear Q. induction F as [|x y l ts [_ X] F IH]; cbn [map]; constructor; [exact (unfolds_bounded _ _ X)|exact IH].
Qed.

Lemma within_trans n m a b c : Within g n a b -> Within g m b c -> Within g (n + m) a c.
Proof. intro H. induction H as [a|n a b' b P H IH]; intro X; [exact X|]. cbn. econstructor; eauto. Qed.
Lemma within_loop m b : Within g (S m) b b -> forall k, Within g (k * S m) b b.
Proof.
  intros H k. induction k as [|k IH]; [constructor|]. change (S k * S m) with (S m + k * S m).
  eapply within_trans; eauto.
Qed.
Lemma cyclic_unfolds a t : Cyclic g a -> ~ Unfolds g a t.
Proof.
  intros (n & b & m & H1 & H2) H. apply unfolds_bounded in H as (k & K).
  pose proof (within_loop m b H2 (S k)) as L. pose proof (within_trans _ _ _ _ _ H1 L) as X.
  apply K in X. nia.
Qed.
End Unfolding.

Lemma c47_stops (U : unicode) (cc : bool) (depth : nat) (t : pobj) (e : exn) :
  jsonify U depth cc t = Raise e <-> Stops depth t e.
Proof. apply jsonify_stops. Qed.
Lemma c47_references (U : unicode) (cc : bool) (depth : nat) (g : graph) (a : nat) (t : pobj) :
  Unfolds g a t -> gjsonify U g depth cc a = jsonify U depth cc t.
Proof. apply gjsonify_unfolds. Qed.
Lemma c47_finite (U : unicode) (cc : bool) (depth : nat) (g : graph) (a : nat) (v : pyval) :
  gjsonify U g depth cc a = Ok v -> exists t, Unfolds g a t /\ jsonify U depth cc t = Ok v.
Proof.
  intro H. destruct (gjsonify_tree U cc g depth a v H) as (t & T). exists t. split; [exact T|].
  now rewrite <- (gjsonify_unfolds U cc g depth a t T).
Qed.
Lemma c47_cyclic (U : unicode) (cc : bool) (depth : nat) (g : graph) (a : nat) :
  Cyclic g a ->
  gjsonify U g depth cc a = Raise (Py ERecursionError) \/
  exists n b x, Within g n a b /\ Obstacle g b x /\ gjsonify U g depth cc a = Raise (Lib x).
Proof.
  intro C. destruct (gjsonify U g depth cc a) as [v|e] eqn:H.
  - apply c47_finite in H as (t & T & _). now apply cyclic_unfolds in T.
  - apply gjsonify_raise in H as [->|(n & b & x & W & O & ->)]; [now left|right]. exists n, b, x. auto.
Qed.
