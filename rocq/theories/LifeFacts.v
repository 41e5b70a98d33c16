(** * LifeFacts: every life of the host is a run of the concurrent server. *)
From Coq Require Import List NArith ZArith Bool String Lia.
From Verif Require Import Base BaseFacts PyVal Types World Parsers Spec HistoryFacts App AppSpec Form Page AppConc
  AppConcSpec AppConcInv AppConcTheorems Routes RoutesSpec RoutesFacts Life LifeSpec.
Import ListNotations.
Local Open Scope list_scope.

Lemma nth_skipn {A} (l : list A) k i : nth_error (skipn k l) i = nth_error l (k + i).
Proof. revert l. induction k as [|k IH]; intro l; [reflexivity|]. destruct l as [|a l]; [now destruct i|exact (IH l)]. Qed.
Lemma skipn_replace {A} (l : list A) k i a : skipn k (replace l (k + i) a) = replace (skipn k l) i a.
Proof. revert l. induction k as [|k IH]; intro l; [reflexivity|]. destruct l as [|b l]; [now destruct i|exact (IH l)]. Qed.
Lemma skipn_snoc {A} (l : list A) k a : k <= List.length l -> skipn k (l ++ [a]) = skipn k l ++ [a].
Proof. intro H. rewrite skipn_app. replace (k - List.length l) with 0 by lia. reflexivity. Qed.
Lemma length_replace {A} (l : list A) i a : List.length (replace l i a) = List.length l.
Proof. revert i. induction l as [|b l IH]; intros [|i]; cbn; congruence. Qed.

Section Host.
Variable W : World.
Variable E : appenv.
Variable replaced : bytes -> pystr.
Variable multipart : list N -> list (pystr * pystr).
Let lived := Lived W E replaced multipart.
Let since := Since replaced multipart.
Let step := live W E replaced multipart.

Definition arrived (es : list sv_event) : nat :=
  List.length (filter (fun e => match e with Arrive _ => true | _ => false end) es).

Lemma lived_snoc l e : lived (l ++ [e]) = step (lived l) e.
Proof. unfold lived, Lived, live_all. now rewrite fold_left_app. Qed.
Lemma served_snoc es e : Served W E (es ++ [e]) = happen W E (Served W E es) e.
Proof. unfold Served. now rewrite happen_all_app. Qed.
Lemma arrived_threads es : List.length (sv_threads (Served W E es)) = arrived es.
Proof.
  induction es as [|e es IH] using rev_ind; [reflexivity|]. rewrite served_snoc. unfold arrived.
  rewrite filter_app, app_length. fold (arrived es). rewrite <- IH.
  destruct e as [x|i|i]; cbn [happen filter List.length sv_threads].
  - now rewrite app_length.
  - destruct (nth_error _ i) as [[x [r|f g]]|]; [lia| |lia]. destruct (f _) as [t d]. cbn [sv_threads].
    rewrite length_replace. lia.
  - destruct (nth_error _ i) as [[x [r|f g]]|]; [lia| |lia]. cbn [sv_threads]. rewrite length_replace. lia.
Qed.

(** The running process has the last requests of the server. *)
Lemma part_of d T k e e' : k <= List.length T ->
  match e with Arrive x => e' = Arrive x | Proceed i => e' = Proceed (k + i) | Fail i => e' = Fail (k + i) end ->
  let s := happen W E {| sv_db := d; sv_threads := skipn k T |} e in
  let s' := happen W E {| sv_db := d; sv_threads := T |} e' in
  sv_db s = sv_db s' /\ sv_threads s = skipn k (sv_threads s') /\ k <= List.length (sv_threads s').
Proof.
  intros K. destruct e as [x|i|i]; intros ->; cbn [happen sv_db sv_threads].
  - rewrite skipn_snoc by exact K. rewrite app_length. repeat split; lia.
  - rewrite nth_skipn. destruct (nth_error T (k + i)) as [[x [r|f g]]|]; cbn [sv_db sv_threads]; auto.
    destruct (f d) as [t d']. cbn [sv_db sv_threads]. rewrite skipn_replace, length_replace. auto.
  - rewrite nth_skipn. destruct (nth_error T (k + i)) as [[x [r|f g]]|]; cbn [sv_db sv_threads]; auto.
    rewrite skipn_replace, length_replace. auto.
Qed.

Definition matches (o : host) (p : phase) (k : nat) (es : list sv_event) : Prop :=
  k <= arrived es /\
  match p with
  | On b => ho_process o = Some (skipn k (sv_threads (Served W E es))) /\ ho_linked o = b /\
            ho_db o = sv_db (Served W E es)
  | Off => ho_process o = None /\ create_all o = sv_db (Served W E es)
  end.

Lemma execute_matches o b k es e e' : matches o (On b) k es ->
  match e with Arrive x => e' = Arrive x | Proceed i => e' = Proceed (k + i) | Fail i => e' = Fail (k + i) end ->
  matches (execute W E o e) (On b) k (es ++ [e']).
Proof.
  intros (K & P & L & D) Q. unfold matches. rewrite <- arrived_threads, served_snoc.
  rewrite <- arrived_threads in K. unfold execute. rewrite P, D. cbv zeta. cbn [ho_process ho_linked ho_db].
  destruct (part_of (sv_db (Served W E es)) (sv_threads (Served W E es)) k e e' K Q) as (A & B & C).
  destruct (Served W E es) as [d T]. cbn [sv_db sv_threads] in *. rewrite A, B. auto.
Qed.

Lemma c99_life l p k es : since l p k es -> matches (lived l) p k es.
Proof.
  induction 1 as [|l k es H IH|l b k es H IH|l b k es c h q H IH R|l b k es c h H IH N|l b k es i H IH|l b k es i H IH
                 |l k es e H IH N|l b k es H IH|l k es H IH|l k es H IH]; try rewrite lived_snoc.
  - repeat split. lia.
  - destruct IH as (K & P & D). unfold step, live. rewrite P. split; [reflexivity|]. cbn [ho_process ho_linked ho_db].
    rewrite <- D. repeat split. fold (arrived es). rewrite <- arrived_threads. now rewrite skipn_all.
  - destruct IH as (K & P & L & D). unfold step, live. rewrite P. split; [exact K|]. cbn. auto.
  - apply reaches_iff in R as (u & DD & <-). unfold step, live. rewrite DD. now apply execute_matches.
  - unfold step, live. destruct (dispatch _ _) as [[u|]|] eqn:DD; try exact IH.
    apply dispatch_handler in DD. now destruct (N u).
  - unfold step, live. now apply execute_matches.
  - unfold step, live. now apply execute_matches.
  - destruct IH as (K & P & D).
    assert (X : matches (lived l) Off k es) by (split; auto).
    destruct e as [|[c h]|i|i| |]; unfold step, live, execute; [congruence| | | | |]; rewrite ?P; try exact X.
    + destruct (dispatch _ _) as [[u|]|]; exact X.
    + split; [exact K|]. unfold create_all in *. cbn [ho_process ho_linked ho_db]. destruct (ho_linked _); auto.
  - destruct IH as (K & P & L & D). unfold step, live. rewrite P. repeat split. lia.
  - destruct IH as (K & P & L & D). unfold step, live. split; [exact K|]. unfold create_all.
    cbn [ho_process ho_linked ho_db]. rewrite L. auto.
  - destruct IH as (K & P & L & D). unfold step, live. split; [cbn; lia|]. unfold create_all.
    cbn [ho_process ho_linked ho_db]. rewrite L. auto.
Qed.

Lemma c99_total l : exists p k es, since l p k es.
Proof.
  induction l as [|e l (p & k & es & IH)] using rev_ind; [exists Off, 0, []; constructor|].
  destruct p as [|b].
  - destruct e; [|exists Off, k, es; apply since_idle; [exact IH|discriminate]..].
    exists (On true), (arrived es), es. exact (since_start _ _ _ _ _ IH).
  - destruct e as [|[c h]|i|i| |].
    + exists (On false), k, es. exact (since_second _ _ _ _ _ _ IH).
    + destruct (dispatch (ht_method h) (ht_path h)) as [[u|]|] eqn:D.
      * exists (On b), k. eexists. eapply since_request; [exact IH|]. apply reaches_iff. eauto.
      * exists (On b), k, es. apply since_other; [exact IH|]. intros u F. apply dispatch_handler in F. congruence.
      * exists (On b), k, es. apply since_other; [exact IH|]. intros u F. apply dispatch_handler in F. congruence.
    + exists (On b), k. eexists. exact (since_go _ _ _ _ _ _ i IH).
    + exists (On b), k. eexists. exact (since_fail _ _ _ _ _ _ i IH).
    + exists Off, 0, []. exact (since_stop _ _ _ _ _ _ IH).
    + destruct b; [exists Off, k, es; exact (since_kill _ _ _ _ _ IH)|exists Off, 0, []; exact (since_lost _ _ _ _ _ IH)].
Qed.

(** ** The events are determined *)

Definition next (s : phase * nat * list sv_event) (e : life_event) : phase * nat * list sv_event :=
  match s with
  | (Off, k, es) => match e with Start => (On true, arrived es, es) | _ => (Off, k, es) end
  | (On b, k, es) =>
      match e with
      | Start => (On false, k, es)
      | Incoming (c, h) =>
          match dispatch (ht_method h) (ht_path h) with
          | Some (Handler u) =>
              (On b, k, es ++ [Arrive (c, form_request u (request_form replaced multipart (ht_content h) (ht_body h)))])
          | _ => (On b, k, es)
          end
      | Go i => (On b, k, es ++ [Proceed (k + i)])
      | Break_ i => (On b, k, es ++ [Fail (k + i)])
      | Stop => (Off, 0, [])
      | Kill => if b then (Off, k, es) else (Off, 0, [])
      end
  end.
Definition state_of (l : list life_event) : phase * nat * list sv_event := fold_left next l (Off, 0, []).
Lemma state_snoc l e : state_of (l ++ [e]) = next (state_of l) e.
Proof. unfold state_of. now rewrite fold_left_app. Qed.
Lemma since_state l p k es : since l p k es -> state_of l = (p, k, es).
Proof.
  induction 1 as [|l k es H IH|l b k es H IH|l b k es c h q H IH R|l b k es c h H IH N|l b k es i H IH|l b k es i H IH
                 |l k es e H IH N|l b k es H IH|l k es H IH|l k es H IH]; rewrite ?state_snoc, ?IH; try reflexivity.
  - apply reaches_iff in R as (u & D & <-). cbn [next]. now rewrite D.
  - cbn [next]. destruct (dispatch _ _) as [[u|]|] eqn:D; try reflexivity. apply dispatch_handler in D. now destruct (N u).
  - cbn [next]. now destruct e.
Qed.
Lemma c99_one l p k es p' k' es' : since l p k es -> since l p' k' es' -> p = p' /\ k = k' /\ es = es'.
Proof. intros A%since_state B%since_state. rewrite A in B. injection B as -> -> ->. auto. Qed.
Lemma since_any l : since l (fst (fst (state_of l))) (snd (fst (state_of l))) (snd (state_of l)).
Proof.
  destruct (c99_total l) as (p & k & es & H). pose proof (since_state _ _ _ _ H) as Q. rewrite Q. exact H.
Qed.

(** ** Answers of the running process *)

Lemma c99_says l p k es i x r : since l p k es -> Says (lived l) i x r -> Replied (Served W E es) (k + i) x r.
Proof.
  intros H (ts & P & Q). apply c99_life in H as (K & H). destruct p as [|b].
  - destruct H as (H & _). congruence.
  - destruct H as (H & _ & _). rewrite H in P. injection P as <-. now rewrite nth_skipn in Q.
Qed.

(** ** Starting again *)

Lemma c99_kill l : ho_linked (lived l) = true ->
  ho_db (lived (l ++ [Kill; Start])) = ho_db (lived l) /\ ho_process (lived (l ++ [Kill; Start])) = Some [] /\
  ho_linked (lived (l ++ [Kill; Start])) = true.
Proof.
  intro L. change [Kill; Start] with ([Kill] ++ [Start]). rewrite app_assoc, !lived_snoc.
  unfold step, live, create_all. cbn [ho_process ho_linked ho_db]. rewrite L. auto.
Qed.
Lemma c99_stop l ts : ho_process (lived l) = Some ts -> lived (l ++ [Stop]) = bare /\ ho_db (lived (l ++ [Stop; Start])) = empty_db.
Proof.
  intro P. change [Stop; Start] with ([Stop] ++ [Start]). rewrite app_assoc, !lived_snoc.
  unfold step, live. rewrite P. auto.
Qed.
Lemma linked_or_off l : ho_process (lived l) = None \/ exists b k es, since l (On b) k es /\ ho_linked (lived l) = b.
Proof.
  pose proof (since_any l) as H. destruct (state_of l) as [[p k] es]. cbn [fst snd] in H.
  pose proof (c99_life _ _ _ _ H) as (_ & Q). destruct p as [|b]; [left; tauto|right]. exists b, k, es. tauto.
Qed.
Lemma c99_second l ts l' : ho_process (lived l) = Some ts -> ~ In Stop l' -> ~ In Kill l' ->
  ho_process (lived (l ++ Start :: l')) <> None /\
  ho_db (lived (l ++ Start :: l' ++ [Kill; Start])) = empty_db /\ ho_db (lived (l ++ Start :: l' ++ [Stop; Start])) = empty_db.
Proof.
  intros P NS NK.
  assert (X : exists ts', ho_process (lived (l ++ Start :: l')) = Some ts' /\ ho_linked (lived (l ++ Start :: l')) = false).
  { revert NS NK. induction l' as [|e l' IH] using rev_ind; intros NS NK.
    - rewrite lived_snoc. unfold step, live. rewrite P. cbn. eauto.
    - destruct IH as (ts' & A & B); [intro I; apply NS, in_or_app; now left|intro I; apply NK, in_or_app; now left|].
      rewrite app_comm_cons, app_assoc, lived_snoc. unfold step, live, execute.
      destruct e as [|[c h]|i|i| |]; rewrite ?A; cbn [ho_process ho_linked ho_db]; eauto.
      + destruct (dispatch _ _) as [[u|]|]; cbn [ho_process ho_linked ho_db]; eauto.
      + exfalso. apply NS, in_or_app. right. now left.
      + exfalso. apply NK, in_or_app. right. now left. }
  destruct X as (ts' & A & B). split; [congruence|].
  split; rewrite app_comm_cons, app_assoc.
  - change [Kill; Start] with ([Kill] ++ [Start]). rewrite app_assoc, !lived_snoc. unfold step, live, create_all.
    cbn [ho_process ho_linked ho_db]. now rewrite B.
  - exact (proj2 (c99_stop _ _ A)).
Qed.

(** ** Forgotten *)

Lemma arrivals_after l1 ts l2 c q : ho_process (lived l1) = Some ts ->
  In (Arrive (c, q)) (snd (state_of (l1 ++ Stop :: l2))) ->
  exists h, In (Incoming (c, h)) l2 /\ Reaches replaced multipart h q.
Proof.
  intro P. induction l2 as [|e l2 IH] using rev_ind.
  - rewrite state_snoc. pose proof (since_any l1) as H. destruct (state_of l1) as [[p k] es]. cbn [fst snd] in H.
    apply c99_life in H as (_ & H). destruct p as [|b]; [destruct H; congruence|]. intros [].
  - rewrite app_comm_cons, app_assoc, state_snoc. destruct (state_of _) as [[p k] es]. cbn [snd] in IH.
    assert (X : In (Arrive (c, q)) es -> exists h, In (Incoming (c, h)) (l2 ++ [e]) /\ Reaches replaced multipart h q).
    { intro I. destruct (IH I) as (h & A & B). exists h. split; [apply in_or_app; now left|exact B]. }
    destruct p as [|b]; cbn [next]; [now destruct e|].
    destruct e as [|[c' h']|i|i| |]; cbn [snd]; try exact X.
    + destruct (dispatch _ _) as [[u|]|] eqn:D; cbn [snd]; try exact X.
      intros [I|[Q|[]]]%in_app_or; [now apply X|]. injection Q as -> <-. exists h'. split; [apply in_or_app; right; now left|].
      apply reaches_iff. eauto.
    + intros [I|[Q|[]]]%in_app_or; [now apply X|discriminate].
    + intros [I|[Q|[]]]%in_app_or; [now apply X|discriminate].
    + intros [].
    + destruct b; [exact X|intros []].
Qed.
Lemma thread_arrived es j y t : nth_error (sv_threads (Served W E es)) j = Some (y, t) -> In (Arrive y) es.
Proof.
  revert t. induction es as [|e es IH] using rev_ind; intro t.
  - destruct j; discriminate.
  - rewrite served_snoc. intro Q. apply in_or_app. destruct e as [x|i|i]; cbn [happen] in Q.
    + cbn [sv_threads] in Q. destruct (Nat.lt_ge_cases j (List.length (sv_threads (Served W E es)))) as [LT|GE].
      * rewrite nth_error_app1 in Q by exact LT. left. now apply (IH t).
      * rewrite nth_error_app2 in Q by exact GE. destruct (j - _) as [|m]; cbn in Q; [|now destruct m].
        injection Q as -> _. right. now left.
    + left. destruct (nth_error (sv_threads (Served W E es)) i) as [[x [r|f g]]|] eqn:N; try now apply (IH t).
      destruct (f _) as [t' d]. cbn [sv_threads] in Q. rewrite nth_replace in Q.
      destruct (Nat.eqb_spec i j) as [->|NE]; [|now apply (IH t)].
      rewrite N in Q. injection Q as <- _. now apply (IH (Statement f g)).
    + left. destruct (nth_error (sv_threads (Served W E es)) i) as [[x [r|f g]]|] eqn:N; try now apply (IH t).
      cbn [sv_threads] in Q. rewrite nth_replace in Q.
      destruct (Nat.eqb_spec i j) as [->|NE]; [|now apply (IH t)].
      rewrite N in Q. injection Q as <- _. now apply (IH (Statement f g)).
Qed.
Lemma c99_forgotten depth l1 ts l2 j x i n cr :
  converts E -> decodes_cbor W depth -> 2 <= depth ->
  ho_process (lived l1) = Some ts -> Says (lived (l1 ++ Stop :: l2)) j x Success -> Authenticates W (snd x) i n cr ->
  exists c1 h1 q1 i1 cr1 k cdj adb sig uh,
    In (Incoming (c1, h1)) l2 /\ Reaches replaced multipart h1 q1 /\ Registers W q1 i1 n cr1 /\
    cr_raw_id cr1 = cr_raw_id cr /\ AttestedKey W cr1 k /\
    cr_response cr = AssertionResponse cdj adb sig uh /\ SignatureSpec W k sig (adb ++ w_sha256 W cdj).
Proof.
  intros CV DC D P S AU. pose proof (since_any (l1 ++ Stop :: l2)) as H.
  pose proof (c99_says _ _ _ _ _ _ _ H S) as R.
  destruct (shared_login W E depth _ _ _ _ _ _ CV DC D R AU)
    as (id & n0 & c & t & handle & k & cdj & adb & sig & uh & ad & _ & _ & _ & _ & AK & CR & _ & _ & SG & _).
  destruct AK as (j1 & [c1 q1] & i1 & cr1 & R1 & RG & ID & K). apply thread_arrived in R1.
  destruct (arrivals_after _ _ _ _ _ P R1) as (h1 & I & RE).
  exists c1, h1, q1, i1, cr1, k, cdj, adb, sig, uh. auto 10.
Qed.

Lemma c99_run l p k es : since l p k es ->
  match p with
  | On b => ho_process (lived l) = Some (skipn k (sv_threads (Served W E es))) /\ ho_linked (lived l) = b /\
            ho_db (lived l) = sv_db (Served W E es) /\ k <= List.length (sv_threads (Served W E es))
  | Off => ho_process (lived l) = None /\
           (if ho_linked (lived l) then ho_db (lived l) = sv_db (Served W E es) else es = [])
  end.
Proof.
  intro H. pose proof (c99_life _ _ _ _ H) as (K & M). rewrite <- arrived_threads in K.
  destruct p as [|b]; [|tauto]. destruct M as (M & D). split; [exact M|].
  unfold create_all in D. destruct (ho_linked (lived l)) eqn:L; [exact D|].
  clear K M D. revert L. remember Off as p eqn:Q. revert Q.
  induction H as [|l k es H IH|l b k es H IH|l b k es c h q H IH R|l b k es c h H IH N|l b k es i H IH|l b k es i H IH
                 |l k es e H IH N|l b k es H IH|l k es H IH|l k es H IH]; intros Q L; try discriminate Q; auto.
  - rewrite lived_snoc in L. apply IH; [reflexivity|].
    pose proof (c99_life _ _ _ _ H) as (_ & P & _). revert L. unfold step, live, execute.
    destruct e as [|[c h]|i|i| |]; [congruence| | | | |]; rewrite ?P; auto. now destruct (dispatch _ _) as [[u|]|].
  - rewrite lived_snoc in L. pose proof (c99_life _ _ _ _ H) as (_ & _ & P & _). cbn in L. congruence.
Qed.
End Host.
