(** * LifeHonest: credentials outlast kills. *)
From Coq Require Import List NArith ZArith Bool String Lia.
From Verif Require Import Base BaseFacts PyVal Types World Spec App AppSpec AppFacts HonestSpec Json Form Page AppConc AppConcSpec
  AppConcHonestSpec AppConcInv AppConcHonest Routes RoutesSpec RoutesFacts Life LifeSpec LifeHonestSpec LifeFacts.
Import ListNotations.
Local Open Scope list_scope.

Section Host.
Variable W : World.
Variable E : appenv.
Variable replaced : bytes -> pystr.
Variable multipart : list N -> list (pystr * pystr).
Let lived := Lived W E replaced multipart.
Let since := Since replaced multipart.
Let state := state_of replaced multipart.

Lemma state_since l p k es : state l = (p, k, es) -> since l p k es.
Proof. intro Q. pose proof (since_any replaced multipart l) as H. fold state in H. rewrite Q in H. exact H. Qed.
Lemma since_state' l p k es : since l p k es -> state l = (p, k, es).
Proof. apply since_state. Qed.
Lemma state_next l e : state (l ++ [e]) = LifeFacts.next replaced multipart (state l) e.
Proof. apply state_snoc. Qed.
Lemma says_since l i x r : Says (lived l) i x r ->
  exists b k es, since l (On b) k es /\ ho_linked (lived l) = b /\ Replied (Served W E es) (k + i) x r.
Proof.
  intros S. destruct (c99_total replaced multipart l) as (p & k & es & H). pose proof (c99_says W E _ _ _ _ _ _ _ _ _ H S) as R.
  pose proof (c99_run W E _ _ _ _ _ _ H) as Q. destruct p as [|b].
  - destruct Q as (Q & _). destruct S as (ts & S & _). unfold lived in S. congruence.
  - exists b, k, es. split; [exact H|]. split; [apply Q|exact R].
Qed.

(** ** What is kept *)
Lemma keeps l1 b k1 es1 l2 p k es : since l1 (On b) k1 es1 -> Keeps W E replaced multipart l1 l2 ->
  since (l1 ++ l2) p k es -> exists es2, es = es1 ++ es2.
Proof.
  intros H (NS & L). revert p k es. induction l2 as [|e l2 IH] using rev_ind; intros p k es H2.
  - rewrite app_nil_r in H2. destruct (c99_one _ _ _ _ _ _ _ _ _ H H2) as (_ & _ & <-). exists []. now rewrite app_nil_r.
  - assert (NS' : ~ In Stop l2) by (intro I; apply NS, in_or_app; now left).
    assert (L' : forall l2a l2b, l2 = l2a ++ l2b -> ho_linked (Lived W E replaced multipart (l1 ++ l2a)) = true).
    { intros l2a l2b ->. apply (L l2a (l2b ++ [e])). now rewrite app_assoc. }
    specialize (IH NS' L'). destruct (state (l1 ++ l2)) as [[p0 k0] es0] eqn:Q. pose proof (state_since _ _ _ _ Q) as H0.
    destruct (IH _ _ _ H0) as (es2 & ->).
    apply since_state' in H2. rewrite app_assoc, state_next, Q in H2.
    specialize (L l2 [e] eq_refl). pose proof (c99_run W E _ _ _ _ _ _ H0) as R.
    destruct p0 as [|b0]; cbn [LifeFacts.next] in H2.
    + destruct e; injection H2 as <- <- <-; eauto.
    + destruct R as (_ & R & _). rewrite L in R. subst b0. destruct e as [|[c h]|i|i| |].
      * injection H2 as <- <- <-. eauto.
      * destruct (dispatch _ _) as [[u|]|]; injection H2 as <- <- <-; rewrite <- ?app_assoc; eauto.
      * injection H2 as <- <- <-. rewrite <- app_assoc. eauto.
      * injection H2 as <- <- <-. rewrite <- app_assoc. eauto.
      * exfalso. apply NS, in_or_app. right. now left.
      * injection H2 as <- <- <-. eauto.
Qed.

(** ** What one process does *)
Lemma runs_on l b k es l3 j : since l (On b) k es -> ~ In Stop l3 -> ~ In Kill l3 ->
  exists b' es2, since (l ++ l3) (On b') k (es ++ es2) /\ steps_of j l3 <= turns (k + j) es2 /\
    (In (Fail (k + j)) es2 -> In (Break_ j) l3).
Proof.
  intro H. induction l3 as [|e l3 IH] using rev_ind; intros NS NK.
  - exists b, []. rewrite !app_nil_r. split; [exact H|]. split; [apply Nat.le_refl|intros []].
  - destruct IH as (b' & es2 & A & B & C); [intro I; apply NS, in_or_app; now left|intro I; apply NK, in_or_app; now left|].
    apply since_state' in A.
    assert (T : forall e' : sv_event, steps_of j [e] <= turns (k + j) [e'] -> (e' = Fail (k + j) -> e = Break_ j) ->
      state (l ++ l3 ++ [e]) = (On b', k, (es ++ es2) ++ [e']) ->
      exists b' es2, since (l ++ l3 ++ [e]) (On b') k (es ++ es2) /\ steps_of j (l3 ++ [e]) <= turns (k + j) es2 /\
        (In (Fail (k + j)) es2 -> In (Break_ j) (l3 ++ [e]))).
    { intros e' T1 T2 Q. exists b', (es2 ++ [e']). split; [apply state_since; rewrite Q; now rewrite app_assoc|].
      split.
      - unfold steps_of, turns in *. rewrite !filter_app, !app_length. lia.
      - intro I. apply in_app_or in I as [I|[I|[]]]; apply in_or_app; [left; auto|right; left; auto]. }
    assert (T0 : forall b'', steps_of j [e] = 0 -> state (l ++ l3 ++ [e]) = (On b'', k, es ++ es2) ->
      exists b' es2, since (l ++ l3 ++ [e]) (On b') k (es ++ es2) /\ steps_of j (l3 ++ [e]) <= turns (k + j) es2 /\
        (In (Fail (k + j)) es2 -> In (Break_ j) (l3 ++ [e]))).
    { intros b'' T1 Q. exists b'', es2. split; [now apply state_since|]. split.
      - unfold steps_of in *. rewrite filter_app, app_length, T1. lia.
      - intro I. apply in_or_app. left. auto. }
    pose proof (state_next (l ++ l3) e) as Q. rewrite A in Q. rewrite <- app_assoc in Q. cbn [LifeFacts.next] in Q.
    destruct e as [|[c h]|i|i| |].
    + apply (T0 false); [reflexivity|exact Q].
    + destruct (dispatch _ _) as [[u|]|]; [|apply (T0 b'); [reflexivity|exact Q]..].
      eapply T; [| |exact Q]; [apply Nat.le_refl|discriminate].
    + eapply T; [| |exact Q]; [|discriminate]. unfold steps_of, turns. cbn [filter].
      destruct (Nat.eqb i j) eqn:X; [|apply Nat.le_0_l]. apply Nat.eqb_eq in X. subst i. now rewrite Nat.eqb_refl.
    + eapply T; [| |exact Q]; [apply Nat.le_0_l|intro X; injection X as X; f_equal; lia].
    + exfalso. apply NS, in_or_app. right. now left.
    + exfalso. apply NK, in_or_app. right. now left.
Qed.

(** ** Every answer was given *)
Lemma nth_replace {A} (l : list A) i a m : m <> i -> nth_error (replace l i a) m = nth_error l m.
Proof. revert i m. induction l as [|b l IH]; intros [|i] [|m] N; try reflexivity; [congruence|]. apply IH. congruence. Qed.
Lemma other_thread es k i e x r m : e = Proceed (k + i) \/ e = Fail (k + i) -> m < k ->
  Replied (Served W E (es ++ [e])) m x r -> Replied (Served W E es) m x r.
Proof.
  intros D L. rewrite served_snoc. unfold Replied. intro R. rewrite <- R. symmetry.
  destruct D as [-> | ->]; cbn [happen]; destruct (nth_error _ (k + i)) as [[y [r'|f g]]|]; try reflexivity.
  - destruct (f _) as [t d]. cbn [sv_threads]. apply nth_replace. lia.
  - cbn [sv_threads]. apply nth_replace. lia.
Qed.
Lemma c99_said l p k es m x r : since l p k es -> Replied (Served W E es) m x r ->
  exists l0 l0' p0 k0 es0 j, l = l0 ++ l0' /\ since l0 p0 k0 es0 /\ m = k0 + j /\ Says (lived l0) j x r.
Proof.
  revert p k es. induction l as [|e l IH] using rev_ind; intros p k es H R.
  { apply since_state' in H. injection H as <- <- <-. destruct m; discriminate R. }
  assert (P : forall p0 k0, since l p0 k0 es -> exists l0 l0' p1 k1 es1 j, l ++ [e] = l0 ++ l0' /\ since l0 p1 k1 es1 /\ m = k1 + j /\ Says (lived l0) j x r).
  { intros p0 k0 H0. destruct (IH _ _ _ H0 R) as (l0 & l0' & p1 & k1 & es1 & j & -> & A). exists l0, (l0' ++ [e]), p1, k1, es1, j.
    now rewrite app_assoc. }
  destruct (state l) as [[p0 k0] es0] eqn:Q. pose proof (state_since _ _ _ _ Q) as H0. pose proof H as HH. apply since_state' in H.
  rewrite state_next, Q in H.
  assert (NOW : forall b, p = On b -> k <= m ->
    exists l0 l0' p1 k1 es1 j, l ++ [e] = l0 ++ l0' /\ since l0 p1 k1 es1 /\ m = k1 + j /\ Says (lived l0) j x r).
  { intros b -> L. exists (l ++ [e]), [], (On b), k, es, (m - k). rewrite app_nil_r. split; [reflexivity|]. split; [exact HH|].
    split; [lia|]. pose proof (c99_run W E _ _ _ _ _ _ HH) as (A & _). eexists. split; [exact A|].
    rewrite nth_skipn. replace (k + (m - k)) with m by lia. exact R. }
  assert (OLD : forall e', es = es0 ++ [e'] -> Replied (Served W E es0) m x r ->
    exists l0 l0' p1 k1 es1 j, l ++ [e] = l0 ++ l0' /\ since l0 p1 k1 es1 /\ m = k1 + j /\ Says (lived l0) j x r).
  { intros e' -> R0. destruct (IH _ _ _ H0 R0) as (l0 & l0' & p1 & k1 & es1 & j & -> & A). exists l0, (l0' ++ [e]), p1, k1, es1, j.
    now rewrite app_assoc. }
  destruct p0 as [|b0]; cbn [LifeFacts.next] in H.
  - assert (X : es0 = es) by (destruct e; now injection H). subst es0. eauto.
  - destruct e as [|[c h]|i|i| |].
    + injection H as <- <- <-. eauto.
    + destruct (dispatch _ _) as [[u|]|]; injection H as <- <- <-; eauto.
      destruct (Nat.le_gt_cases k0 m) as [L|L]; [now apply (NOW b0)|]. eapply OLD; [reflexivity|].
      rewrite served_snoc in R. unfold Replied in *. cbn [happen sv_threads] in R.
      destruct (c99_run W E _ _ _ _ _ _ H0) as (_ & _ & _ & K). rewrite nth_error_app1 in R by lia. exact R.
    + injection H as <- <- <-. destruct (Nat.le_gt_cases k0 m) as [L|L]; [now apply (NOW b0)|].
      eapply OLD; [reflexivity|]. eapply other_thread; [left; reflexivity|exact L|exact R].
    + injection H as <- <- <-. destruct (Nat.le_gt_cases k0 m) as [L|L]; [now apply (NOW b0)|].
      eapply OLD; [reflexivity|]. eapply other_thread; [right; reflexivity|exact L|exact R].
    + injection H as <- <- <-. destruct m; discriminate R.
    + destruct b0; injection H as <- <- <-; [eauto|destruct m; discriminate R].
Qed.

(** ** A login after kills *)
Lemma later_part {A} (l : list A) (e : A) l3 : forall l0 l0', l ++ e :: l3 = l0 ++ l0' -> List.length l < List.length l0 ->
  exists l3a, l0 = l ++ e :: l3a /\ exists l3b, l3 = l3a ++ l3b.
Proof.
  induction l as [|z zs IH]; intros l0 l0' EQ GT; (destruct l0 as [|w l0]; [cbn in GT; lia|]); cbn in EQ; injection EQ as <- EQ.
  - exists l0. split; [reflexivity|]. exists l0'. exact EQ.
  - cbn in GT. destruct (IH l0 l0' EQ) as (l3a & -> & R); [lia|]. exists l3a. split; [reflexivity|exact R].
Qed.
Lemma c99_survives depth JE : Conforming W depth JE ->
  forall l1 l2 l2a l2b l3 a x ir n crr cid key b y id v clock h q i cr u ctr ts,
  Says (lived l1) a x Success -> Registers W (snd x) ir n crr -> cr_raw_id crr = cid -> AttestedKey W crr key ->
  Keeps W E replaced multipart l1 l2 ->
  l2 = l2a ++ l2b -> Says (lived (l1 ++ l2a)) b y (Options id v) -> Asks (snd y) n ->
  ho_process (lived (l1 ++ l2)) = Some ts ->
  Reaches replaced multipart h q -> Authenticates W q i n cr -> ap_int E i = Some id ->
  (ch_clock clock - ch_clock (fst y) <= 60000)%Z ->
  In u (db_users (ho_db (lived (l1 ++ l2)))) -> ur_username u = n ->
  AppLogin W depth cr (ch_challenge (fst y)) cid key (ur_handle u) ctr ->
  ~ In Stop l3 -> ~ In Kill l3 -> ~ In (Break_ (List.length ts)) l3 -> 6 <= steps_of (List.length ts) l3 ->
  Largest W E replaced multipart (l1 ++ l2) (Incoming (clock, h) :: l3) (List.length ts) cid ctr ->
  Says (lived (l1 ++ l2 ++ Incoming (clock, h) :: l3)) (List.length ts) (clock, q) Success.
Proof.
  intros CF l1 l2 l2a l2b l3 a x ir n crr cid key b y id v clock h q i cr u ctr ts
    SR RG CI AT KP EL SO AS PR RE AU AI TM IU UN HL NS NK NB ST LG.
  destruct (says_since _ _ _ _ SR) as (b1 & k1 & es1 & H1 & L1 & R1).
  destruct (says_since _ _ _ _ SO) as (b2 & k2 & es2 & H2 & L2 & R2).
  destruct (c99_total replaced multipart (l1 ++ l2)) as (p & k & es & H).
  pose proof (c99_run W E _ _ _ _ _ _ H) as Q. destruct p as [|bb]; [destruct Q as (Q & _); unfold lived in PR; congruence|].
  destruct Q as (PQ & LQ & DQ & KQ).
  destruct (keeps _ _ _ _ _ _ _ _ H1 KP H) as (es1' & X1).
  assert (KP2 : Keeps W E replaced multipart (l1 ++ l2a) l2b).
  { destruct KP as (K1 & K2). split; [intro I; apply K1; rewrite EL; apply in_or_app; now right|].
    intros c d ->. rewrite <- app_assoc. apply (K2 (l2a ++ c) d). now rewrite EL, app_assoc. }
  assert (H' : since ((l1 ++ l2a) ++ l2b) (On bb) k es) by (rewrite <- app_assoc, <- EL; exact H).
  destruct (keeps _ _ _ _ _ _ _ _ H2 KP2 H') as (es2' & X2).
  assert (TS : ts = skipn k (sv_threads (Served W E es))) by (unfold lived in PR; congruence).
  assert (LT : AppConcHonestSpec.next (Served W E es) = k + List.length ts).
  { unfold AppConcHonestSpec.next. rewrite TS, skipn_length. lia. }
  pose proof (since_request _ _ _ _ _ _ clock h q H RE) as H3.
  destruct (runs_on _ _ _ _ l3 (List.length ts) H3 NS NK) as (b' & es3 & H4 & T4 & F4).
  rewrite <- !app_assoc in H4. cbn [app] in H4.
  assert (S : Succeeds W E es es3 (clock, q)).
  { eapply (c95_honest_login W E depth JE CF es (clock, q) es3 i n cr id (ch_challenge (fst y)) (ch_clock (fst y)) cid key (ur_handle u) ctr);
      try eassumption.
    - exists (k2 + b), y, v. rewrite X2. split; [now apply replied_prefix|]. auto.
    - exists (k1 + a), x, ir, crr. rewrite X1. split; [now apply replied_prefix|]. auto.
    - exists u. unfold lived in IU. rewrite DQ in IU. auto.
    - intros m y' i' n' cr' c' NE RP AU' CI' LC'. rewrite LT in NE.
      destruct (c99_said _ _ _ _ _ _ _ H4 RP) as (l0 & l0' & p0 & k0 & es0 & j & EQ & H0 & -> & SY).
      eapply (LG l0 l0' j y' i' n' cr' c'); try eassumption.
      + now rewrite <- app_assoc.
      + destruct (Nat.le_gt_cases (List.length l0) (List.length (l1 ++ l2))) as [LE|GT]; [now left|right].
        destruct (later_part (l1 ++ l2) (Incoming (clock, h)) l3 l0 l0') as (l3a & -> & l3b & ->); [now rewrite <- app_assoc|exact GT|].
        destruct (runs_on _ _ _ _ l3a 0 H3) as (b5 & es5 & H5 & _).
        { intro I. apply NS, in_or_app. now left. }
        { intro I. apply NK, in_or_app. now left. }
        rewrite <- app_assoc in H5. cbn [app] in H5.
        destruct (c99_one _ _ _ _ _ _ _ _ _ H0 H5) as (_ & -> & _). lia. }
  destruct S as (_ & S).
  - rewrite LT. intro I. apply NB, F4, I.
  - rewrite LT in S. specialize (S (Nat.le_trans _ _ _ ST T4)).
    pose proof (c99_run W E _ _ _ _ _ _ H4) as (P4 & _). eexists. split; [exact P4|]. rewrite nth_skipn. exact S.
Qed.

(** ** A registration after kills *)
Lemma c99_registers depth JE : Conforming W depth JE ->
  forall l1 l2 l3 n b y id v clock h q i cr cid key ctr ts,
  Says (lived l1) b y (Options id v) -> Asks (snd y) n ->
  Keeps W E replaced multipart l1 l2 ->
  ho_process (lived (l1 ++ l2)) = Some ts ->
  Reaches replaced multipart h q -> Registers W q i n cr -> ap_int E i = Some id ->
  (ch_clock clock - ch_clock (fst y) <= 60000)%Z ->
  AppRegistration W depth cr (ch_challenge (fst y)) cid key ctr ->
  ~ In Stop l3 -> ~ In Kill l3 -> ~ In (Break_ (List.length ts)) l3 -> 6 <= steps_of (List.length ts) l3 ->
  OnlyOne W E replaced multipart (l1 ++ l2) (Incoming (clock, h) :: l3) (List.length ts) cid ->
  Says (lived (l1 ++ l2 ++ Incoming (clock, h) :: l3)) (List.length ts) (clock, q) Success.
Proof.
  intros CF l1 l2 l3 n b y id v clock h q i cr cid key ctr ts SO AS KP PR RE RG AI TM HR NS NK NB ST LG.
  destruct (says_since _ _ _ _ SO) as (b2 & k2 & es2 & H2 & L2 & R2).
  destruct (c99_total replaced multipart (l1 ++ l2)) as (p & k & es & H).
  pose proof (c99_run W E _ _ _ _ _ _ H) as Q. destruct p as [|bb]; [destruct Q as (Q & _); unfold lived in PR; congruence|].
  destruct Q as (PQ & LQ & DQ & KQ).
  destruct (keeps _ _ _ _ _ _ _ _ H2 KP H) as (es2' & X2).
  assert (TS : ts = skipn k (sv_threads (Served W E es))) by (unfold lived in PR; congruence).
  assert (LT : AppConcHonestSpec.next (Served W E es) = k + List.length ts).
  { unfold AppConcHonestSpec.next. rewrite TS, skipn_length. lia. }
  pose proof (since_request _ _ _ _ _ _ clock h q H RE) as H3.
  destruct (runs_on _ _ _ _ l3 (List.length ts) H3 NS NK) as (b' & es3 & H4 & T4 & F4).
  rewrite <- !app_assoc in H4. cbn [app] in H4.
  assert (S : Succeeds W E es es3 (clock, q)).
  { eapply (c95_honest_registration W E depth JE CF es (clock, q) es3 i n cr id (ch_challenge (fst y)) (ch_clock (fst y)) cid key ctr);
      try eassumption.
    - exists (k2 + b), y, v. rewrite X2. split; [now apply replied_prefix|]. auto.
    - intros m y' i' n' cr' NE RP RG'. rewrite LT in NE.
      destruct (c99_said _ _ _ _ _ _ _ H4 RP) as (l0 & l0' & p0 & k0 & es0 & j & EQ & H0 & -> & SY).
      eapply (LG l0 l0' j y' i' n' cr'); try eassumption.
      + now rewrite <- app_assoc.
      + destruct (Nat.le_gt_cases (List.length l0) (List.length (l1 ++ l2))) as [LE|GT]; [now left|right].
        destruct (later_part (l1 ++ l2) (Incoming (clock, h)) l3 l0 l0') as (l3a & -> & l3b & ->); [now rewrite <- app_assoc|exact GT|].
        destruct (runs_on _ _ _ _ l3a 0 H3) as (b5 & es5 & H5 & _).
        { intro I. apply NS, in_or_app. now left. }
        { intro I. apply NK, in_or_app. now left. }
        rewrite <- app_assoc in H5. cbn [app] in H5.
        destruct (c99_one _ _ _ _ _ _ _ _ _ H0 H5) as (_ & -> & _). lia. }
  destruct S as (_ & S).
  - rewrite LT. intro I. apply NB, F4, I.
  - rewrite LT in S. specialize (S (Nat.le_trans _ _ _ ST T4)).
    pose proof (c99_run W E _ _ _ _ _ _ H4) as (P4 & _). eexists. split; [exact P4|]. rewrite nth_skipn. exact S.
Qed.
End Host.
