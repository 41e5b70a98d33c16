(** * ConcurrencyCount: counters in all interleavings of calls of the backend (C17). *)
From Coq Require Import List NArith ZArith Bool Lia String.
From Verif Require Import Base PyVal BaseFacts Types World Parsers Crypto
  Backends Spec AuthFacts BackendFacts History HistoryFacts HistorySpec AssertFacts.
Import ListNotations.
Local Open Scope list_scope.

Lemma snoc_split {A} (l2 : list A) e p q : l2 ++ [e] = p ++ q ->
  (p = l2 ++ [e] /\ q = []) \/ exists q', q = q' ++ [e] /\ l2 = p ++ q'.
Proof.
  destruct q as [|x q _] using rev_ind; intro H; [left; rewrite app_nil_r in H; auto|].
  rewrite app_assoc in H. apply app_inj_tail in H as [-> ->]. right. exists q. auto.
Qed.

Section S.
Context {S : Type}.
Variable W : World.
Variable R : registrar S.
Variable view : S -> bytes -> option cred_data.
Hypothesis CS : CounterStore R view.
Variable s0 : S.
Variable cs : list call.
Notation Run := (Interleaved W R s0 cs).
Notation count := (stored view).

Lemma run_snoc l i : Run (l ++ [i]) = sched_step R (Run l) i.
Proof. unfold Interleaved, run_sched. now rewrite fold_left_app. Qed.

(** What a step does. *)
Lemma step_cases l i : Run (l ++ [i]) = Run l \/
  exists p s' p', nth_error (snd (Run l)) i = Some p /\ prog_step R (fst (Run l)) p = (s', p') /\
    fst (Run (l ++ [i])) = s' /\ nth_error (snd (Run (l ++ [i]))) i = Some p' /\
    forall j, j <> i -> nth_error (snd (Run (l ++ [i]))) j = nth_error (snd (Run l)) j.
Proof.
  rewrite run_snoc. unfold sched_step. destruct (nth_error (snd (Run l)) i) as [p|] eqn:N; [right|now left].
  destruct (prog_step R (fst (Run l)) p) as [s' p'] eqn:P. exists p, s', p'. cbn [fst snd].
  repeat (split; [reflexivity || assumption|]). split; [eapply nth_update_same; eauto|].
  intros j J. apply nth_update_other. congruence.
Qed.

(** How a login was acknowledged. *)
Definition course (l : list nat) (i : nat) (A : assertion_args) : Prop :=
  exists l1 l2 l3 cdt n, l = l1 ++ i :: l2 ++ i :: l3 /\
    assertion_counter A = Some n /\
    view (fst (Run l1)) (cr_raw_id (aa_credential A)) = Some cdt /\
    CounterSpec (aa_ignore_clone A) (cdt_sign_count cdt) n /\
    (forall p q, l2 = p ++ q -> Between (Run (l1 ++ i :: p)) i (cr_raw_id (aa_credential A))) /\
    Acknowledged (Run (l1 ++ i :: l2 ++ [i])) i /\
    count (fst (Run (l1 ++ i :: l2 ++ [i]))) (cr_raw_id (aa_credential A)) = Some (Z.of_N n).
Lemma course_later l e i A : course l i A -> course (l ++ [e]) i A.
Proof.
  intros (l1 & l2 & l3 & cdt & n & -> & H). exists l1, l2, (l3 ++ [e]), cdt, n. split; [|exact H].
  now rewrite <- app_assoc, <- app_comm_cons, <- app_assoc.
Qed.

Inductive stage (l : list nat) (i : nat) (A : assertion_args) : prog -> Prop :=
| sg_start : stage l i A (handle_credential_assertion W A)
| sg_checked l1 l2 cdt ad u rp : l = l1 ++ i :: l2 ->
    view (fst (Run l1)) (cr_raw_id (aa_credential A)) = Some cdt -> AssertionSpec W A cdt ad u rp ->
    (forall p q, l2 = p ++ q -> Between (Run (l1 ++ i :: p)) i (cr_raw_id (aa_credential A))) ->
    stage l i A (CallAssert (aa_credential A) ad u rp (fun a => Done (wrap (answer_result W a))))
| sg_done r : (r = Ok tt -> course l i A) -> stage l i A (Done r).

Lemma spec_counter_spec A cdt ad u rp : AssertionSpec W A cdt ad u rp ->
  assertion_counter A = Some (ad_sign_count ad) /\
  CounterSpec (aa_ignore_clone A) (cdt_sign_count cdt) (ad_sign_count ad).
Proof.
  intro C. split; [eapply spec_counter; exact C|].
  destruct C as (cdj & adb & sig & h & _ & _ & _ & _ & _ & (HP & _) & _ & HC).
  destruct (auth_fields _ _ _ (proj2 (auth_reads_iff W _ _) HP)) as (_ & _ & _ & -> & _). exact HC.
Qed.

Lemma stage_later l e i A p : stage l i A p -> nth_error (snd (Run (l ++ [e]))) i = Some p -> stage (l ++ [e]) i A p.
Proof.
  intros T N. destruct T as [|l1 l2 cdt ad u rp -> V SP B|r C].
  - constructor.
  - apply (sg_checked _ _ _ l1 (l2 ++ [e]) cdt); [now rewrite <- app_assoc|exact V|exact SP|].
    intros p q H. apply snoc_split in H as [[-> _]|(q' & _ & H)]; [|now apply (B p q')].
    rewrite <- app_assoc in N. do 5 eexists. split; [exact N|reflexivity].
  - constructor. intro H. apply course_later. auto.
Qed.

Lemma wrapped_raise e : wrap (Raise e : res unit) <> Ok tt.
Proof. intro H. apply (proj1 (wrap_ok _ _)) in H. discriminate. Qed.

Lemma stage_all l i A p : nth_error cs i = Some (CAssert A) -> nth_error (snd (Run l)) i = Some p -> stage l i A p.
Proof.
  intro C. revert p. induction l as [|e l IH] using rev_ind; intros p N.
  { cbn in N. rewrite map_length_nth, C in N. injection N as <-. apply sg_start. }
  destruct (step_cases l e) as [Q|(p0 & s' & p' & N0 & P & S' & N' & O)].
  { apply stage_later; [|exact N]. apply IH. now rewrite Q in N. }
  destruct (Nat.eq_dec i e) as [->|J].
  2:{ apply stage_later; [|exact N]. apply IH. now rewrite O in N. }
  rewrite N' in N. injection N as <-.
  pose proof (IH p0 N0) as T. destruct T as [|l1 l2 cdt ad u rp L V SP B|r D].
  - unfold handle_credential_assertion in P. destruct (assertion_pre W A) as [os|x] eqn:PRE; cbn [prog_step] in P.
    2:{ injection P as _ <-. apply sg_done. intro H. now apply wrapped_raise in H. }
    destruct (r_get R (fst (Run l)) (cr_raw_id (aa_credential A))) as [s1 r] eqn:G. injection P as <- <-.
    destruct r as [[cdt|]|x].
    + destruct (assertion_checks W A os cdt) as [[[ad u] rp]|x] eqn:K.
      * apply (sg_checked _ _ _ l [] cdt); [reflexivity| | |].
        -- destruct (cs_get _ _ CS _ _ _ _ G) as [_ V]. now rewrite (V _ eq_refl).
        -- apply assertion_iff. eauto.
        -- intros [|? ?] q H; [|discriminate]. do 5 eexists. split; [exact N'|reflexivity].
      * apply sg_done. intro H. now apply wrapped_raise in H.
    + apply sg_done. discriminate.
    + apply sg_done. intro H. now apply wrapped_raise in H.
  - cbn [prog_step] in P. destruct (r_assert R _ _ _ _ _) as [s1 r] eqn:G. injection P as <- <-.
    apply sg_done. intro H. assert (HR := H). apply wrap_ok, answer_ok in HR. subst r.
    destruct (cs_assert_ok _ _ CS _ _ _ _ _ _ G) as [_ (cdt' & K2 & K3)].
    destruct (spec_counter_spec _ _ _ _ _ SP) as [AC CC].
    exists l1, l2, [], cdt, (ad_sign_count ad).
    assert (Q : l ++ [e] = l1 ++ e :: l2 ++ [e]) by (rewrite L, <- app_assoc; reflexivity).
    rewrite <- Q. split; [reflexivity|]. repeat (split; [assumption|]).
    unfold stored. rewrite S', K2. exact K3.
  - injection P as _ <-. apply sg_done. intro H. apply course_later. auto.
Qed.

Lemma c17_course l i A : nth_error cs i = Some (CAssert A) -> Acknowledged (Run l) i -> course l i A.
Proof. intros C N. pose proof (stage_all l i A _ C N) as T. inversion T as [E| |r D]; [|auto].
  unfold handle_credential_assertion in E. destruct (assertion_pre W A); [discriminate|].
  injection E as E. now apply wrapped_raise in E.
Qed.

(** Only calls of the list move. *)
Lemma run_length l : List.length (snd (Run l)) = List.length cs.
Proof.
  induction l as [|e l IH] using rev_ind; [apply map_length|]. rewrite run_snoc. unfold sched_step.
  destruct (nth_error (snd (Run l)) e); [|exact IH]. destruct (prog_step _ _ _). cbn [snd]. rewrite <- IH.
  generalize (snd (Run l)) as ps. clear. intro ps. revert e. induction ps as [|x t IH]; destruct e; cbn; auto.
Qed.
Lemma call_of l i p : nth_error (snd (Run l)) i = Some p -> exists c, nth_error cs i = Some c.
Proof.
  intro N. destruct (nth_error cs i) eqn:E; [eauto|]. apply nth_error_None in E. rewrite <- (run_length l) in E.
  apply nth_error_None in E. congruence.
Qed.
Lemma attest_thread l i A p : nth_error cs i = Some (CAttest A) -> nth_error (snd (Run l)) i = Some p ->
  p = handle_credential_attestation W A \/ exists r, p = Done r.
Proof.
  intro C. revert p. induction l as [|e l IH] using rev_ind; intros p N.
  { cbn in N. rewrite map_length_nth, C in N. injection N as <-. now left. }
  destruct (step_cases l e) as [Q|(p0 & s' & p' & N0 & P & _ & N' & O)]; [rewrite Q in N; auto|].
  destruct (Nat.eq_dec i e) as [->|J]; [|rewrite O in N by assumption; auto].
  rewrite N' in N. injection N as <-. right. destruct (IH p0 N0) as [->|(r & ->)].
  - unfold handle_credential_attestation, handle_credential_attestation_with in P. fold (attestation_checks W) in P.
    destruct (attestation_checks W A) as [[att [ty path]]|x]; cbn [prog_step] in P.
    + destruct (r_attest R _ _ _ _ _ _ _) as [s1 r]. injection P as _ <-. eauto.
    + injection P as _ <-. eauto.
  - injection P as _ <-. eauto.
Qed.

(** The view of a known credential changes only when a login with it is acknowledged. *)
Lemma view_change l i id : view (fst (Run l)) id <> None ->
  view (fst (Run (l ++ [i]))) id = view (fst (Run l)) id \/
  exists A n, nth_error cs i = Some (CAssert A) /\ cr_raw_id (aa_credential A) = id /\
    assertion_counter A = Some n /\ Between (Run l) i id /\ Acknowledged (Run (l ++ [i])) i /\
    view (fst (Run (l ++ [i]))) id <> None /\
    count (fst (Run (l ++ [i]))) id = Some (Z.of_N n).
Proof.
  intro K. destruct (step_cases l i) as [->|(p & s' & p' & N & P & S' & N' & O)]; [now left|].
  rewrite S'. destruct (call_of l i p N) as ([A|A] & C).
  - destruct (stage_all l i A p C N) as [|l1 l2 cdt ad u rp L V SP B|r D].
    + left. unfold handle_credential_assertion in P. destruct (assertion_pre W A) as [os|x]; cbn [prog_step] in P.
      2:{ now injection P as <- _. }
      destruct (r_get R _ _) as [s1 r] eqn:G. injection P as <- _. apply (cs_get _ _ CS _ _ _ _ G).
    + cbn [prog_step] in P. destruct (r_assert R _ _ _ _ _) as [s1 r] eqn:G. injection P as <- <-.
      assert (D : r = Ok None \/ r <> Ok None).
      { destruct r as [[v|]|x]; [right; discriminate|left; reflexivity|right; discriminate]. }
      destruct D as [->|D]; [|left; now apply (cs_assert_fail _ _ CS _ _ _ _ _ _ _ G D)].
      destruct (cs_assert_ok _ _ CS _ _ _ _ _ _ G) as [K1 (cdt' & K2 & K3)].
      destruct (bytes_eq_dec id (cr_raw_id (aa_credential A))) as [->|NI]; [right|left; now apply K1].
      exists A, (ad_sign_count ad). split; [exact C|]. split; [reflexivity|].
      split; [apply (spec_counter_spec _ _ _ _ _ SP)|].
      split; [do 5 eexists; split; [exact N|reflexivity]|]. split; [exact N'|]. unfold stored. rewrite K2.
      split; [discriminate|exact K3].
    + left. now injection P as <- _.
  - left. destruct (attest_thread l i A p C N) as [->|(r & ->)].
    + unfold handle_credential_attestation, handle_credential_attestation_with in P. fold (attestation_checks W) in P.
      destruct (attestation_checks W A) as [[att [ty path]]|x]; cbn [prog_step] in P.
      * destruct (r_attest R _ _ _ _ _ _ _) as [s1 r] eqn:G. injection P as <- _.
        now rewrite (cs_attest _ _ CS _ _ _ _ _ _ _ _ _ G).
      * now injection P as <- _.
    + now injection P as <- _.
Qed.

Lemma view_kept l1 l2 id : view (fst (Run l1)) id <> None -> view (fst (Run (l1 ++ l2))) id <> None.
Proof.
  intro K. induction l2 as [|e l2 IH] using rev_ind; [now rewrite app_nil_r|]. rewrite app_assoc.
  destruct (view_change (l1 ++ l2) e id IH) as [->|(A & n & _ & _ & _ & _ & _ & V & _)]; assumption.
Qed.

Lemma c17_change l i id : view (fst (Run l)) id <> None ->
  count (fst (Run (l ++ [i]))) id <> count (fst (Run l)) id ->
  exists A n, nth_error cs i = Some (CAssert A) /\ cr_raw_id (aa_credential A) = id /\
    assertion_counter A = Some n /\ Between (Run l) i id /\ Acknowledged (Run (l ++ [i])) i /\
    count (fst (Run (l ++ [i]))) id = Some (Z.of_N n).
Proof.
  intros K D. destruct (view_change l i id K) as [Q|(A & n & H1 & H2 & H3 & H4 & H5 & _ & H6)].
  - exfalso. apply D. unfold stored. now rewrite Q.
  - exists A, n. auto 10.
Qed.

(** The last change of a counter. *)
Lemma last_write l1 l2 id m : view (fst (Run l1)) id <> None ->
  count (fst (Run l1)) id <> Some m -> count (fst (Run (l1 ++ l2))) id = Some m ->
  exists l3 l4 j B n, l2 = l3 ++ j :: l4 /\ nth_error cs j = Some (CAssert B) /\ cr_raw_id (aa_credential B) = id /\
    assertion_counter B = Some n /\ Between (Run (l1 ++ l3)) j id /\ Acknowledged (Run (l1 ++ l3 ++ [j])) j /\
    m = Z.of_N n.
Proof.
  intros K D. induction l2 as [|e l2 IH] using rev_ind; intro M; [rewrite app_nil_r in M; contradiction|].
  assert (dec : forall a b : option Z, {a = b} + {a <> b}) by (decide equality; apply Z.eq_dec).
  destruct (dec (count (fst (Run (l1 ++ l2))) id) (Some m)) as [Q|Q].
  - destruct (IH Q) as (l3 & l4 & j & B & n & -> & H). exists l3, (l4 ++ [e]), j, B, n.
    split; [now rewrite <- app_assoc|exact H].
  - rewrite app_assoc in M. destruct (c17_change (l1 ++ l2) e id) as (B & n & H1 & H2 & H3 & H4 & H5 & H6);
      [now apply view_kept|congruence|].
    exists l2, [], e, B, n. rewrite app_assoc. repeat (split; [assumption || reflexivity|]). congruence.
Qed.

(** A thread that has been acknowledged stays so. *)
Lemma acknowledged_step l e i : Acknowledged (Run l) i -> Acknowledged (Run (l ++ [e])) i.
Proof.
  unfold Acknowledged. intro N. destruct (step_cases l e) as [->|(p & s' & p' & N0 & P & _ & N' & O)]; [exact N|].
  destruct (Nat.eq_dec i e) as [->|J]; [|now rewrite O].
  rewrite N in N0. injection N0 as <-. injection P as _ <-. exact N'.
Qed.
Lemma acknowledged_later l1 l2 i : Acknowledged (Run l1) i -> Acknowledged (Run (l1 ++ l2)) i.
Proof.
  intro N. induction l2 as [|e l2 IH] using rev_ind; [now rewrite app_nil_r|]. rewrite app_assoc. now apply acknowledged_step.
Qed.
Lemma between_not st i id : Between st i id -> ~ @Acknowledged S st i.
Proof. intros (c & ad & u & rp & k & N & _) D. red in D. congruence. Qed.

(** The step at which a login is acknowledged. *)
Lemma acknowledged_at l i A : nth_error cs i = Some (CAssert A) ->
  ~ Acknowledged (Run l) i -> Acknowledged (Run (l ++ [i])) i ->
  exists l1 l2 cdt n, l = l1 ++ i :: l2 /\ assertion_counter A = Some n /\
    view (fst (Run l1)) (cr_raw_id (aa_credential A)) = Some cdt /\
    CounterSpec (aa_ignore_clone A) (cdt_sign_count cdt) n /\
    (forall p q, l2 = p ++ q -> Between (Run (l1 ++ i :: p)) i (cr_raw_id (aa_credential A))) /\
    count (fst (Run (l ++ [i]))) (cr_raw_id (aa_credential A)) = Some (Z.of_N n).
Proof.
  intros C N D. destruct (c17_course _ _ _ C D) as (l1 & l2 & l3 & cdt & n & Q & H1 & H2 & H3 & H4 & H5 & H6).
  assert (l3 = []) as ->.
  { destruct l3 as [|e l3 _] using rev_ind; [reflexivity|exfalso]. apply N.
    replace (l1 ++ i :: l2 ++ i :: l3 ++ [e]) with ((l1 ++ i :: l2 ++ i :: l3) ++ [e]) in Q
      by (now rewrite <- app_assoc, <- app_comm_cons, <- app_assoc).
    apply app_inj_tail in Q as [-> _].
    replace (l1 ++ i :: l2 ++ i :: l3) with ((l1 ++ i :: l2 ++ [i]) ++ l3)
      by (now rewrite <- app_assoc, <- app_comm_cons, <- app_assoc).
    now apply acknowledged_later. }
  replace (l1 ++ i :: l2 ++ [i]) with ((l1 ++ i :: l2) ++ [i]) in * by (now rewrite <- app_assoc).
  apply app_inj_tail in Q as [-> _]. exists l1, l2, cdt, n. auto 10.
Qed.

Lemma c17_overtaken l i A n m : nth_error cs i = Some (CAssert A) -> aa_ignore_clone A = false ->
  assertion_counter A = Some n ->
  ~ Acknowledged (Run l) i -> Acknowledged (Run (l ++ [i])) i ->
  count (fst (Run l)) (cr_raw_id (aa_credential A)) = Some m -> (Z.of_N n <= m)%Z ->
  exists l1 l2 j B n', l = l1 ++ j :: l2 /\ j <> i /\
    Between (Run l1) i (cr_raw_id (aa_credential A)) /\ Between (Run l1) j (cr_raw_id (aa_credential A)) /\
    Acknowledged (Run (l1 ++ [j])) j /\ nth_error cs j = Some (CAssert B) /\
    cr_raw_id (aa_credential B) = cr_raw_id (aa_credential A) /\ assertion_counter B = Some n' /\ m = Z.of_N n'.
Proof.
  intros C IG AC N D M LE.
  destruct (acknowledged_at _ _ _ C N D) as (l1 & l2 & cdt & n' & -> & AC' & V & CC & B & _).
  rewrite AC in AC'. injection AC' as <-.
  set (l0 := l1 ++ [i]).
  assert (VK : view (fst (Run l0)) (cr_raw_id (aa_credential A)) = view (fst (Run l1)) (cr_raw_id (aa_credential A))).
  { unfold l0. destruct (view_change l1 i (cr_raw_id (aa_credential A)) ltac:(congruence)) as [Q|(A' & n1 & _ & _ & _ & _ & K & _)]; [exact Q|].
    exfalso. now apply (between_not _ _ _ (B [] l2 eq_refl)). }
  replace (l1 ++ i :: l2) with (l0 ++ l2) in * by (unfold l0; now rewrite <- app_assoc).
  destruct (last_write l0 l2 (cr_raw_id (aa_credential A)) m) as (l3 & l4 & j & B' & n1 & -> & H1 & H2 & H3 & H4 & H5 & H6).
  - rewrite VK, V. discriminate.
  - unfold stored. rewrite VK, V. intro Q. destruct CC as [CC|[CC|(z & CC & L)]]; [congruence|congruence|].
    rewrite Q in CC. injection CC as <-. lia.
  - exact M.
  - assert (B0 : forall p q, l3 ++ j :: l4 = p ++ q -> Between (Run (l0 ++ p)) i (cr_raw_id (aa_credential A))).
    { intros p q Q. unfold l0. rewrite <- app_assoc. exact (B p q Q). }
    exists (l0 ++ l3), l4, j, B', n1. split; [now rewrite <- app_assoc|]. split.
    + intros ->. apply (between_not _ _ _ (B0 (l3 ++ [i]) l4 ltac:(now rewrite <- app_assoc))). exact H5.
    + split; [now apply (B0 l3 (j :: l4))|]. split; [exact H4|]. rewrite <- app_assoc. auto 10.
Qed.

(** ** Logins with one credential that exclude each other *)
Lemma apart_prefix id l1 l2 : Apart W R s0 cs id (l1 ++ l2) -> Apart W R s0 cs id l1.
Proof. intros X a b i j ->. apply (X a (b ++ l2)). now rewrite app_assoc. Qed.

Lemma nth_call i A : nth_error cs i = Some (CAssert A) -> In (CAssert A) cs.
Proof. apply nth_error_In. Qed.
Lemma apart_exceeds l i A n m : Apart W R s0 cs (cr_raw_id (aa_credential A)) l ->
  Checked cs (cr_raw_id (aa_credential A)) ->
  nth_error cs i = Some (CAssert A) -> assertion_counter A = Some n ->
  ~ Acknowledged (Run l) i -> Acknowledged (Run (l ++ [i])) i ->
  count (fst (Run l)) (cr_raw_id (aa_credential A)) = Some m -> (m < Z.of_N n)%Z.
Proof.
  intros X CH C AC N D M. destruct (Z.lt_ge_cases m (Z.of_N n)) as [L|L]; [exact L|exfalso].
  destruct (c17_overtaken l i A n m C (CH A (nth_call _ _ C) eq_refl) AC N D M L)
    as (l1 & l2 & j & B & n' & Q & NJ & B1 & B2 & _). apply NJ. eapply (X l1 _ j i Q); eauto.
Qed.

Lemma apart_step id l e m : Apart W R s0 cs id l -> Checked cs id -> view (fst (Run l)) id <> None ->
  count (fst (Run l)) id = Some m ->
  exists m', count (fst (Run (l ++ [e]))) id = Some m' /\ (m <= m')%Z.
Proof.
  intros X CH K M. destruct (view_change l e id K) as [Q|(A & n & C & <- & AC & B & D & _ & ST)].
  - exists m. unfold stored in *. rewrite Q. split; [exact M|lia].
  - exists (Z.of_N n). split; [exact ST|].
    pose proof (apart_exceeds l e A n m X CH C AC (between_not _ _ _ B) D M). lia.
Qed.
Lemma stored_known (s : S) id m : count s id = Some m -> view s id <> None.
Proof. unfold stored. now destruct (view s id). Qed.
Lemma c17_apart id l1 l2 m : Apart W R s0 cs id (l1 ++ l2) -> Checked cs id ->
  count (fst (Run l1)) id = Some m ->
  exists m', count (fst (Run (l1 ++ l2))) id = Some m' /\ (m <= m')%Z.
Proof.
  intros X CH M. induction l2 as [|e l2 IH] using rev_ind; [rewrite app_nil_r; exists m; split; [exact M|lia]|].
  rewrite app_assoc in *. apply apart_prefix in X. destruct (IH X) as (m1 & M1 & L1).
  destruct (apart_step id (l1 ++ l2) e m1 X CH (stored_known _ _ _ M1) M1) as (m2 & M2 & L2).
  exists m2. split; [exact M2|lia].
Qed.

Lemma order (a b a' b' : list nat) i j : a ++ i :: b = a' ++ j :: b' ->
  i = j \/ (exists z, a' = (a ++ [i]) ++ z) \/ (exists z, a = (a' ++ [j]) ++ z).
Proof.
  revert a'. induction a as [|e a IH]; intros a' H; destruct a' as [|e' a'].
  - injection H as -> _. now left.
  - injection H as <- H. right. left. exists a'. reflexivity.
  - injection H as -> H. right. right. exists a. reflexivity.
  - injection H as <- H. destruct (IH a' H) as [Q|[(z & ->)|(z & ->)]];
      [now left|right; left; now exists z|right; right; now exists z].
Qed.
(** [l] up to the acknowledgement of call [i]. *)
Lemma acknowledged_split l i A n : nth_error cs i = Some (CAssert A) -> Acknowledged (Run l) i ->
  assertion_counter A = Some n ->
  exists a b, l = a ++ i :: b /\ Between (Run a) i (cr_raw_id (aa_credential A)) /\ Acknowledged (Run (a ++ [i])) i /\
    count (fst (Run (a ++ [i]))) (cr_raw_id (aa_credential A)) = Some (Z.of_N n).
Proof.
  intros C D AC. destruct (c17_course l i A C D) as (l1 & l2 & l3 & cdt & n' & -> & AC' & _ & _ & B & K & ST).
  rewrite AC in AC'. injection AC' as <-. exists (l1 ++ i :: l2), l3. split; [now rewrite <- app_assoc|].
  replace ((l1 ++ i :: l2) ++ [i]) with (l1 ++ i :: l2 ++ [i]) by (now rewrite <- app_assoc).
  split; [apply (B l2 []); now rewrite app_nil_r|]. auto.
Qed.

Lemma c17_apart_once id l i j A B n : Apart W R s0 cs id l -> Checked cs id ->
  nth_error cs i = Some (CAssert A) -> nth_error cs j = Some (CAssert B) ->
  cr_raw_id (aa_credential A) = id -> cr_raw_id (aa_credential B) = id ->
  assertion_counter A = Some n -> assertion_counter B = Some n ->
  Acknowledged (Run l) i -> Acknowledged (Run l) j -> i = j.
Proof.
  assert (K : forall a z b i j A B, Apart W R s0 cs id ((a ++ [i]) ++ z ++ j :: b) -> Checked cs id ->
    nth_error cs j = Some (CAssert B) -> cr_raw_id (aa_credential A) = id -> cr_raw_id (aa_credential B) = id ->
    assertion_counter B = Some n ->
    count (fst (Run (a ++ [i]))) id = Some (Z.of_N n) ->
    Between (Run ((a ++ [i]) ++ z)) j id -> Acknowledged (Run (((a ++ [i]) ++ z) ++ [j])) j -> False).
  { intros a z b i0 j0 A0 B0 X CH CB IA IB AB ST BT D. rewrite app_assoc in X. apply apart_prefix in X.
    destruct (c17_apart id _ _ _ X CH ST) as (m & M & LE). subst id. rewrite <- IB in *.
    pose proof (apart_exceeds _ j0 B0 n m X CH CB AB (between_not _ _ _ BT) D M). lia. }
  intros X CH CA CB IA IB NA NB DA DB.
  destruct (acknowledged_split l i A n CA DA NA) as (a & b & Q & BA & KA & SA).
  destruct (acknowledged_split l j B n CB DB NB) as (a' & b' & Q' & BB & KB & SB).
  rewrite IA in *. rewrite IB in *.
  destruct (order a b a' b' i j) as [J|[(z & ->)|(z & ->)]]; [congruence|exact J| |]; exfalso.
  - rewrite Q', <- app_assoc in X. eapply (K a z b' i j A B); eauto.
  - rewrite Q, <- app_assoc in X. eapply (K a' z b j i B A); eauto.
Qed.
End S.

(** A way to see that logins are apart: one thread at a time is about to store. *)
Definition storing (p : prog) : bool := match p with CallAssert _ _ _ _ _ => true | _ => false end.
Lemma one_in_filter {A} (f : A -> bool) l i x : nth_error l i = Some x -> f x = true -> 1 <= List.length (filter f l).
Proof.
  revert i. induction l as [|a l IH]; intros [|i] N F; try discriminate; cbn in *.
  - injection N as ->. rewrite F. cbn. lia.
  - specialize (IH i N F). destruct (f a); cbn; lia.
Qed.
Lemma two_in_filter {A} (f : A -> bool) l i j x y : nth_error l i = Some x -> nth_error l j = Some y ->
  f x = true -> f y = true -> List.length (filter f l) <= 1 -> i = j.
Proof.
  revert i j. induction l as [|a l IH]; intros [|i] [|j] N M F G L; try discriminate; cbn in *; [reflexivity| | |].
  - injection N as ->. rewrite F in L. cbn in L. pose proof (one_in_filter f l j y M G). lia.
  - injection M as ->. rewrite G in L. cbn in L. pose proof (one_in_filter f l i x N F). lia.
  - f_equal. apply IH; auto. destruct (f a); cbn in L; lia.
Qed.
Lemma apart_by {S} (W : World) (R : registrar S) s cs id l :
  (forall l1 l2, l = l1 ++ l2 -> List.length (filter storing (snd (Interleaved W R s cs l1))) <= 1) ->
  Apart W R s cs id l.
Proof.
  intros H l1 l2 i j Q (c & ad & u & rp & k & N & _) (c' & ad' & u' & rp' & k' & N' & _).
  exact (two_in_filter storing _ i j _ _ N N' eq_refl eq_refl (H l1 l2 Q)).
Qed.
