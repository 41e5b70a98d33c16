(** * HistoryFacts: counters over histories and interleavings. *)
From Coq Require Import List NArith ZArith Bool Lia String.
From Verif Require Import Base PyVal BaseFacts Types World Parsers Crypto Backends Spec
  AuthFacts BackendFacts History.
Import ListNotations.
Local Open Scope list_scope.

(** ** The concrete stores are counter stores *)
Lemma mem_find_set_same id n s c : mem_find id s = Some c ->
  mem_find id (mem_set id n s) = Some {| cdt_key := cdt_key c; cdt_sign_count := Some (Z.of_N n);
    cdt_user := cdt_user c; cdt_rp := cdt_rp c |}.
Proof.
  induction s as [|[i c'] t IH]; cbn; [discriminate|].
  destruct (bytes_eqb i id) eqn:E; cbn; rewrite E; [|assumption].
  intro H; injection H as ->. reflexivity.
Qed.
Lemma mem_find_set_other id i n s : i <> id -> mem_find i (mem_set id n s) = mem_find i s.
Proof.
  intro N. induction s as [|[j c] t IH]; cbn; [reflexivity|].
  destruct (bytes_eqb j id) eqn:E; cbn.
  - apply bytes_eqb_spec in E. subst j.
    destruct (bytes_eqb id i) eqn:E2; [apply bytes_eqb_spec in E2; congruence|reflexivity].
  - destruct (bytes_eqb j i); [reflexivity|assumption].
Qed.
Lemma mem_find_app id s i c : mem_find id s <> None -> mem_find id (s ++ [(i, c)]) = mem_find id s.
Proof.
  induction s as [|[j c'] t IH]; cbn; [congruence|].
  destruct (bytes_eqb j id); [reflexivity|assumption].
Qed.

Lemma mem_attest_keeps s c att ty u rp path s' a :
  r_attest mem_registrar s c att ty u rp path = (s', a) ->
  forall i, mem_find i s <> None -> mem_find i s' = mem_find i s.
Proof.
  cbn. destruct (mem_find (cr_raw_id c) s) eqn:F.
  { intro H; injection H as <- _. reflexivity. }
  destruct (ao_auth_data att) as [ad|]; [|intro H; injection H as <- _; reflexivity].
  destruct (ad_attested ad) as [[? ? ? [k|]]|]; intro H; injection H as <- _; try reflexivity.
  intros i Hi. now apply mem_find_app.
Qed.

Lemma mem_store : CounterStore mem_registrar (fun s id => mem_find id s).
Proof.
  split.
  - cbn. intros s id s' r H. injection H as <- <-. split; [reflexivity|]. congruence.
  - cbn. intros s c ad u rp s'. destruct (mem_find (cr_raw_id c) s) eqn:F; [|discriminate].
    intro H; injection H as <-. split.
    + intros i N. now apply mem_find_set_other.
    + eexists. split; [eapply mem_find_set_same; exact F|reflexivity].
  - cbn. intros s c ad u rp s' a. destruct (mem_find (cr_raw_id c) s) eqn:F;
      intro H; injection H as <- <-; [congruence|reflexivity].
  - exact mem_attest_keeps.
Qed.

Lemma cas_store : CounterStore cas_registrar (fun s id => mem_find id s).
Proof.
  split.
  - exact (cs_get _ _ mem_store).
  - cbn. intros s c ad u rp s'. destruct (mem_find (cr_raw_id c) s) eqn:F; [|discriminate].
    match goal with |- context [if ?b then _ else _] => destruct b end; [|discriminate].
    intro H; injection H as <-. split.
    + intros i N. now apply mem_find_set_other.
    + eexists. split; [eapply mem_find_set_same; exact F|reflexivity].
  - cbn. intros s c ad u rp s' a. destruct (mem_find (cr_raw_id c) s) eqn:F.
    + match goal with |- context [if ?b then _ else _] => destruct b end;
        intro H; injection H as <- <-; [congruence|reflexivity].
    + intro H; injection H as <- <-. reflexivity.
  - exact mem_attest_keeps.
Qed.

Lemma cas_cas : CompareAndSet cas_registrar (fun s id => mem_find id s).
Proof.
  unfold CompareAndSet. cbn. intros s c ad u rp s' H cdt n F E. rewrite F, E in H.
  destruct (Z.ltb n (Z.of_N (ad_sign_count ad))) eqn:L; [|discriminate]. now apply Z.ltb_lt.
Qed.

Section S.
Context {S : Type}.
Variable W : World.
Variable R : registrar S.
Variable view : S -> bytes -> option cred_data.
Hypothesis CS : CounterStore R view.

(** The stored counter of [id] is at least [n]. *)
Definition at_least (s : S) (id : bytes) (n : N) : Prop :=
  exists cdt m, view s id = Some cdt /\ cdt_sign_count cdt = Some m /\ (Z.of_N n <= m)%Z.

Lemma at_least_view s s' id n : view s' id = view s id -> at_least s id n -> at_least s' id n.
Proof. unfold at_least. intros ->. auto. Qed.

Lemma spec_counter A cdt ad u rp :
  AssertionSpec W A cdt ad u rp ->
  assertion_counter A = Some (ad_sign_count ad).
Proof.
  intros (cdj & adb & sig & h & ER & _ & _ & _ & _ & (HP & _) & _).
  unfold assertion_counter. rewrite ER. destruct (auth_fields _ _ _ (proj2 (auth_reads_iff W _ _) HP)) as (_ & _ & _ & -> & _).
  reflexivity.
Qed.

(** One assertion: what it does to the store. *)
Lemma assert_effect s A :
  let o := run R s (handle_credential_assertion W A) in
  (out_result o = Ok tt /\
   exists cdt n, view s (cr_raw_id (aa_credential A)) = Some cdt /\
     assertion_counter A = Some n /\
     CounterSpec (aa_ignore_clone A) (cdt_sign_count cdt) n /\
     (forall i, i <> cr_raw_id (aa_credential A) -> view (out_state o) i = view s i) /\
     exists cdt', view (out_state o) (cr_raw_id (aa_credential A)) = Some cdt' /\
                  cdt_sign_count cdt' = Some (Z.of_N n)) \/
  (out_result o <> Ok tt /\ forall i, view (out_state o) i = view s i).
Proof.
  cbv zeta.
  destruct (assert_run W R s A) as [e P|os s1 e P G|os s1 P G|os s1 cdt e P G C|s1 cdt ad u rp s2 a G C U];
    cbn [out_result out_state].
  - right. split; [rewrite wrap_ok; discriminate|reflexivity].
  - right. split; [rewrite wrap_ok; discriminate|]. apply (cs_get _ _ CS _ _ _ _ G).
  - right. split; [discriminate|]. apply (cs_get _ _ CS _ _ _ _ G).
  - right. split; [rewrite wrap_ok; discriminate|]. apply (cs_get _ _ CS _ _ _ _ G).
  - destruct (cs_get _ _ CS _ _ _ _ G) as [V1 V2].
    assert (D : a = Ok None \/ a <> Ok None).
    { destruct a as [[v|]|e]; [right; discriminate|left; reflexivity|right; discriminate]. }
    destruct D as [->|D].
    + left. split; [reflexivity|].
      destruct (cs_assert_ok _ _ CS _ _ _ _ _ _ U) as [K1 (cdt' & K2 & K3)].
      exists cdt, (ad_sign_count ad). split; [symmetry; now apply V2|].
      split; [eapply spec_counter; exact C|].
      split; [|split; [intros i Hi; rewrite K1 by assumption; apply V1|eauto]].
      destruct C as (cdj & adb & sig & h & _ & _ & _ & _ & _ & (HP & _) & _ & HC).
      destruct (auth_fields _ _ _ (proj2 (auth_reads_iff W _ _) HP)) as (_ & _ & _ & -> & _). exact HC.
    + right. split; [rewrite wrap_ok, answer_ok; assumption|].
      intro i. rewrite (cs_assert_fail _ _ CS _ _ _ _ _ _ _ U D). apply V1.
Qed.

Lemma attest_effect s A i :
  view s i <> None -> view (out_state (run R s (handle_credential_attestation W A))) i = view s i.
Proof.
  destruct (attest_run W R s A) as [e P|att s1 a G U]; cbn [out_state]; intro V; [reflexivity|].
  eapply cs_attest; eauto.
Qed.

(** A recorded counter is never lost while clone errors are not ignored. *)
Lemma call_at_least s c id n :
  (forall A, c = CAssert A -> aa_ignore_clone A = false) ->
  at_least s id n -> at_least (out_state (run R s (handler W c))) id n.
Proof.
  intros HI (cdt & m & V & E & L). destruct c as [A|A]; cbn [handler].
  - specialize (HI A eq_refl).
    destruct (assert_effect s A) as [(_ & cdt0 & k & V0 & _ & HC & HO & cdt' & V' & E')|(_ & V')].
    + destruct (bytes_eq_dec id (cr_raw_id (aa_credential A))) as [->|N].
      * exists cdt', (Z.of_N k). repeat split; auto.
        rewrite V in V0. injection V0 as ->.
        destruct HC as [HC|[HC|(m' & HC & L')]]; [congruence|congruence|].
        rewrite E in HC. injection HC as ->. lia.
      * exists cdt, m. rewrite HO by assumption. auto.
    + exists cdt, m. rewrite V'. auto.
  - exists cdt, m. rewrite attest_effect; [auto|congruence].
Qed.

Lemma history_later cs : forall s id n,
  (forall A, In (CAssert A) cs -> aa_ignore_clone A = false) ->
  at_least s id n ->
  forall m, In (id, m) (accepted (fst (run_history W R s cs))) -> (n < m)%N.
Proof.
  induction cs as [|c t IH]; intros s id n HI HA m Hin; cbn [run_history] in Hin; [destruct Hin|].
  destruct (run_history W R (out_state (run R s (handler W c))) t) as [l s'] eqn:ER.
  cbn [fst] in Hin.
  assert (HI' : forall A, In (CAssert A) t -> aa_ignore_clone A = false) by (intros; apply HI; now right).
  assert (HA' : at_least (out_state (run R s (handler W c))) id n).
  { apply call_at_least; [|assumption]. intros A ->. apply HI. now left. }
  specialize (IH _ id n HI' HA' m). rewrite ER in IH. cbn [fst] in IH.
  destruct c as [A|A]; [|exact (IH Hin)]. cbn [handler] in *.
  cbn [accepted] in Hin.
  destruct (assert_effect s A) as [(E & cdt0 & k & V0 & EC & HC & _)|(NE & _)].
  - rewrite E, EC in Hin. destruct Hin as [Hin|Hin]; [|exact (IH Hin)].
    injection Hin as <- <-. destruct HA as (cdt & q & V & Eq & L).
    rewrite V in V0. injection V0 as ->.
    destruct HC as [HC|[HC|(m' & HC & L')]]; [rewrite HI in HC by (now left); discriminate|congruence|].
    rewrite Eq in HC. injection HC as ->. lia.
  - destruct (out_result (run R s (handle_credential_assertion W A))) as [[]|e]; [congruence|].
    exact (IH Hin).
Qed.

(** Accepted counters of one credential strictly increase. *)
Lemma counters_increase cs : forall s l1 id n1 l2 n2 l3,
  (forall A, In (CAssert A) cs -> aa_ignore_clone A = false) ->
  accepted (fst (run_history W R s cs)) = l1 ++ (id, n1) :: l2 ++ (id, n2) :: l3 ->
  (n1 < n2)%N.
Proof.
  induction cs as [|c t IH]; intros s l1 id n1 l2 n2 l3 HI E; cbn [run_history] in E.
  { cbn in E. destruct l1; discriminate. }
  destruct (run_history W R (out_state (run R s (handler W c))) t) as [l s'] eqn:ER. cbn [fst] in E.
  assert (HI' : forall A, In (CAssert A) t -> aa_ignore_clone A = false) by (intros; apply HI; now right).
  pose proof (IH (out_state (run R s (handler W c)))) as IHt. rewrite ER in IHt. cbn [fst] in IHt.
  destruct c as [A|A]; [|exact (IHt _ _ _ _ _ _ HI' E)]. cbn [handler] in *. cbn [accepted] in E.
  destruct (assert_effect s A) as [(EA & cdt0 & k & V0 & EC & HC & _ & cdt' & V' & E')|(NE & _)].
  - rewrite EA, EC in E. destruct l1 as [|p l1].
    + injection E as <- <- E.
      pose proof (history_later t (out_state (run R s (handle_credential_assertion W A)))
        (cr_raw_id (aa_credential A)) k HI') as HL.
      rewrite ER in HL. cbn [fst] in HL. apply HL.
      * exists cdt', (Z.of_N k). repeat split; auto. lia.
      * rewrite E. apply in_or_app. right. now left.
    + injection E as _ E. exact (IHt _ _ _ _ _ _ HI' E).
  - destruct (out_result (run R s (handle_credential_assertion W A))) as [[]|e]; [congruence|].
    exact (IHt _ _ _ _ _ _ HI' E).
Qed.

(** Whatever happened in between, presenting an accepted counter again fails. *)
Lemma run_history_app cs1 cs2 s :
  run_history W R s (cs1 ++ cs2) =
  let '(l1, s1) := run_history W R s cs1 in
  let '(l2, s2) := run_history W R s1 cs2 in (l1 ++ l2, s2).
Proof.
  revert s; induction cs1 as [|c t IH]; intro s; cbn [app run_history].
  - destruct (run_history W R s cs2). reflexivity.
  - rewrite IH. destruct (run_history W R (out_state (run R s (handler W c))) t) as [l1 s1].
    destruct (run_history W R s1 cs2). reflexivity.
Qed.

Lemma history_at_least cs : forall s id n,
  (forall A, In (CAssert A) cs -> aa_ignore_clone A = false) ->
  at_least s id n -> at_least (snd (run_history W R s cs)) id n.
Proof.
  induction cs as [|c t IH]; intros s id n HI HA; cbn [run_history]; [assumption|].
  assert (H := IH (out_state (run R s (handler W c))) id n).
  destruct (run_history W R (out_state (run R s (handler W c))) t) as [l s']. cbn [snd] in *.
  apply H; [intros; apply HI; now right|]. apply call_at_least; [|assumption].
  intros A ->. apply HI. now left.
Qed.

Lemma no_replay s A cs B :
  out_result (run R s (handle_credential_assertion W A)) = Ok tt ->
  (forall C, In (CAssert C) cs -> aa_ignore_clone C = false) ->
  aa_ignore_clone B = false ->
  cr_raw_id (aa_credential B) = cr_raw_id (aa_credential A) ->
  assertion_counter B = assertion_counter A ->
  let s1 := out_state (run R s (handle_credential_assertion W A)) in
  let s2 := snd (run_history W R s1 cs) in
  out_result (run R s2 (handle_credential_assertion W B)) <> Ok tt.
Proof.
  cbv zeta. intros HA HI HB EI EC HR.
  destruct (assert_effect s A) as [(_ & cdt0 & k & V0 & ECA & HC & _ & cdt' & V' & E')|(NE & _)]; [|congruence].
  set (s1 := out_state (run R s (handle_credential_assertion W A))) in *.
  assert (L : at_least s1 (cr_raw_id (aa_credential A)) k).
  { exists cdt', (Z.of_N k). repeat split; auto. lia. }
  apply (history_at_least cs) in L; [|assumption].
  destruct L as (cdt & m & V & E & L).
  destruct (assert_effect (snd (run_history W R s1 cs)) B)
    as [(_ & cdt1 & k' & V1 & ECB & HCB & _)|(NE & _)]; [|congruence].
  rewrite EI, V in V1. injection V1 as ->. rewrite ECB, ECA in EC. injection EC as ->.
  destruct HCB as [HCB|[HCB|(m' & HCB & L')]]; [congruence|congruence|].
  rewrite E in HCB. injection HCB as ->. lia.
Qed.

(** A stored counter that is not smaller is refused, 0 included. *)
Lemma stale_counter_refused s A cdt m n :
  view s (cr_raw_id (aa_credential A)) = Some cdt -> cdt_sign_count cdt = Some m ->
  assertion_counter A = Some n -> (Z.of_N n <= m)%Z -> aa_ignore_clone A = false ->
  out_result (run R s (handle_credential_assertion W A)) <> Ok tt.
Proof.
  intros V E EC L HI HR.
  destruct (assert_effect s A) as [(_ & cdt0 & k & V0 & ECA & HC & _)|(NE & _)]; [|congruence].
  rewrite V in V0. injection V0 as ->. rewrite EC in ECA. injection ECA as ->.
  destruct HC as [HC|[HC|(m' & HC & L')]]; [congruence|congruence|].
  rewrite E in HC. injection HC as ->. lia.
Qed.

(** ** Interleavings, with a comparing store *)
Hypothesis CAS : CompareAndSet R view.

Lemma done_wrap_raise e : Done (wrap (Raise e)) <> Done (Ok tt).
Proof. destruct e as [[]| |]; discriminate. Qed.
Lemma wrap_raise_ok e : wrap (Raise e) <> Ok tt.
Proof. destruct e as [[]| |]; discriminate. Qed.
Ltac nowrap E := exfalso; first [exact (done_wrap_raise _ E) | exact (wrap_raise_ok _ E)].

(** Where the thread of call [c] can be. [done] says the call was acknowledged. *)
Inductive thread (c : call) : prog -> Prop :=
| th_start : thread c (handler W c)
| th_checked A cdt ad u rp :
    c = CAssert A -> AssertionSpec W A cdt ad u rp ->
    thread c (CallAssert (aa_credential A) ad u rp (fun a => Done (wrap (answer_result W a))))
| th_done r : thread c (Done r).

Lemma thread_step c s p s' p' :
  thread c p -> prog_step R s p = (s', p') -> thread c p'.
Proof.
  intros T E. destruct T as [|A cdt ad u rp -> SP|r].
  - destruct c as [A|A]; cbn [handler] in E.
    + unfold handle_credential_assertion in E. destruct (assertion_pre W A) as [os|e] eqn:P; cbn [prog_step] in E.
      * destruct (r_get R s _) as [s1 r]. injection E as <- <-.
        destruct r as [[cdt|]|e]; try apply th_done.
        destruct (assertion_checks W A os cdt) as [[[ad u] rp]|e] eqn:HC; [|apply th_done].
        eapply th_checked; [reflexivity|]. apply assertion_iff. eauto.
      * injection E as <- <-. apply th_done.
    + unfold handle_credential_attestation, handle_credential_attestation_with in E. fold (attestation_checks W) in E.
      destruct (attestation_checks W A) as [[att [ty path]]|e]; cbn [prog_step] in E.
      * destruct (r_attest R s _ _ _ _ _ _) as [s1 r]. injection E as <- <-. apply th_done.
      * injection E as <- <-. apply th_done.
  - cbn [prog_step] in E. destruct (r_assert R s _ _ _ _) as [s1 r]. injection E as <- <-. apply th_done.
  - injection E as <- <-. apply th_done.
Qed.

(** A step never lowers a stored counter. *)
Lemma step_at_least c s p s' p' id n :
  thread c p -> prog_step R s p = (s', p') -> at_least s id n -> at_least s' id n.
Proof.
  intros T E (cdt & m & V & Em & L). destruct p as [r|cid k|cr ad u rp k|cr att ty u rp path k];
    cbn [prog_step] in E.
  - injection E as <- <-. exists cdt, m; auto.
  - destruct (r_get R s cid) as [s1 r] eqn:G. injection E as <- <-.
    destruct (cs_get _ _ CS _ _ _ _ G) as [V1 _]. exists cdt, m. rewrite V1. auto.
  - destruct (r_assert R s cr ad u rp) as [s1 r] eqn:G. injection E as <- <-.
    assert (D : r = Ok None \/ r <> Ok None).
    { destruct r as [[v|]|e]; [right; discriminate|left; reflexivity|right; discriminate]. }
    destruct D as [->|D].
    + destruct (cs_assert_ok _ _ CS _ _ _ _ _ _ G) as [K1 (cdt' & K2 & K3)].
      destruct (bytes_eq_dec id (cr_raw_id cr)) as [->|N].
      * exists cdt', (Z.of_N (ad_sign_count ad)). repeat split; auto.
        pose proof (CAS _ _ _ _ _ _ G cdt m V Em). lia.
      * exists cdt, m. rewrite K1 by assumption. auto.
    + exists cdt, m. rewrite (cs_assert_fail _ _ CS _ _ _ _ _ _ _ G D). auto.
  - destruct (r_attest R s cr att ty u rp path) as [s1 r] eqn:G. injection E as <- <-.
    exists cdt, m. rewrite (cs_attest _ _ CS _ _ _ _ _ _ _ _ _ G) by congruence. auto.
Qed.

(** An acknowledged thread left its counter in the store. *)
Definition recorded (s : S) (c : call) (p : prog) : Prop :=
  forall A n, c = CAssert A -> p = Done (Ok tt) -> assertion_counter A = Some n ->
  at_least s (cr_raw_id (aa_credential A)) n.

Lemma step_recorded c s p s' p' :
  thread c p -> prog_step R s p = (s', p') -> recorded s c p -> recorded s' c p'.
Proof.
  intros T E REC A n -> -> EC.
  assert (T' := T). destruct T as [|A' cdt ad u rp EA SP|r].
  - cbn [handler] in *. unfold handle_credential_assertion in *.
    destruct (assertion_pre W A) as [os|e] eqn:P; cbn [prog_step] in E.
    + destruct (r_get R s _) as [s1 r]. injection E as <- E.
      destruct r as [[cdt|]|e].
      * destruct (assertion_checks W A os cdt) as [[[ad u] rp]|e]; [discriminate|].
        nowrap E.
      * discriminate.
      * nowrap E.
    + injection E as <- E; nowrap E.
  - injection EA as <-. cbn [prog_step] in E.
    destruct (r_assert R s _ _ _ _) as [s1 r] eqn:G. injection E as <- E.
    apply wrap_ok, answer_ok in E. subst r.
    destruct (cs_assert_ok _ _ CS _ _ _ _ _ _ G) as [_ (cdt' & K2 & K3)].
    rewrite (spec_counter _ _ _ _ _ SP) in EC. injection EC as <-.
    exists cdt', (Z.of_N (ad_sign_count ad)). repeat split; auto. lia.
  - injection E as <- ->. eapply REC; eauto.
Qed.

Lemma nth_update_same {A} (l : list A) i a x : nth_error l i = Some x -> nth_error (update l i a) i = Some a.
Proof. revert i; induction l; destruct i; cbn; try discriminate; eauto. Qed.
Lemma nth_update_other {A} (l : list A) i j a : i <> j -> nth_error (update l i a) j = nth_error l j.
Proof. revert i j; induction l; destruct i, j; cbn; intros; try congruence; auto. Qed.
Lemma nth_update_inv {A} (l : list A) i j a x : nth_error (update l i a) j = Some x ->
  (i = j /\ x = a /\ exists y, nth_error l i = Some y) \/ (i <> j /\ nth_error l j = Some x).
Proof.
  intro H. destruct (Nat.eq_dec i j) as [->|N].
  - left. destruct (nth_error l j) eqn:E.
    + rewrite (nth_update_same _ _ _ _ E) in H. injection H as <-. eauto.
    + exfalso. revert j H E. induction l; destruct j; cbn; try discriminate; eauto.
  - right. rewrite nth_update_other in H by assumption. auto.
Qed.

(** Distinct threads acknowledged for one credential have different counters. *)
Definition sched_inv (cs : list call) (s : S) (ps : list prog) : Prop :=
  (forall i c p, nth_error cs i = Some c -> nth_error ps i = Some p -> thread c p /\ recorded s c p) /\
  (forall i j A B n m, i <> j ->
     nth_error cs i = Some (CAssert A) -> nth_error cs j = Some (CAssert B) ->
     nth_error ps i = Some (Done (Ok tt)) -> nth_error ps j = Some (Done (Ok tt)) ->
     cr_raw_id (aa_credential A) = cr_raw_id (aa_credential B) ->
     assertion_counter A = Some n -> assertion_counter B = Some m -> n <> m).

(** When an assertion thread becomes acknowledged its counter exceeds the stored one. *)
Lemma step_acknowledged A s p s' id n :
  thread (CAssert A) p -> prog_step R s p = (s', Done (Ok tt)) -> p <> Done (Ok tt) ->
  id = cr_raw_id (aa_credential A) -> at_least s id n ->
  forall m, assertion_counter A = Some m -> (n < m)%N.
Proof.
  intros T E NP -> (cdt & q & V & Eq & L) m EC.
  destruct T as [|A' cdt' ad u rp EA SP|r].
  - cbn [handler] in *. unfold handle_credential_assertion in *.
    destruct (assertion_pre W A) as [os|e] eqn:P; cbn [prog_step] in E.
    + destruct (r_get R s _) as [s1 r]. injection E as _ E.
      destruct r as [[cdt'|]|e]; try discriminate; [|nowrap E].
      destruct (assertion_checks W A os cdt') as [[[ad u] rp]|e]; [discriminate|].
      nowrap E.
    + injection E as _ E; nowrap E.
  - injection EA as <-. cbn [prog_step] in E.
    destruct (r_assert R s _ _ _ _) as [s1 r] eqn:G. injection E as <- E.
    apply wrap_ok, answer_ok in E. subst r.
    rewrite (spec_counter _ _ _ _ _ SP) in EC. injection EC as <-.
    pose proof (CAS _ _ _ _ _ _ G cdt q V Eq). lia.
  - injection E as _ ->. congruence.
Qed.

Lemma sched_step_inv cs s ps i :
  sched_inv cs s ps -> List.length ps = List.length cs ->
  let st := sched_step R (s, ps) i in
  sched_inv cs (fst st) (snd st) /\ List.length (snd st) = List.length cs.
Proof.
  intros [I1 I2] HL. cbv zeta. unfold sched_step. cbn [fst snd].
  destruct (nth_error ps i) as [p|] eqn:Ep; [|split; [split|]; assumption].
  destruct (prog_step R s p) as [s' p'] eqn:Es. cbn [fst snd].
  assert (Hc : exists c, nth_error cs i = Some c).
  { destruct (nth_error cs i) eqn:Ec; [eauto|]. apply nth_error_None in Ec.
    assert (nth_error ps i <> None) by congruence. apply nth_error_Some in H. lia. }
  destruct Hc as [c Ec]. destruct (I1 i c p Ec Ep) as [T REC].
  split; [split|].
  - intros j c' q Ec' Eq. apply nth_update_inv in Eq as [(<- & -> & _)|(N & Eq)].
    + rewrite Ec in Ec'. injection Ec' as <-. split.
      * eapply thread_step; eauto.
      * eapply step_recorded; eauto.
    + destruct (I1 j c' q Ec' Eq) as [T' REC']. split; [assumption|].
      intros A n -> -> EC. eapply step_at_least; [exact T|exact Es|]. eapply REC'; eauto.
  - intros a b A B n m N EA EB Ea Eb EI EnA EnB.
    apply nth_update_inv in Ea as [(<- & Ea & _)|(Na & Ea)].
    + subst p'. apply nth_update_inv in Eb as [(<- & _)|(Nb & Eb)]; [congruence|].
      rewrite EA in Ec. injection Ec as <-.
      destruct p as [[[]|]| | |]; try (
        assert (at_least s (cr_raw_id (aa_credential B)) m)
          by (eapply (proj2 (I1 b _ _ EB Eb)); eauto);
        rewrite <- EI in *;
        assert (m < n)%N by (eapply (step_acknowledged A); eauto; discriminate); lia).
      eapply (I2 i b A B n m); eauto.
    + apply nth_update_inv in Eb as [(<- & Eb & _)|(Nb & Eb)].
      * subst p'. rewrite EB in Ec. injection Ec as <-.
        assert (HL' : at_least s (cr_raw_id (aa_credential B)) n).
        { rewrite <- EI. eapply (proj2 (I1 a _ _ EA Ea)); eauto. }
        assert (HN : p <> Done (Ok tt) -> (n < m)%N).
        { intro NP. exact (step_acknowledged B s p s' _ n T Es NP eq_refl HL' m EnB). }
        destruct p as [[[]|]| | |]; try (assert (n < m)%N by (apply HN; discriminate); lia).
        eapply (I2 a i A B n m); eauto.
      * eapply I2 with (i := a) (j := b); eauto.
  - rewrite <- HL. clear. revert i; induction ps as [|x t IH]; destruct i; cbn; auto.
Qed.

Lemma map_length_nth {A B} (f : A -> B) l i : nth_error (map f l) i = option_map f (nth_error l i).
Proof. revert i; induction l; destruct i; cbn; auto. Qed.

Lemma sched_from cs sched : forall s0 ps,
  sched_inv cs s0 ps -> List.length ps = List.length cs ->
  let st := fold_left (sched_step R) sched (s0, ps) in
  sched_inv cs (fst st) (snd st) /\ List.length (snd st) = List.length cs /\
  (forall id n, at_least s0 id n -> at_least (fst st) id n).
Proof.
  induction sched as [|i t IH]; intros s0 ps HI HL; cbv zeta; cbn [fold_left].
  - auto.
  - destruct (sched_step_inv cs s0 ps i HI HL) as [HI' HL'].
    destruct (sched_step R (s0, ps) i) as [s1 ps1] eqn:E. cbn [fst snd] in *.
    destruct (IH s1 ps1 HI' HL') as (HJ & HL2 & HK). split; [assumption|]. split; [assumption|].
    intros id n HA. apply HK. unfold sched_step in E. cbn [fst snd] in E.
    destruct (nth_error ps i) as [p|] eqn:Ep; [|injection E as <- <-; assumption].
    destruct (prog_step R s0 p) as [s' p'] eqn:Es. injection E as <- _.
    assert (Hc : exists c, nth_error cs i = Some c).
    { destruct (nth_error cs i) eqn:Ec; [eauto|]. apply nth_error_None in Ec.
      assert (nth_error ps i <> None) by congruence. apply nth_error_Some in H. lia. }
    destruct Hc as [c Ec]. eapply step_at_least; eauto. apply (proj1 HI i c p Ec Ep).
Qed.

Lemma sched_start cs s : sched_inv cs s (map (handler W) cs).
Proof.
  split.
  - intros i c p Ec Ep. rewrite map_length_nth, Ec in Ep. injection Ep as <-.
    split; [apply th_start|]. intros A n -> E _. exfalso. cbn [handler] in E.
    unfold handle_credential_assertion in E. destruct (assertion_pre W A) as [os|e]; [discriminate|].
    nowrap E.
  - intros i j A B n m _ EA EB Ei. rewrite map_length_nth, EA in Ei. injection Ei as Ei.
    cbn [handler] in Ei. unfold handle_credential_assertion in Ei.
    destruct (assertion_pre W A) as [os|e]; [discriminate|].
    nowrap Ei.
Qed.

End S.
