(** * ConcurrencyFacts: histories and interleavings, as stated in PropsHistory. *)
From Coq Require Import List NArith ZArith Bool Lia String.
From Coq Require Import Strings.Byte.
From Verif Require Import Base PyVal BaseFacts B64 Utf8 Url Types World Parsers Crypto
  Backends Spec BackendFacts History HistoryFacts AssertFacts Examples.
Import ListNotations.
Local Open Scope list_scope.

Lemma c14 {S} (W : World) (R : registrar S) (view : S -> bytes -> option cred_data) (s : S)
  (cs : list call) (id : bytes) (l1 l2 l3 : list (bytes * N)) (n1 n2 : N) :
  CounterStore R view ->
  (forall A, In (CAssert A) cs -> aa_ignore_clone A = false) ->
  accepted (fst (run_history W R s cs)) = l1 ++ (id, n1) :: l2 ++ (id, n2) :: l3 ->
  (n1 < n2)%N.
Proof.
  intros CS HI E. eapply counters_increase; eauto.
Qed.

Lemma c15 {S} (W : World) (R : registrar S) (view : S -> bytes -> option cred_data) (s : S)
  (A B : assertion_args) (cs : list call) :
  CounterStore R view ->
  login_succeeds W R s A ->
  (forall C, In (CAssert C) cs -> aa_ignore_clone C = false) ->
  aa_ignore_clone B = false ->
  cr_raw_id (aa_credential B) = cr_raw_id (aa_credential A) ->
  assertion_counter B = assertion_counter A ->
  let s1 := out_state (run R s (handle_credential_assertion W A)) in
  let s2 := snd (run_history W R s1 cs) in
  ~ login_succeeds W R s2 B.
Proof.
  intros CS. apply no_replay with (view := view). assumption.
Qed.

Lemma c16_refuted :
  exists (W : World) (R : registrar mem_state) view s A,
    CounterStore R view /\ assertion_counter A = Some 0%N /\
    login_succeeds W R s A /\
    out_result (run R (out_state (run R s (handle_credential_assertion W A)))
                    (handle_credential_assertion W A))
    = Raise (Lib SignatureCountError).
Proof.
  exists ex_world, mem_registrar, (fun s id => mem_find id s), (ex_store None), (ex_auth 0).
  split; [exact mem_store|]. vm_compute. auto.
Qed.

Lemma c16_general {S} (W : World) (R : registrar S) (view : S -> bytes -> option cred_data) (s : S)
  (A : assertion_args) (cdt : cred_data) (m : Z) (n : N) :
  CounterStore R view ->
  view s (cr_raw_id (aa_credential A)) = Some cdt -> cdt_sign_count cdt = Some m ->
  assertion_counter A = Some n -> (Z.of_N n <= m)%Z -> aa_ignore_clone A = false ->
  ~ login_succeeds W R s A.
Proof.
  intros CS. apply stale_counter_refused. assumption.
Qed.

Lemma c16_partial (W : World) (A : assertion_args) (cdt : cred_data) ad u rp :
  cdt_sign_count cdt = None ->
  (AssertionSpec W A cdt ad u rp <-> AssertionSpec W (ignoring A) cdt ad u rp).
Proof.
  intro E. unfold AssertionSpec.
  cbn [ignoring aa_credential aa_challenge aa_origin aa_rp aa_user aa_allow aa_token_binding
       aa_require_uv aa_extensions aa_ignore_clone].
  split; intros (cdj & adb & sig & h & H1 & H2 & H3 & H4 & H5 & H6 & H7 & H8);
    exists cdj, adb, sig, h;
    refine (conj H1 (conj H2 (conj H3 (conj H4 (conj H5 (conj H6 (conj H7 _))))))).
  - left; reflexivity.
  - right; left; assumption.
Qed.

Lemma c17_replay :
  exists (W : World) (R : registrar mem_state) view s A sched,
    CounterStore R view /\ aa_ignore_clone A = false /\
    snd (run_sched R s (map (handler W) [CAssert A; CAssert A]) sched)
    = [Done (Ok tt); Done (Ok tt)].
Proof.
  exists ex_world, mem_registrar, (fun s id => mem_find id s), (ex_store (Some 4%Z)),
    (ex_auth 5), [0; 1; 0; 1].
  split; [exact mem_store|]. split; [reflexivity|]. vm_compute. reflexivity.
Qed.

Lemma c17_decrease :
  exists (W : World) (R : registrar mem_state) view s A B sched i id cdt cdt',
    CounterStore R view /\ aa_ignore_clone A = false /\ aa_ignore_clone B = false /\
    let ps := map (handler W) [CAssert A; CAssert B] in
    view (fst (run_sched R s ps sched)) id = Some cdt /\
    cdt_sign_count cdt = Some 7%Z /\
    view (fst (run_sched R s ps (sched ++ [i]))) id = Some cdt' /\
    cdt_sign_count cdt' = Some 5%Z.
Proof.
  exists ex_world, mem_registrar, (fun s id => mem_find id s), (ex_store (Some 4%Z)),
    (ex_auth 5), (ex_auth 7), [0; 1; 1], 0, ex_raw_id, (ex_stored (Some 7%Z)), (ex_stored (Some 5%Z)).
  split; [exact mem_store|]. split; [reflexivity|]. split; [reflexivity|].
  vm_compute. auto.
Qed.

Lemma c17_partial {S} (W : World) (R : registrar S) (view : S -> bytes -> option cred_data) (s : S)
  (cs : list call) (sched1 sched2 : list nat) :
  CounterStore R view -> CompareAndSet R view ->
  let ps := map (handler W) cs in
  let st1 := run_sched R s ps sched1 in
  let st2 := run_sched R s ps (sched1 ++ sched2) in
  (forall id cdt n, view (fst st1) id = Some cdt -> cdt_sign_count cdt = Some n -> (0 <= n)%Z ->
     exists cdt' n', view (fst st2) id = Some cdt' /\ cdt_sign_count cdt' = Some n' /\
                     (n <= n')%Z) /\
  (forall i j A B n, i <> j ->
     nth_error cs i = Some (CAssert A) -> nth_error cs j = Some (CAssert B) ->
     nth_error (snd st2) i = Some (Done (Ok tt)) -> nth_error (snd st2) j = Some (Done (Ok tt)) ->
     cr_raw_id (aa_credential A) = cr_raw_id (aa_credential B) ->
     assertion_counter A = Some n -> assertion_counter B <> Some n).
Proof.
  intros CS CAS. cbv zeta. unfold run_sched. rewrite fold_left_app.
  destruct (sched_from W R view CS CAS cs sched1 s _ (sched_start W view cs s) (map_length _ _))
    as (I1 & L1 & _).
  destruct (fold_left (sched_step R) sched1 (s, map (handler W) cs)) as [s1 ps1]. cbn [fst snd] in *.
  destruct (sched_from W R view CS CAS cs sched2 s1 ps1 I1 L1) as (I2 & L2 & K).
  split.
  - intros id cdt n V E P. destruct (K id (Z.to_N n)) as (cdt' & m & V' & E' & L).
    + exists cdt, n. repeat split; auto. lia.
    + exists cdt', m. repeat split; auto. lia.
  - intros i j A B n N EA EB Ei Ej EI CA CB.
    exact (proj2 I2 i j A B n n N EA EB Ei Ej EI CA CB eq_refl).
Qed.
