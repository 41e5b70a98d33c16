(** * Properties C14-C17: histories of authentications. *)
From Coq Require Import List NArith ZArith Bool String.
From Coq Require Import Strings.Byte.
From Verif Require Import Base PyVal B64 Utf8 Url Types World Parsers Crypto Backends Spec
  History HistoryFacts HistorySpec ConcurrencyFacts ConcurrencyCount Examples.
Import ListNotations.
Local Open Scope list_scope.

(** Registrars meeting the hypotheses exist: [mem_registrar] is a [CounterStore] and
    [cas_registrar] also compares and sets. *)
Example hyp_store : CounterStore mem_registrar (fun s id => mem_find id s).
Proof. exact mem_store. Qed.
Example hyp_cas_store : CounterStore cas_registrar (fun s id => mem_find id s) /\
  CompareAndSet cas_registrar (fun s id => mem_find id s).
Proof. exact (conj cas_store cas_cas). Qed.

(** C14: of two accepted assertions of one credential the later has the larger counter. *)
Theorem C14_counters_increase :
  forall {S} (W : World) (R : registrar S) (view : S -> bytes -> option cred_data) (s : S)
  (cs : list call) (id : bytes) (l1 l2 l3 : list (bytes * N)) (n1 n2 : N),
  CounterStore R view ->
  (forall A, In (CAssert A) cs -> aa_ignore_clone A = false) ->
  accepted (fst (run_history W R s cs)) = l1 ++ (id, n1) :: l2 ++ (id, n2) :: l3 ->
  (n1 < n2)%N.
Proof. exact (@c14). Qed.
Print Assumptions C14_counters_increase.

(** Registration, three logins of which the second is stale, and a failed registration. *)
Example history_example :
  accepted (fst (run_history ex_world mem_registrar []
    [CAttest ex_reg_none; CAssert (ex_auth 3); CAssert (ex_auth 2); CAttest ex_reg_none;
     CAssert (ex_auth_tb 9)]))
  = [] ++ (ex_raw_id, 3%N) :: [] ++ (ex_raw_id, 9%N) :: [].
Proof. vm_compute. reflexivity. Qed.

(** C15: after [A] was accepted, any later call for that credential with the same counter
    (in particular with the same authenticator data) fails, whatever happened between. *)
Theorem C15_no_replay :
  forall {S} (W : World) (R : registrar S) (view : S -> bytes -> option cred_data) (s : S)
  (A B : assertion_args) (cs : list call),
  CounterStore R view ->
  login_succeeds W R s A ->
  (forall C, In (CAssert C) cs -> aa_ignore_clone C = false) ->
  aa_ignore_clone B = false ->
  cr_raw_id (aa_credential B) = cr_raw_id (aa_credential A) ->
  assertion_counter B = assertion_counter A ->
  let s1 := out_state (run R s (handle_credential_assertion W A)) in
  let s2 := snd (run_history W R s1 cs) in
  ~ login_succeeds W R s2 B.
Proof. exact (@c15). Qed.
Print Assumptions C15_no_replay.

Example hyp_replay :
  login_succeeds ex_world mem_registrar (ex_store (Some 4%Z)) (ex_auth 5) /\
  assertion_counter (ex_auth 5) = Some 5%N /\
  aa_ignore_clone (ex_auth 5) = false.
Proof. vm_compute. auto. Qed.

(** C16 fails: the second login of an authenticator that always reports 0 is refused. *)
Theorem C16_zero_counter_refuted :
  exists (W : World) (R : registrar mem_state) view s A,
    CounterStore R view /\ assertion_counter A = Some 0%N /\
    login_succeeds W R s A /\
    out_result (run R (out_state (run R s (handle_credential_assertion W A)))
                    (handle_credential_assertion W A))
    = Raise (Lib SignatureCountError).
Proof. exact (@c16_refuted). Qed.
Print Assumptions C16_zero_counter_refuted.

(** ... and so it is with every counter-storing registrar and every stored counter: 0
    is not treated specially. *)
Theorem C16_stored_zero_refused :
  forall {S} (W : World) (R : registrar S) (view : S -> bytes -> option cred_data) (s : S)
  (A : assertion_args) (cdt : cred_data) (m : Z) (n : N),
  CounterStore R view ->
  view s (cr_raw_id (aa_credential A)) = Some cdt -> cdt_sign_count cdt = Some m ->
  assertion_counter A = Some n -> (Z.of_N n <= m)%Z -> aa_ignore_clone A = false ->
  ~ login_succeeds W R s A.
Proof. exact (@c16_general). Qed.
Print Assumptions C16_stored_zero_refused.

(** What holds: if the registrar reports no counter (or clone errors are ignored) the
    counter plays no part, so zero-counter authenticators stay usable.  Missing for C16:
    the same with a registrar that stores counters. *)
Theorem C16_no_stored_counter_partial :
  forall (W : World) (A : assertion_args) (cdt : cred_data) ad u rp,
  cdt_sign_count cdt = None ->
  (AssertionSpec W A cdt ad u rp <-> AssertionSpec W (ignoring A) cdt ad u rp).
Proof. exact (@c16_partial). Qed.
Print Assumptions C16_no_stored_counter_partial.

(** With a registrar that keeps no counter the zero counter works twice. *)
Example zero_counter_usable :
  let R := {| r_get := r_get mem_registrar; r_assert s c ad u rp := (s, Ok None);
              r_attest := r_attest mem_registrar |} in
  map snd (fst (run_history ex_world R (ex_store None) [CAssert (ex_auth 0); CAssert (ex_auth 0)]))
  = [Ok tt; Ok tt].
Proof. vm_compute. reflexivity. Qed.

(** C17 fails: lookup, lookup, store, store.  The same response is accepted twice... *)
Theorem C17_replay_refuted :
  exists (W : World) (R : registrar mem_state) view s A sched,
    CounterStore R view /\ aa_ignore_clone A = false /\
    snd (run_sched R s (map (handler W) [CAssert A; CAssert A]) sched)
    = [Done (Ok tt); Done (Ok tt)].
Proof. exact (@c17_replay). Qed.
Print Assumptions C17_replay_refuted.

(** ... and the stored counter goes from 7 back to 5. *)
Theorem C17_decrease_refuted :
  exists (W : World) (R : registrar mem_state) view s A B sched i id cdt cdt',
    CounterStore R view /\ aa_ignore_clone A = false /\ aa_ignore_clone B = false /\
    let ps := map (handler W) [CAssert A; CAssert B] in
    view (fst (run_sched R s ps sched)) id = Some cdt /\
    cdt_sign_count cdt = Some 7%Z /\
    view (fst (run_sched R s ps (sched ++ [i]))) id = Some cdt' /\
    cdt_sign_count cdt' = Some 5%Z.
Proof. exact (@c17_decrease). Qed.
Print Assumptions C17_decrease_refuted.

(** What holds: with a registrar whose [register_credential_assertion] itself compares
    and sets, for any number of concurrent calls and any interleaving, stored counters
    never decrease and no two calls are acknowledged with the same credential and
    counter.  Missing for C17: registrars that only store what they are given, such as the
    one of the documentation and the example app. *)
Theorem C17_compare_and_set_partial :
  forall {S} (W : World) (R : registrar S) (view : S -> bytes -> option cred_data) (s : S)
  (cs : list call) (sched1 sched2 : list nat),
  CounterStore R view -> CompareAndSet R view ->
  let ps := map (handler W) cs in
  let st1 := run_sched R s ps sched1 in
  let st2 := run_sched R s ps (sched1 ++ sched2) in
  (forall id cdt n, view (fst st1) id = Some cdt -> cdt_sign_count cdt = Some n -> (0 <= n)%Z ->
     exists cdt' n', view (fst st2) id = Some cdt' /\ cdt_sign_count cdt' = Some n' /\
                     (n <= n')%Z) /\
  (forall i j A B n, i <> j ->
     nth_error cs i = Some (CAssert A) -> nth_error cs j = Some (CAssert B) ->
     nth_error (snd st2) i = Some (Done (Ok tt)) -> nth_error (snd st2) j = Some (Done (Ok tt)) ->
     cr_raw_id (aa_credential A) = cr_raw_id (aa_credential B) ->
     assertion_counter A = Some n -> assertion_counter B <> Some n).
Proof. exact (@c17_partial). Qed.
Print Assumptions C17_compare_and_set_partial.

(** With [cas_registrar] the schedule above acknowledges only one of the two calls. *)
Example cas_schedule :
  snd (run_sched cas_registrar (ex_store (Some 4%Z))
         (map (handler ex_world) [CAssert (ex_auth 5); CAssert (ex_auth 5)]) [0; 1; 0; 1])
  = [Done (Ok tt); Done (Raise (Lib RegistrationError))].
Proof. vm_compute. reflexivity. Qed.

(** C17: with any registrar that stores counters and in every interleaving, a login that is
    acknowledged looked the credential up and then stored its counter, and it was checked
    against the counter stored when it looked. *)
Theorem C17_course :
  forall {S} (W : World) (R : registrar S) (view : S -> bytes -> option cred_data),
  CounterStore R view ->
  forall (s : S) (cs : list call) (l : list nat) (i : nat) (A : assertion_args),
  nth_error cs i = Some (CAssert A) -> Acknowledged (Interleaved W R s cs l) i ->
  exists l1 l2 l3 cdt n, l = l1 ++ i :: l2 ++ i :: l3 /\
    assertion_counter A = Some n /\
    view (fst (Interleaved W R s cs l1)) (cr_raw_id (aa_credential A)) = Some cdt /\
    CounterSpec (aa_ignore_clone A) (cdt_sign_count cdt) n /\
    (forall p q, l2 = p ++ q -> Between (Interleaved W R s cs (l1 ++ i :: p)) i (cr_raw_id (aa_credential A))) /\
    Acknowledged (Interleaved W R s cs (l1 ++ i :: l2 ++ [i])) i /\
    stored view (fst (Interleaved W R s cs (l1 ++ i :: l2 ++ [i]))) (cr_raw_id (aa_credential A)) = Some (Z.of_N n).
Proof. exact (@c17_course). Qed.
Print Assumptions C17_course.

(** C17: nothing else changes the counter of a credential that is stored. *)
Theorem C17_changed :
  forall {S} (W : World) (R : registrar S) (view : S -> bytes -> option cred_data),
  CounterStore R view ->
  forall (s : S) (cs : list call) (l : list nat) (i : nat) (id : bytes),
  view (fst (Interleaved W R s cs l)) id <> None ->
  stored view (fst (Interleaved W R s cs (l ++ [i]))) id <> stored view (fst (Interleaved W R s cs l)) id ->
  exists A n, nth_error cs i = Some (CAssert A) /\ cr_raw_id (aa_credential A) = id /\
    assertion_counter A = Some n /\ Between (Interleaved W R s cs l) i id /\
    Acknowledged (Interleaved W R s cs (l ++ [i])) i /\
    stored view (fst (Interleaved W R s cs (l ++ [i]))) id = Some (Z.of_N n).
Proof. exact (@c17_change). Qed.
Print Assumptions C17_changed.

(** C17: a login that does not exceed the counter it replaces was overtaken: after it had
    looked the credential up, another login with the credential was acknowledged and stored
    that counter. *)
Theorem C17_overtaken :
  forall {S} (W : World) (R : registrar S) (view : S -> bytes -> option cred_data),
  CounterStore R view ->
  forall (s : S) (cs : list call) (l : list nat) (i : nat) (A : assertion_args) (n : N) (m : Z),
  nth_error cs i = Some (CAssert A) -> aa_ignore_clone A = false -> assertion_counter A = Some n ->
  ~ Acknowledged (Interleaved W R s cs l) i -> Acknowledged (Interleaved W R s cs (l ++ [i])) i ->
  stored view (fst (Interleaved W R s cs l)) (cr_raw_id (aa_credential A)) = Some m -> (Z.of_N n <= m)%Z ->
  exists l1 l2 j B n', l = l1 ++ j :: l2 /\ j <> i /\
    Between (Interleaved W R s cs l1) i (cr_raw_id (aa_credential A)) /\
    Between (Interleaved W R s cs l1) j (cr_raw_id (aa_credential A)) /\
    Acknowledged (Interleaved W R s cs (l1 ++ [j])) j /\ nth_error cs j = Some (CAssert B) /\
    cr_raw_id (aa_credential B) = cr_raw_id (aa_credential A) /\ assertion_counter B = Some n' /\
    m = Z.of_N n'.
Proof. exact (@c17_overtaken). Qed.
Print Assumptions C17_overtaken.

(** C17: if no two logins with a credential are between lookup and storage at the same time,
    its counter does not decrease and no two of them with one counter are acknowledged.
    Missing: interleavings in which they are. *)
Theorem C17_apart_partial :
  forall {S} (W : World) (R : registrar S) (view : S -> bytes -> option cred_data),
  CounterStore R view ->
  forall (s : S) (cs : list call) (id : bytes) (l1 l2 : list nat) (m : Z),
  Apart W R s cs id (l1 ++ l2) -> Checked cs id ->
  stored view (fst (Interleaved W R s cs l1)) id = Some m ->
  exists m', stored view (fst (Interleaved W R s cs (l1 ++ l2))) id = Some m' /\ (m <= m')%Z.
Proof. exact (@c17_apart). Qed.
Print Assumptions C17_apart_partial.

Theorem C17_apart_once_partial :
  forall {S} (W : World) (R : registrar S) (view : S -> bytes -> option cred_data),
  CounterStore R view ->
  forall (s : S) (cs : list call) (id : bytes) (l : list nat) (i j : nat) (A B : assertion_args) (n : N),
  Apart W R s cs id l -> Checked cs id ->
  nth_error cs i = Some (CAssert A) -> nth_error cs j = Some (CAssert B) ->
  cr_raw_id (aa_credential A) = id -> cr_raw_id (aa_credential B) = id ->
  assertion_counter A = Some n -> assertion_counter B = Some n ->
  Acknowledged (Interleaved W R s cs l) i -> Acknowledged (Interleaved W R s cs l) j -> i = j.
Proof. exact (@c17_apart_once). Qed.
Print Assumptions C17_apart_once_partial.

(** The login with counter 5 is overtaken by that with counter 7. *)
Example hyp_overtaken :
  let run := Interleaved ex_world mem_registrar (ex_store (Some 4%Z)) [CAssert (ex_auth 5); CAssert (ex_auth 7)] in
  let view := fun s id => mem_find id s in
  aa_ignore_clone (ex_auth 5) = false /\ assertion_counter (ex_auth 5) = Some 5%N /\
  ~ Acknowledged (run [0; 1; 1]) 0 /\ Acknowledged (run [0; 1; 1; 0]) 0 /\
  stored view (fst (run [0; 1; 1])) ex_raw_id = Some 7%Z /\
  stored view (fst (run [0; 1; 1; 0])) ex_raw_id = Some 5%Z.
Proof.
  cbv zeta. split; [reflexivity|]. split; [vm_compute; reflexivity|].
  split; [|split; [vm_compute; reflexivity|split; vm_compute; reflexivity]].
  apply (between_not _ _ ex_raw_id). do 5 eexists. split; vm_compute; reflexivity.
Qed.
(** One login after the other. *)
Example hyp_apart :
  let cs := [CAssert (ex_auth 5); CAssert (ex_auth 7)] in
  let run := Interleaved ex_world mem_registrar (ex_store (Some 4%Z)) cs in
  Apart ex_world mem_registrar (ex_store (Some 4%Z)) cs ex_raw_id [0; 0; 1; 1] /\ Checked cs ex_raw_id /\
  Acknowledged (run [0; 0; 1; 1]) 0 /\ Acknowledged (run [0; 0; 1; 1]) 1 /\
  stored (fun s id => mem_find id s) (fst (run [0; 0; 1; 1])) ex_raw_id = Some 7%Z.
Proof.
  cbv zeta. split; [|split; [|split; [vm_compute; reflexivity|split; vm_compute; reflexivity]]].
  - apply apart_by. intros l1 l2 Q.
    assert (K : In l1 [[]; [0]; [0; 0]; [0; 0; 1]; [0; 0; 1; 1]]).
    { destruct l1 as [|a l1]; [now left|]. injection Q as <- Q. destruct l1 as [|a l1]; [right; now left|].
      injection Q as <- Q. destruct l1 as [|a l1]; [do 2 right; now left|].
      injection Q as <- Q. destruct l1 as [|a l1]; [do 3 right; now left|].
      injection Q as <- Q. destruct l1 as [|a l1]; [do 4 right; now left|discriminate]. }
    repeat (destruct K as [<-|K]; [vm_compute; repeat constructor|]). destruct K.
  - intros A [Q|[Q|[]]] _; injection Q as <-; reflexivity.
Qed.
