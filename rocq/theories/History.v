(** * History: sequences and interleavings of ceremonies over one registrar.

    backends.py holds no state of its own: CredentialsBackend.__init__
    (/repo/webauthn_rp/backends.py:54-59) only stores the registrar.  A history is
    therefore a list of calls run against the same registrar state. *)
From Coq Require Import List NArith ZArith Bool String.
From Verif Require Import Base PyVal Types World Parsers Crypto Backends Spec.
Import ListNotations.
Local Open Scope list_scope.

(** One call of the backend. *)
Inductive call := CAssert (A : assertion_args) | CAttest (A : attestation_args).

(** backends.py:75-457. *)
Definition handler (W : World) (c : call) : prog :=
  match c with
  | CAssert A => handle_credential_assertion W A
  | CAttest A => handle_credential_attestation W A
  end.

(** Sequential histories: the outcome of each call and the final state. *)
Fixpoint run_history {S} (W : World) (R : registrar S) (s : S) (cs : list call)
  : list (call * res unit) * S :=
  match cs with
  | [] => ([], s)
  | c :: t =>
      let o := run R s (handler W c) in
      let '(l, s') := run_history W R (out_state o) t in
      ((c, out_result o) :: l, s')
  end.

(** Credential id and counter of the assertions that were accepted, in order. *)
Definition assertion_counter (A : assertion_args) : option N :=
  match cr_response (aa_credential A) with
  | AssertionResponse _ adb _ _ => Some (counter_of adb)
  | AttestationResponse _ _ => None
  end.
Fixpoint accepted (l : list (call * res unit)) : list (bytes * N) :=
  match l with
  | [] => []
  | (CAssert A, Ok tt) :: t =>
      match assertion_counter A with
      | Some n => (cr_raw_id (aa_credential A), n) :: accepted t
      | None => accepted t
      end
  | _ :: t => accepted t
  end.

(** ** Registrars that store counters *)

(** [view s id] is what the registrar knows about credential [id] in state [s].
    - lookups answer the view and change nothing;
    - an acknowledged assertion stores its counter, and touches no other credential; a
      refused one changes nothing;
    - registration never touches a credential that exists already. *)
Record CounterStore {S} (R : registrar S) (view : S -> bytes -> option cred_data) : Prop := {
  cs_get : forall s id s' r, r_get R s id = (s', r) ->
    (forall i, view s' i = view s i) /\ (forall o, r = Ok o -> o = view s id);
  cs_assert_ok : forall s c ad u rp s', r_assert R s c ad u rp = (s', Ok None) ->
    (forall i, i <> cr_raw_id c -> view s' i = view s i) /\
    exists cdt, view s' (cr_raw_id c) = Some cdt /\
                cdt_sign_count cdt = Some (Z.of_N (ad_sign_count ad));
  cs_assert_fail : forall s c ad u rp s' a, r_assert R s c ad u rp = (s', a) -> a <> Ok None ->
    forall i, view s' i = view s i;
  cs_attest : forall s c att ty u rp path s' a, r_attest R s c att ty u rp path = (s', a) ->
    forall i, view s i <> None -> view s' i = view s i;
}.

(** A store that, in addition, compares and sets: an assertion is acknowledged only if
    its counter is larger than the stored one. *)
Definition CompareAndSet {S} (R : registrar S) (view : S -> bytes -> option cred_data) : Prop :=
  forall s c ad u rp s', r_assert R s c ad u rp = (s', Ok None) ->
  forall cdt n, view s (cr_raw_id c) = Some cdt -> cdt_sign_count cdt = Some n ->
  (n < Z.of_N (ad_sign_count ad))%Z.

(** ** Concurrent runs: handlers interleave at registrar calls *)

(** One registrar call of a handler. *)
Definition prog_step {S} (R : registrar S) (s : S) (p : prog) : S * prog :=
  match p with
  | Done r => (s, Done r)
  | CallGet cid k => let '(s', r) := r_get R s cid in (s', k r)
  | CallAssert c ad u rp k => let '(s', r) := r_assert R s c ad u rp in (s', k r)
  | CallAttest c att ty u rp path k =>
      let '(s', r) := r_attest R s c att ty u rp path in (s', k r)
  end.

(** [l[i] = a]. *)
Fixpoint update {A} (l : list A) (i : nat) (a : A) : list A :=
  match l, i with
  | [], _ => []
  | _ :: t, O => a :: t
  | x :: t, Datatypes.S j => x :: update t j a
  end.

(** Thread [i] makes a step. *)
Definition sched_step {S} (R : registrar S) (st : S * list prog) (i : nat) : S * list prog :=
  match nth_error (snd st) i with
  | Some p => let '(s', p') := prog_step R (fst st) p in (s', update (snd st) i p')
  | None => st
  end.

(** A schedule is a list of thread numbers. *)
Definition run_sched {S} (R : registrar S) (s : S) (ps : list prog) (sched : list nat)
  : S * list prog := fold_left (sched_step R) sched (s, ps).

(** ** A concrete store, used in examples and refutations *)

(** Rows of credential ids and what is stored with them (registrars.py:16-33). *)
Definition mem_state := list (bytes * cred_data).
Fixpoint mem_find (id : bytes) (s : mem_state) : option cred_data :=
  match s with
  | [] => None
  | (i, c) :: t => if bytes_eqb i id then Some c else mem_find id t
  end.
Fixpoint mem_set (id : bytes) (n : N) (s : mem_state) : mem_state :=
  match s with
  | [] => []
  | (i, c) :: t =>
      if bytes_eqb i id
      then (i, {| cdt_key := cdt_key c; cdt_sign_count := Some (Z.of_N n);
                  cdt_user := cdt_user c; cdt_rp := cdt_rp c |}) :: t
      else (i, c) :: mem_set id n t
  end.
Definition mem_registrar : registrar mem_state := {|
  r_get s id := (s, Ok (mem_find id s));
  r_assert s c ad u rp :=
    match mem_find (cr_raw_id c) s with
    | Some _ => (mem_set (cr_raw_id c) (ad_sign_count ad) s, Ok None)
    | None => (s, Ok (Some VNone))
    end;
  r_attest s c att ty u rp path :=
    match mem_find (cr_raw_id c) s with
    | Some _ => (s, Ok (Some VNone))
    | None =>
        match ao_auth_data att with
        | Some ad =>
            match ad_attested ad with
            | Some {| at_key := Some k |} =>
                (s ++ [(cr_raw_id c,
                        {| cdt_key := k; cdt_sign_count := Some (Z.of_N (ad_sign_count ad));
                           cdt_user := u; cdt_rp := Some rp |})], Ok None)
            | _ => (s, Ok (Some VNone))
            end
        | None => (s, Ok (Some VNone))
        end
    end;
|}.

(** The same store with compare and set. *)
Definition cas_registrar : registrar mem_state := {|
  r_get := r_get mem_registrar;
  r_assert s c ad u rp :=
    match mem_find (cr_raw_id c) s with
    | Some cdt =>
        if match cdt_sign_count cdt with
           | Some n => Z.ltb n (Z.of_N (ad_sign_count ad)) | None => true end
        then (mem_set (cr_raw_id c) (ad_sign_count ad) s, Ok None)
        else (s, Ok (Some VNone))
    | None => (s, Ok (Some VNone))
    end;
  r_attest := r_attest mem_registrar;
|}.
