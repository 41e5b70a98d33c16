(** * HistorySpec: what is said about interleaved calls of the backend (C17). *)
From Coq Require Import List NArith ZArith Bool.
From Verif Require Import Base PyVal Types World Parsers Crypto Backends Spec History.
Import ListNotations.
Local Open Scope list_scope.

(** The calls [cs], each made once, interleaved as [l] says. *)
Definition Interleaved {S} (W : World) (R : registrar S) (s : S) (cs : list call) (l : list nat)
  : S * list prog := run_sched R s (map (handler W) cs) l.

(** Call [i] was acknowledged. *)
Definition Acknowledged {S} (st : S * list prog) (i : nat) : Prop :=
  nth_error (snd st) i = Some (Done (Ok tt)).
(** Call [i] has looked up credential [id] and is about to have its counter stored. *)
Definition Between {S} (st : S * list prog) (i : nat) (id : bytes) : Prop :=
  exists c ad u rp k, nth_error (snd st) i = Some (CallAssert c ad u rp k) /\ cr_raw_id c = id.
(** The counter stored for [id]. *)
Definition stored {S} (view : S -> bytes -> option cred_data) (s : S) (id : bytes) : option Z :=
  match view s id with Some c => cdt_sign_count c | None => None end.

(** No two logins with credential [id] are between lookup and storage at the same time. *)
Definition Apart {S} (W : World) (R : registrar S) (s : S) (cs : list call) (id : bytes) (l : list nat) : Prop :=
  forall l1 l2 i j, l = l1 ++ l2 ->
  Between (Interleaved W R s cs l1) i id -> Between (Interleaved W R s cs l1) j id -> i = j.
(** Counters are checked in all logins with credential [id]. *)
Definition Checked (cs : list call) (id : bytes) : Prop :=
  forall A, In (CAssert A) cs -> cr_raw_id (aa_credential A) = id -> aa_ignore_clone A = false.
