(** * DumpsFirstSpec: where json.dumps stops (C77). *)
From Coq Require Import List NArith ZArith Bool String.
From Verif Require Import Base PyVal Json JsonSpec DumpsSpec.
Import ListNotations.
Local Open Scope list_scope.

(** [k] is no name of a member: it is of another type, or an integer with too many digits. *)
Inductive BadName (E : jsonenv) : pyval -> pyexn -> Prop :=
| bad_type k : (forall s, k <> VStr s) -> (forall b, k <> VFloat b) -> (forall b, k <> VBool b) ->
    (forall z, k <> VInt z) -> k <> VNone -> BadName E k ETypeError
| bad_long z : ~ Short E z -> BadName E (VInt z) EValueError.

(** Nothing in [v] is in the way of writing it under the recursion limit [n]. *)
Definition Writable (E : jsonenv) (n : nat) (v : pyval) : Prop := forall e, ~ DumpDefect E n v e.
Definition WritableMember (E : jsonenv) (n : nat) (kv : pyval * pyval) : Prop :=
  (forall e, ~ BadName E (fst kv) e) /\ Writable E n (snd kv).

(** Items and members are written from left to right, of a member first the name; [e] is the
    first obstacle met. *)
Inductive DumpStops (E : jsonenv) : nat -> pyval -> pyexn -> Prop :=
| ds_bytes n b : DumpStops E n (VBytes b) ETypeError
| ds_frozen n m : DumpStops E n (VFrozen m) ETypeError
| ds_other n t i : DumpStops E n (VOther t i) ETypeError
| ds_long n z : ~ Short E z -> DumpStops E n (VInt z) EValueError
| ds_deep_list l : DumpStops E 0 (VList l) ERecursionError
| ds_deep_tuple l : DumpStops E 0 (VTuple l) ERecursionError
| ds_deep_dict d : DumpStops E 0 (VDict d) ERecursionError
| ds_list n l1 x l2 e : Forall (Writable E n) l1 -> DumpStops E n x e ->
    DumpStops E (S n) (VList (l1 ++ x :: l2)) e
| ds_tuple n l1 x l2 e : Forall (Writable E n) l1 -> DumpStops E n x e ->
    DumpStops E (S n) (VTuple (l1 ++ x :: l2)) e
| ds_name n d1 k x d2 e : Forall (WritableMember E n) d1 -> BadName E k e ->
    DumpStops E (S n) (VDict (d1 ++ (k, x) :: d2)) e
| ds_value n d1 k x d2 e : Forall (WritableMember E n) d1 -> (forall e', ~ BadName E k e') ->
    DumpStops E n x e -> DumpStops E (S n) (VDict (d1 ++ (k, x) :: d2)) e.
