(** * JsonGraphSpec: where a conversion stops, and what references stand for (C47). *)
From Coq Require Import List NArith ZArith Bool String.
From Verif Require Import Base PyVal Types Jsonify OptionSpec JsonGraph.
Import ListNotations.
Local Open Scope list_scope.

(** Nothing in [t] is in the way of converting it with [d] nested calls. *)
Definition Convertible (d : nat) (t : pobj) : Prop :=
  forall n u, Path n t u -> (n < d)%nat /\ (forall e, ~ Defect u e).

(** Parts are converted from left to right, and before them the keys of a dictionary are
    looked at; [e] is the first obstacle met. *)
Inductive Stops : nat -> pobj -> exn -> Prop :=
| stop_depth t : Stops 0 t (Py ERecursionError)
| stop_here d t e : Defect t e -> Stops (S d) t (Lib e)
| stop_list d l1 x l2 e : Forall (Convertible d) l1 -> Stops d x e ->
    Stops (S d) (OList (l1 ++ x :: l2)) e
| stop_tuple d l1 x l2 e : Forall (Convertible d) l1 -> Stops d x e ->
    Stops (S d) (OTuple (l1 ++ x :: l2)) e
| stop_enum d x e : Stops d x e -> Stops (S d) (OEnum x) e
| stop_dict d m1 k x m2 e : (forall y, ~ In (KOther, y) (m1 ++ (k, x) :: m2)) ->
    (forall k' y, In (k', y) m1 -> y <> ONone -> Convertible d y) -> x <> ONone ->
    Stops d x e -> Stops (S d) (ODict (m1 ++ (k, x) :: m2)) e
| stop_obj d m1 k x m2 e : (forall y, ~ In (KOther, y) (m1 ++ (k, x) :: m2)) ->
    (forall k' y, In (k', y) m1 -> y <> ONone -> Convertible d y) -> x <> ONone ->
    Stops d x e -> Stops (S d) (OObj (m1 ++ (k, x) :: m2)) e.

(** The object at [a], followed through all references, is the finite tree [t]. *)
Inductive Unfolds (g : graph) : nat -> pobj -> Prop :=
| un_none a : g a = GNone -> Unfolds g a ONone
| un_bool a b : g a = GBool b -> Unfolds g a (OBool b)
| un_int a z : g a = GInt z -> Unfolds g a (OInt z)
| un_float a x : g a = GFloat x -> Unfolds g a (OFloat x)
| un_str a s : g a = GStr s -> Unfolds g a (OStr s)
| un_bytes a b : g a = GBytes b -> Unfolds g a (OBytes b)
| un_list a l ts : g a = GList l -> Forall2 (Unfolds g) l ts -> Unfolds g a (OList ts)
| un_tuple a l ts : g a = GTuple l -> Forall2 (Unfolds g) l ts -> Unfolds g a (OTuple ts)
| un_dict a m ts : g a = GDict m ->
    Forall2 (fun p q => fst q = fst p /\ Unfolds g (snd p) (snd q)) m ts -> Unfolds g a (ODict ts)
| un_enum a v t : g a = GEnum v -> Unfolds g v t -> Unfolds g a (OEnum t)
| un_obj a m ts : g a = GObj m ->
    Forall2 (fun p q => fst q = fst p /\ Unfolds g (snd p) (snd q)) m ts -> Unfolds g a (OObj ts)
| un_opaque a : g a = GOpaque -> Unfolds g a OOpaque.

(** The object at [b] is a part of the object at [a]. *)
Definition Part (g : graph) (a b : nat) : Prop :=
  match g a with
  | GList l | GTuple l => In b l
  | GDict m | GObj m => In b (map snd m)
  | GEnum v => v = b
  | _ => False
  end.
(** [b] is reached from [a] by [n] steps to parts. *)
Inductive Within (g : graph) : nat -> nat -> nat -> Prop :=
| within_here a : Within g 0 a a
| within_part n a b c : Part g a b -> Within g n b c -> Within g (S n) a c.
(** Some object that [a] leads to contains itself, directly or not. *)
Definition Cyclic (g : graph) (a : nat) : Prop :=
  exists n b m, Within g n a b /\ Within g (S m) b b.
(** The object at [a] is in itself an obstacle: of an unknown type, or with a key that is no
    string. *)
Definition Obstacle (g : graph) (a : nat) (e : libexn) : Prop :=
  match g a with
  | GOpaque => e = UnimplementedError
  | GDict m | GObj m => In KOther (map fst m) /\ e = JSONConversionError
  | _ => False
  end.
