(** * StepSpec: sequences of checks, for each when it passes and what it raises otherwise. *)
From Coq Require Import List.
From Verif Require Import Base.
Import ListNotations.

Record step := Step { passes : Prop; fails : exn -> Prop }.

(** A check that raises [x] unless [P]. *)
Definition otherwise (P : Prop) (x : exn) : step := Step P (fun e => ~ P /\ e = x).

(** The first check that does not pass raises [e]. *)
Inductive FirstFailure : list step -> exn -> Prop :=
| ff_here st l e : fails st e -> FirstFailure (st :: l) e
| ff_later st l e : passes st -> FirstFailure l e -> FirstFailure (st :: l) e.
