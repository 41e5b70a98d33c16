(** * StepFacts: computations that perform a sequence of checks. *)
From Coq Require Import List.
From Verif Require Import Base BaseFacts StepSpec.
Import ListNotations.
Local Open Scope list_scope.

(** ** Sequences *)

Definition Runs {A} (r : res A) (l : list step) : Prop :=
  ((exists a, r = Ok a) <-> Forall passes l) /\ (forall e, r = Raise e <-> FirstFailure l e).

Lemma ff_app l1 l2 e :
  FirstFailure (l1 ++ l2) e <-> FirstFailure l1 e \/ (Forall passes l1 /\ FirstFailure l2 e).
Proof.
  induction l1 as [|st l1 IH]; cbn [app].
  - split; [auto|]. intros [H|[_ H]]; [inversion H|assumption].
  - split.
    + intro H. inversion H as [? ? ? F|? ? ? P F]; subst.
      * left. now apply ff_here.
      * apply IH in F as [F|[Q F]]; [left; now apply ff_later|right; auto].
    + intros [H|[P F]].
      * inversion H as [? ? ? F|? ? ? P F]; subst; [now apply ff_here|].
        apply ff_later; [assumption|]. apply IH. auto.
      * inversion_clear P. apply ff_later; [assumption|]. apply IH. auto.
Qed.

Lemma runs_bind {A B} (r : res A) (k : A -> res B) l1 l2 :
  Runs r l1 -> (forall a, r = Ok a -> Runs (k a) l2) -> Runs (bind r k) (l1 ++ l2).
Proof.
  intros [O F] K. split.
  - rewrite Forall_app, <- O. split.
    + intros (b & H). apply bind_ok in H as (a & H1 & H2). split; [eauto|].
      apply (K a H1). eauto.
    + intros [(a & H1) H2]. rewrite H1. cbn [bind]. now apply (K a H1).
  - intro e. rewrite ff_app, bind_raise, F, <- O. split.
    + intros [H|(a & H1 & H2)]; [auto|]. right. split; [eauto|]. now apply (K a H1).
    + intros [H|((a & H1) & H2)]; [auto|]. right. exists a. split; [assumption|]. now apply (K a H1).
Qed.

Lemma runs_nil {A} (a : A) : Runs (Ok a) [].
Proof.
  split.
  - split; [constructor|eauto].
  - intro e. split; [discriminate|intro H; inversion H].
Qed.

Lemma runs_one {A} (r : res A) st :
  ((exists a, r = Ok a) <-> passes st) -> (forall e, r = Raise e <-> fails st e) -> Runs r [st].
Proof.
  intros O F. split.
  - rewrite O. split; [intro; repeat constructor; assumption|]. intro H. now inversion_clear H.
  - intro e. rewrite F. split; [apply ff_here|]. intro H. inversion H as [|? ? ? _ X]; subst; [assumption|inversion X].
Qed.

(** A result that is an exception [x] exactly when [P] fails. *)
Lemma runs_otherwise {A} (r : res A) P x :
  ((exists a, r = Ok a) <-> P) -> (forall e, r = Raise e -> e = x) -> Runs r [otherwise P x].
Proof.
  intros O F. apply runs_one; cbn [passes fails otherwise]; [assumption|]. intro e. split.
  - intro H. split; [rewrite <- O; intros (a & E); congruence|auto].
  - intros [N ->]. destruct r as [a|e]; [elim N; apply O; eauto|]. f_equal. auto.
Qed.
Lemma runs_check b P x : (b = true <-> P) -> Runs (check b x) [otherwise P x].
Proof.
  intro H. apply runs_otherwise.
  - rewrite <- H. destruct b; cbn; split; [reflexivity|eauto|intros (? & ?); discriminate|discriminate].
  - intros e E. now apply check_raise in E.
Qed.

Lemma runs_iff {A} (r : res A) l l' : Runs r l -> l = l' -> Runs r l'.
Proof. now intros H <-. Qed.

(** After the last check. *)
Lemma runs_last {A B} (r : res A) (k : A -> res B) l :
  Runs r l -> (forall a, exists b, k a = Ok b) -> Runs (bind r k) l.
Proof.
  intros H K. rewrite <- (app_nil_r l). apply runs_bind; [assumption|]. intros a _.
  destruct (K a) as (b & ->). apply runs_nil.
Qed.
