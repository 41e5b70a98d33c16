(** * BaseFacts: lemmas about Base, PyVal. *)
From Coq Require Import List NArith ZArith Bool Lia ZifyBool ZifyNat ZifyN.
From Coq Require Import Strings.Byte.
From Verif Require Import Base PyVal.
Import ListNotations.
Ltac Zify.zify_post_hook ::= Z.div_mod_to_equations.

Lemma list_eqb_spec {A} (eqb : A -> A -> bool) :
  (forall x y, eqb x y = true <-> x = y) ->
  forall l1 l2, list_eqb eqb l1 l2 = true <-> l1 = l2.
Proof.
  intros H; induction l1 as [|x t IH]; destruct l2 as [|y t2]; cbn; split; intro E;
    try reflexivity; try discriminate.
  - apply andb_true_iff in E as [E1 E2]. apply H in E1. apply IH in E2. congruence.
  - injection E as -> ->. apply andb_true_iff; split; [now apply H|now apply IH].
Qed.

Lemma byte_eqb_spec a b : byte_eqb a b = true <-> a = b.
Proof.
  unfold byte_eqb. split; intro H.
  - now apply Byte.byte_dec_bl.
  - now apply Byte.byte_dec_lb.
Qed.

Lemma bytes_eqb_spec a b : bytes_eqb a b = true <-> a = b.
Proof. apply list_eqb_spec, byte_eqb_spec. Qed.

Lemma str_eqb_spec a b : str_eqb a b = true <-> a = b.
Proof. apply list_eqb_spec, N.eqb_eq. Qed.

Lemma bytes_eqb_refl a : bytes_eqb a a = true.
Proof. now apply bytes_eqb_spec. Qed.
Lemma str_eqb_refl a : str_eqb a a = true.
Proof. now apply str_eqb_spec. Qed.

Lemma bytes_eqb_false a b : bytes_eqb a b = false <-> a <> b.
Proof. rewrite <- bytes_eqb_spec. destruct (bytes_eqb a b); split; congruence. Qed.
Lemma str_eqb_false a b : str_eqb a b = false <-> a <> b.
Proof. rewrite <- str_eqb_spec. destruct (str_eqb a b); split; congruence. Qed.

Lemma bytes_eq_dec (a b : bytes) : {a = b} + {a <> b}.
Proof. destruct (bytes_eqb a b) eqn:E; [left; now apply bytes_eqb_spec|right; now apply bytes_eqb_false]. Qed.
Lemma str_eq_dec (a b : pystr) : {a = b} + {a <> b}.
Proof. destruct (str_eqb a b) eqn:E; [left; now apply str_eqb_spec|right; now apply str_eqb_false]. Qed.

Lemma N_of_byte_bound b : (N_of_byte b < 256)%N.
Proof. unfold N_of_byte. pose proof (Byte.to_N_bounded b). lia. Qed.

Lemma byte_of_N_of_byte b : byte_of_N (N_of_byte b) = b.
Proof.
  unfold byte_of_N, N_of_byte.
  rewrite N.mod_small by (pose proof (Byte.to_N_bounded b); lia).
  now rewrite Byte.of_to_N.
Qed.

Lemma N_of_byte_of_N n : N_of_byte (byte_of_N n) = (n mod 256)%N.
Proof.
  unfold byte_of_N, N_of_byte.
  assert (n mod 256 < 256)%N by (apply N.mod_lt; lia).
  destruct (Byte.of_N (n mod 256)) as [b|] eqn:E.
  - now apply Byte.to_of_N.
  - apply Byte.of_N_None_iff in E. lia.
Qed.

Lemma N_of_byte_inj a b : N_of_byte a = N_of_byte b -> a = b.
Proof. intro H. rewrite <- (byte_of_N_of_byte a), <- (byte_of_N_of_byte b). now rewrite H. Qed.

(** ** Result monad inversion *)

Lemma bind_ok {A B} (m : res A) (k : A -> res B) b :
  bind m k = Ok b <-> exists a, m = Ok a /\ k a = Ok b.
Proof.
  destruct m; cbn; split.
  - eauto.
  - intros (a' & E & H). injection E as ->. exact H.
  - discriminate.
  - intros (? & E & _); discriminate.
Qed.

Lemma bind_raise {A B} (m : res A) (k : A -> res B) e :
  bind m k = Raise e <-> m = Raise e \/ exists a, m = Ok a /\ k a = Raise e.
Proof.
  destruct m; cbn; split.
  - intro H; right; eauto.
  - intros [H|(a' & E & H)]; [discriminate|]. injection E as ->. exact H.
  - intro H; left; congruence.
  - intros [H|(? & E & _)]; congruence.
Qed.

Lemma check_ok b e u : check b e = Ok u <-> b = true.
Proof. destruct b, u; cbn; split; congruence. Qed.
Lemma check_raise b e e' : check b e = Raise e' <-> b = false /\ e' = e.
Proof. destruct b; cbn; split; try discriminate; intuition congruence. Qed.

Lemma catch_ok {A} (m : res A) p e a : catch m p e = Ok a <-> m = Ok a.
Proof. destruct m; cbn; [easy|]. destruct (p e0); split; discriminate. Qed.
Lemma catch_raise {A} (m : res A) p e e' :
  catch m p e = Raise e' <->
  exists e0, m = Raise e0 /\ ((p e0 = true /\ e' = e) \/ (p e0 = false /\ e' = e0)).
Proof.
  destruct m as [a|e0]; cbn.
  - split; [discriminate|intros (? & ? & _); discriminate].
  - destruct (p e0) eqn:P; split.
    + intro H; injection H as <-. eauto.
    + intros (? & E & [[_ ->]|[P' _]]); [reflexivity|congruence].
    + intro H; injection H as <-. eauto.
    + intros (? & E & [[P' _]|[_ ->]]); congruence.
Qed.

Lemma lift_ok {A} (m : wres A) a : lift m = Ok a <-> m = WOk a.
Proof. destruct m; cbn; split; congruence. Qed.
Lemma lift_raise {A} (m : wres A) e : lift m = Raise e <-> exists p, m = WRaise p /\ e = Py p.
Proof.
  destruct m; cbn; split; try discriminate.
  - intros (? & ? & _); discriminate.
  - intro H; injection H as <-; eauto.
  - intros (? & E & ->); congruence.
Qed.

(** [inv_ok H] decomposes a hypothesis [... = Ok _] about a monadic computation. *)
Ltac inv_ok H :=
  lazymatch type of H with
  | bind _ _ = Ok _ =>
      let a := fresh "a" in let Hb := fresh "Hb" in
      apply bind_ok in H; destruct H as (a & Hb & H);
      inv_ok Hb; inv_ok H
  | catch _ _ _ = Ok _ => apply catch_ok in H; inv_ok H
  | lift _ = Ok _ => apply lift_ok in H
  | check _ _ = Ok _ => apply check_ok in H
  | passert _ = Ok _ => unfold passert in H; apply check_ok in H
  | raise _ = Ok _ => discriminate H
  | Raise _ = Ok _ => discriminate H
  | Ok _ = Ok _ => injection H; clear H; intros; subst
  | _ => idtac
  end.

(** ** Big-endian integers *)

Lemma be_fold b : forall acc,
  fold_left (fun a x => (a * 256 + N_of_byte x)%N) b acc
  = (acc * 256 ^ N.of_nat (length b) + be_to_N b)%N.
Proof.
  unfold be_to_N.
  induction b as [|x t IH]; intros acc; cbn [fold_left length].
  - cbn. lia.
  - rewrite IH. rewrite (IH (0 * 256 + N_of_byte x)%N).
    rewrite Nnat.Nat2N.inj_succ, N.pow_succ_r'. nia.
Qed.

Lemma be_to_N_cons x t :
  be_to_N (x :: t) = (N_of_byte x * 256 ^ N.of_nat (length t) + be_to_N t)%N.
Proof. unfold be_to_N at 1. cbn [fold_left]. rewrite be_fold. lia. Qed.

Lemma be_to_N_app a b :
  be_to_N (a ++ b) = (be_to_N a * 256 ^ N.of_nat (length b) + be_to_N b)%N.
Proof. unfold be_to_N at 1. rewrite fold_left_app, be_fold. reflexivity. Qed.

Lemma be_to_N_bound b : (be_to_N b < 256 ^ N.of_nat (length b))%N.
Proof.
  induction b as [|x t IH].
  - cbn. lia.
  - rewrite be_to_N_cons. cbn [length]. rewrite Nnat.Nat2N.inj_succ, N.pow_succ_r'.
    pose proof (N_of_byte_bound x). nia.
Qed.

Lemma N_to_be_length n v : length (N_to_be n v) = n.
Proof. revert v; induction n; intro v; cbn; [reflexivity|]. rewrite app_length, IHn. cbn. lia. Qed.

Lemma be_to_N_to_be n : forall v, (v < 256 ^ N.of_nat n)%N -> be_to_N (N_to_be n v) = v.
Proof.
  induction n as [|n IH]; intros v Hv; cbn [N_to_be].
  - cbn in *. lia.
  - rewrite Nnat.Nat2N.inj_succ, N.pow_succ_r' in Hv.
    rewrite be_to_N_app, IH by lia. cbn [length]. change (N.of_nat 1) with 1%N.
    unfold be_to_N; cbn [fold_left]. rewrite N_of_byte_of_N. lia.
Qed.

Lemma be_to_N_inj a b : length a = length b -> be_to_N a = be_to_N b -> a = b.
Proof.
  revert b; induction a as [|x t IH]; destruct b as [|y t2]; cbn [length]; intros L E;
    try discriminate; [reflexivity|].
  injection L as L. rewrite !be_to_N_cons in E. rewrite L in E.
  pose proof (be_to_N_bound t) as B1. pose proof (be_to_N_bound t2) as B2. rewrite L in B1.
  assert (P : (0 < 256 ^ N.of_nat (length t2))%N) by (apply N.neq_0_lt_0, N.pow_nonzero; lia).
  assert (N_of_byte x = N_of_byte y).
  { destruct (N.lt_trichotomy (N_of_byte x) (N_of_byte y)) as [?|[?|?]]; [|assumption|]; exfalso; nia. }
  f_equal; [now apply N_of_byte_inj|]. apply IH; [assumption|]. rewrite H in E. lia.
Qed.

Lemma be4 a b c d :
  be_to_N [a; b; c; d] =
  (((N_of_byte a * 256 + N_of_byte b) * 256 + N_of_byte c) * 256 + N_of_byte d)%N.
Proof. unfold be_to_N. cbn [fold_left]. lia. Qed.

(** ** Slices *)
Lemma take_drop {A} n (l : list A) : take n l ++ drop n l = l.
Proof. apply firstn_skipn. Qed.
Lemma take_length {A} n (l : list A) : length (take n l) = Nat.min n (length l).
Proof. apply firstn_length. Qed.
Lemma take_app {A} (a b : list A) n : length a = n -> take n (a ++ b) = a.
Proof. intros <-. unfold take. rewrite firstn_app, Nat.sub_diag, firstn_all. cbn. apply app_nil_r. Qed.
Lemma drop_app {A} (a b : list A) n : length a = n -> drop n (a ++ b) = b.
Proof. intros <-. unfold drop. rewrite skipn_app, Nat.sub_diag, skipn_all. reflexivity. Qed.

(** ** Python values *)

Lemma as_int_str s : as_int (VStr s) = None. Proof. reflexivity. Qed.

(** Keys used by the code: strings and integers. *)
Lemma py_eq_str k s : py_eq k (VStr s) = true <-> k = VStr s.
Proof.
  split; [|intros ->; cbn; apply str_eqb_refl].
  destruct k; cbn; try discriminate.
  - destruct b; discriminate.
  - destruct (float_int bits); discriminate.
  - intro H. apply str_eqb_spec in H. congruence.
Qed.

Lemma py_eq_str_l s v : py_eq (VStr s) v = true <-> v = VStr s.
Proof.
  split; [|intros ->; cbn; apply str_eqb_refl].
  destruct v; cbn; try discriminate.
  - destruct b; discriminate.
  - destruct (float_int bits); discriminate.
  - intro H. apply str_eqb_spec in H. congruence.
Qed.

Lemma py_eq_none_l v : py_eq VNone v = true <-> v = VNone.
Proof.
  split; [|intros ->; reflexivity].
  destruct v; cbn; try discriminate; try reflexivity.
  - destruct b; discriminate.
  - destruct (float_int bits); discriminate.
Qed.

Lemma py_eq_int k z : py_eq k (VInt z) = true <-> as_int k = Some z.
Proof.
  assert (H : py_eq k (VInt z) = match as_int k with Some x => Z.eqb x z | None => false end)
    by (destruct k; reflexivity).
  rewrite H. destruct (as_int k) as [x|]; [|split; discriminate].
  rewrite Z.eqb_eq. split; congruence.
Qed.

Lemma type_eqb_spec a b : type_eqb a b = true <-> a = b.
Proof.
  destruct a, b; cbn; split; try discriminate; try reflexivity.
  - intro H; apply N.eqb_eq in H; congruence.
  - intro H; injection H as ->; apply N.eqb_refl.
Qed.

Lemma type_in_spec v ts : type_in v ts = true <-> In (type_of v) ts.
Proof.
  unfold type_in. rewrite existsb_exists. split.
  - intros (t & Ht & E). apply type_eqb_spec in E. congruence.
  - intro H. exists (type_of v). split; [assumption|]. now apply type_eqb_spec.
Qed.

Lemma dict_find_in k d v : dict_find k d = Some v -> exists k', In (k', v) d /\ py_eq k' k = true.
Proof.
  induction d as [|(k', v') t IH]; cbn; [discriminate|].
  destruct (py_eq k' k) eqn:E.
  - intro H; injection H as ->. exists k'. auto.
  - intro H. destruct (IH H) as (k0 & ? & ?). exists k0; auto.
Qed.

Lemma dict_find_none k d : dict_find k d = None <-> (forall k' v, In (k', v) d -> py_eq k' k = false).
Proof.
  induction d as [|(k', v') t IH]; cbn.
  - split; [intros _ k' v []|reflexivity].
  - destruct (py_eq k' k) eqn:E; split.
    + discriminate.
    + intro H. rewrite (H k' v' (or_introl eq_refl)) in E. discriminate.
    + intros H k0 v [H0|H0].
      * injection H0 as <- <-. assumption.
      * now apply (proj1 IH H k0 v).
    + intros H. apply IH. intros k0 v H0. apply (H k0 v). auto.
Qed.
