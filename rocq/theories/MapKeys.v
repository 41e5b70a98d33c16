(** * MapKeys: when keys of decoded maps are equal (ReadSpec.v). *)
From Coq Require Import List NArith ZArith Bool String Lia ZifyBool ZifyN.
From Coq Require Import Strings.Byte.
From Verif Require Import Base PyVal BaseFacts CborSpec CborFacts CborExact ReadSpec.
Import ListNotations.
Local Open Scope N_scope.
Local Open Scope list_scope.

Lemma fields_read bits s e m : Fields 11 52 bits s e m ->
  N.testbit bits 63 = (s =? 1) /\ N.land (N.shiftr bits 52) 2047 = e /\ N.land bits 4503599627370495 = m.
Proof.
  intros (S & E & M & ->). change (2 ^ 11) with 2048 in *. change (2 ^ 52) with 4503599627370496 in *.
  set (v := (s * 2048 + e) * 4503599627370496 + m).
  assert (D : v / 2 ^ 52 = s * 2048 + e) by (symmetry; apply N.div_unique with (r := m); subst v; change (2 ^ 52) with 4503599627370496; lia).
  split; [|split].
  - rewrite N.testbit_eqb. replace (v / 2 ^ 63) with s.
    + replace (s mod 2) with s by (symmetry; apply N.mod_small; lia). reflexivity.
    + apply N.div_unique with (r := e * 4503599627370496 + m); subst v; change (2 ^ 63) with 9223372036854775808; lia.
  - change 2047 with (N.ones 11). rewrite N.land_ones, N.shiftr_div_pow2, D. symmetry.
    apply N.mod_unique with (q := s); change (2 ^ 11) with 2048; lia.
  - change 4503599627370495 with (N.ones 52). rewrite N.land_ones. symmetry.
    apply N.mod_unique with (q := s * 2048 + e); subst v; change (2 ^ 52) with 4503599627370496; lia.
Qed.
Lemma float_fields bits : bits < 2 ^ 64 -> exists s e m, Fields 11 52 bits s e m.
Proof. intro H. apply (Fields_exist 11 52) in H. eauto. Qed.

Definition sgn (s : N) : Z := if s =? 0 then 1%Z else (-1)%Z.
Lemma sgn_opp s z : s < 2 -> (if s =? 1 then (- z)%Z else z) = (sgn s * z)%Z.
Proof. intro H. unfold sgn. destruct (N.eqb_spec s 0), (N.eqb_spec s 1); lia. Qed.

Lemma mag_sub m : magnitude 11 52 0 m = m.
Proof. unfold magnitude. cbn [N.eqb]. change (2 ^ (1075 - (2 ^ (11 - 1) - 1) - 52)) with 1. lia. Qed.
Lemma mag_norm e m : e <> 0 -> magnitude 11 52 e m = (2 ^ 52 + m) * 2 ^ (e - 1).
Proof.
  intro H. unfold magnitude. replace (e =? 0) with false by lia.
  change (2 ^ (11 - 1) - 1) with 1023. do 2 f_equal. lia.
Qed.

(** [float_int] is the number, if it is a whole one. *)
Lemma whole (mz z K k : Z) : (0 < K)%Z -> (0 < k)%Z ->
  ((if (mz mod K =? 0)%Z then Some (mz / K)%Z else None) = Some z <-> (mz * k = z * (K * k))%Z).
Proof.
  intros P Q. rewrite Z.mul_assoc.
  assert (C : (mz * k = z * K * k <-> mz = z * K)%Z) by (apply Z.mul_cancel_r; lia). rewrite C. clear C.
  destruct (Z.eqb_spec (mz mod K) 0) as [D|D].
  - pose proof (Z.div_mod mz K ltac:(lia)) as E. rewrite D in E. split.
    + intro H. injection H as <-. lia.
    + intros ->. f_equal. apply Z.div_mul. lia.
  - split; [discriminate|]. intros ->. exfalso. apply D. apply Z.mod_mul. lia.
Qed.
Lemma float_int_iff bits s e m z : Fields 11 52 bits s e m -> e <> 2047 ->
  (float_int bits = Some z <-> (sgn s * Z.of_N (magnitude 11 52 e m) = z * 2 ^ 1074)%Z).
Proof.
  intros F NE. destruct (fields_read _ _ _ _ F) as (RS & RE & RM). destruct F as (S & E & M & _).
  unfold float_int. rewrite RS, RE, RM. replace (e =? 2047) with false by lia.
  set (w := if e =? 0 then (m, (-1074)%Z) else ((4503599627370496 + m)%N, (Z.of_N e - 1075)%Z)).
  assert (K : forall z', ((let '(mant, ex) := w in
            let mz := Z.of_N mant in
            if (0 <=? ex)%Z then Some (mz * 2 ^ ex)%Z
            else if (mz mod 2 ^ (- ex) =? 0)%Z then Some (mz / 2 ^ (- ex))%Z else None) = Some z' <->
            (Z.of_N (magnitude 11 52 e m) = z' * 2 ^ 1074)%Z)).
  { intro z'. subst w. destruct (N.eqb_spec e 0) as [->|NZ].
    - rewrite mag_sub. change (0 <=? -1074)%Z with false. cbv iota zeta. change (- -1074)%Z with 1074%Z.
      rewrite (whole (Z.of_N m) z' (2 ^ 1074) 1) by (try apply Z.pow_pos_nonneg; lia). rewrite !Z.mul_1_r. reflexivity.
    - rewrite mag_norm by exact NZ. rewrite N2Z.inj_mul, N2Z.inj_pow. change (2 ^ 52) with 4503599627370496.
      set (mz := Z.of_N (4503599627370496 + m)). cbv zeta. change (Z.of_N 2) with 2%Z.
      destruct (Z.leb_spec 0 (Z.of_N e - 1075)) as [L|L].
      + replace (Z.of_N (e - 1)) with (Z.of_N e - 1075 + 1074)%Z by lia. rewrite Z.pow_add_r by lia. split.
        * intro H. injection H as <-. ring.
        * intro H. f_equal. rewrite Z.mul_assoc in H. apply Z.mul_cancel_r in H; [exact H|]. apply Z.pow_nonzero; lia.
      + rewrite (whole mz z' (2 ^ (- (Z.of_N e - 1075))) (2 ^ Z.of_N (e - 1))) by (apply Z.pow_pos_nonneg; lia).
        rewrite <- Z.pow_add_r by lia. replace (- (Z.of_N e - 1075) + Z.of_N (e - 1))%Z with 1074%Z by lia. reflexivity. }
  destruct w as [mant ex]. cbv zeta in *.
  destruct (if (0 <=? ex)%Z then _ else _) as [x|].
  - rewrite sgn_opp by exact S. specialize (K x). destruct K as [K _]. specialize (K eq_refl). rewrite K. split.
    + intro H. injection H as <-. ring.
    + intro H. f_equal. rewrite Z.mul_assoc in H. apply Z.mul_cancel_r in H; [exact H|]. apply Z.pow_nonzero; lia.
  - split; [discriminate|]. intro H. exfalso. specialize (K (sgn s * z)%Z). destruct K as [_ K].
    assert (SS : (sgn s * sgn s = 1)%Z) by (unfold sgn; destruct (s =? 0); reflexivity).
    discriminate K. rewrite <- Z.mul_assoc, <- H, Z.mul_assoc, SS. ring.
Qed.

Lemma number_fun a z : Number a z -> forall z', Number a z' -> z = z'.
Proof.
  destruct 1 as [b|x|bits s e m F N]; intros z' H; inversion H as [| |? s' e' m' F']; subst; auto.
  destruct (Fields_unique _ _ _ _ _ _ _ _ _ F F') as (-> & -> & ->). reflexivity.
Qed.
Lemma int_number a z : Hashable a -> as_int a = Some z -> Number a (z * 2 ^ 1074).
Proof.
  destruct 1 as [|b|x|bits L|s|b|l F|m F|t n]; cbn [as_int]; intro H; try discriminate.
  - destruct b; injection H as <-; apply nm_bool.
  - injection H as <-. apply nm_int.
  - destruct (float_fields bits L) as (s & e & m & F). destruct (N.eq_dec e 2047) as [->|NE].
    + exfalso. destruct (fields_read _ _ _ _ F) as (_ & RE & _). unfold float_int in H. rewrite RE in H. discriminate.
    + apply (float_int_iff _ _ _ _ _ F NE) in H. rewrite <- H. now apply (nm_float bits s e m).
Qed.
Lemma number_int a z x : Number a x -> x = (z * 2 ^ 1074)%Z -> as_int a = Some z.
Proof.
  assert (P : (2 ^ 1074 <> 0)%Z) by (apply Z.pow_nonzero; lia).
  destruct 1 as [b|y|bits s e m F NE]; intro H.
  - apply Z.mul_cancel_r in H; [|exact P]. subst z. destruct b; reflexivity.
  - apply Z.mul_cancel_r in H; [|exact P]. subst z. reflexivity.
  - cbn [as_int]. now apply (float_int_iff _ _ _ _ _ F NE).
Qed.
Lemma float_number_inj x y z : Number (VFloat x) z -> Number (VFloat y) z -> float_int x = None -> x = y.
Proof.
  intros H K N. inversion H as [| |? s e m F NE]; subst. inversion K as [| |? s' e' m' F' NE' E0 E]; subst.
  fold (sgn s) in *. fold (sgn s') in *.
  assert (Z.of_N (magnitude 11 52 e m) <> 0)%Z as NZ.
  { intro Q. assert (C : float_int x = Some 0%Z) by (apply (float_int_iff _ _ _ _ _ F NE); rewrite Q; lia). congruence. }
  assert (SS : s = s' /\ magnitude 11 52 e m = magnitude 11 52 e' m').
  { destruct F as (S & _), F' as (S' & _). unfold sgn in E. destruct (N.eqb_spec s 0), (N.eqb_spec s' 0); lia. }
  destruct SS as [-> M]. pose proof F as (_ & _ & M1 & X). pose proof F' as (_ & _ & M2 & Y).
  assert (E1 : e < 2047) by (destruct F as (_ & L & _); change (2 ^ 11) with 2048 in L; lia).
  assert (E2 : e' < 2047) by (destruct F' as (_ & L & _); change (2 ^ 11) with 2048 in L; lia).
  apply magnitude64_inj in M as [-> ->]; auto. congruence.
Qed.

Lemma nan_read bits s e m : Fields 11 52 bits s e m -> float_is_nan bits = (e =? 2047) && negb (m =? 0).
Proof. intro F. destruct (fields_read _ _ _ _ F) as (_ & RE & RM). unfold float_is_nan. now rewrite RE, RM. Qed.

Lemma key_number a b : Hashable a -> Hashable b -> as_int a <> None -> (py_eq a b = true <-> KeyEq a b).
Proof.
  intros HA HB NA. destruct (as_int a) as [x|] eqn:A; [|contradiction]. rewrite (py_eq_num a b x A).
  pose proof (int_number _ _ HA A) as NX. split.
  - intro B. eapply ke_number; [exact NX|now apply int_number].
  - intro K. inversion K as [|? ? z N1 N2|bits s F| | |l l' F|m m' F1 F2|]; subst; try discriminate A.
    + rewrite (number_fun _ _ N1 _ NX) in N2. now apply (number_int _ x _ N2).
    + exfalso. destruct (fields_read _ _ _ _ F) as (_ & RE & _). cbn [as_int] in A. unfold float_int in A. rewrite RE in A. discriminate.
Qed.
Lemma key_sym a : forall b, KeyEq a b -> KeyEq b a.
Proof.
  induction a as [|b0|z|n|s|b0|l IH|l IH|d IH|d IH|t n] using pyval_ind2; intros b H;
    inversion H as [|? ? y N1 N2|bits s' F| | |l1 l2 F|m1 m2 F1 F2|]; subst; try (now constructor); try (eapply ke_number; eassumption);
    try (now apply (ke_infinity _ s')).
  - apply ke_tuple. clear H. revert l2 F. induction IH as [|x l P _ IHl]; intros l2 F; inversion F; subst; constructor; auto.
  - rewrite Forall_forall in IH. apply ke_frozen.
    + intros k' v' I. destruct (F2 k' v' I) as (k & v & J & E1 & E2). destruct (IH _ J) as [P Q]. eauto 10.
    + intros k v I. destruct (F1 k v I) as (k' & v' & J & E1 & E2). destruct (IH _ I) as [P Q]. eauto 10.
Qed.

Lemma key_eq a : forall b, Hashable a -> Hashable b -> (py_eq a b = true <-> KeyEq a b).
Proof.
  induction a as [|b0|z|n|s|b0|l IH|l IH|d IH|d IH|t n] using pyval_ind2; intros b HA HB;
    (match goal with |- py_eq ?a _ = _ <-> _ => destruct (as_int a) as [x|] eqn:A end; [apply key_number; congruence|]);
    (destruct (as_int b) as [y|] eqn:B;
     [split; [intro H; apply py_eq_sym in H; apply key_sym, key_number; congruence
             |intro H; apply key_sym in H; apply py_eq_sym, key_number; congruence]|]);
    rewrite py_eq_unfold, A, B; try discriminate A; try (destruct b0; discriminate A).
  - destruct b; split; intro H; try discriminate; try constructor; inversion H as [|? ? z N1 N2| | | | | |]; subst; inversion N1.
  - destruct b as [|b1|z1|n1|s1|b1|l1|l1|d1|d1|t1 n1]; try discriminate B; try (destruct b1; discriminate B);
      try (split; [discriminate|intro H; inversion H as [|? ? z N1 N2| | | | | |]; subst; inversion N2]).
    split.
    + intro H. apply andb_prop in H as [H1 H2]. apply N.eqb_eq in H1 as <-. inversion HA as [| | |? L| | | | |]; subst.
      destruct (float_fields n L) as (s & e & m & F). rewrite (nan_read _ _ _ _ F) in H2.
      destruct (N.eqb_spec e 2047) as [->|NE].
      * destruct (N.eqb_spec m 0) as [Q|Q]; [|discriminate]. rewrite Q in F. now apply (ke_infinity n s).
      * eapply ke_number; now apply (nm_float n s e m).
    + intro H. inversion H as [|? ? z N1 N2|bits s F| | | | |]; subst.
      * rewrite (float_number_inj _ _ _ N1 N2 A), N.eqb_refl. inversion N2 as [| |? s e m F NE]; subst.
        rewrite (nan_read _ _ _ _ F). now replace (e =? 2047) with false by lia.
      * rewrite N.eqb_refl, (nan_read _ _ _ _ F). reflexivity.
  - destruct b as [|b1|z1|n1|s1|b1|l1|l1|d1|d1|t1 n1]; try discriminate B; try (destruct b1; discriminate B);
      try (split; [discriminate|intro H; inversion H as [|? ? z N1 N2| | | | | |]; subst; inversion N1]).
    rewrite str_eqb_spec. split; [intros ->; constructor|intro H; inversion H as [|? ? z N1 N2| | | | | |]; subst; [inversion N1|reflexivity]].
  - destruct b as [|b1|z1|n1|s1|b1|l1|l1|d1|d1|t1 n1]; try discriminate B; try (destruct b1; discriminate B);
      try (split; [discriminate|intro H; inversion H as [|? ? z N1 N2| | | | | |]; subst; inversion N1]).
    rewrite bytes_eqb_spec. split; [intros ->; constructor|intro H; inversion H as [|? ? z N1 N2| | | | | |]; subst; [inversion N1|reflexivity]].
  - inversion HA.
  - destruct b as [|b1|z1|n1|s1|b1|l1|l1|d1|d1|t1 n1]; try discriminate B; try (destruct b1; discriminate B);
      try (split; [discriminate|intro H; inversion H as [|? ? z N1 N2| | | | | |]; subst; inversion N1]).
    inversion HA as [| | | | | |? FA| |]; subst. inversion HB as [| | | | | |? FB| |]; subst.
    assert (G : eqs l l1 = true <-> Forall2 KeyEq l l1).
    { clear HA HB A B. revert l1 FB. induction IH as [|a l P _ IHl]; intros [|b l1] FB; cbn [eqs];
        [split; [constructor|reflexivity]|split; [discriminate|inversion 1]|split; [discriminate|inversion 1]|].
      inversion FA; subst. inversion FB; subst. rewrite andb_true_iff, (P b), (IHl ltac:(assumption) l1) by assumption.
      split; [intros [? ?]; now constructor|inversion 1; auto]. }
    rewrite G. split; [intro; now constructor|]. intro H. inversion H as [|? ? z N1 N2| | | | | |]; subst; [inversion N1|assumption].
  - inversion HA.
  - destruct b as [|b1|z1|n1|s1|b1|l1|l1|d1|d1|t1 n1]; try discriminate B; try (destruct b1; discriminate B);
      try (split; [discriminate|intro H; inversion H as [|? ? z N1 N2| | | | | |]; subst; inversion N1]); [inversion HB|].
    inversion HA as [| | | | | | |? FA|]; subst. inversion HB as [| | | | | | |? FB|]; subst.
    rewrite Forall_forall in IH. rewrite eqd_iff. split.
    + intros [H K]. apply ke_frozen.
      * intros k v I. destruct (H _ I) as ([k' v'] & J & E1 & E2). exists k', v'. split; [exact J|].
        destruct (IH _ I) as [P Q], (FA _ _ I), (FB _ _ J). cbn [fst snd] in *. rewrite P in E1 by assumption. rewrite Q in E2 by assumption. auto.
      * intros k' v' J. destruct (K _ J) as ([k v] & I & E1 & E2). exists k, v. split; [exact I|].
        destruct (IH _ I) as [P Q], (FA _ _ I), (FB _ _ J). cbn [fst snd] in *. rewrite P in E1 by assumption. rewrite Q in E2 by assumption. auto.
    + intro H. inversion H as [|? ? z N1 N2| | | | |m m' F1 F2|]; subst; [inversion N1|]. split.
      * intros [k v] I. destruct (F1 _ _ I) as (k' & v' & J & E1 & E2). exists (k', v'). split; [exact J|].
        destruct (IH _ I) as [P Q], (FA _ _ I), (FB _ _ J). cbn [fst snd] in *. rewrite P, Q by assumption. auto.
      * intros [k' v'] J. destruct (F2 _ _ J) as (k & v & I & E1 & E2). exists (k, v). split; [exact I|].
        destruct (IH _ I) as [P Q], (FA _ _ I), (FB _ _ J). cbn [fst snd] in *. rewrite P, Q by assumption. auto.
  - destruct b as [|b1|z1|n1|s1|b1|l1|l1|d1|d1|t1 n1]; try discriminate B; try (destruct b1; discriminate B);
      try (split; [discriminate|intro H; inversion H as [|? ? z N1 N2| | | | | |]; subst; inversion N1]).
    rewrite andb_true_iff, !N.eqb_eq. split; [intros [-> ->]; constructor|].
    intro H; inversion H as [|? ? z N1 N2| | | | | |]; subst; [inversion N1|auto].
Qed.

(** ** Maps *)
Lemma last_equal k v ps : Hashable k -> Forall (fun p => Hashable (fst p)) ps -> (LastEntry k v ps <-> LastEqual k v ps).
Proof.
  intros HK F. unfold LastEntry, LastEqual.
  split; intros (before & k' & after & -> & E & A); exists before, k', after; (split; [reflexivity|]);
    apply Forall_app in F as [_ F]; inversion F as [|? ? F1 F2]; subst; cbn [fst] in F1;
    (split; [now apply key_eq|]); rewrite Forall_forall in *; intros p I; specialize (A p I); specialize (F2 p I).
  - rewrite <- key_eq by assumption. congruence.
  - rewrite <- key_eq in A by assumption. now destruct (py_eq (fst p) k).
Qed.
Lemma c92_found k v ps : Hashable k -> Forall (fun p => Hashable (fst p)) ps ->
  (dict_find k (entries ps) = Some v <-> LastEqual k v ps).
Proof. intros HK F. rewrite find_entries. now apply last_equal. Qed.
Lemma c92_absent k ps : Hashable k -> Forall (fun p => Hashable (fst p)) ps ->
  (dict_find k (entries ps) = None <-> Forall (fun p => ~ KeyEq (fst p) k) ps).
Proof.
  intros HK F. induction ps as [|[k' v] ps IH] using rev_ind; [split; [constructor|reflexivity]|].
  apply Forall_app in F as [F1 F2]. inversion F2 as [|? ? F3 _]; subst. cbn [fst] in F3.
  unfold entries. rewrite fold_left_app. cbn [fold_left fst snd]. fold (entries ps). rewrite find_set.
  rewrite Forall_app, <- (IH F1). pose proof (key_eq k' k F3 HK) as E. destruct (py_eq k' k).
  - split; [discriminate|]. intros [_ H]. inversion H as [|? ? H1 _]; subst. exfalso. now apply H1, E.
  - split; [|tauto]. intro H. split; [exact H|]. constructor; [|constructor]. cbn [fst]. rewrite <- E. discriminate.
Qed.

Section Tags.
Variable tags : bool -> N -> pyval -> wres pyval.
(** The keys of decoded maps are such values, if those that tags make are. *)
Hypothesis tags_ok : forall t v w, tags true t v = WOk w -> Hashable w.
Lemma special_hashable v bs : Special v bs -> Hashable v.
Proof.
  destruct 1 as [| | | | | |body w L (s & e & m & e' & m' & _ & (S & E & M & ->) & _)
                 |body w L (s & e & m & e' & m' & _ & (S & E & M & ->) & _)|body L|]; try (now constructor); apply hs_float.
  - change (2 ^ 11) with 2048 in *. change (2 ^ 52) with 4503599627370496 in *. change (2 ^ 64) with 18446744073709551616. lia.
  - change (2 ^ 11) with 2048 in *. change (2 ^ 52) with 4503599627370496 in *. change (2 ^ 64) with 18446744073709551616. lia.
  - pose proof (be_to_N_bound body) as H. rewrite L in H. exact H.
Qed.
Lemma entries_in ps : forall acc k v, In (k, v) (set_all acc ps) ->
  (In k (map fst acc) \/ In k (map fst ps)) /\ (In v (map snd acc) \/ In v (map snd ps)).
Proof.
  induction ps as [|[k0 v0] ps IH]; intros acc k v I.
  - split; left; [now apply (in_map fst _ (k, v))|now apply (in_map snd _ (k, v))].
  - change (set_all acc ((k0, v0) :: ps)) with (set_all (dict_set k0 v0 acc) ps) in I. apply IH in I.
    assert (G : forall d x, (In x (map fst (dict_set k0 v0 d)) -> In x (map fst d) \/ x = k0) /\
                            (In x (map snd (dict_set k0 v0 d)) -> In x (map snd d) \/ x = v0)).
    { clear. intros d x. induction d as [|[a b] d [I1 I2]]; cbn [dict_set]; [cbn; intuition congruence|].
      destruct (py_eq a k0); cbn; intuition congruence. }
    destruct I as [I1 I2], (G acc k) as [G1 _], (G acc v) as [_ G2]. cbn [map fst snd In].
    split; [destruct I1 as [I|I]; [apply G1 in I as [I| ->]|]; auto|destruct I2 as [I|I]; [apply G2 in I as [I| ->]|]; auto].
Qed.
Lemma frozen_hashable ps : Forall (fun p => Hashable (fst p)) ps -> Forall (fun p => Hashable (snd p)) ps ->
  Hashable (VFrozen (entries ps)).
Proof.
  intros F G. constructor. intros k v I. rewrite Forall_forall in F, G.
  destruct (entries_in ps [] k v I) as [[[]|I1] [[]|I2]].
  apply in_map_iff in I1 as (p & <- & I1). apply in_map_iff in I2 as (q & <- & I2). auto.
Qed.
Lemma keys_hashable :
  (forall d key v bs, Cbor tags d key v bs -> key = true -> Hashable v) /\
  (forall d key vs bs, Cbors tags d key vs bs -> key = true -> Forall Hashable vs) /\
  (forall d key ps bs, CborPairs tags d key ps bs ->
     Forall (fun p => Hashable (fst p)) ps /\ (key = true -> Forall (fun p => Hashable (snd p)) ps)).
Proof.
  apply Cbor_mutind; try (intros; now constructor); try (intros; discriminate).
  - intros d key vs h bs H C IH ->. constructor. auto.
  - intros d key vs bs e C IH B E _ ->. constructor. auto.
  - intros d key ps h bs H C [I1 I2] ->. apply frozen_hashable; auto.
  - intros d key ps bs e C [I1 I2] B E _ ->. apply frozen_hashable; auto.
  - intros d key t v w h bs H N1 N2 C IH T ->. eauto.
  - intros d key v bs S _. now apply special_hashable in S.
  - intros d key v bs vs bs' C IH1 C2 IH2 ->. constructor; auto.
  - intros d key k v bk bv ps bs C1 IH1 C2 IH2 C3 [IH3 IH4]. split; [|intros ->]; constructor; auto.
Qed.
End Tags.

(** True, 1 and 1.0 are one key, 0.5 is none of them, and NaN is not even itself. *)
Lemma one_float : Number (VFloat 4607182418800017408) (1 * 2 ^ 1074).
Proof. apply int_number; [constructor; reflexivity|vm_compute; reflexivity]. Qed.
Example ex_keys :
  KeyEq (VBool true) (VInt 1) /\ KeyEq (VInt 1) (VFloat 4607182418800017408) /\
  ~ KeyEq (VInt 1) (VFloat 4602678819172646912) /\ KeyEq (VFloat 4602678819172646912) (VFloat 4602678819172646912) /\
  ~ KeyEq (VFloat 9221120237041090560) (VFloat 9221120237041090560) /\ ~ KeyEq (VStr (lit "1")) (VInt 1) /\
  KeyEq (VTuple [VBool false; VStr (lit "a")]) (VTuple [VFloat 9223372036854775808; VStr (lit "a")]) /\
  KeyEq (VFrozen [(VInt 1, VNone); (VInt 2, VStr [])]) (VFrozen [(VInt 2, VStr []); (VBool true, VNone)]).
Proof. repeat split; try (rewrite <- key_eq; [vm_compute; congruence|repeat constructor..]); try reflexivity.
  all: destruct H as [H|[H|[]]]; injection H as <- <-; repeat constructor.
Qed.
Example ex_last_equal :
  LastEqual (VFloat 4607182418800017408) (VInt 9) [(VInt 1, VInt 8); (VBool true, VInt 9); (VInt 2, VInt 7)].
Proof.
  apply last_equal; [now constructor|repeat constructor|].
  exists [(VInt 1, VInt 8)], (VBool true), [(VInt 2, VInt 7)]. split; [reflexivity|].
  split; [vm_compute; reflexivity|]. constructor; [vm_compute; reflexivity|constructor].
Qed.
