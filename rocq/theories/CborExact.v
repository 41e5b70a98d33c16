(** * CborExact: the decoder of Cbor.v against the items of CborSpec.v. *)
From Coq Require Import List NArith ZArith Bool Lia ZifyBool ZifyNat ZifyN.
From Coq Require Import Strings.Byte.
From Verif Require Import Base BaseFacts PyVal Utf8 Utf8Facts Utf8Sound Json Cbor CborFacts
  CborSpec.
Import ListNotations.
Local Open Scope N_scope.
Local Open Scope list_scope.

(** ** Floats *)

Lemma Fields_unique eb mb v s e m s' e' m' :
  Fields eb mb v s e m -> Fields eb mb v s' e' m' -> s = s' /\ e = e' /\ m = m'.
Proof.
  intros (H1 & H2 & H3 & ->) (H1' & H2' & H3' & E).
  assert (NE : 2 ^ eb <> 0) by (apply N.pow_nonzero; lia).
  assert (NM : 2 ^ mb <> 0) by (apply N.pow_nonzero; lia).
  assert (E2 : m = m' /\ s * 2 ^ eb + e = s' * 2 ^ eb + e').
  { revert H3 H3' E NM. generalize (2 ^ mb). intros q H3 H3' E NM.
    generalize dependent (s * 2 ^ eb + e). generalize dependent (s' * 2 ^ eb + e'). intros a b E.
    assert (b = a) by (apply (f_equal (fun x => x / q)) in E;
      rewrite !N.div_add_l, !N.div_small in E by lia; lia). subst. split; lia. }
  destruct E2 as [-> E2]. clear E H3 H3' NM.
  revert H2 H2' E2 NE. generalize (2 ^ eb). intros q H2 H2' E NE.
  assert (s = s') by (apply (f_equal (fun x => x / q)) in E;
    rewrite !N.div_add_l, !N.div_small in E by lia; lia). subst. split; [|split]; lia.
Qed.

Lemma Fields_exist eb mb v : v < 2 ^ (1 + eb + mb) ->
  Fields eb mb v (v / 2 ^ (eb + mb)) ((v / 2 ^ mb) mod 2 ^ eb) (v mod 2 ^ mb).
Proof.
  intros L. unfold Fields.
  assert (NE : 2 ^ eb <> 0) by (apply N.pow_nonzero; lia).
  assert (NM : 2 ^ mb <> 0) by (apply N.pow_nonzero; lia).
  rewrite !N.pow_add_r in *. change (2 ^ 1) with 2 in L.
  revert NE NM L. generalize (2 ^ eb) (2 ^ mb). intros p q NE NM L. repeat split.
  - apply N.div_lt_upper_bound; lia.
  - apply N.mod_lt; lia.
  - apply N.mod_lt; lia.
  - rewrite (N.mul_comm p q), <- N.div_div by lia.
    assert (E1 := N.div_mod v q NM). assert (E2 := N.div_mod (v / q) p NE). nia.
Qed.

Lemma magnitude64 e m : e < 2047 ->
  magnitude 11 52 e m = if e =? 0 then m else (2 ^ 52 + m) * 2 ^ (e - 1).
Proof.
  intros L. unfold magnitude. change (2 ^ (11 - 1) - 1) with 1023. cbv zeta.
  destruct (e =? 0) eqn:E.
  - change (1075 - 1023 - 52) with 0. rewrite N.pow_0_r. lia.
  - replace (1074 + e - 1023 - 52) with (e - 1) by lia. reflexivity.
Qed.

Lemma magnitude64_inj e m e' m' : e < 2047 -> e' < 2047 -> m < 2 ^ 52 -> m' < 2 ^ 52 ->
  magnitude 11 52 e m = magnitude 11 52 e' m' -> e = e' /\ m = m'.
Proof.
  intros L L' LM LM' E. rewrite !magnitude64 in E by assumption.
  assert (P : forall k, 1 <= 2 ^ k) by (intros k; assert (2 ^ k <> 0) by (apply N.pow_nonzero; lia); lia).
  assert (S : forall a b x y, a < b -> x < 2 ^ 52 -> (2 ^ 52 + x) * 2 ^ a < (2 ^ 52 + y) * 2 ^ b).
  { intros a b x y LT LX. replace b with (a + 1 + (b - a - 1)) by lia.
    rewrite !N.pow_add_r. change (2 ^ 1) with 2. specialize (P a) as PA. specialize (P (b - a - 1)) as PB.
    apply N.lt_le_trans with (2 * 2 ^ 52 * 2 ^ a); [nia|].
    apply N.le_trans with (2 * 2 ^ 52 * 2 ^ a * 2 ^ (b - a - 1)); nia. }
  destruct (e =? 0) eqn:E0, (e' =? 0) eqn:E0'.
  - lia.
  - specialize (P (e' - 1)). nia.
  - specialize (P (e - 1)). nia.
  - destruct (N.lt_trichotomy e e') as [T|[T|T]].
    + specialize (S (e - 1) (e' - 1) m m' ltac:(lia) LM). lia.
    + subst. split; [reflexivity|]. specialize (P (e' - 1)). nia.
    + specialize (S (e' - 1) (e - 1) m' m ltac:(lia) LM'). lia.
Qed.

Lemma SameFloat_unique eb mb v w w' : SameFloat eb mb v w -> SameFloat eb mb v w' -> w = w'.
Proof.
  intros (s & e & m & e1 & m1 & F & F1 & I1 & N1 & M1)
         (s' & e' & m' & e2 & m2 & F' & F2 & I2 & N2 & M2).
  destruct (Fields_unique _ _ _ _ _ _ _ _ _ F F') as (-> & -> & ->).
  destruct F1 as (_ & B1 & C1 & ->), F2 as (_ & B2 & C2 & ->).
  assert (EQ : e1 = e2 /\ m1 = m2); [|destruct EQ as [-> ->]; reflexivity].
  destruct (N.eq_dec e' (2 ^ eb - 1)) as [D|D].
  - rewrite (proj1 I1 D), (proj1 I2 D), N1, N2 by assumption. auto.
  - change (2 ^ 11) with 2048 in *.
    apply magnitude64_inj; try assumption.
    + assert (e1 <> 2047) by tauto. lia.
    + assert (e2 <> 2047) by tauto. lia.
    + rewrite <- M1, <- M2 by assumption. reflexivity.
Qed.

Lemma f64_fields s e m : s < 2 -> e < 2048 -> m < 2 ^ 52 -> Fields 11 52 (f64 s e m) s e m.
Proof.
  intros. repeat split; try assumption. unfold f64.
  change (2 ^ 11) with 2048. change (2 ^ 52) with 4503599627370496. lia.
Qed.

Lemma widen_same eb mb v : 2 <= eb -> eb <= 10 -> mb <= 51 -> 2 ^ (eb - 1) + mb <= 1000 ->
  v < 2 ^ (1 + eb + mb) -> SameFloat eb mb v (widen eb mb v).
Proof.
  intros LE1 LE LM LB L. assert (F := Fields_exist _ _ _ L).
  unfold widen. cbv zeta. revert F.
  generalize (v / 2 ^ (eb + mb)) ((v / 2 ^ mb) mod 2 ^ eb) (v mod 2 ^ mb). intros s e m F.
  assert (F' := F). destruct F' as (FS & FE & FM & _).
  assert (EB : 2 ^ eb = 2 * 2 ^ (eb - 1)).
  { replace eb with (1 + (eb - 1)) at 1 by lia. rewrite N.pow_add_r. reflexivity. }
  assert (B2 : 2 <= 2 ^ (eb - 1)).
  { change 2 with (2 ^ 1) at 1. apply N.pow_le_mono_r; lia. }
  assert (EM : 2 ^ 52 = 2 ^ mb * 2 ^ (52 - mb)).
  { rewrite <- N.pow_add_r. f_equal. lia. }
  assert (PM : 1 <= 2 ^ (52 - mb)) by (assert (2 ^ (52 - mb) <> 0) by (apply N.pow_nonzero; lia); lia).
  destruct (e =? 2 ^ eb - 1) eqn:T; [|destruct (e =? 0) eqn:Z; [destruct (m =? 0) eqn:MZ|]].
  - exists s, e, m, 2047, (m * 2 ^ (52 - mb)). split; [exact F|].
    split; [apply f64_fields; [lia|lia|nia]|]. split; [lia|]. split; [auto|lia].
  - exists s, e, m, 0, 0. split; [exact F|].
    split; [apply f64_fields; lia|]. split; [lia|]. split; [lia|]. intros _.
    unfold magnitude. rewrite Z. cbn [N.eqb]. assert (m = 0) by lia. subst. reflexivity.
  - set (k := N.log2 m). assert (KM := N.log2_spec m ltac:(lia)). fold k in KM.
    assert (KB : k < mb).
    { apply N.log2_lt_pow2; lia. }
    assert (E2 : 2 ^ 52 = 2 ^ k * 2 ^ (52 - k)) by (rewrite <- N.pow_add_r; f_equal; lia).
    assert (E3 : 2 ^ N.succ k = 2 * 2 ^ k) by (rewrite N.pow_succ_r'; reflexivity).
    assert (PK : 1 <= 2 ^ (52 - k)) by (assert (2 ^ (52 - k) <> 0) by (apply N.pow_nonzero; lia); lia).
    change 4503599627370496 with (2 ^ 52).
    exists s, e, m, (1023 + k - (2 ^ (eb - 1) - 1 - 1) - mb), (m * 2 ^ (52 - k) - 2 ^ 52).
    assert (M1 : 2 ^ 52 <= m * 2 ^ (52 - k)).
    { rewrite E2. apply N.mul_le_mono_r. apply KM. }
    assert (M2 : m * 2 ^ (52 - k) < 2 * 2 ^ 52).
    { rewrite E2, N.mul_assoc, <- E3. apply N.mul_lt_mono_pos_r; [clear -PK; lia|apply KM]. }
    assert (NT : e <> 2 ^ eb - 1) by (clear -T; lia).
    assert (EX : 1 <= 1023 + k - (2 ^ (eb - 1) - 1 - 1) - mb < 2047)
      by (clear -LB B2 KB; lia).
    split; [exact F|].
    split; [apply f64_fields; [exact FS|clear -EX; lia|clear -M1 M2; lia]|].
    split; [clear -NT EX; lia|]. split; [intros E; contradiction (NT E)|]. intros _.
    rewrite magnitude64 by apply EX. unfold magnitude. rewrite Z. cbv zeta.
    match goal with |- context [?x =? 0] => destruct (x =? 0) eqn:W; [clear -EX W; lia|] end.
    replace (2 ^ 52 + (m * 2 ^ (52 - k) - 2 ^ 52)) with (m * 2 ^ (52 - k)) by (clear -M1; lia).
    rewrite <- N.mul_assoc, <- N.pow_add_r. f_equal. f_equal. clear -LB B2 KB LM. lia.
  - exists s, e, m, (1023 + e - (2 ^ (eb - 1) - 1)), (m * 2 ^ (52 - mb)).
    split; [exact F|]. split; [apply f64_fields; [lia|lia|nia]|].
    split; [lia|]. split; [lia|]. intros _.
    rewrite magnitude64 by lia. unfold magnitude. rewrite Z. cbv zeta.
    match goal with |- context [?x =? 0] =>
      destruct (x =? 0) eqn:W; [clear -LB B2 W; lia|] end.
    rewrite EM, <- N.mul_add_distr_r, <- N.mul_assoc, <- N.pow_add_r. f_equal. f_equal. lia.
Qed.

Lemma half_iff v w : v < 2 ^ 16 -> SameFloat 5 10 v w <-> w = widen 5 10 v.
Proof.
  intros L. assert (S : SameFloat 5 10 v (widen 5 10 v)) by (apply widen_same; cbn; lia).
  split; [intros H; eapply SameFloat_unique; eassumption|intros ->; exact S].
Qed.
Lemma single_iff v w : v < 2 ^ 32 -> SameFloat 8 23 v w <-> w = widen 8 23 v.
Proof.
  intros L. assert (S : SameFloat 8 23 v (widen 8 23 v)) by (apply widen_same; cbn; lia).
  split; [intros H; eapply SameFloat_unique; eassumption|intros ->; exact S].
Qed.

(** ** Heads *)

Lemma initial_byte mt n : mt < 8 -> n < 32 ->
  N_of_byte (byte_of_N (32 * mt + n)) / 32 = mt /\
  N_of_byte (byte_of_N (32 * mt + n)) mod 32 = n.
Proof.
  intros L1 L2. rewrite N_of_byte_of_N, (N.mod_small _ 256) by lia.
  rewrite (N.mul_comm 32 mt). split.
  - rewrite N.div_add_l, N.div_small by lia. lia.
  - rewrite N.add_comm, N.mod_add, N.mod_small by lia. reflexivity.
Qed.

Lemma byte_parts x : x = byte_of_N (32 * (N_of_byte x / 32) + N_of_byte x mod 32).
Proof. rewrite <- N.div_mod by lia. symmetry. apply byte_of_N_of_byte. Qed.

Lemma clength_some sub i b v r : sub < 32 ->
  clength sub i b = WOk (Some v, r) <->
  (sub < 24 /\ v = sub /\ r = b)
  \/ exists body, In (sub, List.length body) [(24, 1%nat); (25, 2%nat); (26, 4%nat); (27, 8%nat)] /\
                  be_to_N body = v /\ b = body ++ r.
Proof.
  intros LS. unfold clength. cbv zeta.
  assert (R : forall k, wbind (cread (N.of_nat k) b) (fun '(x, r) => WOk (Some (be_to_N x), r))
                    = WOk (Some v, r) <->
              exists body, List.length body = k /\ be_to_N body = v /\ b = body ++ r).
  { intros k. rewrite wbind_ok. split.
    - intros ([x r'] & C & E). injection E as <- <-. apply cread_ok in C as [-> L].
      exists x. split; [lia|auto].
    - intros (body & <- & <- & ->). exists (body, r).
      split; [apply cread_ok; auto|reflexivity]. }
  destruct (sub <? 24) eqn:L.
  { split.
    - intros H; injection H as <- <-. left. split; [lia|auto].
    - intros [(_ & -> & ->)|(body & I & _)]; [reflexivity|]. cbn in I.
      destruct I as [I|[I|[I|[I|[]]]]]; injection I; lia. }
  destruct (sub =? 24) eqn:E1; [|destruct (sub =? 25) eqn:E2; [|destruct (sub =? 26) eqn:E3;
    [|destruct (sub =? 27) eqn:E4]]].
  1: rewrite (R 1%nat). 2: rewrite (R 2%nat). 3: rewrite (R 4%nat). 4: rewrite (R 8%nat).
  1-4: (split; [intros (body & LB & H); right; exists body; rewrite LB; split; [|exact H]
              |intros [(K & _)|(body & I & H)]; [lia|]; exists body; split; [|exact H]];
        [apply N.eqb_eq in E1 || apply N.eqb_eq in E2 || apply N.eqb_eq in E3 || apply N.eqb_eq in E4;
         subst; cbn; auto 6
        |cbn in I; destruct I as [I|[I|[I|[I|[]]]]]; injection I; lia]).
  split.
  - destruct ((sub =? 31) && i); discriminate.
  - intros [(K & _)|(body & I & _)]; [lia|]. cbn in I.
    destruct I as [I|[I|[I|[I|[]]]]]; injection I; lia.
Qed.

Lemma clength_none sub i b r : clength sub i b = WOk (None, r) <-> sub = 31 /\ i = true /\ r = b.
Proof.
  unfold clength. cbv zeta.
  assert (R : forall k (P : Prop), ~ P -> wbind (cread k b) (fun '(x, r) => WOk (Some (be_to_N x), r))
                    = WOk (None, r) <-> P).
  { intros k P NP. rewrite wbind_ok. split; [|tauto]. intros ([x r'] & C & E). discriminate. }
  destruct (sub <? 24) eqn:L; [split; [discriminate|intros [-> _]; discriminate]|].
  repeat match goal with |- context [if sub =? ?k then _ else _] =>
    destruct (sub =? k) eqn:?; [apply R; intros [-> _]; discriminate|] end.
  destruct ((sub =? 31) && i) eqn:E.
  - apply andb_prop in E as [E1 E2]. apply N.eqb_eq in E1.
    split; [intros H; injection H as <-; auto|intros (_ & _ & ->); reflexivity].
  - split; [discriminate|intros (-> & -> & _); discriminate].
Qed.

Lemma cons_inj {A} (x y : A) l m : x :: l = y :: m -> x = y /\ l = m.
Proof. intros H. injection H. auto. Qed.

(** A head at the front of the input. *)
Lemma head_read x b i v r :
  clength (N_of_byte x mod 32) i b = WOk (Some v, r) <->
  exists h, x :: b = h ++ r /\ Head (N_of_byte x / 32) v h.
Proof.
  assert (LS : N_of_byte x mod 32 < 32) by (apply N.mod_lt; lia).
  assert (LM : N_of_byte x / 32 < 8).
  { apply N.div_lt_upper_bound; [lia|]. assert (H := N_of_byte_bound x). lia. }
  rewrite clength_some by exact LS. split.
  - intros [(L & -> & ->)|(body & I & <- & ->)].
    + exists [x]. split; [reflexivity|]. left. split; [exact L|]. f_equal. apply byte_parts.
    + exists (x :: body). split; [reflexivity|]. right.
      exists (N_of_byte x mod 32), body. split; [exact I|]. split; [reflexivity|].
      f_equal. apply byte_parts.
  - intros (h & E & [(L & ->)|(info & body & I & <- & ->)]).
    + apply cons_inj in E as [EX E]. cbn [app] in E. subst b. left.
      destruct (initial_byte _ v LM ltac:(lia)) as [_ K]. rewrite <- EX in K. rewrite K. auto.
    + apply cons_inj in E as [EX E]. subst b. right. exists body.
      assert (L : info < 32) by (cbn in I; destruct I as [I|[I|[I|[I|[]]]]]; injection I; lia).
      destruct (initial_byte _ info LM L) as [_ K]. rewrite <- EX in K. rewrite K. auto.
Qed.

Lemma Head_front mt v h : mt < 8 -> Head mt v h -> exists x t, h = x :: t /\ N_of_byte x / 32 = mt.
Proof.
  intros L [(LN & ->)|(info & body & I & _ & ->)].
  - exists (byte_of_N (32 * mt + v)), []. split; [reflexivity|]. apply initial_byte; lia.
  - exists (byte_of_N (32 * mt + info)), body. split; [reflexivity|].
    apply initial_byte; [lia|]. cbn in I. destruct I as [I|[I|[I|[I|[]]]]]; injection I; lia.
Qed.

(** ** Major type 7 *)
Lemma cread_some k b (f : bytes -> pyval) v r :
  wbind (cread (N.of_nat k) b) (fun '(x, r) => WOk (f x, r)) = WOk (v, r) <->
  exists body, List.length body = k /\ v = f body /\ b = body ++ r.
Proof.
  rewrite wbind_ok. split.
  - intros ([x r'] & C & E). injection E as <- <-. apply cread_ok in C as [-> L].
    exists x. split; [lia|auto].
  - intros (body & <- & -> & ->). exists (body, r). split; [apply cread_ok; auto|reflexivity].
Qed.

Lemma cspecial_iff x b v r : N_of_byte x / 32 = 7 ->
  cspecial (N_of_byte x mod 32) b = WOk (v, r) <-> exists p, x :: b = p ++ r /\ Special v p.
Proof.
  intros M. assert (X := byte_parts x). rewrite M in X. change (32 * 7) with 224 in X.
  assert (LS : N_of_byte x mod 32 < 32) by (apply N.mod_lt; lia).
  split.
  - revert X LS. generalize (N_of_byte x mod 32). intros sub X LS. unfold cspecial.
    destruct (sub <? 20) eqn:L.
    { intros H. injection H as <- <-. exists [x]. split; [reflexivity|]. rewrite X.
      apply sp_simple. lia. }
    repeat match goal with |- context [if sub =? ?k then _ else _] =>
      let T := fresh "T" in destruct (sub =? k) eqn:T;
        [apply N.eqb_eq in T; subst sub; cbn in X; subst x|] end; try discriminate.
    + intros H. injection H as <- <-. eexists. split; [|apply sp_false]. reflexivity.
    + intros H. injection H as <- <-. eexists. split; [|apply sp_true]. reflexivity.
    + intros H. injection H as <- <-. eexists. split; [|apply sp_null]. reflexivity.
    + intros H. injection H as <- <-. eexists. split; [|apply sp_undefined]. reflexivity.
    + intros H. apply (cread_some 1 b (fun x => v_simple (be_to_N x))) in H.
      destruct H as (body & LB & -> & ->). destruct body as [|y [|]]; try discriminate.
      exists [xf8; y]. split; [reflexivity|].
      replace (be_to_N [y]) with (N_of_byte y) by (unfold be_to_N; cbn [fold_left]; lia).
      apply sp_simple_byte.
    + intros H. apply (cread_some 2 b (fun x => VFloat (widen 5 10 (be_to_N x)))) in H.
      destruct H as (body & LB & -> & ->). exists (xf9 :: body). split; [reflexivity|].
      apply sp_half; [exact LB|]. apply half_iff; [|reflexivity].
      assert (B := be_to_N_bound body). rewrite LB in B. exact B.
    + intros H. apply (cread_some 4 b (fun x => VFloat (widen 8 23 (be_to_N x)))) in H.
      destruct H as (body & LB & -> & ->). exists (xfa :: body). split; [reflexivity|].
      apply sp_single; [exact LB|]. apply single_iff; [|reflexivity].
      assert (B := be_to_N_bound body). rewrite LB in B. exact B.
    + intros H. apply (cread_some 8 b (fun x => VFloat (be_to_N x))) in H.
      destruct H as (body & LB & -> & ->). exists (xfb :: body). split; [reflexivity|].
      apply sp_double. exact LB.
    + intros H. injection H as <- <-. eexists. split; [|apply sp_break]. reflexivity.
  - intros (p & E & S).
    destruct S as [| | | |n L|y|body w LB SF|body w LB SF|body LB|]; cbn [app] in E;
      apply cons_inj in E as [-> E]; try (subst; reflexivity).
    + subst b. destruct (initial_byte 7 n ltac:(lia) ltac:(lia)) as [_ K].
      change (32 * 7) with 224 in K. rewrite K. unfold cspecial.
      destruct (n <? 20) eqn:T; [reflexivity|lia].
    + subst b. change (N_of_byte xf8 mod 32) with 24. unfold cspecial. cbn [N.ltb N.eqb N.compare].
      change (24 <? 20) with false. cbn iota.
      apply (cread_some 1 (y :: r) (fun x => v_simple (be_to_N x))).
      exists [y]. split; [reflexivity|]. split; [|reflexivity].
      unfold v_simple, be_to_N; cbn [fold_left]. f_equal.
    + subst b. change (N_of_byte xf9 mod 32) with 25.
      apply (cread_some 2 (body ++ r) (fun x => VFloat (widen 5 10 (be_to_N x)))).
      exists body. split; [exact LB|]. split; [|reflexivity]. f_equal.
      apply half_iff in SF; [exact SF|]. assert (B := be_to_N_bound body). rewrite LB in B. exact B.
    + subst b. change (N_of_byte xfa mod 32) with 26.
      apply (cread_some 4 (body ++ r) (fun x => VFloat (widen 8 23 (be_to_N x)))).
      exists body. split; [exact LB|]. split; [|reflexivity]. f_equal.
      apply single_iff in SF; [exact SF|]. assert (B := be_to_N_bound body). rewrite LB in B. exact B.
    + subst b. change (N_of_byte xfb mod 32) with 27.
      apply (cread_some 8 (body ++ r) (fun x => VFloat (be_to_N x))). exists body. auto.
Qed.

(** ** Strings *)
Lemma string_read x b i l r1 c r :
  clength (N_of_byte x mod 32) i b = WOk (Some l, r1) -> cread l r1 = WOk (c, r) ->
  exists p, x :: b = p ++ r /\ StringItem (N_of_byte x / 32) c p.
Proof.
  intros H C. apply head_read in H as (h & E & H). apply cread_ok in C as [-> <-].
  exists (h ++ c). split; [rewrite E, app_assoc; reflexivity|]. exists h. auto.
Qed.

Lemma string_written mt c p r : mt < 8 -> StringItem mt c p ->
  exists x b r1, p ++ r = x :: b /\ N_of_byte x / 32 = mt /\
    (forall i, clength (N_of_byte x mod 32) i b = WOk (Some (N.of_nat (List.length c)), r1)) /\
    cread (N.of_nat (List.length c)) r1 = WOk (c, r).
Proof.
  intros L (h & H & ->). destruct (Head_front _ _ _ L H) as (x & t & -> & M).
  exists x, (t ++ c ++ r), (c ++ r). split; [cbn [app]; rewrite <- app_assoc; reflexivity|].
  split; [exact M|]. split.
  - intros i. apply head_read. exists (x :: t). split; [reflexivity|]. rewrite M. exact H.
  - apply cread_ok. auto.
Qed.

Lemma StringItem_length mt c p : mt < 8 -> StringItem mt c p -> (1 <= List.length p)%nat.
Proof.
  intros L (h & H & ->). destruct (Head_front _ _ _ L H) as (x & t & -> & M). cbn. lia.
Qed.

Lemma byte_255 x : N_of_byte x =? 255 = true -> x = xff.
Proof.
  intros E. apply N.eqb_eq in E. rewrite <- (byte_of_N_of_byte x), E. reflexivity.
Qed.

Lemma chunks_sound f mt : forall b cs r, cchunks f mt b = WOk (cs, r) ->
  exists parts, b = List.concat parts ++ [xff] ++ r /\ Forall2 (StringItem mt) cs parts.
Proof.
  induction f as [|f IH]; intros b cs r H; [discriminate|]. cbn [cchunks] in H.
  destruct b as [|x b]; [discriminate|]. cbv zeta in H.
  destruct (N_of_byte x =? 255) eqn:X.
  { apply byte_255 in X. injection H as <- <-. subst x. exists []. auto. }
  destruct (N_of_byte x / 32 =? mt) eqn:M; [|discriminate]. apply N.eqb_eq in M.
  apply wbind_ok in H as ([l r1] & H1 & H). destruct l as [l|]; [|discriminate].
  apply wbind_ok in H as ([c r2] & H2 & H). apply wcons_ok in H as (tl & H & ->).
  apply IH in H as (parts & -> & F).
  destruct (string_read _ _ _ _ _ _ _ H1 H2) as (p & E & S). rewrite M in S.
  exists (p :: parts). split; [|constructor; assumption].
  rewrite E. cbn [List.concat]. rewrite <- !app_assoc. reflexivity.
Qed.

Lemma chunks_complete mt cs parts : mt < 7 -> Forall2 (StringItem mt) cs parts ->
  forall f r, (List.length (List.concat parts) + 1 <= f)%nat ->
  cchunks f mt (List.concat parts ++ xff :: r) = WOk (cs, r).
Proof.
  intros L. induction 1 as [|c p cs parts S F IH]; intros f r LF.
  - destruct f; [lia|]. reflexivity.
  - destruct f as [|f]; [lia|]. cbn [List.concat] in *. rewrite app_length in LF.
    assert (LP := StringItem_length mt c p ltac:(lia) S).
    rewrite <- app_assoc.
    destruct (string_written mt c p (List.concat parts ++ xff :: r) ltac:(lia) S)
      as (x & b & r1 & -> & M & H1 & H2).
    cbn [cchunks]. cbv zeta.
    destruct (N_of_byte x =? 255) eqn:X; [apply byte_255 in X; subst; cbn in L; lia|].
    rewrite M, N.eqb_refl, H1. cbn [wbind]. rewrite H2. cbn [wbind].
    rewrite IH by lia. reflexivity.
Qed.

Lemma ctext_ok b s : ctext b = WOk s <-> Text s b.
Proof.
  unfold ctext, Text. rewrite <- utf8_decode_iff.
  destruct (utf8_decode b); split; intros H; congruence.
Qed.

Lemma ctexts_ok cs : forall s, ctexts cs = WOk s <-> exists ss, s = List.concat ss /\ Forall2 Text ss cs.
Proof.
  induction cs as [|c cs IH]; intros s; cbn [ctexts].
  - split.
    + intros H. injection H as <-. exists []. auto.
    + intros (ss & -> & F). inversion F. reflexivity.
  - rewrite wbind_ok. split.
    + intros (a & H1 & H). apply wbind_ok in H as (t & H2 & H). injection H as <-.
      apply IH in H2 as (ss & -> & F). apply ctext_ok in H1. exists (a :: ss). auto.
    + intros (ss & -> & F). inversion F as [|a ? ss' ? T F']; subst.
      exists a. split; [apply ctext_ok, T|]. apply wbind_ok. exists (List.concat ss').
      split; [apply IH; eauto|reflexivity].
Qed.

(** ** Items *)
Lemma major x : N_of_byte x / 32 < 8.
Proof. apply N.div_lt_upper_bound; [lia|]. assert (H := N_of_byte_bound x). lia. Qed.

Lemma indefinite x : N_of_byte x mod 32 = 31 -> x = byte_of_N (32 * (N_of_byte x / 32) + 31).
Proof. intros <-. apply byte_parts. Qed.

Lemma is_break_iff v : is_break v = true <-> v = VOther 31 0.
Proof.
  split; [|intros ->; reflexivity]. destruct v as [| | | | | | | | | |t n]; try discriminate. cbn.
  intros H. apply andb_prop in H as [H1 H2]. apply N.eqb_eq in H1, H2. subst. reflexivity.
Qed.

Lemma not_break v : is_break v = false <-> ~ Break v.
Proof.
  unfold Break. rewrite <- is_break_iff. destruct (is_break v); split; congruence.
Qed.

Definition set_all (acc : pydict) (ps : list (pyval * pyval)) : pydict :=
  fold_left (fun d p => dict_set (fst p) (snd p) d) ps acc.

Section Tags.
Variable tags : tagsem.
Local Notation cdec := (Cbor.cdec tags).
Local Notation citems := (Cbor.citems tags).
Local Notation cpairs := (Cbor.cpairs tags).
Local Notation Cbor := (CborSpec.Cbor tags).
Local Notation Cbors := (CborSpec.Cbors tags).
Local Notation CborPairs := (CborSpec.CborPairs tags).

Lemma cdec_sound f :
  (forall d key b v r, cdec f d key b = WOk (v, r) ->
     exists p, b = p ++ r /\ Cbor d key v p) /\
  (forall d key n b vs r, citems f d key (Some n) b = WOk (vs, r) ->
     exists p, b = p ++ r /\ Cbors d key vs p /\ N.of_nat (List.length vs) = n) /\
  (forall d key b vs r, citems f d key None b = WOk (vs, r) ->
     exists p e, b = p ++ e ++ r /\ Cbors d key vs p /\ Forall (fun v => ~ Break v) vs /\
       Cbor d key (VOther 31 0) e) /\
  (forall d key n b acc m r, cpairs f d key (Some n) b acc = WOk (m, r) ->
     exists p ps, b = p ++ r /\ CborPairs d key ps p /\ N.of_nat (List.length ps) = n /\
       m = set_all acc ps) /\
  (forall d key b acc m r, cpairs f d key None b acc = WOk (m, r) ->
     exists p e ps, b = p ++ e ++ r /\ CborPairs d key ps p /\
       Forall (fun p => ~ Break (fst p)) ps /\ Cbor d true (VOther 31 0) e /\ m = set_all acc ps).
Proof.
  induction f as [|f (IH & IHn & IHi & IHpn & IHpi)]; [repeat split; intros; discriminate|].
  repeat split.
  - intros d key b v r H. cbn [Cbor.cdec] in H. destruct b as [|x t]; [discriminate|]. cbv zeta in H.
    assert (LM := major x).
    repeat match type of H with (if N_of_byte x / 32 =? ?k then _ else _) = _ =>
      let T := fresh "T" in destruct (N_of_byte x / 32 =? k) eqn:T;
        [apply N.eqb_eq in T|] end.
    + apply wbind_ok in H as ([l r1] & H1 & H). destruct l; [|discriminate].
      injection H as <- <-. apply head_read in H1 as (h & -> & H). exists h.
      split; [reflexivity|]. apply cb_unsigned. rewrite <- T. exact H.
    + apply wbind_ok in H as ([l r1] & H1 & H). destruct l; [|discriminate].
      injection H as <- <-. apply head_read in H1 as (h & -> & H). exists h.
      split; [reflexivity|]. apply cb_negative. rewrite <- T0. exact H.
    + apply wbind_ok in H as ([l r1] & H1 & H). destruct l.
      * apply wbind_ok in H as ([c r2] & H2 & H). injection H as <- <-.
        destruct (string_read _ _ _ _ _ _ _ H1 H2) as (p & -> & S). rewrite T1 in S.
        exists p. split; [reflexivity|]. apply cb_bytes. exact S.
      * apply clength_none in H1 as (X & _ & ->). apply indefinite in X. rewrite T1 in X.
        apply wbind_ok in H as ([c r2] & H2 & H). injection H as <- <-.
        apply chunks_sound in H2 as (parts & -> & F).
        exists (x5f :: List.concat parts ++ [xff]).
        split; [cbn [app]; rewrite <- app_assoc, X; reflexivity|]. apply cb_chunked_bytes. exact F.
    + apply wbind_ok in H as ([l r1] & H1 & H). destruct l.
      * apply wbind_ok in H as ([c r2] & H2 & H). apply wbind_ok in H as (s & H3 & H).
        injection H as <- <-. apply ctext_ok in H3.
        destruct (string_read _ _ _ _ _ _ _ H1 H2) as (p & -> & S). rewrite T2 in S.
        exists p. split; [reflexivity|]. eapply cb_text; eassumption.
      * apply clength_none in H1 as (X & _ & ->). apply indefinite in X. rewrite T2 in X.
        apply wbind_ok in H as ([c r2] & H2 & H). apply wbind_ok in H as (s & H3 & H).
        injection H as <- <-. apply ctexts_ok in H3 as (ss & -> & FT).
        apply chunks_sound in H2 as (parts & -> & F).
        exists (x7f :: List.concat parts ++ [xff]).
        split; [cbn [app]; rewrite <- app_assoc, X; reflexivity|].
        eapply cb_chunked_text; eassumption.
    + destruct d as [|d]; [discriminate|]. apply wbind_ok in H as ([l r1] & H1 & H).
      apply wbind_ok in H as ([vs r2] & H2 & H). injection H as <- <-. destruct l.
      * apply head_read in H1 as (h & E & H1). rewrite T3 in H1.
        apply IHn in H2 as (p & -> & C & <-). exists (h ++ p).
        split; [rewrite E, app_assoc; reflexivity|]. apply cb_array; assumption.
      * apply clength_none in H1 as (X & _ & ->). apply indefinite in X. rewrite T3 in X.
        apply IHi in H2 as (p & e & -> & C & B & CE). exists (x9f :: p ++ e).
        split; [cbn [app]; rewrite <- app_assoc, X; reflexivity|]. apply cb_open_array; assumption.
    + destruct d as [|d]; [discriminate|].
      apply wbind_ok in H as ([l r1] & H1 & H).
      apply wbind_ok in H as ([m r2] & H2 & H). injection H as <- <-. destruct l.
      * apply head_read in H1 as (h & E & H1). rewrite T4 in H1.
        apply IHpn in H2 as (p & ps & -> & C & <- & ->). exists (h ++ p).
        split; [rewrite E, app_assoc; reflexivity|]. apply cb_map; assumption.
      * apply clength_none in H1 as (X & _ & ->). apply indefinite in X. rewrite T4 in X.
        apply IHpi in H2 as (p & e & ps & -> & C & B & CE & ->). exists (xbf :: p ++ e).
        split; [cbn [app]; rewrite <- app_assoc, X; reflexivity|]. apply cb_open_map; assumption.
    + destruct d as [|d]; [discriminate|].
      apply wbind_ok in H as ([[l|] r1] & H1 & H); [|discriminate].
      destruct ((l =? 25) || (l =? 29)) eqn:R; [discriminate|]. apply orb_false_elim in R as [R1 R2].
      apply wbind_ok in H as ([c r2] & H2 & H). apply wbind_ok in H as (w & H3 & H).
      injection H as <- <-. apply head_read in H1 as (h & E & H1). rewrite T5 in H1.
      apply IH in H2 as (p & -> & C). exists (h ++ p).
      split; [rewrite E, app_assoc; reflexivity|].
      apply N.eqb_neq in R1, R2. eapply cb_tagged; eassumption.
    + apply cspecial_iff in H; [|lia]. destruct H as (p & E & S). exists p.
      split; [exact E|]. apply cb_special. exact S.
  - intros d key n b vs r H. cbn [Cbor.citems] in H. destruct (n =? 0) eqn:Z.
    + injection H as <- <-. exists []. split; [reflexivity|]. split; [constructor|]. cbn; lia.
    + apply wbind_ok in H as ([v r1] & H1 & H). apply wcons_ok in H as (tl & H & ->).
      apply IH in H1 as (p & -> & C). apply IHn in H as (q & -> & CS & L). exists (p ++ q).
      split; [apply app_assoc|]. split; [constructor; assumption|]. cbn [List.length]. lia.
  - intros d key b vs r H. cbn [Cbor.citems] in H.
    apply wbind_ok in H as ([v r1] & H1 & H). apply IH in H1 as (p & -> & C).
    destruct (is_break v) eqn:B.
    + injection H as <- <-. apply is_break_iff in B as ->. exists [], p.
      split; [reflexivity|]. repeat split; [constructor|constructor|exact C].
    + apply wcons_ok in H as (tl & H & ->). apply IHi in H as (q & e & -> & CS & F & CE).
      exists (p ++ q), e.
      split; [rewrite <- app_assoc; reflexivity|]. split; [constructor; assumption|].
      split; [constructor; [apply not_break, B|exact F]|exact CE].
  - intros d key n b acc m r H. cbn [Cbor.cpairs] in H. cbv zeta in H. destruct (n =? 0) eqn:Z.
    + injection H as <- <-. exists [], []. split; [reflexivity|]. split; [constructor|].
      split; [cbn; lia|reflexivity].
    + apply wbind_ok in H as ([k r1] & H1 & H). apply IH in H1 as (p & -> & C).
      apply wbind_ok in H as ([v r2] & H2 & H). apply IH in H2 as (q & -> & C2).
      apply IHpn in H as (s & ps & -> & CS & L & ->). exists (p ++ q ++ s), ((k, v) :: ps).
      split; [rewrite <- !app_assoc; reflexivity|]. split; [constructor; assumption|].
      split; [cbn [List.length]; lia|reflexivity].
  - intros d key b acc m r H. cbn [Cbor.cpairs] in H. cbv zeta in H.
    apply wbind_ok in H as ([k r1] & H1 & H). apply IH in H1 as (p & -> & C).
    destruct (is_break k) eqn:B.
    + injection H as <- <-. apply is_break_iff in B as ->. exists [], p, [].
      split; [reflexivity|]. repeat split; [constructor|constructor|exact C].
    + apply wbind_ok in H as ([v r2] & H2 & H). apply IH in H2 as (q & -> & C2).
      apply IHpi in H as (s & e & ps & -> & CS & F & CE & ->). exists (p ++ q ++ s), e, ((k, v) :: ps).
      split; [rewrite <- !app_assoc; reflexivity|]. split; [constructor; assumption|].
      split; [constructor; [apply not_break, B|exact F]|]. split; [exact CE|reflexivity].
Qed.

Lemma Special_front v p : Special v p -> exists x t, p = x :: t /\ N_of_byte x / 32 = 7.
Proof.
  destruct 1; try (eexists; eexists; split; [reflexivity|reflexivity]).
  exists (byte_of_N (224 + n)), []. split; [reflexivity|].
  apply (initial_byte 7 n); lia.
Qed.

(** What the decoder does at a head. *)
Lemma head_front mt n h r : mt < 8 -> Head mt n h ->
  exists x b, h ++ r = x :: b /\ N_of_byte x / 32 = mt /\
    forall i, clength (N_of_byte x mod 32) i b = WOk (Some n, r).
Proof.
  intros L H. destruct (Head_front _ _ _ L H) as (x & t & -> & M). exists x, (t ++ r).
  split; [reflexivity|]. split; [exact M|]. intros i. apply head_read. exists (x :: t).
  split; [reflexivity|]. rewrite M. exact H.
Qed.

Lemma Head_length mt n h : mt < 8 -> Head mt n h -> (1 <= List.length h)%nat.
Proof. intros L H. destruct (Head_front _ _ _ L H) as (x & t & -> & M). cbn. lia. Qed.

Lemma Forall_cons_inv {A} (P : A -> Prop) a l : Forall P (a :: l) -> P a /\ Forall P l.
Proof. intros H. inversion H. auto. Qed.

Lemma cdec_complete :
  (forall d key v p, Cbor d key v p -> (1 <= List.length p)%nat /\
     forall f r, (2 * List.length p <= f)%nat -> cdec f d key (p ++ r) = WOk (v, r)) /\
  (forall d key vs p, Cbors d key vs p ->
     (forall f r, (2 * List.length p + 1 <= f)%nat ->
        citems f d key (Some (N.of_nat (List.length vs))) (p ++ r) = WOk (vs, r)) /\
     (forall e, (1 <= List.length e)%nat ->
        (forall f r, (2 * List.length e <= f)%nat -> cdec f d key (e ++ r) = WOk (VOther 31 0, r)) ->
        forall f r, (2 * (List.length p + List.length e) + 1 <= f)%nat -> Forall (fun v => ~ Break v) vs ->
        citems f d key None (p ++ e ++ r) = WOk (vs, r))) /\
  (forall d key ps p, CborPairs d key ps p ->
     (forall f r acc, (2 * List.length p + 1 <= f)%nat ->
        cpairs f d key (Some (N.of_nat (List.length ps))) (p ++ r) acc = WOk (set_all acc ps, r)) /\
     (forall e, (1 <= List.length e)%nat ->
        (forall f r, (2 * List.length e <= f)%nat -> cdec f d true (e ++ r) = WOk (VOther 31 0, r)) ->
        forall f r acc, (2 * (List.length p + List.length e) + 1 <= f)%nat ->
        Forall (fun p => ~ Break (fst p)) ps ->
        cpairs f d key None (p ++ e ++ r) acc = WOk (set_all acc ps, r))).
Proof.
  apply Cbor_mutind.
  - intros d key n h H. assert (LH := Head_length 0 n h ltac:(lia) H). split; [exact LH|].
    intros f r L. destruct f as [|f]; [lia|].
    destruct (head_front 0 n h r ltac:(lia) H) as (x & b & -> & M & C).
    cbn [Cbor.cdec]. cbv zeta. rewrite M, C. reflexivity.
  - intros d key n h H. assert (LH := Head_length 1 n h ltac:(lia) H). split; [exact LH|].
    intros f r L. destruct f as [|f]; [lia|].
    destruct (head_front 1 n h r ltac:(lia) H) as (x & b & -> & M & C).
    cbn [Cbor.cdec]. cbv zeta. rewrite M, C. reflexivity.
  - intros d key c p S. assert (LP := StringItem_length 2 c p ltac:(lia) S). split; [exact LP|].
    intros f r L. destruct f as [|f]; [lia|].
    destruct (string_written 2 c p r ltac:(lia) S) as (x & b & r1 & -> & M & H1 & H2).
    cbn [Cbor.cdec]. cbv zeta. rewrite M. cbn [N.eqb Pos.eqb]. rewrite H1. cbn [wbind]. rewrite H2. reflexivity.
  - intros d key cs parts F. split; [cbn; lia|]. intros f r L. destruct f as [|f]; [cbn in L; lia|].
    cbn [app List.length] in *. rewrite app_length in L. cbn [List.length] in L.
    rewrite <- app_assoc. cbn [Cbor.cdec app]. cbv zeta.
    change (N_of_byte x5f / 32) with 2. change (N_of_byte x5f mod 32) with 31.
    cbn [N.eqb Pos.eqb].
    rewrite (proj2 (clength_none 31 true _ _) (conj eq_refl (conj eq_refl eq_refl))). cbn [wbind].
    rewrite (chunks_complete 2 cs parts ltac:(lia) F) by lia. reflexivity.
  - intros d key s c p T S. assert (LP := StringItem_length 3 c p ltac:(lia) S). split; [exact LP|].
    intros f r L. destruct f as [|f]; [lia|].
    destruct (string_written 3 c p r ltac:(lia) S) as (x & b & r1 & -> & M & H1 & H2).
    cbn [Cbor.cdec]. cbv zeta. rewrite M. cbn [N.eqb Pos.eqb]. rewrite H1. cbn [wbind]. rewrite H2. cbn [wbind].
    apply ctext_ok in T. rewrite T. reflexivity.
  - intros d key ss cs parts T F. split; [cbn; lia|]. intros f r L. destruct f as [|f]; [cbn in L; lia|].
    cbn [app List.length] in *. rewrite app_length in L. cbn [List.length] in L.
    rewrite <- app_assoc. cbn [Cbor.cdec app]. cbv zeta.
    change (N_of_byte x7f / 32) with 3. change (N_of_byte x7f mod 32) with 31.
    cbn [N.eqb Pos.eqb].
    rewrite (proj2 (clength_none 31 true _ _) (conj eq_refl (conj eq_refl eq_refl))). cbn [wbind].
    rewrite (chunks_complete 3 cs parts ltac:(lia) F) by lia. cbn [wbind].
    rewrite (proj2 (ctexts_ok cs (List.concat ss))) by eauto. reflexivity.
  - intros d key vs h bs H _ [IH _]. assert (LH := Head_length 4 _ h ltac:(lia) H).
    rewrite app_length. split; [lia|]. intros f r L. destruct f as [|f]; [lia|].
    rewrite <- app_assoc.
    destruct (head_front 4 _ h (bs ++ r) ltac:(lia) H) as (x & b & -> & M & C).
    cbn [Cbor.cdec]. cbv zeta. rewrite M. cbn [N.eqb Pos.eqb]. rewrite C. cbn [wbind].
    rewrite IH by lia. reflexivity.
  - intros d key vs bs e _ [_ IH] B _ [LE IHe]. cbn [List.length]. rewrite app_length.
    split; [lia|]. intros f r L. destruct f as [|f]; [lia|]. cbn [app]. rewrite <- app_assoc.
    cbn [Cbor.cdec]. cbv zeta.
    change (N_of_byte x9f / 32) with 4. change (N_of_byte x9f mod 32) with 31.
    cbn [N.eqb Pos.eqb].
    rewrite (proj2 (clength_none 31 true _ _) (conj eq_refl (conj eq_refl eq_refl))). cbn [wbind].
    rewrite (IH e LE IHe) by (lia || assumption). reflexivity.
  - intros d key ps h bs H _ [IH _]. assert (LH := Head_length 5 _ h ltac:(lia) H).
    rewrite app_length. split; [lia|]. intros f r L. destruct f as [|f]; [lia|].
    rewrite <- app_assoc.
    destruct (head_front 5 _ h (bs ++ r) ltac:(lia) H) as (x & b & -> & M & C).
    cbn [Cbor.cdec]. cbv zeta. rewrite M. cbn [N.eqb Pos.eqb]. rewrite C. cbn [wbind].
    rewrite IH by lia. reflexivity.
  - intros d key ps bs e _ [_ IH] B _ [LE IHe]. cbn [List.length]. rewrite app_length.
    split; [lia|]. intros f r L. destruct f as [|f]; [lia|]. cbn [app]. rewrite <- app_assoc.
    cbn [Cbor.cdec]. cbv zeta.
    change (N_of_byte xbf / 32) with 5. change (N_of_byte xbf mod 32) with 31.
    cbn [N.eqb Pos.eqb].
    rewrite (proj2 (clength_none 31 true _ _) (conj eq_refl (conj eq_refl eq_refl))). cbn [wbind].
    rewrite (IH e LE IHe) by (lia || assumption). reflexivity.
  - intros d key t v w h bs H N1 N2 _ [LB IH] TG. assert (LH := Head_length 6 _ h ltac:(lia) H).
    rewrite app_length. split; [lia|]. intros f r L. destruct f as [|f]; [lia|].
    rewrite <- app_assoc.
    destruct (head_front 6 _ h (bs ++ r) ltac:(lia) H) as (x & b & -> & M & C).
    cbn [Cbor.cdec]. cbv zeta. rewrite M. cbn [N.eqb Pos.eqb]. rewrite C. cbn [wbind].
    apply N.eqb_neq in N1, N2. rewrite N1, N2. cbn [orb]. rewrite IH by lia. cbn [wbind].
    rewrite TG. reflexivity.
  - intros d key v p S. destruct (Special_front _ _ S) as (x & t & E & M).
    split; [rewrite E; cbn; lia|]. intros f r L. destruct f as [|f]; [rewrite E in L; cbn in L; lia|].
    rewrite E. cbn [app Cbor.cdec]. cbv zeta. rewrite M. cbn [N.eqb Pos.eqb].
    apply cspecial_iff; [exact M|]. exists p. rewrite E. split; [reflexivity|]. rewrite <- E. exact S.
  - intros d key. split.
    + intros f r L. destruct f as [|f]; [lia|]. reflexivity.
    + intros e LE IHe f r L _. destruct f as [|f]; [lia|]. cbn [List.length app Cbor.citems] in *.
      rewrite IHe by lia. reflexivity.
  - intros d key v p vs q C [LP IH] _ [IHn IHi]. rewrite app_length. split.
    + intros f r L. destruct f as [|f]; [lia|]. cbn [Cbor.citems]. rewrite <- app_assoc.
      destruct (N.of_nat (List.length (v :: vs)) =? 0) eqn:Z; [cbn in Z; lia|].
      rewrite IH by lia. cbn [wbind].
      replace (N.of_nat (List.length (v :: vs)) - 1) with (N.of_nat (List.length vs)) by (cbn [List.length]; lia).
      rewrite IHn by lia. reflexivity.
    + intros e LE IHe f r L F. apply Forall_cons_inv in F as [B F].
      destruct f as [|f]; [lia|]. cbn [Cbor.citems]. rewrite <- app_assoc.
      rewrite IH by lia. cbn [wbind]. rewrite (proj2 (not_break _) B).
      rewrite (IHi e LE IHe) by (lia || assumption). reflexivity.
  - intros d key. split.
    + intros f r acc L. destruct f as [|f]; [lia|]. reflexivity.
    + intros e LE IHe f r acc L _. destruct f as [|f]; [lia|]. cbn [List.length app Cbor.cpairs] in *.
      cbv zeta. rewrite IHe by lia. reflexivity.
  - intros d key k v p q ps s C [LP IHk] _ [LQ IHv] _ [IHn IHi]. rewrite !app_length. split.
    + intros f r acc L. destruct f as [|f]; [lia|]. cbn [Cbor.cpairs]. cbv zeta. rewrite <- !app_assoc.
      destruct (N.of_nat (List.length ((k, v) :: ps)) =? 0) eqn:Z; [cbn in Z; lia|].
      rewrite IHk by lia. cbn [wbind]. rewrite IHv by lia. cbn [wbind].
      replace (N.of_nat (List.length ((k, v) :: ps)) - 1) with (N.of_nat (List.length ps)) by (cbn [List.length]; lia).
      rewrite IHn by lia. reflexivity.
    + intros e LE IHe f r acc L F. apply Forall_cons_inv in F as [B F]. cbn [fst] in B.
      destruct f as [|f]; [lia|]. cbn [Cbor.cpairs]. cbv zeta. rewrite <- !app_assoc.
      rewrite IHk by lia. cbn [wbind]. rewrite (proj2 (not_break _) B).
      rewrite IHv by lia. cbn [wbind]. rewrite (IHi e LE IHe) by (lia || assumption). reflexivity.
Qed.

Theorem cbor_load_iff depth b v r :
  cbor_load_tags tags depth b = WOk (v, r) <-> exists p, b = p ++ r /\ Cbor depth false v p.
Proof.
  split.
  - intros H. apply (proj1 (cdec_sound _)) in H. exact H.
  - intros (p & -> & C). destruct (proj1 cdec_complete _ _ _ _ C) as [LP H]. unfold cbor_load_tags.
    apply H. rewrite app_length. lia.
Qed.

(** An item is no proper prefix of another, and has one value. *)
Lemma Cbor_unambiguous d key v w p t : Cbor d key v p -> Cbor d key w (p ++ t) -> t = [] /\ v = w.
Proof.
  intros C1 C2. destruct (proj1 cdec_complete _ _ _ _ C1) as [_ H1].
  destruct (proj1 cdec_complete _ _ _ _ C2) as [_ H2].
  set (f := (2 * List.length (p ++ t))%nat).
  assert (LF : (2 * List.length p <= f)%nat) by (unfold f; rewrite app_length; lia).
  specialize (H1 f t LF). specialize (H2 f [] (le_n _)). rewrite app_nil_r, H1 in H2.
  injection H2. auto.
Qed.

(** ** Failures *)

(** The exceptions of the decoder. *)
Definition cbor_exns : list pyexn :=
  [ECBORDecodeEOF; ECBORDecodeValueError; EUnicodeDecodeError; ERecursionError; EOther 998].

Lemma cread_fails n b e : cread n b = WRaise e -> In e cbor_exns.
Proof. unfold cread. destruct (_ <? _); [|discriminate]. intros H. injection H as <-. cbn; auto. Qed.

Lemma wbind_fails {A B} (m : wres A) (k : A -> wres B) e :
  wbind m k = WRaise e -> m = WRaise e \/ exists a, m = WOk a /\ k a = WRaise e.
Proof. destruct m; cbn; [eauto|intros H; injection H as ->; auto]. Qed.

Lemma wcons_fails {A B} (a : A) (m : wres (list A * B)) e : wcons a m = WRaise e -> m = WRaise e.
Proof. destruct m as [[]|]; cbn; [discriminate|auto]. Qed.

Lemma clength_fails sub i b e : clength sub i b = WRaise e -> In e cbor_exns.
Proof.
  unfold clength. cbv zeta. intros H.
  repeat match type of H with (if ?c then _ else _) = _ => destruct c end; try discriminate;
    try (injection H as <-; cbn; auto);
    apply wbind_fails in H as [H|([x r] & _ & H)]; try discriminate; exact (cread_fails _ _ _ H).
Qed.

Lemma cspecial_fails sub b e : cspecial sub b = WRaise e -> In e cbor_exns.
Proof.
  unfold cspecial. intros H.
  repeat match type of H with (if ?c then _ else _) = _ => destruct c end; try discriminate;
    try (injection H as <-; cbn; auto);
    apply wbind_fails in H as [H|([x r] & _ & H)]; try discriminate; exact (cread_fails _ _ _ H).
Qed.

Lemma ctext_fails b e : ctext b = WRaise e -> In e cbor_exns.
Proof.
  unfold ctext. destruct (utf8_decode b); [discriminate|]. intros H. injection H as <-. cbn; auto.
Qed.

Lemma ctexts_fails l e : ctexts l = WRaise e -> In e cbor_exns.
Proof.
  induction l as [|b l IH]; cbn [ctexts]; [discriminate|]. intros H.
  apply wbind_fails in H as [H|(s & _ & H)]; [exact (ctext_fails _ _ H)|].
  apply wbind_fails in H as [H|(t & _ & H)]; [exact (IH H)|discriminate].
Qed.

Lemma suffix_length r b : suffix r b -> (List.length r <= List.length b)%nat.
Proof. intros (p & ->). rewrite app_length. lia. Qed.

Lemma cchunks_fails f mt : forall b e, (List.length b + 1 <= f)%nat ->
  cchunks f mt b = WRaise e -> In e cbor_exns.
Proof.
  induction f as [|f IH]; intros b e L H; [lia|]. cbn [cchunks] in H.
  destruct b as [|x t]; [injection H as <-; cbn; auto|]. cbv zeta in H. cbn [List.length] in L.
  destruct (N_of_byte x =? 255); [discriminate|].
  destruct (_ =? mt); [|injection H as <-; cbn; auto].
  apply wbind_fails in H as [H|([l r1] & H1 & H)]; [exact (clength_fails _ _ _ _ H)|].
  apply clength_suffix, suffix_length in H1.
  destruct l as [l|]; [|injection H as <-; cbn; auto].
  apply wbind_fails in H as [H|([c r2] & H2 & H)]; [exact (cread_fails _ _ _ H)|].
  apply cread_suffix, suffix_length in H2. apply wcons_fails in H. apply (IH r2); [lia|exact H].
Qed.

Lemma cdec_shorter f d imm b v r : cdec f d imm b = WOk (v, r) -> (List.length r < List.length b)%nat.
Proof.
  intros H. apply (proj1 (cdec_suffix tags f)) in H as (x & p & ->). cbn. rewrite app_length. lia.
Qed.

(** ... or of the tags. *)
Definition cbor_raises (e : pyexn) : Prop :=
  In e cbor_exns \/ exists imm t v, tags imm t v = WRaise e.
Lemma raises_exns e : In e cbor_exns -> cbor_raises e.
Proof. left. assumption. Qed.

Lemma cdec_fails f :
  (forall d imm b e, (2 * List.length b + 1 <= f)%nat ->
     cdec f d imm b = WRaise e -> cbor_raises e) /\
  (forall d imm n b e, (2 * List.length b + 2 <= f)%nat ->
     citems f d imm n b = WRaise e -> cbor_raises e) /\
  (forall d imm n b acc e, (2 * List.length b + 2 <= f)%nat ->
     cpairs f d imm n b acc = WRaise e -> cbor_raises e).
Proof.
  induction f as [|f (IH & IHi & IHp)]; [repeat split; intros; lia|]. repeat split.
  - intros d imm b e L H. cbn [Cbor.cdec] in H.
    destruct b as [|x t]; [injection H as <-; left; cbn; auto|]. cbv zeta in H. cbn [List.length] in L.
    repeat match type of H with (if ?c then _ else _) = _ => destruct c end.
    + apply wbind_fails in H as [H|([[l|] r1] & H1 & H)];
        [exact (raises_exns _ (clength_fails _ _ _ _ H))|discriminate|injection H as <-; left; cbn; auto].
    + apply wbind_fails in H as [H|([[l|] r1] & H1 & H)];
        [exact (raises_exns _ (clength_fails _ _ _ _ H))|discriminate|injection H as <-; left; cbn; auto].
    + apply wbind_fails in H as [H|([l r1] & H1 & H)]; [exact (raises_exns _ (clength_fails _ _ _ _ H))|].
      apply clength_suffix, suffix_length in H1. destruct l as [l|].
      * apply wbind_fails in H as [H|([c r2] & H2 & H)]; [exact (raises_exns _ (cread_fails _ _ _ H))|discriminate].
      * apply wbind_fails in H as [H|([c r2] & H2 & H)]; [|discriminate].
        apply raises_exns, (cchunks_fails f 2 r1); [lia|exact H].
    + apply wbind_fails in H as [H|([l r1] & H1 & H)]; [exact (raises_exns _ (clength_fails _ _ _ _ H))|].
      apply clength_suffix, suffix_length in H1. destruct l as [l|].
      * apply wbind_fails in H as [H|([c r2] & H2 & H)]; [exact (raises_exns _ (cread_fails _ _ _ H))|].
        apply wbind_fails in H as [H|(s & _ & H)]; [exact (raises_exns _ (ctext_fails _ _ H))|discriminate].
      * apply wbind_fails in H as [H|([c r2] & H2 & H)]; [apply raises_exns, (cchunks_fails f 3 r1); [lia|exact H]|].
        apply wbind_fails in H as [H|(s & _ & H)]; [exact (raises_exns _ (ctexts_fails _ _ H))|discriminate].
    + destruct d as [|d]; [injection H as <-; left; cbn; auto|].
      apply wbind_fails in H as [H|([l r1] & H1 & H)]; [exact (raises_exns _ (clength_fails _ _ _ _ H))|].
      apply clength_suffix, suffix_length in H1.
      apply wbind_fails in H as [H|([c r2] & H2 & H)]; [|discriminate].
      apply (IHi d imm l r1); [lia|exact H].
    + destruct d as [|d]; [injection H as <-; left; cbn; auto|].
      apply wbind_fails in H as [H|([l r1] & H1 & H)]; [exact (raises_exns _ (clength_fails _ _ _ _ H))|].
      apply clength_suffix, suffix_length in H1.
      apply wbind_fails in H as [H|([c r2] & H2 & H)]; [|discriminate].
      apply (IHp d imm l r1 []); [lia|exact H].
    + destruct d as [|d]; [injection H as <-; left; cbn; auto|].
      apply wbind_fails in H as [H|([l r1] & H1 & H)]; [exact (raises_exns _ (clength_fails _ _ _ _ H))|].
      apply clength_suffix, suffix_length in H1.
      destruct l as [l|]; [|injection H as <-; left; cbn; auto].
      destruct (_ || _); [injection H as <-; left; cbn; auto 10|].
      apply wbind_fails in H as [H|([c r2] & H2 & H)].
      * apply (IH d (imm || (l =? 258)) r1); [lia|exact H].
      * apply wbind_fails in H as [H|(w & _ & H)]; [right; eauto|discriminate].
    + exact (raises_exns _ (cspecial_fails _ _ _ H)).
  - intros d imm n b e L H. cbn [Cbor.citems] in H. destruct n as [n|].
    + destruct (n =? 0); [discriminate|].
      apply wbind_fails in H as [H|([v r1] & H1 & H)]; [apply (IH d imm b); [lia|exact H]|].
      apply cdec_shorter in H1. apply wcons_fails in H. apply (IHi d imm (Some (n - 1)) r1); [lia|exact H].
    + apply wbind_fails in H as [H|([v r1] & H1 & H)]; [apply (IH d imm b); [lia|exact H]|].
      apply cdec_shorter in H1. destruct (is_break v); [discriminate|].
      apply wcons_fails in H. apply (IHi d imm None r1); [lia|exact H].
  - intros d imm n b acc e L H. cbn [Cbor.cpairs] in H. cbv zeta in H.
    assert (Pair : forall n',
      wbind (cdec f d true b) (fun '(k, r) =>
        if match n with None => is_break k | Some _ => false end then WOk (acc, r)
        else wbind (cdec f d imm r) (fun '(v, r1) =>
             cpairs f d imm n' r1 (dict_set k v acc))) = WRaise e -> cbor_raises e).
    { intros n' Q. apply wbind_fails in Q as [Q|([k r1] & H1 & Q)]; [apply (IH d true b); [lia|exact Q]|].
      apply cdec_shorter in H1.
      match type of Q with (if ?c then _ else _) = _ => destruct c end; [discriminate|].
      apply wbind_fails in Q as [Q|([v r2] & H2 & Q)]; [apply (IH d imm r1); [lia|exact Q]|].
      apply cdec_shorter in H2. apply (IHp d imm n' r2 (dict_set k v acc)); [lia|exact Q]. }
    destruct n as [n|]; [destruct (n =? 0); [discriminate|]|]; exact (Pair _ H).
Qed.

Lemma cbor_load_fails depth b e : cbor_load_tags tags depth b = WRaise e -> cbor_raises e.
Proof. intros H. apply (proj1 (cdec_fails _)) in H; [exact H|lia]. Qed.
End Tags.

(** Understanding no tags is the least a decoder can do. *)
Lemma tagless_item tags :
  (forall d key v p, Cbor no_tags d key v p -> Cbor tags d key v p) /\
  (forall d key vs p, Cbors no_tags d key vs p -> Cbors tags d key vs p) /\
  (forall d key ps p, CborPairs no_tags d key ps p -> CborPairs tags d key ps p).
Proof. apply Cbor_mutind; intros; try discriminate; econstructor; eassumption. Qed.
Lemma cbor_load_tagless tags depth b v r :
  cbor_load depth b = WOk (v, r) -> cbor_load_tags tags depth b = WOk (v, r).
Proof.
  intros H. apply cbor_load_iff in H as (p & -> & C). apply cbor_load_iff. exists p.
  split; [reflexivity|]. apply (proj1 (tagless_item tags)), C.
Qed.

(** ** Maps *)
Section Eq.
Let sym (a : pyval) := forall b, py_eq a b = true -> py_eq b a = true.
Let trans (a : pyval) := forall b c, py_eq a b = true -> py_eq b c = true -> py_eq a c = true.

Definition eqs := fix go l1 l2 := match l1, l2 with
  | [], [] => true
  | u :: t1, v :: t2 => py_eq u v && go t1 t2
  | _, _ => false
  end.
Definition eqd (x y : pydict) :=
  forallb (fun p => existsb (fun q => py_eq (fst p) (fst q) && py_eq (snd p) (snd q)) y) x
  && forallb (fun q => existsb (fun p => py_eq (fst p) (fst q) && py_eq (snd p) (snd q)) x) y.
Lemma eqd_iff x y : eqd x y = true <->
  (forall p, In p x -> exists q, In q y /\ py_eq (fst p) (fst q) = true /\ py_eq (snd p) (snd q) = true) /\
  (forall q, In q y -> exists p, In p x /\ py_eq (fst p) (fst q) = true /\ py_eq (snd p) (snd q) = true).
Proof.
  unfold eqd. rewrite andb_true_iff, !forallb_forall.
  split; intros [H K]; (split; intros a I; [specialize (H a I)|specialize (K a I)]);
    try (apply existsb_exists in H as (b & J & H)); try (apply existsb_exists in K as (b & J & K));
    try (apply andb_prop in H as []); try (apply andb_prop in K as []); eauto;
    apply existsb_exists; [destruct H as (b & J & H1 & H2)|destruct K as (b & J & H1 & H2)];
    exists b; rewrite H1, H2; auto.
Qed.

Lemma eqs_sym l : Forall sym l -> forall m, eqs l m = true -> eqs m l = true.
Proof.
  induction 1 as [|a l S _ IH]; intros [|b m]; cbn; try discriminate; [reflexivity|].
  intros H. apply andb_prop in H as [H1 H2]. rewrite (S _ H1), (IH _ H2). reflexivity.
Qed.
Lemma eqs_trans l : Forall trans l -> forall m n, eqs l m = true -> eqs m n = true -> eqs l n = true.
Proof.
  induction 1 as [|a l S _ IH]; intros [|b m] [|c n]; cbn; try discriminate; [reflexivity|].
  intros H K. apply andb_prop in H as [H1 H2]. apply andb_prop in K as [K1 K2].
  rewrite (S _ _ H1 K1), (IH _ _ H2 K2). reflexivity.
Qed.
Lemma eqd_sym l : Forall (fun kv => sym (fst kv) /\ sym (snd kv)) l ->
  forall m, eqd l m = true -> eqd m l = true.
Proof.
  intros S m. rewrite Forall_forall in S. rewrite !eqd_iff. intros [H K].
  split; intros p I; [destruct (K p I) as (q & J & E1 & E2)|destruct (H p I) as (q & J & E1 & E2)];
    exists q; (split; [exact J|]);
    [destruct (S q J) as [S1 S2]|destruct (S p I) as [S1 S2]]; split; [now apply S1|now apply S2|now apply S1|now apply S2].
Qed.
Lemma eqd_trans l : Forall (fun kv => trans (fst kv) /\ trans (snd kv)) l ->
  forall m n, eqd l m = true -> eqd m n = true -> eqd l n = true.
Proof.
  intros S m n. rewrite Forall_forall in S. rewrite !eqd_iff. intros [H1 H2] [K1 K2]. split; intros p I.
  - destruct (H1 p I) as (q & J & E1 & E2), (K1 q J) as (r & L & F1 & F2), (S p I) as [S1 S2].
    exists r. split; [exact L|]. split; [now apply (S1 (fst q))|now apply (S2 (snd q))].
  - destruct (K2 p I) as (q & J & E1 & E2), (H2 q J) as (r & L & F1 & F2), (S r L) as [S1 S2].
    exists r. split; [exact L|]. split; [now apply (S1 (fst q))|now apply (S2 (snd q))].
Qed.


Lemma py_eq_unfold a b : py_eq a b =
  match as_int a, as_int b with
  | Some x, Some y => Z.eqb x y
  | Some _, None | None, Some _ => false
  | None, None =>
      match a, b with
      | VNone, VNone => true
      | VFloat x, VFloat y => N.eqb x y && negb (float_is_nan x)
      | VStr x, VStr y => str_eqb x y
      | VBytes x, VBytes y => bytes_eqb x y
      | VList x, VList y | VTuple x, VTuple y => eqs x y
      | VDict x, VDict y | VDict x, VFrozen y | VFrozen x, VDict y | VFrozen x, VFrozen y => eqd x y
      | VOther t n, VOther u m => N.eqb t u && N.eqb n m
      | _, _ => false
      end
  end.
Proof. destruct a; reflexivity. Qed.

Lemma py_eq_num a b x : as_int a = Some x -> py_eq a b = true <-> as_int b = Some x.
Proof.
  intros A. rewrite py_eq_unfold, A. destruct (as_int b); [|split; discriminate].
  rewrite Z.eqb_eq. split; [intros ->; reflexivity|intros H; injection H; auto].
Qed.

Lemma py_eq_sym a : forall b, py_eq a b = true -> py_eq b a = true.
Proof.
  induction a as [|b0|z|n|s|b0|l IH|l IH|d IH|d IH|t n] using pyval_ind2; intros b H;
    (match type of H with py_eq ?a _ = _ => destruct (as_int a) as [x|] eqn:A end;
     [apply (py_eq_num _ _ x A) in H; apply (py_eq_num _ _ x H), A|]);
    rewrite py_eq_unfold in H; rewrite A in H; rewrite py_eq_unfold, A;
    (destruct (as_int b) eqn:B; [discriminate|]); destruct b; try discriminate.
  - reflexivity.
  - apply andb_prop in H as [H1 H2]. apply N.eqb_eq in H1. subst. rewrite N.eqb_refl. exact H2.
  - apply str_eqb_spec in H. subst. apply str_eqb_refl.
  - apply bytes_eqb_spec in H. subst. apply bytes_eqb_refl.
  - apply eqs_sym; assumption.
  - apply eqs_sym; assumption.
  - apply eqd_sym; assumption.
  - apply eqd_sym; assumption.
  - apply eqd_sym; assumption.
  - apply eqd_sym; assumption.
  - apply andb_prop in H as [H1 H2]. apply N.eqb_eq in H1, H2. subst. now rewrite !N.eqb_refl.
Qed.

Lemma py_eq_trans a : forall b c, py_eq a b = true -> py_eq b c = true -> py_eq a c = true.
Proof.
  induction a as [|b0|z|n|s|b0|l IH|l IH|d IH|d IH|t n] using pyval_ind2; intros b c H K;
    (match type of H with py_eq ?a _ = _ => destruct (as_int a) as [x|] eqn:A end;
     [apply (py_eq_num _ _ x A) in H; apply (py_eq_num _ _ x H) in K; apply (py_eq_num _ _ x A), K|]);
    rewrite py_eq_unfold in H; rewrite A in H; rewrite py_eq_unfold, A;
    (destruct (as_int b) eqn:B; [discriminate|]); rewrite py_eq_unfold, B in K;
    destruct b; try discriminate;
    (destruct (as_int c) eqn:C; [discriminate|]); destruct c; try discriminate.
  - reflexivity.
  - apply andb_prop in H as [H1 H2]. apply N.eqb_eq in H1. subst. exact K.
  - apply str_eqb_spec in H. subst. exact K.
  - apply bytes_eqb_spec in H. subst. exact K.
  - eapply eqs_trans; eassumption.
  - eapply eqs_trans; eassumption.
  - eapply eqd_trans; eassumption.
  - eapply eqd_trans; eassumption.
  - eapply eqd_trans; eassumption.
  - eapply eqd_trans; eassumption.
  - eapply eqd_trans; eassumption.
  - eapply eqd_trans; eassumption.
  - eapply eqd_trans; eassumption.
  - eapply eqd_trans; eassumption.
  - apply andb_prop in H as [H1 H2]. apply N.eqb_eq in H1, H2. subst. exact K.
Qed.
End Eq.

Lemma find_set k k' v d :
  dict_find k (dict_set k' v d) = if py_eq k' k then Some v else dict_find k d.
Proof.
  induction d as [|[a w] d IH]; cbn [dict_set dict_find]; [reflexivity|].
  destruct (py_eq a k') eqn:E; cbn [dict_find].
  - destruct (py_eq k' k) eqn:K.
    + rewrite (py_eq_trans _ _ _ E K). reflexivity.
    + destruct (py_eq a k) eqn:F; [|reflexivity].
      rewrite (py_eq_trans _ _ _ (py_eq_sym _ _ E) F) in K. discriminate.
  - rewrite IH. destruct (py_eq a k) eqn:F; [|reflexivity]. destruct (py_eq k' k) eqn:K; [|reflexivity].
    rewrite (py_eq_trans _ _ _ F (py_eq_sym _ _ K)) in E. discriminate.
Qed.

Lemma find_set_all k ps : forall acc v,
  dict_find k (set_all acc ps) = Some v <->
  LastEntry k v ps \/ (Forall (fun p => py_eq (fst p) k = false) ps /\ dict_find k acc = Some v).
Proof.
  induction ps as [|[k' w] ps IH]; intros acc v.
  - cbn. split; [auto|]. intros [(l & ? & ? & E & _)|[_ H]]; [destruct l; discriminate|exact H].
  - change (set_all acc ((k', w) :: ps)) with (set_all (dict_set k' w acc) ps).
    rewrite IH, find_set. split.
    + intros [(l & k2 & r & -> & H)|[F H]].
      * left. exists ((k', w) :: l), k2, r. auto.
      * destruct (py_eq k' k) eqn:E.
        -- injection H as ->. left. exists [], k', ps. auto.
        -- right. split; [constructor; assumption|exact H].
    + intros [(l & k2 & r & E & H)|[F H]].
      * destruct l as [|p l].
        -- cbn in E. injection E as E1 E2 E3. subst. right. destruct H as [H F]. rewrite H. auto.
        -- cbn in E. injection E as E1 E2. subst. left. exists l, k2, r. auto.
      * apply Forall_cons_inv in F as [E F]. cbn [fst] in E. rewrite E. auto.
Qed.

Lemma find_entries k ps v : dict_find k (entries ps) = Some v <-> LastEntry k v ps.
Proof.
  change (entries ps) with (set_all [] ps). rewrite find_set_all. cbn. split; [|auto].
  intros [H|[_ H]]; [exact H|discriminate].
Qed.
