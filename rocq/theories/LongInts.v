(** * LongInts: integers that are too long for a message (C69). *)
From Coq Require Import List NArith ZArith Bool String Lia.
From Coq Require Import Strings.Byte.
From Verif Require Import Base PyVal Types World Parsers BaseFacts Cbor CborSpec CborExact FormatSpec
  StepSpec MapFailSpec FailSpec FailFacts Examples.
Import ListNotations.
Local Open Scope list_scope.

(** CPython's limit on the digits of an integer that is converted to text. *)
Definition digit_limit (W : World) : Prop :=
  forall z, shows W (VInt z) = true <-> (Z.abs z < 10 ^ 4300)%Z.

Lemma limit_large : (2 ^ 64 <= 10 ^ 4300)%Z.
Proof.
  transitivity (10 ^ 64)%Z; [apply Z.pow_le_mono_l; lia|apply Z.pow_le_mono_r; lia].
Qed.

(** A key of the type OKP with a curve that is too long a number. *)
Definition long_curve (x : bytes) (z : Z) : pydict :=
  [(VInt 1, VInt 1); (VInt (-2), VBytes x); (VInt (-1), VInt z)].

Lemma long_curve_fails W x z : digit_limit W -> (10 ^ 4300 <= Z.abs z)%Z ->
  CoseMapFails W (long_curve x z) (Py EValueError).
Proof.
  intros D L. assert (B := limit_large). eapply cmf_okp with (v := VInt 1).
  - reflexivity.
  - exists 1%Z, "OKP"%string, KT_OKP. split; [cbn; auto|left; split; reflexivity].
  - reflexivity.
  - unfold okp_steps. apply ff_later; [cbn; exists x; reflexivity|].
    apply ff_here. cbn. right. exists (VInt z). repeat split.
    + left. eauto.
    + assert (H := Z.le_trans _ _ _ B L). clear - H. intros m (t & n & a & I & [[E _]|[E _]]); [|discriminate E].
      injection E as ->. cbn in I. repeat (destruct I as [I|I]; [injection I as <- _ _; cbn in H; lia|]). destruct I.
    + right. split; [|reflexivity]. exists (VInt z). split; [reflexivity|].
      destruct (shows W (VInt z)) eqn:S; [|reflexivity]. apply D in S.
      destruct (Z.lt_irrefl _ (Z.lt_le_trans _ _ _ S L)).
Qed.

Lemma long_integer W tags depth x z bs rest :
  (forall b, w_cbor_load W b = cbor_load_tags tags depth b) -> digit_limit W ->
  (10 ^ 4300 <= Z.abs z)%Z -> Cbor tags depth false (VDict (long_curve x z)) bs ->
  parse_cose_key_bytes W (bs ++ rest) = Raise (Py EValueError).
Proof.
  intros MC D L C. apply cose_fails_iff. apply (cof_key W _ (long_curve x z) rest).
  - rewrite MC. apply cbor_load_iff. eauto.
  - now apply long_curve_fails.
Qed.

(** A CBOR decoder that reads bignums (tags 2 and 3). *)
Definition bignum_tags : tagsem := fun _ t v =>
  match t, v with
  | 2%N, VBytes b => WOk (VInt (Z.of_N (be_to_N b)))
  | 3%N, VBytes b => WOk (VInt (-1 - Z.of_N (be_to_N b)))
  | _, _ => WRaise ECBORDecodeValueError
  end.
Definition bignum_world : World := {|
  w_sha256 := w_sha256 ex_world; w_cbor_load := cbor_load_tags bignum_tags 900;
  w_json_loads := w_json_loads ex_world; w_url := w_url ex_world;
  w_ec_load := w_ec_load ex_world; w_ed25519_load := w_ed25519_load ex_world;
  w_ed448_load := w_ed448_load ex_world; w_verify := w_verify ex_world;
  w_spki := w_spki ex_world; w_load_cert := w_load_cert ex_world;
  w_keydesc := w_keydesc ex_world;
  w_shows v := match v with VInt z => (Z.abs z <? 10 ^ 4300)%Z | _ => true end;
  w_shows_exn := w_shows_exn ex_world;
|}.

Lemma bignum_limit : digit_limit bignum_world.
Proof. intro z. cbn [shows bignum_world w_shows]. apply Z.ltb_lt. Qed.

Lemma sixteen : (10 ^ 4300 <= 256 ^ 2150)%Z.
Proof.
  change 256%Z with (16 ^ 2)%Z. rewrite <- Z.pow_mul_r by lia. apply Z.pow_le_mono_l. lia.
Qed.

(** One and 2150 zeros. *)
Definition long_bytes : bytes := x01 :: repeat x00 2150.
Lemma long_value : (10 ^ 4300 <= Z.abs (Z.of_N (be_to_N long_bytes)))%Z.
Proof.
  rewrite Z.abs_eq by apply N2Z.is_nonneg. eapply Z.le_trans; [exact sixteen|].
  unfold long_bytes. rewrite be_to_N_cons, repeat_length. change (N_of_byte x01) with 1%N.
  rewrite N.mul_1_l, N2Z.inj_add, N2Z.inj_pow. change (Z.of_N (N.of_nat 2150)) with 2150%Z.
  change (Z.of_N 256) with 256%Z.
  generalize (256 ^ 2150)%Z. intro k. pose proof (N2Z.is_nonneg (be_to_N (repeat x00 2150))).
  generalize dependent (Z.of_N (be_to_N (repeat x00 2150))). intros m H. lia.
Qed.

Definition long_key : bytes :=
  [xa3; x01; x01; x21; x40; x20; xc2; x59; x08; x67] ++ long_bytes.
Lemma long_key_reads :
  Cbor bignum_tags 900 false (VDict (long_curve [] (Z.of_N (be_to_N long_bytes)))) long_key.
Proof.
  change (long_curve [] (Z.of_N (be_to_N long_bytes)))
    with (entries (long_curve [] (Z.of_N (be_to_N long_bytes)))).
  change long_key with ([xa3] ++ ([x01] ++ [x01] ++ [x21] ++ [x40] ++
    [x20] ++ ([xc2] ++ [x59; x08; x67] ++ long_bytes) ++ [])).
  apply (cb_map bignum_tags 899 false).
  { left. split; reflexivity. }
  apply cbp_cons with (bk := [x01]) (bv := [x01]).
  { apply (cb_unsigned _ _ _ 1). left. split; reflexivity. }
  { apply (cb_unsigned _ _ _ 1). left. split; reflexivity. }
  apply cbp_cons with (bk := [x21]) (bv := [x40]).
  { apply (cb_negative _ _ _ 1). left. split; reflexivity. }
  { apply cb_bytes. exists [x40]. split; [left; split; reflexivity|reflexivity]. }
  apply cbp_cons with (bk := [x20]) (bs := []).
  { apply (cb_negative _ _ _ 0). left. split; reflexivity. }
  2:{ constructor. }
  apply (cb_tagged bignum_tags 898 false 2 (VBytes long_bytes)); try discriminate.
  { left. split; reflexivity. }
  2:{ reflexivity. }
  apply cb_bytes. exists [x59; x08; x67]. split; [|reflexivity].
  right. exists 25%N, [x08; x67]. repeat split; cbn; auto.
Qed.

Lemma long_key_fails : parse_cose_key_bytes bignum_world long_key = Raise (Py EValueError).
Proof.
  rewrite <- (app_nil_r long_key). eapply long_integer with (tags := bignum_tags) (depth := 900).
  - reflexivity.
  - exact bignum_limit.
  - exact long_value.
  - exact long_key_reads.
Qed.
