(** * B64Facts: base64 against CodecSpec. *)
From Coq Require Import List NArith ZArith Bool Lia ZifyBool ZifyNat ZifyN String.
From Coq Require Import Strings.Byte.
From Verif Require Import Base BaseFacts B64 CodecSpec Url.
Import ListNotations.
Local Open Scope list_scope.
Local Open Scope N_scope.

Local Ltac Zify.zify_post_hook ::= Z.to_euclidean_division_equations.

Lemma Some_inj {A} (x y : A) : Some x = Some y -> x = y.
Proof. congruence. Qed.

(** ** Bits *)

Lemma bits_value_app a b : bits_value (a ++ b) = bits_value a * 2 ^ N.of_nat (List.length b) + bits_value b.
Proof.
  unfold bits_value. rewrite fold_left_app.
  assert (G : forall l x, fold_left (fun a b => 2 * a + N.b2n b) l x
            = x * 2 ^ N.of_nat (List.length l) + fold_left (fun a b => 2 * a + N.b2n b) l 0).
  { induction l as [|c l IH]; intro x; cbn [fold_left List.length].
    - change (2 ^ N.of_nat 0) with 1. lia.
    - rewrite IH, (IH (2 * 0 + N.b2n c)), Nnat.Nat2N.inj_succ, N.pow_succ_r'. lia. }
  apply G.
Qed.

Lemma sextet_eq v : v < 64 -> bits_value (sextet_bits v) = v.
Proof.
  intro H. assert (G : forall n, (n < 64)%nat -> bits_value (sextet_bits (N.of_nat n)) = N.of_nat n).
  { do 64 (destruct n as [|n]; [reflexivity|]). lia. }
  specialize (G (N.to_nat v) ltac:(lia)). now rewrite N2Nat.id in G.
Qed.
Lemma byte_eq b : bits_value (byte_bits b) = N_of_byte b.
Proof. destruct b; reflexivity. Qed.

Lemma b2n_cases b : N.b2n b = 0 \/ N.b2n b = 1.
Proof. destruct b; auto. Qed.

(** ** Alphabets *)

Lemma lt64 (P : N -> Prop) : Forall P (map N.of_nat (seq 0 64)) -> forall v, v < 64 -> P v.
Proof.
  intros H v Hv. rewrite Forall_forall in H. apply H. apply in_map_iff.
  exists (N.to_nat v). split; [lia|]. apply in_seq. lia.
Qed.

Lemma sym_std v : v < 64 -> b64_sym v = nth (N.to_nat v) std_alphabet 0.
Proof. revert v. apply lt64. repeat (constructor; [reflexivity|]). constructor. Qed.
Lemma sym_url v : v < 64 -> to_url (b64_sym v) = nth (N.to_nat v) url_alphabet 0.
Proof. revert v. apply lt64. repeat (constructor; [reflexivity|]). constructor. Qed.
Lemma from_to_url v : v < 64 -> from_url (to_url (b64_sym v)) = b64_sym v.
Proof. revert v. apply lt64. repeat (constructor; [reflexivity|]). constructor. Qed.
Lemma val_sym v : v < 64 -> b64_val (b64_sym v) = Some v.
Proof. revert v. apply lt64. repeat (constructor; [reflexivity|]). constructor. Qed.
Lemma sym_not_pad v : v < 64 -> (b64_sym v =? 61) = false.
Proof. revert v. apply lt64. repeat (constructor; [reflexivity|]). constructor. Qed.
Lemma to_url_not_pad v : v < 64 -> (to_url (b64_sym v) =? 61) = false.
Proof. revert v. apply lt64. repeat (constructor; [reflexivity|]). constructor. Qed.
Lemma to_url_ascii v : v < 64 -> (to_url (b64_sym v) <? 128) = true.
Proof. revert v. apply lt64. repeat (constructor; [reflexivity|]). constructor. Qed.
Lemma sym_ascii v : v < 64 -> (b64_sym v <? 128) = true.
Proof. revert v. apply lt64. repeat (constructor; [reflexivity|]). constructor. Qed.

Lemma index_of_lt c l v : index_of c l = Some v -> v < N.of_nat (List.length l).
Proof.
  revert v. induction l as [|x l IH]; intro v; cbn [index_of]; [discriminate|].
  destruct (x =? c); [intro H; injection H as <-; cbn [List.length]; lia|].
  destruct (index_of c l) as [w|]; [|discriminate].
  intro H. apply Some_inj in H. subst v. specialize (IH w eq_refl). cbn [List.length]. lia.
Qed.
Lemma symbol_value_lt c v : symbol_value c = Some v -> v < 64.
Proof.
  unfold symbol_value. destruct (index_of c url_alphabet) as [w|] eqn:E.
  - intro H. apply Some_inj in H. subst w. apply index_of_lt in E. exact E.
  - intro H. apply index_of_lt in H. exact H.
Qed.

(** The table of a2b after the translation of '-' and '_'. *)
Lemma val_from_url c : b64_val (from_url c) = symbol_value c.
Proof.
  destruct (N.ltb_spec c 123) as [L|L].
  - assert (G : forall n, (n < 123)%nat -> b64_val (from_url (N.of_nat n)) = symbol_value (N.of_nat n)).
    { intros n Hn.
      assert (F : Forall (fun m => b64_val (from_url (N.of_nat m)) = symbol_value (N.of_nat m)) (seq 0 123)).
      { repeat (constructor; [vm_compute; reflexivity|]). constructor. }
      rewrite Forall_forall in F. apply F. apply in_seq. lia. }
    specialize (G (N.to_nat c) ltac:(lia)). now rewrite N2Nat.id in G.
  - assert (I : forall l, Forall (fun x => x < 123) l -> index_of c l = None).
    { induction 1 as [|x l Hx HF IH]; [reflexivity|]. cbn [index_of]. rewrite IH.
      replace (x =? c) with false by lia. reflexivity. }
    unfold symbol_value. rewrite !I by (vm_compute; repeat (constructor; [reflexivity|]); constructor).
    unfold from_url. replace (c =? 45) with false by lia. replace (c =? 95) with false by lia.
    unfold b64_val. replace (c <=? 90) with false by lia. replace (c <=? 122) with false by lia.
    replace (c <=? 57) with false by lia. replace (c =? 43) with false by lia.
    replace (c =? 47) with false by lia. now rewrite !andb_false_r.
Qed.

(** ** Encoding *)

Lemma byte_bits_cons x : exists a b c d e f g h,
  byte_bits x = [a; b; c; d; e; f; g; h] /\
  N_of_byte x / 4 = 32 * N.b2n a + 16 * N.b2n b + 8 * N.b2n c + 4 * N.b2n d + 2 * N.b2n e + N.b2n f /\
  N_of_byte x mod 4 = 2 * N.b2n g + N.b2n h /\
  N_of_byte x / 16 = 8 * N.b2n a + 4 * N.b2n b + 2 * N.b2n c + N.b2n d /\
  N_of_byte x mod 16 = 8 * N.b2n e + 4 * N.b2n f + 2 * N.b2n g + N.b2n h /\
  N_of_byte x / 64 = 2 * N.b2n a + N.b2n b /\
  N_of_byte x mod 64 = 32 * N.b2n c + 16 * N.b2n d + 8 * N.b2n e + 4 * N.b2n f + 2 * N.b2n g + N.b2n h.
Proof. destruct x; do 8 eexists; repeat split; reflexivity. Qed.

Lemma bits_value6 a b c d e f : bits_value [a; b; c; d; e; f] =
  32 * N.b2n a + 16 * N.b2n b + 8 * N.b2n c + 4 * N.b2n d + 2 * N.b2n e + N.b2n f.
Proof. unfold bits_value. cbn [fold_left]. lia. Qed.
Lemma bits_value8 a b c d e f g h : bits_value [a; b; c; d; e; f; g; h] =
  128 * N.b2n a + 64 * N.b2n b + 32 * N.b2n c + 16 * N.b2n d
  + 8 * N.b2n e + 4 * N.b2n f + 2 * N.b2n g + N.b2n h.
Proof. unfold bits_value. cbn [fold_left]. lia. Qed.

Lemma N_of_byte_lt x : N_of_byte x < 256.
Proof. destruct x; reflexivity. Qed.

(** The four groups of a 24-bit number. *)
Lemma groups3 x y z : x < 256 -> y < 256 -> z < 256 ->
  let n := (x * 256 + y) * 256 + z in
  n / 262144 = x / 4 /\ (n / 4096) mod 64 = x mod 4 * 16 + y / 16 /\
  (n / 64) mod 64 = y mod 16 * 4 + z / 64 /\ n mod 64 = z mod 64.
Proof.
  intros Hx Hy Hz n.
  assert (E1 : n / 4096 = x * 16 + y / 16) by (subst n; lia).
  assert (E2 : n / 64 = (x * 256 + y) * 4 + z / 64) by (subst n; lia).
  assert (E0 : n / 262144 = x / 4) by (subst n; lia).
  assert (E3 : n mod 64 = z mod 64) by (subst n; lia).
  rewrite E1, E2, E0, E3. clear E1 E2 E0 E3. clear n. repeat split; lia.
Qed.
Lemma groups2 x y : x < 256 -> y < 256 ->
  let n := x * 256 + y in
  n / 1024 = x / 4 /\ (n / 16) mod 64 = x mod 4 * 16 + y / 16 /\ (n mod 16) * 4 = y mod 16 * 4.
Proof.
  intros Hx Hy n.
  assert (E1 : n / 16 = x * 16 + y / 16) by (subst n; lia).
  assert (E0 : n / 1024 = x / 4) by (subst n; lia).
  assert (E3 : n mod 16 = y mod 16) by (subst n; lia).
  rewrite E1, E0, E3. clear E1 E0 E3. clear n. repeat split; lia.
Qed.

(** The sextets of three, two and one bytes. *)
Lemma sextets3 x y z t :
  let n := (N_of_byte x * 256 + N_of_byte y) * 256 + N_of_byte z in
  sextets (byte_bits x ++ byte_bits y ++ byte_bits z ++ t) =
  n / 262144 :: (n / 4096) mod 64 :: (n / 64) mod 64 :: n mod 64 :: sextets t.
Proof.
  cbv zeta. destruct (groups3 (N_of_byte x) (N_of_byte y) (N_of_byte z)) as (-> & -> & -> & ->);
    try apply N_of_byte_lt.
  destruct (byte_bits_cons x) as (a1 & a2 & a3 & a4 & a5 & a6 & a7 & a8 & -> & -> & -> & _).
  destruct (byte_bits_cons y) as (b1 & b2 & b3 & b4 & b5 & b6 & b7 & b8 & -> & _ & _ & -> & -> & _).
  destruct (byte_bits_cons z) as (c1 & c2 & c3 & c4 & c5 & c6 & c7 & c8 & -> & _ & _ & _ & _ & -> & ->).
  cbn [app sextets]. rewrite !bits_value6.
  repeat (apply f_equal2; [lia|]). reflexivity.
Qed.
Lemma sextets2 x y :
  let n := N_of_byte x * 256 + N_of_byte y in
  sextets (byte_bits x ++ byte_bits y) = [n / 1024; (n / 16) mod 64; (n mod 16) * 4].
Proof.
  cbv zeta. destruct (groups2 (N_of_byte x) (N_of_byte y)) as (-> & -> & ->); try apply N_of_byte_lt.
  destruct (byte_bits_cons x) as (a1 & a2 & a3 & a4 & a5 & a6 & a7 & a8 & -> & -> & -> & _).
  destruct (byte_bits_cons y) as (b1 & b2 & b3 & b4 & b5 & b6 & b7 & b8 & -> & _ & _ & -> & -> & _).
  cbn [app sextets firstn repeat]. rewrite !bits_value6. cbn [N.b2n].
  repeat (apply f_equal2; [lia|]). reflexivity.
Qed.
Lemma sextets1 x :
  sextets (byte_bits x) = [N_of_byte x / 4; (N_of_byte x mod 4) * 16].
Proof.
  destruct (byte_bits_cons x) as (a1 & a2 & a3 & a4 & a5 & a6 & a7 & a8 & -> & -> & -> & _).
  cbn [app sextets firstn repeat]. rewrite !bits_value6. cbn [N.b2n].
  repeat (apply f_equal2; [lia|]). reflexivity.
Qed.

Lemma bytes_ind3 (P : list byte -> Prop) :
  P [] -> (forall x, P [x]) -> (forall x y, P [x; y]) ->
  (forall x y z t, P t -> P (x :: y :: z :: t)) -> forall b, P b.
Proof.
  intros H0 H1 H2 H3. fix IH 1. intros [|x [|y [|z t]]]; [exact H0|apply H1|apply H2|apply H3, IH].
Qed.

Lemma sextets_lt b : Forall (fun v => v < 64) (sextets (List.concat (map byte_bits b))).
Proof.
  induction b as [|x|x y|x y z t IH] using bytes_ind3; cbn [map List.concat].
  - constructor.
  - rewrite app_nil_r, sextets1. pose proof (N_of_byte_lt x). repeat constructor; lia.
  - rewrite app_nil_r, sextets2. pose proof (N_of_byte_lt x) as Hx. pose proof (N_of_byte_lt y) as Hy.
    cbv zeta. destruct (groups2 _ _ Hx Hy) as (-> & -> & ->). repeat constructor; lia.
  - rewrite sextets3. pose proof (N_of_byte_lt x) as Hx. pose proof (N_of_byte_lt y) as Hy.
    pose proof (N_of_byte_lt z) as Hz. cbv zeta.
    destruct (groups3 _ _ _ Hx Hy Hz) as (-> & -> & -> & ->).
    repeat (constructor; [lia|]). exact IH.
Qed.

Definition pad4 (n : nat) : pystr := repeat 61 ((4 - n mod 4) mod 4)%nat.

Lemma pad4_add n : pad4 (4 + n) = pad4 n.
Proof. unfold pad4. f_equal. replace ((4 + n) mod 4)%nat with (n mod 4)%nat by lia. reflexivity. Qed.

(** b2a writes the sextets and the padding. *)
Lemma b2a_sextets b :
  let vs := sextets (List.concat (map byte_bits b)) in
  b2a b = map b64_sym vs ++ pad4 (List.length vs).
Proof.
  induction b as [|x|x y|x y z t IH] using bytes_ind3; cbn [map List.concat]; cbv zeta in *.
  - reflexivity.
  - rewrite app_nil_r, sextets1. reflexivity.
  - rewrite app_nil_r, sextets2. reflexivity.
  - rewrite sextets3. cbv zeta. cbn [b2a map List.length].
    rewrite IH. cbn [app]. do 4 f_equal. f_equal. symmetry. apply pad4_add.
Qed.

Lemma b2a_rfc b : b2a b = rfc4648 std_alphabet b.
Proof.
  rewrite b2a_sextets. unfold rfc4648, rfc4648_unpadded, symbols, pad4. rewrite map_length.
  f_equal. apply map_ext_Forall. eapply Forall_impl; [|apply sextets_lt]. intros v Hv.
  now apply sym_std.
Qed.

Lemma map_repeat {A B} (f : A -> B) x n : map f (repeat x n) = repeat (f x) n.
Proof. induction n; cbn; congruence. Qed.

Lemma url_encode_rfc b : url_base64_encode b = rfc4648 url_alphabet b.
Proof.
  unfold url_base64_encode. rewrite b2a_sextets. unfold rfc4648, rfc4648_unpadded, symbols, pad4.
  rewrite map_length, map_app, map_map, map_repeat.
  f_equal. apply map_ext_Forall. eapply Forall_impl; [|apply sextets_lt]. intros v Hv.
  now apply sym_url.
Qed.

(** ** Decoding *)

Definition sext (vs : list N) : list bool := List.concat (map sextet_bits vs).

Lemma sextet_cons v : v < 64 -> exists a b c d e f, sextet_bits v = [a; b; c; d; e; f] /\
  v = 32 * N.b2n a + 16 * N.b2n b + 8 * N.b2n c + 4 * N.b2n d + 2 * N.b2n e + N.b2n f /\
  v / 16 = 2 * N.b2n a + N.b2n b /\
  v mod 16 = 8 * N.b2n c + 4 * N.b2n d + 2 * N.b2n e + N.b2n f /\
  v / 4 = 8 * N.b2n a + 4 * N.b2n b + 2 * N.b2n c + N.b2n d /\
  v mod 4 = 2 * N.b2n e + N.b2n f.
Proof.
  revert v. apply lt64.
  repeat (constructor; [do 6 eexists; repeat split; reflexivity|]). constructor.
Qed.

Definition o1 (a b : N) : byte := byte_of_N (a * 4 + b / 16).
Definition o2 (b c : N) : byte := byte_of_N (b mod 16 * 16 + c / 4).
Definition o3 (c d : N) : byte := byte_of_N (c mod 4 * 64 + d).

Lemma octets4 a b c d vs : a < 64 -> b < 64 -> c < 64 -> d < 64 ->
  octets (sext (a :: b :: c :: d :: vs)) = o1 a b :: o2 b c :: o3 c d :: octets (sext vs).
Proof.
  intros Ha Hb Hc Hd. unfold sext. cbn [map List.concat].
  destruct (sextet_cons a Ha) as (a1 & a2 & a3 & a4 & a5 & a6 & -> & Ea & Ea1 & Ea2 & Ea3 & Ea4).
  destruct (sextet_cons b Hb) as (b1 & b2 & b3 & b4 & b5 & b6 & -> & Eb & Eb1 & Eb2 & Eb3 & Eb4).
  destruct (sextet_cons c Hc) as (c1 & c2 & c3 & c4 & c5 & c6 & -> & Ec & Ec1 & Ec2 & Ec3 & Ec4).
  destruct (sextet_cons d Hd) as (d1 & d2 & d3 & d4 & d5 & d6 & -> & Ed & Ed1 & Ed2 & Ed3 & Ed4).
  cbn [app octets]. rewrite !bits_value8. unfold o1, o2, o3. rewrite Eb1, Eb2, Ec3, Ec4. 
  apply f_equal2; [f_equal; lia|]. apply f_equal2; [f_equal; lia|].
  apply f_equal2; [f_equal; lia|]. reflexivity.
Qed.
Lemma octets3 a b c : a < 64 -> b < 64 -> c < 64 -> octets (sext [a; b; c]) = [o1 a b; o2 b c].
Proof.
  intros Ha Hb Hc. unfold sext. cbn [map List.concat].
  destruct (sextet_cons a Ha) as (a1 & a2 & a3 & a4 & a5 & a6 & -> & Ea & Ea1 & Ea2 & Ea3 & Ea4).
  destruct (sextet_cons b Hb) as (b1 & b2 & b3 & b4 & b5 & b6 & -> & Eb & Eb1 & Eb2 & Eb3 & Eb4).
  destruct (sextet_cons c Hc) as (c1 & c2 & c3 & c4 & c5 & c6 & -> & Ec & Ec1 & Ec2 & Ec3 & Ec4).
  cbn [app octets]. rewrite !bits_value8. unfold o1, o2. rewrite Eb1, Eb2, Ec3.
  apply f_equal2; [f_equal; lia|]. apply f_equal2; [f_equal; lia|]. reflexivity.
Qed.
Lemma octets2 a b : a < 64 -> b < 64 -> octets (sext [a; b]) = [o1 a b].
Proof.
  intros Ha Hb. unfold sext. cbn [map List.concat].
  destruct (sextet_cons a Ha) as (a1 & a2 & a3 & a4 & a5 & a6 & -> & Ea & Ea1 & Ea2 & Ea3 & Ea4).
  destruct (sextet_cons b Hb) as (b1 & b2 & b3 & b4 & b5 & b6 & -> & Eb & Eb1 & Eb2 & Eb3 & Eb4).
  cbn [app octets]. rewrite !bits_value8. unfold o1. rewrite Eb1.
  apply f_equal2; [f_equal; lia|]. reflexivity.
Qed.

(** Symbols and junk: only the values count (no '=' in between). *)
Lemma go_values s tl q left p acc :
  ~ In 61 s -> 
  exists p', a2b_go (map from_url s ++ tl) q left p acc
           = a2b_go (map b64_sym (symbol_values s) ++ tl) q left p' acc /\ p' = p.
Proof.
  intro H. exists p. split; [|reflexivity]. revert q left p acc.
  induction s as [|c s IH]; intros q left p acc; [reflexivity|].
  assert (Hc : c <> 61) by (intros ->; apply H; now left).
  assert (Hs : ~ In 61 s) by (intro; apply H; now right). specialize (IH Hs).
  cbn [map app symbol_values]. cbn [a2b_go].
  assert (E : (from_url c =? 61) = false).
  { unfold from_url. destruct (c =? 45) eqn:E1; [reflexivity|]. destruct (c =? 95); [reflexivity|lia]. }
  rewrite E, val_from_url. destruct (symbol_value c) as [v|] eqn:V; [|apply IH].
  apply symbol_value_lt in V. cbn [map app a2b_go].
  rewrite (sym_not_pad v V), (val_sym v V). rewrite !IH. reflexivity.
Qed.

Lemma N_ind4 (P : list N -> Prop) :
  P [] -> (forall x, P [x]) -> (forall x y, P [x; y]) -> (forall x y z, P [x; y; z]) ->
  (forall x y z w t, P t -> P (x :: y :: z :: w :: t)) -> forall b, P b.
Proof. intros H0 H1 H2 H3 H4. fix IH 1.
  intros [|x [|y [|z [|w t]]]]; [exact H0|apply H1|apply H2|apply H3|apply H4, IH]. Qed.

(** Symbols followed by enough padding. *)
Lemma go_padded vs k acc :
  Forall (fun v => v < 64) vs -> (List.length vs mod 4 <> 1 -> (4 - List.length vs mod 4) mod 4 <= k)%nat ->
  a2b_go (map b64_sym vs ++ repeat 61 k) 0 0 0 acc =
  if (List.length vs mod 4 =? 1)%nat then Raise (Py EBinasciiError)
  else Ok (rev acc ++ octets (sext vs)).
Proof.
  intros HF. revert acc. induction vs as [|a|a b|a b c|a b c d t IH] using N_ind4; intros acc HK.
  - cbn [map app List.length]. change (0 mod 4)%nat with 0%nat. cbn [Nat.eqb].
    rewrite app_nil_r. clear HK HF.
    induction k as [|k IH]; [reflexivity|]. exact IH.
  - inversion_clear HF as [|? ? Ha _]. cbn [map app a2b_go List.length].
    rewrite (sym_not_pad a Ha), (val_sym a Ha). cbn [N.eqb]. clear HK.
    change (1 mod 4 =? 1)%nat with true. cbv iota.
    induction k as [|k IH]; [reflexivity|]. exact IH.
  - inversion_clear HF as [|? ? Ha HF']. inversion_clear HF' as [|? ? Hb _].
    cbn [map app a2b_go List.length] in *.
    rewrite (sym_not_pad a Ha), (val_sym a Ha), (sym_not_pad b Hb), (val_sym b Hb).
    change (2 mod 4)%nat with 2%nat in *. change ((4 - 2) mod 4)%nat with 2%nat in HK.
    specialize (HK ltac:(lia)). destruct k as [|[|k]]; [lia|lia|].
    cbn [repeat a2b_go N.eqb Pos.eqb Nat.eqb N.leb N.compare Pos.compare Pos.compare_cont N.add Pos.add].
    rewrite octets2 by assumption. cbn [rev]. reflexivity.
  - inversion_clear HF as [|? ? Ha HF']. inversion_clear HF' as [|? ? Hb HF''].
    inversion_clear HF'' as [|? ? Hc _].
    cbn [map app a2b_go List.length] in *.
    rewrite (sym_not_pad a Ha), (val_sym a Ha), (sym_not_pad b Hb), (val_sym b Hb),
      (sym_not_pad c Hc), (val_sym c Hc).
    change (3 mod 4)%nat with 3%nat in *. change ((4 - 3) mod 4)%nat with 1%nat in HK.
    specialize (HK ltac:(lia)). destruct k as [|k]; [lia|].
    cbn [repeat a2b_go N.eqb Pos.eqb Nat.eqb N.leb N.compare Pos.compare Pos.compare_cont N.add Pos.add].
    rewrite octets3 by assumption. cbn [rev]. rewrite <- app_assoc. reflexivity.
  - inversion_clear HF as [|? ? Ha HF']. inversion_clear HF' as [|? ? Hb HF''].
    inversion_clear HF'' as [|? ? Hc HF3]. inversion_clear HF3 as [|? ? Hd HF4].
    assert (LM : (List.length (a :: b :: c :: d :: t) mod 4 = List.length t mod 4)%nat).
    { cbn [List.length]. lia. }
    rewrite LM in *. cbn [map app a2b_go].
    rewrite (sym_not_pad a Ha), (val_sym a Ha), (sym_not_pad b Hb), (val_sym b Hb),
      (sym_not_pad c Hc), (val_sym c Hc), (sym_not_pad d Hd), (val_sym d Hd).
    cbn [N.eqb Pos.eqb]. rewrite IH by assumption. rewrite octets4 by assumption.
    destruct (List.length t mod 4 =? 1)%nat; [reflexivity|].
    cbn [rev]. rewrite <- !app_assoc. reflexivity.
Qed.

Lemma symbol_values_lt s : Forall (fun v => v < 64) (symbol_values s).
Proof.
  induction s as [|c s IH]; cbn [symbol_values]; [constructor|].
  destruct (symbol_value c) eqn:E; [|exact IH]. constructor; [|exact IH].
  now apply symbol_value_lt in E.
Qed.

(** url_base64_decode of a text without '='. *)
Lemma url_decode_exact s :
  ~ In 61 s ->
  url_base64_decode s =
  if forallb (fun c => c <? 128) s then
    if (List.length (symbol_values s) mod 4 =? 1)%nat then Raise (Py EBinasciiError)
    else Ok (octets (sext (symbol_values s)))
  else Raise (Py EValueError).
Proof.
  intro H. unfold url_base64_decode, is_ascii. rewrite forallb_app. cbn [forallb].
  rewrite andb_true_r. destruct (forallb _ s); [|reflexivity].
  rewrite map_app. change (map from_url [61; 61; 61]) with (repeat 61 3). unfold a2b.
  destruct (go_values s (repeat 61 3) 0 0 0 [] H) as (p' & -> & ->).
  rewrite go_padded; [reflexivity|apply symbol_values_lt|].
  intro HN. assert (List.length (symbol_values s) mod 4 < 4)%nat by (apply Nat.mod_upper_bound; lia).
  destruct (List.length (symbol_values s) mod 4)%nat as [|[|[|[|]]]]; cbn; lia.
Qed.
