(** * B64Round: base64 round trips and canonical texts. *)
From Coq Require Import List NArith ZArith Bool Lia ZifyBool ZifyNat ZifyN String.
From Coq Require Import Strings.Byte.
From Verif Require Import Base BaseFacts B64 CodecSpec Url B64Facts.
Import ListNotations.
Local Open Scope list_scope.
Local Open Scope N_scope.

Local Ltac Zify.zify_post_hook ::= Z.to_euclidean_division_equations.

(** ** Round trips *)

Lemma N_byte n : n < 256 -> N_of_byte (byte_of_N n) = n.
Proof. intro H. rewrite N_of_byte_of_N. lia. Qed.

Lemma div_pack k q r : r < k -> (q * k + r) / k = q /\ (q * k + r) mod k = r.
Proof.
  intro H. split.
  - symmetry. apply (N.div_unique _ _ _ r); [assumption|]. rewrite (N.mul_comm q). reflexivity.
  - symmetry. apply (N.mod_unique _ _ q); [assumption|]. rewrite (N.mul_comm q). reflexivity.
Qed.
Lemma pack1 a b : b < 64 -> (a * 4 + b / 16) / 4 = a /\ (a * 4 + b / 16) mod 4 = b / 16.
Proof. intro H. apply div_pack. lia. Qed.
Lemma pack2 b c : c < 64 -> (b mod 16 * 16 + c / 4) / 16 = b mod 16 /\
  (b mod 16 * 16 + c / 4) mod 16 = c / 4.
Proof. intro H. apply div_pack. lia. Qed.
Lemma pack3 c d : d < 64 -> (c mod 4 * 64 + d) / 64 = c mod 4 /\ (c mod 4 * 64 + d) mod 64 = d.
Proof. intro H. apply div_pack. lia. Qed.

Lemma octets_sextets b : octets (sext (sextets (List.concat (map byte_bits b)))) = b.
Proof.
  induction b as [|x|x y|x y z t IH] using bytes_ind3; cbn [map List.concat].
  - reflexivity.
  - rewrite app_nil_r, sextets1. pose proof (N_of_byte_lt x) as Hx.
    rewrite octets2 by lia. unfold o1. f_equal.
    transitivity (byte_of_N (N_of_byte x)); [f_equal; lia|apply byte_of_N_of_byte].
  - rewrite app_nil_r, sextets2. pose proof (N_of_byte_lt x) as Hx. pose proof (N_of_byte_lt y) as Hy.
    cbv zeta. destruct (groups2 _ _ Hx Hy) as (-> & -> & ->).
    rewrite octets3 by lia. unfold o1, o2.
    transitivity [byte_of_N (N_of_byte x); byte_of_N (N_of_byte y)];
      [|now rewrite !byte_of_N_of_byte].
    generalize dependent (N_of_byte x). generalize dependent (N_of_byte y). intros v Hv u Hu.
    apply f_equal2; [f_equal; lia|]. apply f_equal2; [f_equal; lia|]. reflexivity.
  - rewrite sextets3. pose proof (N_of_byte_lt x) as Hx. pose proof (N_of_byte_lt y) as Hy.
    pose proof (N_of_byte_lt z) as Hz. cbv zeta.
    destruct (groups3 _ _ _ Hx Hy Hz) as (-> & -> & -> & ->).
    rewrite octets4 by lia. rewrite IH. unfold o1, o2, o3.
    transitivity (byte_of_N (N_of_byte x) :: byte_of_N (N_of_byte y) :: byte_of_N (N_of_byte z) :: t);
      [|now rewrite !byte_of_N_of_byte]. clear IH.
    generalize dependent (N_of_byte x). generalize dependent (N_of_byte y).
    generalize dependent (N_of_byte z). intros w Hw v Hv u Hu.
    apply f_equal2; [f_equal; lia|]. apply f_equal2; [f_equal; lia|].
    apply f_equal2; [f_equal; lia|]. reflexivity.
Qed.

Lemma sextets_octets vs : Forall (fun v => v < 64) vs ->
  match (List.length vs mod 4)%nat with
  | 0%nat => True
  | 1%nat => False
  | 2%nat => last vs 0 mod 16 = 0
  | _ => last vs 0 mod 4 = 0
  end ->
  sextets (List.concat (map byte_bits (octets (sext vs)))) = vs.
Proof.
  induction vs as [|a|a b|a b c|a b c d t IH] using N_ind4; intros HF HC.
  - reflexivity.
  - destruct HC.
  - cbn [List.length last] in HC. change (2 mod 4)%nat with 2%nat in HC. cbv iota in HC.
    inversion_clear HF as [|? ? Ha HF']. inversion_clear HF' as [|? ? Hb _].
    rewrite octets2 by assumption. cbn [map List.concat]. rewrite app_nil_r, sextets1.
    unfold o1. rewrite N_byte by lia.
    apply f_equal2; [lia|]. apply f_equal2; [lia|]. reflexivity.
  - cbn [List.length last] in HC. change (3 mod 4)%nat with 3%nat in HC. cbv iota in HC.
    inversion_clear HF as [|? ? Ha HF']. inversion_clear HF' as [|? ? Hb HF''].
    inversion_clear HF'' as [|? ? Hc _].
    rewrite octets3 by assumption. cbn [map List.concat]. rewrite app_nil_r, sextets2. cbv zeta.
    unfold o1, o2. rewrite !N_byte by lia.
    destruct (groups2 (a * 4 + b / 16) (b mod 16 * 16 + c / 4)) as (-> & -> & ->); [lia|lia|].
    destruct (pack1 a b Hb) as [-> ->]. destruct (pack2 b c Hc) as [-> ->].
    apply f_equal2; [lia|]. apply f_equal2; [lia|]. apply f_equal2; [lia|]. reflexivity.
  - inversion_clear HF as [|? ? Ha HF']. inversion_clear HF' as [|? ? Hb HF''].
    inversion_clear HF'' as [|? ? Hc HF3]. inversion_clear HF3 as [|? ? Hd HF4].
    rewrite octets4 by assumption. cbn [map List.concat]. rewrite sextets3. cbv zeta.
    rewrite IH; [|assumption|].
    + unfold o1, o2, o3. rewrite !N_byte by lia.
      destruct (groups3 (a * 4 + b / 16) (b mod 16 * 16 + c / 4) (c mod 4 * 64 + d))
        as (-> & -> & -> & ->); [lia|lia|lia|].
      destruct (pack1 a b Hb) as [-> ->]. destruct (pack2 b c Hc) as [-> ->].
      destruct (pack3 c d Hd) as [-> ->].
      apply f_equal2; [lia|]. apply f_equal2; [lia|]. apply f_equal2; [lia|].
      apply f_equal2; [lia|]. reflexivity.
    + assert (LM : (List.length (a :: b :: c :: d :: t) mod 4 = List.length t mod 4)%nat).
      { cbn [List.length]. lia. }
      rewrite LM in HC. destruct t as [|e t]; [exact I|]. exact HC.
Qed.

Lemma strip_repeat (l1 : pystr) n s k :
  ~ In 61 l1 -> l1 ++ repeat 61 n = s ++ repeat 61 k -> exists m, s = l1 ++ repeat 61 m.
Proof.
  revert s. induction l1 as [|x l1 IH]; intros s HN H.
  - exists (List.length s). cbn [app] in *. revert n H. induction s as [|c s IHs]; intros n H; [reflexivity|].
    destruct n as [|n]; [discriminate|]. cbn [repeat app] in H. injection H as H1 H2. subst c.
    cbn [List.length repeat]. f_equal. eapply IHs; eauto.
  - destruct s as [|c s].
    + destruct k as [|k]; [discriminate|]. cbn [repeat app] in H. injection H as H1 H2. subst x.
      elim HN. now left.
    + cbn [app] in H. injection H as H1 H2. subst c. destruct (IH s (fun h => HN (or_intror h)) H2) as (m & ->).
      now exists m.
Qed.

Lemma url_syms vs : Forall (fun v => v < 64) vs ->
  map from_url (map to_url (map b64_sym vs)) = map b64_sym vs /\
  ~ In 61 (map to_url (map b64_sym vs)) /\
  forallb (fun c => c <? 128) (map to_url (map b64_sym vs)) = true.
Proof.
  induction 1 as [|v vs Hv HF (I1 & I2 & I3)]; cbn [map In forallb].
  - split; [reflexivity|]. split; [intros []|reflexivity].
  - rewrite from_to_url, I1, I3, to_url_ascii by assumption. split; [reflexivity|].
    split; [|reflexivity]. intros [E|E]; [|auto]. pose proof (to_url_not_pad v Hv). lia.
Qed.

Lemma repeat_add {A} (x : A) m n : repeat x m ++ repeat x n = repeat x (m + n).
Proof. induction m; cbn; congruence. Qed.

Lemma forallb_repeat {A} (p : A -> bool) x n : p x = true -> forallb p (repeat x n) = true.
Proof. intro H. induction n; cbn; [reflexivity|]. now rewrite H. Qed.

Lemma mod4_pad n : ((4 - n mod 4) mod 4 <= 3)%nat.
Proof. pose proof (Nat.mod_upper_bound (4 - n mod 4) 4). lia. Qed.

Lemma sextets_length b : (List.length (sextets (List.concat (map byte_bits b))) mod 4 <> 1)%nat.
Proof.
  induction b as [|x|x y|x y z t IH] using bytes_ind3; cbn [map List.concat].
  - discriminate.
  - rewrite app_nil_r, sextets1. discriminate.
  - rewrite app_nil_r, sextets2. discriminate.
  - rewrite sextets3. cbn [List.length]. cbv zeta. lia.
Qed.

Lemma url_decode_values vs m : Forall (fun v => v < 64) vs ->
  url_base64_decode (map to_url (map b64_sym vs) ++ repeat 61 m) =
  if (List.length vs mod 4 =? 1)%nat then Raise (Py EBinasciiError) else Ok (octets (sext vs)).
Proof.
  intro HF. destruct (url_syms vs HF) as (E1 & E2 & E3).
  unfold url_base64_decode, is_ascii. change [61; 61; 61] with (repeat 61 3).
  rewrite <- app_assoc, repeat_add, forallb_app, E3, forallb_repeat by reflexivity.
  cbn [andb]. rewrite map_app, E1, map_repeat. unfold a2b.
  change (from_url 61) with 61. rewrite go_padded; [reflexivity|assumption|].
  intros _. pose proof (mod4_pad (List.length vs)). lia.
Qed.

Lemma url_round_trip b s k : url_base64_encode b = s ++ repeat 61 k -> url_base64_decode s = Ok b.
Proof.
  unfold url_base64_encode. rewrite b2a_sextets. cbv zeta.
  set (vs := sextets _). rewrite map_app. unfold pad4. rewrite map_repeat.
  change (to_url 61) with 61. intro H.
  assert (HF : Forall (fun v => v < 64) vs) by apply sextets_lt.
  apply strip_repeat in H as (m & ->); [|now apply url_syms].
  rewrite url_decode_values by assumption.
  pose proof (sextets_length b) as L. fold vs in L. apply Nat.eqb_neq in L. rewrite L.
  f_equal. apply octets_sextets.
Qed.

Lemma std_round_trip b : b64decode (b2a b) = Ok b.
Proof.
  rewrite b2a_sextets. cbv zeta. set (vs := sextets _).
  assert (HF : Forall (fun v => v < 64) vs) by apply sextets_lt.
  unfold b64decode, is_ascii. rewrite forallb_app.
  assert (E : forallb (fun c => c <? 128) (map b64_sym vs) = true).
  { apply forallb_forall. intros c Hc. apply in_map_iff in Hc as (v & <- & Hv).
    rewrite Forall_forall in HF. now apply sym_ascii, HF. }
  rewrite E. unfold pad4. rewrite forallb_repeat by reflexivity. cbn [andb]. unfold a2b.
  rewrite go_padded; [|assumption|intros _; lia].
  pose proof (sextets_length b) as L. fold vs in L. apply Nat.eqb_neq in L. rewrite L.
  f_equal. apply octets_sextets.
Qed.

Lemma symbols_url vs : Forall (fun v => v < 64) vs ->
  symbols url_alphabet vs = map to_url (map b64_sym vs).
Proof.
  intro H. unfold symbols. rewrite map_map. apply map_ext_Forall.
  eapply Forall_impl; [|exact H]. intros v Hv. symmetry. now apply sym_url.
Qed.

Lemma canonical_decode s : CanonicalUrl s ->
  exists b k, url_base64_decode s = Ok b /\ url_base64_encode b = s ++ repeat 61 k.
Proof.
  intros (vs & -> & HF & HC). rewrite symbols_url by assumption.
  exists (octets (sext vs)), ((4 - List.length vs mod 4) mod 4)%nat. split.
  - rewrite <- (app_nil_r (map to_url _)). change (@nil N) with (repeat 61 0).
    rewrite url_decode_values by assumption.
    destruct (Nat.eqb_spec (List.length vs mod 4) 1) as [E|E]; [|reflexivity].
    rewrite E in HC. destruct HC.
  - unfold url_base64_encode. rewrite b2a_sextets. cbv zeta.
    rewrite (sextets_octets vs HF HC), map_app. unfold pad4. now rewrite map_repeat.
Qed.

Lemma encode_canonical b : CanonicalUrl (rfc4648_unpadded url_alphabet b).
Proof.
  exists (sextets (List.concat (map byte_bits b))). split; [reflexivity|]. split; [apply sextets_lt|].
  induction b as [|x|x y|x y z t IH] using bytes_ind3; cbn [map List.concat].
  - exact I.
  - rewrite app_nil_r, sextets1. cbn [List.length last]. change (2 mod 4)%nat with 2%nat. cbv iota. lia.
  - rewrite app_nil_r, sextets2. cbv zeta. cbn [List.length last]. change (3 mod 4)%nat with 3%nat. cbv iota.
    pose proof (N_of_byte_lt x) as Hx. pose proof (N_of_byte_lt y) as Hy.
    destruct (groups2 _ _ Hx Hy) as (_ & _ & ->). lia.
  - rewrite sextets3. cbv zeta. revert IH. generalize (sextets (List.concat (map byte_bits t))).
    intros l IH.
    match goal with |- match (List.length (?p :: ?q :: ?r :: ?w :: l) mod 4)%nat with _ => _ end =>
      assert (LM : (List.length (p :: q :: r :: w :: l) mod 4 = List.length l mod 4)%nat)
        by (cbn [List.length]; lia) end.
    rewrite LM. destruct l as [|e l]; [exact I|]. exact IH.
Qed.

(** Anything outside the alphabets is skipped, wherever it is. *)
Lemma go_junk s1 c t q left p acc :
  from_url c <> 61 -> symbol_value c = None ->
  a2b_go (map from_url s1 ++ from_url c :: t) q left p acc = a2b_go (map from_url s1 ++ t) q left p acc.
Proof.
  intros H1 H2. revert q left p acc. induction s1 as [|x s1 IH]; intros q left p acc.
  - cbn [map app a2b_go]. replace (from_url c =? 61) with false by lia. now rewrite val_from_url, H2.
  - cbn [map app a2b_go]. rewrite ?IH.
    destruct (from_url x =? 61); [reflexivity|]. destruct (b64_val (from_url x)); rewrite ?IH; reflexivity.
Qed.

Lemma url_decode_junk s1 c s2 : c < 128 -> c <> 61 -> symbol_value c = None ->
  url_base64_decode (s1 ++ c :: s2) = url_base64_decode (s1 ++ s2).
Proof.
  intros H1 H2 H3. unfold url_base64_decode, is_ascii. rewrite <- !app_assoc. cbn [app].
  rewrite !forallb_app. cbn [forallb]. replace (c <? 128) with true by lia.
  rewrite ?forallb_app. cbn [andb forallb].
  destruct (forallb _ s1 && _); [|reflexivity]. rewrite !map_app. cbn [map]. rewrite ?map_app.
  unfold a2b. apply go_junk; [|assumption].
  unfold from_url. destruct (c =? 45) eqn:E1; [discriminate|]. destruct (c =? 95); [discriminate|assumption].
Qed.

(** ** Standard alphabet *)

Lemma std_index c : b64_val c = index_of c std_alphabet.
Proof.
  destruct (N.ltb_spec c 123) as [L|L].
  - assert (G : forall n, (n < 123)%nat -> b64_val (N.of_nat n) = index_of (N.of_nat n) std_alphabet).
    { intros n Hn.
      assert (F : Forall (fun m => b64_val (N.of_nat m) = index_of (N.of_nat m) std_alphabet) (seq 0 123)).
      { repeat (constructor; [vm_compute; reflexivity|]). constructor. }
      rewrite Forall_forall in F. apply F. apply in_seq. lia. }
    specialize (G (N.to_nat c) ltac:(lia)). now rewrite N2Nat.id in G.
  - assert (I : forall l, Forall (fun x => x < 123) l -> index_of c l = None).
    { induction 1 as [|x l Hx HF IH]; [reflexivity|]. cbn [index_of]. rewrite IH.
      replace (x =? c) with false by lia. reflexivity. }
    rewrite !I by (vm_compute; repeat (constructor; [reflexivity|]); constructor).
    unfold b64_val. replace (c <=? 90) with false by lia. replace (c <=? 122) with false by lia.
    replace (c <=? 57) with false by lia. replace (c =? 43) with false by lia.
    replace (c =? 47) with false by lia. now rewrite !andb_false_r.
Qed.

Lemma std_values s q left p acc :
  ~ In 61 s ->
  a2b_go s q left p acc = a2b_go (map b64_sym (values_in std_alphabet s)) q left p acc.
Proof.
  intro H. revert q left p acc. induction s as [|c s IH]; intros q left p acc; [reflexivity|].
  assert (Hc : c <> 61) by (intros ->; apply H; now left).
  assert (Hs : ~ In 61 s) by (intro; apply H; now right). specialize (IH Hs).
  cbn [values_in a2b_go]. replace (c =? 61) with false by lia. rewrite std_index.
  destruct (index_of c std_alphabet) as [v|] eqn:V; [|apply IH].
  apply index_of_lt in V. change (v < 64) in V. cbn [map a2b_go].
  rewrite (sym_not_pad v V), (val_sym v V). rewrite !IH. reflexivity.
Qed.

(** Without padding only whole groups of four are accepted. *)
Lemma go_unpadded vs acc :
  Forall (fun v => v < 64) vs ->
  a2b_go (map b64_sym vs) 0 0 0 acc =
  if (List.length vs mod 4 =? 0)%nat then Ok (rev acc ++ octets (sext vs))
  else Raise (Py EBinasciiError).
Proof.
  intros HF. destruct (List.length vs mod 4 =? 0)%nat eqn:E.
  - pose proof (go_padded vs 0 acc HF) as G. cbn [repeat] in G. rewrite app_nil_r in G.
    apply Nat.eqb_eq in E. rewrite E in G. apply G. intros _. apply Nat.le_refl.
  - revert acc E. induction vs as [|a|a b|a b c|a b c d t IH] using N_ind4; intros acc E.
    + discriminate.
    + inversion_clear HF as [|? ? Ha _]. cbn [map a2b_go].
      now rewrite (sym_not_pad a Ha), (val_sym a Ha).
    + inversion_clear HF as [|? ? Ha HF']. inversion_clear HF' as [|? ? Hb _]. cbn [map a2b_go].
      now rewrite (sym_not_pad a Ha), (val_sym a Ha), (sym_not_pad b Hb), (val_sym b Hb).
    + inversion_clear HF as [|? ? Ha HF']. inversion_clear HF' as [|? ? Hb HF''].
      inversion_clear HF'' as [|? ? Hc _]. cbn [map a2b_go].
      now rewrite (sym_not_pad a Ha), (val_sym a Ha), (sym_not_pad b Hb), (val_sym b Hb),
        (sym_not_pad c Hc), (val_sym c Hc).
    + inversion_clear HF as [|? ? Ha HF']. inversion_clear HF' as [|? ? Hb HF''].
      inversion_clear HF'' as [|? ? Hc HF3]. inversion_clear HF3 as [|? ? Hd HF4].
      assert (LM : (List.length (a :: b :: c :: d :: t) mod 4 = List.length t mod 4)%nat).
      { cbn [List.length]. lia. }
      rewrite LM in E. cbn [map a2b_go].
      rewrite (sym_not_pad a Ha), (val_sym a Ha), (sym_not_pad b Hb), (val_sym b Hb),
        (sym_not_pad c Hc), (val_sym c Hc), (sym_not_pad d Hd), (val_sym d Hd).
      cbn [N.eqb Pos.eqb]. now apply IH.
Qed.

Lemma std_decode_exact s :
  ~ In 61 s ->
  b64decode s =
  if forallb (fun c => c <? 128) s then
    let vs := values_in std_alphabet s in
    if (List.length vs mod 4 =? 0)%nat then Ok (octets (sext vs)) else Raise (Py EBinasciiError)
  else Raise (Py EValueError).
Proof.
  intro H. unfold b64decode, is_ascii. destruct (forallb _ s); [|reflexivity].
  unfold a2b. rewrite std_values by assumption. rewrite go_unpadded; [reflexivity|].
  clear H. induction s as [|c s IH]; cbn [values_in]; [constructor|].
  destruct (index_of c std_alphabet) eqn:V; [|exact IH]. constructor; [|exact IH].
  now apply index_of_lt in V.
Qed.
