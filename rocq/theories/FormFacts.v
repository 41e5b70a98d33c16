(** * FormFacts: the server reads in the form what the page put there; base64 and UTF-16. *)
From Coq Require Import List NArith ZArith Bool String Lia ZifyBool ZifyN.
From Coq Require Import Strings.Byte.
From Verif Require Import Base BaseFacts Utf8 Utf8Facts Utf8Sound B64 B64Facts PyVal Json JsonSpec Dumps
  DumpsSpec DumpsFacts Form Page.
Import ListNotations.
Local Open Scope N_scope.
Local Open Scope list_scope.
Ltac Zify.zify_post_hook ::= Z.div_mod_to_equations.

(** ** Forms *)
Definition Scalars (s : pystr) : Prop := Forall (fun c => c < 55296 \/ 57343 < c <= 1114111) s.

Lemma octet_chars x : Forall (fun c => c <> 38 /\ c <> 61) (form_octet x).
Proof.
  unfold form_octet. cbv zeta. destruct (N_of_byte x =? 32); [repeat constructor; discriminate|].
  destruct (form_safe (N_of_byte x)) eqn:S.
  - repeat constructor; intro Q; rewrite Q in S; discriminate S.
  - repeat constructor; try discriminate; unfold form_hex; destruct (_ <? _) eqn:L; apply N.ltb_lt in L || apply N.ltb_ge in L;
      pose proof (N_of_byte_lt x); lia.
Qed.
Lemma hex_read n : n < 16 -> hex_value (form_hex n) = Some n.
Proof.
  intro H. destruct n as [|p]; [reflexivity|]. do 4 (destruct p as [p|p|]; try reflexivity); lia.
Qed.
Lemma text_chars s : Forall (fun c => c <> 38 /\ c <> 61) (form_text s).
Proof.
  unfold form_text. destruct (utf8_encode s) as [b|]; [|constructor].
  induction b as [|x b IH]; cbn [flat_map]; [constructor|]. apply Forall_app. split; [apply octet_chars|exact IH].
Qed.
Lemma unquote_octet x s : unquote (form_octet x ++ s) = x :: unquote s.
Proof.
  unfold form_octet. cbv zeta. destruct (N.eqb_spec (N_of_byte x) 32) as [Q|Q].
  - cbn [app unquote N.eqb Pos.eqb]. now rewrite <- Q, byte_of_N_of_byte.
  - destruct (form_safe (N_of_byte x)) eqn:S; cbn [app unquote].
    + assert (N_of_byte x <> 43 /\ N_of_byte x <> 37) as [H1 H2] by (split; intro E; rewrite E in S; discriminate S).
      apply N.eqb_neq in H1, H2. now rewrite H1, H2, byte_of_N_of_byte.
    + pose proof (N_of_byte_lt x). rewrite !hex_read by lia. cbn [N.eqb Pos.eqb].
      now rewrite N.mul_comm, <- N.div_mod, byte_of_N_of_byte by discriminate.
Qed.
Lemma unquote_octets b : unquote (flat_map form_octet b) = b.
Proof.
  induction b as [|x b IH]; [reflexivity|]. cbn [flat_map]. now rewrite unquote_octet, IH.
Qed.
Lemma split_on_nonempty sep s : split_on sep s <> [].
Proof. destruct s; cbn; [discriminate|]. destruct (split_on sep s); [discriminate|]. destruct (_ =? _); discriminate. Qed.
Lemma split_on_word sep w : Forall (fun c => c <> sep) w -> split_on sep w = [w].
Proof.
  induction 1 as [|c w H F IH]; [reflexivity|]. cbn. rewrite IH. destruct (N.eqb_spec c sep); [contradiction|reflexivity].
Qed.
Lemma split_on_cons sep w s : Forall (fun c => c <> sep) w -> split_on sep (w ++ sep :: s) = w :: split_on sep s.
Proof.
  induction 1 as [|c w H F IH]; cbn [app split_on].
  - pose proof (split_on_nonempty sep s). destruct (split_on sep s); [contradiction|]. now rewrite N.eqb_refl.
  - rewrite IH. destruct (N.eqb_spec c sep); [contradiction|reflexivity].
Qed.
Lemma split_on_join sep ws : ws <> [] -> Forall (Forall (fun c => c <> sep)) ws -> split_on sep (join [sep] ws) = ws.
Proof.
  intros N F. induction F as [|w ws H F IH]; [contradiction|]. destruct ws as [|w' ws].
  - cbn [join]. now apply split_on_word.
  - rewrite join_cons. cbn [app]. rewrite split_on_cons by exact H. f_equal. apply IH. discriminate.
Qed.
Lemma split_pair_text k v : Forall (fun c => c <> 61) k -> split_pair (k ++ 61 :: v) = (k, v).
Proof.
  induction 1 as [|c k H F IH]; cbn [app split_pair]; [reflexivity|].
  destruct (N.eqb_spec c 61); [contradiction|]. now rewrite IH.
Qed.
Lemma form_string_text replaced s : Scalars s -> form_string replaced (form_text s) = s.
Proof.
  intro H. destruct (utf8_encode_total s H) as (b & E). unfold form_string, form_text. rewrite E, unquote_octets.
  now rewrite (utf8_roundtrip s b E).
Qed.
Lemma form_fields replaced ps : form_decode replaced (form_encode ps) =
  map (fun p => (form_string replaced (form_text (fst p)), form_string replaced (form_text (snd p)))) ps.
Proof.
  destruct ps as [|p ps]; [reflexivity|].
  unfold form_decode, form_encode. rewrite split_on_join.
  2:{ discriminate. }
  2:{ apply Forall_map, Forall_forall. intros q _. unfold form_pair. apply Forall_app. split.
      - eapply Forall_impl; [|apply text_chars]. cbn. intuition.
      - constructor; [discriminate|]. eapply Forall_impl; [|apply text_chars]. cbn. intuition. }
  generalize (p :: ps). clear p ps. intro ps. induction ps as [|q qs IH]; [reflexivity|]. cbn [map filter].
  assert (N : exists c w, form_pair q = c :: w) by (unfold form_pair; destruct (form_text (fst q)); cbn; eauto).
  destruct N as (c & w & N). rewrite N. cbn [map]. rewrite <- N. unfold form_pair.
  rewrite split_pair_text by (eapply Forall_impl; [|apply text_chars]; cbn; intuition).
  f_equal. exact IH.
Qed.
Lemma form_roundtrip replaced ps : Forall (fun p => Scalars (fst p) /\ Scalars (snd p)) ps ->
  form_decode replaced (form_encode ps) = ps.
Proof.
  intro F. rewrite form_fields. induction F as [|q qs [H1 H2] F IH]; [reflexivity|]. cbn [map].
  rewrite !form_string_text by assumption. destruct q. f_equal; exact IH.
Qed.

(** ** UTF-16 *)
Lemma is_high_iff u : is_high u = true <-> High u.
Proof. unfold is_high, High. lia. Qed.
Lemma is_low_iff u : is_low u = true <-> Low u.
Proof. unfold is_low, Low. lia. Qed.
Lemma usv_cons u t : usv (u :: t) =
  if is_high u then
    match t with
    | v :: t' => if is_low v then 65536 + (u - 55296) * 1024 + (v - 56320) :: usv t' else 65533 :: usv t
    | [] => [65533]
    end
  else if is_low u then 65533 :: usv t else u :: usv t.
Proof. reflexivity. Qed.
Lemma usv_scalars n : forall s, (List.length s <= n)%nat -> Forall (fun u => u < 65536) s -> Scalars (usv s).
Proof.
  induction n as [|n IH]; intros [|u t] L F; try (constructor; fail); cbn [List.length] in L; [lia|].
  inversion F as [|? ? F1 F2]; subst. rewrite usv_cons.
  destruct (is_high u) eqn:H.
  - apply is_high_iff in H. unfold High in H. destruct t as [|v t']; [constructor; [lia|constructor]|].
    inversion F2; subst. destruct (is_low v) eqn:L'.
    + apply is_low_iff in L'. unfold Low in L'. constructor; [lia|]. apply IH; [cbn in L; lia|assumption].
    + constructor; [lia|]. apply IH; [cbn in L |- *; lia|assumption].
  - destruct (is_low u) eqn:L'.
    + constructor; [lia|]. apply IH; [lia|assumption].
    + constructor; [|apply IH; [lia|assumption]].
      assert (~ High u) by (intro X; apply is_high_iff in X; congruence).
      assert (~ Low u) by (intro X; apply is_low_iff in X; congruence). unfold High, Low in *. lia.
Qed.
Lemma usv_plain u t : ~ High u -> ~ Low u -> usv (u :: t) = u :: usv t.
Proof.
  intros H L. rewrite usv_cons. destruct (is_high u) eqn:X; [apply is_high_iff in X; contradiction|].
  destruct (is_low u) eqn:Y; [apply is_low_iff in Y; contradiction|reflexivity].
Qed.
Lemma usv_low s t : Forall (fun u => u < 55296) s -> usv (s ++ t) = s ++ usv t.
Proof.
  induction 1 as [|u s H F IH]; [reflexivity|]. cbn [app].
  rewrite usv_plain by (unfold High, Low; lia). now rewrite IH.
Qed.
Lemma usv_ascii s : Forall (fun u => u < 128) s -> usv s = s.
Proof.
  intro F. rewrite <- (app_nil_r s) at 1. rewrite usv_low; [now rewrite app_nil_r|].
  eapply Forall_impl; [|exact F]. cbn. lia.
Qed.
Lemma usv_pair c t : 65536 <= c <= 1114111 -> usv (utf16_char c ++ t) = c :: usv t.
Proof.
  intro H. unfold utf16_char. destruct (N.ltb_spec c 65536); [lia|]. cbn [app]. rewrite usv_cons.
  assert (H1 : is_high (55296 + (c - 65536) / 1024) = true) by (apply is_high_iff; unfold High; lia).
  assert (H2 : is_low (56320 + (c - 65536) mod 1024) = true) by (apply is_low_iff; unfold Low; lia).
  rewrite H1, H2. f_equal. lia.
Qed.
Lemma usv_utf16 s : Scalars s -> usv (utf16 s) = s.
Proof.
  induction 1 as [|c s H F IH]; [reflexivity|]. unfold utf16. cbn [flat_map]. fold (utf16 s).
  destruct (N.ltb_spec c 65536) as [L|L].
  - unfold utf16_char. destruct (N.ltb_spec c 65536); [|lia]. cbn [app].
    rewrite usv_plain by (unfold High, Low; lia). now rewrite IH.
  - rewrite usv_pair by lia. now rewrite IH.
Qed.
Lemma utf16_small s : Forall (fun c => c < 65536) s -> utf16 s = s.
Proof.
  induction 1 as [|c s H F IH]; [reflexivity|]. unfold utf16. cbn [flat_map]. fold (utf16 s).
  unfold utf16_char. destruct (N.ltb_spec c 65536); [|lia]. cbn. now rewrite IH.
Qed.
Lemma lit_256 s : Forall (fun c => c < 256) (lit s).
Proof.
  unfold lit. induction s as [|a s IH]; cbn; constructor; [|exact IH].
  pose proof (Ascii.N_ascii_bounded a). lia.
Qed.
Lemma lit_scalars s : Scalars (lit s).
Proof. eapply Forall_impl; [|apply lit_256]. cbn. lia. Qed.
Lemma utf16_lit s : utf16 (lit s) = lit s.
Proof. apply utf16_small. eapply Forall_impl; [|apply lit_256]. cbn. lia. Qed.

(** ** base64 *)
Lemma join1 x y : y < 256 -> x / 4 * 4 + (x mod 4 * 16 + y / 16) / 16 = x.
Proof.
  intro H. rewrite N.add_comm, N.div_add_l by discriminate. rewrite (N.div_small (y / 16)) by (apply N.div_lt_upper_bound; lia).
  rewrite N.add_0_r, N.add_comm, N.mul_comm. symmetry. apply N.div_mod. discriminate.
Qed.
Lemma join2 x y z : y < 256 -> z < 256 -> (x mod 4 * 16 + y / 16) mod 16 * 16 + (y mod 16 * 4 + z / 64) / 4 = y.
Proof.
  intros H I. rewrite N.add_comm, N.div_add_l by discriminate. rewrite (N.div_small (z / 64)) by (apply N.div_lt_upper_bound; lia).
  rewrite (N.add_comm (x mod 4 * 16)), N.mod_add, (N.mod_small (y / 16)) by (discriminate || apply N.div_lt_upper_bound; lia).
  rewrite N.add_0_r, N.add_comm, N.mul_comm. symmetry. apply N.div_mod. discriminate.
Qed.
Lemma join3 y z : z < 256 -> (y mod 16 * 4 + z / 64) mod 4 * 64 + z mod 64 = z.
Proof.
  intro H. rewrite (N.add_comm (y mod 16 * 4)), N.mod_add, (N.mod_small (z / 64)) by (discriminate || apply N.div_lt_upper_bound; lia).
  rewrite N.mul_comm. symmetry. apply N.div_mod. discriminate.
Qed.
Lemma small x n m : x < n * m -> m <> 0 -> x / m < n.
Proof. intros H M. apply N.div_lt_upper_bound; [exact M|]. now rewrite N.mul_comm. Qed.
Lemma atob_values b : exists vs k,
  b2a b = map b64_sym vs ++ repeat 61 k /\ Forall (fun v => v < 64) vs /\ octets_of vs = b /\
  (N.of_nat (List.length vs) mod 4 = 0 /\ k = 0%nat \/
   N.of_nat (List.length vs) mod 4 = 2 /\ k = 2%nat \/
   N.of_nat (List.length vs) mod 4 = 3 /\ k = 1%nat).
Proof.
  induction b as [|x|x y|x y z t (vs & k & IH1 & IH2 & IH3 & IH4)] using bytes_ind3.
  - exists [], 0%nat. repeat split; auto.
  - pose proof (N_of_byte_lt x). exists [N_of_byte x / 4; N_of_byte x mod 4 * 16], 2%nat.
    split; [reflexivity|]. split; [repeat constructor; lia|]. split; [|auto]. cbn [octets_of].
    f_equal. apply Utf8Sound.byte_eq. lia.
  - pose proof (N_of_byte_lt x). pose proof (N_of_byte_lt y).
    destruct (groups2 (N_of_byte x) (N_of_byte y)) as (G1 & G2 & G3); [assumption..|].
    exists [N_of_byte x / 4; N_of_byte x mod 4 * 16 + N_of_byte y / 16; N_of_byte y mod 16 * 4], 1%nat.
    split; [cbn [b2a]; rewrite G1, G2, G3; reflexivity|]. split; [repeat constructor; lia|]. split; [|auto].
    cbn [octets_of]. f_equal; [|f_equal].
    + apply Utf8Sound.byte_eq. lia.
    + apply Utf8Sound.byte_eq. lia.
  - pose proof (N_of_byte_lt x). pose proof (N_of_byte_lt y). pose proof (N_of_byte_lt z).
    destruct (groups3 (N_of_byte x) (N_of_byte y) (N_of_byte z)) as (G1 & G2 & G3 & G4); [assumption..|].
    exists (N_of_byte x / 4 :: N_of_byte x mod 4 * 16 + N_of_byte y / 16
            :: N_of_byte y mod 16 * 4 + N_of_byte z / 64 :: N_of_byte z mod 64 :: vs), k.
    split; [cbn [b2a]; rewrite G1, G2, G3, G4, IH1; reflexivity|].
    clear G1 G2 G3 G4.
    assert (D1 : N_of_byte y / 16 < 16) by (now apply small). assert (D2 : N_of_byte z / 64 < 4) by (now apply small).
    assert (D3 : N_of_byte x mod 4 < 4) by (now apply N.mod_lt). assert (D4 : N_of_byte y mod 16 < 16) by (now apply N.mod_lt).
    split.
    { constructor; [now apply small|]. constructor; [clear - D1 D3; nia|]. constructor; [clear - D2 D4; nia|].
      constructor; [now apply N.mod_lt|exact IH2]. }
    split.
    + cbn [octets_of]. rewrite IH3. now rewrite join1, join2, join3, !byte_of_N_of_byte by assumption.
    + clear D1 D2 D3 D4. cbn [List.length]. replace (N.of_nat (S (S (S (S (List.length vs)))))) with (N.of_nat (List.length vs) + 1 * 4) by lia.
      rewrite N.mod_add by lia. exact IH4.
Qed.
Lemma sym_kept v : v < 64 -> is_space (b64_sym v) = false.
Proof. revert v. apply lt64. repeat constructor. Qed.
Lemma values_sym vs : Forall (fun v => v < 64) vs -> sextet_values (map b64_sym vs) = Some vs.
Proof.
  induction 1 as [|v vs H F IH]; [reflexivity|]. cbn [map sextet_values]. now rewrite (val_sym v H), IH.
Qed.
Lemma atob_b2a b : atob (b2a b) = Some b.
Proof.
  destruct (atob_values b) as (vs & k & -> & F & O & K). unfold atob.
  assert (FI : filter (fun c => negb (is_space c)) (map b64_sym vs ++ repeat 61 k) = map b64_sym vs ++ repeat 61 k).
  { rewrite filter_app. f_equal.
    - clear O K. induction F as [|v vs H F IH]; [reflexivity|]. cbn [map filter]. rewrite (sym_kept v H). cbn. now rewrite IH.
    - clear. induction k as [|k IH]; [reflexivity|]. cbn. now rewrite IH. }
  rewrite FI. clear FI.
  assert (SP : strip_padding (map b64_sym vs ++ repeat 61 k) = map b64_sym vs).
  { unfold strip_padding. rewrite app_length, map_length, repeat_length, rev_app_distr.
    destruct K as [[M ->]|[[M ->]|[M ->]]]; cbn [repeat rev app].
    - rewrite Nat.add_0_r, M. cbn [N.eqb]. rewrite app_nil_r.
      destruct (rev vs) as [|v r] eqn:R.
      + apply (f_equal (@rev N)) in R. rewrite rev_involutive in R. subst vs. reflexivity.
      + assert (Forall (fun v => v < 64) (rev vs)) by (now apply Forall_rev). rewrite R in H. inversion H; subst.
        rewrite <- map_rev, R. cbn [map]. pose proof (sym_not_pad v H2) as NP.
        destruct (b64_sym v) as [|p]; [reflexivity|].
        do 6 (destruct p as [p|p|]; try reflexivity). discriminate NP.
    - replace (N.of_nat (List.length vs + 2) mod 4) with 0 by lia. cbn [N.eqb].
      now rewrite rev_involutive.
    - replace (N.of_nat (List.length vs + 1) mod 4) with 0 by lia. cbn [N.eqb].
      assert (exists v r, rev vs = v :: r /\ v < 64) as (v & r & R & V).
      { assert (Forall (fun v => v < 64) (rev vs)) by (now apply Forall_rev).
        destruct (rev vs) as [|v r] eqn:R; [|inversion H; eauto].
        apply (f_equal (@rev N)) in R. rewrite rev_involutive in R. subst vs. discriminate M. }
      rewrite <- map_rev, R. cbn [map]. pose proof (sym_not_pad v V) as NP.
      assert (E : rev (b64_sym v :: map b64_sym r) = map b64_sym vs).
      { change (b64_sym v :: map b64_sym r) with (map b64_sym (v :: r)). now rewrite <- R, map_rev, rev_involutive. }
      destruct (b64_sym v) as [|p]; [exact E|].
      do 6 (destruct p as [p|p|]; try exact E). discriminate NP. }
  rewrite SP, map_length.
  replace (N.of_nat (List.length vs) mod 4 =? 1) with false by lia.
  rewrite values_sym by exact F. cbn [obind]. now rewrite O.
Qed.
Lemma b2a_ascii b : Forall (fun c => c < 128) (b2a b).
Proof.
  destruct (atob_values b) as (vs & k & -> & F & _). apply Forall_app. split.
  - apply Forall_map. eapply Forall_impl; [|exact F]. cbn. intros v H. pose proof (sym_ascii v H). lia.
  - apply Forall_forall. intros c I. apply repeat_spec in I. lia.
Qed.
