(** * FormRead: proofs about forgiving base64 and form bodies (ReadSpec.v). *)
From Coq Require Import List NArith ZArith Bool String Lia ZifyBool ZifyN.
From Coq Require Import Strings.Byte.
From Verif Require Import Base PyVal BaseFacts B64 Utf8 Utf8Facts Utf8Sound CodecSpec B64Facts B64Round Form FormFacts
  Page ReadSpec.
Import ListNotations.
Local Open Scope N_scope.
Local Open Scope list_scope.

(** ** atob *)
Lemma space_iff c : is_space c = true <-> In c ascii_space.
Proof. unfold is_space, ascii_space. cbn [In]. lia. Qed.
Lemma spaceless s : forall t, Spaceless s t <-> t = filter (fun c => negb (is_space c)) s.
Proof.
  induction s as [|c s IH]; intro t; cbn [filter].
  - split; [inversion 1; reflexivity|intros ->; constructor].
  - destruct (is_space c) eqn:E; cbn [negb].
    + apply space_iff in E. rewrite <- IH. split; [inversion 1; subst; [assumption|contradiction]|]. now constructor.
    + assert (NE : ~ In c ascii_space) by (rewrite <- space_iff; congruence). split.
      * inversion 1; subst; [contradiction|]. f_equal. now apply IH.
      * intros ->. constructor; [exact NE|]. now apply IH.
Qed.
Lemma unpadded t u : Unpadded t u <-> strip_padding t = u.
Proof.
  unfold strip_padding. split.
  - destruct 1 as [u H|u H N|u N].
    + rewrite app_length, rev_app_distr. cbn [List.length rev app].
      replace (_ =? 0) with true by lia. apply rev_involutive.
    + rewrite app_length, rev_app_distr. cbn [List.length rev app].
      replace (_ =? 0) with true by lia. destruct (rev u) as [|c r] eqn:R.
      * rewrite <- (rev_involutive u), R. reflexivity.
      * assert (U : u = rev r ++ [c]) by now rewrite <- (rev_involutive u), R.
        assert (C : c <> 61) by (intros ->; now apply (N (rev r))).
        transitivity (rev (c :: r)); [|now rewrite <- R, rev_involutive].
        destruct c as [|p]; [reflexivity|]. do 6 (destruct p as [p|p|]; try reflexivity). contradiction.
    + destruct (N.eqb_spec (N.of_nat (List.length u) mod 4) 0) as [Z|Z]; [|reflexivity].
      destruct (rev u) as [|c r] eqn:R; [reflexivity|].
      assert (U : u = rev r ++ [c]) by now rewrite <- (rev_involutive u), R.
      assert (C : c <> 61) by (intros ->; apply (N (rev r)); [lia|exact U]).
      destruct c as [|p]; [reflexivity|]. do 6 (destruct p as [p|p|]; try reflexivity). contradiction.
  - intros <-. destruct (N.eqb_spec (N.of_nat (List.length t) mod 4) 0) as [Z|Z].
    + destruct (rev t) as [|c r] eqn:R.
      { apply up_none. intros u' _ ->. rewrite rev_app_distr in R. discriminate. }
      assert (U : t = rev r ++ [c]) by now rewrite <- (rev_involutive t), R.
      destruct (N.eq_dec c 61) as [->|C].
      * destruct r as [|d r].
        { subst t. apply up_one; [cbn in Z; lia|]. intros [|? ?]; discriminate. }
        destruct (N.eq_dec d 61) as [->|D].
        -- subst t. cbn [rev]. rewrite <- app_assoc. apply up_two. rewrite !app_length in Z. cbn [List.length] in Z. 
           cbn [rev] in Z. rewrite app_length in Z. cbn [List.length] in Z. lia.
        -- match goal with |- Unpadded _ ?m => replace m with (rev (d :: r)) end.
           2: { destruct d as [|p]; [reflexivity|]. do 6 (destruct p as [p|p|]; try reflexivity). contradiction. }
           subst t. apply up_one; [rewrite app_length in Z; cbn [List.length] in Z; lia|].
           intros u' K. cbn [rev] in K. apply app_inj_tail in K as [_ K]. contradiction.
      * assert (Unpadded t t) as G; [|destruct c as [|p]; [exact G|]; do 6 (destruct p as [p|p|]; try exact G); contradiction].
        apply up_none. intros u' _ K. rewrite U in K. apply app_inj_tail in K as [_ K]. contradiction.
    + apply up_none. intros u' H. exfalso. lia.
Qed.
Lemma index_nth c l v : index_of c l = Some v -> nth (N.to_nat v) l 0 = c.
Proof.
  revert v. induction l as [|x l IH]; intro v; cbn [index_of]; [discriminate|].
  destruct (N.eqb_spec x c) as [->|N]; [intro H; injection H as <-; reflexivity|].
  destruct (index_of c l) as [w|]; [|discriminate]. intro H. apply Some_inj in H. subst v.
  rewrite <- (IH w eq_refl). replace (N.to_nat (_)) with (S (N.to_nat w)) by lia. reflexivity.
Qed.
Lemma values_iff u : forall vs, sextet_values u = Some vs <-> Forall (fun v => v < 64) vs /\ u = symbols std_alphabet vs.
Proof.
  intro vs. split.
  - revert vs. induction u as [|c u IH]; intros vs H; cbn [sextet_values] in H.
    + apply Some_inj in H as <-. auto.
    + destruct (b64_val c) as [v|] eqn:V; [|discriminate]. cbn in H. destruct (sextet_values u) as [r|]; [|discriminate].
      cbn in H. apply Some_inj in H as <-. destruct (IH r eq_refl) as [F ->]. rewrite std_index in V.
      split; [constructor; [now apply index_of_lt in V|exact F]|]. unfold symbols. cbn [map]. f_equal. symmetry. now apply index_nth.
  - intros [F ->]. rewrite <- (values_sym vs F). f_equal. unfold symbols.
    induction F as [|v vs H F IH]; [reflexivity|]. cbn [map]. rewrite IH. f_equal. now rewrite sym_std.
Qed.
Lemma octets_of_data vs : Forall (fun v => v < 64) vs -> octets_of vs = data_of vs.
Proof.
  unfold data_of. fold (sext vs). induction vs as [|a|a b|a b c|a b c d t IH] using N_ind4; intro F.
  - reflexivity.
  - inversion F; subst. destruct (sextet_cons a) as (a1 & a2 & a3 & a4 & a5 & a6 & E & _); [assumption|]. unfold sext. cbn [map List.concat]. now rewrite E.
  - inversion F as [|? ? ? F1]; subst. inversion F1; subst. now rewrite octets2.
  - inversion F as [|? ? ? F1]; subst. inversion F1 as [|? ? ? F2]; subst. inversion F2; subst. now rewrite octets3.
  - inversion F as [|? ? ? F1]; subst. inversion F1 as [|? ? ? F2]; subst. inversion F2 as [|? ? ? F3]; subst. inversion F3; subst.
    rewrite octets4 by assumption. cbn [octets_of]. now rewrite IH.
Qed.
Lemma c91_atob s b : atob s = Some b <-> Forgiving s b.
Proof.
  unfold atob, Forgiving. set (t := filter _ s). set (u := strip_padding t). split.
  - destruct (N.eqb_spec (N.of_nat (List.length u) mod 4) 1) as [Z|Z]; [discriminate|].
    destruct (sextet_values u) as [vs|] eqn:V; [|discriminate]. intro H. apply Some_inj in H as <-.
    apply values_iff in V as [F E]. exists t, u, vs. split; [now apply spaceless|]. split; [now apply unpadded|].
    split; [exact F|]. split; [exact E|]. split; [|now apply octets_of_data].
    rewrite E in Z. unfold symbols in Z. rewrite map_length in Z. lia.
  - intros (t' & u' & vs & S & P & F & E & L & ->). apply spaceless in S. subst t'. apply unpadded in P. fold t in P. fold u in P. rewrite P, E. unfold symbols at 1. rewrite map_length.
    destruct (N.eqb_spec (N.of_nat (List.length vs) mod 4) 1) as [Z|Z]; [exfalso; lia|].
    rewrite (proj2 (values_iff _ vs)) by auto. cbn. now rewrite octets_of_data.
Qed.

(** ** Forms *)
Lemma hex_upper c v : index_of c (lit "0123456789ABCDEF") = Some v -> hex_value c = Some v.
Proof.
  change (lit "0123456789ABCDEF") with [48; 49; 50; 51; 52; 53; 54; 55; 56; 57; 65; 66; 67; 68; 69; 70].
  cbn [index_of]. intro H.
  repeat match type of H with context [?x =? c] => destruct (N.eqb_spec x c) as [<-|]; [rewrite <- H; reflexivity|] end.
  discriminate.
Qed.
Lemma hex_lower c v : index_of c (lit "0123456789abcdef") = Some v -> hex_value c = Some v.
Proof.
  change (lit "0123456789abcdef") with [48; 49; 50; 51; 52; 53; 54; 55; 56; 57; 97; 98; 99; 100; 101; 102].
  cbn [index_of]. intro H.
  repeat match type of H with context [?x =? c] => destruct (N.eqb_spec x c) as [<-|]; [rewrite <- H; reflexivity|] end.
  discriminate.
Qed.
Lemma hex_iff c v : HexDigit c v <-> hex_value c = Some v.
Proof.
  split; [intros [H|H]; [now apply hex_upper|now apply hex_lower]|]. unfold hex_value, HexDigit.
  change (lit "0123456789ABCDEF") with [48; 49; 50; 51; 52; 53; 54; 55; 56; 57; 65; 66; 67; 68; 69; 70].
  change (lit "0123456789abcdef") with [48; 49; 50; 51; 52; 53; 54; 55; 56; 57; 97; 98; 99; 100; 101; 102].
  destruct ((48 <=? c) && (c <=? 57)) eqn:D.
  { intro H. apply Some_inj in H. left.
    assert (c = 48 \/ c = 49 \/ c = 50 \/ c = 51 \/ c = 52 \/ c = 53 \/ c = 54 \/ c = 55 \/ c = 56 \/ c = 57) as O by lia.
    rewrite <- H. clear H. repeat destruct O as [O|O]; subst c; reflexivity. }
  destruct ((65 <=? c) && (c <=? 70)) eqn:U.
  { intro H. apply Some_inj in H. left. assert (c = 65 \/ c = 66 \/ c = 67 \/ c = 68 \/ c = 69 \/ c = 70) as O by lia.
    rewrite <- H. clear H. repeat destruct O as [O|O]; subst c; reflexivity. }
  destruct ((97 <=? c) && (c <=? 102)) eqn:L; [|discriminate].
  intro H. apply Some_inj in H. right. assert (c = 97 \/ c = 98 \/ c = 99 \/ c = 100 \/ c = 101 \/ c = 102) as O by lia.
  rewrite <- H. clear H. repeat destruct O as [O|O]; subst c; reflexivity.
Qed.

Lemma unquoted_sound s b : Unquoted s b -> unquote s = b.
Proof.
  induction 1 as [|s b H IH|a c x y s b A C H IH|s b N H IH|c s b N1 N2 H IH].
  - reflexivity.
  - cbn [unquote N.eqb Pos.eqb]. now rewrite IH.
  - apply hex_iff in A, C. cbn [unquote]. cbn [N.eqb Pos.eqb]. rewrite A, C, IH. f_equal. f_equal. lia.
  - cbn [unquote]. cbn [N.eqb Pos.eqb]. rewrite IH. destruct s as [|a [|c t]]; try reflexivity.
    destruct (hex_value a) as [x|] eqn:A; [|reflexivity]. destruct (hex_value c) as [y|] eqn:C; [|reflexivity].
    exfalso. apply N. exists a, c, t, x, y. split; [reflexivity|]. split; now apply hex_iff.
  - cbn [unquote]. replace (c =? 43) with false by lia. replace (c =? 37) with false by lia. now rewrite IH.
Qed.
Lemma unquoted_total n : forall s, (List.length s <= n)%nat -> Unquoted s (unquote s).
Proof.
  induction n as [|n IH]; intros [|c s] L; cbn [List.length] in L; try (constructor; fail); [lia|].
  destruct (N.eq_dec c 43) as [->|N1]; [apply uq_plus; apply IH; lia|].
  destruct (N.eq_dec c 37) as [->|N2].
  - cbn [unquote]. cbn [N.eqb Pos.eqb].
    assert (K : ~ TwoDigits s -> Unquoted (37 :: s) (byte_of_N 37 :: unquote s)) by (intro; apply uq_percent; [assumption|apply IH; lia]).
    destruct s as [|a [|d t]].
    + apply K. intros (? & ? & ? & ? & ? & E & _). discriminate.
    + apply K. intros (? & ? & ? & ? & ? & E & _). discriminate.
    + destruct (hex_value a) as [x|] eqn:A.
      * destruct (hex_value d) as [y|] eqn:D.
        -- rewrite N.mul_comm. apply uq_hex; [now apply hex_iff|now apply hex_iff|]. apply IH. cbn [List.length] in L. lia.
        -- apply K. intros (? & ? & ? & ? & ? & E & _ & D'). injection E as <- <- <-. apply hex_iff in D'. congruence.
      * apply K. intros (? & ? & ? & ? & ? & E & A' & _). injection E as <- <- <-. apply hex_iff in A'. congruence.
  - cbn [unquote]. replace (c =? 43) with false by lia. replace (c =? 37) with false by lia. apply uq_other; auto. apply IH. lia.
Qed.
Lemma unquoted s b : Unquoted s b <-> unquote s = b.
Proof. split; [apply unquoted_sound|intros <-; now apply (unquoted_total (List.length s))]. Qed.

Lemma pieces_sound s ws : Pieces s ws -> split_on 38 s = ws.
Proof.
  induction 1 as [w N|w s ws N H IH].
  - apply split_on_word. apply Forall_forall. intros c I ->. contradiction.
  - rewrite split_on_cons; [now rewrite IH|]. apply Forall_forall. intros c I ->. contradiction.
Qed.
Lemma pieces_total s : Pieces s (split_on 38 s).
Proof.
  induction s as [|c s IH]; [apply pc_last; intros []|]. cbn [split_on].
  inversion IH as [w N E1 E2|w t ws N H E1 E2]; subst.
  - destruct (N.eqb_spec c 38) as [->|D]; [apply (pc_more []); [intros []|now apply pc_last]|].
    apply pc_last. intros [->|I]; contradiction.
  - destruct (N.eqb_spec c 38) as [->|D]; [apply (pc_more []); [intros []|now apply pc_more]|].
    apply (pc_more (c :: w)); [intros [->|I]; contradiction|exact H].
Qed.
Lemma pieces s ws : Pieces s ws <-> split_on 38 s = ws.
Proof. split; [apply pieces_sound|intros <-; apply pieces_total]. Qed.

Lemma split_pair_name k : ~ In 61 k -> split_pair k = (k, []).
Proof.
  induction k as [|c k IH]; cbn [split_pair]; intro N; [reflexivity|].
  destruct (N.eqb_spec c 61) as [->|D]; [exfalso; apply N; now left|]. rewrite IH; [reflexivity|]. intro I. apply N. now right.
Qed.
Lemma name_value w k v : NameValue w k v <-> split_pair w = (k, v).
Proof.
  split.
  - destruct 1 as [k v N|k N]; [apply split_pair_text; apply Forall_forall; intros c I ->; contradiction|now apply split_pair_name].
  - revert k. induction w as [|c w IH]; intros k H; cbn [split_pair] in H.
    + injection H as <- <-. apply nv_name. intros [].
    + destruct (N.eqb_spec c 61) as [->|D].
      * injection H as <- <-. apply (nv_pair []). intros [].
      * destruct (split_pair w) as [k' v'] eqn:E. injection H as <- <-. specialize (IH k' eq_refl).
        inversion IH; subst.
        -- apply (nv_pair (c :: k')). intros [->|I]; contradiction.
        -- apply nv_name. intros [->|I]; contradiction.
Qed.
Lemma text_of replaced s t : TextOf replaced s t <-> form_string replaced s = t.
Proof.
  unfold TextOf, form_string. split.
  - intros (b & U & H). apply unquoted in U as ->. destruct H as [H|[N ->]].
    + apply utf8_decode_iff in H. now rewrite H.
    + destruct (utf8_decode b) as [t|] eqn:E; [|reflexivity]. apply utf8_decode_iff in E. now apply N in E.
  - intro H. exists (unquote s). split; [now apply unquoted|]. destruct (utf8_decode (unquote s)) as [t'|] eqn:E.
    + left. subst t'. now apply utf8_decode_iff.
    + right. split; [|now symmetry]. intros t' K. apply utf8_decode_iff in K. congruence.
Qed.

Lemma form_reads replaced s ps : FormReads replaced s ps <-> form_decode replaced s = ps.
Proof.
  unfold FormReads, form_decode.
  rewrite (filter_ext (fun w : list N => match w with [] => false | _ => true end) (fun w => negb (List.length w =? 0)%nat))
    by (intros [|? ?]; reflexivity).
  set (f := fun w => let '(k, v) := split_pair w in (form_string replaced k, form_string replaced v)).
  set (R := fun w p => exists k v, NameValue w k v /\ TextOf replaced k (fst p) /\ TextOf replaced v (snd p)).
  assert (K : forall w p, R w p <-> f w = p).
  { intros w [k' v']. unfold R, f. split.
    - intros (k & v & N & A & B). apply name_value in N as ->. apply text_of in A, B. cbn in A, B. now subst.
    - destruct (split_pair w) as [k v] eqn:E. intro H. injection H as <- <-. exists k, v.
      split; [now apply name_value|]. split; now apply text_of. }
  split.
  - intros (ws & P & F). apply pieces in P as ->. induction F as [|w p l l' H F IH]; [reflexivity|].
    cbn [map]. f_equal; [now apply K|exact IH].
  - intros <-. exists (split_on 38 s). split; [apply pieces_total|]. set (l := filter _ _). clearbody l.
    induction l as [|w l IH]; cbn [map]; constructor; [now apply K|exact IH].
Qed.

(** "user%20name=a+b%2&x" and a name in UTF-8: lower-case digits, '+', a stray '%', no '='. *)
Example ex_form : FormReads (fun _ => [65533]) (lit "a%20b=c+d%2&&%c3%A9=%ff&x")
  [(lit "a b", lit "c d%2"); ([233], [65533]); (lit "x", [])].
Proof. apply form_reads. vm_compute. reflexivity. Qed.
Example ex_forgiving : Forgiving (lit " A Q I = ") [x01; x02] /\ ~ (exists b, Forgiving (lit "AQ=") b).
Proof.
  split; [apply c91_atob; vm_compute; reflexivity|]. intros (b & H). apply c91_atob in H. vm_compute in H. discriminate.
Qed.
