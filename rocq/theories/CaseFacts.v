(** * CaseFacts: case conversion against CodecSpec. *)
From Coq Require Import List NArith ZArith Bool Lia ZifyBool ZifyNat ZifyN String.
From Verif Require Import Base BaseFacts CaseConv CodecSpec Types.
Import ListNotations.
Local Open Scope list_scope.
Local Open Scope N_scope.

Lemma chunks_word w t cur : ~ In 95 w -> chunks_go (w ++ t) cur = chunks_go t (rev w ++ cur).
Proof.
  revert cur. induction w as [|c w IH]; intros cur H; [reflexivity|].
  cbn [app chunks_go rev]. assert (c <> 95) by (intros ->; apply H; now left).
  replace (c =? 95) with false by lia. rewrite IH by (intro; apply H; now right).
  now rewrite <- app_assoc.
Qed.

Lemma chunks_us w t : w <> [] -> ~ In 95 w -> chunks_go (w ++ 95 :: t) [] = w :: chunks_go t [].
Proof.
  intros H1 H2. rewrite chunks_word by assumption. rewrite app_nil_r. cbn [chunks_go].
  change (95 =? 95) with true. cbv iota. destruct (rev w) eqn:E.
  - apply (f_equal (@rev N)) in E. rewrite rev_involutive in E. contradiction.
  - rewrite <- E. now rewrite rev_involutive.
Qed.

Lemma chunks_one w : w <> [] -> ~ In 95 w -> chunks_go w [] = [w].
Proof.
  intros H1 H2. rewrite <- (app_nil_r w) at 1. rewrite chunks_word, app_nil_r by assumption.
  cbn [chunks_go]. destruct (rev w) eqn:E.
  - apply (f_equal (@rev N)) in E. rewrite rev_involutive in E. contradiction.
  - rewrite <- E. now rewrite rev_involutive.
Qed.

Definition plain_char (c : N) : Prop := is_az c \/ is_09 c.

Lemma plain_no_us w : Forall plain_char w -> ~ In 95 w.
Proof.
  intros H I. rewrite Forall_forall in H. destruct (H _ I); unfold is_az, is_09 in *; lia.
Qed.
Lemma later_plain w : later_word w -> w <> [] /\ Forall plain_char w.
Proof. intros (c & t & -> & H1 & H2). split; [discriminate|]. constructor; [now left|exact H2]. Qed.

Lemma chunks_snake w ws : first_word w -> Forall later_word ws -> chunks (snake w ws) = w :: ws.
Proof.
  unfold chunks, snake. intros [H1 H2] HF. revert w H1 H2.
  induction HF as [|x ws Hx HF IH]; intros w H1 H2; cbn [map List.concat].
  - rewrite app_nil_r. apply chunks_one; [assumption|now apply plain_no_us].
  - cbn [app]. rewrite chunks_us by (try assumption; now apply plain_no_us).
    f_equal. destruct (later_plain x Hx). now apply IH.
Qed.

Section U.
Variable U : unicode.
Hypothesis OK : ascii_ok U.

Lemma cap_capitalised w : later_word w -> cap U w = capitalised w.
Proof.
  intros (c & t & -> & H & _). cbn [cap capitalised]. unfold is_az in H.
  rewrite (ok_upper U OK) by lia. unfold ascii_lower.
  replace ((97 <=? c) && (c <=? 122)) with true by lia. reflexivity.
Qed.

Lemma to_camel w ws : first_word w -> Forall later_word ws ->
  snake_to_camel U (snake w ws) = camel w ws.
Proof.
  intros H1 H2. unfold snake_to_camel. rewrite chunks_snake by assumption.
  unfold camel. f_equal. f_equal. apply map_ext_Forall.
  eapply Forall_impl; [|exact H2]. exact cap_capitalised.
Qed.

Lemma lower_plain w : Forall plain_char w -> lower U w = w.
Proof.
  unfold lower. induction 1 as [|c w Hc HF IH]; [reflexivity|]. cbn [map List.concat].
  rewrite IH. unfold plain_char, is_az, is_09 in Hc. rewrite (ok_lower U OK) by lia.
  unfold ascii_upper. replace ((65 <=? c) && (c <=? 90)) with false by lia. reflexivity.
Qed.

Lemma words_plain w t cur : Forall plain_char w -> words_go U (w ++ t) cur = words_go U t (rev w ++ cur).
Proof.
  intro H. revert cur. induction H as [|c w Hc HF IH]; intro cur; [reflexivity|].
  cbn [app words_go rev]. unfold plain_char, is_az, is_09 in Hc.
  rewrite (ok_isupper U OK) by lia. unfold ascii_upper.
  replace ((65 <=? c) && (c <=? 90)) with false by lia. rewrite IH. now rewrite <- app_assoc.
Qed.

(** A current word [C t] with the capitalised words behind. *)
Lemma words_camel ws cur w : Forall later_word ws ->
  cur <> [] -> lower U (rev cur) = w ->
  words_go U (List.concat (map capitalised ws)) cur = w :: ws.
Proof.
  intro HF. revert cur w. induction HF as [|x ws Hx HF IH]; intros cur w HN HL; cbn [map List.concat].
  - cbn [words_go]. destruct cur as [|c cur]; [congruence|]. now rewrite HL.
  - destruct Hx as (c & t & -> & Hc & Ht). cbn [capitalised app words_go]. unfold is_az in Hc.
    rewrite (ok_isupper U OK) by lia. unfold ascii_upper.
    replace ((65 <=? c - 32) && (c - 32 <=? 90)) with true by lia. rewrite HL. f_equal.
    rewrite words_plain by exact Ht. apply IH.
    + destruct (rev t); discriminate.
    + rewrite rev_app_distr, rev_involutive. cbn [rev app]. unfold lower. cbn [map List.concat].
      fold (lower U t). rewrite lower_plain by exact Ht. rewrite (ok_lower U OK) by lia.
      unfold ascii_upper. replace ((65 <=? c - 32) && (c - 32 <=? 90)) with true by lia.
      cbn [app]. f_equal. lia.
Qed.

Lemma join_snake w ws : join_us (w :: ws) = snake w ws.
Proof.
  unfold snake. revert w. induction ws as [|x ws IH]; intro w.
  - cbn. now rewrite app_nil_r.
  - change (join_us (w :: x :: ws)) with (w ++ 95 :: join_us (x :: ws)). rewrite IH. reflexivity.
Qed.

Lemma to_snake w ws : first_word w -> Forall later_word ws ->
  camel_to_snake U (camel w ws) = snake w ws.
Proof.
  intros [H1 H2] H3. unfold camel_to_snake, camel. rewrite words_plain by exact H2.
  rewrite app_nil_r. rewrite (words_camel ws (rev w) w).
  - apply join_snake.
  - assumption.
  - intro E. apply (f_equal (@rev N)) in E. rewrite rev_involutive in E. contradiction.
  - rewrite rev_involutive. now apply lower_plain.
Qed.

Lemma camel_fix x : ~ In 95 x -> snake_to_camel U x = x.
Proof.
  intro H. unfold snake_to_camel, chunks. destruct x as [|c x]; [reflexivity|].
  rewrite chunks_one by (try assumption; discriminate). apply app_nil_r.
Qed.

Lemma chunks_go_no_us s cur : ~ In 95 cur -> Forall (fun w => ~ In 95 w) (chunks_go s cur).
Proof.
  revert cur. induction s as [|c s IH]; intros cur H; cbn [chunks_go].
  - destruct cur; constructor; [|constructor]. now rewrite <- in_rev.
  - destruct (c =? 95) eqn:E.
    + destruct cur; [now apply IH|]. constructor; [now rewrite <- in_rev|]. now apply IH.
    + apply IH. intros [->|I]; [discriminate|auto].
Qed.

Lemma camel_no_us s : (forall c, c <> 95 -> ~ In 95 (u_upper U c)) -> ~ In 95 (snake_to_camel U s).
Proof.
  intros HU. unfold snake_to_camel, chunks.
  pose proof (chunks_go_no_us s [] (fun h => h)) as HF.
  destruct (chunks_go s []) as [|w ws]; [intros []|].
  inversion_clear HF as [|? ? Hw Hws]. rewrite in_app_iff. intros [I|I]; [auto|].
  apply in_concat in I as (x & Hx & I). apply in_map_iff in Hx as (y & <- & Hy).
  rewrite Forall_forall in Hws. specialize (Hws y Hy). destruct y as [|c t]; [destruct I|].
  cbn [cap] in I. rewrite in_app_iff in I. destruct I as [I|I].
  - apply (HU c); [|assumption]. intros ->. apply Hws. now left.
  - apply Hws. now right.
Qed.

Lemma ext_key_any_unicode e : camel_to_snake U (ext_value e) = ext_key e.
Proof.
  assert (G : forall s, Forall (fun c => c < 128) s ->
    forall cur, Forall (fun c => c < 128) cur -> words_go U s cur = words_go ascii_unicode s cur).
  { assert (L : forall s, Forall (fun c => c < 128) s -> lower U s = lower ascii_unicode s).
    { unfold lower. induction 1 as [|c s Hc HF IH]; [reflexivity|]. cbn [map List.concat].
      now rewrite IH, (ok_lower U OK). }
    induction 1 as [|c s Hc HF IH]; intros cur HC; cbn [words_go].
    - destruct cur; [reflexivity|]. rewrite L; [reflexivity|]. now apply Forall_rev.
    - rewrite (ok_isupper U OK) by assumption. cbn [ascii_unicode u_isupper].
      destruct (ascii_upper c).
      + rewrite L by now apply Forall_rev. rewrite IH; [reflexivity|]. now repeat constructor.
      + apply IH. now constructor. }
  unfold ext_key, camel_to_snake. rewrite G; [reflexivity| |constructor].
  destruct e; vm_compute; repeat constructor.
Qed.

End U.
