(** * DumpsFirst: which exception json.dumps raises. *)
From Coq Require Import List NArith ZArith Bool String Lia.
From Verif Require Import Base PyVal Json JsonSpec Dumps DumpsSpec DumpsFirstSpec DumpsFacts.
Import ListNotations.
Local Open Scope list_scope.

Section Env.
Variable E : jsonenv.
Variable repr : N -> pystr.
Notation D n := (dump E repr n).

Lemma writable_iff n v : Writable E n v <-> exists t, D n v = WOk t.
Proof.
  split.
  - intro N. destruct (D n v) as [t|e] eqn:H; [eauto|]. now apply dump_raise, N in H.
  - intros (t & T) e. exact (dump_no_defect E repr n v t e T).
Qed.
Lemma bad_name k e : BadName E k e <-> key_text E repr k = WRaise e.
Proof.
  split.
  - intros [k' K1 K2 K3 K4 K5|z NS].
    + destruct k' as [|b|z|b|s|b|l|l|d|m|t i]; try reflexivity; exfalso; [now apply K5|now apply (K3 b)|now apply (K4 z)|now apply (K2 b)|now apply (K1 s)].
    + cbn [key_text]. destruct (int_text E z) as [t|e'] eqn:T; [destruct NS; exact (int_text_short E repr _ _ T)|].
      apply (int_text_raise E repr) in T as [-> _]. reflexivity.
  - intro H. apply key_text_raise in H as [(-> & K1 & K2 & K3 & K4 & K5)|(-> & z & -> & NS)].
    + now constructor.
    + now constructor.
Qed.
Lemma good_name k : (forall e, ~ BadName E k e) <-> exists t, key_text E repr k = WOk t.
Proof.
  split.
  - intro N. destruct (key_text E repr k) as [t|e] eqn:K; [eauto|]. now apply bad_name, N in K.
  - intros (t & T) e B. apply bad_name in B. congruence.
Qed.

Lemma items_raise n l e : dump_items E repr n l = WRaise e <->
  exists l1 x l2, l = l1 ++ x :: l2 /\ Forall (Writable E n) l1 /\ D n x = WRaise e.
Proof.
  split.
  - induction l as [|x l IH]; intro H; [discriminate|]. rewrite items_cons in H.
    destruct (D n x) as [a|e'] eqn:X; cbn [wbind] in H.
    + destruct (dump_items E repr n l) as [r|e'] eqn:L; [discriminate|]. cbn [wbind] in H.
      destruct (IH H) as (l1 & y & l2 & -> & F & Y). exists (x :: l1), y, l2.
      split; [reflexivity|]. split; [|exact Y]. constructor; [apply writable_iff; eauto|exact F].
    + injection H as ->. exists [], x, l. auto.
  - intros (l1 & x & l2 & -> & F & X). induction F as [|y l1 Y F IH]; cbn [app]; rewrite items_cons.
    + now rewrite X.
    + apply writable_iff in Y as (t & ->). cbn [wbind]. now rewrite IH.
Qed.
Lemma members_raise n d e : dump_members E repr n d = WRaise e <->
  exists d1 k x d2, d = d1 ++ (k, x) :: d2 /\ Forall (WritableMember E n) d1 /\
    (BadName E k e \/ (forall e', ~ BadName E k e') /\ D n x = WRaise e).
Proof.
  split.
  - induction d as [|[k x] d IH]; intro H; [discriminate|]. rewrite members_cons in H.
    destruct (key_text E repr k) as [name|e'] eqn:K; cbn [wbind] in H.
    2: { injection H as ->. exists [], k, x, d. apply bad_name in K. auto. }
    destruct (D n x) as [a|e'] eqn:X; cbn [wbind] in H.
    + destruct (dump_members E repr n d) as [r|e'] eqn:L; [discriminate|]. cbn [wbind] in H.
      destruct (IH H) as (d1 & k' & y & d2 & -> & F & Y). exists ((k, x) :: d1), k', y, d2.
      split; [reflexivity|]. split; [|exact Y]. constructor; [|exact F].
      split; [apply good_name; eauto|apply writable_iff; eauto].
    + injection H as ->. exists [], k, x, d. split; [reflexivity|]. split; [constructor|]. right.
      split; [apply good_name; eauto|exact X].
  - intros (d1 & k & x & d2 & -> & F & X). induction F as [|[k' y] d1 [K Y] F IH]; cbn [app]; rewrite members_cons.
    + destruct X as [B|[N X]]; [apply bad_name in B; now rewrite B|].
      apply good_name in N as (t & ->). cbn [wbind]. now rewrite X.
    + cbn [fst snd] in K, Y. apply good_name in K as (s & ->). apply writable_iff in Y as (t & ->).
      cbn [wbind]. now rewrite IH.
Qed.

Lemma wbind_all {A B} (r : wres A) (f : A -> B) e : wbind r (fun a => WOk (f a)) = WRaise e <-> r = WRaise e.
Proof. destruct r; cbn [wbind]; split; congruence. Qed.

Lemma leaf_stops n v e : (forall l, v <> VList l) -> (forall l, v <> VTuple l) -> (forall d, v <> VDict d) ->
  D n v = WRaise e <-> DumpStops E n v e.
Proof.
  intros N1 N2 N3. destruct v as [|b|z|b|s|b|l|l|d|m|t i]; try (now destruct (N1 l)); try (now destruct (N2 l));
    try (now destruct (N3 d)); destruct n; cbn [dump];
    try (split; [discriminate|intro S; now inversion S]);
    try (split; [intros [= <-]; constructor|intro S; now inversion S]).
  all: split; [intro H; apply (int_text_raise E repr) in H as [-> H]; now constructor|];
    intro S; inversion S as [| | |? ? NS| | | | | | |]; subst;
    (destruct (int_text E z) as [t|e'] eqn:T; [destruct NS; exact (int_text_short E repr _ _ T)|]);
    apply (int_text_raise E repr) in T as [-> _]; reflexivity.
Qed.

Lemma dump_stops n : forall v e, D n v = WRaise e <-> DumpStops E n v e.
Proof.
  induction n as [|n IH]; intros v e.
  { destruct v; try (apply leaf_stops; discriminate); cbn [dump];
      (split; [intros [= <-]; constructor|intro S; now inversion S]). }
  destruct v as [| | | | | |l|l|d| |]; try (apply leaf_stops; discriminate).
  - rewrite dump_list, wbind_all, items_raise. split.
    + intros (l1 & x & l2 & -> & F & X). constructor; [exact F|]. now apply IH.
    + intro S. inversion S as [| | | | | | |? l1 x l2 ? F X| | |]. exists l1, x, l2.
      split; [reflexivity|]. split; [exact F|now apply IH].
  - rewrite dump_tuple, wbind_all, items_raise. split.
    + intros (l1 & x & l2 & -> & F & X). constructor; [exact F|]. now apply IH.
    + intro S. inversion S as [| | | | | | | |? l1 x l2 ? F X| |]. exists l1, x, l2.
      split; [reflexivity|]. split; [exact F|now apply IH].
  - rewrite dump_dict, wbind_all, members_raise. split.
    + intros (d1 & k & x & d2 & -> & F & [B|[N X]]); [now apply ds_name|]. apply ds_value; auto. now apply IH.
    + intro S. inversion S as [| | | | | | | | |? d1 k x d2 ? F B|? d1 k x d2 ? F N X]; exists d1, k, x, d2;
        (split; [reflexivity|]); (split; [exact F|]); [now left|right; split; [exact N|now apply IH]].
Qed.
End Env.

Lemma c77_first (E : jsonenv) (repr : N -> pystr) (v : pyval) (e : pyexn) :
  json_dumps E repr v = WRaise e <-> DumpStops E (je_depth E) v e.
Proof. apply dump_stops. Qed.
