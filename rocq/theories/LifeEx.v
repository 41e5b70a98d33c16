(** * LifeEx: checks on all moments of a life, for the examples. *)
From Coq Require Import List NArith ZArith Bool String Lia.
From Verif Require Import Base BaseFacts PyVal Types World Parsers Spec App AppSpec HonestSpec HonestFacts Json Form Page AppConc AppConcSpec
  AppConcHonestSpec AppConcHonestEx Routes RoutesSpec Life LifeSpec LifeHonestSpec.
Import ListNotations.
Local Open Scope list_scope.

Lemma honest_key W depth JE : Conforming W depth JE -> forall cr c cid k ctr,
  AppRegistration W depth cr c cid k ctr -> AttestedKey W cr k.
Proof.
  intros CF cr c cid k ctr (A & <- & EC & EO & ER & EU & EX & HR).
  destruct (honest_registration W depth JE CF A cid k ctr HR) as (att & ad & acd & RS & H1 & H2 & H3 & _).
  destruct RS as (cdj & aob & adb & ad' & R1 & R2 & R3 & R4 & R5 & ->). cbn [ao_auth_data] in H1. injection H1 as ->.
  exists cdj, aob, adb, ad, acd. destruct R4 as (R4 & _). auto.
Qed.

Section Host.
Variable W : World.
Variable E : appenv.
Variable replaced : bytes -> pystr.
Variable multipart : list N -> list (pystr * pystr).

Fixpoint every (P : nat -> host -> bool) (n : nat) (o : host) (l : list life_event) : bool :=
  P n o && match l with [] => true | e :: t => every P (S n) (live W E replaced multipart o e) t end.
Lemma every_ok P l : forall n o l0 l0', every P n o l = true -> l = l0 ++ l0' ->
  P (n + List.length l0) (live_all W E replaced multipart o l0) = true.
Proof.
  induction l as [|e l IH]; intros n o l0 l0' H Q.
  - destruct l0; [|discriminate]. cbn in *. rewrite Nat.add_0_r. now destruct (P n o).
  - cbn [every] in H. apply andb_prop in H as [A B]. destruct l0 as [|e0 l0].
    + cbn [List.length]. rewrite Nat.add_0_r. exact A.
    + injection Q as <- Q. cbn [List.length]. rewrite <- Nat.add_succ_comm. exact (IH _ _ l0 l0' B Q).
Qed.
Lemma keeps_by l1 l2 : forallb (fun e => match e with Stop => false | _ => true end) l2 = true ->
  every (fun n o => Nat.ltb n (List.length l1) || ho_linked o) 0 bare (l1 ++ l2) = true ->
  Keeps W E replaced multipart l1 l2.
Proof.
  intros S H. split.
  - intro I. rewrite forallb_forall in S. specialize (S _ I). discriminate.
  - intros l2a l2b ->. rewrite app_assoc in H. pose proof (every_ok _ _ _ _ (l1 ++ l2a) l2b H eq_refl) as Q.
    cbv beta in Q. apply orb_prop in Q as [Q|Q]; [|exact Q]. apply Nat.ltb_lt in Q. rewrite app_length in Q. lia.
Qed.
Lemma largest_by l l' j id ctr :
  every (fun n o => match ho_process o with
    | Some ts => others (fun q => match response_of W q with
        | Some (false, cr) => negb (bytes_eqb (cr_raw_id cr) id) ||
            match cr_response cr with AssertionResponse _ adb _ _ => (counter_of adb <? ctr)%N | _ => true end
        | _ => true end) (if Nat.leb n (List.length l) then None else Some j) ts
    | None => true end) 0 bare (l ++ l') = true ->
  Largest W E replaced multipart l l' j id ctr.
Proof.
  intros H l0 l0' j' y i n cr c Q D (ts & P & T) AU CI (cdj & adb & sig & uh & RE & ->).
  pose proof (every_ok _ _ _ _ _ _ H Q) as O. cbv beta in O. unfold Lived in P. rewrite P in O. cbn [Nat.add] in O.
  apply (others_ok _ _ _ j' y) in O; [| |exact T].
  - cbv beta in O. rewrite (response_of_authenticates W _ i n cr AU), CI, bytes_eqb_refl, RE in O. now apply N.ltb_lt in O.
  - destruct (Nat.leb_spec (List.length l0) (List.length l)); [discriminate|]. destruct D as [D|D]; [lia|congruence].
Qed.
Lemma only_one_by l l' j id :
  every (fun n o => match ho_process o with
    | Some ts => others (fun q => match response_of W q with
        | Some (true, cr) => negb (bytes_eqb (cr_raw_id cr) id)
        | _ => true end) (if Nat.leb n (List.length l) then None else Some j) ts
    | None => true end) 0 bare (l ++ l') = true ->
  OnlyOne W E replaced multipart l l' j id.
Proof.
  intros H l0 l0' j' y i n cr Q D (ts & P & T) RG CI.
  pose proof (every_ok _ _ _ _ _ _ H Q) as O. cbv beta in O. unfold Lived in P. rewrite P in O. cbn [Nat.add] in O.
  apply (others_ok _ _ _ j' y) in O; [| |exact T].
  - cbv beta in O. rewrite (response_of_registers W _ i n cr RG), CI, bytes_eqb_refl in O. discriminate O.
  - destruct (Nat.leb_spec (List.length l0) (List.length l)); [discriminate|]. destruct D as [D|D]; [lia|congruence].
Qed.
End Host.
