(** * DerFacts: the decoder of Der.v against the encodings of DerSpec.v, item by item. *)
From Coq Require Import List NArith ZArith Bool Lia ZifyBool ZifyNat ZifyN Sorting.Sorted.
From Coq Require Import Strings.Byte.
From Verif Require Import Base BaseFacts Der DerSpec.
Import ListNotations.
Local Open Scope N_scope.
Local Open Scope list_scope.

(** ** Canonical encodings are encodings *)

Lemma Identifier_weaken der cls c n bs :
  Identifier der cls c n bs -> Identifier false cls c n bs.
Proof.
  intros [H|(ds & last & H1 & H2 & H3 & H4 & _)]; [left; exact H|right].
  exists ds, last. repeat (split; [assumption|]). discriminate.
Qed.

Lemma Length_weaken der n bs : Length der n bs -> Length false n bs.
Proof.
  intros [H|(body & H1 & H2 & H3 & _)]; [left; exact H|right].
  exists body. repeat (split; [assumption|]). discriminate.
Qed.

Lemma Item_weaken der cls c n content bs :
  Item der cls c n content bs -> Item false cls c n content bs.
Proof.
  intros (i & l & H1 & H2 & H3). exists i, l.
  eauto using Identifier_weaken, Length_weaken.
Qed.

Lemma TwosComplement_weaken der z content :
  TwosComplement der z content -> TwosComplement false z content.
Proof. intros (H1 & H2 & _). split; [exact H1|]. split; [exact H2|]. discriminate. Qed.

Lemma IntegerItem_weaken der t z bs : IntegerItem der t z bs -> IntegerItem false t z bs.
Proof.
  intros (c & H1 & H2). exists c. eauto using TwosComplement_weaken, Item_weaken.
Qed.

Lemma BooleanItem_weaken der b bs : BooleanItem der b bs -> BooleanItem false b bs.
Proof.
  intros (c & _ & H). exists c. split; [discriminate|]. eauto using Item_weaken.
Qed.

Lemma SetItem_weaken der zs bs : SetItem der zs bs -> SetItem false zs bs.
Proof.
  intros (parts & H1 & H2). exists parts. split; [|eauto using Item_weaken].
  clear H2. induction H1; constructor; eauto using IntegerItem_weaken.
Qed.

Lemma AuthorizationItem_weaken der a bs :
  AuthorizationItem der a bs -> AuthorizationItem false a bs.
Proof.
  destruct a; cbn [AuthorizationItem].
  - apply IntegerItem_weaken.
  - apply SetItem_weaken.
  - apply Item_weaken.
  - apply Item_weaken.
  - intros (bk & bl & bst & bh & H1 & H2 & H3 & H4 & H5). exists bk, bl, bst, bh.
    repeat split; eauto using BooleanItem_weaken, IntegerItem_weaken; eapply Item_weaken; eauto.
Qed.

Lemma FieldItem_weaken der f bs : FieldItem der f bs -> FieldItem false f bs.
Proof.
  intros (inner & ig & H1 & H2 & H3). exists inner, ig.
  split; [eauto using AuthorizationItem_weaken|]. split; [discriminate|].
  eauto using Item_weaken.
Qed.

Lemma ListItem_weaken der l bs : ListItem der l bs -> ListItem false l bs.
Proof.
  intros (H1 & parts & H2 & H3). split; [exact H1|]. exists parts.
  split; [|eauto using Item_weaken].
  clear H1 H3. induction H2; constructor; eauto using FieldItem_weaken.
Qed.

Lemma DescriptionItem_weaken der d bs : DescriptionItem der d bs -> DescriptionItem false d bs.
Proof.
  intros (b1 & b2 & b3 & b4 & b5 & b6 & b7 & b8 & H1 & H2 & H3 & H4 & H5 & H6 & H7 & H8 & H9).
  exists b1, b2, b3, b4, b5, b6, b7, b8.
  repeat split; eauto using IntegerItem_weaken; try (eapply Item_weaken; eauto);
    try (eapply ListItem_weaken; eauto).
Qed.

(** ** Tags *)

Definition cls_base (c : tag_class) : N :=
  match c with Universal => 0 | Application => 64 | Context => 128 | Private => 192 end.

Lemma first_octet_value cls c low : low < 32 ->
  N_of_byte (first_octet cls c low) = cls_base cls + (if c then 32 else 0) + low.
Proof.
  intros H. unfold first_octet. rewrite N_of_byte_of_N, N.mod_small; [reflexivity|].
  destruct cls, c; lia.
Qed.

(** The fields of an octet below 256. *)
Lemma octet_fields x :
  exists cls (c : bool) low, low < 32 /\ N_of_byte x = cls_base cls + (if c then 32 else 0) + low.
Proof.
  pose proof (N_of_byte_bound x) as B. set (n := N_of_byte x) in *.
  pose proof (N.div_mod n 64 ltac:(lia)). pose proof (N.mod_lt n 64 ltac:(lia)).
  assert (Q : n / 64 < 4) by (apply N.div_lt_upper_bound; lia).
  exists (match n / 64 with 0 => Universal | 1 => Application | 2 => Context | _ => Private end).
  exists (32 <=? n mod 64).
  exists (if 32 <=? n mod 64 then n mod 64 - 32 else n mod 64).
  assert (C : n / 64 = 0 \/ n / 64 = 1 \/ n / 64 = 2 \/ n / 64 = 3) by lia.
  destruct (32 <=? n mod 64) eqn:L.
  - split; [lia|]. destruct C as [C|[C|[C|C]]]; rewrite C in *; cbn [cls_base]; lia.
  - split; [lia|]. destruct C as [C|[C|[C|C]]]; rewrite C in *; cbn [cls_base]; lia.
Qed.

Lemma fields_read cls (c : bool) low : low < 32 ->
  let n := cls_base cls + (if c then 32 else 0) + low in
  n mod 32 = low /\ N.testbit n 5 = c /\
  match n / 64 with 0 => Universal | 1 => Application | 2 => Context | _ => Private end = cls.
Proof.
  intros H n.
  assert (M : n mod 32 = low).
  { subst n. symmetry. apply N.mod_unique with (q := cls_base cls / 32 + (if c then 1 else 0)); [exact H|].
    destruct cls, c; cbn; lia. }
  assert (D : n / 32 = cls_base cls / 32 + (if c then 1 else 0)).
  { subst n. symmetry. apply N.div_unique with (r := low); [exact H|].
    destruct cls, c; cbn; lia. }
  split; [exact M|]. split.
  - rewrite N.testbit_eqb. change (2 ^ 5) with 32. rewrite D. destruct cls, c; reflexivity.
  - replace (n / 64) with (n / 32 / 2) by (rewrite N.div_div by lia; reflexivity).
    rewrite D. destruct cls, c; reflexivity.
Qed.

Lemma base128_app a b : fold_left (fun a d => a * 128 + d) (a ++ b) 0
  = fold_left (fun a d => a * 128 + d) b (base128 a).
Proof. unfold base128. apply fold_left_app. Qed.

Lemma read_tag_number_complete ds : forall acc last t,
  Forall (fun d => d < 128) ds -> last < 128 ->
  read_tag_number acc (map (fun d => byte_of_N (128 + d)) ds ++ byte_of_N last :: t)
  = Ok (fold_left (fun a d => a * 128 + d) (ds ++ [last]) acc, t).
Proof.
  induction ds as [|d ds IH]; intros acc last t F L.
  - cbn [map app read_tag_number]. rewrite N_of_byte_of_N, (N.mod_small last 256) by lia.
    destruct (last <? 128) eqn:E; [|lia]. cbn [fold_left]. rewrite N.mod_small by lia.
    reflexivity.
  - inversion F; subst. cbn [map app read_tag_number].
    rewrite N_of_byte_of_N, (N.mod_small (128 + d) 256) by lia.
    destruct (128 + d <? 128) eqn:E; [lia|].
    rewrite IH by assumption. cbn [fold_left app].
    replace ((128 + d) mod 128) with d; [reflexivity|].
    apply N.mod_unique with (q := 1); lia.
Qed.

Lemma read_tag_number_sound b : forall acc n t,
  read_tag_number acc b = Ok (n, t) ->
  exists ds last, Forall (fun d => d < 128) ds /\ last < 128 /\
    n = fold_left (fun a d => a * 128 + d) (ds ++ [last]) acc /\
    b = map (fun d => byte_of_N (128 + d)) ds ++ byte_of_N last :: t.
Proof.
  induction b as [|x b IH]; intros acc n t H; [discriminate|].
  cbn [read_tag_number] in H. pose proof (N_of_byte_bound x) as B.
  destruct (N_of_byte x <? 128) eqn:E.
  - injection H as <- <-. exists [], (N_of_byte x). split; [constructor|]. split; [lia|].
    cbn [app map fold_left]. rewrite byte_of_N_of_byte, N.mod_small by lia. auto.
  - apply IH in H. destruct H as (ds & last & F & L & H1 & H2).
    exists (N_of_byte x mod 128 :: ds), last.
    pose proof (N.mod_lt (N_of_byte x) 128 ltac:(lia)).
    split; [constructor; assumption|]. split; [exact L|].
    cbn [app map fold_left]. split; [exact H1|]. rewrite H2. f_equal.
    rewrite <- (byte_of_N_of_byte x) at 1. f_equal.
    pose proof (N.div_mod (N_of_byte x) 128 ltac:(lia)).
    assert (N_of_byte x / 128 < 2) by (apply N.div_lt_upper_bound; lia).
    assert (N_of_byte x / 128 <> 0) by (intros Z; rewrite Z in *; lia).
    lia.
Qed.

Lemma read_tag_iff b tg c t :
  read_tag b = Ok (tg, c, t) <->
  exists i, b = i ++ t /\ Identifier false (tg_class tg) c (tg_number tg) i.
Proof.
  split.
  - destruct b as [|x b]; [discriminate|].
    destruct (octet_fields x) as (cls & c' & low & L & E).
    unfold read_tag. cbv zeta. rewrite E.
    destruct (fields_read cls c' low L) as (M & T & C). cbv zeta in M, T, C.
    rewrite M, T, C.
    assert (X : x = first_octet cls c' low).
    { apply N_of_byte_inj. rewrite first_octet_value; assumption. }
    destruct (low =? 31) eqn:S; intros H.
    + destruct (read_tag_number 0 b) as [[n t']|e] eqn:R; [|discriminate].
      cbn [bind] in H. injection H as <- <- <-. cbn [tg_class tg_number].
      apply read_tag_number_sound in R. destruct R as (ds & last & F & La & H1 & H2).
      exists (x :: map (fun d => byte_of_N (128 + d)) ds ++ [byte_of_N last]).
      split. { rewrite H2. cbn [app]. rewrite <- app_assoc. reflexivity. }
      right. exists ds, last. repeat (split; [assumption|]). split; [|discriminate].
      rewrite X. replace low with 31 by lia. reflexivity.
    + injection H as <- <- <-. cbn [tg_class tg_number]. exists [x].
      split; [reflexivity|]. left. split; [lia|]. rewrite X. reflexivity.
  - intros (i & -> & H). destruct tg as [cls n]. cbn [tg_class tg_number] in *.
    destruct H as [[L ->]|(ds & last & F & La & Hn & -> & _)].
    + cbn [app read_tag]. cbv zeta. rewrite first_octet_value by lia.
      destruct (fields_read cls c n ltac:(lia)) as (M & T & C). cbv zeta in M, T, C.
      rewrite M, T, C. destruct (n =? 31) eqn:E; [lia|reflexivity].
    + cbn [app read_tag]. cbv zeta. rewrite first_octet_value by lia.
      destruct (fields_read cls c 31 ltac:(lia)) as (M & T & C). cbv zeta in M, T, C.
      rewrite M, T, C. change (31 =? 31) with true. cbv iota.
      rewrite <- app_assoc. cbn [app]. rewrite read_tag_number_complete by assumption.
      cbn [bind]. unfold base128 in Hn. rewrite <- Hn. reflexivity.
Qed.

(** ** Lengths *)

Lemma content_split (len : N) (t content rest : bytes) :
  (if (N.of_nat (List.length t) <? len) then asn1_error
   else Ok (firstn (N.to_nat len) t, skipn (N.to_nat len) t)) = Ok (content, rest) <->
  t = content ++ rest /\ N.of_nat (List.length content) = len.
Proof.
  split.
  - destruct (N.of_nat (List.length t) <? len) eqn:E; [discriminate|]. intros H.
    injection H as <- <-. split; [symmetry; apply firstn_skipn|].
    rewrite firstn_length. lia.
  - intros [-> L]. destruct (N.of_nat (List.length (content ++ rest)) <? len) eqn:E.
    { rewrite app_length in E. lia. }
    replace (N.to_nat len) with (List.length content) by lia.
    rewrite firstn_app, Nat.sub_diag, firstn_all, firstn_O, app_nil_r.
    rewrite skipn_app, Nat.sub_diag, skipn_all. reflexivity.
Qed.

Lemma read_content_iff b content rest :
  read_content b = Ok (content, rest) <->
  exists l, b = l ++ content ++ rest /\ Length false (N.of_nat (List.length content)) l.
Proof.
  split.
  - destruct b as [|x t]; [discriminate|]. unfold read_content. cbv zeta.
    pose proof (N_of_byte_bound x) as B. set (n := N_of_byte x) in *.
    destruct (n <? 128) eqn:E1; [|destruct (n =? 128) eqn:E2; [discriminate|]].
    + cbn [bind]. intros H. apply content_split in H. destruct H as [-> L].
      exists [x]. split; [reflexivity|]. left. rewrite L. split; [lia|].
      unfold n. rewrite byte_of_N_of_byte. reflexivity.
    + destruct (Nat.ltb (List.length t) (N.to_nat (n - 128))) eqn:E3; [discriminate|].
      cbn [bind]. intros H. apply content_split in H. destruct H as [S L].
      apply Nat.ltb_ge in E3.
      exists (x :: firstn (N.to_nat (n - 128)) t). split.
      { cbn [app]. rewrite <- S, firstn_skipn. reflexivity. }
      right. exists (firstn (N.to_nat (n - 128)) t). rewrite firstn_length.
      split; [lia|]. split; [symmetry; exact L|]. split; [|discriminate].
      f_equal. rewrite <- (byte_of_N_of_byte x). f_equal. fold n. lia.
  - intros (l & -> & [[L ->]|(body & BL & V & -> & _)]).
    + cbn [app read_content]. cbv zeta. rewrite N_of_byte_of_N, N.mod_small by lia.
      destruct (N.of_nat (List.length content) <? 128) eqn:E; [|lia]. cbn [bind].
      apply content_split. auto.
    + cbn [app read_content]. cbv zeta. rewrite N_of_byte_of_N, N.mod_small by lia.
      set (k := List.length body) in *.
      destruct (128 + N.of_nat k <? 128) eqn:E1; [lia|].
      destruct (128 + N.of_nat k =? 128) eqn:E2; [lia|].
      replace (N.to_nat (128 + N.of_nat k - 128)) with k by lia.
      destruct (Nat.ltb (List.length (body ++ content ++ rest)) k) eqn:E3.
      { apply Nat.ltb_lt in E3. rewrite app_length in E3. lia. }
      cbn [bind]. apply content_split. unfold k.
      rewrite firstn_app, Nat.sub_diag, firstn_all, firstn_O, app_nil_r.
      rewrite skipn_app, Nat.sub_diag, skipn_all. auto.
Qed.

(** ** Headers *)

Definition header (b : bytes) : res (tag * bool * bytes * bytes) :=
  bind (read_tag b) (fun '(t, c, b) =>
  bind (read_content b) (fun '(content, rest) => Ok (t, c, content, rest))).

Lemma header_iff b t c content rest :
  header b = Ok (t, c, content, rest) <->
  exists bs, b = bs ++ rest /\ Item false (tg_class t) c (tg_number t) content bs.
Proof.
  unfold header. split.
  - destruct (read_tag b) as [[[t' c'] b']|e] eqn:R; [|discriminate]. cbn [bind].
    destruct (read_content b') as [[content' rest']|e] eqn:C; [|discriminate]. cbn [bind].
    intros H. injection H as -> -> -> ->.
    apply read_tag_iff in R. destruct R as (i & -> & I).
    apply read_content_iff in C. destruct C as (l & -> & L).
    exists (i ++ l ++ content). split; [rewrite <- !app_assoc; reflexivity|].
    exists i, l. auto.
  - intros (bs & -> & i & l & I & L & ->).
    assert (R : read_tag ((i ++ l ++ content) ++ rest) = Ok (t, c, l ++ content ++ rest)).
    { apply read_tag_iff. exists i. rewrite <- !app_assoc. auto. }
    assert (C : read_content (l ++ content ++ rest) = Ok (content, rest)).
    { apply read_content_iff. exists l. auto. }
    rewrite R. cbn [bind]. rewrite C. reflexivity.
Qed.

(** Errors of the header are PyAsn1Errors. *)
Lemma header_error b e : header b = Raise e -> e = Py EPyAsn1Error.
Proof.
  unfold header. intros H.  destruct (read_tag b) as [[[t' c'] b']|e'] eqn:R.
  - cbn [bind] in H. destruct (read_content b') as [[content' rest']|e'] eqn:C; [discriminate|].
    cbn [bind] in H. injection H as ->.
    unfold read_content, asn1_error in C. destruct b' as [|x t]; [congruence|]. cbv zeta in C.
    destruct (N_of_byte x <? 128); [|destruct (N_of_byte x =? 128); [cbn in C; congruence|]].
    + cbn [bind] in C. destruct (_ <? _) in C; [cbn in C|]; congruence.
    + destruct (Nat.ltb _ _); [cbn in C; congruence|]. cbn [bind] in C.
      destruct (_ <? _) in C; congruence.
  - cbn [bind] in H. injection H as ->.
    unfold read_tag, asn1_error in R. destruct b as [|x t]; [congruence|]. cbv zeta in R.
    destruct (_ =? 31); [|discriminate].
    destruct (read_tag_number 0 t) as [[n u]|e2] eqn:T; [discriminate|]. cbn [bind] in R.
    injection R as ->.
    clear -T. revert T. generalize 0. induction t as [|y t IH]; intros acc T; [unfold read_tag_number, asn1_error in T; congruence|].
    cbn [read_tag_number] in T. destruct (N_of_byte y <? 128); [discriminate|]. eauto.
Qed.

Lemma decode_item_header depth outer cs b :
  decode_item (S depth) outer cs b =
  bind (header b) (fun '(t, c, content, rest) =>
    match lookup (outer ++ [t]) cs with
    | Some (pos, ty) =>
        bind (decode_content (decode_item depth []) ty c content)
             (fun v => Ok (pos, v, rest))
    | None =>
        if c && negb (tag_class_eqb (tg_class t) Universal) then
          bind (decode_item depth (outer ++ [t]) cs content)
               (fun '(pos, v, _) => Ok (pos, v, rest))
        else asn1_error
    end).
Proof.
  unfold header. cbn [decode_item]. destruct (read_tag b) as [[[t c] b']|e]; [|reflexivity].
  cbn [bind]. destruct (read_content b') as [[content rest]|e]; reflexivity.
Qed.

Lemma Item_length der cls c n content bs :
  Item der cls c n content bs -> (List.length content + 2 <= List.length bs)%nat.
Proof.
  intros (i & l & I & L & ->). rewrite !app_length.
  assert (1 <= List.length i)%nat.
  { destruct I as [[_ ->]|(ds & last & _ & _ & _ & -> & _)]; cbn; lia. }
  assert (1 <= List.length l)%nat.
  { destruct L as [[_ ->]|(body & _ & _ & -> & _)]; cbn; lia. }
  lia.
Qed.

(** ** Integers *)

Lemma signed_int_iff z content : TwosComplement false z content <-> z = signed_int content.
Proof.
  unfold TwosComplement, signed_int. cbv zeta.
  pose proof (be_to_N_bound content) as B.
  set (m := (256 ^ Z.of_nat (List.length content))%Z).
  assert (M : (0 < m)%Z) by (apply Z.pow_pos_nonneg; lia).
  assert (BM : (0 <= Z.of_N (be_to_N content) < m)%Z).
  { split; [lia|]. unfold m. rewrite <- nat_N_Z. change 256%Z with (Z.of_N 256).
    rewrite <- N2Z.inj_pow. lia. }
  set (n := Z.of_N (be_to_N content)) in *. split.
  - intros (R & E & _). destruct (2 * n <? m)%Z eqn:L.
    + destruct (Z.eq_dec z n) as [|N]; [assumption|exfalso].
      assert (z < 0 \/ 0 <= z)%Z as [Z|Z] by lia.
      * rewrite <- (Z.mod_unique z m (-1) (z + m)) in E by lia. lia.
      * rewrite Z.mod_small in E by lia. lia.
    + assert (z < 0 \/ 0 <= z)%Z as [Z|Z] by lia.
      * rewrite <- (Z.mod_unique z m (-1) (z + m)) in E by lia. lia.
      * rewrite Z.mod_small in E by lia. lia.
  - intros ->. destruct (2 * n <? m)%Z eqn:L; (split; [lia|]); (split; [|discriminate]).
    + apply Z.mod_small. lia.
    + symmetry. apply Z.mod_unique with (q := (-1)%Z); lia.
Qed.
