(** * PageText: JSON.stringify writes JSON texts of its argument. *)
From Coq Require Import List NArith ZArith Bool String Lia ZifyBool ZifyN.
From Verif Require Import Base BaseFacts PyVal B64 B64Facts Json JsonSpec JsonFacts CodecSpec CodecFacts Types
  OptionSpec OptionFacts World Parsers Dumps DumpsSpec DumpsFacts DumpsOptions Form Page PageSpec FormFacts.
Import ListNotations.
Local Open Scope N_scope.
Local Open Scope list_scope.

Definition LowHead (s : list N) : Prop := exists l t, s = l :: t /\ Low l.
Lemma usv_app n : forall a b, (List.length a <= n)%nat -> ~ LowHead b -> usv (a ++ b) = usv a ++ usv b.
Proof.
  induction n as [|n IH]; intros [|u t] b L NB; try reflexivity; cbn [List.length] in L; [lia|].
  cbn [app]. rewrite !usv_cons. destruct (is_high u) eqn:H.
  - destruct t as [|v t']; cbn [app].
    + destruct b as [|v b]; [reflexivity|]. destruct (is_low v) eqn:X; [|reflexivity].
      apply is_low_iff in X. exfalso. apply NB. exists v, b. auto.
    + destruct (is_low v).
      * cbn [app]. f_equal. apply IH; [cbn in L; lia|exact NB].
      * change (v :: t' ++ b) with ((v :: t') ++ b). rewrite IH; [reflexivity|cbn in L |- *; lia|exact NB].
  - destruct (is_low u); cbn [app]; f_equal; apply IH; (lia || exact NB).
Qed.
Lemma usv_sep a c b : c < 55296 -> usv (a ++ c :: b) = usv a ++ c :: usv b.
Proof.
  intro L. rewrite (usv_app (List.length a)); [|lia|].
  - f_equal. apply usv_plain; unfold High, Low; lia.
  - intros (l & t & Q & X). injection Q as <- _. unfold Low in X. lia.
Qed.
Lemma usv_join ws : usv (join [44] ws) = join [44] (map usv ws).
Proof.
  induction ws as [|w ws IH]; [reflexivity|]. destruct ws as [|w' ws]; [reflexivity|].
  cbn [map]. rewrite !join_cons. cbn [app]. rewrite usv_sep by lia. f_equal. f_equal. exact IH.
Qed.

(** ** Strings *)
Lemma quote_cons u t : quote_units (u :: t) =
  if is_high u then
    match t with
    | v :: t' => if is_low v then u :: v :: quote_units t' else u_escape u ++ quote_units t
    | [] => u_escape u
    end
  else if is_low u then u_escape u ++ quote_units t else quote_unit u ++ quote_units t.
Proof. reflexivity. Qed.
Lemma u_escape_low u : Forall (fun c => c < 55296) (u_escape u).
Proof. eapply Forall_impl; [|apply u_printable]. unfold printable. cbn. lia. Qed.
Lemma utf16_cons c s : utf16 (c :: s) = utf16_char c ++ utf16 s.
Proof. reflexivity. Qed.
Lemma utf16_head c s : ~ Low c -> c <= 0x10FFFF -> ~ LowHead (utf16 (c :: s)).
Proof.
  intros N L (l & t & Q & X). rewrite utf16_cons in Q. unfold utf16_char in Q.
  destruct (N.ltb_spec c 65536); cbn [app] in Q; apply (f_equal (hd 0)) in Q; cbn [hd] in Q; subst l; [contradiction|].
  unfold Low in X. assert ((c - 65536) / 1024 < 1024) by (apply N.div_lt_upper_bound; lia). lia.
Qed.
Lemma quote_unit_cases c : ~ High c -> ~ Low c ->
  (exists e, quote_unit c = [92; e] /\ Escape e c) \/
  (c < 32 /\ quote_unit c = u_escape c) \/
  (32 <= c /\ c <> 34 /\ c <> 92 /\ quote_unit c = [c]).
Proof.
  intros H L. unfold quote_unit.
  repeat match goal with |- context [?a =? ?b] => destruct (N.eqb_spec a b); [subst; left; eexists; split; [reflexivity|constructor]|] end.
  right. destruct (N.ltb_spec c 32); [left|right]; auto.
Qed.
Lemma hex_inj a n m : HexDigit a n -> HexDigit a m -> n = m.
Proof. unfold HexDigit. lia. Qed.
Lemma hex4_inj a b c d u v : Hex4 a b c d u -> Hex4 a b c d v -> u = v.
Proof.
  intros (w & x & y & z & H1 & H2 & H3 & H4 & ->) (w' & x' & y' & z' & G1 & G2 & G3 & G4 & ->).
  now rewrite (hex_inj _ _ _ H1 G1), (hex_inj _ _ _ H2 G2), (hex_inj _ _ _ H3 G3), (hex_inj _ _ _ H4 G4).
Qed.

(** One character. *)
Lemma quoted_step c s : c <= 0x10FFFF ->
  (High c -> ~ LowHead (utf16 s)) ->
  let r := usv (quote_units (utf16 (c :: s))) in let q := usv (quote_units (utf16 s)) in
  (exists e, r = 92 :: e :: q /\ Escape e c) \/
  (32 <= c /\ c <> 34 /\ c <> 92 /\ r = c :: q) \/
  (c < 65536 /\ exists x y z w, r = 92 :: 117 :: x :: y :: z :: w :: q /\ Hex4 x y z w c).
Proof.
  intros L NH r q. subst r q. rewrite utf16_cons. unfold utf16_char. destruct (N.ltb_spec c 65536) as [S|S].
  - cbn [app]. rewrite quote_cons. destruct (u_escape_hex c S) as (x & y & z & w & UE & HX).
    pose proof (u_escape_low c) as UL.
    destruct (is_high c) eqn:H.
    + apply is_high_iff in H. right. right. split; [exact S|]. exists x, y, z, w. split; [|exact HX].
      destruct (utf16 s) as [|v t] eqn:U.
      * rewrite <- (app_nil_r (u_escape c)), (usv_low _ _ UL), UE. reflexivity.
      * destruct (is_low v) eqn:LV; [exfalso; apply (NH H); exists v, t; split; [reflexivity|now apply is_low_iff]|].
        rewrite (usv_low _ _ UL), UE. reflexivity.
    + assert (NHc : ~ High c) by (intro X; apply is_high_iff in X; congruence).
      destruct (is_low c) eqn:LC.
      * right. right. split; [exact S|]. exists x, y, z, w. split; [|exact HX].
        rewrite (usv_low _ _ UL), UE. reflexivity.
      * assert (NLc : ~ Low c) by (intro X; apply is_low_iff in X; congruence).
        destruct (quote_unit_cases c NHc NLc) as [(e & -> & X)|[(X & ->)|(X1 & X2 & X3 & ->)]].
        -- left. exists e. split; [|exact X]. cbn [app].
           assert (e < 55296) by (inversion X; lia).
           rewrite !usv_plain by (unfold High, Low; lia). reflexivity.
        -- right. right. split; [exact S|]. exists x, y, z, w. split; [|exact HX].
           rewrite (usv_low _ _ UL), UE. reflexivity.
        -- right. left. split; [exact X1|]. split; [exact X2|]. split; [exact X3|]. cbn [app].
           now rewrite usv_plain.
  - right. left. split; [lia|]. split; [lia|]. split; [lia|]. cbn [app]. rewrite quote_cons.
    assert (H1 : is_high (55296 + (c - 65536) / 1024) = true).
    { apply is_high_iff. unfold High. assert ((c - 65536) / 1024 < 1024) by (apply N.div_lt_upper_bound; lia). lia. }
    assert (H2 : is_low (56320 + (c - 65536) mod 1024) = true).
    { apply is_low_iff. unfold Low. assert ((c - 65536) mod 1024 < 1024) by (apply N.mod_upper_bound; lia). lia. }
    rewrite H1, H2. rewrite <- (usv_pair c) by lia. unfold utf16_char.
    destruct (N.ltb_spec c 65536); [lia|reflexivity].
Qed.
Lemma plain_tail c s : PlainText (c :: s) -> c <= 0x10FFFF /\ PlainText s /\ (High c -> ~ LowHead (utf16 s)).
Proof.
  intros [C S]. inversion C as [|? ? C1 C2]; subst. split; [exact C1|]. split; [split; [exact C2|]|].
  - intros (a & h & l & b & -> & X). apply S. exists (c :: a), h, l, b. auto.
  - intro H. destruct s as [|d s]; [intros (l & t & Q & _); discriminate|].
    apply utf16_head; [|now inversion C2]. intro LD. apply S. exists [], c, d, s. auto.
Qed.
Lemma quoted_string s : PlainText s -> JString (usv (quote_units (utf16 s))) s.
Proof.
  induction s as [|c s IH]; intro P; [constructor|].
  destruct (plain_tail c s P) as (C & PS & NH). specialize (IH PS).
  destruct (quoted_step c s C NH) as [(e & -> & X)|[(X1 & X2 & X3 & ->)|(X & x & y & z & w & -> & HX)]].
  - now constructor.
  - now constructor.
  - destruct (is_high c) eqn:H.
    + apply is_high_iff in H. apply jstr_lone; [exact HX|exact H| |exact IH].
      intros a' b' c' d' u' t' Q H' LU. destruct s as [|d s]; [discriminate Q|].
      destruct (plain_tail d s PS) as (D & PS' & ND).
      destruct (quoted_step d s D ND) as [(e & Q' & Y)|[(Y1 & Y2 & Y3 & Q')|(Y & x' & y' & z' & w' & Q' & HY)]];
        rewrite Q' in Q.
      * injection Q as -> _. exact (escape_not_u _ Y).
      * injection Q as -> _. now apply Y3.
      * injection Q as -> -> -> -> _. rewrite (hex4_inj _ _ _ _ _ _ H' HY) in LU.
        destruct P as [_ P]. apply P. exists [], c, d, s. auto.
    + apply jstr_unicode; [exact HX| |exact IH]. intro Z. apply is_high_iff in Z. congruence.
Qed.
Lemma quoted_text s : usv (quote_string (utf16 s)) = 34 :: usv (quote_units (utf16 s)) ++ [34].
Proof.
  unfold quote_string. rewrite usv_plain by (unfold High, Low; lia). now rewrite usv_sep by lia.
Qed.

(** ** Values *)
Section Env.
Variable E : jsonenv.
Variable repr : N -> pystr.
Variable B : browser.

Lemma items_text' n rs l : Forall2 (JValue E n) rs l -> l <> [] -> JItems E n (join [44] rs) l.
Proof.
  induction 1 as [|t v rs l Hv HF IH]; [congruence|]. intros _.
  inversion HF as [|t' v' rs' l' Hv' HF']; subst.
  - cbn [join]. rewrite <- (app_nil_r t). apply jitems_one; [exact Hv|constructor].
  - rewrite join_cons. apply (jitems_more E n t v [] []); [exact Hv|constructor|constructor|].
    apply IH. discriminate.
Qed.
Inductive member_text' n : pystr -> pystr * pyval -> Prop :=
| mt' k name a x : JString k name -> JValue E n a x -> member_text' n (34 :: k ++ 34 :: 58 :: a) (name, x).
Lemma members_text' n rs ps : Forall2 (member_text' n) rs ps -> ps <> [] -> JMembers E n (join [44] rs) ps.
Proof.
  induction 1 as [|t p rs l Hp HF IH]; [congruence|]. intros _. destruct Hp as [k name a x HN HX].
  inversion HF as [|t' v' rs' l' Hv' HF']; subst.
  - cbn [join]. rewrite <- (app_nil_r a).
    apply (jmembers_one E n k name [] [] a x []); [exact HN|constructor|constructor|exact HX|constructor].
  - rewrite join_cons. cbn [app]. rewrite <- app_assoc. cbn [app].
    apply (jmembers_more E n k name [] [] a x [] []); [exact HN|constructor|constructor|exact HX|constructor|constructor|].
    apply IH. discriminate.
Qed.

Definition stringify_members :=
  fix members (m : list (jstring * jsval)) : list jstring := match m with
    | [] => []
    | (k, x) :: t => if is_undefined x then members t
                     else (quote_string k ++ 58 :: stringify B x) :: members t
    end.
Lemma stringify_object m : stringify B (JsObj m) = 123 :: join [44] (stringify_members m) ++ [125].
Proof. reflexivity. Qed.

Lemma int_read z : Short E z ->
  JNumber E (to_text B (JsInt z)) (VInt z) /\ Forall (fun c => c < 128) (to_text B (JsInt z)).
Proof.
  intro S. destruct (int_text_ok E repr z S) as (t & T & J & P). cbn [to_text].
  rewrite int_text_eq in T. destruct (too_long E z); [discriminate|]. injection T as <-.
  assert (Q : (if (z <? 0)%Z then [45] else []) ++ dec_text (Z.abs_N z)
              = if (z <? 0)%Z then 45 :: dec_text (Z.abs_N z) else dec_text (Z.abs_N z))
    by (destruct (z <? 0)%Z; reflexivity).
  rewrite Q. split; [exact J|]. eapply Forall_impl; [|exact P]. unfold printable. cbn. lia.
Qed.

Lemma exact_defined v : Exact v -> is_undefined (js_of v) = false.
Proof. destruct 1; reflexivity. Qed.
Lemma stringify_read n : forall v, Carried E repr n v -> Exact v -> JValue E n (usv (stringify B (js_of v))) v.
Proof.
  assert (LEAF : forall n v, (forall l, v <> VList l) -> (forall d, v <> VDict d) -> Carried E repr n v -> Exact v ->
    JValue E n (usv (stringify B (js_of v))) v).
  { clear n. intros n v NL ND C X. inversion C; subst; try congruence.
    - apply jval_const. constructor.
    - apply jval_const. destruct b; constructor.
    - destruct (int_read z) as [J A]; [assumption|]. cbn [js_of stringify]. rewrite usv_ascii by exact A.
      now apply jval_number.
    - inversion X.
    - cbn [js_of stringify]. rewrite quoted_text. apply jval_string. now apply quoted_string. }
  induction n as [|n IH]; intros v C X.
  { apply LEAF; try assumption; intros ? ->; inversion C. }
  inversion C as [| | | | |? l HL|? d HK HN HD]; subst;
    try solve [apply LEAF; [discriminate|discriminate|exact C|exact X]]; clear LEAF.
  - inversion X as [| | | |? FX|]; subst. cbn [js_of stringify]. rewrite map_map.
    rewrite usv_plain by (unfold High, Low; lia). rewrite usv_sep by lia. rewrite usv_join, map_map.
    assert (R : Forall2 (JValue E n) (map (fun x => usv (stringify B (js_of x))) l) l).
    { clear C X. induction HL as [|x l Hx HL IHL]; [constructor|]. inversion FX; subst. cbn [map]. constructor; auto. }
    cbn [usv]. destruct l as [|x l].
    + apply (jval_empty_array E n []). constructor.
    + apply (jval_array E n []); [constructor|]. apply items_text'; [exact R|discriminate].
  - inversion X as [| | | | |? _ _ FX]; subst. cbn [js_of]. rewrite stringify_object.
    rewrite usv_plain by (unfold High, Low; lia). rewrite usv_sep by lia. rewrite usv_join.
    set (ms := stringify_members _). cbn [usv].
    assert (G : exists ps, Forall2 (member_text' n) (map usv ms) ps /\ d = map (fun p => (VStr (fst p), snd p)) ps).
    { subst ms. clear C X. induction HD as [|[k x] d Hx HD IHD]; [exists []; repeat constructor|].
      inversion FX as [|? ? FX1 FX2]; subst. destruct IHD as (ps & R2 & R3).
      - intros k' w I. apply (HK k' w). now right.
      - now inversion HN.
      - exact FX2.
      - destruct (HK k x (or_introl eq_refl)) as (s & -> & S1 & S2). cbn [snd] in *.
        exists ((s, x) :: ps). cbn [map fst snd stringify_members]. rewrite exact_defined by exact FX1.
        split; [|now rewrite <- R3]. cbn [map]. constructor; [|exact R2].
        rewrite usv_sep by lia. rewrite quoted_text. cbn [app]. rewrite <- app_assoc.
        constructor; [now apply quoted_string|now apply IH]. }
    destruct G as (ps & R2 & R3).
    assert (ND : NoDup (map fst ps)).
    { rewrite R3, map_map in HN. cbn [fst] in HN. rewrite <- (map_map fst VStr) in HN. now apply NoDup_map_inv in HN. }
    rewrite R3, <- dict_of_same by exact ND. destruct ps as [|p ps].
    + inversion R2 as [Q|]. apply (jval_empty_object E n []). constructor.
    + apply (jval_object E n []); [constructor|]. apply members_text'; [exact R2|discriminate].
Qed.
End Env.
