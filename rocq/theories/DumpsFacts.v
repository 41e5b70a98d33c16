(** * DumpsFacts: json.dumps writes texts of its argument, and fails only on its defects. *)
From Coq Require Import List NArith ZArith Bool String Lia.
From Verif Require Import Base BaseFacts PyVal Json JsonSpec JsonFacts Dumps DumpsSpec.
Import ListNotations.
Local Open Scope N_scope.
Local Open Scope list_scope.

(** ** Strings *)
Lemma hex_digit_spec n : n < 16 -> HexDigit (hex_digit n) n.
Proof. unfold hex_digit, HexDigit. intro H. destruct (N.ltb_spec n 10); lia. Qed.

Lemma u_escape_hex c : c < 65536 -> exists x y z w, u_escape c = [92; 117; x; y; z; w] /\ Hex4 x y z w c.
Proof.
  intro L. unfold u_escape. do 4 eexists. split; [reflexivity|].
  exists (c / 4096 mod 16), (c / 256 mod 16), (c / 16 mod 16), (c mod 16).
  assert (forall n, n mod 16 < 16) by (intro; apply N.mod_upper_bound; lia).
  do 4 (split; [apply hex_digit_spec; auto|]).
  pose proof (N.div_mod c 16). pose proof (N.div_mod (c / 16) 16). pose proof (N.div_mod (c / 256) 16).
  pose proof (N.div_mod (c / 4096) 16).
  assert (c / 256 = c / 16 / 16) by (rewrite N.div_div; [reflexivity|lia|lia]).
  assert (c / 4096 = c / 256 / 16) by (rewrite N.div_div; [reflexivity|lia|lia]).
  assert (c / 4096 / 16 = 0). { rewrite N.div_div by lia. apply N.div_small. lia. }
  lia.
Qed.

(** The characters read back: a split pair becomes one character. *)
Fixpoint merged (s : pystr) : pystr :=
  match s with
  | [] => []
  | h :: t => match t with
              | l :: t' => if high_surrogate h && low_surrogate l then join_surrogates h l :: merged t'
                           else h :: merged t
              | [] => [h]
              end
  end.

Definition low_head (t : pystr) : Prop :=
  exists a b c d u r, t = 92 :: 117 :: a :: b :: c :: d :: r /\ Hex4 a b c d u /\ Low u.

Lemma escape_cases c : c <= 0x10FFFF ->
  (exists e, escape_char c = [92; e] /\ Escape e c) \/
  (32 <= c <= 126 /\ c <> 34 /\ c <> 92 /\ escape_char c = [c]) \/
  (c < 65536 /\ exists x y z w, escape_char c = [92; 117; x; y; z; w] /\ Hex4 x y z w c) \/
  (65536 <= c /\ exists x y z w x' y' z' w' h l,
     escape_char c = [92; 117; x; y; z; w; 92; 117; x'; y'; z'; w'] /\
     Hex4 x y z w h /\ High h /\ Hex4 x' y' z' w' l /\ Low l /\
     c = 65536 + 1024 * (h - 0xD800) + (l - 0xDC00)).
Proof.
  intro B. unfold escape_char.
  destruct (N.eqb_spec c 34) as [->|N1]; [left; exists 34; repeat constructor|].
  destruct (N.eqb_spec c 92) as [->|N2]; [left; exists 92; repeat constructor|].
  destruct (N.eqb_spec c 8) as [->|N3]; [left; exists 98; repeat constructor|].
  destruct (N.eqb_spec c 12) as [->|N4]; [left; exists 102; repeat constructor|].
  destruct (N.eqb_spec c 10) as [->|N5]; [left; exists 110; repeat constructor|].
  destruct (N.eqb_spec c 13) as [->|N6]; [left; exists 114; repeat constructor|].
  destruct (N.eqb_spec c 9) as [->|N7]; [left; exists 116; repeat constructor|].
  right. destruct ((32 <=? c) && (c <=? 126)) eqn:P.
  { left. apply andb_true_iff in P as [P1 P2]. apply N.leb_le in P1, P2. auto. }
  right. destruct (N.ltb_spec c 65536) as [L|L].
  { left. split; [exact L|]. apply u_escape_hex. exact L. }
  right. split; [exact L|]. set (v := c - 65536).
  assert (V : v < 1048576) by (unfold v; lia).
  assert (Q : v / 1024 < 1024) by (apply N.div_lt_upper_bound; lia).
  assert (R : v mod 1024 < 1024) by (apply N.mod_upper_bound; lia).
  rewrite (N.mod_small (v / 1024)) by exact Q.
  destruct (u_escape_hex (55296 + v / 1024)) as (x & y & z & w & -> & H1); [lia|].
  destruct (u_escape_hex (56320 + v mod 1024)) as (x' & y' & z' & w' & -> & H2); [lia|].
  exists x, y, z, w, x', y', z', w', (55296 + v / 1024), (56320 + v mod 1024).
  split; [reflexivity|]. split; [exact H1|]. split; [unfold High; lia|]. split; [exact H2|].
  split; [unfold Low; lia|]. pose proof (N.div_mod v 1024). unfold v in *. lia.
Qed.
Lemma escape_small e c : Escape e c -> c <= 92.
Proof. destruct 1; lia. Qed.
Lemma escape_not_u c : ~ Escape 117 c.
Proof. inversion 1. Qed.

Lemma escape_low c r x y z w u t : c <= 0x10FFFF ->
  escape_char c ++ r = 92 :: 117 :: x :: y :: z :: w :: t -> Hex4 x y z w u -> Low u -> Low c.
Proof.
  intros B Q HX HL.
  destruct (escape_cases c B) as [(e & P & HE)|[(H1 & H2 & H3 & P)|[(L & a & b & d & f & P & H)|
    (L & a & b & d & f & a' & b' & d' & f' & h & l & P & H & HH & H')]]]; rewrite P in Q; cbn [app] in Q.
  - injection Q as Q1 Q2. subst e. now apply escape_not_u in HE.
  - injection Q as Q1 Q2. congruence.
  - injection Q as -> -> -> -> Q. rewrite (hex4_det _ _ _ _ _ _ H HX). exact HL.
  - injection Q as -> -> -> -> Q. rewrite (hex4_det _ _ _ _ _ _ H HX) in HH.
    unfold High, Low in *. lia.
Qed.

Lemma escaped_merged n : forall s, (List.length s <= n)%nat -> CodePoints s -> JString (escaped s) (merged s).
Proof.
  induction n as [|n IH]; intros s Ls CP.
  { destruct s; [constructor|cbn in Ls; lia]. }
  destruct s as [|c t]; [constructor|]. inversion CP as [|? ? Hc Ht]; subst. cbn [List.length] in Ls.
  assert (IT : JString (escaped t) (merged t)) by (apply IH; [lia|exact Ht]).
  assert (NH : ~ High c -> merged (c :: t) = c :: merged t).
  { intro NH. cbn [merged]. destruct t as [|l t']; [reflexivity|].
    destruct (high_surrogate c) eqn:HS; [now apply high_iff in HS|reflexivity]. }
  change (escaped (c :: t)) with (escape_char c ++ escaped t).
  destruct (escape_cases c Hc) as [(e & P & HE)|[(H1 & H2 & H3 & P)|[(L & a & b & d & f & P & H)|
    (L & a & b & d & f & a' & b' & d' & f' & h & l & P & H & HH & H' & HL & HV)]]].
  - pose proof (escape_small _ _ HE). rewrite P, NH by (unfold High; lia). now apply jstr_escape.
  - rewrite P, NH by (unfold High; lia). apply jstr_plain; auto. lia.
  - rewrite P. cbn [app]. destruct (high_surrogate c) eqn:HS.
    2:{ assert (~ High c) by (intro Q; apply high_iff in Q; congruence). rewrite NH by assumption.
        now apply jstr_unicode. }
    assert (HC : High c) by now apply high_iff.
    destruct t as [|l t'].
    { cbn [merged]. apply jstr_lone; auto. intros; discriminate. }
    inversion Ht as [|? ? Hl Ht']; subst. cbn [List.length] in Ls.
    cbn [merged]. rewrite HS. cbn [andb]. destruct (low_surrogate l) eqn:LS.
    + assert (HL : Low l) by now apply low_iff.
      change (escaped (l :: t')) with (escape_char l ++ escaped t').
      destruct (escape_cases l Hl) as [(e & P' & HE)|[(H1 & H2 & H3 & P')|[(L' & a' & b' & d' & f' & P' & H')|
        (L' & a' & b' & d' & f' & a'' & b'' & d'' & f'' & h & l' & P' & H')]]].
      * pose proof (escape_small _ _ HE). unfold Low in HL. lia.
      * unfold Low in HL. lia.
      * rewrite P'. cbn [app]. 
        replace (join_surrogates c l) with (65536 + 1024 * (c - 0xD800) + (l - 0xDC00))
          by (unfold join_surrogates; lia).
        apply jstr_pair; auto. apply IH; [lia|exact Ht'].
      * unfold Low in HL. lia.
    + apply jstr_lone; auto. intros x y z w u r Q HX HL.
      change (escaped (l :: t')) with (escape_char l ++ escaped t') in Q.
      pose proof (escape_low l (escaped t') x y z w u r Hl Q HX HL) as Q'. apply low_iff in Q'. congruence.
  - rewrite P. cbn [app]. rewrite NH by (unfold High; lia). rewrite HV. now apply jstr_pair.
Qed.

Lemma merged_cons h l t : merged (h :: l :: t) =
  if high_surrogate h && low_surrogate l then join_surrogates h l :: merged t else h :: merged (l :: t).
Proof. reflexivity. Qed.
Lemma merged_same n : forall s, (List.length s <= n)%nat -> ~ SplitPair s -> merged s = s.
Proof.
  induction n as [|n IH]; intros s Ls NP.
  { destruct s; [reflexivity|cbn in Ls; lia]. }
  destruct s as [|h [|l t]]; [reflexivity|reflexivity|]. cbn [List.length] in Ls.
  assert (NP' : ~ SplitPair (l :: t)).
  { intros (a & h' & l' & b & E & H). apply NP. exists (h :: a), h', l', b. now rewrite E. }
  rewrite merged_cons. destruct (high_surrogate h && low_surrogate l) eqn:Q.
  - apply andb_true_iff in Q as [Q1 Q2]. exfalso. apply NP. exists [], h, l, t.
    split; [reflexivity|]. split; [now apply high_iff|now apply low_iff].
  - f_equal. apply (IH (l :: t)); [cbn; lia|exact NP'].
Qed.
Lemma merged_length n : forall s, (List.length s <= n)%nat -> (List.length (merged s) <= List.length s)%nat.
Proof.
  induction n as [|n IH]; intros s Ls.
  { destruct s; [cbn; lia|cbn in Ls; lia]. }
  destruct s as [|h [|l t]]; [cbn; lia|cbn; lia|]. cbn [List.length] in Ls.
  rewrite merged_cons. destruct (high_surrogate h && low_surrogate l).
  - pose proof (IH t ltac:(lia)). cbn [List.length]. lia.
  - pose proof (IH (l :: t) ltac:(cbn; lia)). cbn [List.length] in *. lia.
Qed.
Lemma merged_shorter n : forall s, (List.length s <= n)%nat -> SplitPair s ->
  (List.length (merged s) < List.length s)%nat.
Proof.
  induction n as [|n IH]; intros s Ls (a & h' & l' & b & E & H1 & H2).
  { rewrite E, app_length in Ls. cbn in Ls. lia. }
  destruct s as [|h [|l t]].
  - destruct a; discriminate.
  - destruct a as [|? [|? ?]]; discriminate.
  - cbn [List.length] in Ls. rewrite merged_cons. destruct (high_surrogate h && low_surrogate l) eqn:Q.
    + pose proof (merged_length (List.length t) t ltac:(lia)). cbn [List.length]. lia.
    + destruct a as [|x a].
      { cbn [app] in E. injection E as -> -> _. apply high_iff in H1. apply low_iff in H2.
        rewrite H1, H2 in Q. discriminate. }
      injection E as -> E.
      pose proof (IH (l :: t) ltac:(cbn; lia)) as H. 
      assert (SP : SplitPair (l :: t)) by (exists a, h', l', b; auto).
      specialize (H SP). cbn [List.length] in *. lia.
Qed.

Lemma escaped_ok s : CodePoints s -> ~ SplitPair s -> JString (escaped s) s.
Proof.
  intros C N. pose proof (escaped_merged _ s (le_n _) C) as H. now rewrite (merged_same _ s (le_n _) N) in H.
Qed.
Lemma string_det t v v' : JString t v -> JString t v' -> v = v'.
Proof.
  intros H H'. apply (scan_str_complete _ _ []) in H, H'. congruence.
Qed.
Lemma escaped_iff s : CodePoints s -> (JString (escaped s) s <-> ~ SplitPair s).
Proof.
  intro C. split; [|now apply escaped_ok]. intros H P.
  pose proof (escaped_merged _ s (le_n _) C) as H'. pose proof (string_det _ _ _ H H') as Q.
  pose proof (merged_shorter _ s (le_n _) P). rewrite <- Q in H0. lia.
Qed.

Lemma hex_printable n : n < 16 -> printable (hex_digit n).
Proof. unfold hex_digit, printable. intro. destruct (N.ltb_spec n 10); lia. Qed.
Lemma u_printable c : Forall printable (u_escape c).
Proof.
  unfold u_escape. assert (forall n, n mod 16 < 16) by (intro; apply N.mod_upper_bound; lia).
  repeat (constructor; [solve [unfold printable; lia | now apply hex_printable]|]). constructor.
Qed.
Lemma escape_printable c : Forall printable (escape_char c).
Proof.
  unfold escape_char.
  repeat match goal with |- context [if ?b then _ else _] => destruct b eqn:? end;
    try solve [repeat (constructor; [unfold printable; lia|]); constructor].
  - apply u_printable.
  - apply Forall_app. split; apply u_printable.
Qed.
Lemma escaped_printable s : Forall printable (escaped s).
Proof. induction s as [|c s IH]; [constructor|]. apply Forall_app. split; [apply escape_printable|exact IH]. Qed.

(** ** Integers *)
Lemma pow2_le_10 n : (2 ^ N.of_nat n <= 10 ^ N.of_nat n).
Proof. apply N.pow_le_mono_l. lia. Qed.

Lemma dec_go_spec f : forall n acc, n < 10 ^ N.of_nat f -> (0 < f)%nat ->
  exists ds, dec_go f n acc = ds ++ acc /\ Decimal ds n /\ IntPart ds /\
    (n = 0 -> List.length ds = 1%nat) /\
    (0 < n -> 10 ^ (N.of_nat (List.length ds) - 1) <= n) /\ n < 10 ^ N.of_nat (List.length ds).
Proof.
  induction f as [|f IH]; intros n acc L P; [lia|]. cbn [dec_go].
  assert (M : n mod 10 < 10) by (apply N.mod_upper_bound; lia).
  destruct (N.ltb_spec n 10) as [S|S].
  - exists [48 + n mod 10]. rewrite (N.mod_small n) by exact S. split; [reflexivity|].
    split. { replace n with (10 * 0 + (48 + n - 48)) at 2 by lia. apply (dec_snoc [] 0 (48 + n)); [constructor|]. unfold Digit. lia. }
    split. { destruct (N.eq_dec n 0) as [->|Z]; [left; reflexivity|right]. exists (48 + n), []. repeat split; [lia|lia|constructor]. }
    cbn. repeat split; intros; lia.
  - assert (Q : n / 10 < 10 ^ N.of_nat f).
    { apply N.div_lt_upper_bound; [lia|]. rewrite <- N.pow_succ_r'. rewrite Nat2N.inj_succ in L. exact L. }
    assert (F : (0 < f)%nat).
    { destruct f; [|lia]. change (10 ^ N.of_nat 1) with 10 in L. lia. }
    destruct (IH (n / 10) (48 + n mod 10 :: acc) Q F) as (ds & -> & D & I & Z & LB & UB).
    assert (N10 : 0 < n / 10) by (apply N.div_str_pos; lia).
    exists (ds ++ [48 + n mod 10]). pose proof (N.div_mod n 10) as DM.
    assert (LN : List.length ds <> 0%nat) by (intro LZ; rewrite LZ in UB; change (10 ^ N.of_nat 0) with 1 in UB; lia).
    split; [now rewrite <- app_assoc|].
    split. { replace n with (10 * (n / 10) + (48 + n mod 10 - 48)) at 2 by lia. constructor; [exact D|]. unfold Digit; lia. }
    split.
    { right. destruct I as [->|(c & t & -> & Hc & Ht)].
      - apply decimal_dec in D. cbn in D. lia.
      - exists c, (t ++ [48 + n mod 10]). repeat split; [lia|lia|]. apply Forall_app. split; [exact Ht|].
        constructor; [unfold Digit; lia|constructor]. }
    rewrite app_length. cbn [List.length]. split; [lia|].
    specialize (LB N10).
    split.
    + intros _. replace (N.of_nat (List.length ds + 1) - 1) with (N.succ (N.of_nat (List.length ds) - 1)) by lia.
      rewrite N.pow_succ_r'. lia.
    + replace (N.of_nat (List.length ds + 1)) with (N.succ (N.of_nat (List.length ds))) by lia.
      rewrite N.pow_succ_r'. lia.
Qed.
Lemma size_bound n : n < 10 ^ N.of_nat (S (N.size_nat n)).
Proof.
  apply N.lt_le_trans with (2 ^ N.of_nat (S (N.size_nat n))); [|apply pow2_le_10].
  destruct n as [|p]; [reflexivity|].
  assert (H : N.pos p < 2 ^ N.of_nat (Pos.size_nat p)).
  { induction p as [p IH|p IH|]; [| |reflexivity]; cbn [Pos.size_nat];
      rewrite Nat2N.inj_succ, N.pow_succ_r'; lia. }
  change (N.size_nat (N.pos p)) with (Pos.size_nat p). rewrite Nat2N.inj_succ, N.pow_succ_r'. lia.
Qed.
Lemma dec_text_spec n :
  Decimal (dec_text n) n /\ IntPart (dec_text n) /\
  forall m, N.of_nat (List.length (dec_text n)) <= m <-> n < 10 ^ m /\ 1 <= m.
Proof.
  destruct (dec_go_spec _ n [] (size_bound n) ltac:(lia)) as (ds & Q & D & I & Z & LB & UB).
  unfold dec_text. rewrite Q, app_nil_r. split; [exact D|]. split; [exact I|]. intro m.
  assert (LN : List.length ds <> 0%nat) by (apply int_digits in I as [_ I]; destruct ds; [congruence|discriminate]).
  split.
  - intro L. split; [|lia]. eapply N.lt_le_trans; [exact UB|]. apply N.pow_le_mono_r; lia.
  - intros [L M]. destruct (N.eq_dec n 0) as [N0|N0]; [rewrite (Z N0); lia|].
    specialize (LB ltac:(lia)). 
    destruct (N.le_gt_cases (N.of_nat (List.length ds)) m) as [?|G]; [assumption|exfalso].
    assert (10 ^ m <= 10 ^ (N.of_nat (List.length ds) - 1)) by (apply N.pow_le_mono_r; lia). lia.
Qed.

Section Env.
Variable E : jsonenv.
Variable repr : N -> pystr.

Definition too_long (z : Z) : bool :=
  match je_max_digits E with Some m => m <? N.of_nat (List.length (dec_text (Z.abs_N z))) | None => false end.
Lemma int_text_eq z : int_text E z = if too_long z then WRaise EValueError
  else WOk (if (z <? 0)%Z then 45 :: dec_text (Z.abs_N z) else dec_text (Z.abs_N z)).
Proof. reflexivity. Qed.
Lemma short_digits z : Short E z <-> too_long z = false.
Proof.
  unfold Short, too_long. destruct (je_max_digits E) as [m|]; [|split; [reflexivity|discriminate]].
  destruct (dec_text_spec (Z.abs_N z)) as (_ & _ & H). specialize (H m).
  assert (P : Z.abs_N z < 10 ^ m <-> (Z.abs z < 10 ^ Z.of_N m)%Z).
  { rewrite N2Z.inj_lt, N2Z.inj_pow, N2Z.inj_abs_N. reflexivity. }
  rewrite N.ltb_ge. split.
  - intro HS. apply H. destruct (HS m eq_refl) as [S1 S2]. apply P in S2. split; [exact S2|lia].
  - intros HS m' [= <-]. apply H in HS as [H1 H2]. split; [lia|]. now apply P.
Qed.
Lemma int_text_ok z : Short E z -> exists t, int_text E z = WOk t /\ JNumber E t (VInt z) /\ Forall printable t.
Proof.
  intro HS. pose proof HS as HS'. apply short_digits in HS. rewrite int_text_eq, HS. eexists. split; [reflexivity|].
  destruct (dec_text_spec (Z.abs_N z)) as (D & I & _).
  assert (LIM : forall m, je_max_digits E = Some m -> N.of_nat (List.length (dec_text (Z.abs_N z))) <= m).
  { intros m M. unfold too_long in HS. rewrite M in HS. now apply N.ltb_ge in HS. }
  assert (PR : Forall printable (dec_text (Z.abs_N z))).
  { apply int_digits in I as [I _]. eapply Forall_impl; [|exact I]. unfold Digit, printable. intros; lia. }
  destruct (Z.ltb_spec z 0) as [L|L].
  - split; [|constructor; [unfold printable; lia|exact PR]].
    replace z with (- Z.of_N (Z.abs_N z))%Z at 2 by (rewrite N2Z.inj_abs_N; lia). now constructor.
  - split; [|exact PR].
    replace z with (Z.of_N (Z.abs_N z)) at 2 by (rewrite N2Z.inj_abs_N; lia). now constructor.
Qed.
Lemma int_text_raise z e : int_text E z = WRaise e -> e = EValueError /\ ~ Short E z.
Proof.
  rewrite int_text_eq, short_digits. destruct (too_long z); [|discriminate].
  intro H. injection H as <-. split; [reflexivity|discriminate].
Qed.
Lemma int_text_short z t : int_text E z = WOk t -> Short E z.
Proof.
  rewrite int_text_eq, short_digits. destruct (too_long z); [discriminate|reflexivity].
Qed.

Lemma finite_text b : Finite b -> float_text repr b = repr b.
Proof.
  intros [B H]. unfold float_text, float_is_nan. destruct (N.eqb_spec (N.land (N.shiftr b 52) 2047) 2047) as [Q|_]; [contradiction|].
  cbn [andb]. destruct (N.eqb_spec b 0x7FF0000000000000) as [->|_]; [exfalso; apply H; reflexivity|].
  destruct (N.eqb_spec b 0xFFF0000000000000) as [->|_]; [exfalso; apply H; reflexivity|]. reflexivity.
Qed.

Lemma named_text b : Named E b -> Forall printable (float_text repr b) /\ JConst E (float_text repr b) (VFloat b).
Proof.
  assert (P : Forall printable (lit "Infinity") /\ Forall printable (lit "-Infinity") /\ Forall printable (lit "NaN")).
  { repeat split; repeat (constructor; [unfold printable; vm_compute; split; discriminate|]); constructor. }
  destruct P as (P1 & P2 & P3).
  intros [[-> Q]|[[-> Q]|(H1 & H2 & Q)]].
  - split; [exact P1|]. change (JConst E (lit "Infinity") (VFloat 0x7FF0000000000000)). rewrite <- Q. constructor.
  - split; [exact P2|]. change (JConst E (lit "-Infinity") (VFloat 0xFFF0000000000000)). rewrite <- Q. constructor.
  - assert (T : float_text repr b = lit "NaN").
    { unfold float_text, float_is_nan. rewrite H1. change 4503599627370495 with (2 ^ 52 - 1).
      destruct (N.eqb_spec (N.land b (2 ^ 52 - 1)) 0) as [Z|_]; [contradiction|reflexivity]. }
    rewrite T. split; [exact P3|]. rewrite <- Q. exact (jconst_nan E).
Qed.

(** ** Lists and dictionaries *)
Definition dump_items (n : nat) := fix items (l : list pyval) : wres (list pystr) :=
  match l with
  | [] => WOk []
  | x :: t => wbind (dump E repr n x) (fun a => wbind (items t) (fun r => WOk (a :: r)))
  end.
Definition dump_members (n : nat) := fix members (m : pydict) : wres (list pystr) :=
  match m with
  | [] => WOk []
  | (k, x) :: t =>
      wbind (key_text E repr k) (fun name =>
      wbind (dump E repr n x) (fun a =>
      wbind (members t) (fun r => WOk ((quoted name ++ [58; 32] ++ a) :: r))))
  end.
Lemma items_cons n x t : dump_items n (x :: t) =
  wbind (dump E repr n x) (fun a => wbind (dump_items n t) (fun r => WOk (a :: r))).
Proof. reflexivity. Qed.
Lemma members_cons n k x t : dump_members n ((k, x) :: t) =
  wbind (key_text E repr k) (fun name => wbind (dump E repr n x) (fun a =>
  wbind (dump_members n t) (fun r => WOk ((quoted name ++ [58; 32] ++ a) :: r)))).
Proof. reflexivity. Qed.
Lemma dump_list n l : dump E repr (S n) (VList l) =
  wbind (dump_items n l) (fun r => WOk (91 :: join [44; 32] r ++ [93])).
Proof. reflexivity. Qed.
Lemma dump_tuple n l : dump E repr (S n) (VTuple l) =
  wbind (dump_items n l) (fun r => WOk (91 :: join [44; 32] r ++ [93])).
Proof. reflexivity. Qed.
Lemma dump_dict n m : dump E repr (S n) (VDict m) =
  wbind (dump_members n m) (fun r => WOk (123 :: join [44; 32] r ++ [125])).
Proof. reflexivity. Qed.

Lemma join_cons sep x y l : join sep (x :: y :: l) = x ++ sep ++ join sep (y :: l).
Proof. reflexivity. Qed.
Lemma join_printable l : Forall (Forall printable) l -> Forall printable (join [44; 32] l).
Proof.
  induction 1 as [|x l Hx Hl IH]; [constructor|]. destruct l as [|y l]; [exact Hx|].
  rewrite join_cons. apply Forall_app. split; [exact Hx|]. apply Forall_app. split; [|exact IH].
  repeat (constructor; [unfold printable; lia|]). constructor.
Qed.

Lemma items_text n rs l : Forall2 (JValue E n) rs l -> l <> [] -> JItems E n (join [44; 32] rs) l.
Proof.
  induction 1 as [|t v rs l Hv HF IH]; [congruence|]. intros _.
  inversion HF as [|t' v' rs' l' Hv' HF']; subst.
  - cbn [join]. rewrite <- (app_nil_r t). apply jitems_one; [exact Hv|constructor].
  - rewrite join_cons. apply (jitems_more E n t v [] [32]); [exact Hv|constructor|repeat constructor|].
    apply IH. discriminate.
Qed.
Inductive member_text n : pystr -> pystr * pyval -> Prop :=
| mt name a x : JString (escaped name) name -> JValue E n a x ->
    member_text n (quoted name ++ [58; 32] ++ a) (name, x).
Lemma members_text n rs ps : Forall2 (member_text n) rs ps -> ps <> [] -> JMembers E n (join [44; 32] rs) ps.
Proof.
  induction 1 as [|t p rs l Hp HF IH]; [congruence|]. intros _. destruct Hp as [name a x HN HX].
  assert (Q : forall r, (quoted name ++ [58; 32] ++ a) ++ r =
              34 :: escaped name ++ 34 :: [] ++ 58 :: [32] ++ a ++ r).
  { intro r. unfold quoted. cbn [app]. f_equal. rewrite <- !app_assoc. reflexivity. }
  inversion HF as [|t' v' rs' l' Hv' HF']; subst.
  - cbn [join]. rewrite <- (app_nil_r (_ ++ _)), Q.
    apply jmembers_one; [exact HN|constructor|repeat constructor|exact HX|constructor].
  - rewrite join_cons, Q.
    apply (jmembers_more E n _ _ [] [32] a x [] [32]); [exact HN|constructor|repeat constructor|exact HX|constructor|repeat constructor|].
    apply IH. discriminate.
Qed.

Lemma set_fresh k v acc : (forall w, ~ In (VStr k, w) acc) -> (forall k' w, In (k', w) acc -> exists s, k' = VStr s) ->
  dict_set (VStr k) v acc = acc ++ [(VStr k, v)].
Proof.
  induction acc as [|[a b] acc IH]; intros F S; [reflexivity|]. cbn [dict_set].
  destruct (S a b) as [s ->]; [now left|]. cbn [py_eq as_int].
  destruct (str_eqb s k) eqn:Q.
  - apply str_eqb_spec in Q. subst s. exfalso. apply (F b). now left.
  - cbn [app]. f_equal. apply IH; [intros w I; apply (F w); now right|]. intros k' w I. apply (S k' w). now right.
Qed.
Lemma dict_of_same ps : NoDup (map fst ps) -> dict_of ps = map (fun p => (VStr (fst p), snd p)) ps.
Proof.
  unfold dict_of.
  enough (G : forall ps acc, NoDup (map fst acc ++ map fst ps) ->
    fold_left (fun d p => dict_set (VStr (fst p)) (snd p) d) ps (map (fun p => (VStr (fst p), snd p)) acc)
    = map (fun p => (VStr (fst p), snd p)) (acc ++ ps)) by exact (G ps []).
  clear ps. induction ps as [|[k v] ps IH]; intros acc ND; [now rewrite app_nil_r|].
  cbn [fold_left fst snd]. rewrite set_fresh.
  - replace (map (fun p => (VStr (fst p), snd p)) acc ++ [(VStr k, v)])
      with (map (fun p : pystr * pyval => (VStr (fst p), snd p)) (acc ++ [(k, v)])) by apply map_app.
    rewrite IH; [now rewrite <- app_assoc|]. rewrite map_app, <- app_assoc. exact ND.
  - intros w I. apply in_map_iff in I as ([k' w'] & Q & I). injection Q as -> ->. cbn [map fst] in ND.
    apply NoDup_remove_2 in ND. apply ND. apply in_or_app. left. now apply (in_map fst) in I.
  - intros k' w I. apply in_map_iff in I as ([k'' w'] & Q & I). injection Q as <- <-. eauto.
Qed.

Lemma carried_mono n v : Carried E repr n v -> forall m, (n <= m)%nat -> Carried E repr m v.
Proof.
  revert v. induction n as [|n IH]; intros v C m L; inversion C; subst;
    try solve [constructor; assumption]; destruct m as [|m]; try lia.
  - constructor. eapply Forall_impl; [|eassumption]. intros x Hx. apply IH; [exact Hx|lia].
  - constructor; [assumption|assumption|]. eapply Forall_impl; [|eassumption]. intros x Hx. apply IH; [exact Hx|lia].
Qed.

Lemma quoted_printable s : Forall printable (quoted s).
Proof.
  unfold quoted. constructor; [unfold printable; lia|]. apply Forall_app. split; [apply escaped_printable|].
  repeat constructor; unfold printable; lia.
Qed.
Lemma lit_printable_true : Forall printable (lit "true") /\ Forall printable (lit "false") /\ Forall printable (lit "null").
Proof. repeat split; repeat (constructor; [unfold printable; vm_compute; split; discriminate|]); constructor. Qed.

Lemma dump_carried n : forall v, Carried E repr n v ->
  exists t, dump E repr n v = WOk t /\ JValue E n t v /\ Forall printable t.
Proof.
  destruct lit_printable_true as (PT & PF & PN).
  assert (LEAF : forall n v, (forall l, v <> VList l) -> (forall d, v <> VDict d) -> Carried E repr n v ->
    exists t, dump E repr n v = WOk t /\ JValue E n t v /\ Forall printable t).
  { clear n. intros n v NL ND C. inversion C; subst; try congruence.
    - exists (lit "null"). destruct n; (split; [reflexivity|split; [apply jval_const; constructor|exact PN]]).
    - exists (const_text b). unfold const_text.
      destruct b; destruct n; (split; [reflexivity|split; [apply jval_const; constructor|assumption]]).
    - destruct (int_text_ok z) as (t & T & J & P); [assumption|]. exists t.
      destruct n; (split; [exact T|split; [now apply jval_number|exact P]]).
    - destruct H as [(F & P & J)|NM].
      + exists (repr b).
        destruct n; (split; [cbn [dump]; now rewrite finite_text|split; [now apply jval_number|exact P]]).
      + destruct (named_text b NM) as [P J]. exists (float_text repr b).
        destruct n; (split; [reflexivity|split; [now apply jval_const|exact P]]).
    - exists (quoted s). destruct n; (split; [reflexivity|split; [apply jval_string; now apply escaped_ok|apply quoted_printable]]). }
  induction n as [|n IH]; intros v C.
  { apply LEAF; [| |exact C]; intros ? ->; inversion C. }
  inversion C as [| | | | |? l HL|? d HK HN HD]; subst; try solve [apply LEAF; [discriminate|discriminate|exact C]]; clear LEAF.
  - rewrite dump_list.
    assert (G : exists rs, dump_items n l = WOk rs /\ Forall2 (JValue E n) rs l /\ Forall (Forall printable) rs).
    { clear C. induction HL as [|x l Hx HL IHL]; [exists []; repeat constructor|].
      destruct IHL as (rs & R1 & R2 & R3). destruct (IH x Hx) as (t & T1 & T2 & T3).
      exists (t :: rs). rewrite items_cons, T1. cbn [wbind]. rewrite R1.
      split; [reflexivity|]. split; constructor; assumption. }
    destruct G as (rs & -> & R2 & R3). cbn [wbind]. eexists. split; [reflexivity|]. split.
    + destruct l as [|x l].
      * inversion R2; subst. apply (jval_empty_array E n []). constructor.
      * apply (jval_array E n []); [constructor|]. apply items_text; [exact R2|discriminate].
    + constructor; [unfold printable; lia|]. apply Forall_app. split; [now apply join_printable|].
      repeat constructor; unfold printable; lia.
  - rewrite dump_dict.
    assert (G : exists rs ps, dump_members n d = WOk rs /\ Forall2 (member_text n) rs ps /\
              d = map (fun p => (VStr (fst p), snd p)) ps /\ Forall (Forall printable) rs).
    { clear C. induction HD as [|[k x] d Hx HD IHD]; [exists [], []; repeat constructor|].
      destruct IHD as (rs & ps & R1 & R2 & R3 & R4).
      - intros k' w I. apply (HK k' w). now right.
      - now inversion HN.
      - destruct (HK k x (or_introl eq_refl)) as (s & -> & S1 & S2).
        destruct (IH x Hx) as (t & T1 & T2 & T3).
        exists ((quoted s ++ [58; 32] ++ t) :: rs), ((s, x) :: ps).
        rewrite members_cons. cbn [key_text wbind]. rewrite T1. cbn [wbind]. rewrite R1. cbn [wbind].
        split; [reflexivity|]. split; [constructor; [|exact R2]; constructor; [now apply escaped_ok|exact T2]|].
        split; [cbn [map fst snd]; now rewrite <- R3|]. constructor; [|exact R4].
        apply Forall_app. split; [apply quoted_printable|]. 
        do 2 (constructor; [unfold printable; lia|]). exact T3. }
    destruct G as (rs & ps & -> & R2 & R3 & R4). cbn [wbind]. eexists. split; [reflexivity|]. split.
    + assert (ND : NoDup (map fst ps)).
      { rewrite R3, map_map in HN. cbn [fst] in HN. rewrite <- (map_map fst VStr) in HN.
        now apply NoDup_map_inv in HN. }
      rewrite R3, <- dict_of_same by exact ND. destruct ps as [|p ps].
      * inversion R2; subst. apply (jval_empty_object E n []). constructor.
      * apply (jval_object E n []); [constructor|]. apply members_text; [exact R2|discriminate].
    + constructor; [unfold printable; lia|]. apply Forall_app. split; [now apply join_printable|].
      repeat constructor; unfold printable; lia.
Qed.

(** ** Failures *)
Lemma key_text_raise k e : key_text E repr k = WRaise e ->
  (e = ETypeError /\ (forall s, k <> VStr s) /\ (forall b, k <> VFloat b) /\ (forall b, k <> VBool b) /\
     (forall z, k <> VInt z) /\ k <> VNone) \/
  (e = EValueError /\ exists z, k = VInt z /\ ~ Short E z).
Proof.
  destruct k; cbn [key_text]; try discriminate;
    try (intro H; injection H as <-; left; repeat split; discriminate).
  intro H. apply int_text_raise in H as [-> H]. right. eauto.
Qed.

Lemma defect_item n l x e : In x l -> DumpDefect E n x e ->
  DumpDefect E (S n) (VList l) e /\ DumpDefect E (S n) (VTuple l) e.
Proof.
  intros I D. assert (BL : forall k u, Below k x u -> Below (S k) (VList l) u) by (intros; econstructor; eassumption).
  assert (BT : forall k u, Below k x u -> Below (S k) (VTuple l) u) by (intros; econstructor; eassumption).
  destruct D; split.
  all: try solve [eapply dd_bytes; eauto | eapply dd_frozen; eauto | eapply dd_other; eauto | eapply dd_key; eauto | eapply dd_long; eauto
                 | eapply dd_long_key; eauto | eapply dd_deep; eauto].
Qed.
Lemma defect_value n d k x e : In (k, x) d -> DumpDefect E n x e -> DumpDefect E (S n) (VDict d) e.
Proof.
  intros I D. assert (B : forall j u, Below j x u -> Below (S j) (VDict d) u) by (intros; econstructor; eassumption).
  destruct D.
  all: try solve [eapply dd_bytes; eauto | eapply dd_frozen; eauto | eapply dd_other; eauto | eapply dd_key; eauto | eapply dd_long; eauto
                 | eapply dd_long_key; eauto | eapply dd_deep; eauto].
Qed.

Lemma dump_raise n : forall v e, dump E repr n v = WRaise e -> DumpDefect E n v e.
Proof.
  assert (LEAF : forall n v e, (forall l, v <> VList l) -> (forall l, v <> VTuple l) -> (forall d, v <> VDict d) ->
    dump E repr n v = WRaise e -> DumpDefect E n v e).
  { clear n. intros n v e N1 N2 N3 H. destruct v; destruct n; try congruence; cbn [dump] in H; try discriminate H.
    all: try (apply int_text_raise in H as [-> H]; eapply dd_long; [constructor|exact H]).
    all: injection H as <-; first [eapply dd_bytes; constructor | eapply dd_frozen; constructor | eapply dd_other; constructor]. }
  induction n as [|n IH]; intros v e H.
  { destruct v; try solve [apply LEAF; [discriminate|discriminate|discriminate|exact H]];
      cbn [dump] in H; injection H as <-; (eapply dd_deep; [constructor|eauto]). }
  destruct v as [| | | | | |l|l|d| |]; try solve [apply LEAF; [discriminate|discriminate|discriminate|exact H]]; clear LEAF.
  1,2: first [rewrite dump_list in H | rewrite dump_tuple in H];
    apply wbind_raise in H as [H|(r & _ & H)]; [|discriminate];
    (assert (G : exists x, In x l /\ DumpDefect E n x e);
     [|destruct G as (x & I & D); now apply (defect_item n l x e I D)]);
    (induction l as [|x l IHl]; [discriminate|]); rewrite items_cons in H;
    (apply wbind_raise in H as [H|(a & _ & H)]; [exists x; split; [now left|now apply IH]|]);
    (apply wbind_raise in H as [H|(r & _ & H)]; [|discriminate]);
    destruct (IHl H) as (y & I & D); exists y; split; [now right|exact D].
  rewrite dump_dict in H. apply wbind_raise in H as [H|(r & _ & H)]; [|discriminate].
  assert (G : (exists k x, In (k, x) d /\ DumpDefect E n x e) \/
              (exists k x, In (k, x) d /\ key_text E repr k = WRaise e)).
  { induction d as [|[k x] d IHd]; [discriminate|]. rewrite members_cons in H.
    apply wbind_raise in H as [H|(name & _ & H)]; [right; exists k, x; split; [now left|exact H]|].
    apply wbind_raise in H as [H|(a & _ & H)]; [left; exists k, x; split; [now left|now apply IH]|].
    apply wbind_raise in H as [H|(r & _ & H)]; [|discriminate].
    destruct (IHd H) as [(k' & x' & I & D)|(k' & x' & I & D)]; [left|right]; exists k', x'; (split; [now right|exact D]). }
  destruct G as [(k & x & I & D)|(k & x & I & D)]; [exact (defect_value n d k x e I D)|].
  apply key_text_raise in D as [(-> & K1 & K2 & K3 & K4 & K5)|(-> & z & -> & NS)].
  - eapply dd_key; [constructor|exact I|assumption..].
  - eapply dd_long_key; [constructor|exact I|exact NS].
Qed.

Lemma dump_items_ok n l rs x : dump_items n l = WOk rs -> In x l -> exists t, dump E repr n x = WOk t.
Proof.
  revert rs. induction l as [|y l IH]; intros rs H I; [destruct I|]. rewrite items_cons in H.
  apply wbind_ok in H as (a & A & H). apply wbind_ok in H as (r & R & _). destruct I as [->|I]; eauto.
Qed.
Lemma dump_members_ok n d rs k x : dump_members n d = WOk rs -> In (k, x) d ->
  (exists t, dump E repr n x = WOk t) /\ exists t, key_text E repr k = WOk t.
Proof.
  revert rs. induction d as [|[k' y] d IH]; intros rs H I; [destruct I|]. rewrite members_cons in H.
  apply wbind_ok in H as (name & N1 & H). apply wbind_ok in H as (a & A & H). apply wbind_ok in H as (r & R & _).
  destruct I as [Q|I]; [injection Q as -> ->; eauto|eauto].
Qed.
Lemma dump_below k v u : Below k v u -> forall n t, dump E repr n v = WOk t ->
  (k <= n)%nat /\ exists t', dump E repr (n - k) u = WOk t'.
Proof.
  induction 1 as [v|k l x u I B IH|k l x u I B IH|k d key x u I B IH]; intros n t D.
  - split; [lia|]. rewrite Nat.sub_0_r. eauto.
  - destruct n as [|n]; [discriminate|]. rewrite dump_list in D. apply wbind_ok in D as (rs & D & _).
    destruct (dump_items_ok _ _ _ _ D I) as (t' & D'). destruct (IH _ _ D') as (L & R). split; [lia|exact R].
  - destruct n as [|n]; [discriminate|]. rewrite dump_tuple in D. apply wbind_ok in D as (rs & D & _).
    destruct (dump_items_ok _ _ _ _ D I) as (t' & D'). destruct (IH _ _ D') as (L & R). split; [lia|exact R].
  - destruct n as [|n]; [discriminate|]. rewrite dump_dict in D. apply wbind_ok in D as (rs & D & _).
    destruct (dump_members_ok _ _ _ _ _ D I) as ((t' & D') & _). destruct (IH _ _ D') as (L & R). split; [lia|exact R].
Qed.
Lemma dump_no_defect n v t e : dump E repr n v = WOk t -> ~ DumpDefect E n v e.
Proof.
  intros D X. destruct X as [k b B|k m B|k i j B|k d key x B I K1 K2 K3 K4 K5|k z B NS|k d z x B I NS|u B C];
    destruct (dump_below _ _ _ B _ _ D) as (L & t' & Q).
  - destruct (n - k)%nat; discriminate.
  - destruct (n - k)%nat; discriminate.
  - destruct (n - k)%nat; discriminate.
  - destruct (n - k)%nat; [discriminate|]. rewrite dump_dict in Q. apply wbind_ok in Q as (rs & Q & _).
    destruct (dump_members_ok _ _ _ _ _ Q I) as (_ & t'' & T). destruct key; try discriminate; congruence.
  - apply NS. destruct (n - k)%nat; exact (int_text_short _ _ Q).
  - destruct (n - k)%nat; [discriminate|]. rewrite dump_dict in Q. apply wbind_ok in Q as (rs & Q & _).
    destruct (dump_members_ok _ _ _ _ _ Q I) as (_ & t'' & T). exact (NS (int_text_short _ _ T)).
  - rewrite Nat.sub_diag in Q. destruct C as [(l & [->| ->])|(d & ->)]; discriminate.
Qed.
End Env.
