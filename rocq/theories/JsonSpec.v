(** * JsonSpec: JSON texts and the values they denote (RFC 8259, plus the constants NaN,
    Infinity and -Infinity that Python reads). *)
From Coq Require Import List NArith ZArith Bool String.
From Verif Require Import Base PyVal Json.
Import ListNotations.
Local Open Scope N_scope.
Local Open Scope list_scope.

(** ** White space *)
Definition WS (s : pystr) : Prop := Forall (fun c => c = 32 \/ c = 9 \/ c = 10 \/ c = 13) s.

(** ** Strings *)
Definition HexDigit (c n : N) : Prop :=
  (48 <= c <= 57 /\ n = c - 48) \/ (65 <= c <= 70 /\ n = c - 65 + 10) \/
  (97 <= c <= 102 /\ n = c - 97 + 10).
Definition Hex4 (a b c d u : N) : Prop :=
  exists w x y z, HexDigit a w /\ HexDigit b x /\ HexDigit c y /\ HexDigit d z /\
    u = 4096 * w + 256 * x + 16 * y + z.
(** UTF-16 surrogates. *)
Definition High (u : N) : Prop := 0xD800 <= u <= 0xDBFF.
Definition Low (u : N) : Prop := 0xDC00 <= u <= 0xDFFF.
Inductive Escape : N -> N -> Prop :=
| esc_quote : Escape 34 34 | esc_backslash : Escape 92 92 | esc_slash : Escape 47 47
| esc_b : Escape 98 8 | esc_f : Escape 102 12 | esc_n : Escape 110 10
| esc_r : Escape 114 13 | esc_t : Escape 116 9.

(** [JString t v]: [t], between quotes, denotes [v]. *)
Inductive JString : pystr -> pystr -> Prop :=
| jstr_end : JString [] []
| jstr_plain c t v : 32 <= c -> c <> 34 -> c <> 92 -> JString t v -> JString (c :: t) (c :: v)
| jstr_escape e x t v : Escape e x -> JString t v -> JString (92 :: e :: t) (x :: v)
| jstr_unicode a b c d u t v : Hex4 a b c d u -> ~ High u -> JString t v ->
    JString (92 :: 117 :: a :: b :: c :: d :: t) (u :: v)
| jstr_pair a b c d u a' b' c' d' u' t v :
    Hex4 a b c d u -> High u -> Hex4 a' b' c' d' u' -> Low u' -> JString t v ->
    JString (92 :: 117 :: a :: b :: c :: d :: 92 :: 117 :: a' :: b' :: c' :: d' :: t)
            (65536 + 1024 * (u - 0xD800) + (u' - 0xDC00) :: v)
| jstr_lone a b c d u t v : Hex4 a b c d u -> High u ->
    (forall a' b' c' d' u' t', t = 92 :: 117 :: a' :: b' :: c' :: d' :: t' ->
       Hex4 a' b' c' d' u' -> ~ Low u') ->
    JString t v -> JString (92 :: 117 :: a :: b :: c :: d :: t) (u :: v).

(** ** Numbers *)
Definition Digit (c : N) : Prop := 48 <= c <= 57.
Inductive Decimal : pystr -> N -> Prop :=
| dec_nil : Decimal [] 0
| dec_snoc s n c : Decimal s n -> Digit c -> Decimal (s ++ [c]) (10 * n + (c - 48)).
Definition IntPart (s : pystr) : Prop :=
  s = [48] \/ exists c t, s = c :: t /\ 49 <= c <= 57 /\ Forall Digit t.
Definition Fraction (s : pystr) : Prop := exists t, s = 46 :: t /\ t <> [] /\ Forall Digit t.
Definition Exponent (s : pystr) : Prop :=
  exists e g t, s = e :: g ++ t /\ (e = 101 \/ e = 69) /\ (g = [] \/ g = [43] \/ g = [45]) /\
    t <> [] /\ Forall Digit t.

Section Env.
Variable E : jsonenv.

Inductive JNumber : pystr -> pyval -> Prop :=
| jnum_pos ip n : IntPart ip -> Decimal ip n ->
    (forall m, je_max_digits E = Some m -> N.of_nat (List.length ip) <= m) ->
    JNumber ip (VInt (Z.of_N n))
| jnum_neg ip n : IntPart ip -> Decimal ip n ->
    (forall m, je_max_digits E = Some m -> N.of_nat (List.length ip) <= m) ->
    JNumber (45 :: ip) (VInt (- Z.of_N n))
| jnum_float g ip fp ep : (g = [] \/ g = [45]) -> IntPart ip ->
    (fp = [] \/ Fraction fp) -> (ep = [] \/ Exponent ep) -> (fp <> [] \/ ep <> []) ->
    JNumber (g ++ ip ++ fp ++ ep) (VFloat (je_float E (g ++ ip ++ fp ++ ep))).

Inductive JConst : pystr -> pyval -> Prop :=
| jconst_null : JConst (lit "null") VNone
| jconst_true : JConst (lit "true") (VBool true)
| jconst_false : JConst (lit "false") (VBool false)
| jconst_nan : JConst (lit "NaN") (VFloat (je_float E (lit "nan")))
| jconst_inf : JConst (lit "Infinity") (VFloat (je_float E (lit "inf")))
| jconst_neg_inf : JConst (lit "-Infinity") (VFloat (je_float E (lit "-inf"))).

(** ** Values.  The number is the nesting allowed. *)

(** The dictionary of a list of members: later ones replace earlier ones of the same name. *)
Definition dict_of (ps : list (pystr * pyval)) : pydict :=
  fold_left (fun d p => dict_set (VStr (fst p)) (snd p) d) ps [].

Inductive JValue : nat -> pystr -> pyval -> Prop :=
| jval_const n t v : JConst t v -> JValue n t v
| jval_number n t v : JNumber t v -> JValue n t v
| jval_string n t v : JString t v -> JValue n (34 :: t ++ [34]) (VStr v)
| jval_empty_array n w : WS w -> JValue (S n) (91 :: w ++ [93]) (VList [])
| jval_array n w t l : WS w -> JItems n t l -> JValue (S n) (91 :: w ++ t ++ [93]) (VList l)
| jval_empty_object n w : WS w -> JValue (S n) (123 :: w ++ [125]) (VDict [])
| jval_object n w t ps : WS w -> JMembers n t ps ->
    JValue (S n) (123 :: w ++ t ++ [125]) (VDict (dict_of ps))
with JItems : nat -> pystr -> list pyval -> Prop :=
| jitems_one n t v w : JValue n t v -> WS w -> JItems n (t ++ w) [v]
| jitems_more n t v w w' t' l : JValue n t v -> WS w -> WS w' -> JItems n t' l ->
    JItems n (t ++ w ++ 44 :: w' ++ t') (v :: l)
with JMembers : nat -> pystr -> list (pystr * pyval) -> Prop :=
| jmembers_one n k name w1 w2 t v w3 : JString k name -> WS w1 -> WS w2 -> JValue n t v -> WS w3 ->
    JMembers n (34 :: k ++ 34 :: w1 ++ 58 :: w2 ++ t ++ w3) [(name, v)]
| jmembers_more n k name w1 w2 t v w3 w4 t' l : JString k name -> WS w1 -> WS w2 ->
    JValue n t v -> WS w3 -> WS w4 -> JMembers n t' l ->
    JMembers n (34 :: k ++ 34 :: w1 ++ 58 :: w2 ++ t ++ w3 ++ 44 :: w4 ++ t') ((name, v) :: l).

(** A JSON text: a value with white space around it (and no byte order mark). *)
Definition JText (s : pystr) (v : pyval) : Prop :=
  exists w t w', s = w ++ t ++ w' /\ WS w /\ WS w' /\ JValue (je_depth E) t v.
End Env.
