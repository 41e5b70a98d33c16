(** * WriteSpec: how browsers write forms (URL Standard) and JSON texts (ECMAScript). *)
From Coq Require Import List NArith ZArith Bool String.
From Coq Require Import Strings.Byte.
From Verif Require Import Base Utf8 CodecSpec JsonSpec Page.
Import ListNotations.
Local Open Scope N_scope.
Local Open Scope list_scope.

(** ** application/x-www-form-urlencoded *)
Definition form_plain : pystr :=
  lit "ABCDEFGHIJKLMNOPQRSTUVWXYZabcdefghijklmnopqrstuvwxyz0123456789*-._".
Inductive Octets : bytes -> list N -> Prop :=
| oc_nil : Octets [] []
| oc_space b s : Octets b s -> Octets (x20 :: b) (43 :: s)
| oc_plain x b s : In (N_of_byte x) form_plain -> Octets b s -> Octets (x :: b) (N_of_byte x :: s)
| oc_hex x h l b s : ~ In (N_of_byte x) form_plain -> x <> x20 -> N_of_byte x = 16 * h + l ->
    h < 16 -> l < 16 -> Octets b s ->
    let digits := lit "0123456789ABCDEF" in
    Octets (x :: b) (37 :: nth (N.to_nat h) digits 0 :: nth (N.to_nat l) digits 0 :: s).
Definition FormText (t : pystr) (s : list N) : Prop := exists b, utf8_encode t = Ok b /\ Octets b s.
Inductive FormWritten : list (pystr * pystr) -> list N -> Prop :=
| fw_nil : FormWritten [] []
| fw_one k v s1 s2 : FormText k s1 -> FormText v s2 -> FormWritten [(k, v)] (s1 ++ 61 :: s2)
| fw_more k v p ps s1 s2 s : FormText k s1 -> FormText v s2 -> FormWritten (p :: ps) s ->
    FormWritten ((k, v) :: p :: ps) ((s1 ++ 61 :: s2) ++ 38 :: s).

(** ** QuoteJSONString, on UTF-16 code units *)
Definition short_escapes : list (N * N) :=
  [(8, 98); (9, 116); (10, 110); (12, 102); (13, 114); (34, 34); (92, 92)].
Definition Lead (u : N) : Prop := 0xD800 <= u < 0xDC00.
Definition Trail (u : N) : Prop := 0xDC00 <= u < 0xE000.
(** A backslash, u and four lower-case digits. *)
Definition EscapedUnit (u : N) (s : list N) : Prop :=
  exists a b c d, a < 16 /\ b < 16 /\ c < 16 /\ d < 16 /\ u = 4096 * a + 256 * b + 16 * c + d /\
    s = 92 :: 117 :: map (fun n => nth (N.to_nat n) (lit "0123456789abcdef") 0) [a; b; c; d].
Inductive Quoted : list N -> list N -> Prop :=
| qt_nil : Quoted [] []
| qt_pair u v t s : Lead u -> Trail v -> Quoted t s -> Quoted (u :: v :: t) (u :: v :: s)
| qt_lead u t e s : Lead u -> (forall v t', t = v :: t' -> ~ Trail v) -> EscapedUnit u e -> Quoted t s ->
    Quoted (u :: t) (e ++ s)
| qt_trail u t e s : Trail u -> EscapedUnit u e -> Quoted t s -> Quoted (u :: t) (e ++ s)
| qt_short u c t s : In (u, c) short_escapes -> Quoted t s -> Quoted (u :: t) (92 :: c :: s)
| qt_control u t e s : u < 32 -> ~ In u (map fst short_escapes) -> EscapedUnit u e -> Quoted t s ->
    Quoted (u :: t) (e ++ s)
| qt_plain u t s : 32 <= u -> ~ In u (map fst short_escapes) -> ~ Lead u -> ~ Trail u -> Quoted t s ->
    Quoted (u :: t) (u :: s).

(** ** JSON.stringify.  Members that are undefined are left out, and numbers that are no finite
    ones are null.  [number] writes the other numbers that are no integers. *)
Inductive Commas : list (list N) -> list N -> Prop :=
| cm_none : Commas [] []
| cm_one t : Commas [t] t
| cm_more t u l s : Commas (u :: l) s -> Commas (t :: u :: l) (t ++ 44 :: s).
Section Stringified.
Variable number : jsval -> list N.
Inductive Stringified : jsval -> list N -> Prop :=
| st_undefined : Stringified JsUndefined (lit "null")
| st_null : Stringified JsNull (lit "null")
| st_true : Stringified (JsBool true) (lit "true")
| st_false : Stringified (JsBool false) (lit "false")
| st_natural n s : IntPart s -> Decimal s n -> Stringified (JsInt (Z.of_N n)) s
| st_negative p s : IntPart s -> Decimal s (N.pos p) -> Stringified (JsInt (Z.neg p)) (45 :: s)
| st_double bits : bits / 2 ^ 52 mod 2048 <> 2047 ->
    Stringified (JsDouble bits) (number (JsDouble bits))
| st_infinite bits : bits / 2 ^ 52 mod 2048 = 2047 -> Stringified (JsDouble bits) (lit "null")
| st_string t s : Quoted t s -> Stringified (JsStr t) (34 :: s ++ [34])
| st_array l ts s : Items l ts -> Commas ts s -> Stringified (JsArr l) (91 :: s ++ [93])
| st_object m ts s : Members m ts -> Commas ts s -> Stringified (JsObj m) (123 :: s ++ [125])
| st_buffer b : Stringified (JsBuf b) (lit "{}")
with Items : list jsval -> list (list N) -> Prop :=
| si_nil : Items [] []
| si_cons v t l ts : Stringified v t -> Items l ts -> Items (v :: l) (t :: ts)
with Members : list (jstring * jsval) -> list (list N) -> Prop :=
| sm_nil : Members [] []
| sm_undefined k m ts : Members m ts -> Members ((k, JsUndefined) :: m) ts
| sm_cons k q v t m ts : v <> JsUndefined -> Quoted k q -> Stringified v t -> Members m ts ->
    Members ((k, v) :: m) ((34 :: q ++ [34; 58] ++ t) :: ts).
End Stringified.
Scheme Stringified_mut := Minimality for Stringified Sort Prop
with Items_mut := Minimality for Items Sort Prop
with Members_mut := Minimality for Members Sort Prop.
Combined Scheme Stringified_mutind from Stringified_mut, Items_mut, Members_mut.

(** Texts are sequences of 16-bit units. *)
Inductive Units16 : jsval -> Prop :=
| u16_undefined : Units16 JsUndefined
| u16_null : Units16 JsNull
| u16_bool b : Units16 (JsBool b)
| u16_int z : Units16 (JsInt z)
| u16_double b : Units16 (JsDouble b)
| u16_buf b : Units16 (JsBuf b)
| u16_str s : Forall (fun u => u < 65536) s -> Units16 (JsStr s)
| u16_arr l : Forall Units16 l -> Units16 (JsArr l)
| u16_obj m : Forall (fun p => Forall (fun u => u < 65536) (fst p)) m ->
    Forall (fun p => Units16 (snd p)) m -> Units16 (JsObj m).
