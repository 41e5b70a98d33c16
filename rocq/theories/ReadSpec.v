(** * ReadSpec: how padded base64, forms and keys of decoded maps are read.

    Written after RFC 4648 and the behaviour of binascii.a2b_base64, the forgiving-base64 decode
    of the Infra Standard, the form format of the URL Standard, and Python's [==] on numbers. *)
From Coq Require Import List NArith ZArith Bool String.
From Coq Require Import Strings.Byte.
From Verif Require Import Base PyVal Utf8 CodecSpec CborSpec.
Import ListNotations.
Local Open Scope list_scope.

(** ** base64 with '=' *)

(** Values of the symbols of a text, anything else ignored. *)
Fixpoint read (val : N -> option N) (s : pystr) : list N :=
  match s with
  | [] => []
  | c :: t => match val c with Some v => v :: read val t | None => read val t end
  end.
Definition std_value (c : N) : option N := index_of c std_alphabet.

(** A '=' after [a] ends the text: three symbols of a group of four came before it, or two and
    another '=' with no symbol in between. *)
Definition Closed (val : N -> option N) (a : pystr) : Prop :=
  List.length (read val a) mod 4 = 3 \/
  (List.length (read val a) mod 4 = 2 /\
   exists a1 a2, a = a1 ++ 61%N :: a2 /\ read val a2 = []).
Definition NeverClosed (val : N -> option N) (s : pystr) : Prop :=
  forall a b, s = a ++ 61%N :: b -> ~ Closed val a.
(** [a] is what counts in [a ++ "=" ++ anything]. *)
Definition FirstClosed (val : N -> option N) (a : pystr) : Prop :=
  Closed val a /\ NeverClosed val a.
(** The octets of the values, incomplete ones dropped. *)
Definition data_of (vs : list N) : bytes := octets (List.concat (map sextet_bits vs)).

(** ** Forgiving base64 *)

Definition ascii_space : list N := [9; 10; 12; 13; 32]%N.
(** [t] is [s] without white space. *)
Inductive Spaceless : pystr -> pystr -> Prop :=
| sp_nil : Spaceless [] []
| sp_skip c s t : In c ascii_space -> Spaceless s t -> Spaceless (c :: s) t
| sp_keep c s t : ~ In c ascii_space -> Spaceless s t -> Spaceless (c :: s) (c :: t).
(** One or two '=' at the end of whole groups of four are dropped. *)
Inductive Unpadded : pystr -> pystr -> Prop :=
| up_two u : (List.length u + 2) mod 4 = 0 -> Unpadded (u ++ [61; 61]%N) u
| up_one u : (List.length u + 1) mod 4 = 0 -> (forall u', u <> u' ++ [61%N]) -> Unpadded (u ++ [61%N]) u
| up_none u : (forall u', List.length u mod 4 = 0 -> u <> u' ++ [61%N]) -> Unpadded u u.
Definition Forgiving (s : pystr) (b : bytes) : Prop :=
  exists t u vs, Spaceless s t /\ Unpadded t u /\
    Forall (fun v => v < 64)%N vs /\ u = symbols std_alphabet vs /\
    List.length vs mod 4 <> 1 /\ b = data_of vs.

(** ** Form bodies *)

(** A hexadecimal digit, in either case. *)
Definition HexDigit (c v : N) : Prop :=
  index_of c (lit "0123456789ABCDEF") = Some v \/ index_of c (lit "0123456789abcdef") = Some v.
Definition TwoDigits (s : list N) : Prop :=
  exists a b t x y, s = a :: b :: t /\ HexDigit a x /\ HexDigit b y.
(** '+' is a space, '%' and two digits an octet, all else itself. *)
Inductive Unquoted : list N -> bytes -> Prop :=
| uq_nil : Unquoted [] []
| uq_plus s b : Unquoted s b -> Unquoted (43%N :: s) (x20 :: b)
| uq_hex a c x y s b : HexDigit a x -> HexDigit c y -> Unquoted s b ->
    Unquoted (37%N :: a :: c :: s) (byte_of_N (16 * x + y) :: b)
| uq_percent s b : ~ TwoDigits s -> Unquoted s b -> Unquoted (37%N :: s) (byte_of_N 37 :: b)
| uq_other c s b : c <> 43%N -> c <> 37%N -> Unquoted s b -> Unquoted (c :: s) (byte_of_N c :: b).

(** Pieces between '&'. *)
Inductive Pieces : list N -> list (list N) -> Prop :=
| pc_last w : ~ In 38%N w -> Pieces w [w]
| pc_more w s ws : ~ In 38%N w -> Pieces s ws -> Pieces (w ++ 38%N :: s) (w :: ws).
(** A piece is a name and a value, at the first '='; without one the value is empty. *)
Inductive NameValue : list N -> list N -> list N -> Prop :=
| nv_pair k v : ~ In 61%N k -> NameValue (k ++ 61%N :: v) k v
| nv_name k : ~ In 61%N k -> NameValue k k [].
(** The text of octets: UTF-8, or what Python puts in its place. *)
Definition TextOf (replaced : bytes -> pystr) (s : list N) (t : pystr) : Prop :=
  exists b, Unquoted s b /\
    (utf8_encode t = Ok b \/ (forall t', utf8_encode t' <> Ok b) /\ t = replaced b).
Definition FormReads (replaced : bytes -> pystr) (s : list N) (ps : list (pystr * pystr)) : Prop :=
  exists ws, Pieces s ws /\
    Forall2 (fun w p => exists k v, NameValue w k v /\
               TextOf replaced k (fst p) /\ TextOf replaced v (snd p))
            (filter (fun w => negb (List.length w =? 0)) ws) ps.

(** ** Keys of decoded maps *)

(** The numbers, in units of 2^-1074 (the smallest binary64): truth values are 0 and 1. *)
Inductive Number : pyval -> Z -> Prop :=
| nm_bool b : Number (VBool b) (Z.b2z b * 2 ^ 1074)
| nm_int z : Number (VInt z) (z * 2 ^ 1074)
| nm_float bits s e m : Fields 11 52 bits s e m -> e <> 2047%N ->
    Number (VFloat bits) ((if (s =? 0)%N then 1 else -1) * Z.of_N (magnitude 11 52 e m))%Z.

(** Python's [==] on values that can be keys: numbers by value, the infinities as themselves,
    NaN nowhere, texts, byte strings and tuples by content. *)
Inductive KeyEq : pyval -> pyval -> Prop :=
| ke_none : KeyEq VNone VNone
| ke_number a b z : Number a z -> Number b z -> KeyEq a b
| ke_infinity bits s : Fields 11 52 bits s 2047 0 -> KeyEq (VFloat bits) (VFloat bits)
| ke_str s : KeyEq (VStr s) (VStr s)
| ke_bytes b : KeyEq (VBytes b) (VBytes b)
| ke_tuple l l' : Forall2 KeyEq l l' -> KeyEq (VTuple l) (VTuple l')
| ke_frozen m m' :
    (forall k v, In (k, v) m -> exists k' v', In (k', v') m' /\ KeyEq k k' /\ KeyEq v v') ->
    (forall k' v', In (k', v') m' -> exists k v, In (k, v) m /\ KeyEq k k' /\ KeyEq v v') ->
    KeyEq (VFrozen m) (VFrozen m')
| ke_other t n : KeyEq (VOther t n) (VOther t n).

(** What the decoders use as keys. *)
Inductive Hashable : pyval -> Prop :=
| hs_none : Hashable VNone
| hs_bool b : Hashable (VBool b)
| hs_int z : Hashable (VInt z)
| hs_float bits : (bits < 2 ^ 64)%N -> Hashable (VFloat bits)
| hs_str s : Hashable (VStr s)
| hs_bytes b : Hashable (VBytes b)
| hs_tuple l : Forall Hashable l -> Hashable (VTuple l)
| hs_frozen m : (forall k v, In (k, v) m -> Hashable k /\ Hashable v) -> Hashable (VFrozen m)
| hs_other t n : Hashable (VOther t n).

(** What a lookup in a map finds: the value of the last entry whose key is equal. *)
Definition LastEqual (k v : pyval) (ps : list (pyval * pyval)) : Prop :=
  exists before k' after, ps = before ++ (k', v) :: after /\
    KeyEq k' k /\ Forall (fun p => ~ KeyEq (fst p) k) after.
