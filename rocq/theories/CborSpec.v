(** * CborSpec: CBOR data items (RFC 8949) and the values they denote. *)
From Coq Require Import List NArith ZArith Bool.
From Coq Require Import Strings.Byte.
From Verif Require Import Base PyVal Utf8.
Import ListNotations.
Local Open Scope N_scope.
Local Open Scope list_scope.

(** RFC 8949 3: the initial byte of major type [mt], and the argument in any of its forms. *)
Definition Head (mt n : N) (bs : bytes) : Prop :=
  (n < 24 /\ bs = [byte_of_N (32 * mt + n)])
  \/ exists info body,
       In (info, List.length body) [(24, 1%nat); (25, 2%nat); (26, 4%nat); (27, 8%nat)] /\
       be_to_N body = n /\ bs = byte_of_N (32 * mt + info) :: body.

(** ** Floats *)

(** The IEEE 754 fields of the [v]: sign, exponent, fraction. *)
Definition Fields (ebits mbits v s e m : N) : Prop :=
  s < 2 /\ e < 2 ^ ebits /\ m < 2 ^ mbits /\ v = (s * 2 ^ ebits + e) * 2 ^ mbits + m.

(** The magnitude of a finite number, in units of 2^-1074 (the least binary64). *)
Definition magnitude (ebits mbits e m : N) : N :=
  let bias := 2 ^ (ebits - 1) - 1 in
  if e =? 0 then m * 2 ^ (1075 - bias - mbits)
  else (2 ^ mbits + m) * 2 ^ (1074 + e - bias - mbits).

(** [v], in the smaller format, and the binary64 [w] are the same number: both finite with
    the same sign and magnitude; or both infinite; or both NaN with the same leading bits. *)
Definition SameFloat (ebits mbits v w : N) : Prop :=
  exists s e m e' m',
    Fields ebits mbits v s e m /\ Fields 11 52 w s e' m' /\
    (e = 2 ^ ebits - 1 <-> e' = 2047) /\
    (e = 2 ^ ebits - 1 -> m' = m * 2 ^ (52 - mbits)) /\
    (e <> 2 ^ ebits - 1 -> magnitude ebits mbits e m = magnitude 11 52 e' m').

(** ** Items *)

(** Major type 7; 31 is the "break" stop code, which cbor2 also reads where an item is
    expected, and simple values may use either form. *)
Inductive Special : pyval -> bytes -> Prop :=
| sp_false : Special (VBool false) [xf4]
| sp_true : Special (VBool true) [xf5]
| sp_null : Special VNone [xf6]
| sp_undefined : Special (VOther 23 0) [xf7]
| sp_simple n : n < 20 -> Special (VOther 24 n) [byte_of_N (224 + n)]
| sp_simple_byte x : Special (VOther 24 (N_of_byte x)) [xf8; x]
| sp_half body w : List.length body = 2%nat -> SameFloat 5 10 (be_to_N body) w ->
    Special (VFloat w) (xf9 :: body)
| sp_single body w : List.length body = 4%nat -> SameFloat 8 23 (be_to_N body) w ->
    Special (VFloat w) (xfa :: body)
| sp_double body : List.length body = 8%nat -> Special (VFloat (be_to_N body)) (xfb :: body)
| sp_break : Special (VOther 31 0) [xff].
Definition Break (v : pyval) : Prop := v = VOther 31 0.

(** Definite-length strings, and the chunks of the others. *)
Definition StringItem (mt : N) (content bs : bytes) : Prop :=
  exists h, Head mt (N.of_nat (List.length content)) h /\ bs = h ++ content.

(** UTF-8 (RFC 3629), by its encoder. *)
Definition Text (s : pystr) (b : bytes) : Prop := utf8_encode s = Ok b.

(** Later entries of a map replace the values of earlier ones with an equal key. *)
Definition entries (ps : list (pyval * pyval)) : pydict :=
  fold_left (fun d p => dict_set (fst p) (snd p) d) ps [].

(** What a lookup in the map finds: the value of the last entry whose key is equal. *)
Definition LastEntry (k v : pyval) (ps : list (pyval * pyval)) : Prop :=
  exists before k' after, ps = before ++ (k', v) :: after /\
    py_eq k' k = true /\ Forall (fun p => py_eq (fst p) k = false) after.

Section Tags.
(** [tags key t v]: what tag [t] makes of the value [v]. *)
Variable tags : bool -> N -> pyval -> wres pyval.

(** The number is the nesting allowed.  [key]: inside a map key or a set (tag 258), where
    arrays are read as tuples and maps as immutable ones.  Left out are the tags that
    refer to other parts of the input (25 and 29).  Arrays and maps of open length go up
    to the first item that denotes the "break" stop code. *)
Inductive Cbor : nat -> bool -> pyval -> bytes -> Prop :=
| cb_unsigned d key n bs : Head 0 n bs -> Cbor d key (VInt (Z.of_N n)) bs
| cb_negative d key n bs : Head 1 n bs -> Cbor d key (VInt (-1 - Z.of_N n)) bs
| cb_bytes d key c bs : StringItem 2 c bs -> Cbor d key (VBytes c) bs
| cb_chunked_bytes d key cs parts : Forall2 (StringItem 2) cs parts ->
    Cbor d key (VBytes (List.concat cs)) (x5f :: List.concat parts ++ [xff])
| cb_text d key s c bs : Text s c -> StringItem 3 c bs -> Cbor d key (VStr s) bs
| cb_chunked_text d key ss cs parts :
    Forall2 Text ss cs -> Forall2 (StringItem 3) cs parts ->
    Cbor d key (VStr (List.concat ss)) (x7f :: List.concat parts ++ [xff])
| cb_array d key vs h bs : Head 4 (N.of_nat (List.length vs)) h -> Cbors d key vs bs ->
    Cbor (S d) key (if key then VTuple vs else VList vs) (h ++ bs)
| cb_open_array d key vs bs e : Cbors d key vs bs -> Forall (fun v => ~ Break v) vs ->
    Cbor d key (VOther 31 0) e ->
    Cbor (S d) key (if key then VTuple vs else VList vs) (x9f :: bs ++ e)
| cb_map d key ps h bs : Head 5 (N.of_nat (List.length ps)) h -> CborPairs d key ps bs ->
    Cbor (S d) key (if key then VFrozen (entries ps) else VDict (entries ps)) (h ++ bs)
| cb_open_map d key ps bs e : CborPairs d key ps bs -> Forall (fun p => ~ Break (fst p)) ps ->
    Cbor d true (VOther 31 0) e ->
    Cbor (S d) key (if key then VFrozen (entries ps) else VDict (entries ps)) (xbf :: bs ++ e)
| cb_tagged d key t v w h bs : Head 6 t h -> t <> 25 -> t <> 29 ->
    Cbor d (key || (t =? 258)) v bs -> tags key t v = WOk w ->
    Cbor (S d) key w (h ++ bs)
| cb_special d key v bs : Special v bs -> Cbor d key v bs
with Cbors : nat -> bool -> list pyval -> bytes -> Prop :=
| cbs_nil d key : Cbors d key [] []
| cbs_cons d key v bs vs bs' : Cbor d key v bs -> Cbors d key vs bs' ->
    Cbors d key (v :: vs) (bs ++ bs')
with CborPairs : nat -> bool -> list (pyval * pyval) -> bytes -> Prop :=
| cbp_nil d key : CborPairs d key [] []
| cbp_cons d key k v bk bv ps bs : Cbor d true k bk -> Cbor d key v bv -> CborPairs d key ps bs ->
    CborPairs d key ((k, v) :: ps) (bk ++ bv ++ bs).

Scheme Cbor_mut := Induction for Cbor Sort Prop
with Cbors_mut := Induction for Cbors Sort Prop
with CborPairs_mut := Induction for CborPairs Sort Prop.
Combined Scheme Cbor_mutind from Cbor_mut, Cbors_mut, CborPairs_mut.
End Tags.
