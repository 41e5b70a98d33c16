(** * PyVal: dynamic Python values produced by cbor2 / json decoding. *)
From Coq Require Import List NArith ZArith Bool.
From Verif Require Import Base.
Import ListNotations.

(** Values as [cbor2.load] and [json.loads] build them.  Floats are their IEEE
    binary64 bit patterns.  [VFrozen d] is a [cbor2.FrozenDict], a map inside a map key.  [VOther t n] stands for every object of another type
    (datetime, CBORTag, CBORSimpleValue, undefined, Decimal, ...): [t] is its type,
    [n] its identity. *)
Inductive pyval :=
| VNone
| VBool (b : bool)
| VInt (z : Z)
| VFloat (bits : N)
| VStr (s : pystr)
| VBytes (b : bytes)
| VList (l : list pyval)
| VTuple (l : list pyval)
| VDict (d : list (pyval * pyval))
| VFrozen (d : list (pyval * pyval))
| VOther (t n : N).

(** Dictionaries, in the order of insertion. *)
Definition pydict := list (pyval * pyval).

(** [type(v)], as parsers.py compares it. *)
Inductive pytype :=
| TNone | TBool | TInt | TFloat | TStr | TBytes | TList | TTuple | TDict | TFrozen
| TOther (t : N).

(** [type(v)] *)
Definition type_of (v : pyval) : pytype :=
  match v with
  | VNone => TNone | VBool _ => TBool | VInt _ => TInt | VFloat _ => TFloat
  | VStr _ => TStr | VBytes _ => TBytes | VList _ => TList | VTuple _ => TTuple
  | VDict _ => TDict | VFrozen _ => TFrozen | VOther t _ => TOther t
  end.

(** [type(a) is type(b)]. *)
Definition type_eqb (a b : pytype) : bool :=
  match a, b with
  | TNone, TNone | TBool, TBool | TInt, TInt | TFloat, TFloat | TStr, TStr
  | TBytes, TBytes | TList, TList | TTuple, TTuple | TDict, TDict | TFrozen, TFrozen => true
  | TOther x, TOther y => N.eqb x y
  | _, _ => false
  end.

(** [type(v) in ts] (exact type, no subclassing). *)
Definition type_in (v : pyval) (ts : list pytype) : bool :=
  existsb (type_eqb (type_of v)) ts.

(** [v is None]. *)
Definition is_none (v : pyval) : bool := match v with VNone => true | _ => false end.

(** The integer a binary64 denotes, if it denotes one. *)
Definition float_int (bits : N) : option Z :=
  let s := N.testbit bits 63 in
  let e := N.land (N.shiftr bits 52) 2047 in
  let m := N.land bits 4503599627370495 in
  if N.eqb e 2047 then None
  else
    let '(mant, ex) := if N.eqb e 0 then (m, (-1074)%Z)
                       else ((4503599627370496 + m)%N, (Z.of_N e - 1075)%Z) in
    let mz := Z.of_N mant in
    let v := if (0 <=? ex)%Z then Some (mz * 2 ^ ex)%Z
             else if (mz mod 2 ^ (- ex) =? 0)%Z then Some (mz / 2 ^ (- ex))%Z
             else None in
    match v with Some z => Some (if s then (- z)%Z else z) | None => None end.

(** A binary64 that is no number, so that it is not equal to itself. *)
Definition float_is_nan (bits : N) : bool :=
  N.eqb (N.land (N.shiftr bits 52) 2047) 2047
  && negb (N.eqb (N.land bits 4503599627370495) 0).

(** Python's numeric tower: [True == 1 == 1.0]. *)
Definition as_int (v : pyval) : option Z :=
  match v with
  | VBool true => Some 1%Z
  | VBool false => Some 0%Z
  | VInt z => Some z
  | VFloat b => float_int b
  | _ => None
  end.

(** Python [==] between decoded values, used for dictionary keys.  Mappings are equal if
    each entry of either has an equal entry in the other; opaque objects, by structure. *)
Fixpoint py_eq (a b : pyval) {struct a} : bool :=
  match as_int a, as_int b with
  | Some x, Some y => Z.eqb x y
  | Some _, None | None, Some _ => false
  | None, None =>
      match a, b with
      | VNone, VNone => true
      | VFloat x, VFloat y => N.eqb x y && negb (float_is_nan x)
      | VStr x, VStr y => str_eqb x y
      | VBytes x, VBytes y => bytes_eqb x y
      | VList x, VList y | VTuple x, VTuple y =>
          (fix go l1 l2 := match l1, l2 with
             | [], [] => true
             | u :: t1, v :: t2 => py_eq u v && go t1 t2
             | _, _ => false
             end) x y
      | VDict x, VDict y | VDict x, VFrozen y | VFrozen x, VDict y | VFrozen x, VFrozen y =>
          forallb (fun p => existsb (fun q => py_eq (fst p) (fst q) && py_eq (snd p) (snd q)) y) x
          && forallb (fun q => existsb (fun p => py_eq (fst p) (fst q) && py_eq (snd p) (snd q)) x) y
      | VOther t n, VOther u m => N.eqb t u && N.eqb n m
      | _, _ => false
      end
  end.

(** [d.get(k)] as an option; [None] when the key is absent. *)
Fixpoint dict_find (k : pyval) (d : pydict) : option pyval :=
  match d with
  | [] => None
  | (k', v) :: t => if py_eq k' k then Some v else dict_find k t
  end.

(** [k in d] *)
Definition dict_mem (k : pyval) (d : pydict) : bool := is_some (dict_find k d).

(** [d.get(k)] with Python's [None] default. *)
Definition dict_get (k : pyval) (d : pydict) : pyval :=
  match dict_find k d with Some v => v | None => VNone end.

(** [d[k]], raising KeyError. *)
Definition dict_index (k : pyval) (d : pydict) : res pyval :=
  match dict_find k d with Some v => Ok v | None => Raise (Py EKeyError) end.

(** [d[k] = v]: an equal key keeps its position (and its original key object). *)
Fixpoint dict_set (k v : pyval) (d : pydict) : pydict :=
  match d with
  | [] => [(k, v)]
  | (k', v') :: t => if py_eq k' k then (k', v) :: t else (k', v') :: dict_set k v t
  end.

(** String-keyed access. *)
Definition skey (s : String.string) : pyval := VStr (lit s).
