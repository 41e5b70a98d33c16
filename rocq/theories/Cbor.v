(** * Cbor: cbor2.load / cbor2.loads / cbor2.dumps on the data items the code uses.

    Called by parsers.py:791, 863, 887, 930 (decoding) and converters.py:206, 223
    (encoding).  cbor2 is not part of /repo; the model follows its decoder for every
    major type.  What a semantic tag (major type 6) makes of its content is a parameter
    [tags]: the reading of the tag and of the content is modelled, the classes cbor2
    builds are not.  Not modelled, and answered with [EOther 998]: the two tags that refer
    to other parts of the input (25, 29). *)
From Coq Require Import List NArith ZArith Bool.
From Coq Require Import Strings.Byte.
From Verif Require Import Base PyVal Utf8 Json.
Import ListNotations.
Local Open Scope N_scope.
Local Open Scope list_scope.

(** The objects [undefined], [break_marker] and simple values. *)
Definition v_undefined : pyval := VOther 23 0.
Definition v_break : pyval := VOther 31 0.
Definition v_simple (n : N) : pyval := VOther 24 n.
Definition is_break (v : pyval) : bool :=
  match v with VOther t n => (t =? 31) && (n =? 0) | _ => false end.

(** [self.read(amount)] *)
Definition cread (n : N) (b : bytes) : wres (bytes * bytes) :=
  if N.of_nat (List.length b) <? n then WRaise ECBORDecodeEOF
  else WOk (take (N.to_nat n) b, drop (N.to_nat n) b).

(** _decode_length: [None] for an indefinite length. *)
Definition clength (sub : N) (indef : bool) (b : bytes) : wres (option N * bytes) :=
  if sub <? 24 then WOk (Some sub, b)
  else
    let ext n := wbind (cread n b) (fun '(x, r) => WOk (Some (be_to_N x), r)) in
    if sub =? 24 then ext 1
    else if sub =? 25 then ext 2
    else if sub =? 26 then ext 4
    else if sub =? 27 then ext 8
    else if (sub =? 31) && indef then WOk (None, b)
    else WRaise ECBORDecodeValueError.

(** Chunks of an indefinite-length string of major type [mt]. *)
Fixpoint cchunks (fuel : nat) (mt : N) (b : bytes) : wres (list bytes * bytes) :=
  match fuel with
  | O => WRaise (EOther 999)
  | S f =>
      match b with
      | [] => WRaise ECBORDecodeEOF
      | x :: r =>
          let n := N_of_byte x in
          if n =? 255 then WOk ([], r)
          else if n / 32 =? mt then
            wbind (clength (n mod 32) false r) (fun '(l, r1) =>
            match l with
            | None => WRaise ECBORDecodeValueError
            | Some l => wbind (cread l r1) (fun '(c, r2) => wcons c (cchunks f mt r2))
            end)
          else WRaise ECBORDecodeValueError
      end
  end.

(** A text string, and the chunks of one, decoded as UTF-8. *)
Definition ctext (b : bytes) : wres pystr :=
  match utf8_decode b with Ok s => WOk s | Raise _ => WRaise EUnicodeDecodeError end.
Fixpoint ctexts (l : list bytes) : wres pystr :=
  match l with
  | [] => WOk []
  | b :: t => wbind (ctext b) (fun s => wbind (ctexts t) (fun r => WOk (s ++ r)))
  end.

(** binary16 and binary32 to binary64. *)
Definition f64 (s e m : N) : N := s * 9223372036854775808 + e * 4503599627370496 + m.
Definition widen (ebits mbits : N) (v : N) : N :=
  let emax := 2 ^ ebits - 1 in
  let s := v / 2 ^ (ebits + mbits) in
  let e := (v / 2 ^ mbits) mod 2 ^ ebits in
  let m := v mod 2 ^ mbits in
  let bias := 2 ^ (ebits - 1) - 1 in
  if e =? emax then f64 s 2047 (m * 2 ^ (52 - mbits))
  else if e =? 0 then
    if m =? 0 then f64 s 0 0
    else let k := N.log2 m in
         f64 s (1023 + k - (bias - 1) - mbits) (m * 2 ^ (52 - k) - 4503599627370496)
  else f64 s (1023 + e - bias) (m * 2 ^ (52 - mbits)).

(** decode_special. *)
Definition cspecial (sub : N) (b : bytes) : wres (pyval * bytes) :=
  if sub <? 20 then WOk (v_simple sub, b)
  else if sub =? 20 then WOk (VBool false, b)
  else if sub =? 21 then WOk (VBool true, b)
  else if sub =? 22 then WOk (VNone, b)
  else if sub =? 23 then WOk (v_undefined, b)
  else if sub =? 24 then wbind (cread 1 b) (fun '(x, r) => WOk (v_simple (be_to_N x), r))
  else if sub =? 25 then
    wbind (cread 2 b) (fun '(x, r) => WOk (VFloat (widen 5 10 (be_to_N x)), r))
  else if sub =? 26 then
    wbind (cread 4 b) (fun '(x, r) => WOk (VFloat (widen 8 23 (be_to_N x)), r))
  else if sub =? 27 then wbind (cread 8 b) (fun '(x, r) => WOk (VFloat (be_to_N x), r))
  else if sub =? 31 then WOk (v_break, b)
  else WRaise ECBORDecodeValueError.

(** What [semantic_decoders] makes of a tag: [tags imm t v] for tag number [t] and the
    decoded content [v]. *)
Definition tagsem := bool -> N -> pyval -> wres pyval.
(** No tag is understood. *)
Definition no_tags : tagsem := fun _ _ _ => WRaise (EOther 998).

(** _decode, decode_array, decode_map, decode_semantic.  [imm]: inside a map key (lists
    become tuples, maps FrozenDicts) or a set (tag 258).  [fuel] as in Json.v; [depth]: recursion limit. *)
Fixpoint cdec (tags : tagsem) (fuel depth : nat) (imm : bool) (b : bytes) : wres (pyval * bytes) :=
  match fuel with
  | O => WRaise (EOther 999)
  | S f =>
      match b with
      | [] => WRaise ECBORDecodeEOF
      | x :: r =>
          let n := N_of_byte x in
          let mt := n / 32 in
          let sub := n mod 32 in
          if mt =? 0 then
            wbind (clength sub false r) (fun '(l, r1) =>
            match l with Some v => WOk (VInt (Z.of_N v), r1)
                    | None => WRaise ECBORDecodeValueError end)
          else if mt =? 1 then
            wbind (clength sub false r) (fun '(l, r1) =>
            match l with Some v => WOk (VInt (-1 - Z.of_N v)%Z, r1)
                    | None => WRaise ECBORDecodeValueError end)
          else if mt =? 2 then
            wbind (clength sub true r) (fun '(l, r1) =>
            match l with
            | Some v => wbind (cread v r1) (fun '(c, r2) => WOk (VBytes c, r2))
            | None => wbind (cchunks f 2 r1) (fun '(cs, r2) => WOk (VBytes (concat cs), r2))
            end)
          else if mt =? 3 then
            wbind (clength sub true r) (fun '(l, r1) =>
            match l with
            | Some v => wbind (cread v r1) (fun '(c, r2) =>
                        wbind (ctext c) (fun s => WOk (VStr s, r2)))
            | None => wbind (cchunks f 3 r1) (fun '(cs, r2) =>
                      wbind (ctexts cs) (fun s => WOk (VStr s, r2)))
            end)
          else if mt =? 4 then
            match depth with
            | O => WRaise ERecursionError
            | S d =>
                wbind (clength sub true r) (fun '(l, r1) =>
                wbind (citems tags f d imm l r1) (fun '(vs, r2) =>
                WOk (if imm then VTuple vs else VList vs, r2)))
            end
          else if mt =? 5 then
            match depth with
            | O => WRaise ERecursionError
            | S d =>
                wbind (clength sub true r) (fun '(l, r1) =>
                wbind (cpairs tags f d imm l r1 []) (fun '(m, r2) =>
                WOk (if imm then VFrozen m else VDict m, r2)))
            end
          else if mt =? 6 then
            match depth with
            | O => WRaise ERecursionError
            | S d =>
                wbind (clength sub false r) (fun '(l, r1) =>
                match l with
                | Some t =>
                    if (t =? 25) || (t =? 29) then WRaise (EOther 998)
                    else wbind (cdec tags f d (imm || (t =? 258)) r1) (fun '(v, r2) =>
                         wbind (tags imm t v) (fun w => WOk (w, r2)))
                | None => WRaise ECBORDecodeValueError
                end)
            end
          else cspecial sub r
      end
  end
with citems (tags : tagsem) (fuel depth : nat) (imm : bool) (count : option N) (b : bytes)
  : wres (list pyval * bytes) :=
  match fuel with
  | O => WRaise (EOther 999)
  | S f =>
      match count with
      | Some n =>
          if n =? 0 then WOk ([], b)
          else wbind (cdec tags f depth imm b) (fun '(v, r) =>
               wcons v (citems tags f depth imm (Some (n - 1)) r))
      | None =>
          wbind (cdec tags f depth imm b) (fun '(v, r) =>
          if is_break v then WOk ([], r) else wcons v (citems tags f depth imm None r))
      end
  end
with cpairs (tags : tagsem) (fuel depth : nat) (imm : bool) (count : option N) (b : bytes)
  (acc : pydict) : wres (pydict * bytes) :=
  match fuel with
  | O => WRaise (EOther 999)
  | S f =>
      let pair count' := 
        wbind (cdec tags f depth true b) (fun '(k, r) =>
        if match count with None => is_break k | Some _ => false end then WOk (acc, r)
        else wbind (cdec tags f depth imm r) (fun '(v, r1) =>
             cpairs tags f depth imm count' r1 (dict_set k v acc))) in
      match count with
      | Some n => if n =? 0 then WOk (acc, b) else pair (Some (n - 1))
      | None => pair None
      end
  end.

(** cbor2.load on a stream holding [b]: the item and the unread bytes. *)
Definition cbor_load_tags (tags : tagsem) (depth : nat) (b : bytes) : wres (pyval * bytes) :=
  cdec tags (2 * List.length b + 2) depth false b.

(** ... on input without tags. *)
Definition cbor_load : nat -> bytes -> wres (pyval * bytes) := cbor_load_tags no_tags.

(** ** Encoding (cbor2.dumps, default options) *)

(** encode_length *)
Definition chead (mt n : N) : bytes :=
  if n <? 24 then [byte_of_N (mt * 32 + n)]
  else if n <? 256 then byte_of_N (mt * 32 + 24) :: N_to_be 1 n
  else if n <? 65536 then byte_of_N (mt * 32 + 25) :: N_to_be 2 n
  else if n <? 4294967296 then byte_of_N (mt * 32 + 26) :: N_to_be 4 n
  else byte_of_N (mt * 32 + 27) :: N_to_be 8 n.

(** The integers that a head can carry. *)
Definition u64 (n : N) : bool := n <? 18446744073709551616.

(** The bytes of both, if both can be written. *)
Definition oapp (a b : option bytes) : option bytes :=
  match a, b with Some x, Some y => Some (x ++ y) | _, _ => None end.

(** cbor2.dumps(v); [None] where the model has no answer (integers that need a bignum
    tag, strings that are not encodable, other objects). *)
Fixpoint cbor_dumps (v : pyval) : option bytes :=
  match v with
  | VNone => Some [xf6]
  | VBool false => Some [xf4]
  | VBool true => Some [xf5]
  | VInt z =>
      if (0 <=? z)%Z then
        if u64 (Z.to_N z) then Some (chead 0 (Z.to_N z)) else None
      else let n := Z.to_N (-1 - z) in if u64 n then Some (chead 1 n) else None
  | VFloat bits => if u64 bits then Some (xfb :: N_to_be 8 bits) else None
  | VStr s =>
      match utf8_encode s with
      | Ok b => let n := N.of_nat (List.length b) in
                if u64 n then Some (chead 3 n ++ b) else None
      | Raise _ => None
      end
  | VBytes b => let n := N.of_nat (List.length b) in
                if u64 n then Some (chead 2 n ++ b) else None
  | VList l | VTuple l =>
      let n := N.of_nat (List.length l) in
      if u64 n then
        oapp (Some (chead 4 n))
          ((fix go l := match l with
            | [] => Some []
            | x :: t => oapp (cbor_dumps x) (go t)
            end) l)
      else None
  | VDict d =>
      let n := N.of_nat (List.length d) in
      if u64 n then
        oapp (Some (chead 5 n))
          ((fix go d := match d with
            | [] => Some []
            | (k, x) :: t => oapp (cbor_dumps k) (oapp (cbor_dumps x) (go t))
            end) d)
      else None
  | VFrozen _ | VOther _ _ => None
  end.
