(** * Der: pyasn1 0.4.8's DER decoder, directed by a schema, as far as asn1.py uses it.

    [pyasn1.codec.der.decoder.decode(substrate, asn1Spec)] (called at
    /repo/webauthn_rp/attesters.py:207) with specifications built from Integer,
    Enumerated, Boolean, Null, OctetString, SetOf and Sequence with optional and
    explicitly tagged components.  The decoder is lenient: lengths need not be minimal,
    bytes after the item inside an explicit tag are dropped, an empty INTEGER is 0. *)
From Coq Require Import List NArith ZArith Bool String.
From Coq Require Import Strings.Byte.
From Verif Require Import Base.
Import ListNotations.
Local Open Scope res_scope.
Local Open Scope list_scope.

(** tag.Tag; the format bit does not take part in comparisons. *)
Inductive tag_class := Universal | Application | Context | Private.
Record tag := { tg_class : tag_class; tg_number : N }.

(** Equality of tags. *)
Definition tag_class_eqb (a b : tag_class) : bool :=
  match a, b with
  | Universal, Universal | Application, Application | Context, Context
  | Private, Private => true
  | _, _ => false
  end.
Definition tag_eqb (a b : tag) : bool :=
  tag_class_eqb (tg_class a) (tg_class b) && N.eqb (tg_number a) (tg_number b).

(** univ types; a component is name, optional?, explicit context tag, type. *)
Inductive asn1 :=
| AInteger | AEnumerated | ABoolean | ANull | AOctetString
| ASetOf (t : asn1)
| ASequence (components : list (string * bool * option N * asn1)).
Definition component := (string * bool * option N * asn1)%type.
Definition co_name (c : component) : string := fst (fst (fst c)).
Definition co_optional (c : component) : bool := snd (fst (fst c)).
Definition co_tag (c : component) : option N := snd (fst c).
Definition co_type (c : component) : asn1 := snd c.

(** Decoded objects; a Sequence has a slot per component. *)
Inductive dval :=
| DInt (z : Z) | DBool (b : bool) | DNull | DOctets (b : bytes)
| DSet (l : list dval)
| DSeq (l : list (option dval)).

(** [raise PyAsn1Error] *)
Definition asn1_error {A} : res A := Raise (Py EPyAsn1Error).

(** The universal tag of a type, as pyasn1's tag maps have it. *)
Definition universal (t : asn1) : tag :=
  {| tg_class := Universal;
     tg_number := match t with
                  | ABoolean => 1 | AInteger => 2 | AOctetString => 4 | ANull => 5
                  | AEnumerated => 10 | ASequence _ => 16 | ASetOf _ => 17
                  end |}.

(** [tagSet] of a component, outermost tag first. *)
Definition tag_path (explicit : option N) (t : asn1) : list tag :=
  match explicit with
  | Some n => [{| tg_class := Context; tg_number := n |}; universal t]
  | None => [universal t]
  end.

(** The long form of a tag number: seven bits per octet until one below 128. *)
Fixpoint read_tag_number (acc : N) (b : bytes) : res (N * bytes) :=
  match b with
  | [] => asn1_error
  | x :: t =>
      let n := N_of_byte x in
      let acc := (acc * 128 + n mod 128)%N in
      if (n <? 128)%N then Ok (acc, t) else read_tag_number acc t
  end.

(** stDecodeTag: the tag, the constructed bit, the rest. *)
Definition read_tag (b : bytes) : res (tag * bool * bytes) :=
  match b with
  | [] => asn1_error
  | x :: t =>
      let n := N_of_byte x in
      let cls := match (n / 64)%N with
                 | 0%N => Universal | 1%N => Application | 2%N => Context
                 | _ => Private end in
      let constructed := N.testbit n 5 in
      let id := (n mod 32)%N in
      if (id =? 31)%N then
        '(id, t) <- read_tag_number 0 t ;;
        Ok ({| tg_class := cls; tg_number := id |}, constructed, t)
      else Ok ({| tg_class := cls; tg_number := id |}, constructed, t)
  end.

(** stDecodeLength, and the split of the substrate: content and rest. *)
Definition read_content (b : bytes) : res (bytes * bytes) :=
  match b with
  | [] => asn1_error
  | x :: t =>
      let n := N_of_byte x in
      '(len, t) <- (if (n <? 128)%N then Ok (n, t)
                    else if (n =? 128)%N then asn1_error
                    else
                      let size := N.to_nat (n - 128) in
                      if Nat.ltb (List.length t) size then asn1_error
                      else Ok (be_to_N (firstn size t), skipn size t)) ;;
      if (N.of_nat (List.length t) <? len)%N then asn1_error
      else Ok (firstn (N.to_nat len) t, skipn (N.to_nat len) t)
  end.

(** int.from_bytes(b, 'big', signed=True) *)
Definition signed_int (b : bytes) : Z :=
  let n := Z.of_N (be_to_N b) in
  let m := (256 ^ Z.of_nat (List.length b))%Z in
  if (2 * n <? m)%Z then n else (n - m)%Z.

(** What a tag path may stand for: position and type. *)
Definition candidates := list (list tag * (nat * asn1)).

(** The component that a path of tags leads to. *)
Fixpoint lookup (path : list tag) (cs : candidates) : option (nat * asn1) :=
  match cs with
  | [] => None
  | (p, x) :: t => if list_eqb tag_eqb p path then Some x else lookup path t
  end.

(** Component number [i] with its path. *)
Definition candidate (i : nat) (c : component) : list tag * (nat * asn1) :=
  (tag_path (co_tag c) (co_type c), (i, co_type c)).

(** getTagMapNearPosition: the components from here up to a required one. *)
Fixpoint near (i : nat) (cs : list component) : candidates :=
  match cs with
  | [] => []
  | c :: t => candidate i c :: (if co_optional c then near (S i) t else [])
  end.

(** The slots of a Sequence, and the check of requiredComponents. *)
Fixpoint assemble (i : nat) (cs : list component) (seen : list (nat * dval))
  : res (list (option dval)) :=
  match cs with
  | [] => Ok []
  | c :: t =>
      match seen with
      | (j, v) :: seen' =>
          if Nat.eqb i j then r <- assemble (S i) t seen' ;; Ok (Some v :: r)
          else if co_optional c then r <- assemble (S i) t seen ;; Ok (None :: r)
          else asn1_error
      | [] =>
          if co_optional c then r <- assemble (S i) t [] ;; Ok (None :: r)
          else asn1_error
      end
  end.

Section Content.
(** The decoder of one item: position, object, rest of the substrate. *)
Variable item : candidates -> bytes -> res (nat * dval * bytes).

(** SetOf: [while head: component, head = decodeFun(head, componentType)].  [fuel] is
    the length of the content; every item takes at least two bytes. *)
Fixpoint decode_set (fuel : nat) (t : asn1) (content : bytes) : res (list dval) :=
  match content, fuel with
  | [], _ => Ok []
  | _, O => asn1_error (* not reached *)
  | _, S fuel =>
      '(_, v, rest) <- item [([universal t], (0, t))] content ;;
      r <- decode_set fuel t rest ;;
      Ok (v :: r)
  end.

(** Sequence: components in the order of the schema; where a component is optional, a
    later one may come in its place. *)
Fixpoint decode_components (fuel : nat) (cs : list component) (idx : nat) (content : bytes)
  : res (list (nat * dval)) :=
  match content, fuel with
  | [], _ => Ok []
  | _, O => asn1_error (* not reached *)
  | _, S fuel =>
      match skipn idx cs with
      | [] => asn1_error (* excessive components *)
      | c :: _ =>
          '(pos, v, rest) <- item (if co_optional c then near idx (skipn idx cs)
                                   else [candidate idx c]) content ;;
          r <- decode_components fuel cs (S pos) rest ;;
          Ok ((pos, v) :: r)
      end
  end.

(** The value decoders; the constructed bit is not looked at for BOOLEAN. *)
Definition decode_content (t : asn1) (constructed : bool) (content : bytes) : res dval :=
  match t with
  | AInteger | AEnumerated =>
      if constructed then asn1_error else Ok (DInt (signed_int content))
  | ABoolean =>
      match content with
      | [x] => if (N_of_byte x =? 255)%N then Ok (DBool true)
               else if (N_of_byte x =? 0)%N then Ok (DBool false)
               else asn1_error
      | _ => asn1_error
      end
  | ANull =>
      if constructed then asn1_error
      else match content with [] => Ok DNull | _ => asn1_error end
  | AOctetString => if constructed then asn1_error else Ok (DOctets content)
  | ASetOf t' =>
      if constructed then
        l <- decode_set (List.length content) t' content ;; Ok (DSet l)
      else asn1_error
  | ASequence cs =>
      if constructed then
        l <- decode_components (List.length content) cs 0 content ;;
        slots <- assemble 0 cs l ;;
        Ok (DSeq slots)
      else asn1_error
  end.
End Content.

(** Decoder.__call__: [outer] are the explicit tags read so far; a tag path that is none
    of the candidates is tried as an explicit tag.  [depth] bounds the nesting
    (the recursion limit of the interpreter). *)
Fixpoint decode_item (depth : nat) (outer : list tag) (cs : candidates) (b : bytes)
  : res (nat * dval * bytes) :=
  match depth with
  | O => Raise (Py ERecursionError)
  | S depth =>
      '(t, constructed, b) <- read_tag b ;;
      '(content, rest) <- read_content b ;;
      let path := outer ++ [t] in
      match lookup path cs with
      | Some (pos, ty) =>
          v <- decode_content (decode_item depth []) ty constructed content ;;
          Ok (pos, v, rest)
      | None =>
          if constructed && negb (tag_class_eqb (tg_class t) Universal) then
            '(pos, v, _) <- decode_item depth path cs content ;;
            Ok (pos, v, rest)
          else asn1_error
      end
  end.

(** [decode(substrate, asn1Spec)]: the object and the remaining substrate. *)
Definition der_decode (depth : nat) (spec : asn1) (b : bytes) : res (dval * bytes) :=
  '(_, v, rest) <- decode_item depth [] [([universal spec], (0, spec))] b ;;
  Ok (v, rest).

(** [v[name]] for a Sequence [v] of components [cs]: [None] if it has no value. *)
Fixpoint slot (name : string) (cs : list component) (l : list (option dval))
  : option dval :=
  match cs, l with
  | c :: cs', v :: l' => if String.eqb (co_name c) name then v else slot name cs' l'
  | _, _ => None
  end.
