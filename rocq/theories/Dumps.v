(** * Dumps: json.dumps with its default options (CPython 3.11, C encoder).

    Called by the example application for the answers that carry options
    (/repo/examples/flask/app.py:187, 271). *)
From Coq Require Import List NArith ZArith Bool String.
From Verif Require Import Base PyVal Json.
Import ListNotations.
Local Open Scope N_scope.
Local Open Scope list_scope.

(** ** Strings: py_encode_basestring_ascii (ensure_ascii=True) *)
Definition hex_digit (n : N) : N := if n <? 10 then 48 + n else 87 + n.
Definition u_escape (c : N) : pystr :=
  [92; 117; hex_digit (c / 4096 mod 16); hex_digit (c / 256 mod 16);
   hex_digit (c / 16 mod 16); hex_digit (c mod 16)].
Definition escape_char (c : N) : pystr :=
  if c =? 34 then [92; 34] else if c =? 92 then [92; 92]
  else if c =? 8 then [92; 98] else if c =? 12 then [92; 102] else if c =? 10 then [92; 110]
  else if c =? 13 then [92; 114] else if c =? 9 then [92; 116]
  else if (32 <=? c) && (c <=? 126) then [c]
  else if c <? 65536 then u_escape c
  else u_escape (55296 + (c - 65536) / 1024 mod 1024) ++ u_escape (56320 + (c - 65536) mod 1024).
Definition escaped (s : pystr) : pystr := flat_map escape_char s.
Definition quoted (s : pystr) : pystr := 34 :: escaped s ++ [34].

(** ** Integers: int.__repr__ *)
Fixpoint dec_go (fuel : nat) (n : N) (acc : pystr) : pystr :=
  match fuel with
  | O => acc
  | S f => let acc' := 48 + n mod 10 :: acc in if n <? 10 then acc' else dec_go f (n / 10) acc'
  end.
Definition dec_text (n : N) : pystr := dec_go (S (N.size_nat n)) n [].

(** [separator.join(l)] *)
Fixpoint join (sep : pystr) (l : list pystr) : pystr :=
  match l with [] => [] | [x] => x | x :: t => x ++ sep ++ join sep t end.

Section Env.
Variable E : jsonenv.
(** float.__repr__ on finite numbers. *)
Variable repr : N -> pystr.

(** The limit on the digits of an integer holds in this direction too. *)
Definition int_text (z : Z) : wres pystr :=
  let ds := dec_text (Z.abs_N z) in
  if match je_max_digits E with Some m => m <? N.of_nat (List.length ds) | None => false end
  then WRaise EValueError
  else WOk (if (z <? 0)%Z then 45 :: ds else ds).

(** encoder_encode_float (allow_nan=True) *)
Definition float_text (b : N) : pystr :=
  if float_is_nan b then lit "NaN"
  else if b =? 0x7FF0000000000000 then lit "Infinity"
  else if b =? 0xFFF0000000000000 then lit "-Infinity"
  else repr b.

(** true and false. *)
Definition const_text (b : bool) : pystr := if b then lit "true" else lit "false".

(** encoder_encode_key_value: the name of a member (skipkeys=False). *)
Definition key_text (k : pyval) : wres pystr :=
  match k with
  | VStr s => WOk s
  | VFloat b => WOk (float_text b)
  | VBool b => WOk (const_text b)
  | VNone => WOk (lit "null")
  | VInt z => int_text z
  | _ => WRaise ETypeError
  end.

(** encoder_listencode_obj, encoder_listencode_list, encoder_listencode_dict.  Separators
    ", " and ": ", no sorting; [depth] is the interpreter's recursion limit.  Values are
    trees, so the check for circular references has nothing to find. *)
Fixpoint dump (depth : nat) (v : pyval) {struct v} : wres pystr :=
  match v with
  | VNone => WOk (lit "null")
  | VBool b => WOk (const_text b)
  | VInt z => int_text z
  | VFloat b => WOk (float_text b)
  | VStr s => WOk (quoted s)
  | VList l | VTuple l =>
      match depth with
      | O => WRaise ERecursionError
      | S n =>
          wbind ((fix items l := match l with
                  | [] => WOk []
                  | x :: t => wbind (dump n x) (fun a => wbind (items t) (fun r => WOk (a :: r)))
                  end) l)
                (fun r => WOk (91 :: join [44; 32] r ++ [93]))
      end
  | VDict m =>
      match depth with
      | O => WRaise ERecursionError
      | S n =>
          wbind ((fix members m := match m with
                  | [] => WOk []
                  | (k, x) :: t =>
                      wbind (key_text k) (fun name =>
                      wbind (dump n x) (fun a =>
                      wbind (members t) (fun r => WOk ((quoted name ++ [58; 32] ++ a) :: r))))
                  end) m)
                (fun r => WOk (123 :: join [44; 32] r ++ [125]))
      end
  | VBytes _ | VFrozen _ | VOther _ _ => WRaise ETypeError
  end.

(** json.dumps(v) *)
Definition json_dumps (v : pyval) : wres pystr := dump (je_depth E) v.

(** The body of an answer that carries options (app.py:182-187, 266-271). *)
Definition options_body (name : string) (id : N) (options : pyval) : wres pystr :=
  json_dumps (VDict [(VStr (lit "challengeID"), VInt (Z.of_N id)); (VStr (lit name), options)]).
End Env.
