(** * Json: json.loads on [str] (CPython 3.11, C scanner, default options).

    Called by parsers.parse_client_data (/repo/webauthn_rp/parsers.py:720). *)
From Coq Require Import List NArith ZArith Bool String.
From Verif Require Import Base PyVal.
Import ListNotations.
Local Open Scope N_scope.
Local Open Scope list_scope.

(** Interpreter parameters: float(text) as a bit pattern, the limit on the number of
    digits of int(text) ([None]: no limit), and the recursion limit. *)
Record jsonenv := {
  je_float : pystr -> N;
  je_max_digits : option N;
  je_depth : nat;
}.

Definition wbind {A B} (m : wres A) (k : A -> wres B) : wres B :=
  match m with WOk a => k a | WRaise e => WRaise e end.

Definition jerr {A} : wres A := WRaise EJSONDecodeError.

Definition is_ws (c : N) : bool := (c =? 32) || (c =? 9) || (c =? 10) || (c =? 13).
Fixpoint skip_ws (s : pystr) : pystr :=
  match s with [] => [] | c :: t => if is_ws c then skip_ws t else s end.

(** ** Strings *)
Definition hex_val (c : N) : option N :=
  if (48 <=? c) && (c <=? 57) then Some (c - 48)
  else if (97 <=? c) && (c <=? 102) then Some (c - 87)
  else if (65 <=? c) && (c <=? 70) then Some (c - 55)
  else None.
Definition hex4 (a b c d : N) : option N :=
  match hex_val a, hex_val b, hex_val c, hex_val d with
  | Some x, Some y, Some z, Some w => Some (((x * 16 + y) * 16 + z) * 16 + w)
  | _, _, _, _ => None
  end.
Definition high_surrogate (c : N) : bool := (55296 <=? c) && (c <=? 56319).
Definition low_surrogate (c : N) : bool := (56320 <=? c) && (c <=? 57343).
Definition join_surrogates (h l : N) : N := 65536 + (h - 55296) * 1024 + (l - 56320).

(** The character after a backslash, except 'u'. *)
Definition simple_escape (e : N) : option N :=
  if e =? 34 then Some 34 else if e =? 92 then Some 92 else if e =? 47 then Some 47
  else if e =? 98 then Some 8 else if e =? 102 then Some 12 else if e =? 110 then Some 10
  else if e =? 114 then Some 13 else if e =? 116 then Some 9 else None.

Definition wcons {A B} (a : A) (m : wres (list A * B)) : wres (list A * B) :=
  match m with WOk (l, r) => WOk (a :: l, r) | WRaise e => WRaise e end.

(** scanstring_unicode (strict): after the opening quote, up to the closing one. *)
Fixpoint scan_str (s : pystr) : wres (pystr * pystr) :=
  match s with
  | [] => jerr
  | c :: t =>
      if c =? 34 then WOk ([], t)
      else if c <? 32 then jerr
      else if c =? 92 then
        match t with
        | [] => jerr
        | e :: t1 =>
            if e =? 117 then
              match t1 with
              | a :: b :: c1 :: d :: t2 =>
                  match hex4 a b c1 d with
                  | None => jerr
                  | Some u =>
                      if high_surrogate u then
                        match t2 with
                        | q :: p :: a' :: b' :: c' :: d' :: t3 =>
                            if (q =? 92) && (p =? 117) then
                              match hex4 a' b' c' d' with
                              | None => jerr
                              | Some u' => if low_surrogate u'
                                           then wcons (join_surrogates u u') (scan_str t3)
                                           else wcons u (scan_str t2)
                              end
                            else wcons u (scan_str t2)
                        | _ => wcons u (scan_str t2)
                        end
                      else wcons u (scan_str t2)
                  end
              | _ => jerr
              end
            else
              match simple_escape e with
              | None => jerr
              | Some x => wcons x (scan_str t1)
              end
        end
      else wcons c (scan_str t)
  end.

(** ** Numbers *)
Definition is_dec (c : N) : bool := (48 <=? c) && (c <=? 57).
Fixpoint span_digits (s : pystr) : pystr * pystr :=
  match s with
  | [] => ([], [])
  | c :: t => if is_dec c then let '(a, b) := span_digits t in (c :: a, b) else ([], s)
  end.
Definition dec_N (s : pystr) : N := fold_left (fun a c => a * 10 + (c - 48)) s 0.

(** Integer part: '0', or a non-zero digit and more digits. *)
Definition span_int (s : pystr) : option (pystr * pystr) :=
  match s with
  | [] => None
  | c :: t => if c =? 48 then Some ([c], t)
              else if is_dec c then Some (span_digits s) else None
  end.
(** Fraction: '.' and at least one digit; otherwise nothing is consumed. *)
Definition span_frac (s : pystr) : pystr * pystr :=
  match s with
  | c :: d :: t => if (c =? 46) && is_dec d
                   then let '(a, b) := span_digits (d :: t) in (c :: a, b) else ([], s)
  | _ => ([], s)
  end.
(** Exponent: e/E, optional sign, at least one digit; otherwise nothing. *)
Definition span_exp (s : pystr) : pystr * pystr :=
  match s with
  | c :: t =>
      if (c =? 101) || (c =? 69) then
        match t with
        | g :: t' =>
            if (g =? 43) || (g =? 45) then
              match span_digits t' with
              | ([], _) => ([], s)
              | (a, b) => (c :: g :: a, b)
              end
            else match span_digits t with
                 | ([], _) => ([], s)
                 | (a, b) => (c :: a, b)
                 end
        | [] => ([], s)
        end
      else ([], s)
  | [] => ([], s)
  end.

Section Env.
Variable E : jsonenv.

(** _match_number_unicode *)
Definition scan_number (s : pystr) : wres (pyval * pystr) :=
  let '(neg, s1) := match s with c :: t => if c =? 45 then (true, t) else (false, s)
                            | [] => (false, s) end in
  match span_int s1 with
  | None => jerr
  | Some (ip, s2) =>
      let '(fp, s3) := span_frac s2 in
      let '(ep, s4) := span_exp s3 in
      match fp, ep with
      | [], [] =>
          if match je_max_digits E with Some m => m <? N.of_nat (List.length ip) | None => false end
          then WRaise EValueError
          else WOk (VInt (if neg then - Z.of_N (dec_N ip) else Z.of_N (dec_N ip))%Z, s4)
      | _, _ => WOk (VFloat (je_float E ((if neg then [45] else []) ++ ip ++ fp ++ ep)), s4)
      end
  end.

(** A literal at the start of [s]. *)
Fixpoint strip_prefix (p s : pystr) : option pystr :=
  match p, s with
  | [], _ => Some s
  | x :: p', y :: s' => if x =? y then strip_prefix p' s' else None
  | _, [] => None
  end.

Definition scan_const (s : pystr) : option (pyval * pystr) :=
  match strip_prefix (lit "null") s with Some t => Some (VNone, t) | None =>
  match strip_prefix (lit "true") s with Some t => Some (VBool true, t) | None =>
  match strip_prefix (lit "false") s with Some t => Some (VBool false, t) | None =>
  match strip_prefix (lit "NaN") s with
  | Some t => Some (VFloat (je_float E (lit "nan")), t) | None =>
  match strip_prefix (lit "Infinity") s with
  | Some t => Some (VFloat (je_float E (lit "inf")), t) | None =>
  match strip_prefix (lit "-Infinity") s with
  | Some t => Some (VFloat (je_float E (lit "-inf")), t) | None => None
  end end end end end end.

(** scan_once_unicode, _parse_array_unicode, _parse_object_unicode.  [fuel] bounds the
    number of calls and is never exhausted when above twice the text length
    (JsonFacts); [depth] is the interpreter's recursion limit. *)
Fixpoint scan (fuel depth : nat) (s : pystr) : wres (pyval * pystr) :=
  match fuel with
  | O => WRaise (EOther 999)
  | S f =>
      match s with
      | [] => jerr
      | c :: t =>
          if c =? 34 then wbind (scan_str t) (fun '(x, r) => WOk (VStr x, r))
          else if c =? 123 then
            match depth with
            | O => WRaise ERecursionError
            | S d =>
                let t := skip_ws t in
                match t with
                | [] => jerr
                | q :: t' => if q =? 125 then WOk (VDict [], t')
                             else wbind (scan_members f d t [])
                                        (fun '(m, r) => WOk (VDict m, r))
                end
            end
          else if c =? 91 then
            match depth with
            | O => WRaise ERecursionError
            | S d =>
                let t := skip_ws t in
                match t with
                | [] => jerr
                | q :: t' => if q =? 93 then WOk (VList [], t')
                             else wbind (scan_items f d t)
                                        (fun '(l, r) => WOk (VList l, r))
                end
            end
          else match scan_const s with
               | Some x => WOk x
               | None => scan_number s
               end
      end
  end
with scan_members (fuel depth : nat) (s : pystr) (acc : pydict) : wres (pydict * pystr) :=
  match fuel with
  | O => WRaise (EOther 999)
  | S f =>
      match s with
      | [] => jerr
      | c :: t =>
          if c =? 34 then
            wbind (scan_str t) (fun '(k, r) =>
            match skip_ws r with
            | [] => jerr
            | col :: r1 =>
                if col =? 58 then
                  wbind (scan f depth (skip_ws r1)) (fun '(v, r2) =>
                  let acc' := dict_set (VStr k) v acc in
                  match skip_ws r2 with
                  | [] => jerr
                  | x :: r3 =>
                      if x =? 125 then WOk (acc', r3)
                      else if x =? 44 then scan_members f depth (skip_ws r3) acc'
                      else jerr
                  end)
                else jerr
            end)
          else jerr
      end
  end
with scan_items (fuel depth : nat) (s : pystr) : wres (list pyval * pystr) :=
  match fuel with
  | O => WRaise (EOther 999)
  | S f =>
      wbind (scan f depth s) (fun '(v, r) =>
      match skip_ws r with
      | [] => jerr
      | x :: r1 =>
          if x =? 93 then WOk ([v], r1)
          else if x =? 44 then wcons v (scan_items f depth (skip_ws r1))
          else jerr
      end)
  end.

(** json.loads(s) *)
Definition json_loads (s : pystr) : wres pyval :=
  if match s with c :: _ => c =? 65279 | [] => false end then jerr
  else
    wbind (scan (S (2 * List.length s)) (je_depth E) (skip_ws s)) (fun '(v, r) =>
    match skip_ws r with [] => WOk v | _ => jerr end).

End Env.
