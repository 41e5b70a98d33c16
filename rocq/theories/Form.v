(** * Form: the bodies of the POST requests of the example application.

    The page sends URLSearchParams (/repo/examples/flask/templates/app.html:25-31, 106-109,
    121-123, 141-144, 156-158), Flask reads them as request.form
    (/repo/examples/flask/app.py:151, 195-198, 236, 279-282). *)
From Coq Require Import List NArith ZArith Bool.
From Coq Require Import Strings.Byte.
From Verif Require Import Base Utf8 Dumps.
Import ListNotations.
Local Open Scope N_scope.
Local Open Scope list_scope.

(** ** The browser: the application/x-www-form-urlencoded serializer of the URL Standard.
    Texts are octets as numbers. *)
Definition form_safe (n : N) : bool :=
  (48 <=? n) && (n <=? 57) || (65 <=? n) && (n <=? 90) || (97 <=? n) && (n <=? 122) ||
  (n =? 42) || (n =? 45) || (n =? 46) || (n =? 95).
Definition form_hex (n : N) : N := if n <? 10 then 48 + n else 55 + n.
Definition form_octet (b : byte) : list N :=
  let n := N_of_byte b in
  if n =? 32 then [43] else if form_safe n then [n]
  else [37; form_hex (n / 16); form_hex (n mod 16)].
(** Strings are scalar values there, so encoding does not fail. *)
Definition form_text (s : pystr) : list N :=
  match utf8_encode s with Ok b => flat_map form_octet b | Raise _ => [] end.
Definition form_pair (p : pystr * pystr) : list N := form_text (fst p) ++ 61 :: form_text (snd p).
Definition form_encode (ps : list (pystr * pystr)) : list N := join [38] (map form_pair ps).

(** ** The server: werkzeug's parser *)
Fixpoint split_on (sep : N) (s : list N) : list (list N) :=
  match s with
  | [] => [[]]
  | c :: t =>
      match split_on sep t with
      | [] => [[c]]
      | w :: ws => if c =? sep then [] :: w :: ws else (c :: w) :: ws
      end
  end.
(** [key, value = pair.split('=', 1)]; without '=' the value is empty. *)
Fixpoint split_pair (s : list N) : list N * list N :=
  match s with
  | [] => ([], [])
  | c :: t => if c =? 61 then ([], t) else let '(k, v) := split_pair t in (c :: k, v)
  end.
Definition hex_value (c : N) : option N :=
  if (48 <=? c) && (c <=? 57) then Some (c - 48)
  else if (65 <=? c) && (c <=? 70) then Some (c - 55)
  else if (97 <=? c) && (c <=? 102) then Some (c - 87) else None.
(** unquote_plus; a '%' that no two digits follow stays. *)
Fixpoint unquote (s : list N) : bytes :=
  match s with
  | [] => []
  | c :: t =>
      if c =? 43 then byte_of_N 32 :: unquote t
      else if c =? 37 then
        match t with
        | a :: b :: t' =>
            match hex_value a, hex_value b with
            | Some x, Some y => byte_of_N (x * 16 + y) :: unquote t'
            | _, _ => byte_of_N c :: unquote t
            end
        | _ => byte_of_N c :: unquote t
        end
      else byte_of_N c :: unquote t
  end.

Section Replace.
(** bytes.decode('utf-8', 'replace') on what is not UTF-8. *)
Variable replaced : bytes -> pystr.
Definition form_string (s : list N) : pystr :=
  match utf8_decode (unquote s) with Ok r => r | Raise _ => replaced (unquote s) end.
Definition form_decode (s : list N) : list (pystr * pystr) :=
  map (fun w => let '(k, v) := split_pair w in (form_string k, form_string v))
      (filter (fun w => match w with [] => false | _ => true end) (split_on 38 s)).
End Replace.

(** [request.form[name]]: the first value; [None] is the KeyError. *)
Definition form_field (name : pystr) (ps : list (pystr * pystr)) : option pystr :=
  option_map snd (find (fun p => str_eqb (fst p) name) ps).
