(** * Utf8Replace: bytes.decode('utf-8', 'replace'), which werkzeug uses for the fields of forms
    (examples/flask/app.py:151, 195-198, 236, 279-282: [request.form]). *)
From Coq Require Import List NArith ZArith Bool.
From Verif Require Import Base Utf8.
Import ListNotations.
Local Open Scope N_scope.

(** Which second bytes may follow a first byte. *)
Definition second_ok (n0 n1 : N) : bool :=
  if n0 <? 194 then false
  else if n0 =? 224 then (160 <=? n1) && (n1 <=? 191)
  else if n0 =? 237 then (128 <=? n1) && (n1 <=? 159)
  else if n0 =? 240 then (144 <=? n1) && (n1 <=? 191)
  else if n0 =? 244 then (128 <=? n1) && (n1 <=? 143)
  else if n0 <? 244 then cont_byte n1 else false.
(** U+FFFD. *)
Definition REPLACEMENT : N := 65533.

(** CPython replaces what it has read of a character up to the byte that cannot follow, and goes
    on with that byte. *)
Fixpoint utf8_replace (b : bytes) : pystr :=
  match b with
  | [] => []
  | b0 :: t0 =>
    let n0 := N_of_byte b0 in
    if n0 <? 128 then n0 :: utf8_replace t0
    else if (n0 <? 194) || (244 <? n0) then REPLACEMENT :: utf8_replace t0
    else match t0 with
    | [] => [REPLACEMENT]
    | b1 :: t1 =>
      let n1 := N_of_byte b1 in
      if negb (second_ok n0 n1) then REPLACEMENT :: utf8_replace t0
      else if n0 <? 224 then ((n0 - 192) * 64 + (n1 - 128)) :: utf8_replace t1
      else match t1 with
      | [] => [REPLACEMENT]
      | b2 :: t2 =>
        let n2 := N_of_byte b2 in
        if negb (cont_byte n2) then REPLACEMENT :: utf8_replace t1
        else if n0 <? 240 then ((n0 - 224) * 4096 + (n1 - 128) * 64 + (n2 - 128)) :: utf8_replace t2
        else match t2 with
        | [] => [REPLACEMENT]
        | b3 :: t3 =>
          let n3 := N_of_byte b3 in
          if negb (cont_byte n3) then REPLACEMENT :: utf8_replace t2
          else ((n0 - 240) * 262144 + (n1 - 128) * 4096 + (n2 - 128) * 64 + (n3 - 128)) :: utf8_replace t3
        end
      end
    end
  end.
