(** * Utf8: bytes.decode('utf-8') and str.encode('utf-8') (strict). *)
From Coq Require Import List NArith ZArith Bool.
From Verif Require Import Base.
Import ListNotations.
Local Open Scope N_scope.

(** Continuation bytes, and the code points that UTF-8 does not encode. *)
Definition cont_byte (n : N) : bool := (128 <=? n) && (n <=? 191).
Definition is_surrogate (c : N) : bool := (55296 <=? c) && (c <=? 57343).

(** A code point in front of the rest, if the rest can be decoded. *)
Definition rcons {A} (a : A) (m : res (list A)) : res (list A) :=
  match m with Ok l => Ok (a :: l) | Raise e => Raise e end.

(** bytes.decode('utf-8'): rejects overlong forms, surrogates, > U+10FFFF. *)
Fixpoint utf8_decode (b : bytes) : res pystr :=
  match b with
  | [] => Ok []
  | b0 :: t0 =>
    let n0 := N_of_byte b0 in
    if n0 <? 128 then rcons n0 (utf8_decode t0)
    else match t0 with
    | [] => Raise (Py EUnicodeDecodeError)
    | b1 :: t1 =>
      let n1 := N_of_byte b1 in
      if negb (cont_byte n1) then Raise (Py EUnicodeDecodeError)
      else if (194 <=? n0) && (n0 <=? 223) then
        rcons ((n0 - 192) * 64 + (n1 - 128)) (utf8_decode t1)
      else match t1 with
      | [] => Raise (Py EUnicodeDecodeError)
      | b2 :: t2 =>
        let n2 := N_of_byte b2 in
        if negb (cont_byte n2) then Raise (Py EUnicodeDecodeError)
        else if (224 <=? n0) && (n0 <=? 239) then
          let c := (n0 - 224) * 4096 + (n1 - 128) * 64 + (n2 - 128) in
          if (c <? 2048) || is_surrogate c then Raise (Py EUnicodeDecodeError)
          else rcons c (utf8_decode t2)
        else match t2 with
        | [] => Raise (Py EUnicodeDecodeError)
        | b3 :: t3 =>
          let n3 := N_of_byte b3 in
          if negb (cont_byte n3) then Raise (Py EUnicodeDecodeError)
          else if (240 <=? n0) && (n0 <=? 244) then
            let c := (n0 - 240) * 262144 + (n1 - 128) * 4096
                     + (n2 - 128) * 64 + (n3 - 128) in
            if (c <? 65536) || (1114111 <? c) then Raise (Py EUnicodeDecodeError)
            else rcons c (utf8_decode t3)
          else Raise (Py EUnicodeDecodeError)
        end
      end
    end
  end.

(** One code point; surrogates (and non-code-points) are not encodable. *)
Definition utf8_enc1 (c : N) : option bytes :=
  if c <? 128 then Some [byte_of_N c]
  else if c <? 2048 then Some [byte_of_N (192 + c / 64); byte_of_N (128 + c mod 64)]
  else if is_surrogate c then None
  else if c <? 65536 then
    Some [byte_of_N (224 + c / 4096); byte_of_N (128 + (c / 64) mod 64);
          byte_of_N (128 + c mod 64)]
  else if c <=? 1114111 then
    Some [byte_of_N (240 + c / 262144); byte_of_N (128 + (c / 4096) mod 64);
          byte_of_N (128 + (c / 64) mod 64); byte_of_N (128 + c mod 64)]
  else None.

(** str.encode('utf-8') *)
Fixpoint utf8_encode (s : pystr) : res bytes :=
  match s with
  | [] => Ok []
  | c :: t =>
      match utf8_enc1 c with
      | None => Raise (Py EUnicodeEncodeError)
      | Some e => match utf8_encode t with
                  | Ok r => Ok (e ++ r)
                  | Raise x => Raise x
                  end
      end
  end.
