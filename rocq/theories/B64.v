(** * B64: base64 as CPython's binascii/base64 implement it, and utils.url_base64_*. *)
From Coq Require Import List NArith ZArith Bool.
From Verif Require Import Base.
Import ListNotations.
Local Open Scope N_scope.

(** The standard alphabet: the symbol (ASCII code) of a 6-bit value. *)
Definition b64_sym (v : N) : N :=
  if v <? 26 then v + 65
  else if v <? 52 then v + 71
  else if v <? 62 then v - 4
  else if v =? 62 then 43 else 47.

(** Table_a2b_base64: the 6-bit value of an ASCII code, [None] if not in the
    alphabet. *)
Definition b64_val (c : N) : option N :=
  if (65 <=? c) && (c <=? 90) then Some (c - 65)
  else if (97 <=? c) && (c <=? 122) then Some (c - 71)
  else if (48 <=? c) && (c <=? 57) then Some (c + 4)
  else if c =? 43 then Some 62
  else if c =? 47 then Some 63
  else None.

(** binascii.b2a_base64(b, newline=False), as code points. *)
Fixpoint b2a (b : bytes) : pystr :=
  match b with
  | [] => []
  | [x] =>
      let n := N_of_byte x in
      [b64_sym (n / 4); b64_sym ((n mod 4) * 16); 61; 61]
  | [x; y] =>
      let n := N_of_byte x * 256 + N_of_byte y in
      [b64_sym (n / 1024); b64_sym ((n / 16) mod 64); b64_sym ((n mod 16) * 4); 61]
  | x :: y :: z :: t =>
      let n := (N_of_byte x * 256 + N_of_byte y) * 256 + N_of_byte z in
      b64_sym (n / 262144) :: b64_sym ((n / 4096) mod 64)
      :: b64_sym ((n / 64) mod 64) :: b64_sym (n mod 64) :: b2a t
  end.

(** binascii.a2b_base64(s), non-strict mode: state machine over the input.
    [quad] = number of pending symbols mod 4, [left] = leftover bits, [pads] =
    consecutive padding characters seen.  Characters outside the alphabet are
    skipped; input after complete padding is ignored. *)
Fixpoint a2b_go (s : pystr) (quad : N) (left : N) (pads : N) (acc : bytes) : res bytes :=
  match s with
  | [] => if quad =? 0 then Ok (rev acc) else Raise (Py EBinasciiError)
  | c :: t =>
      if c =? 61 then
        if 2 <=? quad then
          if 4 <=? quad + (pads + 1) then Ok (rev acc)
          else a2b_go t quad left (pads + 1) acc
        else a2b_go t quad left pads acc
      else
        match b64_val c with
        | None => a2b_go t quad left pads acc
        | Some v =>
            if quad =? 0 then a2b_go t 1 v 0 acc
            else if quad =? 1 then
              a2b_go t 2 (v mod 16) 0 (byte_of_N (left * 4 + v / 16) :: acc)
            else if quad =? 2 then
              a2b_go t 3 (v mod 4) 0 (byte_of_N (left * 16 + v / 4) :: acc)
            else
              a2b_go t 0 0 0 (byte_of_N (left * 64 + v) :: acc)
        end
  end.

(** binascii.a2b_base64 from its initial state. *)
Definition a2b (s : pystr) : res bytes := a2b_go s 0 0 0 [].

(** [s.isascii()]. *)
Definition is_ascii (s : pystr) : bool := forallb (fun c => c <? 128) s.

(** base64.b64decode(s): a non-ASCII [str] raises ValueError. *)
Definition b64decode (s : pystr) : res bytes :=
  if is_ascii s then a2b s else Raise (Py EValueError).

(** bytes.translate for altchars b'-_' (both directions of the base64 module). *)
Definition from_url (c : N) : N := if c =? 45 then 43 else if c =? 95 then 47 else c.
Definition to_url (c : N) : N := if c =? 43 then 45 else if c =? 47 then 95 else c.

(** utils.url_base64_encode, /repo/webauthn_rp/utils.py:76-88.  The result is
    [bytes] in Python; the model keeps the (ASCII) code points. *)
Definition url_base64_encode (b : bytes) : pystr := map to_url (b2a b).

(** utils.url_base64_decode, /repo/webauthn_rp/utils.py:91-103. *)
Definition url_base64_decode (s : pystr) : res bytes :=
  let s' := s ++ [61; 61; 61] in
  if is_ascii s' then a2b (map from_url s') else Raise (Py EValueError).
