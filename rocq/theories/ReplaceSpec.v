(** * ReplaceSpec: UTF-8 with replacement characters, specified (Unicode 15, D92 and U+FFFD
    substitution of maximal subparts). *)
From Coq Require Import List NArith.
From Verif Require Import Base.
Import ListNotations.
Local Open Scope N_scope.

(** The bytes of a character. *)
Inductive Enc : N -> bytes -> Prop :=
| enc_1 a : N_of_byte a < 128 -> Enc (N_of_byte a) [a]
| enc_2 c x y a b : c = 64 * x + y -> x < 32 -> y < 64 -> 128 <= c ->
    N_of_byte a = 192 + x -> N_of_byte b = 128 + y -> Enc c [a; b]
| enc_3 c x y z a b d : c = 4096 * x + 64 * y + z -> x < 16 -> y < 64 -> z < 64 -> 2048 <= c ->
    c < 55296 \/ 57343 < c ->
    N_of_byte a = 224 + x -> N_of_byte b = 128 + y -> N_of_byte d = 128 + z -> Enc c [a; b; d]
| enc_4 c x y z u a b d e : c = 262144 * x + 4096 * y + 64 * z + u -> y < 64 -> z < 64 -> u < 64 ->
    65536 <= c <= 1114111 ->
    N_of_byte a = 240 + x -> N_of_byte b = 128 + y -> N_of_byte d = 128 + z -> N_of_byte e = 128 + u ->
    Enc c [a; b; d; e].

(** [p] begins a character. *)
Definition Starts (p : bytes) : Prop := exists c e, Enc c (p ++ e).

(** Characters are read; a byte that begins none, and the longest beginning of a character that
    does not become one, are replaced. *)
Inductive Replaced : bytes -> pystr -> Prop :=
| rp_nil : Replaced [] []
| rp_char c e b s : Enc c e -> Replaced b s -> Replaced (e ++ b) (c :: s)
| rp_byte x b s : ~ Starts [x] -> Replaced b s -> Replaced (x :: b) (65533 :: s)
| rp_part p b s : p <> [] -> Starts p -> (forall c, ~ Enc c p) -> (forall x t, b = x :: t -> ~ Starts (p ++ [x])) ->
    Replaced b s -> Replaced (p ++ b) (65533 :: s).
