(** * CaseConv: utils.snake_to_camel_case and utils.camel_to_snake_case. *)
From Coq Require Import List NArith ZArith Bool.
From Verif Require Import Base.
Import ListNotations.
Local Open Scope N_scope.

(** The Unicode tables behind [str.isupper], [str.lower], [str.upper] are a
    parameter: predicates/maps on one character ([upper] may expand: 'ß' -> 'SS').
    Simplification: [str.lower] is taken character by character (CPython's only
    context-sensitive case is the Greek final sigma). *)
Record unicode := {
  u_isupper : N -> bool;
  u_lower : N -> pystr;
  u_upper : N -> pystr;
}.

(** A-Z and a-z. *)
Definition ascii_upper (c : N) : bool := (65 <=? c) && (c <=? 90).
Definition ascii_lower (c : N) : bool := (97 <=? c) && (c <=? 122).

(** What every Unicode version fixes for ASCII. *)
Record ascii_ok (U : unicode) : Prop := {
  ok_isupper : forall c, c < 128 -> u_isupper U c = ascii_upper c;
  ok_lower : forall c, c < 128 ->
    u_lower U c = [if ascii_upper c then c + 32 else c];
  ok_upper : forall c, c < 128 ->
    u_upper U c = [if ascii_lower c then c - 32 else c];
}.

(** The instance that leaves non-ASCII characters alone. *)
Definition ascii_unicode : unicode := {|
  u_isupper := ascii_upper;
  u_lower := fun c => [if ascii_upper c then c + 32 else c];
  u_upper := fun c => [if ascii_lower c then c - 32 else c];
|}.

Section Conv.
Variable U : unicode.

(** [[x for x in re.split(r'_+', s) if x]]: maximal runs without '_' (95).
    [cur] is the current chunk, reversed. *)
Fixpoint chunks_go (s : pystr) (cur : pystr) : list pystr :=
  match s with
  | [] => match cur with [] => [] | _ => [rev cur] end
  | c :: t =>
      if c =? 95 then
        match cur with [] => chunks_go t [] | _ => rev cur :: chunks_go t [] end
      else chunks_go t (c :: cur)
  end.
Definition chunks (s : pystr) : list pystr := chunks_go s [].

(** [x[0].upper() + x[1:]] *)
Definition cap (x : pystr) : pystr :=
  match x with [] => [] | c :: t => u_upper U c ++ t end.

(** utils.snake_to_camel_case, /repo/webauthn_rp/utils.py:41-54. *)
Definition snake_to_camel (s : pystr) : pystr :=
  match chunks s with
  | [] => []
  | c0 :: rest => c0 ++ concat (map cap rest)
  end.

(** [x.lower()] *)
Definition lower (s : pystr) : pystr := concat (map (u_lower U) s).

(** The loop of /repo/webauthn_rp/utils.py:66-72: [cur] is s[s_index:i] reversed. *)
Fixpoint words_go (s : pystr) (cur : pystr) : list pystr :=
  match s with
  | [] => match cur with [] => [] | _ => [lower (rev cur)] end
  | c :: t =>
      if u_isupper U c then lower (rev cur) :: words_go t [c]
      else words_go t (c :: cur)
  end.

(** [sep.join(words)] with sep = '_'. *)
Fixpoint join_us (ws : list pystr) : pystr :=
  match ws with
  | [] => []
  | [w] => w
  | w :: t => w ++ 95 :: join_us t
  end.

(** utils.camel_to_snake_case, /repo/webauthn_rp/utils.py:57-73. *)
Definition camel_to_snake (s : pystr) : pystr := join_us (words_go s []).

End Conv.
