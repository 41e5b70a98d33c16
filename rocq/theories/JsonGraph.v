(** * JsonGraph: jsonify on objects that may be shared or contain themselves. *)
From Coq Require Import List NArith ZArith Bool String.
From Verif Require Import Base PyVal B64 CaseConv Types Jsonify.
Import ListNotations.
Local Open Scope res_scope.
Local Open Scope list_scope.

(** The objects of Jsonify.v, with references in place of parts. *)
Inductive gnode :=
| GNone
| GBool (b : bool)
| GInt (z : Z)
| GFloat (bits : N)
| GStr (s : pystr)
| GBytes (b : bytes)
| GList (l : list nat)
| GTuple (l : list nat)
| GDict (m : list (pkey * nat))
| GEnum (value : nat)
| GObj (attrs : list (pkey * nat))
| GOpaque.

(** The objects of a program, by address. *)
Definition graph := nat -> gnode.

Section Graph.
Variable U : unicode.
Variable g : graph.

(** [{conv(k): f(v) for k, v in m.items() if v is not None}] *)
Fixpoint gmembers (conv : pystr -> pystr) (f : nat -> res pyval)
         (m : list (pkey * nat)) (acc : pydict) : res pydict :=
  match m with
  | [] => Ok acc
  | (KStr k, a) :: t =>
      match g a with
      | GNone => gmembers conv f t acc
      | _ => w <- f a ;; gmembers conv f t (dict_set (VStr (conv k)) w acc)
      end
  | (KOther, _) :: t => gmembers conv f t acc (* not reached: keys are checked first *)
  end.

(** jsonify, /repo/webauthn_rp/converters.py:31-73, on the object at [a]. *)
Fixpoint gjsonify (depth : nat) (convert_case : bool) (a : nat) : res pyval :=
  match depth with
  | O => Raise (Py ERecursionError)
  | S d =>
      let conv k := if convert_case then snake_to_camel U k else k in
      let dict m :=
        check (forallb (fun kv => str_key (fst kv)) m) (Lib JSONConversionError) ;;;
        r <- gmembers conv (gjsonify d convert_case) m [] ;; Ok (VDict r) in
      match g a with
      | GObj attrs => dict attrs
      | GEnum v => gjsonify d convert_case v
      | GDict m => dict m
      | GBytes b => Ok (VStr (b2a b))
      | GStr s => Ok (VStr s)
      | GInt z => Ok (VInt z)
      | GFloat x => Ok (VFloat x)
      | GBool b => Ok (VBool b)
      | GList l | GTuple l => r <- each (gjsonify d convert_case) l ;; Ok (VList r)
      | GNone => Ok VNone
      | GOpaque => raise UnimplementedError
      end
  end.

End Graph.
