(** * Jsonify: converters.jsonify and the objects it is used on. *)
From Coq Require Import List NArith ZArith Bool String.
From Verif Require Import Base PyVal B64 CaseConv Types.
Import ListNotations.
Local Open Scope res_scope.
Local Open Scope list_scope.

(** Keys of a dictionary: exact [str] or anything else. *)
Inductive pkey := KStr (s : pystr) | KOther.

(** Python objects as jsonify sees them.  [OObj]: an instance with a [__dict__] that is not
    an Enum member (this includes functions and instances of subclasses of str, dict, ...);
    [OOpaque]: an object without [__dict__] of a type jsonify does not list (set, Decimal,
    NamedTuple, ...), or whose [__dict__] is not a dict (classes).  Trees are finite:
    JsonGraph.v has objects that are shared or contain themselves. *)
Inductive pobj :=
| ONone
| OBool (b : bool)
| OInt (z : Z)
| OFloat (bits : N)
| OStr (s : pystr)
| OBytes (b : bytes)
| OList (l : list pobj)
| OTuple (l : list pobj)
| ODict (m : list (pkey * pobj))
| OEnum (value : pobj)
| OObj (attrs : list (pkey * pobj))
| OOpaque.

(** [x is None], converters.py:32-73. *)
Definition is_onone (t : pobj) : bool := match t with ONone => true | _ => false end.

(** [type(k) is str]. *)
Definition str_key (k : pkey) : bool := match k with KStr _ => true | KOther => false end.

(** [[f(x) for x in l]] *)
Fixpoint each {A B} (f : A -> res B) (l : list A) : res (list B) :=
  match l with
  | [] => Ok []
  | x :: t => y <- f x ;; ys <- each f t ;; Ok (y :: ys)
  end.

(** [{conv(k): f(v) for k, v in m.items() if v is not None}] *)
Fixpoint members (conv : pystr -> pystr) (f : pobj -> res pyval)
         (m : list (pkey * pobj)) (acc : pydict) : res pydict :=
  match m with
  | [] => Ok acc
  | (KStr k, v) :: t =>
      if is_onone v then members conv f t acc
      else w <- f v ;; members conv f t (dict_set (VStr (conv k)) w acc)
  | (KOther, _) :: t => members conv f t acc (* not reached: keys are checked first *)
  end.

Section Jsonify.
Variable U : unicode.

(** jsonify, /repo/webauthn_rp/converters.py:31-73.  [depth]: how many nested calls the
    interpreter still allows. *)
Fixpoint jsonify (depth : nat) (convert_case : bool) (t : pobj) : res pyval :=
  match depth with
  | O => Raise (Py ERecursionError)
  | S d =>
      let conv k := if convert_case then snake_to_camel U k else k in
      let dict m :=
        check (forallb (fun kv => str_key (fst kv)) m) (Lib JSONConversionError) ;;;
        r <- members conv (jsonify d convert_case) m [] ;; Ok (VDict r) in
      match t with
      | OObj attrs => dict attrs
      | OEnum v => jsonify d convert_case v
      | ODict m => dict m
      | OBytes b => Ok (VStr (b2a b))
      | OStr s => Ok (VStr s)
      | OInt z => Ok (VInt z)
      | OFloat x => Ok (VFloat x)
      | OBool b => Ok (VBool b)
      | OList l | OTuple l => r <- each (jsonify d convert_case) l ;; Ok (VList r)
      | ONone => Ok VNone
      | OOpaque => raise UnimplementedError
      end
  end.

End Jsonify.

(** ** Objects of types.py *)

(** The [__dict__] of an instance. *)
Definition obj (fields : list (string * pobj)) : pobj :=
  OObj (map (fun '(n, x) => (KStr (lit n), x)) fields).
Definition opt {A} (f : A -> pobj) (o : option A) : pobj :=
  match o with None => ONone | Some a => f a end.

(** AuthenticatorAttestationResponse and AuthenticatorAssertionResponse,
    types.py:1012-1014, 1043-1047, 1073-1083. *)
Definition obj_of_response (r : response) : pobj :=
  match r with
  | AttestationResponse cdj ao =>
      obj [("client_data_JSON", OBytes cdj); ("attestation_object", OBytes ao)]
  | AssertionResponse cdj ad sig uh =>
      obj [("client_data_JSON", OBytes cdj); ("authenticator_data", OBytes ad);
           ("signature", OBytes sig); ("user_handle", opt OBytes uh)]
  end%string.
(** PublicKeyCredential, types.py:1100-1103, 1131-1135. *)
Definition obj_of_credential (c : credential) : pobj :=
  obj [("id", OStr (cr_id c)); ("type", OStr (cr_type c)); ("raw_id", OBytes (cr_raw_id c));
       ("response", obj_of_response (cr_response c))]%string.
