(** * Heap: the builders as objects with identity (builders.py: _copy, setters, build). *)
From Coq Require Import List NArith ZArith Bool String.
From Verif Require Import Base PyVal.
Import ListNotations.
Local Open Scope res_scope.
Local Open Scope list_scope.

(** A reference: None, an immutable value (numbers, strings, bytes, Enum members, tuples of
    such), or the address of a mutable object. *)
Inductive ref := RNone | RAtom (v : pyval) | RAddr (a : nat).

(** Attributes of an instance, items of a list. *)
Inductive slot := SAttr (name : string) | SItem (i : N).
Definition slot_eqb (s t : slot) : bool :=
  match s, t with
  | SAttr a, SAttr b => String.eqb a b
  | SItem i, SItem j => N.eqb i j
  | _, _ => false
  end.

(** An object: its class and its slots.  A heap is a list of objects; addresses are
    positions, allocation appends. *)
Record node := { nd_class : string; nd_slots : list (slot * ref) }.
Definition heap := list node.

Definition get (nd : node) (name : string) : ref :=
  match find (fun kr => slot_eqb (fst kr) (SAttr name)) (nd_slots nd) with
  | Some (_, r) => r
  | None => RNone
  end.
(** [obj.name = r] for an attribute or item the object has. *)
Definition put (nd : node) (s : slot) (r : ref) : node :=
  {| nd_class := nd_class nd;
     nd_slots := map (fun kr => if slot_eqb (fst kr) s then (fst kr, r) else kr) (nd_slots nd) |}.
Fixpoint store (h : heap) (a : nat) (nd : node) : heap :=
  match h, a with
  | [], _ => []
  | _ :: t, O => nd :: t
  | x :: t, S a' => x :: store t a' nd
  end.
Definition write (h : heap) (a : nat) (s : slot) (r : ref) : heap :=
  match nth_error h a with Some nd => store h a (put nd s r) | None => h end.

Section Builders.
(** copy.deepcopy: heap and address to the extended heap and the copy's address. *)
Variable deepcopy : heap -> nat -> heap * nat.

(** Attributes whose setter asserts that the argument is not None
    (builders.py:92, 109, 171 and 302). *)
Definition required (name : string) : bool :=
  existsb (String.eqb name) ["_rp"; "_pub_key_cred_params"; "_attestation"; "_mediation"]%string.

(** Every setter, builders.py:82-192 and 289-365: assert, c = self._copy() (79-80,
    286-287), c.<name> = v, return c. *)
Definition setter (h : heap) (b : nat) (name : string) (v : ref) : res (heap * nat) :=
  match required name, v with
  | true, RNone => Raise (Py EAssertionError)
  | _, _ => let '(h', c) := deepcopy h b in Ok (write h' c (SAttr name) v, c)
  end.
End Builders.

(** [x is None]. *)
Definition is_rnone (r : ref) : bool := match r with RNone => true | _ => false end.

(** CredentialCreationOptionsBuilder.build, builders.py:194-236: two new objects that hold
    the very references of the builder and of the caller. *)
Definition heap_creation_build (h : heap) (b : nat) (user challenge : ref) : res (heap * nat) :=
  match nth_error h b with
  | None => Raise (Py ETypeError) (* no such object *)
  | Some nd =>
      if is_rnone user || is_rnone challenge then Raise (Py EAssertionError)
      else if existsb (fun n => is_rnone (get nd n)) ["_rp"; "_pub_key_cred_params"; "_attestation"]%string
      then raise BuilderError
      else
        let inner := {| nd_class := "PublicKeyCredentialCreationOptions";
          nd_slots := [(SAttr "rp", get nd "_rp"); (SAttr "user", user);
            (SAttr "challenge", challenge);
            (SAttr "pub_key_cred_params", get nd "_pub_key_cred_params");
            (SAttr "timeout", get nd "_timeout");
            (SAttr "exclude_credentials", get nd "_exclude_credentials");
            (SAttr "authenticator_selection", get nd "_authenticator_selection");
            (SAttr "attestation", get nd "_attestation");
            (SAttr "extensions", get nd "_extensions")] |}%string in
        let outer := {| nd_class := "CredentialCreationOptions";
          nd_slots := [(SAttr "public_key", RAddr (List.length h))] |}%string in
        Ok (h ++ [inner; outer], S (List.length h))
  end.

(** CredentialRequestOptionsBuilder.build, builders.py:367-402. *)
Definition heap_request_build (h : heap) (b : nat) (challenge allow : ref) : res (heap * nat) :=
  match nth_error h b with
  | None => Raise (Py ETypeError)
  | Some nd =>
      if is_rnone challenge then Raise (Py EAssertionError)
      else if is_rnone (get nd "_mediation") then raise BuilderError
      else
        let inner := {| nd_class := "PublicKeyCredentialRequestOptions";
          nd_slots := [(SAttr "challenge", challenge); (SAttr "timeout", get nd "_timeout");
            (SAttr "rp_id", get nd "_rp_id"); (SAttr "allow_credentials", allow);
            (SAttr "user_verification", get nd "_user_verification");
            (SAttr "extensions", get nd "_extensions")] |}%string in
        let outer := {| nd_class := "CredentialRequestOptions";
          nd_slots := [(SAttr "mediation", get nd "_mediation");
            (SAttr "public_key", RAddr (List.length h))] |}%string in
        Ok (h ++ [inner; outer], S (List.length h))
  end.

(** ** Observation *)

(** What a reference shows when followed [n] levels deep. *)
Inductive tree :=
| TNone
| TAtom (v : pyval)
| TCut
| TNode (cls : string) (slots : list (slot * tree)).

(** What can be read from a reference in [n] steps. *)
Fixpoint view (n : nat) (h : heap) (r : ref) : tree :=
  match r with
  | RNone => TNone
  | RAtom v => TAtom v
  | RAddr a =>
      match n with
      | O => TCut
      | S n' =>
          match nth_error h a with
          | None => TCut
          | Some nd => TNode (nd_class nd) (map (fun kr => (fst kr, view n' h (snd kr))) (nd_slots nd))
          end
      end
  end.

(** ** What is assumed of deepcopy *)

Definition valid (h : heap) (r : ref) : Prop :=
  match r with RAddr a => (a < List.length h)%nat | _ => True end.
(** No dangling references. *)
Definition closed (h : heap) : Prop :=
  forall nd k r, In nd h -> In (k, r) (nd_slots nd) -> valid h r.

(** [a] is reached from [r]. *)
Inductive reaches (h : heap) : ref -> nat -> Prop :=
| reach_here a : reaches h (RAddr a) a
| reach_slot a nd k r x : nth_error h a = Some nd -> In (k, r) (nd_slots nd) ->
    reaches h r x -> reaches h (RAddr a) x.

(** A reference, and a node, after addresses were renamed (copy.deepcopy, builders.py:79-80, 286-287). *)
Definition rename_ref (f : nat -> nat) (r : ref) : ref :=
  match r with RAddr a => RAddr (f a) | _ => r end.
Definition rename (f : nat -> nat) (nd : node) : node :=
  {| nd_class := nd_class nd;
     nd_slots := map (fun kr => (fst kr, rename_ref f (snd kr))) (nd_slots nd) |}.

(** deepcopy leaves existing objects alone and gives every object [x] reached from the
    argument a distinct new object [f x] of the same class, whose slots hold the copies;
    new objects refer to new objects only. *)
Definition copies (deepcopy : heap -> nat -> heap * nat) : Prop :=
  forall h a, closed h -> (a < List.length h)%nat ->
  exists new f, deepcopy h a = (h ++ new, f a) /\
    (forall x nd, reaches h (RAddr a) x -> nth_error h x = Some nd ->
       (List.length h <= f x)%nat /\ nth_error (h ++ new) (f x) = Some (rename f nd)) /\
    (forall x y, reaches h (RAddr a) x -> reaches h (RAddr a) y -> f x = f y -> x = y) /\
    (forall nd k x, In nd new -> In (k, RAddr x) (nd_slots nd) ->
       (List.length h <= x < List.length h + List.length new)%nat).

(** One step of a program that uses builders without assigning to attributes itself:
    allocation (constructors included), a setter call, a build. *)
Inductive step (deepcopy : heap -> nat -> heap * nat) : heap -> heap -> Prop :=
| step_new h nd : (forall k r, In (k, r) (nd_slots nd) -> valid (h ++ [nd]) r) ->
    step deepcopy h (h ++ [nd])
| step_set h b name v h' c : (b < List.length h)%nat -> valid h v ->
    setter deepcopy h b name v = Ok (h', c) -> step deepcopy h h'
| step_build h b u c h' o : valid h u -> valid h c ->
    heap_creation_build h b u c = Ok (h', o) -> step deepcopy h h'
| step_rbuild h b c l h' o : valid h c -> valid h l ->
    heap_request_build h b c l = Ok (h', o) -> step deepcopy h h'.
Inductive steps (deepcopy : heap -> nat -> heap * nat) : heap -> heap -> Prop :=
| steps_nil h : steps deepcopy h h
| steps_cons h h1 h2 : step deepcopy h h1 -> steps deepcopy h1 h2 -> steps deepcopy h h2.

(** What a build shows. *)
Definition shows (n : nat) (r : res (heap * nat)) : res tree :=
  match r with Ok (h, o) => Ok (view n h (RAddr o)) | Raise e => Raise e end.
