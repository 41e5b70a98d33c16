(** * Properties C50, C57: builders are persistent; what they share. *)
From Coq Require Import List NArith ZArith Bool String.
From Verif Require Import Base PyVal Heap HeapFacts HeapProps.
Import ListNotations.
Local Open Scope list_scope.

(** C50: whatever setters and builds are called on whatever builders, an existing builder
    keeps building what it built; for every deepcopy that copies, to any depth of
    observation. *)
Theorem C50_creation_persistent :
  forall (deepcopy : heap -> nat -> heap * nat) (h h' : heap) (b : nat) (user challenge : ref) (n : nat),
  copies deepcopy -> closed h -> steps deepcopy h h' ->
  (b < List.length h)%nat -> valid h user -> valid h challenge ->
  shows n (heap_creation_build h' b user challenge) = shows n (heap_creation_build h b user challenge).
Proof. exact (@c50_creation). Qed.
Print Assumptions C50_creation_persistent.

Theorem C50_request_persistent :
  forall (deepcopy : heap -> nat -> heap * nat) (h h' : heap) (b : nat) (challenge allow : ref) (n : nat),
  copies deepcopy -> closed h -> steps deepcopy h h' ->
  (b < List.length h)%nat -> valid h challenge -> valid h allow ->
  shows n (heap_request_build h' b challenge allow) = shows n (heap_request_build h b challenge allow).
Proof. exact (@c50_request). Qed.
Print Assumptions C50_request_persistent.

(** C50: no object that existed is modified at all. *)
Theorem C50_objects_unchanged :
  forall (deepcopy : heap -> nat -> heap * nat) (h h' : heap) (a : nat),
  copies deepcopy -> closed h -> steps deepcopy h h' -> (a < List.length h)%nat ->
  nth_error h' a = nth_error h a.
Proof. exact (@c50_objects). Qed.
Print Assumptions C50_objects_unchanged.

(** C50: the builder a setter returns is a new object that shows the old builder with the one
    attribute replaced (the builder not being part of its own attributes). *)
Theorem C50_setter_result :
  forall (deepcopy : heap -> nat -> heap * nat) (h : heap) (b : nat) (name : string) (v : ref)
  (h' : heap) (c : nat) (nd : node),
  copies deepcopy -> closed h -> valid h v -> nth_error h b = Some nd ->
  (forall k r, In (k, r) (nd_slots nd) -> ~ reaches h r b) ->
  setter deepcopy h b name v = Ok (h', c) ->
  (List.length h <= c < List.length h')%nat /\
  forall n, exists slots, view (S n) h' (RAddr c) = TNode (nd_class nd) slots /\
    Forall2 (fun kr kt => fst kt = fst kr /\
      (fst kr = SAttr name -> snd kt = view n h v) /\
      (fst kr <> SAttr name -> snd kt = view n h (snd kr))) (nd_slots nd) slots.
Proof. exact (@c50_setter). Qed.
Print Assumptions C50_setter_result.

(** C50: the attribute of a name is the first slot of that name, None if there is none. *)
Theorem C50_attribute :
  forall (nd : node) (name : string) (r : ref),
  get nd name = r <->
  (exists l1 l2, nd_slots nd = l1 ++ (SAttr name, r) :: l2 /\ forall r', ~ In (SAttr name, r') l1) \/
  (r = RNone /\ forall r', ~ In (SAttr name, r') (nd_slots nd)).
Proof. exact (@c50_attribute). Qed.
Print Assumptions C50_attribute.

(** C50: a setter fails only by the assertion on None. *)
Theorem C50_setter_fails :
  forall (deepcopy : heap -> nat -> heap * nat) (h : heap) (b : nat) (name : string) (v : ref) (e : exn),
  setter deepcopy h b name v = Raise e <->
  e = Py EAssertionError /\ v = RNone /\
  In name ["_rp"; "_pub_key_cred_params"; "_attestation"; "_mediation"]%string.
Proof. exact (@c50_fails). Qed.
Print Assumptions C50_setter_fails.

(** C50: build asserts that its arguments are not None before it looks for missing attributes,
    and otherwise returns two new objects around the attributes and arguments. *)
Theorem C50_creation_built :
  forall (h : heap) (b : nat) (user challenge : ref) (n : nat) (nd : node),
  closed h -> valid h user -> valid h challenge -> nth_error h b = Some nd ->
  let missing := exists a, In a ["_rp"; "_pub_key_cred_params"; "_attestation"]%string /\ get nd a = RNone in
  (user = RNone \/ challenge = RNone -> heap_creation_build h b user challenge = Raise (Py EAssertionError)) /\
  (user <> RNone -> challenge <> RNone -> missing -> heap_creation_build h b user challenge = raise BuilderError) /\
  (user <> RNone -> challenge <> RNone -> ~ missing ->
   shows (S (S n)) (heap_creation_build h b user challenge) =
   Ok (TNode "CredentialCreationOptions" [(SAttr "public_key", TNode "PublicKeyCredentialCreationOptions"
     [(SAttr "rp", view n h (get nd "_rp")); (SAttr "user", view n h user); (SAttr "challenge", view n h challenge);
      (SAttr "pub_key_cred_params", view n h (get nd "_pub_key_cred_params"));
      (SAttr "timeout", view n h (get nd "_timeout"));
      (SAttr "exclude_credentials", view n h (get nd "_exclude_credentials"));
      (SAttr "authenticator_selection", view n h (get nd "_authenticator_selection"));
      (SAttr "attestation", view n h (get nd "_attestation"));
      (SAttr "extensions", view n h (get nd "_extensions"))])]))%string.
Proof. exact c50_creation_built. Qed.
Print Assumptions C50_creation_built.
Theorem C50_request_built :
  forall (h : heap) (b : nat) (challenge allow : ref) (n : nat) (nd : node),
  closed h -> valid h challenge -> valid h allow -> nth_error h b = Some nd ->
  (challenge = RNone -> heap_request_build h b challenge allow = Raise (Py EAssertionError)) /\
  (challenge <> RNone -> get nd "_mediation" = RNone -> heap_request_build h b challenge allow = raise BuilderError) /\
  (challenge <> RNone -> get nd "_mediation" <> RNone ->
   shows (S (S n)) (heap_request_build h b challenge allow) =
   Ok (TNode "CredentialRequestOptions" [(SAttr "mediation", view (S n) h (get nd "_mediation"));
     (SAttr "public_key", TNode "PublicKeyCredentialRequestOptions"
       [(SAttr "challenge", view n h challenge); (SAttr "timeout", view n h (get nd "_timeout"));
        (SAttr "rp_id", view n h (get nd "_rp_id")); (SAttr "allow_credentials", view n h allow);
        (SAttr "user_verification", view n h (get nd "_user_verification"));
        (SAttr "extensions", view n h (get nd "_extensions"))])]))%string.
Proof. exact c50_request_built. Qed.
Print Assumptions C50_request_built.
Example hyp_built_objects :
  nth_error heap_x 1 = Some (builder_node (RAddr 0) RNone) /\ valid heap_x user_x /\ user_x <> RNone /\ challenge_x <> RNone /\
  ~ (exists a, In a ["_rp"; "_pub_key_cred_params"; "_attestation"]%string /\ get (builder_node (RAddr 0) RNone) a = RNone).
Proof.
  split; [reflexivity|]. split; [exact I|]. split; [discriminate|]. split; [discriminate|].
  intros (a & [<-|[<-|[<-|[]]]] & H); discriminate H.
Qed.

Example hyp_heap :
  copies copy_all /\ closed heap_x /\
  exists h' c, setter copy_all heap_x 1 "_timeout" (RAtom (VInt 60000)) = Ok (h', c) /\
    steps copy_all heap_x h' /\
    (exists o t, heap_creation_build h' c user_x challenge_x = Ok (o, t)) /\
    shows 9 (heap_creation_build h' c user_x challenge_x) <> shows 9 (heap_creation_build heap_x 1 user_x challenge_x).
Proof. exact heap_x_example. Qed.
Example hyp_acyclic k r : In (k, r) (nd_slots (builder_node (RAddr 0) RNone)) -> ~ reaches heap_x r 1.
Proof. exact (heap_x_acyclic k r). Qed.

(** C57: what assigning to an attribute or an item means: the slot of that name of that object
    is replaced, and nothing else. *)
Theorem C57_assignment :
  forall (h : heap) (a : nat) (s : slot) (w : ref) (nd : node),
  nth_error h a = Some nd ->
  (forall b, b <> a -> nth_error (write h a s w) b = nth_error h b) /\
  exists slots, nth_error (write h a s w) a = Some {| nd_class := nd_class nd; nd_slots := slots |} /\
    Forall2 (fun kr kr' => fst kr' = fst kr /\ (fst kr = s -> snd kr' = w) /\ (fst kr <> s -> snd kr' = snd kr))
      (nd_slots nd) slots.
Proof. exact (@c57_assignment). Qed.
Print Assumptions C57_assignment.
Example hyp_assigned :
  nth_error heap_x 1 = Some (builder_node (RAddr 0) RNone) /\ write heap_x 1 (SAttr "_timeout") (RAtom (VInt 1)) <> heap_x.
Proof. split; [reflexivity|discriminate]. Qed.

(** C57 fails: the object given to a setter is shared with the builder, and the objects of
    built options are those of the builder; assigning to them changes later builds. *)
Theorem C57_isolation_refuted :
  (exists h b v h' c a s w,
     closed h /\ setter copy_all h b "_rp" v = Ok (h', c) /\ (a < List.length h)%nat /\
     shows 9 (heap_creation_build (write h' a s w) c user_x challenge_x)
     <> shows 9 (heap_creation_build h' c user_x challenge_x)) /\
  (exists h b h' o a s w,
     closed h /\ heap_creation_build h b user_x challenge_x = Ok (h', o) /\ reaches h' (RAddr o) a /\
     shows 9 (heap_creation_build (write h' a s w) b user_x challenge_x)
     <> shows 9 (heap_creation_build h' b user_x challenge_x)).
Proof. exact (@c57_refuted). Qed.
Print Assumptions C57_isolation_refuted.

(** In general: an object given to a setter of an attribute the builder has is an object of
    the new builder, for every deepcopy. *)
Theorem C57_argument_shared :
  forall (deepcopy : heap -> nat -> heap * nat) (h : heap) (b : nat) (name : string) (a : nat)
  (h' : heap) (c : nat) (nd : node) (r : ref),
  copies deepcopy -> closed h -> nth_error h b = Some nd -> In (SAttr name, r) (nd_slots nd) ->
  (a < List.length h)%nat ->
  setter deepcopy h b name (RAddr a) = Ok (h', c) -> reaches h' (RAddr c) a.
Proof. exact (@c57_shared). Qed.
Print Assumptions C57_argument_shared.

(** In general: the objects of a builder's attributes are objects of the options it builds. *)
Theorem C57_options_shared :
  forall (h : heap) (b : nat) (user challenge : ref) (h' : heap) (o : nat) (nd : node) (name : string) (a : nat),
  nth_error h b = Some nd ->
  In name ["_rp"; "_pub_key_cred_params"; "_timeout"; "_exclude_credentials";
           "_authenticator_selection"; "_attestation"; "_extensions"]%string ->
  get nd name = RAddr a ->
  heap_creation_build h b user challenge = Ok (h', o) -> reaches h' (RAddr o) a.
Proof. exact (@c57_options). Qed.
Print Assumptions C57_options_shared.

(** C57, what holds: assigning to any old object that is not part of the setter's argument
    does not change the new builder. *)
Theorem C57_new_builder_partial :
  forall (deepcopy : heap -> nat -> heap * nat) (h : heap) (b : nat) (name : string) (v : ref)
  (h' : heap) (c a : nat) (s : slot) (w : ref) (n : nat),
  copies deepcopy -> closed h -> (b < List.length h)%nat -> valid h v ->
  setter deepcopy h b name v = Ok (h', c) -> (a < List.length h)%nat -> ~ reaches h v a ->
  view n (write h' a s w) (RAddr c) = view n h' (RAddr c).
Proof. exact (@c57_new). Qed.
Print Assumptions C57_new_builder_partial.

(** C57, what holds: assigning to any object of the new builder that is not part of the
    argument changes nothing that existed before. *)
Theorem C57_old_objects_partial :
  forall (deepcopy : heap -> nat -> heap * nat) (h : heap) (b : nat) (name : string) (v : ref)
  (h' : heap) (c a : nat) (s : slot) (w : ref) (n : nat) (r : ref),
  copies deepcopy -> closed h -> (b < List.length h)%nat -> valid h v ->
  setter deepcopy h b name v = Ok (h', c) -> valid h r ->
  reaches h' (RAddr c) a -> ~ reaches h v a ->
  view n (write h' a s w) r = view n h r.
Proof. exact (@c57_old). Qed.
Print Assumptions C57_old_objects_partial.

Example hyp_isolated : exists h' c,
  setter copy_all heap_x 1 "_timeout" (RAtom (VInt 60000)) = Ok (h', c) /\
  ~ reaches heap_x (RAtom (VInt 60000)) 0 /\ reaches h' (RAddr c) 2 /\
  write h' 2 (SAttr "name") RNone <> h'.
Proof. exact heap_x_isolated. Qed.
