(** * HeapProps: lemmas behind PropsHeap. *)
From Coq Require Import List NArith ZArith Bool String Strings.Byte Arith Lia.
From Verif Require Import Base PyVal Heap HeapFacts.
Import ListNotations.
Local Open Scope list_scope.

Lemma c50_creation (deepcopy : heap -> nat -> heap * nat) (h h' : heap) (b : nat) (user challenge : ref) (n : nat) :
  copies deepcopy -> closed h -> steps deepcopy h h' ->
  (b < List.length h)%nat -> valid h user -> valid h challenge ->
  shows n (heap_creation_build h' b user challenge) = shows n (heap_creation_build h b user challenge).
Proof.
  intros DC Hc Hs Hb Hu Hv. exact (old_creation_same deepcopy DC h h' b user challenge n Hc Hs Hb Hu Hv).
Qed.

Lemma c50_request (deepcopy : heap -> nat -> heap * nat) (h h' : heap) (b : nat) (challenge allow : ref) (n : nat) :
  copies deepcopy -> closed h -> steps deepcopy h h' ->
  (b < List.length h)%nat -> valid h challenge -> valid h allow ->
  shows n (heap_request_build h' b challenge allow) = shows n (heap_request_build h b challenge allow).
Proof.
  intros DC Hc Hs Hb Hu Hv. exact (old_request_same deepcopy DC h h' b challenge allow n Hc Hs Hb Hu Hv).
Qed.

Lemma c50_objects (deepcopy : heap -> nat -> heap * nat) (h h' : heap) (a : nat) :
  copies deepcopy -> closed h -> steps deepcopy h h' -> (a < List.length h)%nat ->
  nth_error h' a = nth_error h a.
Proof.
  intros DC Hc Hs Ha. destruct (steps_grow deepcopy DC h h' Hc Hs) as (_ & new & ->).
  now apply nth_error_app1.
Qed.

Lemma c50_setter (deepcopy : heap -> nat -> heap * nat) (h : heap) (b : nat) (name : string) (v : ref)
  (h' : heap) (c : nat) (nd : node) :
  copies deepcopy -> closed h -> valid h v -> nth_error h b = Some nd ->
  (forall k r, In (k, r) (nd_slots nd) -> ~ reaches h r b) ->
  setter deepcopy h b name v = Ok (h', c) ->
  (List.length h <= c < List.length h')%nat /\
  forall n, exists slots, view (S n) h' (RAddr c) = TNode (nd_class nd) slots /\
    Forall2 (fun kr kt => fst kt = fst kr /\
      (fst kr = SAttr name -> snd kt = view n h v) /\
      (fst kr <> SAttr name -> snd kt = view n h (snd kr))) (nd_slots nd) slots.
Proof.
  intros DC Hc Hv E Hcyc H.
  assert (Hb : (b < List.length h)%nat) by (apply nth_error_Some; congruence).
  split; [exact (proj2 (proj2 (setter_grows deepcopy DC _ _ _ _ _ _ Hc Hb Hv H)))|].
  intro n. eexists. split; [exact (setter_shows deepcopy DC _ _ _ _ _ _ n nd Hc Hb Hv E Hcyc H)|].
  clear. induction (nd_slots nd) as [|[k r] l IH]; cbn [map]; constructor; [|exact IH].
  cbn [fst snd]. split; [reflexivity|]. destruct (slot_eqb k (SAttr name)) eqn:Q.
  - apply slot_eqb_eq in Q. split; [reflexivity|]. intro N. now apply N in Q.
  - split; [|reflexivity]. intro Q'. apply slot_eqb_eq in Q'. congruence.
Qed.

Lemma c50_attribute (nd : node) (name : string) (r : ref) :
  get nd name = r <->
  (exists l1 l2, nd_slots nd = l1 ++ (SAttr name, r) :: l2 /\ forall r', ~ In (SAttr name, r') l1) \/
  (r = RNone /\ forall r', ~ In (SAttr name, r') (nd_slots nd)).
Proof.
  unfold get. induction (nd_slots nd) as [|[k r0] l IH]; cbn [find fst].
  - split; [intros <-; right; split; [reflexivity|intros r' []]|]. intros [([|a l1] & l2 & Q & _)|[-> _]]; [discriminate Q|discriminate Q|reflexivity].
  - destruct (slot_eqb k (SAttr name)) eqn:Q.
    + apply slot_eqb_eq in Q. subst k. split.
      * intros <-. left. exists [], l. split; [reflexivity|intros r' []].
      * intros [([|a l1] & l2 & Q & N)|[_ N]].
        -- now injection Q as <- _.
        -- injection Q as <- _. exfalso. apply (N r0). now left.
        -- exfalso. apply (N r0). now left.
    + assert (K : k <> SAttr name) by (intro Z; apply slot_eqb_eq in Z; congruence).
      rewrite IH. split.
      * intros [(l1 & l2 & -> & N)|[-> N]].
        -- left. exists ((k, r0) :: l1), l2. split; [reflexivity|]. intros r' [Z|Z]; [congruence|now apply N in Z].
        -- right. split; [reflexivity|]. intros r' [Z|Z]; [congruence|now apply N in Z].
      * intros [([|a l1] & l2 & Z & N)|[-> N]].
        -- injection Z as Z _. congruence.
        -- injection Z as <- ->. left. exists l1, l2. split; [reflexivity|]. intros r' I. apply (N r'). now right.
        -- right. split; [reflexivity|]. intros r' I. apply (N r'). now right.
Qed.

Lemma c57_assignment (h : heap) (a : nat) (s : slot) (w : ref) (nd : node) :
  nth_error h a = Some nd ->
  (forall b, b <> a -> nth_error (write h a s w) b = nth_error h b) /\
  exists slots, nth_error (write h a s w) a = Some {| nd_class := nd_class nd; nd_slots := slots |} /\
    Forall2 (fun kr kr' => fst kr' = fst kr /\ (fst kr = s -> snd kr' = w) /\ (fst kr <> s -> snd kr' = snd kr))
      (nd_slots nd) slots.
Proof.
  intro E. split; [intros b N; apply write_other; congruence|].
  eexists. split; [rewrite (write_same _ _ _ _ _ E); reflexivity|].
  clear. induction (nd_slots nd) as [|[k r] l IH]; cbn [map]; constructor; [|exact IH].
  cbn [fst snd]. destruct (slot_eqb k s) eqn:Q; cbn [fst snd]; split; try reflexivity.
  - apply slot_eqb_eq in Q. split; [reflexivity|]. intro N. now apply N in Q.
  - split; [|reflexivity]. intro Q'. apply slot_eqb_eq in Q'. congruence.
Qed.

Lemma c50_fails (deepcopy : heap -> nat -> heap * nat) (h : heap) (b : nat) (name : string) (v : ref) (e : exn) :
  setter deepcopy h b name v = Raise e <->
  e = Py EAssertionError /\ v = RNone /\
  In name ["_rp"; "_pub_key_cred_params"; "_attestation"; "_mediation"]%string.
Proof.
  unfold setter. assert (R : required name = true <->
     In name ["_rp"; "_pub_key_cred_params"; "_attestation"; "_mediation"]%string).
  { unfold required. rewrite existsb_exists. split.
    - intros (x & Hi & Hx). apply String.eqb_eq in Hx as ->. exact Hi.
    - intros Hi. exists name. split; [exact Hi|apply String.eqb_refl]. }
  split.
  - intros H. destruct (required name), v; try (destruct (deepcopy h b); discriminate).
    injection H as <-. tauto.
  - intros (-> & -> & Hi). apply R in Hi. now rewrite Hi.
Qed.

(** rp at 0, its name changed later; a builder at 1. *)
Definition rp_node (name : string) : node :=
  {| nd_class := "PublicKeyCredentialRpEntity";
     nd_slots := [(SAttr "name", RAtom (VStr (lit name))); (SAttr "id", RAtom (VStr (lit "example.com")))] |}%string.
Definition builder_node (rp timeout : ref) : node :=
  {| nd_class := "CredentialCreationOptionsBuilder";
     nd_slots := [(SAttr "_rp", rp); (SAttr "_pub_key_cred_params", RAtom (VList []));
       (SAttr "_timeout", timeout); (SAttr "_authenticator_selection", RNone);
       (SAttr "_extensions", RNone); (SAttr "_attestation", RAtom (VStr (lit "none")));
       (SAttr "_exclude_credentials", RNone)] |}%string.
Definition user_x : ref := RAtom (VStr (lit "user")).
Definition challenge_x : ref := RAtom (VBytes [x01]).
Definition heap_x : heap := [rp_node "RP"; builder_node (RAddr 0) RNone].
Lemma heap_x_closed : closed heap_x.
Proof.
  intros nd k r [<-|[<-|[]]] Hi; cbn in Hi;
    repeat (destruct Hi as [Hi|Hi]; [injection Hi as <- <-; cbn; auto|]); destruct Hi.
Qed.
Lemma heap_x_acyclic k r : In (k, r) (nd_slots (builder_node (RAddr 0) RNone)) -> ~ reaches heap_x r 1.
Proof.
  intros Hi Hr. cbn in Hi.
  assert (E : (exists v, r = RAtom v) \/ r = RNone \/ r = RAddr 0).
  { repeat (destruct Hi as [Hi|Hi]; [injection Hi as <- <-; eauto|]); destruct Hi. }
  destruct E as [(v & ->)|[->| ->]]; try solve [inversion Hr].
  inversion Hr as [|? nd k' r' x Ea Hk Hx]; subst. cbn in Ea. injection Ea as <-. cbn in Hk.
  assert (E : exists v, r' = RAtom v).
  { repeat (destruct Hk as [Hk|Hk]; [injection Hk as <- <-; eauto|]); destruct Hk. }
  destruct E as (v & ->). inversion Hx.
Qed.
Lemma heap_x_example :
  copies copy_all /\ closed heap_x /\
  exists h' c, setter copy_all heap_x 1 "_timeout" (RAtom (VInt 60000)) = Ok (h', c) /\
    steps copy_all heap_x h' /\
    (exists o t, heap_creation_build h' c user_x challenge_x = Ok (o, t)) /\
    shows 9 (heap_creation_build h' c user_x challenge_x) <> shows 9 (heap_creation_build heap_x 1 user_x challenge_x).
Proof.
  split; [exact copy_all_copies|]. split; [exact heap_x_closed|].
  do 2 eexists. split; [vm_compute; reflexivity|]. split.
  - econstructor; [|constructor]. eapply step_set with (b := 1%nat) (name := "_timeout"%string) (v := RAtom (VInt 60000));
      [cbn; auto|exact I|vm_compute; reflexivity].
  - split; [do 2 eexists; vm_compute; reflexivity|]. vm_compute. discriminate.
Qed.

Lemma c57_refuted :
  (exists h b v h' c a s w,
     closed h /\ setter copy_all h b "_rp" v = Ok (h', c) /\ (a < List.length h)%nat /\
     shows 9 (heap_creation_build (write h' a s w) c user_x challenge_x)
     <> shows 9 (heap_creation_build h' c user_x challenge_x)) /\
  (exists h b h' o a s w,
     closed h /\ heap_creation_build h b user_x challenge_x = Ok (h', o) /\ reaches h' (RAddr o) a /\
     shows 9 (heap_creation_build (write h' a s w) b user_x challenge_x)
     <> shows 9 (heap_creation_build h' b user_x challenge_x)).
Proof.
  split.
  - exists heap_x, 1%nat, (RAddr 0). do 2 eexists.
    exists 0%nat, (SAttr "name"), (RAtom (VStr (lit "Evil"))).
    split; [exact heap_x_closed|]. split; [vm_compute; reflexivity|]. split; [cbn; auto|].
    vm_compute. discriminate.
  - exists heap_x, 1%nat. do 2 eexists. exists 0%nat, (SAttr "name"), (RAtom (VStr (lit "Evil"))).
    split; [exact heap_x_closed|]. split; [vm_compute; reflexivity|]. split.
    + eapply reach_slot; [reflexivity|left; reflexivity|].
      eapply reach_slot; [reflexivity|left; reflexivity|]. apply reach_here.
    + vm_compute. discriminate.
Qed.

Lemma c57_shared (deepcopy : heap -> nat -> heap * nat) (h : heap) (b : nat) (name : string) (a : nat)
  (h' : heap) (c : nat) (nd : node) (r : ref) :
  copies deepcopy -> closed h -> nth_error h b = Some nd -> In (SAttr name, r) (nd_slots nd) ->
  (a < List.length h)%nat ->
  setter deepcopy h b name (RAddr a) = Ok (h', c) -> reaches h' (RAddr c) a.
Proof.
  intros DC Hc E Hi Ha H.
  assert (Hb : (b < List.length h)%nat) by (apply nth_error_Some; congruence).
  destruct (setter_result deepcopy DC h b name (RAddr a) h' c Hc Hb Ha H)
    as (f & nd' & E' & _ & _ & _ & _ & Ec & _). rewrite E in E'. injection E' as <-.
  eapply reach_slot; [exact Ec| |apply reach_here].
  cbn. apply in_map_iff. exists (SAttr name, rename_ref f r). split.
  - cbn. now rewrite String.eqb_refl.
  - apply in_map_iff. exists (SAttr name, r). auto.
Qed.

Lemma c57_options (h : heap) (b : nat) (user challenge : ref) (h' : heap) (o : nat) (nd : node) (name : string) (a : nat) :
  nth_error h b = Some nd ->
  In name ["_rp"; "_pub_key_cred_params"; "_timeout"; "_exclude_credentials";
           "_authenticator_selection"; "_attestation"; "_extensions"]%string ->
  get nd name = RAddr a ->
  heap_creation_build h b user challenge = Ok (h', o) -> reaches h' (RAddr o) a.
Proof.
  intros E Hi G H. unfold heap_creation_build in H. rewrite E in H.
  destruct (is_rnone user || is_rnone challenge); [discriminate|].
  destruct (existsb _ _); [discriminate|]. injection H as <- <-.
  eapply reach_slot.
  { rewrite nth_error_app2 by lia. replace (S (List.length h) - List.length h)%nat with 1%nat by lia. reflexivity. }
  { left. reflexivity. }
  eapply reach_slot.
  { rewrite nth_error_app2 by lia. rewrite Nat.sub_diag. reflexivity. }
  2: apply reach_here.
  cbn [nd_slots In]. cbn [In] in Hi. instantiate (1 := SAttr (substring 1 50 name)). cbn.
  repeat (destruct Hi as [<-|Hi]; [rewrite G; auto 20|]); destruct Hi.
Qed.

Lemma c57_new (deepcopy : heap -> nat -> heap * nat) (h : heap) (b : nat) (name : string) (v : ref)
  (h' : heap) (c a : nat) (s : slot) (w : ref) (n : nat) :
  copies deepcopy -> closed h -> (b < List.length h)%nat -> valid h v ->
  setter deepcopy h b name v = Ok (h', c) -> (a < List.length h)%nat -> ~ reaches h v a ->
  view n (write h' a s w) (RAddr c) = view n h' (RAddr c).
Proof.
  intros DC Hc Hb Hv H Ha Hn. exact (setter_isolated deepcopy DC _ _ _ _ _ _ _ _ _ _ Hc Hb Hv H Ha Hn).
Qed.

Lemma c57_old (deepcopy : heap -> nat -> heap * nat) (h : heap) (b : nat) (name : string) (v : ref)
  (h' : heap) (c a : nat) (s : slot) (w : ref) (n : nat) (r : ref) :
  copies deepcopy -> closed h -> (b < List.length h)%nat -> valid h v ->
  setter deepcopy h b name v = Ok (h', c) -> valid h r ->
  reaches h' (RAddr c) a -> ~ reaches h v a ->
  view n (write h' a s w) r = view n h r.
Proof.
  intros DC Hc Hb Hv H Hr Hx Hn. exact (old_isolated deepcopy DC _ _ _ _ _ _ _ _ _ _ _ Hc Hb Hv H Hr Hx Hn).
Qed.

Lemma heap_x_isolated : exists h' c,
  setter copy_all heap_x 1 "_timeout" (RAtom (VInt 60000)) = Ok (h', c) /\
  ~ reaches heap_x (RAtom (VInt 60000)) 0 /\ reaches h' (RAddr c) 2 /\
  write h' 2 (SAttr "name") RNone <> h'.
Proof.
  do 2 eexists. split; [vm_compute; reflexivity|]. split; [intro H; inversion H|]. split.
  - eapply reach_slot; [reflexivity|left; reflexivity|]. apply reach_here.
  - vm_compute. discriminate.
Qed.

Lemma c50_creation_built (h : heap) (b : nat) (user challenge : ref) (n : nat) (nd : node) :
  closed h -> valid h user -> valid h challenge -> nth_error h b = Some nd ->
  let missing := exists a, In a ["_rp"; "_pub_key_cred_params"; "_attestation"]%string /\ get nd a = RNone in
  (user = RNone \/ challenge = RNone -> heap_creation_build h b user challenge = Raise (Py EAssertionError)) /\
  (user <> RNone -> challenge <> RNone -> missing -> heap_creation_build h b user challenge = raise BuilderError) /\
  (user <> RNone -> challenge <> RNone -> ~ missing ->
   shows (S (S n)) (heap_creation_build h b user challenge) =
   Ok (TNode "CredentialCreationOptions" [(SAttr "public_key", TNode "PublicKeyCredentialCreationOptions"
     [(SAttr "rp", view n h (get nd "_rp")); (SAttr "user", view n h user); (SAttr "challenge", view n h challenge);
      (SAttr "pub_key_cred_params", view n h (get nd "_pub_key_cred_params"));
      (SAttr "timeout", view n h (get nd "_timeout"));
      (SAttr "exclude_credentials", view n h (get nd "_exclude_credentials"));
      (SAttr "authenticator_selection", view n h (get nd "_authenticator_selection"));
      (SAttr "attestation", view n h (get nd "_attestation"));
      (SAttr "extensions", view n h (get nd "_extensions"))])]))%string.
Proof.
  intros Hc Hu Hv E missing.
  assert (N : forall r, is_rnone r = true <-> r = RNone) by (intros []; cbn; split; congruence).
  assert (M : existsb (fun n => is_rnone (get nd n)) ["_rp"; "_pub_key_cred_params"; "_attestation"]%string = true <-> missing).
  { rewrite existsb_exists. unfold missing. split; intros (a & Ha & Hn); exists a; (split; [exact Ha|]); now apply N. }
  assert (U : user <> RNone -> challenge <> RNone -> is_rnone user || is_rnone challenge = false).
  { intros H1 H2. apply not_true_is_false. intro H. apply orb_true_iff in H as [H|H]; apply N in H; auto. }
  split; [|split].
  - intro H. unfold heap_creation_build. rewrite E. destruct H as [-> | ->]; cbn [is_rnone orb]; [reflexivity|].
    now rewrite orb_true_r.
  - intros H1 H2 H. unfold heap_creation_build. rewrite E, (U H1 H2). apply M in H. now rewrite H.
  - intros H1 H2 H. rewrite (build_view_creation _ h user challenge b Hc Hu Hv nd E), (U H1 H2).
    destruct (existsb _ _); [exfalso; now apply H, M|]. reflexivity.
Qed.
Lemma c50_request_built (h : heap) (b : nat) (challenge allow : ref) (n : nat) (nd : node) :
  closed h -> valid h challenge -> valid h allow -> nth_error h b = Some nd ->
  (challenge = RNone -> heap_request_build h b challenge allow = Raise (Py EAssertionError)) /\
  (challenge <> RNone -> get nd "_mediation" = RNone -> heap_request_build h b challenge allow = raise BuilderError) /\
  (challenge <> RNone -> get nd "_mediation" <> RNone ->
   shows (S (S n)) (heap_request_build h b challenge allow) =
   Ok (TNode "CredentialRequestOptions" [(SAttr "mediation", view (S n) h (get nd "_mediation"));
     (SAttr "public_key", TNode "PublicKeyCredentialRequestOptions"
       [(SAttr "challenge", view n h challenge); (SAttr "timeout", view n h (get nd "_timeout"));
        (SAttr "rp_id", view n h (get nd "_rp_id")); (SAttr "allow_credentials", view n h allow);
        (SAttr "user_verification", view n h (get nd "_user_verification"));
        (SAttr "extensions", view n h (get nd "_extensions"))])]))%string.
Proof.
  intros Hc Hu Hv E.
  assert (N : forall r, is_rnone r = true <-> r = RNone) by (intros []; cbn; split; congruence).
  assert (N' : forall r, r <> RNone -> is_rnone r = false) by (intros []; cbn; congruence).
  split; [|split].
  - intros ->. unfold heap_request_build. now rewrite E.
  - intros H1 H. unfold heap_request_build. now rewrite E, (N' _ H1), H.
  - intros H1 H. rewrite (build_view_request _ h challenge allow b Hc Hu Hv nd E), (N' _ H1), (N' _ H). reflexivity.
Qed.
