(** * PageStages: the status while a function runs, and authenticators that return null. *)
From Coq Require Import List NArith ZArith Bool String Lia.
From Verif Require Import Base PyVal Json JsonSpec Types World App AppSpec AppTheorems DumpsSpec
  Form Page PageSpec FormFacts PageText PageArgs PageSend PageRun.
Import ListNotations.
Local Open Scope N_scope.
Local Open Scope list_scope.

Section Stages.
Variable B : browser.
Variable W : World.
Variable E : appenv.
Variable J : jsonenv.
Variable repr : N -> pystr.
Variable replaced : bytes -> pystr.
Notation run := (run_page B W E J repr replaced).
Notation happens := (happens B W E J repr replaced).
Notation to_request := (to_request replaced).
Notation to_response := (to_response J repr).

(** [F], of the events to come and the state, holds all along [es] from [s]. *)
Definition along (F : list event -> jstring -> Prop) (es : list event) (s : system) : Prop :=
  forall p q, es = p ++ q -> F q (g_status (sy_page (run s p))).
Lemma along_one (F : list event -> jstring -> Prop) s : F [] (g_status (sy_page s)) -> along F [] s.
Proof. intros H p q Q. symmetry in Q. apply app_eq_nil in Q as [-> ->]. exact H. Qed.
Lemma along_cons (F : list event -> jstring -> Prop) e es s : F (e :: es) (g_status (sy_page s)) -> along F es (happens s e) -> along F (e :: es) s.
Proof.
  intros H K p q Q. destruct p as [|e' p]; cbn [app] in Q; [now subst q|]. injection Q as <- Q. rewrite run_cons. now apply K.
Qed.

Variable i : nat.
Variables t1 t2 t3 : jstring.
Notation F := (Stages i t1 t2 t3).
Lemma else_not es e : Elsewhere es -> e = Parse i \/ e = Resume i \/ e = Deliver i -> ~ In e es.
Proof.
  intros H D I. apply (proj1 (Forall_forall _ _) H) in I. destruct I as [(x & ->)|(t & ->)]; intuition discriminate.
Qed.
Lemma stages_else o q s : Elsewhere o -> F q s -> F (o ++ q) s.
Proof.
  intros H (H1 & H2 & H3). pose proof (else_not o (Parse i) H) as N1. pose proof (else_not o (Resume i) H) as N2.
  pose proof (else_not o (Deliver i) H) as N3. unfold Stages. rewrite !in_app_iff. tauto.
Qed.
Lemma along_else o es ts t g l : Elsewhere o -> F es (g_status g) ->
  (forall x, along F es (at_task ts t (with_input x g) (l ++ requests o))) -> along F (o ++ es) (at_task ts t g l).
Proof.
  revert g l. induction o as [|e o IH]; intros g l H S K.
  - intros p q Q. specialize (K (g_input g)). rewrite with_input_id, app_nil_r in K. now apply K.
  - inversion H as [|e' o' HE HO]; subst. cbn [app]. apply along_cons.
    + apply (stages_else (e :: o) es); assumption.
    + destruct HE as [(y & ->)|(t' & ->)].
      * change (happens (at_task ts t g l) (Other y)) with (at_task ts t g (l ++ [y])). apply IH; [exact HO|exact S|].
        intro x. specialize (K x). cbn [requests flat_map] in K. now rewrite <- app_assoc.
      * change (happens (at_task ts t g l) (Type_ t')) with (at_task ts t (with_input t' g) l). apply IH; [exact HO|exact S|].
        intro x. specialize (K x). exact K.
Qed.
End Stages.

(** ** The two functions *)
Section Both.
Variable B : browser.
Variable W : World.
Variable E : appenv.
Variable J : jsonenv.
Variable repr : N -> pystr.
Variable replaced : bytes -> pystr.
Notation run := (run_page B W E J repr replaced).
Notation happens := (happens B W E J repr replaced).
Hypothesis LIM : limits J.
Hypothesis CV : converts E.
Hypothesis PARSE : ParsesJson B J.
Variable o : nat -> list event.
Hypothesis HO : forall j, Elsewhere (o j).

Lemma stage1 i t1 t2 t3 q s : In (Parse i) q -> In (Resume i) q -> s = t1 -> Stages i t1 t2 t3 q s.
Proof. unfold Stages. tauto. Qed.
Lemma stage2 i t1 t2 t3 q s : ~ In (Parse i) q -> In (Resume i) q -> s = t2 -> Stages i t1 t2 t3 q s.
Proof. unfold Stages. tauto. Qed.
Lemma stage3 i t1 t2 t3 q s : ~ In (Parse i) q -> ~ In (Resume i) q -> s = t3 -> Stages i t1 t2 t3 q s.
Proof. unfold Stages. tauto. Qed.
Lemma stage4 i t1 t2 t3 s : Stages i t1 t2 t3 [] s.
Proof. unfold Stages. cbn. tauto. Qed.
Ltac is_in := repeat (apply in_or_app; right) || idtac; solve [repeat (first [left; reflexivity | right | apply in_or_app; right])].
Ltac not_in := let I := fresh in intro I;
  repeat match type of I with
  | In _ (_ ++ _) => apply in_app_or in I; destruct I as [I|I]
  | In _ (_ :: _) => destruct I as [I|I]; [discriminate I|]
  | In _ [] => destruct I
  | In _ (o ?j) => revert I; eapply else_not; [apply HO|tauto]
  end.
Ltac st1 := apply stage1; [is_in|is_in|reflexivity].
Ltac st2 := apply stage2; [not_in|is_in|reflexivity].
Ltac st3 := apply stage3; [not_in|not_in|reflexivity].

Lemma threw ts g l e : e = Deliver (List.length ts) \/ (exists c, e = Serve (List.length ts) c) -> happens (at_task ts Threw g l) e = at_task ts Threw g l.
Proof. intros [-> | (c & ->)]; cbn [Page.happens at_task sy_tasks]; now rewrite nth_last. Qed.
Lemma last_stage ts t g l c t1 t2 : t = Threw \/ (exists u b k, t = Fetch u b k) ->
  along B W E J repr replaced (Stages (List.length ts) t1 t2 (g_status g))
    (o 5%nat ++ Serve (List.length ts) c :: o 6%nat ++ [Deliver (List.length ts)]) (at_task ts t g l).
Proof.
  intro T. apply along_else; [apply HO|st3|intro x1]. apply along_cons; [st3|].
  destruct T as [-> | (u & b & k & ->)].
  - rewrite threw by eauto. apply along_else; [apply HO|st3|intro x2]. apply along_cons; [st3|]. apply along_one, stage4.
  - rewrite served. apply along_else; [apply HO|st3|intro x2]. apply along_cons; [st3|]. apply along_one, stage4.
Qed.

Lemma register_stages s c c' a id v :
  let i := List.length (sy_tasks s) in
  let u := g_input (sy_page s) in
  let l := sy_log s ++ requests (o 0%nat) in
  Units u -> id <= 2 ^ 53 -> answer W E l (c, RegistrationRequest (Some (usv u))) = Options id v ->
  along B W E J repr replaced (Stages i (registering_text u) (creating_text u) (attesting_text u))
    (o 0%nat ++ Serve i c :: o 1%nat ++ Deliver i :: o 2%nat ++ Parse i :: telling (Created i a) i c' o)
    (happens s ClickRegister).
Proof.
  intros i u l HU L A. pose proof (units_usv u HU) as SC.
  destruct (creation_answer B W E J repr replaced LIM CV PARSE l c (usv u) id v (scalars_plain _ SC) L A)
    as (t & j & b & h & TR & PJ & GI & (x & GX & PX) & _).
  rewrite click_register. unfold telling.
  apply along_else; [apply HO|st1|intro x1]. unfold register at 1. unfold post. cbn [fst snd map]. fold u. fold l. subst i.
  apply along_cons; [st1|]. rewrite served, (proj1 (ask_request replaced (usv u) SC)), A, TR.
  apply along_else; [apply HO|st1|intro x2]. apply along_cons; [st1|].
  rewrite delivered. unfold registerArrived at 1 2, response_ok. cbn [fst snd N.leb andb].
  change ((200 <=? 200) && (200 <=? 299)) with true. cbv iota. cbn [fst snd].
  apply along_else; [apply HO|st1|intro x3]. apply along_cons; [st1|].
  rewrite (parsed _ _ _ _ _ _ _ _ _ _ _ j PJ). unfold registerOptions. rewrite GX. cbn [obind]. rewrite PX. cbn [fst snd].
  apply along_else; [apply HO|st2|intro x4]. apply along_cons; [st2|].
  rewrite created. unfold registerCreated at 1 2. cbn [fst snd].
  apply along_else; [apply HO|st2|intro x5]. apply along_cons; [st2|].
  rewrite resumed.
  match goal with |- along _ _ _ _ _ _ _ _ (at_task _ _ ?g _) =>
    change (attesting_text u) with (g_status (setStatus (attesting_text u) g)) end.
  unfold registerAttestation. cbn [setStatus with_input g_attestation g_registrationRequest g_registeredUsername].
  rewrite GI. destruct a as [a|]; cbn [fst snd]; (eapply last_stage; [unfold post; eauto]).
Qed.
Lemma login_stages s c c' a id v :
  let i := List.length (sy_tasks s) in
  let u := g_input (sy_page s) in
  let l := sy_log s ++ requests (o 0%nat) in
  Units u -> id <= 2 ^ 53 -> answer W E l (c, AuthenticationRequest (Some (usv u))) = Options id v ->
  along B W E J repr replaced (Stages i (requesting_text u) (requesting_text u) (asserting_text u))
    (o 0%nat ++ Serve i c :: o 1%nat ++ Deliver i :: o 2%nat ++ Parse i :: telling (Got i a) i c' o)
    (happens s ClickAuthenticate).
Proof.
  intros i u l HU L A. pose proof (units_usv u HU) as SC.
  destruct (request_answer B W E J repr LIM CV PARSE l c (usv u) id v L A)
    as (t & j & b & TR & PJ & GI & (x & GX & PX) & _).
  rewrite click_authenticate. unfold telling.
  apply along_else; [apply HO|st1|intro x1]. unfold authenticate at 1. unfold post. cbn [fst snd map]. fold u. fold l. subst i.
  apply along_cons; [st1|]. rewrite served, (proj2 (ask_request replaced (usv u) SC)), A, TR.
  apply along_else; [apply HO|st1|intro x2]. apply along_cons; [st1|].
  rewrite delivered. unfold authenticateArrived at 1 2, response_ok. cbn [fst snd N.leb andb].
  change ((200 <=? 200) && (200 <=? 299)) with true. cbv iota. cbn [fst snd].
  apply along_else; [apply HO|st1|intro x3]. apply along_cons; [st1|].
  rewrite (parsed _ _ _ _ _ _ _ _ _ _ _ j PJ). unfold authenticateOptions. rewrite GX. cbn [obind]. rewrite PX. cbn [fst snd].
  apply along_else; [apply HO|st2|intro x4]. apply along_cons; [st2|].
  rewrite got. unfold authenticateGot at 1 2. cbn [fst snd].
  apply along_else; [apply HO|st2|intro x5]. apply along_cons; [st2|].
  rewrite resumed.
  match goal with |- along _ _ _ _ _ _ _ _ (at_task _ _ ?g _) =>
    change (asserting_text u) with (g_status (setStatus (asserting_text u) g)) end.
  unfold assertAuthentication. cbn [setStatus with_input g_assertion g_authenticationRequest g_authenticatingUsername].
  rewrite GI. destruct a as [a|]; cbn [fst snd]; (eapply last_stage; [unfold post; eauto]).
Qed.

Lemma null_tail ts g l c t : t = Threw -> exists x,
  run (at_task ts t g l) (o 5%nat ++ Serve (List.length ts) c :: o 6%nat ++ [Deliver (List.length ts)]) =
  at_task ts Threw (with_input x g) (l ++ requests (o 5%nat) ++ requests (o 6%nat)).
Proof.
  intros ->. rewrite run_app. edestruct (elsewhere B W E J repr replaced ts) as (x1 & ->); [apply HO|].
  rewrite run_cons, threw by eauto. rewrite run_app. edestruct (elsewhere B W E J repr replaced ts) as (x2 & ->); [apply HO|].
  rewrite run_cons, threw by eauto. exists x2. rewrite <- app_assoc. reflexivity.
Qed.
Lemma register_null s c c' id v :
  let i := List.length (sy_tasks s) in
  let u := g_input (sy_page s) in
  let l := sy_log s ++ requests (o 0%nat) in
  let y := (c, RegistrationRequest (Some (usv u))) in
  Units u -> id <= 2 ^ 53 -> answer W E l y = Options id v ->
  exists g, run s (asking ClickRegister i c o ++ telling (Created i None) i c' o) =
    at_task (sy_tasks s) Threw g (l ++ y :: requests (flat_map o [1; 2; 3; 4; 5; 6]%nat)).
Proof.
  intros i u l y HU L A.
  destruct (asked_creation B W E J repr replaced LIM CV PARSE s c o id v HO HU L A) as (g & b & h & R & _ & _ & _ & GU & GI).
  rewrite run_app. subst i. rewrite R. unfold telling. rewrite run_app.
  edestruct (elsewhere B W E J repr replaced (sy_tasks s)) as (x1 & ->); [apply HO|].
  rewrite run_cons, created. unfold registerCreated at 1 2. cbn [fst snd].
  rewrite run_app. edestruct (elsewhere B W E J repr replaced (sy_tasks s)) as (x2 & ->); [apply HO|].
  rewrite run_cons, resumed.
  edestruct (null_tail (sy_tasks s)) as (x3 & ->); [unfold registerAttestation; reflexivity|].
  eexists. f_equal. fold u. fold l. fold y. unfold requests. cbn [flat_map]. rewrite !flat_map_app, app_nil_r.
  rewrite <- !app_assoc. cbn [app flat_map]. rewrite <- ?app_assoc, ?app_nil_r. reflexivity.
Qed.
Lemma login_null s c c' id v :
  let i := List.length (sy_tasks s) in
  let u := g_input (sy_page s) in
  let l := sy_log s ++ requests (o 0%nat) in
  let y := (c, AuthenticationRequest (Some (usv u))) in
  Units u -> id <= 2 ^ 53 -> answer W E l y = Options id v ->
  exists g, run s (asking ClickAuthenticate i c o ++ telling (Got i None) i c' o) =
    at_task (sy_tasks s) Threw g (l ++ y :: requests (flat_map o [1; 2; 3; 4; 5; 6]%nat)).
Proof.
  intros i u l y HU L A.
  destruct (asked_request B W E J repr replaced LIM CV PARSE s c o id v HO HU L A) as (g & b & R & _ & _ & GU & GI).
  rewrite run_app. subst i. rewrite R. unfold telling. rewrite run_app.
  edestruct (elsewhere B W E J repr replaced (sy_tasks s)) as (x1 & ->); [apply HO|].
  rewrite run_cons, got. unfold authenticateGot at 1 2. cbn [fst snd].
  rewrite run_app. edestruct (elsewhere B W E J repr replaced (sy_tasks s)) as (x2 & ->); [apply HO|].
  rewrite run_cons, resumed.
  edestruct (null_tail (sy_tasks s)) as (x3 & ->); [unfold assertAuthentication; reflexivity|].
  eexists. f_equal. fold u. fold l. fold y. unfold requests. cbn [flat_map]. rewrite !flat_map_app, app_nil_r.
  rewrite <- !app_assoc. cbn [app flat_map]. rewrite <- ?app_assoc, ?app_nil_r. reflexivity.
Qed.
End Both.

Lemma c94_registration (B : browser) (W : World) (E : appenv) (J : jsonenv) (repr : N -> pystr) (replaced : bytes -> pystr)
  (s : system) (c c' : chance) (a : option att_cred) (o : nat -> list event) (id : N) (v : pyval) :
  limits J -> converts E -> ParsesJson B J -> (forall j, Elsewhere (o j)) ->
  let i := List.length (sy_tasks s) in
  let u := g_input (sy_page s) in
  Units u -> answer W E (sy_log s ++ requests (o 0%nat)) (c, RegistrationRequest (Some (usv u))) = Options id v -> id <= 2 ^ 53 ->
  forall p q, asking ClickRegister i c o ++ telling (Created i a) i c' o = p ++ q -> p <> [] ->
  Stages i (registering_text u) (creating_text u) (attesting_text u) q
    (g_status (sy_page (run_page B W E J repr replaced s p))).
Proof.
  intros LIM CV PA HO i u HU A L p q Q NE. destruct p as [|e p]; [now destruct NE|].
  unfold asking in Q. cbn [app] in Q. injection Q as <- Q. rewrite run_cons.
  apply (register_stages B W E J repr replaced LIM CV PA o HO s c c' a id v HU L A p q).
  fold i. rewrite <- Q, <- !app_assoc. cbn [app]. rewrite <- !app_assoc. cbn [app]. rewrite <- !app_assoc. reflexivity.
Qed.
Lemma c94_login (B : browser) (W : World) (E : appenv) (J : jsonenv) (repr : N -> pystr) (replaced : bytes -> pystr)
  (s : system) (c c' : chance) (a : option ass_cred) (o : nat -> list event) (id : N) (v : pyval) :
  limits J -> converts E -> ParsesJson B J -> (forall j, Elsewhere (o j)) ->
  let i := List.length (sy_tasks s) in
  let u := g_input (sy_page s) in
  Units u -> answer W E (sy_log s ++ requests (o 0%nat)) (c, AuthenticationRequest (Some (usv u))) = Options id v -> id <= 2 ^ 53 ->
  forall p q, asking ClickAuthenticate i c o ++ telling (Got i a) i c' o = p ++ q -> p <> [] ->
  Stages i (requesting_text u) (requesting_text u) (asserting_text u) q
    (g_status (sy_page (run_page B W E J repr replaced s p))).
Proof.
  intros LIM CV PA HO i u HU A L p q Q NE. destruct p as [|e p]; [now destruct NE|].
  unfold asking in Q. cbn [app] in Q. injection Q as <- Q. rewrite run_cons.
  apply (login_stages B W E J repr replaced LIM CV PA o HO s c c' a id v HU L A p q).
  fold i. rewrite <- Q, <- !app_assoc. cbn [app]. rewrite <- !app_assoc. cbn [app]. rewrite <- !app_assoc. reflexivity.
Qed.

Lemma c94_null_created (B : browser) (W : World) (E : appenv) (J : jsonenv) (repr : N -> pystr) (replaced : bytes -> pystr)
  (s : system) (c c' : chance) (o : nat -> list event) (id : N) (v : pyval) :
  limits J -> converts E -> ParsesJson B J -> (forall j, Elsewhere (o j)) ->
  let i := List.length (sy_tasks s) in
  let n := usv (g_input (sy_page s)) in
  let l := sy_log s ++ requests (o 0%nat) in
  let y := (c, RegistrationRequest (Some n)) in
  Units (g_input (sy_page s)) -> answer W E l y = Options id v -> id <= 2 ^ 53 ->
  let s' := run_page B W E J repr replaced s (asking ClickRegister i c o ++ telling (Created i None) i c' o) in
  nth_error (sy_tasks s') i = Some Threw /\
  sy_log s' = l ++ y :: requests (flat_map o [1; 2; 3; 4; 5; 6]%nat).
Proof.
  intros LIM CV PA HO i n l y HU A L s'.
  destruct (register_null B W E J repr replaced LIM CV PA o HO s c c' id v HU L A) as (g & R).
  subst s' i. rewrite R. split; [apply nth_last|reflexivity].
Qed.
Lemma c94_null_got (B : browser) (W : World) (E : appenv) (J : jsonenv) (repr : N -> pystr) (replaced : bytes -> pystr)
  (s : system) (c c' : chance) (o : nat -> list event) (id : N) (v : pyval) :
  limits J -> converts E -> ParsesJson B J -> (forall j, Elsewhere (o j)) ->
  let i := List.length (sy_tasks s) in
  let n := usv (g_input (sy_page s)) in
  let l := sy_log s ++ requests (o 0%nat) in
  let y := (c, AuthenticationRequest (Some n)) in
  Units (g_input (sy_page s)) -> answer W E l y = Options id v -> id <= 2 ^ 53 ->
  let s' := run_page B W E J repr replaced s (asking ClickAuthenticate i c o ++ telling (Got i None) i c' o) in
  nth_error (sy_tasks s') i = Some Threw /\
  sy_log s' = l ++ y :: requests (flat_map o [1; 2; 3; 4; 5; 6]%nat).
Proof.
  intros LIM CV PA HO i n l y HU A L s'.
  destruct (login_null B W E J repr replaced LIM CV PA o HO s c c' id v HU L A) as (g & R).
  subst s' i. rewrite R. split; [apply nth_last|reflexivity].
Qed.
