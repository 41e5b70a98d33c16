(** * PageStatus: what the page shows, in all runs. *)
From Coq Require Import List NArith ZArith Bool String Lia.
From Verif Require Import Base BaseFacts PyVal Json JsonSpec CodecSpec Types World Parsers App AppSpec AppFacts AppHistory AppTheorems
  Dumps DumpsSpec Form Page PageSpec FormFacts PageText PageSend PageRun.
Import ListNotations.
Local Open Scope N_scope.
Local Open Scope list_scope.

Section Status.
Variable B : browser.
Variable W : World.
Variable E : appenv.
Variable J : jsonenv.
Variable repr : N -> pystr.
Variable replaced : bytes -> pystr.
Notation happens := (happens B W E J repr replaced).
Notation to_request := (to_request replaced).
Notation to_response := (to_response J repr).
Notation PageAccepted := (PageAccepted B W E J repr replaced).
Notation OneAtATime := (OneAtATime B W E J repr replaced).
Let at_ (es : list event) : system := run_page B W E J repr replaced started es.

Lemma at_snoc es e : at_ (es ++ [e]) = happens (at_ es) e.
Proof. unfold at_. now rewrite run_app. Qed.

(** ** Answers *)
Lemma ok_success l c u body : u = RegistrationResponseUrl \/ u = AuthenticationResponseUrl ->
  response_ok (to_response (to_request u body) (answer W E l (c, to_request u body))) = true ->
  answer W E l (c, to_request u body) = Success.
Proof.
  intros U H. unfold Page.to_request in *.
  assert (Q : exists i k n, to_request u body = RegistrationResponse i k n \/ to_request u body = AuthenticationResponse i k n).
  { unfold Page.to_request. destruct U as [-> | ->]; eauto. }
  destruct Q as (i & k & n & Q). destruct (c61_answered W E l c i k n _ Q) as [S|((s & t & S & N) & _)]; [exact S|].
  unfold Page.to_request in S. rewrite S in H. unfold response_ok in H. cbn [Page.to_response fst] in H.
  destruct N as [-> | ->]; discriminate H.
Qed.
Lemma success_registered l c i t n : answer W E l (c, RegistrationResponse i t (Some n)) = Success ->
  exists cid k, RegisteredKey W E (l ++ [(c, RegistrationResponse i t (Some n))]) n cid k.
Proof.
  intro A. set (x := (c, RegistrationResponse i t (Some n))) in *.
  pose proof (after_move W E l x) as M. rewrite A in M.
  remember Success as r eqn:Hr.
  remember (after W E (l ++ [x])) as d'.
  destruct M as [r H1 H2|n' u d' e Q U I|n' u d1 h d2 o AS U I O|i' n' cr' h u att d' Rg F S At|
                 i' n' cr' h u cdt ad u' rp Au F G S].
  - congruence.
  - discriminate.
  - destruct AS as [Q|Q]; discriminate Q.
  - pose proof Rg as (t' & Q & _). injection Q as Q1 Q2 <-.
    destruct (c61_reg_effect W E l x i' n cr' Rg A) as (_ & _ & u0 & k & b & _ & _ & AK & _).
    exists (cr_raw_id cr'), k, l, x, i', cr'. split; [split; [now exists []|exact A]|]. auto.
  - destruct Au as (t' & Q & _). discriminate Q.
Qed.
Lemma success_authenticated l c i t n : answer W E l (c, AuthenticationResponse i t (Some n)) = Success ->
  exists j cr, Authenticates W (AuthenticationResponse i t (Some n)) j n cr.
Proof.
  intro A. set (x := (c, AuthenticationResponse i t (Some n))) in *.
  pose proof (after_move W E l x) as M. rewrite A in M.
  remember Success as r eqn:Hr.
  remember (after W E (l ++ [x])) as d'.
  destruct M as [r H1 H2|n' u d' e Q U I|n' u d1 h d2 o AS U I O|i' n' cr' h u att d' Rg F S At|
                 i' n' cr' h u cdt ad u' rp Au F G S].
  - congruence.
  - discriminate.
  - destruct AS as [Q|Q]; discriminate Q.
  - destruct Rg as (t' & Q & _). discriminate Q.
  - pose proof Au as (t' & Q & _). injection Q as Q1 Q2 <-. eauto.
Qed.

(** ** Texts *)
Ltac differ H := exfalso; apply (f_equal (fun s => (nth 0 s 0, nth 13 s 0))) in H; vm_compute in H; discriminate H.
Lemma registered_inj u v : registered_text u = registered_text v -> u = v.
Proof. intro H. apply app_inv_head in H. now apply app_inv_tail in H. Qed.
Lemma authorized_inj u v : authorized_text u = authorized_text v -> u = v.
Proof. intro H. apply app_inv_head in H. now apply app_inv_tail in H. Qed.

(** ** Where the functions can be *)
Section Shape.
(** [U]: what is known of a user name read from the input; [R], [A]: of the globals once the
    options have come; [FR], [FA]: of the body of a response; [OR], [OA]: of an answer. *)
Variable U : jstring -> Prop.
Variables R A : Prop.
Variables FR FA : list N -> Prop.
Variables OR OA : Prop.
Inductive Shape : task -> Prop :=
| sh_ask_r u body : U u -> Shape (Fetch RegistrationRequestUrl body (registerArrived B u))
| sh_arr_r u r : U u -> Shape (Arrived r (registerArrived B u))
| sh_read_r u t : U u -> Shape (ReadJson t (registerOptions B u))
| sh_create o : R -> Shape (Create o (registerCreated B))
| sh_created : R -> Shape (Returned (registerAttestation B))
| sh_tell_r body : FR body -> Shape (Fetch RegistrationResponseUrl body registerResult)
| sh_told_r r : (response_ok r = true -> OR) -> Shape (Arrived r registerResult)
| sh_ask_a u body : U u -> Shape (Fetch AuthenticationRequestUrl body (authenticateArrived B u))
| sh_arr_a u r : U u -> Shape (Arrived r (authenticateArrived B u))
| sh_read_a u t : U u -> Shape (ReadJson t (authenticateOptions B u))
| sh_get o : A -> Shape (Get o (authenticateGot B))
| sh_got : A -> Shape (Returned (assertAuthentication B))
| sh_tell_a body : FA body -> Shape (Fetch AuthenticationResponseUrl body authenticateResult)
| sh_told_a r : (response_ok r = true -> OA) -> Shape (Arrived r authenticateResult)
| sh_finished : Shape Finished
| sh_threw : Shape Threw.
End Shape.
Lemma shape_mono (U U' : jstring -> Prop) (R R' A A' : Prop) (FR FR' FA FA' : list N -> Prop) (OR OR' OA OA' : Prop) t :
  (forall u, U u -> U' u) -> (R -> R') -> (A -> A') -> (forall b, FR b -> FR' b) -> (forall b, FA b -> FA' b) ->
  (OR -> OR') -> (OA -> OA') -> Shape U R A FR FA OR OA t -> Shape U' R' A' FR' FA' OR' OA' t.
Proof. intros. match goal with H : Shape _ _ _ _ _ _ _ _ |- _ => destruct H end; constructor; auto. Qed.

Lemma forall_update {X} (P : X -> Prop) l i x : Forall P l -> P x -> Forall P (update l i x).
Proof. intros F. revert i. induction F; intros [|i] H'; cbn; constructor; auto. Qed.
Lemma forall_nth {X} (P : X -> Prop) l i x : Forall P l -> nth_error l i = Some x -> P x.
Proof. intros F N. apply nth_error_In in N. rewrite Forall_forall in F. auto. Qed.

(** ** Every run *)
Definition T1 (u : jstring) : Prop := True.
Definition T2 (b : list N) : Prop := True.
(** [OR], [OA]: what an answer of success stands for. *)
Section Sound.
Variables OR OA : Prop.
Definition Free : task -> Prop := Shape T1 True True T2 T2 OR OA.
Definition Shows (g : globals) : Prop :=
  (forall n, g_status g = registered_text n -> OR) /\ (forall n, g_status g = authorized_text n -> OA).
Definition Sound (s : system) : Prop := Forall Free (sy_tasks s) /\ Shows (sy_page s).
Lemma shows_other g s : (forall n, s <> registered_text n) -> (forall n, s <> authorized_text n) -> Shows (setStatus s g).
Proof. intros H1 H2. split; intros n H; cbn [setStatus g_status] in H; [now apply H1 in H|now apply H2 in H]. Qed.

Ltac other := apply shows_other; intros ? D; differ D.

Lemma sound_answer s i u body k r l : nth_error (sy_tasks s) i = Some (Fetch u body k) ->
  (u = RegistrationResponseUrl -> response_ok r = true -> OR) ->
  (u = AuthenticationResponseUrl -> response_ok r = true -> OA) -> Sound s ->
  Sound {| sy_page := sy_page s; sy_tasks := update (sy_tasks s) i (Arrived r k); sy_log := l |}.
Proof.
  intros N H1 H2 [F S]. split; [|exact S]. cbn [sy_tasks]. apply forall_update; [exact F|].
  pose proof (forall_nth _ _ _ _ F N) as H. inversion H; subst; constructor; auto.
Qed.
Lemma sound_local s e : (forall i c, e <> Serve i c) -> Sound s -> Sound (happens s e).
Proof.
  intros NS [F S].
  destruct e as [t| | |i c|i|i|i a|i a|i|i|x]; cbn [Page.happens].
  - split; [exact F|exact S].
  - split.
    + apply Forall_app. split; [exact F|]. constructor; [apply sh_ask_r; exact I|constructor].
    + cbn [click sy_page]. unfold register. cbn [snd]. other.
  - split.
    + apply Forall_app. split; [exact F|]. constructor; [apply sh_ask_a; exact I|constructor].
    + cbn [click sy_page]. unfold authenticate. cbn [snd]. other.
  - now destruct (NS i c).
  - destruct (nth_error (sy_tasks s) i) as [[| r k| | | | | |]|] eqn:N; try (split; assumption).
    pose proof (forall_nth _ _ _ _ F N) as H. unfold continue. cbn [sy_tasks sy_page].
    inversion H as [|u r' Hu| | | | |r' Hr| |u r' Hu| | | | |r' Hr| |]; subst.
    + unfold registerArrived. destruct (response_ok r); cbn [fst snd].
      * split; [apply forall_update; [exact F|now constructor]|exact S].
      * split; [apply forall_update; [exact F|constructor]|other].
    + unfold registerResult. cbn [fst snd]. split; [apply forall_update; [exact F|constructor]|].
      destruct (response_ok r); [|other]. split; intros n Q; cbn [setStatus g_status] in Q; [now apply Hr|differ Q].
    + unfold authenticateArrived. destruct (response_ok r); cbn [fst snd].
      * split; [apply forall_update; [exact F|now constructor]|exact S].
      * split; [apply forall_update; [exact F|constructor]|other].
    + unfold authenticateResult. cbn [fst snd]. split; [apply forall_update; [exact F|constructor]|].
      destruct (response_ok r); [|other]. split; intros n Q; cbn [setStatus g_status] in Q; [differ Q|now apply Hr].
  - destruct (nth_error (sy_tasks s) i) as [[| |t k| | | | |]|] eqn:N; try (split; assumption).
    pose proof (forall_nth _ _ _ _ F N) as H. unfold continue. cbn [sy_tasks sy_page].
    destruct (br_parse B t) as [j|]; [|cbn [fst snd]; split; [apply forall_update; [exact F|constructor]|exact S]].
    inversion H as [| |u t' Hu| | | | | | |u t' Hu| | | | | |]; subst.
    + unfold registerOptions. destruct (obind _ _) as [o|]; cbn [fst snd].
      * split; [apply forall_update; [exact F|now constructor]|other].
      * split; [apply forall_update; [exact F|constructor]|exact S].
    + unfold authenticateOptions. destruct (obind _ _) as [o|]; cbn [fst snd].
      * split; [apply forall_update; [exact F|now constructor]|exact S].
      * split; [apply forall_update; [exact F|constructor]|exact S].
  - destruct (nth_error (sy_tasks s) i) as [[| | |o k| | | |]|] eqn:N; try (split; assumption).
    pose proof (forall_nth _ _ _ _ F N) as H. unfold continue. cbn [sy_tasks sy_page].
    inversion H; subst. unfold registerCreated. cbn [fst snd].
    split; [apply forall_update; [exact F|now constructor]|exact S].
  - destruct (nth_error (sy_tasks s) i) as [[| | | |o k| | |]|] eqn:N; try (split; assumption).
    pose proof (forall_nth _ _ _ _ F N) as H. unfold continue. cbn [sy_tasks sy_page].
    inversion H; subst. unfold authenticateGot. cbn [fst snd].
    split; [apply forall_update; [exact F|now constructor]|exact S].
  - destruct (nth_error (sy_tasks s) i) as [[| | | | |k| |]|] eqn:N; try (split; assumption).
    pose proof (forall_nth _ _ _ _ F N) as H. unfold continue. cbn [sy_tasks sy_page].
    inversion H; subst.
    + unfold registerAttestation. cbn [setStatus g_attestation g_registrationRequest].
      destruct (g_attestation _); [destruct (get _ _)|]; cbn [fst snd]; (split; [apply forall_update; [exact F|now constructor]|other]).
    + unfold assertAuthentication. cbn [setStatus g_assertion g_authenticationRequest].
      destruct (g_assertion _); [destruct (get _ _)|]; cbn [fst snd]; (split; [apply forall_update; [exact F|now constructor]|other]).
  - destruct (nth_error (sy_tasks s) i) as [[]|] eqn:N; try (split; assumption);
      (split; [apply forall_update; [exact F|constructor]|exact S]).
  - split; [exact F|exact S].
Qed.
End Sound.
Lemma sound_mono (OR OR' OA OA' : Prop) s : (OR -> OR') -> (OA -> OA') -> Sound OR OA s -> Sound OR' OA' s.
Proof.
  intros H1 H2 [F [S1 S2]]. split; [|split; eauto]. apply (Forall_impl _ (fun t H => shape_mono _ _ _ _ _ _ _ _ _ _ _ _ _ _ t
    (fun u x => x) (fun x => x) (fun x => x) (fun b x => x) (fun b x => x) H1 H2 H) F).
Qed.

Lemma accepted_more es e u : PageAccepted es u -> PageAccepted (es ++ [e]) u.
Proof.
  intros (es1 & i & c & es2 & body & k & -> & H). exists es1, i, c, (es2 ++ [e]), body, k.
  split; [now rewrite <- app_assoc|exact H].
Qed.
Lemma every_run es : Sound (PageAccepted es RegistrationResponseUrl) (PageAccepted es AuthenticationResponseUrl) (at_ es).
Proof.
  induction es as [|e es IH] using rev_ind.
  { split; [constructor|]. split; intros n H; discriminate H. }
  rewrite at_snoc. apply (sound_mono _ (PageAccepted (es ++ [e]) RegistrationResponseUrl) _
    (PageAccepted (es ++ [e]) AuthenticationResponseUrl)) in IH; [|apply accepted_more..].
  destruct e as [t| | |i c|i|i|i a|i a|i|i|x]; try (now apply sound_local).
  cbn [Page.happens]. destruct (nth_error (sy_tasks (at_ es)) i) as [[u body k| | | | | | |]|] eqn:N; try exact IH.
  assert (AC : u = RegistrationResponseUrl \/ u = AuthenticationResponseUrl ->
    response_ok (to_response (to_request u body) (answer W E (sy_log (at_ es)) (c, to_request u body))) = true ->
    PageAccepted (es ++ [Serve i c]) u).
  { intros H K. exists es, i, c, [], body, k. split; [reflexivity|]. split; [exact N|]. now apply ok_success. }
  apply (sound_answer _ _ (at_ es) i u body k); [exact N|intros ->; apply AC; auto..|exact IH].
Qed.

(** ** Runs without overlap *)
Definition ended (t : task) : Prop := t = Finished \/ t = Threw.
Lemma solo_nth pre t i x : Forall ended pre -> nth_error (pre ++ [t]) i = Some x -> ended x \/ i = List.length pre /\ x = t.
Proof.
  intros F N. destruct (Nat.lt_ge_cases i (List.length pre)) as [L|L].
  - rewrite nth_error_app1 in N by exact L. left. exact (forall_nth _ _ _ _ F N).
  - rewrite nth_error_app2 in N by exact L. destruct (i - List.length pre)%nat as [|k] eqn:Q.
    + injection N as ->. right. split; [lia|reflexivity].
    + destruct k; discriminate N.
Qed.
Lemma username_sent i t u : Units u ->
  form_field (lit "username") (form_decode replaced (form_encode [(lit "challengeID", i); (lit "credential", t); (lit "username", usv u)]))
  = Some (usv u).
Proof.
  intro H. rewrite form_fields. cbn [map fst snd]. rewrite !(form_string_text replaced (lit _)) by apply lit_scalars.
  rewrite (form_string_text replaced (usv u)) by now apply units_usv. reflexivity.
Qed.
(** [RO], [AO]: what is true of a user who registered or logged in. *)
Section Solo.
Variables RO AO : jstring -> Prop.
Definition Good (g : globals) : task -> Prop :=
  Shape Units
    (exists u, g_registeredUsername g = Some u /\ Units u) (exists u, g_authenticatingUsername g = Some u /\ Units u)
    (fun body => exists u i t, g_registeredUsername g = Some u /\
       to_request RegistrationResponseUrl body = RegistrationResponse i t (Some (usv u)))
    (fun body => exists u i t, g_authenticatingUsername g = Some u /\
       to_request AuthenticationResponseUrl body = AuthenticationResponse i t (Some (usv u)))
    (exists u, g_registeredUsername g = Some u /\ RO u) (exists u, g_authenticatingUsername g = Some u /\ AO u).
Definition Truth (g : globals) : Prop :=
  (forall u, g_status g = registered_text u -> RO u) /\ (forall u, g_status g = authorized_text u -> AO u).
Definition Solo (s : system) : Prop :=
  Units (g_input (sy_page s)) /\ Truth (sy_page s) /\
  (sy_tasks s = [] \/ exists pre t, sy_tasks s = pre ++ [t] /\ Forall ended pre /\ Good (sy_page s) t).

Lemma truth_other g s : (forall n, s <> registered_text n) -> (forall n, s <> authorized_text n) -> Truth (setStatus s g).
Proof. intros H1 H2. split; intros n H; cbn [setStatus g_status] in H; [now apply H1 in H|now apply H2 in H]. Qed.
Ltac false_text := apply truth_other; intros ? D; differ D.
Lemma good_same g g' t : g_registeredUsername g' = g_registeredUsername g ->
  g_authenticatingUsername g' = g_authenticatingUsername g -> Good g t -> Good g' t.
Proof. intros E1 E2. unfold Good. now rewrite E1, E2. Qed.

Lemma solo_answer s i u body k r l : nth_error (sy_tasks s) i = Some (Fetch u body k) ->
  (forall v j t, u = RegistrationResponseUrl -> to_request u body = RegistrationResponse j t (Some (usv v)) ->
     response_ok r = true -> RO v) ->
  (forall v j t, u = AuthenticationResponseUrl -> to_request u body = AuthenticationResponse j t (Some (usv v)) ->
     response_ok r = true -> AO v) -> Solo s ->
  Solo {| sy_page := sy_page s; sy_tasks := update (sy_tasks s) i (Arrived r k); sy_log := l |}.
Proof.
  intros N H1 H2 (HU & HT & HS). split; [exact HU|]. split; [exact HT|]. cbn [sy_tasks sy_page].
  destruct HS as [Q|(pre & t & Q & F & G)]; [rewrite Q in N; destruct i; discriminate N|].
  rewrite Q in N. destruct (solo_nth _ _ _ _ F N) as [[D|D]|[-> <-]]; [discriminate D|discriminate D|].
  right. rewrite Q, update_last. eexists pre, _. split; [reflexivity|]. split; [exact F|].
  inversion G as [u' b' Hu| | | | |b' (u' & j & t & K1 & K2)| |u' b' Hu| | | | |b' (u' & j & t & K1 & K2)| | |]; subst.
  - now apply sh_arr_r.
  - apply sh_told_r. intro K. exists u'. split; [exact K1|]. now apply (H1 _ j t).
  - now apply sh_arr_a.
  - apply sh_told_a. intro K. exists u'. split; [exact K1|]. now apply (H2 _ j t).
Qed.
Lemma solo_local s e : (forall i c, e <> Serve i c) -> Solo s -> (forall t, e = Type_ t -> Units t) ->
  (e = ClickRegister \/ e = ClickAuthenticate -> Idle s) -> Solo (happens s e).
Proof.
  intros NS (HU & HT & HS) TY CL.
  assert (NTH : forall i x, nth_error (sy_tasks s) i = Some x -> ended x \/
    exists pre, sy_tasks s = pre ++ [x] /\ i = List.length pre /\ Forall ended pre /\ Good (sy_page s) x).
  { intros i x N. destruct HS as [Q|(pre & t & Q & F & G)]; [rewrite Q in N; destruct i; discriminate N|].
    rewrite Q in N. destruct (solo_nth _ _ _ _ F N) as [H|[-> ->]]; [now left|]. right. exists pre. auto. }
  assert (SAME : Solo s) by (split; [exact HU|split; assumption]).
  assert (CONT : forall i x p, nth_error (sy_tasks s) i = Some x -> ~ ended x ->
    (Good (sy_page s) x -> Units (g_input (snd p)) /\ Truth (snd p) /\ Good (snd p) (fst p)) ->
    Solo (continue s i p)).
  { intros i x p N NE H. destruct (NTH i x N) as [D|(pre & Q & -> & F & G)]; [contradiction|].
    destruct (H G) as (H1 & H2 & H3). split; [exact H1|]. split; [exact H2|]. right. exists pre, (fst p).
    unfold continue. cbn [sy_tasks sy_page]. rewrite Q, update_last. auto. }
  destruct e as [t| | |i c|i|i|i a|i a|i|i|x]; cbn [Page.happens].
  - split; [now apply TY|]. split; [exact HT|]. destruct HS as [Q|(pre & t0 & Q & F & G)]; [now left|].
    right. exists pre, t0. split; [exact Q|]. split; [exact F|]. now apply (good_same (sy_page s)).
  - split; [exact HU|]. split; [cbn [click sy_page register snd]; false_text|]. right.
    exists (sy_tasks s), (fst (register B (sy_page s))). split; [reflexivity|]. split; [apply CL; now left|].
    unfold register. cbn [fst]. now apply sh_ask_r.
  - split; [exact HU|]. split; [cbn [click sy_page authenticate snd]; false_text|]. right.
    exists (sy_tasks s), (fst (authenticate B (sy_page s))). split; [reflexivity|]. split; [apply CL; now right|].
    unfold authenticate. cbn [fst]. now apply sh_ask_a.
  - now destruct (NS i c).
  - destruct (nth_error (sy_tasks s) i) as [[|r k| | | | | |]|] eqn:N; try exact SAME.
    apply (CONT _ _ _ N); [intros [D|D]; discriminate D|]. intro G.
    inversion G as [|u' r' Hu| | | | |r' Hr| |u' r' Hu| | | | |r' Hr| |]; subst.
    + unfold registerArrived. destruct (response_ok r); cbn [fst snd].
      * split; [exact HU|]. split; [exact HT|]. now apply sh_read_r.
      * split; [exact HU|]. split; [false_text|constructor].
    + unfold registerResult. cbn [fst snd]. split; [exact HU|]. split; [|constructor].
      destruct (response_ok r); [|false_text]. destruct (Hr eq_refl) as (u & H1 & H2). rewrite H1. cbn [shown].
      split; intros v Q; cbn [setStatus g_status] in Q; [|differ Q]. apply registered_inj in Q. now subst.
    + unfold authenticateArrived. destruct (response_ok r); cbn [fst snd].
      * split; [exact HU|]. split; [exact HT|]. now apply sh_read_a.
      * split; [exact HU|]. split; [false_text|constructor].
    + unfold authenticateResult. cbn [fst snd]. split; [exact HU|]. split; [|constructor].
      destruct (response_ok r); [|false_text]. destruct (Hr eq_refl) as (u & H1 & H2). rewrite H1. cbn [shown].
      split; intros v Q; cbn [setStatus g_status] in Q; [differ Q|]. apply authorized_inj in Q. now subst.
  - destruct (nth_error (sy_tasks s) i) as [[| |t k| | | | |]|] eqn:N; try exact SAME.
    apply (CONT _ _ _ N); [intros [D|D]; discriminate D|]. intro G.
    destruct (br_parse B t) as [j|]; [|cbn [fst snd]; split; [exact HU|]; split; [exact HT|constructor]].
    inversion G as [| |u' t' Hu| | | | | | |u' t' Hu| | | | | |]; subst.
    + unfold registerOptions. destruct (obind _ _) as [o|]; cbn [fst snd].
      * split; [exact HU|]. split; [false_text|]. apply sh_create. exists u'. split; [reflexivity|exact Hu].
      * split; [exact HU|]. split; [exact HT|constructor].
    + unfold authenticateOptions. destruct (obind _ _) as [o|]; cbn [fst snd].
      * split; [exact HU|]. split; [exact HT|]. apply sh_get. exists u'. split; [reflexivity|exact Hu].
      * split; [exact HU|]. split; [exact HT|constructor].
  - destruct (nth_error (sy_tasks s) i) as [[| | |o k| | | |]|] eqn:N; try exact SAME.
    apply (CONT _ _ _ N); [intros [D|D]; discriminate D|]. intro G. inversion G; subst. cbn [registerCreated fst snd].
    split; [exact HU|]. split; [exact HT|]. now apply sh_created.
  - destruct (nth_error (sy_tasks s) i) as [[| | | |o k| | |]|] eqn:N; try exact SAME.
    apply (CONT _ _ _ N); [intros [D|D]; discriminate D|]. intro G. inversion G; subst. cbn [authenticateGot fst snd].
    split; [exact HU|]. split; [exact HT|]. now apply sh_got.
  - destruct (nth_error (sy_tasks s) i) as [[| | | | |k| |]|] eqn:N; try exact SAME.
    apply (CONT _ _ _ N); [intros [D|D]; discriminate D|]. intro G.
    inversion G as [| | | |(u & H1 & H2)| | | | | | |(u & H1 & H2)| | | |]; subst.
    + unfold registerAttestation. cbn [setStatus g_attestation g_registrationRequest g_registeredUsername].
      destruct (g_attestation _); [destruct (get _ _)|]; cbn [fst snd]; (split; [exact HU|]; split; [false_text|]); try constructor.
      eexists u, _, _. split; [exact H1|]. unfold Page.to_request. cbn [map fst snd]. rewrite H1. cbn [shown].
      rewrite (username_sent _ _ u H2). reflexivity.
    + unfold assertAuthentication. cbn [setStatus g_assertion g_authenticationRequest g_authenticatingUsername].
      destruct (g_assertion _); [destruct (get _ _)|]; cbn [fst snd]; (split; [exact HU|]; split; [false_text|]); try constructor.
      eexists u, _, _. split; [exact H1|]. unfold Page.to_request. cbn [map fst snd]. rewrite H1. cbn [shown].
      rewrite (username_sent _ _ u H2). reflexivity.
  - destruct (nth_error (sy_tasks s) i) as [[]|] eqn:N; try exact SAME;
      (apply (CONT _ _ _ N); [intros [D|D]; discriminate D|]; intros _; split; [exact HU|]; split; [exact HT|constructor]).
  - split; [exact HU|]. split; [exact HT|exact HS].
Qed.
End Solo.
Lemma solo_mono (RO RO' AO AO' : jstring -> Prop) s : (forall u, RO u -> RO' u) -> (forall u, AO u -> AO' u) ->
  Solo RO AO s -> Solo RO' AO' s.
Proof.
  intros H1 H2 (HU & [T H3] & HS). split; [exact HU|]. split; [split; eauto|].
  destruct HS as [Q|(pre & t & Q & F & G)]; [now left|]. right. exists pre, t. split; [exact Q|]. split; [exact F|].
  revert G. apply shape_mono; auto.
  - intros (u & K & L). eauto.
  - intros (u & K & L). eauto.
Qed.

Definition RegOK (l : list (chance * request)) (u : jstring) : Prop := exists cid k, RegisteredKey W E l (usv u) cid k.
Definition AuthOK (l : list (chance * request)) (u : jstring) : Prop :=
  exists l1 y i cr, Happened W E l l1 y Success /\ Authenticates W (snd y) i (usv u) cr.
Lemma regok_more l l' u : RegOK l u -> RegOK (l ++ l') u.
Proof. intros (cid & k & H). exists cid, k. now apply happened_more. Qed.
Lemma authok_more l l' u : AuthOK l u -> AuthOK (l ++ l') u.
Proof.
  intros (l1 & y & i & cr & ((l2 & ->) & H) & A). exists l1, y, i, cr. split; [|exact A]. split; [|exact H].
  exists (l2 ++ l'). now rewrite <- app_assoc.
Qed.
Lemma log_grows s e : exists l, sy_log (happens s e) = sy_log s ++ l.
Proof.
  assert (O : exists l, sy_log s = sy_log s ++ l) by (exists []; now rewrite app_nil_r).
  destruct e; cbn [Page.happens]; try exact O; try (destruct (nth_error (sy_tasks s) _) as [[]|]; exact O).
  - destruct (nth_error (sy_tasks s) i) as [[]|]; try exact O. cbn [sy_log]. eauto.
  - cbn [sy_log]. eauto.
Qed.
Lemma solo_step s e : Solo (RegOK (sy_log s)) (AuthOK (sy_log s)) s -> (forall t, e = Type_ t -> Units t) ->
  (e = ClickRegister \/ e = ClickAuthenticate -> Idle s) ->
  Solo (RegOK (sy_log (happens s e))) (AuthOK (sy_log (happens s e))) (happens s e).
Proof.
  intros H TY CL. destruct (log_grows s e) as (l & L). rewrite L.
  apply (solo_mono _ (RegOK (sy_log s ++ l)) _ (AuthOK (sy_log s ++ l))) in H; [|intro; apply regok_more|intro; apply authok_more].
  destruct e as [t| | |i c|i|i|i a|i a|i|i|x]; try (now apply solo_local).
  cbn [Page.happens] in L |- *. destruct (nth_error (sy_tasks s) i) as [[u body k| | | | | | |]|] eqn:N; try exact H.
  cbn [sy_log] in L. apply app_inv_head in L. subst l.
  apply (solo_answer _ _ s i u body k); [exact N| | |exact H].
  - intros v j t -> Q K. apply (ok_success _ c RegistrationResponseUrl body (or_introl eq_refl)) in K. rewrite Q in *.
    now apply success_registered in K.
  - intros v j t -> Q K. apply (ok_success _ c AuthenticationResponseUrl body (or_intror eq_refl)) in K. rewrite Q in *.
    destruct (success_authenticated _ _ _ _ _ K) as (j' & cr & AU).
    exists (sy_log s), (c, AuthenticationResponse j t (Some (usv v))), j', cr. split; [|exact AU]. split; [|exact K].
    now exists [].
Qed.
Lemma solo_run es : Typed es -> OneAtATime es -> Solo (RegOK (sy_log (at_ es))) (AuthOK (sy_log (at_ es))) (at_ es).
Proof.
  induction es as [|e es IH] using rev_ind; intros TY OA.
  { split; [constructor|]. split; [split; intros n H; discriminate H|now left]. }
  rewrite at_snoc. apply solo_step.
  - apply IH.
    + intros t I. apply TY, in_or_app. now left.
    + intros es1 e' es2 Q. apply (OA es1 e' (es2 ++ [e])). rewrite Q, <- app_assoc. reflexivity.
  - intros t ->. apply TY, in_or_app. right. now left.
  - intro C. apply (OA es e [] eq_refl C).
Qed.
End Status.

Lemma c84_accepted (B : browser) (W : World) (E : appenv) (J : jsonenv) (repr : N -> pystr) (replaced : bytes -> pystr)
  (es : list event) (n : jstring) :
  let g := sy_page (run_page B W E J repr replaced started es) in
  (g_status g = registered_text n -> PageAccepted B W E J repr replaced es RegistrationResponseUrl) /\
  (g_status g = authorized_text n -> PageAccepted B W E J repr replaced es AuthenticationResponseUrl).
Proof.
  intro g. destruct (every_run B W E J repr replaced es) as (_ & H1 & H2). split; intro H; [now apply (H1 n)|now apply (H2 n)].
Qed.
Lemma c84_named (B : browser) (W : World) (E : appenv) (J : jsonenv) (repr : N -> pystr) (replaced : bytes -> pystr)
  (es : list event) (n : jstring) :
  Typed es -> OneAtATime B W E J repr replaced es ->
  let s := run_page B W E J repr replaced started es in
  (g_status (sy_page s) = registered_text n -> exists cid k, RegisteredKey W E (sy_log s) (usv n) cid k) /\
  (g_status (sy_page s) = authorized_text n ->
     exists l1 y i cr, Happened W E (sy_log s) l1 y Success /\ Authenticates W (snd y) i (usv n) cr).
Proof.
  intros TY OA s. destruct (solo_run B W E J repr replaced es TY OA) as (_ & [H1 H2] & _).
  split; intro H; [exact (H1 n H)|exact (H2 n H)].
Qed.
