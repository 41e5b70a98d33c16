(** * PageExamples: runs of the page. *)
From Coq Require Import List NArith ZArith Bool String Lia.
From Coq Require Import Strings.Byte.
From Verif Require Import Base BaseFacts PyVal B64 Json JsonSpec JsonFacts CodecSpec Types World Parsers Crypto Backends
  Spec Jsonify Builders OptionSpec App AppSpec Examples AppExamples AppTheorems HonestSpec HonestFacts AppHonest
  Dumps DumpsSpec DumpsFacts DumpsOptions Form Page PageSpec FormFacts PageText PageArgs PageParse PageSend PageRun PageStatus.
Import ListNotations.
Local Open Scope N_scope.
Local Open Scope list_scope.

(** A browser. *)
Definition ex_browser : browser :=
  {| br_parse := fun t => match json_loads ex_json t with WOk v => Some (js_of v) | WRaise _ => None end;
     br_text := fun _ => [] |}.
Lemma ex_parses : ParsesJson ex_browser ex_json.
Proof. intros t v T _ _. apply json_loads_iff in T. cbn [br_parse ex_browser]. now rewrite T. Qed.
Lemma ex_limits : limits ex_json.
Proof. split; [intros m Q; injection Q as <-; discriminate|cbn; lia]. Qed.
Lemma text_int_snoc s c : s <> [] -> text_int (s ++ [c]) =
  match text_int s with Some n => if (48 <=? c) && (c <=? 57) then Some (n * 10 + (c - 48)) else None | None => None end.
Proof.
  intro H. unfold text_int. destruct s as [|a s]; [contradiction|]. cbn [app].
  change (a :: s ++ [c]) with ((a :: s) ++ [c]). now rewrite fold_left_app.
Qed.
Lemma ex_decimal : reads_decimal ex_env.
Proof.
  intros t n I D _. assert (N : t <> []) by (destruct I as [-> |(c & r & -> & _)]; discriminate). clear I.
  change (text_int t = Some n). induction D as [|s n c D IH H]; [contradiction|]. unfold Digit in H.
  destruct s as [|a s].
  - inversion D as [Q|s' n' c' D' H' Q]; [|destruct s'; discriminate Q]. cbn [app]. unfold text_int. cbn [fold_left].
    destruct (N.leb_spec 48 c), (N.leb_spec c 57); try lia. reflexivity.
  - rewrite text_int_snoc, IH by discriminate. destruct (N.leb_spec 48 c), (N.leb_spec c 57); try lia. cbn [andb]. f_equal. lia.
Qed.

Notation ex_run := (run_page ex_browser ex_world ex_env ex_json (fun _ => []) (fun _ => [])).

(** What the authenticator returns. *)
Definition ex_att (challenge cid : string) : att_cred :=
  {| ac_type := lit "public-key"; ac_id := lit "x"; ac_raw_id := blit cid;
     ac_object := ex_att_obj "none" [] (app_ad x45 0 (app_attested (blit cid)));
     ac_client := app_cdj "webauthn.create" (blit challenge) |}.
Definition ex_ass (challenge cid : string) (ctr : N) : ass_cred :=
  {| sc_type := lit "public-key"; sc_id := lit "x"; sc_raw_id := blit cid; sc_data := app_ad x05 ctr [];
     sc_client := app_cdj "webauthn.get" (blit challenge);
     sc_signature := sign_with 123456789 (app_ad x05 ctr []) (app_cdj "webauthn.get" (blit challenge));
     sc_handle := Some [] |}.

(** Alice registers while bob asks elsewhere and something else is typed. *)
Definition page_of (n : string) (l : list (chance * request)) : system :=
  {| sy_page := with_input (lit n) loaded; sy_tasks := []; sy_log := l |}.
Definition between (j : nat) : list event :=
  match j with
  | 1%nat => [Other (ask_reg "bob" "handle-b" "challenge-3" 1500)]
  | 3%nat => [Type_ (lit "carol")]
  | _ => []
  end.
Lemma between_else j : Elsewhere (between j).
Proof.
  destruct j as [|[|[|[|j]]]]; try (constructor; fail); (constructor; [|constructor]); [left|right]; eauto.
Qed.
Definition page_registration : list event :=
  asking ClickRegister 0 (chance_of "handle-a" "challenge-1" 1000) between ++
  telling (Created 0 (Some (ex_att "challenge-1" "cred-1"))) 0 (chance_of "" "" 2000) between.
Definition page_login : list event :=
  asking ClickAuthenticate 0 (chance_of "" "challenge-4" 6000) between ++
  telling (Got 0 (Some (ex_ass "challenge-4" "cred-1" 7))) 0 (chance_of "" "" 7000) between.

(** Two registrations overlap: bob's options arrive before the answer to alice's response. *)
Definition overlapping : list event :=
  [Type_ (lit "alice"); ClickRegister; Serve 0 (chance_of "handle-a" "challenge-1" 1000); Deliver 0; Parse 0;
   Created 0 (Some (ex_att "challenge-1" "cred-1")); Resume 0;
   Type_ (lit "bob"); ClickRegister; Serve 1 (chance_of "handle-b" "challenge-2" 1500); Deliver 1; Parse 1;
   Serve 0 (chance_of "" "" 2000); Deliver 0].
Lemma only_response a b c i t n0 : (exists u, snd a = RegistrationRequest u) -> (exists u, snd b = RegistrationRequest u) ->
  forall n cid k, RegisteredKey ex_world ex_env [a; b; (c, RegistrationResponse i t (Some n0))] n cid k -> n = n0.
Proof.
  intros (ua & QA) (ub & QB) n cid k (l1 & y & j & cr & ((l2 & EL) & _) & (t' & Q & _) & _).
  destruct l1 as [|z1 [|z2 [|z3 l1]]]; cbn [app] in EL.
  - injection EL as E1 _. subst y. congruence.
  - injection EL as _ E1 _. subst y. congruence.
  - injection EL as _ _ E1 _. subst y. cbn [snd] in Q. congruence.
  - destruct l1; discriminate EL.
Qed.
Definition third (s : system) : request := snd (nth 2 (sy_log s) (ask_reg "" "" "" 0)).
Lemma ex_overlapping :
  g_status (sy_page (ex_run started overlapping)) = registered_text (lit "bob") /\
  forall n cid k, RegisteredKey ex_world ex_env (sy_log (ex_run started overlapping)) n cid k -> n = lit "alice".
Proof.
  split; [vm_compute; reflexivity|].
  assert (L : exists i t, sy_log (ex_run started overlapping) =
    [ask_reg "alice" "handle-a" "challenge-1" 1000; ask_reg "bob" "handle-b" "challenge-2" 1500;
     (chance_of "" "" 2000, RegistrationResponse i t (Some (lit "alice")))]).
  { exists (match third (ex_run started overlapping) with RegistrationResponse i _ _ => i | _ => None end),
      (match third (ex_run started overlapping) with RegistrationResponse _ t _ => t | _ => None end).
    vm_compute. reflexivity. }
  destruct L as (i & t & L). rewrite L. apply only_response; eexists; reflexivity.
Qed.

(** Alice's registration, from the click on. *)
Lemma ex_attests : Attests (ex_att "challenge-1" "cred-1") ex_registration.
Proof.
  split; [apply lit_plain|]. split; [reflexivity|]. split; [apply lit_plain|]. repeat split; reflexivity.
Qed.
Lemma ex_asserts : Asserts (ex_ass "challenge-4" "cred-1" 7) ex_login.
Proof.
  split; [apply lit_plain|]. split; [reflexivity|]. split; [apply lit_plain|].
  split; [reflexivity|]. split; [reflexivity|].
  exists None. split; [reflexivity|]. intro b. cbn. split; [discriminate|]. intros [Q N]. injection Q as <-. now destruct N.
Qed.
Lemma ex_registration_answer : exists v,
  answer ex_world ex_env (sy_log (page_of "alice" []) ++ requests (between 0))
    (chance_of "handle-a" "challenge-1" 1000, RegistrationRequest (Some (usv (lit "alice")))) = Options 1 v.
Proof. eexists. vm_compute. reflexivity. Qed.
Definition reg_log : list (chance * request) :=
  [ask_reg "alice" "handle-a" "challenge-1" 1000; ask_reg "bob" "handle-b" "challenge-3" 1500].
Lemma ex_unregistered n k : ~ RegisteredKey ex_world ex_env reg_log n (blit "cred-1") k.
Proof.
  intros (l1 & y & i & cr & ((l2 & EL) & _) & (t & Q & _) & _).
  destruct l1 as [|z1 [|z2 l1]]; cbn [app] in EL.
  - injection EL as E1 _. subst y. discriminate Q.
  - injection EL as _ E1 _. subst y. discriminate Q.
  - destruct l1; discriminate EL.
Qed.
Definition login_log : list (chance * request) :=
  firstn 5 session ++ [ask_auth "alice" "challenge-4" 6000; ask_reg "bob" "handle-b" "challenge-3" 1500].
Lemma ex_login_answer : exists v,
  answer ex_world ex_env (sy_log (page_of "alice" (firstn 5 session)) ++ requests (between 0))
    (chance_of "" "challenge-4" 6000, AuthenticationRequest (Some (usv (lit "alice")))) = Options 4 v.
Proof. eexists. vm_compute. reflexivity. Qed.
Lemma ex_registered : RegisteredKey ex_world ex_env login_log (lit "alice") (blit "cred-1") ex_key.
Proof.
  change login_log with (firstn 2 session ++ skipn 2 login_log). apply happened_more.
  change (firstn 2 session) with (firstn 1 session ++ [do_reg "1" "alice" "challenge-1" "cred-1" 2000]).
  eapply (c72_registration ex_world ex_env 900 ex_json ex_converts ex_conforming (firstn 1 session)
    (do_reg "1" "alice" "challenge-1" "cred-1" 2000) (lit "1") (lit "alice") ex_registration 1 (blit "challenge-1") 1000).
  - exact ex_registration_sent.
  - reflexivity.
  - exists [], (ask_reg "alice" "handle-a" "challenge-1" 1000). eexists.
    split; [split; [exists []; reflexivity|vm_compute; reflexivity]|].
    split; [left; reflexivity|split; reflexivity].
  - cbn. lia.
  - exact ex_registration_honest.
  - intros n' k' (l1 & y & i & cr & ((l2 & EL) & _) & (t & Q & _) & _).
    destruct l1 as [|z l1]; [injection EL as <- _; discriminate|destruct l1; discriminate].
Qed.
Lemma ex_handle : UserHandle ex_world ex_env login_log (lit "alice") (blit "handle-a").
Proof.
  exists {| ur_id := 1; ur_username := lit "alice"; ur_handle := blit "handle-a" |}.
  split; [vm_compute; now left|]. split; reflexivity.
Qed.
Lemma ex_below : SentBelow ex_world (blit "cred-1") ex_key 7 login_log.
Proof.
  intros y i u cr cdj adb sig h HY (t & Q & _). unfold login_log in HY. cbn [firstn session app] in HY.
  repeat (destruct HY as [<-|HY]; [discriminate|]). destruct HY.
Qed.

(** A registration, then a login, one after the other. *)
Definition two_clicks : list event :=
  Type_ (lit "alice") :: page_registration ++ Type_ (lit "alice") ::
  asking ClickAuthenticate 1 (chance_of "" "challenge-4" 6000) between ++
  telling (Got 1 (Some (ex_ass "challenge-4" "cred-1" 7))) 1 (chance_of "" "" 7000) between.
Definition idleb (s : system) : bool :=
  forallb (fun t => match t with Finished | Threw => true | _ => false end) (sy_tasks s).
Fixpoint one_check (s : system) (es : list event) : bool :=
  match es with
  | [] => true
  | e :: t => match e with ClickRegister | ClickAuthenticate => idleb s | _ => true end &&
              one_check (happens ex_browser ex_world ex_env ex_json (fun _ => []) (fun _ => []) s e) t
  end.
Lemma one_checked es : one_check started es = true ->
  OneAtATime ex_browser ex_world ex_env ex_json (fun _ => []) (fun _ => []) es.
Proof.
  intros H es1 e es2 -> C. revert H. generalize started. induction es1 as [|x es1 IH]; intros s H; cbn [app one_check] in H;
    apply andb_prop in H; destruct H as [H1 H2].
  - assert (I : idleb s = true) by (destruct C as [-> | ->]; exact H1). unfold idleb in I. rewrite forallb_forall in I.
    apply Forall_forall. intros t T. specialize (I t T). destruct t; try discriminate I; auto.
  - exact (IH _ H2).
Qed.
Lemma ex_two_clicks :
  Typed two_clicks /\ OneAtATime ex_browser ex_world ex_env ex_json (fun _ => []) (fun _ => []) two_clicks /\
  g_status (sy_page (ex_run started two_clicks)) = authorized_text (lit "alice").
Proof.
  split; [|split; [apply one_checked; vm_compute; reflexivity|vm_compute; reflexivity]].
  intros t I. assert (A : t = lit "alice" \/ t = lit "carol").
  { unfold two_clicks, page_registration, asking, telling in I. cbn [app between In] in I.
    repeat (destruct I as [I|I]; [try discriminate I; injection I as <-; auto|]). destruct I. }
  destruct A as [-> | ->]; repeat constructor.
Qed.
