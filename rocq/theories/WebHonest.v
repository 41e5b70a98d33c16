(** * WebHonest: ceremonies of one page, whatever the others do. *)
From Coq Require Import List NArith ZArith Bool String Lia.
From Verif Require Import Base BaseFacts PyVal Json JsonSpec CodecSpec Types Jsonify Builders World Parsers Crypto Backends Spec OptionSpec App AppSpec
  HonestSpec AppHonest Dumps DumpsSpec DumpsFacts DumpsOptions Form Page PageSpec FormFacts PageText PageArgs PageSend PageRun
  AppFacts AppTheorems AppConc AppConcSpec AppConcHonestSpec AppConcInv AppConcTheorems AppConcHonest AppConcOptions Web WebSpec WebFacts.
Import ListNotations.
Local Open Scope list_scope.

Section Honest.
Variable B : browser.
Variable W : World.
Variable E : appenv.
Variable J : jsonenv.
Variable repr : N -> pystr.
Variable replaced : bytes -> pystr.
Notation to_request := (to_request replaced).
Notation to_response := (to_response J repr).
Notation Web := (Web B W E J repr replaced).
Notation IsPage := (IsPage B W E J repr replaced).
Notation local := (local B W E J repr replaced).
Notation srv l := (wb_server (Web l)).

(** ** Steps of one page *)
Lemma upd_same (ps : list page) p g g' : nth_error ps p = Some g -> nth_error (update ps p g') p = Some g'.
Proof. intro N. now rewrite nth_update, Nat.eqb_refl, N. Qed.
Lemma page_local l p g e : IsPage l p g -> IsPage (l ++ [At p e]) p (local g e).
Proof. unfold WebSpec.IsPage. intro H. rewrite web_snoc. cbn [web_happens]. rewrite H. cbn [wb_pages]. now apply (upd_same _ _ g). Qed.
Lemma page_other l p g e : event_page e <> Some p -> IsPage l p g -> IsPage (l ++ [e]) p g.
Proof.
  unfold WebSpec.IsPage. intros N H. rewrite web_snoc. destruct e as [|q e|q i c|q i|e]; cbn [web_happens event_page] in *.
  - cbn [wb_pages]. now apply nth_grow.
  - destruct (nth_error (wb_pages (Web l)) q) as [g'|]; [|exact H]. cbn [wb_pages]. rewrite nth_update.
    destruct (Nat.eqb_spec q p); [congruence|exact H].
  - destruct (nth_error (wb_pages (Web l)) q) as [g'|]; [|exact H].
    destruct (nth_error (pg_tasks g') i) as [[]|]; try exact H. destruct (request_of i g'); [exact H|].
    cbn [wb_pages]. rewrite nth_update. destruct (Nat.eqb_spec q p); [congruence|exact H].
  - destruct (nth_error (wb_pages (Web l)) q) as [g'|]; [|exact H].
    destruct (nth_error (pg_tasks g') i) as [[]|]; try exact H. destruct (request_of i g') as [j|]; [|exact H].
    destruct (nth_error (sv_threads (wb_server (Web l))) j) as [[x []]|]; try exact H.
    cbn [wb_pages]. rewrite nth_update. destruct (Nat.eqb_spec q p); [congruence|exact H].
  - exact H.
Qed.

(** The page when its last function is at [t] and waits for no answer. *)
Definition stands (l : list web_event) (p : nat) (ts : list task) (t : task) (g : globals) : Prop :=
  exists op, find (fun q => Nat.eqb (fst q) (List.length ts)) op = None /\
    IsPage l p {| pg_globals := g; pg_tasks := ts ++ [t]; pg_open := op |}.
(** And when it waits for request [j]. *)
Definition waiting (l : list web_event) (p : nat) (ts : list task) (t : task) (g : globals) (j : nat) : Prop :=
  exists op, find (fun q => Nat.eqb (fst q) (List.length ts)) op = Some (List.length ts, j) /\
    IsPage l p {| pg_globals := g; pg_tasks := ts ++ [t]; pg_open := op |}.

Lemma page_apart p o : Apart p o -> forall l g, IsPage l p g ->
  exists x, IsPage (l ++ o) p {| pg_globals := with_input x (pg_globals g); pg_tasks := pg_tasks g; pg_open := pg_open g |}.
Proof.
  induction o as [|e o IH]; intros A l g H.
  - exists (g_input (pg_globals g)). rewrite with_input_id, app_nil_r. now destruct g.
  - assert (A' : Apart p o) by (intros e' I; apply A; now right).
    change (l ++ e :: o) with (l ++ [e] ++ o). rewrite app_assoc.
    assert (K : exists y, IsPage (l ++ [e]) p {| pg_globals := with_input y (pg_globals g); pg_tasks := pg_tasks g; pg_open := pg_open g |}).
    { destruct (event_page e) as [q|] eqn:Q; [destruct (Nat.eq_dec q p) as [->|N]|].
      - destruct (A e (or_introl eq_refl) Q) as (t & ->). exists t. now apply (page_local l p g (Type_ t)).
      - exists (g_input (pg_globals g)). rewrite with_input_id. destruct g. apply page_other; [congruence|exact H].
      - exists (g_input (pg_globals g)). rewrite with_input_id. destruct g. apply page_other; [congruence|exact H]. }
    destruct K as (y & K). destruct (IH A' _ _ K) as (x & R). exists x. exact R.
Qed.
Lemma apart p o l ts t g : Apart p o -> stands l p ts t g -> exists x, stands (l ++ o) p ts t (with_input x g).
Proof. intros A (op & F & H). destruct (page_apart p o A l _ H) as (x & K). exists x, op. split; [exact F|exact K]. Qed.
Lemma apart_waiting p o l ts t g j : Apart p o -> waiting l p ts t g j -> exists x, waiting (l ++ o) p ts t (with_input x g) j.
Proof. intros A (op & F & H). destruct (page_apart p o A l _ H) as (x & K). exists x, op. split; [exact F|exact K]. Qed.

Lemma st_click l p g e : e = ClickRegister \/ e = ClickAuthenticate -> IsPage l p g ->
  let r := match e with ClickRegister => register B (pg_globals g) | _ => authenticate B (pg_globals g) end in
  stands (l ++ [At p e]) p (pg_tasks g) (fst r) (snd r).
Proof.
  intros C H r. exists (pg_open g). split.
  - destruct (find _ (pg_open g)) as [[i j]|] eqn:F; [|reflexivity]. exfalso.
    assert (R : request_of (List.length (pg_tasks g)) g = Some j) by (unfold request_of; rewrite F; reflexivity).
    destruct (waits B W E J repr replaced l p g H _ _ R) as (u & body & k & x & t & N & _).
    assert (nth_error (pg_tasks g) (List.length (pg_tasks g)) <> None) as K by congruence.
    apply nth_error_Some in K. lia.
  - apply (page_local l p g e) in H. destruct C as [-> | ->]; exact H.
Qed.
Lemma st_deliver l p ts r k g : stands l p ts (Arrived r k) g ->
  stands (l ++ [At p (Deliver (List.length ts))]) p ts (fst (k r g)) (snd (k r g)).
Proof.
  intros (op & F & H). exists op. split; [exact F|]. apply (page_local l p _ (Deliver (List.length ts))) in H.
  unfold Web.local in H.
  change (view {| pg_globals := g; pg_tasks := ts ++ [(Arrived r k)]; pg_open := op |}) with (at_task ts ((Arrived r k)) g []) in H. rewrite delivered in H. exact H.
Qed.
Lemma st_parse l p ts t k g j : br_parse B t = Some j -> stands l p ts (ReadJson t k) g ->
  stands (l ++ [At p (Parse (List.length ts))]) p ts (fst (k j g)) (snd (k j g)).
Proof.
  intros P (op & F & H). exists op. split; [exact F|]. apply (page_local l p _ (Parse (List.length ts))) in H.
  unfold Web.local in H.
  change (view {| pg_globals := g; pg_tasks := ts ++ [(ReadJson t k)]; pg_open := op |}) with (at_task ts ((ReadJson t k)) g []) in H.
  rewrite (parsed _ _ _ _ _ _ _ _ _ _ _ j P) in H. exact H.
Qed.
Lemma st_created l p ts o k g a : stands l p ts (Create o k) g ->
  stands (l ++ [At p (Created (List.length ts) a)]) p ts (fst (k a g)) (snd (k a g)).
Proof.
  intros (op & F & H). exists op. split; [exact F|]. apply (page_local l p _ (Created (List.length ts) a)) in H.
  unfold Web.local in H.
  change (view {| pg_globals := g; pg_tasks := ts ++ [(Create o k)]; pg_open := op |}) with (at_task ts ((Create o k)) g []) in H. rewrite created in H. exact H.
Qed.
Lemma st_got l p ts o k g a : stands l p ts (Get o k) g ->
  stands (l ++ [At p (Got (List.length ts) a)]) p ts (fst (k a g)) (snd (k a g)).
Proof.
  intros (op & F & H). exists op. split; [exact F|]. apply (page_local l p _ (Got (List.length ts) a)) in H.
  unfold Web.local in H.
  change (view {| pg_globals := g; pg_tasks := ts ++ [(Get o k)]; pg_open := op |}) with (at_task ts ((Get o k)) g []) in H. rewrite got in H. exact H.
Qed.
Lemma st_resume l p ts k g : stands l p ts (Returned k) g ->
  stands (l ++ [At p (Resume (List.length ts))]) p ts (fst (k g)) (snd (k g)).
Proof.
  intros (op & F & H). exists op. split; [exact F|]. apply (page_local l p _ (Resume (List.length ts))) in H.
  unfold Web.local in H.
  change (view {| pg_globals := g; pg_tasks := ts ++ [(Returned k)]; pg_open := op |}) with (at_task ts ((Returned k)) g []) in H. rewrite resumed in H. exact H.
Qed.
Lemma st_send l p ts u body k g c : stands l p ts (Fetch u body k) g ->
  waiting (l ++ [Send p (List.length ts) c]) p ts (Fetch u body k) g (next (srv l)) /\
  srv (l ++ [Send p (List.length ts) c]) = happen W E (srv l) (Arrive (c, to_request u body)).
Proof.
  intros (op & F & H). unfold WebSpec.IsPage in H. split.
  - exists ((List.length ts, next (srv l)) :: op). split; [cbn [find fst]; now rewrite Nat.eqb_refl|].
    unfold WebSpec.IsPage. rewrite web_snoc. cbn [web_happens]. rewrite H. cbn [pg_tasks]. rewrite nth_last.
    unfold request_of. cbn [pg_open]. rewrite F. cbn [option_map wb_pages]. eapply upd_same. exact H.
  - rewrite web_snoc. cbn [web_happens]. rewrite H. cbn [pg_tasks]. rewrite nth_last.
    unfold request_of. cbn [pg_open]. rewrite F. reflexivity.
Qed.
Lemma st_answer l p ts u body k g j x r : waiting l p ts (Fetch u body k) g j -> Replied (srv l) j x r ->
  stands (l ++ [Answer p (List.length ts)]) p ts (Arrived (to_response (snd x) r) k) g.
Proof.
  intros (op & F & H) R. unfold WebSpec.IsPage in H. exists (closed (List.length ts) op). split; [apply closed_same|].
  unfold WebSpec.IsPage. rewrite web_snoc. cbn [web_happens]. rewrite H. cbn [pg_tasks]. rewrite nth_last.
  unfold request_of. cbn [pg_open]. rewrite F. cbn [option_map snd]. unfold Replied in R. rewrite R. cbn [wb_pages pg_globals].
  rewrite update_last. eapply upd_same. exact H.
Qed.

(** ** The server meanwhile *)
Lemma srv_more l o : exists ev, srv (l ++ o) = happen_all W E (srv l) ev /\
  (forall j, turns j ev = turns j (own o)) /\ (forall j, In (Fail j) ev -> In (Fail j) (own o)).
Proof.
  induction o as [|e o (ev & S & T & F)] using rev_ind.
  - exists []. rewrite app_nil_r. repeat split; auto.
  - exists (ev ++ to_server replaced (Web (l ++ o)) e). rewrite app_assoc, web_snoc, to_server_is, S.
    split; [symmetry; apply happen_all_app|]. unfold own. rewrite flat_map_app. fold (own o).
    assert (K : to_server replaced (Web (l ++ o)) e = flat_map (fun e => match e with Server x => [x] | _ => [] end) [e] \/
      flat_map (fun e => match e with Server x => [x] | _ => [] end) [e] = [] /\ exists x, to_server replaced (Web (l ++ o)) e = [Arrive x]).
    { destruct e as [|q e|q i c|q i|e]; try (left; reflexivity). cbn [to_server flat_map app].
      destruct (nth_error (wb_pages (Web (l ++ o))) q) as [g|]; [|now left].
      destruct (nth_error (pg_tasks g) i) as [[]|]; try (now left). destruct (request_of i g); [now left|]. right. eauto. }
    unfold turns in *. destruct K as [->|(-> & x & ->)].
    + split.
      * intro j. rewrite !filter_app, !app_length. now rewrite T.
      * intros j I. apply in_app_iff in I as [I|I]; apply in_app_iff; [left; now apply F|now right].
    + split.
      * intro j. rewrite !filter_app, !app_length, T. cbn. reflexivity.
      * intros j I. apply in_app_iff in I as [I|[I|[]]]; [|discriminate I]. apply in_app_iff. left. now apply F.
Qed.
Lemma srv_replied l o j x r : Replied (srv l) j x r -> Replied (srv (l ++ o)) j x r.
Proof. intro R. destruct (srv_more l o) as (ev & -> & _). now apply replied_all. Qed.

(** ** Options as the page reads them *)
Hypothesis LIM : limits J.
Hypothesis CV : converts E.
Hypothesis PARSE : ParsesJson B J.
Local Open Scope N_scope.

Lemma creation_told l j c n id v : PlainText n -> id <= 2 ^ 53 ->
  Replied (srv l) j (c, RegistrationRequest (Some n)) (Options id v) ->
  exists t js o h, to_response (RegistrationRequest (Some n)) (Options id v) = (200, t) /\
    br_parse B t = Some js /\ get js "challengeID" = Some (JsInt (Z.of_N id)) /\
    (exists x, get js "creationOptions" = Some x /\ parseCreationOptions B x = Some o) /\
    HasHandle (srv l) n h /\ CreationArgument n h (ch_challenge c) o.
Proof.
  intros P L R. pose proof (small_id id L) as L'. destruct (web_server B W E J repr replaced l) as (ev & SV). rewrite SV in *.
  destruct (c96_creation W E ev j c n id v CV R) as (h & UH & PJ & JC).
  destruct (creation_argument B n h (ch_challenge c) v JC PJ) as (o & PC & CA).
  destruct (body_text J repr LIM "creationOptions" id v) as (t & T & PR & JT & _).
  { eapply creation_carried; [exact LIM|exact JC|exact PJ|].
    split; [|split; [|split]]; cbn [co_rp co_user co_timeout co_extensions].
    - split; [apply lit_plain|]. split; [intros a Q; discriminate Q|apply lit_plain].
    - split; [exact P|]. split; [intros a Q; discriminate Q|exact P].
    - intros a Q. injection Q as <-. now apply (short_small J repr LIM).
    - intros a Q. discriminate Q. }
  { now apply id_short. }
  { discriminate. }
  exists t, (js_of (VDict [(VStr (lit "challengeID"), VInt (Z.of_N id)); (VStr (lit "creationOptions"), v)])), o, h.
  split; [unfold Page.to_response; now rewrite T|]. split.
  { apply PARSE; [exact JT| |].
    - eapply Forall_impl; [|exact PR]. unfold printable. cbn. lia.
    - apply answer_exact; [exact L| |discriminate|now apply (creation_exact n h (ch_challenge c))].
      eexists; eexists; split; [reflexivity|reflexivity]. }
  split; [reflexivity|]. split; [exists (js_of v); split; [reflexivity|exact PC]|]. auto.
Qed.
Lemma request_told l1 p ts body k g c n o id v : id <= 2 ^ 53 ->
  let l2 := l1 ++ Send p (List.length ts) c :: o in
  stands l1 p ts (Fetch AuthenticationRequestUrl body k) g -> to_request AuthenticationRequestUrl body = AuthenticationRequest (Some n) ->
  Replied (srv l2) (next (srv l1)) (c, AuthenticationRequest (Some n)) (Options id v) ->
  exists t js o ids, to_response (AuthenticationRequest (Some n)) (Options id v) = (200, t) /\
    br_parse B t = Some js /\ get js "challengeID" = Some (JsInt (Z.of_N id)) /\
    (exists x, get js "requestOptions" = Some x /\ parseRequestOptions B x = Some o) /\
    RequestArgument ids (ch_challenge c) o /\ NoDup ids /\
    (forall i, In i ids -> exists k, AcceptedKey W (srv l2) n i k) /\
    (forall i k, AcceptedKey W (srv l1) n i k -> In i ids).
Proof.
  intros L l2 ST RQ R. pose proof (small_id id L) as L'.
  destruct (st_send _ _ _ _ _ _ _ c ST) as [_ SS]. rewrite RQ in SS.
  destruct (web_server B W E J repr replaced l1) as (e1 & S1).
  destruct (srv_more (l1 ++ [Send p (List.length ts) c]) o) as (e2 & S2 & _).
  assert (S3 : srv l2 = Served W E (e1 ++ Arrive (c, AuthenticationRequest (Some n)) :: e2)).
  { subst l2. change (l1 ++ ?a :: o) with (l1 ++ [a] ++ o). rewrite app_assoc, S2, SS, S1. unfold Served.
    rewrite happen_all_app. reflexivity. }
  rewrite S3 in *. rewrite S1 in *.
  destruct (c96_request W E e1 c n e2 id v CV R) as (ids & PJ & JC & ND & I1 & I2).
  destruct (request_argument B _ (ch_challenge c) v JC PJ) as (a & PC & CA).
  destruct (body_text J repr LIM "requestOptions" id v) as (t & T & PR & JT & _).
  { eapply request_carried; [exact JC|exact PJ|]. split; [|split].
    - intros b Q. injection Q as <-. now apply (short_small J repr LIM).
    - intros b Q. injection Q as <-. apply lit_plain.
    - intros b Q. discriminate Q. }
  { now apply id_short. }
  { discriminate. }
  exists t, (js_of (VDict [(VStr (lit "challengeID"), VInt (Z.of_N id)); (VStr (lit "requestOptions"), v)])), a, ids.
  split; [unfold Page.to_response; now rewrite T|]. split.
  { apply PARSE; [exact JT| |].
    - eapply Forall_impl; [|exact PR]. unfold printable. cbn. lia.
    - apply answer_exact; [exact L| |discriminate|now apply (request_exact _ (ch_challenge c) v JC)].
      eexists; eexists; split; [reflexivity|reflexivity]. }
  split; [reflexivity|]. split; [exists (js_of v); split; [reflexivity|exact PC]|]. auto.
Qed.

(** ** Up to the authenticator *)
Ltac step l := change l with ([hd Load l] ++ tl l); cbn [hd tl]; rewrite app_assoc.
Lemma web_asked_creation l p g c o id v :
  let i := List.length (pg_tasks g) in let u := g_input (pg_globals g) in let n := usv u in
  let l1 := l ++ web_click p ClickRegister o in let l2 := l1 ++ web_ask p i c o in
  (forall m, Apart p (o m)) -> IsPage l p g -> Units u -> id <= 2 ^ 53 ->
  Replied (srv l2) (next (srv l1)) (c, RegistrationRequest (Some n)) (Options id v) ->
  exists g' a h, stands (l2 ++ web_read p i o) p (pg_tasks g) (Create a (registerCreated B)) g' /\
    CreationArgument n h (ch_challenge c) a /\ HasHandle (srv l2) n h /\
    g_registeredUsername g' = Some u /\ get (g_registrationRequest g') "challengeID" = Some (JsInt (Z.of_N id)).
Proof.
  intros i u n l1 l2 HO H HU L R. pose proof (units_usv u HU) as SC.
  destruct (creation_told l2 _ c n id v (scalars_plain _ SC) L R) as (t & js & a & h & TR & PJ & GI & (x & GX & PX) & UH & CA).
  pose proof (st_click l p g ClickRegister (or_introl eq_refl) H) as ST. cbv zeta iota in ST.
  destruct (apart _ _ _ _ _ _ (HO 0%nat) ST) as (x1 & ST1). rewrite <- app_assoc in ST1. change (l ++ [At p ClickRegister] ++ o 0%nat) with l1 in ST1.
  unfold register at 1, post in ST1. cbn [fst snd map] in ST1. fold u n in ST1.
  destruct (st_send _ _ _ _ _ _ _ c ST1) as [WT _]. fold i in WT.
  destruct (apart_waiting _ _ _ _ _ _ _ (HO 1%nat) WT) as (x2 & WT2). rewrite <- app_assoc in WT2. change (l1 ++ [Send p i c] ++ o 1%nat) with l2 in WT2.
  pose proof (st_answer _ _ _ _ _ _ _ _ _ _ WT2 R) as ST2. cbn [snd] in ST2. rewrite TR in ST2.
  clearbody l2. destruct (apart _ _ _ _ _ _ (HO 2%nat) ST2) as (x3 & ST3).
  apply st_deliver in ST3. unfold registerArrived at 1 2, response_ok in ST3. cbn [fst snd N.leb andb] in ST3.
  change ((200 <=? 200) && (200 <=? 299)) with true in ST3. cbv iota in ST3. cbn [fst snd] in ST3.
  destruct (apart _ _ _ _ _ _ (HO 3%nat) ST3) as (x4 & ST4).
  apply (st_parse _ _ _ _ _ _ js PJ) in ST4. unfold registerOptions in ST4. rewrite GX in ST4. cbn [obind] in ST4. rewrite PX in ST4.
  cbn [fst snd] in ST4. rewrite <- !app_assoc in ST4. eexists. exists a, h. split; [exact ST4|].
  split; [exact CA|]. split; [exact UH|]. split; [reflexivity|exact GI].
Qed.
Lemma web_asked_request l p g c o id v :
  let i := List.length (pg_tasks g) in let u := g_input (pg_globals g) in let n := usv u in
  let l1 := l ++ web_click p ClickAuthenticate o in let l2 := l1 ++ web_ask p i c o in
  (forall m, Apart p (o m)) -> IsPage l p g -> Units u -> id <= 2 ^ 53 ->
  Replied (srv l2) (next (srv l1)) (c, AuthenticationRequest (Some n)) (Options id v) ->
  exists g' a ids, stands (l2 ++ web_read p i o) p (pg_tasks g) (Get a (authenticateGot B)) g' /\
    RequestArgument ids (ch_challenge c) a /\ NoDup ids /\
    (forall i, In i ids -> exists k, AcceptedKey W (srv l2) n i k) /\
    (forall i k, AcceptedKey W (srv l1) n i k -> In i ids) /\
    g_authenticatingUsername g' = Some u /\ get (g_authenticationRequest g') "challengeID" = Some (JsInt (Z.of_N id)).
Proof.
  intros i u n l1 l2 HO H HU L R. pose proof (units_usv u HU) as SC.
  pose proof (st_click l p g ClickAuthenticate (or_intror eq_refl) H) as ST. cbv zeta iota in ST.
  destruct (apart _ _ _ _ _ _ (HO 0%nat) ST) as (x1 & ST1). rewrite <- app_assoc in ST1. change (l ++ [At p ClickAuthenticate] ++ o 0%nat) with l1 in ST1.
  unfold authenticate at 1, post in ST1. cbn [fst snd map] in ST1. fold u n in ST1.
  destruct (request_told l1 p _ _ _ _ c n (o 1%nat) id v L ST1 (proj2 (ask_request _ n SC)) R)
    as (t & js & a & ids & TR & PJ & GI & (x & GX & PX) & CA & ND & I1 & I2).
  change (l1 ++ Send p (List.length (pg_tasks g)) c :: o 1%nat) with l2 in I1.
  destruct (st_send _ _ _ _ _ _ _ c ST1) as [WT _]. fold i in WT.
  destruct (apart_waiting _ _ _ _ _ _ _ (HO 1%nat) WT) as (x2 & WT2). rewrite <- app_assoc in WT2. change (l1 ++ [Send p i c] ++ o 1%nat) with l2 in WT2.
  pose proof (st_answer _ _ _ _ _ _ _ _ _ _ WT2 R) as ST2. cbn [snd] in ST2. rewrite TR in ST2.
  clearbody l2. destruct (apart _ _ _ _ _ _ (HO 2%nat) ST2) as (x3 & ST3).
  apply st_deliver in ST3. unfold authenticateArrived at 1 2, response_ok in ST3. cbn [fst snd N.leb andb] in ST3.
  change ((200 <=? 200) && (200 <=? 299)) with true in ST3. cbv iota in ST3. cbn [fst snd] in ST3.
  destruct (apart _ _ _ _ _ _ (HO 3%nat) ST3) as (x4 & ST4).
  apply (st_parse _ _ _ _ _ _ js PJ) in ST4. unfold authenticateOptions in ST4. rewrite GX in ST4. cbn [obind] in ST4. rewrite PX in ST4.
  cbn [fst snd] in ST4. rewrite <- !app_assoc in ST4. eexists. exists a, ids. split; [exact ST4|].
  split; [exact CA|]. split; [exact ND|]. split; [exact I1|]. split; [exact I2|]. split; [reflexivity|exact GI].
Qed.

(** ** From the authenticator to the end *)
Hypothesis LOADS : forall s, w_json_loads W s = json_loads J s.

(** What a second request comes to: how it arrives, and what its answer shows. *)
Definition comes (l4 l5 l6 : list web_event) (p : nat) (u : endpoint) (ts : list task) (o : list web_event) (c : chance) (q : request) (yes no : jstring) : Prop :=
  Sent B W E J repr replaced l5 p u (next (srv l4)) (c, q) /\
  (exists ev, srv l5 = happen_all W E (srv l4) (Arrive (c, q) :: ev) /\
    (forall j, turns j ev = turns j (own o)) /\ (forall j, In (Fail j) ev -> In (Fail j) (own o))) /\
  forall r, Replied (srv l5) (next (srv l4)) (c, q) r ->
    exists g, IsPage l6 p g /\ pg_tasks g = ts ++ [Finished] /\
      (r = Success <-> g_status (pg_globals g) = yes) /\ (r <> Success -> g_status (pg_globals g) = no).

Lemma second l4 p ts u body k g c o yes no :
  (forall m, Apart p (o m)) -> stands l4 p ts (Fetch u body k) g ->
  u = RegistrationResponseUrl \/ u = AuthenticationResponseUrl ->
  yes <> no -> (forall x r, fst (k r (with_input x g)) = Finished) ->
  (forall x r, g_status (snd (k r (with_input x g))) = if response_ok r then yes else no) ->
  let l5 := l4 ++ web_tell p (List.length ts) c o in
  comes l4 l5 (l5 ++ web_end p (List.length ts) o) p u ts (o 7%nat) c (to_request u body) yes no.
Proof.
  intros HO ST U YN K1 K2 l5. destruct (st_send _ _ _ _ _ _ _ c ST) as [WT SS].
  destruct (apart_waiting _ _ _ _ _ _ _ (HO 7%nat) WT) as (x1 & WT1). rewrite <- app_assoc in WT1. change (l4 ++ [Send p (List.length ts) c] ++ o 7%nat) with l5 in WT1. split; [|split].
  - destruct ST as (op & F & H). exists l4, (List.length ts), c, (o 7%nat). eexists. exists body, k.
    split; [reflexivity|]. split; [exact H|]. split; [cbn [pg_tasks]; apply nth_last|].
    split; [unfold request_of; cbn [pg_open]; now rewrite F|]. split; reflexivity.
  - destruct (srv_more (l4 ++ [Send p (List.length ts) c]) (o 7%nat)) as (ev & S & T & FA).
    exists ev. split; [|auto]. subst l5. unfold web_tell. change (l4 ++ ?a :: ?b) with (l4 ++ [a] ++ b). rewrite app_assoc, S, SS. reflexivity.
  - intros r R. pose proof (st_answer _ _ _ _ _ _ _ _ _ _ WT1 R) as ST2. cbn [snd] in ST2.
    destruct (apart _ _ _ _ _ _ (HO 8%nat) ST2) as (x2 & ST3). apply st_deliver in ST3.
    rewrite <- !app_assoc in ST3. match type of ST3 with stands ?x _ _ _ _ => change x with (l5 ++ web_end p (List.length ts) o) in ST3 end.
    destruct ST3 as (op & F & H). eexists. split; [exact H|]. cbn [pg_tasks pg_globals].
    assert (QI : with_input x2 (with_input x1 g) = with_input x2 g) by reflexivity. rewrite QI, K1, K2.
    split; [reflexivity|].
    assert (OK : response_ok (to_response (to_request u body) r) = true -> r = Success).
    { destruct (web_server B W E J repr replaced l5) as (ev & SV). rewrite SV in R.
      refine (ok_reply _ _ _ _ _ _ (c, to_request u body) _ _ _ _ _ R); cbn [snd]. unfold Page.to_request.
      destruct U as [-> | ->]; eauto. }
    split; [split|]; intro Q.
    + rewrite Q. reflexivity.
    + apply OK. destruct (response_ok _); [reflexivity|now destruct YN].
    + destruct (response_ok _); [destruct (Q (OK eq_refl))|reflexivity].
Qed.

Lemma web_told_attestation l p ts x g a cr u id c o :
  (forall m, Apart p (o m)) -> stands l p ts (Create x (registerCreated B)) g -> Attests a cr ->
  g_registeredUsername g = Some u -> Units u -> get (g_registrationRequest g) "challengeID" = Some (JsInt (Z.of_N id)) ->
  let i := List.length ts in
  let l4 := l ++ web_sign p i (Created i (Some a)) o in let l5 := l4 ++ web_tell p i c o in
  exists t q, Registers W q t (usv u) cr /\ IntPart t /\ Decimal t id /\
    comes l4 l5 (l5 ++ web_end p i o) p RegistrationResponseUrl ts (o 7%nat) c q (registered_text u) (register_failed_text u).
Proof.
  intros HO ST AT GU HU GI i l4 l5.
  destruct (apart _ _ _ _ _ _ (HO 4%nat) ST) as (x1 & ST1). apply (st_created _ _ _ _ _ _ (Some a)) in ST1.
  unfold registerCreated at 1 2 in ST1. cbn [fst snd] in ST1.
  destruct (apart _ _ _ _ _ _ (HO 5%nat) ST1) as (x2 & ST2). apply st_resume in ST2.
  destruct (apart _ _ _ _ _ _ (HO 6%nat) ST2) as (x3 & ST3). rewrite <- !app_assoc in ST3. match type of ST3 with stands ?x _ _ _ _ => change x with l4 in ST3 end.
  match type of ST3 with stands _ _ _ (fst (registerAttestation B ?x)) _ => set (g1 := x) in * end.
  destruct (sent_attestation B W J repr replaced LIM LOADS g1 a cr u id eq_refl AT GU HU GI) as (body & t & EB & RG & I1 & I2).
  rewrite EB in ST3. exists t, (to_request RegistrationResponseUrl body). split; [exact RG|]. split; [exact I1|]. split; [exact I2|].
  apply (second l4 p ts RegistrationResponseUrl body registerResult _ c o _ _ HO ST3); [now left|intro X; apply (f_equal (hd 0)) in X; discriminate X|reflexivity|].
  intros y r. cbn [registerResult snd setStatus g_status].
  assert (GF : g_registeredUsername (snd (registerAttestation B g1)) = Some u).
  { unfold registerAttestation. cbn [setStatus g_attestation g_registrationRequest g_registeredUsername].
    subst g1. cbn [g_attestation g_registrationRequest g_registeredUsername with_input]. rewrite GI. cbn [snd setStatus g_registeredUsername].
    exact GU. }
  cbn [with_input g_registeredUsername]. rewrite GF. destruct (response_ok r); reflexivity.
Qed.
Lemma web_told_assertion l p ts x g a cr u id c o :
  (forall m, Apart p (o m)) -> stands l p ts (Get x (authenticateGot B)) g -> Asserts a cr ->
  g_authenticatingUsername g = Some u -> Units u -> get (g_authenticationRequest g) "challengeID" = Some (JsInt (Z.of_N id)) ->
  let i := List.length ts in
  let l4 := l ++ web_sign p i (Got i (Some a)) o in let l5 := l4 ++ web_tell p i c o in
  exists t q, Authenticates W q t (usv u) cr /\ IntPart t /\ Decimal t id /\
    comes l4 l5 (l5 ++ web_end p i o) p AuthenticationResponseUrl ts (o 7%nat) c q (authorized_text u) (authorize_failed_text u).
Proof.
  intros HO ST AT GU HU GI i l4 l5.
  destruct (apart _ _ _ _ _ _ (HO 4%nat) ST) as (x1 & ST1). apply (st_got _ _ _ _ _ _ (Some a)) in ST1.
  unfold authenticateGot at 1 2 in ST1. cbn [fst snd] in ST1.
  destruct (apart _ _ _ _ _ _ (HO 5%nat) ST1) as (x2 & ST2). apply st_resume in ST2.
  destruct (apart _ _ _ _ _ _ (HO 6%nat) ST2) as (x3 & ST3). rewrite <- !app_assoc in ST3. match type of ST3 with stands ?x _ _ _ _ => change x with l4 in ST3 end.
  match type of ST3 with stands _ _ _ (fst (assertAuthentication B ?x)) _ => set (g1 := x) in * end.
  destruct (sent_assertion B W J repr replaced LIM LOADS g1 a cr u id eq_refl AT GU HU GI) as (body & t & EB & RG & I1 & I2).
  rewrite EB in ST3. exists t, (to_request AuthenticationResponseUrl body). split; [exact RG|]. split; [exact I1|]. split; [exact I2|].
  apply (second l4 p ts AuthenticationResponseUrl body authenticateResult _ c o _ _ HO ST3); [now right|intro X; apply (f_equal (hd 0)) in X; discriminate X|reflexivity|].
  intros y r. cbn [authenticateResult snd setStatus g_status].
  assert (GF : g_authenticatingUsername (snd (assertAuthentication B g1)) = Some u).
  { unfold assertAuthentication. cbn [setStatus g_assertion g_authenticationRequest g_authenticatingUsername].
    subst g1. cbn [g_assertion g_authenticationRequest g_authenticatingUsername with_input]. rewrite GI. cbn [snd setStatus g_authenticatingUsername].
    exact GU. }
  cbn [with_input g_authenticatingUsername]. rewrite GF. destruct (response_ok r); reflexivity.
Qed.
End Honest.

Local Open Scope N_scope.
Lemma c97_asked_registration (B : browser) (W : World) (E : appenv) (J : jsonenv) (repr : N -> pystr) (replaced : bytes -> pystr)
  (l : list web_event) (p : nat) (g : page) (c : chance) (o : nat -> list web_event) (id : N) (v : pyval) :
  limits J -> converts E -> ParsesJson B J -> (forall m, Apart p (o m)) ->
  let server := fun l => wb_server (Web B W E J repr replaced l) in
  let i := List.length (pg_tasks g) in let u := g_input (pg_globals g) in let n := usv u in
  let l1 := l ++ web_click p ClickRegister o in let l2 := l1 ++ web_ask p i c o in
  IsPage B W E J repr replaced l p g -> Units u -> id <= 2 ^ 53 ->
  Replied (server l2) (next (server l1)) (c, RegistrationRequest (Some n)) (Options id v) ->
  exists g' a k h, IsPage B W E J repr replaced (l2 ++ web_read p i o) p g' /\
    nth_error (pg_tasks g') i = Some (Create a k) /\ CreationArgument n h (ch_challenge c) a /\ HasHandle (server l2) n h.
Proof.
  intros LIM CV P HO server i u n l1 l2 H HU L R.
  destruct (web_asked_creation B W E J repr replaced LIM CV P l p g c o id v HO H HU L R) as (g' & a & h & (op & F & K) & CA & HH & _).
  eexists. exists a, (registerCreated B), h. split; [exact K|]. split; [apply nth_last|]. auto.
Qed.
Lemma c97_asked_login (B : browser) (W : World) (E : appenv) (J : jsonenv) (repr : N -> pystr) (replaced : bytes -> pystr)
  (l : list web_event) (p : nat) (g : page) (c : chance) (o : nat -> list web_event) (id : N) (v : pyval) :
  limits J -> converts E -> ParsesJson B J -> (forall m, Apart p (o m)) ->
  let server := fun l => wb_server (Web B W E J repr replaced l) in
  let i := List.length (pg_tasks g) in let u := g_input (pg_globals g) in let n := usv u in
  let l1 := l ++ web_click p ClickAuthenticate o in let l2 := l1 ++ web_ask p i c o in
  IsPage B W E J repr replaced l p g -> Units u -> id <= 2 ^ 53 ->
  Replied (server l2) (next (server l1)) (c, AuthenticationRequest (Some n)) (Options id v) ->
  exists g' a k ids, IsPage B W E J repr replaced (l2 ++ web_read p i o) p g' /\
    nth_error (pg_tasks g') i = Some (Get a k) /\ RequestArgument ids (ch_challenge c) a /\ NoDup ids /\
    (forall cid, In cid ids -> exists key, AcceptedKey W (server l2) n cid key) /\
    (forall cid key, AcceptedKey W (server l1) n cid key -> In cid ids).
Proof.
  intros LIM CV P HO server i u n l1 l2 H HU L R.
  destruct (web_asked_request B W E J repr replaced LIM CV P l p g c o id v HO H HU L R) as (g' & a & ids & (op & F & K) & CA & ND & I1 & I2 & _).
  eexists. exists a, (authenticateGot B), ids. split; [exact K|]. split; [apply nth_last|]. auto.
Qed.

Lemma c97_registration_run (B : browser) (W : World) (E : appenv) (J : jsonenv) (repr : N -> pystr) (replaced : bytes -> pystr)
  (l : list web_event) (p : nat) (g : page) (c c' : chance) (o : nat -> list web_event) (id : N) (v : pyval)
  (a : att_cred) (cr : credential) :
  limits J -> converts E -> (forall t, w_json_loads W t = json_loads J t) -> ParsesJson B J -> (forall m, Apart p (o m)) ->
  let server := fun l => wb_server (Web B W E J repr replaced l) in
  let i := List.length (pg_tasks g) in let u := g_input (pg_globals g) in let n := usv u in
  let l1 := l ++ web_click p ClickRegister o in let l2 := l1 ++ web_ask p i c o in
  let l3 := (l2 ++ web_read p i o) ++ web_sign p i (Created i (Some a)) o in
  let l4 := l3 ++ web_tell p i c' o in let l5 := l4 ++ web_end p i o in
  IsPage B W E J repr replaced l p g -> Units u -> id <= 2 ^ 53 ->
  Replied (server l2) (next (server l1)) (c, RegistrationRequest (Some n)) (Options id v) -> Attests a cr ->
  exists q t, Registers W q t n cr /\ IntPart t /\ Decimal t id /\
    Sent B W E J repr replaced l4 p RegistrationResponseUrl (next (server l3)) (c', q) /\
    forall r, Replied (server l4) (next (server l3)) (c', q) r ->
      exists g', IsPage B W E J repr replaced l5 p g' /\ nth_error (pg_tasks g') i = Some Finished /\
        (r = Success <-> g_status (pg_globals g') = registered_text u) /\
        (r <> Success -> g_status (pg_globals g') = register_failed_text u).
Proof.
  intros LIM CV LD P HO server i u n l1 l2 l3 l4 l5 H HU L R AT.
  destruct (web_asked_creation B W E J repr replaced LIM CV P l p g c o id v HO H HU L R) as (g1 & x & h & ST & _ & _ & GU & GI).
  destruct (web_told_attestation B W E J repr replaced LIM LD _ p _ x g1 a cr u id c' o HO ST AT GU HU GI)
    as (t & q & RG & I1 & I2 & SE & _ & SH).
  exists q, t. split; [exact RG|]. split; [exact I1|]. split; [exact I2|]. split; [exact SE|].
  intros r RR. destruct (SH r RR) as (g' & K1 & K2 & K3 & K4). exists g'. split; [exact K1|].
  split; [rewrite K2; apply nth_last|]. auto.
Qed.
Lemma c97_login_run (B : browser) (W : World) (E : appenv) (J : jsonenv) (repr : N -> pystr) (replaced : bytes -> pystr)
  (l : list web_event) (p : nat) (g : page) (c c' : chance) (o : nat -> list web_event) (id : N) (v : pyval)
  (a : ass_cred) (cr : credential) :
  limits J -> converts E -> (forall t, w_json_loads W t = json_loads J t) -> ParsesJson B J -> (forall m, Apart p (o m)) ->
  let server := fun l => wb_server (Web B W E J repr replaced l) in
  let i := List.length (pg_tasks g) in let u := g_input (pg_globals g) in let n := usv u in
  let l1 := l ++ web_click p ClickAuthenticate o in let l2 := l1 ++ web_ask p i c o in
  let l3 := (l2 ++ web_read p i o) ++ web_sign p i (Got i (Some a)) o in
  let l4 := l3 ++ web_tell p i c' o in let l5 := l4 ++ web_end p i o in
  IsPage B W E J repr replaced l p g -> Units u -> id <= 2 ^ 53 ->
  Replied (server l2) (next (server l1)) (c, AuthenticationRequest (Some n)) (Options id v) -> Asserts a cr ->
  exists q t, Authenticates W q t n cr /\ IntPart t /\ Decimal t id /\
    Sent B W E J repr replaced l4 p AuthenticationResponseUrl (next (server l3)) (c', q) /\
    forall r, Replied (server l4) (next (server l3)) (c', q) r ->
      exists g', IsPage B W E J repr replaced l5 p g' /\ nth_error (pg_tasks g') i = Some Finished /\
        (r = Success <-> g_status (pg_globals g') = authorized_text u) /\
        (r <> Success -> g_status (pg_globals g') = authorize_failed_text u).
Proof.
  intros LIM CV LD P HO server i u n l1 l2 l3 l4 l5 H HU L R AT.
  destruct (web_asked_request B W E J repr replaced LIM CV P l p g c o id v HO H HU L R) as (g1 & x & h & ST & _ & _ & _ & _ & GU & GI).
  destruct (web_told_assertion B W E J repr replaced LIM LD _ p _ x g1 a cr u id c' o HO ST AT GU HU GI)
    as (t & q & RG & I1 & I2 & SE & _ & SH).
  exists q, t. split; [exact RG|]. split; [exact I1|]. split; [exact I2|]. split; [exact SE|].
  intros r RR. destruct (SH r RR) as (g' & K1 & K2 & K3 & K4). exists g'. split; [exact K1|].
  split; [rewrite K2; apply nth_last|]. auto.
Qed.
Lemma c97_registration (B : browser) (W : World) (E : appenv) (J : jsonenv) (repr : N -> pystr) (replaced : bytes -> pystr)
  (depth : nat) (l : list web_event) (p : nat) (g : page) (c c' : chance) (o : nat -> list web_event) (id : N) (v : pyval)
  (a : att_cred) (cr : credential) (cid : bytes) (k : pubkey) (ctr : N) :
  limits J -> converts E -> Conforming W depth J -> ParsesJson B J -> reads_decimal E -> (forall m, Apart p (o m)) ->
  let server := fun l => wb_server (Web B W E J repr replaced l) in
  let i := List.length (pg_tasks g) in let u := g_input (pg_globals g) in let n := usv u in
  let l1 := l ++ web_click p ClickRegister o in let l2 := l1 ++ web_ask p i c o in
  let l3 := (l2 ++ web_read p i o) ++ web_sign p i (Created i (Some a)) o in
  let l4 := l3 ++ web_tell p i c' o in let l5 := l4 ++ web_end p i o in
  IsPage B W E J repr replaced l p g -> Units u -> id <= 2 ^ 53 ->
  Replied (server l2) (next (server l1)) (c, RegistrationRequest (Some n)) (Options id v) ->
  Attests a cr -> AppRegistration W depth cr (ch_challenge c) cid k ctr ->
  OnlyRegistration W (server l4) (next (server l3)) cid -> (ch_clock c' - ch_clock c <= 60000)%Z ->
  ~ In (Fail (next (server l3))) (own (o 7%nat)) -> (6 <= turns (next (server l3)) (own (o 7%nat)))%nat ->
  exists g', IsPage B W E J repr replaced l5 p g' /\ nth_error (pg_tasks g') i = Some Finished /\
    g_status (pg_globals g') = registered_text u /\ AcceptedKey W (server l5) n cid k.
Proof.
  intros LIM CV CF P RD HO server i u n l1 l2 l3 l4 l5 H HU L R AT AR OR CL NF TU.
  destruct (web_asked_creation B W E J repr replaced LIM CV P l p g c o id v HO H HU L R) as (g1 & x & h & ST & _ & _ & GU & GI).
  destruct (web_told_attestation B W E J repr replaced LIM (cf_json _ _ _ CF) _ p _ x g1 a cr u id c' o HO ST AT GU HU GI)
    as (t & q & RG & I1 & I2 & _ & (ev & S & T & FA) & SH).
  fold i in S, SH. fold l1 l2 in S, SH. fold l3 in S, SH. fold l4 in S, SH. fold l5 in SH.
  destruct (web_server B W E J repr replaced l3) as (e3 & S3).
  assert (S4 : server l4 = Served W E (e3 ++ Arrive (c', q) :: ev)).
  { unfold server. rewrite S, S3. unfold Served. now rewrite happen_all_app. }
  assert (SC : SentChallenge (Served W E e3) n (ch_challenge c) id (ch_clock c)).
  { rewrite <- S3. exists (next (server l1)), (c, RegistrationRequest (Some n)), v.
    split; [|split; [now left|split; reflexivity]]. unfold l3. rewrite <- app_assoc. now apply srv_replied. }
  unfold server in OR, NF, TU. fold server in OR. rewrite S3 in OR, NF, TU. fold (server l4) in OR. rewrite S4 in OR.
  destruct (c95_honest_registration W E depth J CF e3 (c', q) ev t n cr id (ch_challenge c) (ch_clock c) cid k ctr RG
    (RD _ _ I1 I2 L) SC CL AR OR) as [SU AK].
  assert (NF' : ~ In (Fail (next (Served W E e3))) ev) by (intro X; now apply NF, FA).
  rewrite <- T in TU. destruct (SU NF') as [_ SU']. specialize (SU' TU). specialize (AK NF' TU). rewrite <- S4, <- S3 in SU'. rewrite <- S4 in AK.
  destruct (SH Success SU') as (g' & K1 & K2 & K3 & _). exists g'. split; [exact K1|].
  split; [rewrite K2; apply nth_last|]. split; [now apply K3|].
  destruct AK as (j & y & i' & cr' & AR1 & AR2). exists j, y, i', cr'. split; [|exact AR2]. unfold server, l5. now apply srv_replied.
Qed.

Lemma sent_all (B : browser) (W : World) (E : appenv) (J : jsonenv) (repr : N -> pystr) (replaced : bytes -> pystr) l l' p u j x :
  Sent B W E J repr replaced l p u j x -> Sent B W E J repr replaced (l ++ l') p u j x.
Proof.
  intros (l1 & i & c & l2 & g & body & k & -> & H). exists l1, i, c, (l2 ++ l'), g, body, k.
  split; [now rewrite <- app_assoc|exact H].
Qed.
Lemma c97_login (B : browser) (W : World) (E : appenv) (J : jsonenv) (repr : N -> pystr) (replaced : bytes -> pystr)
  (depth : nat) (l : list web_event) (p : nat) (g : page) (c c' : chance) (o : nat -> list web_event) (id : N) (v : pyval)
  (a : ass_cred) (cr : credential) (cid : bytes) (k : pubkey) (handle : bytes) (ctr : N) :
  limits J -> converts E -> Conforming W depth J -> ParsesJson B J -> reads_decimal E -> (forall m, Apart p (o m)) ->
  let server := fun l => wb_server (Web B W E J repr replaced l) in
  let i := List.length (pg_tasks g) in let u := g_input (pg_globals g) in let n := usv u in
  let l1 := l ++ web_click p ClickAuthenticate o in let l2 := l1 ++ web_ask p i c o in
  let l3 := (l2 ++ web_read p i o) ++ web_sign p i (Got i (Some a)) o in
  let l4 := l3 ++ web_tell p i c' o in let l5 := l4 ++ web_end p i o in
  IsPage B W E J repr replaced l p g -> Units u -> id <= 2 ^ 53 ->
  Replied (server l2) (next (server l1)) (c, AuthenticationRequest (Some n)) (Options id v) ->
  AcceptedKey W (server l3) n cid k -> HasHandle (server l3) n handle ->
  Asserts a cr -> AppLogin W depth cr (ch_challenge c) cid k handle ctr ->
  LargestLogin W (server l4) (next (server l3)) cid ctr -> (ch_clock c' - ch_clock c <= 60000)%Z ->
  ~ In (Fail (next (server l3))) (own (o 7%nat)) -> (6 <= turns (next (server l3)) (own (o 7%nat)))%nat ->
  exists g', IsPage B W E J repr replaced l5 p g' /\ nth_error (pg_tasks g') i = Some Finished /\
    g_status (pg_globals g') = authorized_text u /\ AuthorizedBy B W E J repr replaced l5 p n.
Proof.
  intros LIM CV CF P RD HO server i u n l1 l2 l3 l4 l5 H HU L R AK HH AT AR OR CL NF TU.
  destruct (web_asked_request B W E J repr replaced LIM CV P l p g c o id v HO H HU L R) as (g1 & x & ids & ST & _ & _ & _ & _ & GU & GI).
  destruct (web_told_assertion B W E J repr replaced LIM (cf_json _ _ _ CF) _ p _ x g1 a cr u id c' o HO ST AT GU HU GI)
    as (t & q & RG & I1 & I2 & SE & (ev & S & T & FA) & SH).
  fold i in S, SH, SE. fold l1 l2 in S, SH, SE. fold l3 in S, SH, SE. fold l4 in S, SH, SE. fold l5 in SH.
  destruct (web_server B W E J repr replaced l3) as (e3 & S3).
  assert (S4 : server l4 = Served W E (e3 ++ Arrive (c', q) :: ev)).
  { unfold server. rewrite S, S3. unfold Served. now rewrite happen_all_app. }
  assert (SC : SentChallenge (Served W E e3) n (ch_challenge c) id (ch_clock c)).
  { rewrite <- S3. exists (next (server l1)), (c, AuthenticationRequest (Some n)), v.
    split; [|split; [now right|split; reflexivity]]. unfold l3. rewrite <- app_assoc. now apply srv_replied. }
  unfold server in OR, NF, TU, AK, HH. rewrite S3 in OR, NF, TU, AK, HH. fold (server l4) in OR. rewrite S4 in OR.
  pose proof (c95_honest_login W E depth J CF e3 (c', q) ev t n cr id (ch_challenge c) (ch_clock c) cid k handle ctr RG
    (RD _ _ I1 I2 L) SC CL AK HH AR OR) as SU.
  assert (NF' : ~ In (Fail (next (Served W E e3))) ev) by (intro X; now apply NF, FA).
  rewrite <- T in TU. destruct (SU NF') as [_ SU']. specialize (SU' TU). rewrite <- S4, <- S3 in SU'.
  destruct (SH Success SU') as (g' & K1 & K2 & K3 & _). exists g'. split; [exact K1|].
  split; [rewrite K2; apply nth_last|]. split; [now apply K3|].
  exists (next (server l3)), (c', q), t, cr. split; [unfold l5; now apply sent_all|]. split; [|exact RG].
  unfold l5. now apply srv_replied.
Qed.
