(** * PageArgs: the arguments of navigator.credentials, from the answers of the server. *)
From Coq Require Import List NArith ZArith Bool String Lia.
From Verif Require Import Base BaseFacts PyVal B64 B64Facts Json JsonSpec JsonFacts CodecSpec CodecFacts FormatSpec
  Types Jsonify Builders OptionSpec JsonifyFacts OptionFacts OptionProps World App AppSpec AppTheorems
  Dumps DumpsSpec DumpsFacts DumpsOptions Form Page PageSpec FormFacts PageText.
Import ListNotations.
Local Open Scope N_scope.
Local Open Scope list_scope.

(** ** Objects *)
Definition jm (d : pydict) : list (jstring * jsval) :=
  map (fun kv => (match fst kv with VStr s => utf16 s | _ => [] end, js_of (snd kv))) d.
Definition keyed (names : list string) (d : pydict) : Prop :=
  forall k w, In (k, w) d -> exists n, In n names /\ k = VStr (lit n).

Lemma jm_in names d k x : keyed names d -> In (k, x) (jm d) ->
  exists n w, In n names /\ k = lit n /\ x = js_of w /\ In (VStr (lit n), w) d.
Proof.
  intros K I. apply in_map_iff in I as ([k' w] & Q & I). destruct (K k' w I) as (n & IN & ->).
  cbn [fst snd] in Q. injection Q as Q1 Q2. exists n, w. rewrite utf16_lit in Q1. auto.
Qed.
Lemma in_jm d n w : In (VStr (lit n), w) d -> In (lit n, js_of w) (jm d).
Proof.
  intro I. apply in_map_iff. exists (VStr (lit n), w). split; [|exact I]. cbn [fst snd]. now rewrite utf16_lit.
Qed.
Lemma jm_nodup names d : keyed names d -> NoDup (map fst d) -> NoDup (map fst (jm d)).
Proof.
  intros K N. unfold jm. rewrite map_map. cbn [fst].
  induction d as [|[k w] d IH]; [constructor|]. inversion N as [|? ? N1 N2]; subst. cbn [map fst]. constructor.
  - intro I. apply in_map_iff in I as ([k' w'] & Q & I). apply N1. cbn [fst] in *.
    destruct (K k w (or_introl eq_refl)) as (n & _ & ->). destruct (K k' w' (or_intror I)) as (n' & _ & ->).
    rewrite !utf16_lit in Q. rewrite <- Q. now apply (in_map fst) in I.
  - apply IH; [|exact N2]. intros k' w' I. apply (K k' w'). now right.
Qed.
Lemma assoc_in k v m : NoDup (map fst m) -> In (k, v) m -> assoc k m = Some v.
Proof.
  induction m as [|[k' v'] m IH]; intros N I; [destruct I|]. inversion N as [|? ? N1 N2]; subst. cbn [assoc].
  destruct (str_eqb k' k) eqn:Q.
  - apply str_eqb_spec in Q. subst k'. destruct I as [Q|I]; [now injection Q as ->|].
    exfalso. apply N1. now apply (in_map fst) in I.
  - destruct I as [X|I]; [|now apply IH]. injection X as -> ->. rewrite (proj2 (str_eqb_spec k k) eq_refl) in Q. discriminate.
Qed.
Lemma in_assoc k v m : assoc k m = Some v -> In (k, v) m.
Proof.
  induction m as [|[k' v'] m IH]; cbn [assoc]; [discriminate|]. destruct (str_eqb k' k) eqn:Q.
  - apply str_eqb_spec in Q. subst k'. intro X. injection X as ->. now left.
  - intro X. right. now apply IH.
Qed.
Lemma assign_keys k v w m : assoc k m = Some w -> map fst (assign k v m) = map fst m.
Proof.
  induction m as [|[k' v'] m IH]; cbn [assoc assign]; [discriminate|]. destruct (str_eqb k' k); [reflexivity|].
  intro X. cbn [map fst]. now rewrite IH.
Qed.
Lemma assoc_same k v m : assoc k (assign k v m) = Some v.
Proof.
  induction m as [|[k' v'] m IH]; cbn [assign assoc].
  - now rewrite (proj2 (str_eqb_spec k k) eq_refl).
  - destruct (str_eqb k' k) eqn:Q; cbn [assoc]; rewrite Q; [reflexivity|exact IH].
Qed.
Lemma assoc_other k k' v m : k <> k' -> assoc k (assign k' v m) = assoc k m.
Proof.
  intro N. induction m as [|[a b] m IH]; cbn [assign assoc].
  - destruct (str_eqb k' k) eqn:Q; [apply str_eqb_spec in Q; congruence|reflexivity].
  - destruct (str_eqb a k') eqn:Q; cbn [assoc]; [|now rewrite IH].
    destruct (str_eqb a k) eqn:R; [|reflexivity]. apply str_eqb_spec in Q, R. congruence.
Qed.
Lemma lit_neq a b : a <> b -> lit a <> lit b.
Proof. intros N Q. apply N. now apply lit_inj. Qed.

(** An object, and what [assoc] finds in it. *)
Definition Fields (names : list string) (m : list (jstring * jsval)) : Prop :=
  NoDup (map fst m) /\ forall k v, In (k, v) m -> exists n, In n names /\ k = lit n.
Lemma fields_members names m (P : (string -> jsval -> Prop) -> Prop) : Fields names m ->
  P (fun n v => In (lit n, v) m) -> Members names P (JsObj m).
Proof. intros [N K] H. exists m. auto. Qed.
Lemma fields_assign names m n v w : Fields names m -> assoc (lit n) m = Some w -> Fields names (assign (lit n) v m).
Proof.
  intros [N K] A. split; [now rewrite (assign_keys _ _ _ _ A)|].
  intros k x I. assert (I' : In k (map fst m)) by (rewrite <- (assign_keys _ v _ _ A); now apply (in_map fst) in I).
  apply in_map_iff in I' as ([k' x'] & <- & I'). exact (K _ _ I').
Qed.
(** The object of a dictionary, without the names in [gone]. *)
Lemma jm_fields names names' d : keyed names d -> NoDup (map fst d) ->
  (forall n w, In n names -> In (VStr (lit n), w) d -> In n names') -> Fields names' (jm d).
Proof.
  intros K N G. split; [now apply (jm_nodup names)|].
  intros k x I. destruct (jm_in _ _ _ _ K I) as (n & w & IN & -> & -> & I'). exists n. split; [now apply (G n w)|reflexivity].
Qed.
Lemma jm_assoc names d n w : keyed names d -> NoDup (map fst d) -> member n d w -> assoc (lit n) (jm d) = Some (js_of w).
Proof.
  intros K N M. apply assoc_in; [now apply (jm_nodup names)|]. apply in_jm. apply find_in; [|exact M].
  split; [|exact N]. intros k v I. destruct (K k v I) as (m & _ & ->). eauto.
Qed.
Lemma keyed_strings names d : keyed names d -> NoDup (map fst d) -> str_keys d.
Proof. intros K N. split; [|exact N]. intros k v I. destruct (K k v I) as (m & _ & ->). eauto. Qed.

(** ** Base64 members *)
Lemma js_bytes B b v : JBytes b v -> exists s, js_of v = JsStr s /\ base64decode B (JsStr s) = Some (JsBuf b).
Proof.
  intros (s & -> & -> & _). exists (utf16 (rfc4648 std_alphabet b)). split; [reflexivity|].
  rewrite <- b2a_rfc. unfold base64decode. cbn [to_text]. rewrite utf16_small.
  - now rewrite atob_b2a.
  - eapply Forall_impl; [|apply b2a_ascii]. cbn. lia.
Qed.

(** No other names than those present. *)
Ltac gone SK :=
  let n := fresh "n" in let w := fresh "w" in let I := fresh "I" in let J := fresh "J" in
  intros n w I J; cbn [In] in I;
  repeat match goal with H : _ \/ _ |- _ => destruct H as [<-|H] end; [..|contradiction];
  first [ cbn [In]; tauto
        | exfalso; match goal with H : dict_find (VStr (lit ?x)) ?d = None, K : In (VStr (lit ?x), _) ?d |- _ =>
            apply (find_in d (lit x) _ SK) in K; congruence end ].

Section Page.
Variable B : browser.

Lemma rp_argument v : JRp {| rp_name := lit "localhost"; rp_icon := None; rp_id := lit "localhost" |} v -> PureJson v ->
  Members ["name"; "id"]%string (fun has =>
    has "name"%string (text "localhost") /\ has "id"%string (text "localhost")) (js_of v).
Proof.
  intros J PJ. destruct J as (d & -> & ((w1 & M1 & E1) & M2 & (w3 & M3 & E3)) & K).
  inversion PJ as [| | | | | |? _ N F]; subst. pose proof (keyed_strings _ d K N) as SK.
  change (js_of (VDict d)) with (JsObj (jm d)). apply fields_members.
  - apply (jm_fields _ _ d K N). cbn [may rp_icon] in M2. gone SK.
  - cbn [rp_name rp_id] in *. unfold JStr in *. subst. unfold text. rewrite <- (utf16_lit "localhost").
    split; apply in_assoc; [exact (jm_assoc _ d _ _ K N M1)|exact (jm_assoc _ d _ _ K N M3)].
Qed.

Lemma user_argument n h v :
  JUser {| us_name := n; us_icon := None; us_id := h; us_display_name := n |} v -> PureJson v ->
  exists m s, js_of v = JsObj m /\ assoc (lit "id") m = Some (JsStr s) /\
    base64decode B (JsStr s) = Some (JsBuf h) /\
    Members ["name"; "id"; "displayName"]%string (fun has =>
      has "name"%string (JsStr (utf16 n)) /\ has "id"%string (JsBuf h) /\
      has "displayName"%string (JsStr (utf16 n))) (JsObj (assign (lit "id") (JsBuf h) m)).
Proof.
  intros J PJ. destruct J as (d & -> & ((w1 & M1 & E1) & M2 & (w3 & M3 & E3) & (w4 & M4 & E4)) & K).
  inversion PJ as [| | | | | |? _ N F]; subst. pose proof (keyed_strings _ d K N) as SK.
  destruct (js_bytes B _ _ E3) as (s & S1 & S2). exists (jm d), s. split; [reflexivity|].
  pose proof (jm_assoc _ d _ _ K N M3) as A3. rewrite S1 in A3. split; [exact A3|]. split; [exact S2|].
  cbn [us_name us_icon us_display_name may] in *. unfold JStr in *. subst w1 w4.
  apply fields_members.
  - apply (fields_assign _ _ _ _ (JsStr s)); [|exact A3]. apply (jm_fields _ _ d K N). gone SK.
  - split; [|split]; apply in_assoc.
    + rewrite assoc_other by (apply lit_neq; discriminate). exact (jm_assoc _ d _ _ K N M1).
    + apply assoc_same.
    + rewrite assoc_other by (apply lit_neq; discriminate). exact (jm_assoc _ d _ _ K N M4).
Qed.

Lemma params_argument v : JParams (FValue, ES256) v -> PureJson v ->
  Members ["type"; "alg"]%string (fun has =>
    has "type"%string (text "public-key") /\ has "alg"%string (JsInt (-7))) (js_of v).
Proof.
  intros J PJ. destruct J as (d & -> & ((w1 & M1 & E1) & (w2 & M2 & E2)) & K).
  inversion PJ as [| | | | | |? _ N F]; subst. pose proof (keyed_strings _ d K N) as SK.
  change (js_of (VDict d)) with (JsObj (jm d)). cbn [cose_alg fst snd] in E2. unfold OptionSpec.JText in E1. subst.
  apply fields_members.
  - apply (jm_fields _ _ d K N). gone SK.
  - unfold text. rewrite <- (utf16_lit "public-key").
    split; apply in_assoc; [exact (jm_assoc _ d _ _ K N M1)|exact (jm_assoc _ d _ _ K N M2)].
Qed.

Lemma pure_member d n w : PureJson (VDict d) -> member n d w -> PureJson w.
Proof.
  intros PJ M. inversion PJ as [| | | | | |? K N F]; subst. rewrite Forall_forall in F.
  apply (find_in d (lit n) w (conj K N)) in M. exact (F _ M).
Qed.

Lemma get_assoc m k v : assoc (lit k) m = Some v -> get (JsObj m) k = Some v.
Proof. intro A. cbn [get]. now rewrite A. Qed.
Lemma has_assoc m k v : assoc (lit k) m = Some v -> has_member (JsObj m) k = Some true.
Proof. intro A. cbn [has_member]. now rewrite A. Qed.

(** ** parseCreationOptions *)
Definition app_creation (n : pystr) (h c : bytes) : creation_options :=
  {| co_rp := {| rp_name := lit "localhost"; rp_icon := None; rp_id := lit "localhost" |};
     co_user := {| us_name := n; us_icon := None; us_id := h; us_display_name := n |};
     co_challenge := c; co_pub_key_cred_params := [(FValue, ES256)];
     co_timeout := Some 60000%Z; co_exclude_credentials := None;
     co_authenticator_selection := None; co_attestation := AC_NONE; co_extensions := None |}.
Lemma creation_argument n h c v : JCreation (app_creation n h c) v -> PureJson v ->
  exists o, parseCreationOptions B (js_of v) = Some o /\ CreationArgument n h c o.
Proof.
  intros J PJ. destruct J as (d0 & -> & (w0 & MP & J) & K0).
  pose proof (pure_member _ _ _ PJ MP) as PP.
  inversion PJ as [| | | | | |? _ N0 _]; subst.
  destruct J as (d & -> & ((w1 & M1 & E1) & (w2 & M2 & E2) & (w3 & M3 & E3) & (w4 & M4 & E4) & (w5 & M5 & E5) &
                 M6 & M7 & (w8 & M8 & E8) & M9) & K).
  cbn [may co_exclude_credentials co_authenticator_selection co_extensions app_creation co_rp co_user co_challenge
       co_pub_key_cred_params co_attestation] in *.
  pose proof (pure_member _ _ _ PP M1) as P1. pose proof (pure_member _ _ _ PP M2) as P2.
  pose proof (pure_member _ _ _ PP M4) as P4.
  inversion PP as [| | | | | |? _ N _]; subst. pose proof (keyed_strings _ d K N) as SK.
  pose proof (jm_assoc _ d0 _ _ K0 N0 MP) as AP. cbn [js_of] in AP. fold (jm d) in AP.
  pose proof (jm_assoc _ d _ _ K N M1) as A1. pose proof (jm_assoc _ d _ _ K N M2) as A2.
  pose proof (jm_assoc _ d _ _ K N M3) as A3. pose proof (jm_assoc _ d _ _ K N M4) as A4.
  pose proof (jm_assoc _ d _ _ K N M5) as A5. pose proof (jm_assoc _ d _ _ K N M8) as A8.
  destruct (js_bytes B _ _ E3) as (s & S1 & S2). rewrite S1 in A3.
  destruct (user_argument _ _ _ E2 P2) as (mu & su & U1 & U2 & U3 & U4). rewrite U1 in A2.
  pose proof (rp_argument _ E1 P1) as R1.
  destruct E4 as (l & -> & FL). inversion FL as [|? p ? ? EP FL']; subst. inversion FL'; subst.
  inversion P4 as [| | | | |? FP|]; subst. inversion FP as [|? ? PPa _]; subst.
  pose proof (params_argument _ EP PPa) as Pa.
  unfold JInt in E5. cbn [co_timeout] in E5. unfold JConveyance, OptionSpec.JText in E8. subst w5 w8.
  change (js_of (VDict d0)) with (JsObj (jm d0)).
  unfold parseCreationOptions. cbn [copied]. rewrite (get_assoc _ _ _ AP). cbn [obind].
  rewrite (has_assoc _ _ _ A3). cbn [obind]. rewrite (get_assoc _ _ _ A3). cbn [obind]. rewrite S2. cbn [obind put].
  set (m1 := assign (lit "challenge") (JsBuf c) (jm d)).
  assert (A2' : assoc (lit "user") m1 = Some (JsObj mu)).
  { subst m1. rewrite assoc_other by (apply lit_neq; discriminate). exact A2. }
  rewrite (has_assoc _ _ _ A2'). cbn [obind]. rewrite (get_assoc _ _ _ A2'). cbn [obind].
  rewrite (has_assoc _ _ _ U2). cbn [obind]. rewrite (get_assoc _ _ _ U2). cbn [obind]. rewrite U3. cbn [obind put].
  eexists. split; [reflexivity|].
  assert (F0 : Fields ["publicKey"%string] (jm d0)) by (apply (jm_fields _ _ d0 K0 N0); auto).
  apply fields_members; [apply (fields_assign _ _ _ _ _ F0 AP)|].
  eexists. split; [apply in_assoc, assoc_same|].
  set (mu' := assign (lit "id") (JsBuf h) mu) in *.
  assert (F1 : Fields ["rp"; "user"; "challenge"; "pubKeyCredParams"; "timeout"; "attestation"]%string (jm d))
    by (apply (jm_fields _ _ d K N); gone SK).
  apply fields_members.
  { apply (fields_assign _ _ _ _ _ (fields_assign _ _ _ (JsBuf c) _ F1 A3) A2'). }
  assert (G : forall k x, k <> "user"%string -> k <> "challenge"%string -> assoc (lit k) (jm d) = Some x ->
            In (lit k, x) (assign (lit "user") (JsObj mu') m1)).
  { intros k x X1 X2 A. apply in_assoc. subst m1. rewrite !assoc_other by (now apply lit_neq). exact A. }
  split; [eexists; split; [apply G; [discriminate|discriminate|exact A1]|exact R1]|].
  split; [eexists; split; [apply in_assoc, assoc_same|exact U4]|].
  split; [apply in_assoc; subst m1; rewrite assoc_other by (apply lit_neq; discriminate); apply assoc_same|].
  split; [eexists; split; [apply G; [discriminate|discriminate|exact A4]|exact Pa]|].
  unfold text. rewrite <- (utf16_lit "none").
  split; apply G; try discriminate; assumption.
Qed.

(** ** parseRequestOptions *)
Lemma ids_argument ids l : JList JDescriptor (map (fun i => {| de_id := i; de_transports := None |}) ids) (VList l) ->
  Forall PureJson l ->
  exists l', decode_ids B (map js_of l) = Some l' /\
    Forall2 (fun i x => Members ["type"; "id"]%string (fun has =>
      has "type"%string (text "public-key") /\ has "id"%string (JsBuf i)) x) ids l'.
Proof.
  intros (vs & Q & F). injection Q as <-. revert l F. induction ids as [|i ids IH]; intros l F P.
  - inversion F; subst. exists []. split; [reflexivity|constructor].
  - cbn [map] in F. inversion F as [|? v ? l' J F']; subst. inversion P as [|? ? PJ P']; subst.
    destruct (IH _ F' P') as (l1 & L1 & L2).
    destruct J as (d & -> & ((w1 & M1 & E1) & (w2 & M2 & E2) & M3) & K). cbn [may de_transports] in M3.
    inversion PJ as [| | | | | |? _ N _]; subst. pose proof (keyed_strings _ d K N) as SK.
    pose proof (jm_assoc _ d _ _ K N M1) as A1. pose proof (jm_assoc _ d _ _ K N M2) as A2.
    destruct (js_bytes B _ _ E2) as (s & S1 & S2). rewrite S1 in A2. unfold OptionSpec.JText in E1. subst w1.
    cbn [map]. change (js_of (VDict d)) with (JsObj (jm d)). cbn [decode_ids].
    rewrite (get_assoc _ _ _ A2). cbn [obind]. rewrite S2. cbn [obind copied put]. rewrite L1. cbn [obind].
    eexists. split; [reflexivity|]. constructor; [|exact L2]. cbn [de_id] in *.
    assert (F1 : Fields ["type"; "id"]%string (jm d)) by (apply (jm_fields _ _ d K N); gone SK).
    apply fields_members; [apply (fields_assign _ _ _ _ _ F1 A2)|].
    unfold text. rewrite <- (utf16_lit "public-key").
    split; apply in_assoc; [rewrite assoc_other by (apply lit_neq; discriminate); exact A1|apply assoc_same].
Qed.
Definition app_request (ids : list bytes) (c : bytes) : request_options :=
  {| ro_mediation := MD_OPTIONAL; ro_challenge := c; ro_timeout := Some 60000%Z;
     ro_rp_id := Some (lit "localhost");
     ro_allow_credentials := Some (map (fun i => {| de_id := i; de_transports := None |}) ids);
     ro_user_verification := Some UV_PREFERRED; ro_extensions := None |}.
Lemma request_argument ids c v : JRequest (app_request ids c) v -> PureJson v ->
  exists o, parseRequestOptions B (js_of v) = Some o /\ RequestArgument ids c o.
Proof.
  intros J PJ. destruct J as (d0 & -> & ((w0 & M0 & E0) & (w9 & MP & J)) & K0).
  pose proof (pure_member _ _ _ PJ MP) as PP.
  inversion PJ as [| | | | | |? _ N0 _]; subst. pose proof (keyed_strings _ d0 K0 N0) as SK0.
  destruct J as (d & -> & ((w1 & M1 & E1) & M2 & M3 & M4 & M5 & M6) & K).
  cbn [may app_request ro_mediation ro_challenge ro_timeout ro_rp_id ro_allow_credentials ro_user_verification
       ro_extensions] in *.
  destruct M2 as (w2 & M2 & E2). destruct M3 as (w3 & M3 & E3). destruct M4 as (w4 & M4 & E4).
  destruct M5 as (w5 & M5 & E5).
  pose proof (pure_member _ _ _ PP M4) as P4.
  inversion PP as [| | | | | |? _ N _]; subst. pose proof (keyed_strings _ d K N) as SK.
  pose proof (jm_assoc _ d0 _ _ K0 N0 MP) as AP. cbn [js_of] in AP. fold (jm d) in AP.
  pose proof (jm_assoc _ d0 _ _ K0 N0 M0) as A0.
  pose proof (jm_assoc _ d _ _ K N M1) as A1. pose proof (jm_assoc _ d _ _ K N M2) as A2.
  pose proof (jm_assoc _ d _ _ K N M3) as A3. pose proof (jm_assoc _ d _ _ K N M4) as A4.
  pose proof (jm_assoc _ d _ _ K N M5) as A5.
  destruct (js_bytes B _ _ E1) as (s & S1 & S2). rewrite S1 in A1.
  pose proof E4 as (l & -> & _). inversion P4 as [| | | | |? FP|]; subst.
  destruct (ids_argument _ _ E4 FP) as (l' & L1 & L2). cbn [js_of] in A4.
  unfold JInt, JMediation, JUv, OptionSpec.JText, JStr in E0, E2, E3, E5. subst w0 w2 w3 w5.
  change (js_of (VDict d0)) with (JsObj (jm d0)).
  unfold parseRequestOptions. cbn [copied]. rewrite (get_assoc _ _ _ AP). cbn [obind].
  rewrite (has_assoc _ _ _ A1). cbn [obind]. rewrite (get_assoc _ _ _ A1). cbn [obind]. rewrite S2. cbn [obind put].
  set (m1 := assign (lit "challenge") (JsBuf c) (jm d)).
  assert (A4' : assoc (lit "allowCredentials") m1 = Some (JsArr (map js_of l))).
  { subst m1. rewrite assoc_other by (apply lit_neq; discriminate). exact A4. }
  rewrite (has_assoc _ _ _ A4'). cbn [obind]. rewrite (get_assoc _ _ _ A4'). cbn [obind].
  rewrite L1. cbn [obind put].
  eexists. split; [reflexivity|].
  assert (F0 : Fields ["mediation"; "publicKey"]%string (jm d0)) by (apply (jm_fields _ _ d0 K0 N0); auto).
  apply fields_members; [apply (fields_assign _ _ _ _ _ F0 AP)|].
  split.
  { apply in_assoc. rewrite assoc_other by (apply lit_neq; discriminate). unfold text. rewrite <- (utf16_lit "optional"). exact A0. }
  eexists. split; [apply in_assoc, assoc_same|].
  assert (F1 : Fields ["challenge"; "timeout"; "rpId"; "allowCredentials"; "userVerification"]%string (jm d))
    by (apply (jm_fields _ _ d K N); gone SK).
  apply fields_members.
  { apply (fields_assign _ _ _ _ _ (fields_assign _ _ _ (JsBuf c) _ F1 A1) A4'). }
  assert (G : forall k x, k <> "allowCredentials"%string -> k <> "challenge"%string -> assoc (lit k) (jm d) = Some x ->
            In (lit k, x) (assign (lit "allowCredentials") (JsArr l') m1)).
  { intros k x X1 X2 A. apply in_assoc. subst m1. rewrite !assoc_other by (now apply lit_neq). exact A. }
  split; [apply in_assoc; subst m1; rewrite assoc_other by (apply lit_neq; discriminate); apply assoc_same|].
  split; [apply G; [discriminate|discriminate|exact A2]|].
  unfold text. split; [rewrite <- (utf16_lit "localhost"); apply G; [discriminate|discriminate|exact A3]|].
  split; [rewrite <- (utf16_lit "preferred"); apply G; [discriminate|discriminate|exact A5]|].
  exists l'. split; [apply in_assoc, assoc_same|exact L2].
Qed.
End Page.
