(** * OptionFacts: the options as JSON, credentials and builders. *)
From Coq Require Import List NArith ZArith Bool Lia String.
From Coq Require Import Strings.Byte.
From Verif Require Import Base PyVal BaseFacts B64 CaseConv CodecSpec B64Facts B64Round FormatSpec
  Types World Jsonify Builders OptionSpec CaseFacts JsonifyFacts Parsers.
Import ListNotations.
Local Open Scope list_scope.

(** ** Names *)

Lemma chunks_go_ascii s cur : Forall (fun c => (c < 128)%N) s -> Forall (fun c => (c < 128)%N) cur ->
  Forall (Forall (fun c => (c < 128)%N)) (chunks_go s cur).
Proof.
  intro H. revert cur. induction H as [|c s Hc Hs IH]; intros cur HC; cbn [chunks_go].
  - destruct cur; constructor; [|constructor]. now apply Forall_rev.
  - destruct (N.eqb c 95).
    + destruct cur; [now apply IH|]. constructor; [now apply Forall_rev|]. now apply IH.
    + apply IH. now constructor.
Qed.
Lemma camel_ascii U s : ascii_ok U -> Forall (fun c => (c < 128)%N) s ->
  snake_to_camel U s = snake_to_camel ascii_unicode s.
Proof.
  intros OK H. unfold snake_to_camel, chunks.
  pose proof (chunks_go_ascii s [] H (Forall_nil _)) as HF.
  destruct (chunks_go s []) as [|w ws]; [reflexivity|]. inversion_clear HF as [|? ? _ HW].
  f_equal. f_equal. induction HW as [|x ws Hx HW IH]; [reflexivity|]. cbn [map]. f_equal; [|exact IH].
  destruct x as [|c t]; [reflexivity|]. cbn [cap]. inversion_clear Hx as [|? ? Hc _].
  now rewrite (ok_upper U OK c Hc).
Qed.

Fixpoint nodupb (l : list string) : bool :=
  match l with [] => true | x :: t => negb (existsb (String.eqb x) t) && nodupb t end.
Lemma nodupb_ok l : nodupb l = true -> NoDup l.
Proof.
  induction l as [|x l IH]; cbn; [constructor|]. intro H. apply andb_true_iff in H as [H1 H2].
  constructor; [|auto]. intro I. apply negb_true_iff in H1.
  assert (existsb (String.eqb x) l = true); [|congruence]. apply existsb_exists. exists x.
  split; [assumption|apply String.eqb_refl].
Qed.
Lemma lit_inj a b : lit a = lit b -> a = b.
Proof.
  unfold lit. intro H.
  assert (E : String.list_ascii_of_string a = String.list_ascii_of_string b).
  { revert H. generalize (String.list_ascii_of_string a), (String.list_ascii_of_string b).
    induction l as [|x l IH]; intros [|y l'] H; try discriminate; [reflexivity|].
    cbn in H. injection H as H1 H2. f_equal; [|now apply IH].
    rewrite <- (Ascii.ascii_N_embedding x), <- (Ascii.ascii_N_embedding y). now f_equal. }
  rewrite <- (String.string_of_list_ascii_of_string a), <- (String.string_of_list_ascii_of_string b).
  now f_equal.
Qed.

Lemma find_in d k w : str_keys d -> (dict_find (VStr k) d = Some w <-> In (VStr k, w) d).
Proof.
  intros [HS HN]. revert HS HN. induction d as [|[a b] d IH]; intros HS HN; cbn [dict_find].
  - split; [discriminate|intros []].
  - destruct (HS a b (or_introl eq_refl)) as (s & ->). cbn [py_eq as_int].
    inversion HN as [|? ? NI HN']; subst. cbn [map fst] in NI.
    destruct (str_eqb s k) eqn:E.
    + apply str_eqb_eq in E as ->. split; [intro H; injection H as ->; now left|].
      intros [H|H]; [injection H as ->; reflexivity|]. exfalso. apply NI. apply in_map_iff. exists (VStr k, w). auto.
    + rewrite IH; [|intros; eapply HS; right; eassumption|assumption]. split; [now right|].
      intros [H|H]; [|assumption]. injection H as -> _. rewrite (proj2 (str_eqb_eq k k) eq_refl) in E. discriminate.
Qed.

Lemma nth_error_map_inv {A B} (f : A -> B) l i b :
  nth_error (map f l) i = Some b -> exists a, nth_error l i = Some a /\ b = f a.
Proof.
  revert i. induction l as [|x l IH]; intros [|i] H; try discriminate; cbn in *.
  - injection H as <-. eauto.
  - now apply IH.
Qed.

Section Options.
Variable U : unicode.
Hypothesis OK : ascii_ok U.
Notation J d := (jsonify U d true).

(** What the conversion of an attribute contributes to the object. *)
Inductive fspec (d : nat) : pobj -> (pydict -> string -> Prop) -> Prop :=
| fs_has x (P : pyval -> Prop) : x <> ONone -> (exists w, J d x = Ok w /\ P w) ->
    fspec d x (fun r j => has r j P)
| fs_may A (f : A -> pobj) (o : option A) (P : A -> pyval -> Prop) :
    (forall a, o = Some a -> f a <> ONone /\ exists w, J d (f a) = Ok w /\ P a w) ->
    fspec d (opt f o) (fun r j => may r j o P).

Lemma fspec_total d x Q : fspec d x Q -> x <> ONone -> exists w, J d x = Ok w.
Proof.
  intros [y P _ (w & H & _)|A f o P H] HN; [eauto|]. destruct o as [a|]; [|now elim HN].
  destruct (H a eq_refl) as (_ & w & E & _). eauto.
Qed.

Lemma obj_json d (fields : list (string * pobj)) Qs (jn : list string) :
  Forall2 (fun f Q => fspec d (snd f) Q) fields Qs ->
  forallb (fun f => forallb (fun c => N.ltb c 128) (lit (fst f))) fields = true ->
  map (fun f => snake_to_camel ascii_unicode (lit (fst f))) fields = map lit jn ->
  nodupb jn = true ->
  exists r, J (S d) (obj fields) = Ok (VDict r) /\ Forall2 (fun Q j => Q r j) Qs jn /\
    (forall k w, In (k, w) r -> exists n, In n jn /\ k = VStr (lit n)).
Proof.
  intros HF HA HM HD. apply nodupb_ok in HD.
  unfold obj. cbn [jsonify].
  set (m := map (fun '(n, x) => (KStr (lit n), x)) fields).
  assert (HK : forallb (fun kv : pkey * pobj => str_key (fst kv)) m = true).
  { apply forallb_forall. intros kv I. apply in_map_iff in I as ([n x] & <- & _). reflexivity. }
  rewrite HK. cbn [check bind].
  (* names as a function of position *)
  assert (NM : forall n x, In (n, x) fields -> snake_to_camel U (lit n) = snake_to_camel ascii_unicode (lit n)).
  { intros n x I. apply camel_ascii; [exact OK|]. rewrite forallb_forall in HA. specialize (HA _ I).
    cbn [fst] in HA. rewrite forallb_forall in HA. apply Forall_forall. intros c Hc.
    apply HA in Hc. now apply N.ltb_lt. }
  destruct (members_total (fun k => snake_to_camel U k) (J d) m []) as (r & E).
  { intros k x I NX. apply in_map_iff in I as ([n y] & E & I). injection E as <- ->.
    clear - HF I NX. induction HF as [|f Q fields Qs H HF IH]; [destruct I|].
    destruct I as [E|I]; [subst f; exact (fspec_total d _ _ H NX)|auto]. }
  rewrite E. cbn [bind]. exists r. split; [reflexivity|].
  apply members_ok in E; [|split; [intros ? ? []|constructor]]. destruct E as (SK & MEM & _).
  (* the last member of a name is its only one *)
  assert (LAST : forall i n x j, nth_error fields i = Some (n, x) -> nth_error jn i = Some j ->
    forall y, LastMember (fun k => snake_to_camel U k) m (lit j) y <-> (y = x /\ x <> ONone)).
  { intros i n x j Hi Hj y.
    assert (NTH : forall i n x j, nth_error fields i = Some (n, x) -> nth_error jn i = Some j ->
      snake_to_camel U (lit n) = lit j).
    { clear - HM NM. intros i n x j Hi Hj. rewrite (NM n x) by (eapply nth_error_In; eauto).
      apply (map_nth_error (fun f => snake_to_camel ascii_unicode (lit (fst f)))) in Hi.
      apply (map_nth_error lit) in Hj. rewrite HM in Hi. cbn [fst] in Hi. congruence. }
    assert (UNI : forall i' n' x', nth_error fields i' = Some (n', x') ->
      snake_to_camel U (lit n') = lit j -> i' = i).
    { intros i' n' x' Hi' E'.
      assert (exists j', nth_error jn i' = Some j') as (j' & Hj').
      { assert (L : List.length fields = List.length jn) by (apply (f_equal (@List.length _)) in HM; now rewrite !map_length in HM).
        destruct (nth_error jn i') eqn:X; [eauto|]. apply nth_error_None in X. rewrite <- L in X.
        apply nth_error_None in X. congruence. }
      rewrite (NTH _ _ _ _ Hi' Hj') in E'. apply lit_inj in E' as ->.
      rewrite NoDup_nth_error in HD. apply HD; [apply nth_error_Some; congruence|congruence]. }
    split.
    - intros (m1 & k & m2 & E & C & NY & _).
      assert (X : nth_error m (List.length m1) = Some (KStr k, y)).
      { rewrite E, nth_error_app2 by lia. now rewrite Nat.sub_diag. }
      unfold m in X. apply nth_error_map_inv in X as ([n' x'] & X & E'). injection E' as -> ->.
      assert (List.length m1 = i) as L by (eapply UNI; eauto). subst i. rewrite X in Hi.
      injection Hi as -> ->. auto.
    - intros [-> NX]. destruct (nth_error_split _ _ Hi) as (f1 & f2 & -> & Hlen).
      exists (map (fun '(n, x) => (KStr (lit n), x)) f1), (lit n),
        (map (fun '(n, x) => (KStr (lit n), x)) f2).
      split; [unfold m; now rewrite map_app|]. split; [eapply NTH; eauto|]. split; [assumption|].
      intros n' x' I NX' C. apply in_map_iff in I as ([n'' x''] & E & I). injection E as <- <-.
      apply In_nth_error in I as (p & Hp).
      assert (S (List.length f1) + p = i)%nat; [|lia]. eapply UNI; [|exact C].
      rewrite nth_error_app2 by lia.
      replace (S (List.length f1) + p - List.length f1)%nat with (S p) by lia. exact Hp. }
  split.
  - assert (GEN : forall i Q j f, nth_error fields i = Some f -> nth_error Qs i = Some Q ->
      nth_error jn i = Some j -> fspec d (snd f) Q -> Q r j).
    { intros i Q j [n x] Hf HQ Hj HS. cbn [snd] in HS.
      assert (VAL : forall w, dict_find (VStr (lit j)) r = Some w <-> (x <> ONone /\ J d x = Ok w)).
      { intro w. rewrite (find_in r (lit j) w SK), MEM. split.
        - intros [(y & L & F)|[_ []]]. apply (LAST i n x j Hf Hj) in L as [-> NX]. auto.
        - intros [NX F]. left. exists x. split; [|assumption]. now apply (LAST i n x j Hf Hj). }
      destruct HS as [x P NX (w & F & HP)|A g o P HG].
      - exists w. split; [|assumption]. apply VAL. auto.
      - destruct o as [a|]; cbn [may opt] in *.
        + destruct (HG a eq_refl) as (NX & w & F & HP). exists w. split; [|assumption]. apply VAL. auto.
        + destruct (dict_find _ r) as [w|] eqn:X; [|reflexivity]. exfalso. destruct (proj1 (VAL w) eq_refl) as [NX _]. congruence. }
    assert (L : List.length fields = List.length jn) by (apply (f_equal (@List.length _)) in HM; now rewrite !map_length in HM).
    clear - GEN HF L. revert jn GEN L. induction HF as [|f Q fields Qs H HF IH]; intros [|j jn] GEN L; try discriminate.
    + constructor.
    + constructor; [apply (GEN 0%nat Q j f); auto|]. apply IH.
      * intros i. apply (GEN (S i)).
      * now injection L.
  - intros k w I. destruct (proj1 SK k w I) as (s & ->). apply MEM in I as [(y & (m1 & a & m2 & E & C & _) & _)|[_ []]].
    assert (X : nth_error m (List.length m1) = Some (KStr a, y)).
    { rewrite E, nth_error_app2 by lia. now rewrite Nat.sub_diag. }
    unfold m in X. apply nth_error_map_inv in X as ([n x] & X & E'). injection E' as -> _.
    cbn beta in C. rewrite (NM n x) in C by (eapply nth_error_In; eauto).
    apply (map_nth_error (fun f => snake_to_camel ascii_unicode (lit (fst f)))) in X.
    rewrite HM in X. cbn [fst] in X. rewrite C in X. apply nth_error_In in X.
    apply in_map_iff in X as (j & <- & I). eauto.
Qed.

(** ** Leaves *)
Definition conv_to (k : nat) (x : pobj) (P : pyval -> Prop) : Prop :=
  x <> ONone /\ forall d, (k <= d)%nat -> exists w, J d x = Ok w /\ P w.

Lemma leaf k x v (P : pyval -> Prop) : x <> ONone -> (forall d, J (S d) x = Ok v) -> P v -> conv_to (S k) x P.
Proof.
  intros H1 H2 H3. split; [assumption|]. intros [|d] L; [lia|]. exists v. auto.
Qed.
Lemma c_str s : conv_to 1 (OStr s) (JStr s).
Proof. eapply leaf; [discriminate|reflexivity|reflexivity]. Qed.
Lemma c_int s : conv_to 1 (OInt s) (JInt s).
Proof. eapply leaf; [discriminate|reflexivity|reflexivity]. Qed.
Lemma c_bool s : conv_to 1 (OBool s) (JBool s).
Proof. eapply leaf; [discriminate|reflexivity|reflexivity]. Qed.
Lemma c_float x : conv_to 1 (OFloat x) (eq (VFloat x)).
Proof. eapply leaf; [discriminate|reflexivity|reflexivity]. Qed.
Lemma c_bytes b : conv_to 1 (OBytes b) (JBytes b).
Proof.
  eapply leaf; [discriminate|reflexivity|]. exists (b2a b). split; [reflexivity|].
  split; [apply b2a_rfc|apply std_round_trip].
Qed.
Lemma c_text s : conv_to 2 (member_obj s) (JText s).
Proof.
  split; [discriminate|]. intros [|[|d]] L; [lia|lia|]. exists (VStr (lit s)). split; reflexivity.
Qed.
Lemma c_list {A} k (f : A -> pobj) (P : A -> pyval -> Prop) l :
  (forall a, conv_to k (f a) (P a)) -> conv_to (S k) (OList (map f l)) (JList P l).
Proof.
  intro H. split; [discriminate|]. intros [|d] L; [lia|]. cbn [jsonify].
  assert (E : exists vs, each (J d) (map f l) = Ok vs /\ Forall2 P l vs).
  { induction l as [|a l IH]; [exists []; split; [reflexivity|constructor]|].
    destruct IH as (vs & E & F). destruct (H a) as (_ & G). destruct (G d ltac:(lia)) as (w & E1 & E2).
    exists (w :: vs). split; [|now constructor]. cbn [map each]. rewrite E1. cbn [bind]. rewrite E. reflexivity. }
  destruct E as (vs & -> & F). exists (VList vs). split; [reflexivity|]. now exists vs.
Qed.

Lemma f_has k d x P : conv_to k x P -> (k <= d)%nat -> fspec d x (fun r j => has r j P).
Proof. intros [H1 H2] L. apply fs_has; [assumption|now apply H2]. Qed.
Lemma f_may {A} k d (f : A -> pobj) o P : (forall a, conv_to k (f a) (P a)) -> (k <= d)%nat ->
  fspec d (opt f o) (fun r j => may r j o P).
Proof. intros H L. apply fs_may. intros a _. destruct (H a) as [H1 H2]. split; [assumption|now apply H2]. Qed.

Lemma c_obj k fields Qs jn (P : pydict -> Prop) :
  (forall d, (k <= d)%nat -> Forall2 (fun f Q => fspec d (snd f) Q) fields Qs) ->
  forallb (fun f => forallb (fun c => N.ltb c 128) (lit (fst f))) fields = true ->
  map (fun f => snake_to_camel ascii_unicode (lit (fst f))) fields = map lit jn ->
  nodupb jn = true ->
  (forall r, Forall2 (fun Q j => Q r j) Qs jn -> P r) ->
  conv_to (S k) (obj fields) (JObject jn P).
Proof.
  intros HF HA HM HD HP. split; [discriminate|]. intros [|d] L; [lia|].
  destruct (obj_json d fields Qs jn (HF d ltac:(lia)) HA HM HD) as (r & E & F & K).
  exists (VDict r). split; [exact E|]. exists r. split; [reflexivity|]. split; [now apply HP|exact K].
Qed.

Ltac fields := intros d L; repeat (first
  [ apply Forall2_nil
  | apply Forall2_cons; [cbn [snd]; first
      [ eapply f_has; [solve [eauto with opts]|lia]
      | eapply f_may; [solve [intro; eauto with opts]|lia] ] | ] ]).
Ltac conjs := let r := fresh in let F := fresh in intros r F;
  repeat match goal with H : Forall2 _ _ _ |- _ => inversion_clear H end;
  repeat (split; [assumption|]); assumption.
Ltac object := eapply c_obj; [fields|vm_compute; reflexivity|vm_compute; reflexivity|vm_compute; reflexivity|conjs].

#[local] Hint Resolve c_str c_int c_bool c_float c_bytes : opts.
#[local] Hint Resolve c_text | 10 : opts.

Lemma c_rp r : conv_to 2 (obj_of_rp r) (JRp r).
Proof. object. Qed.
Lemma c_user u : conv_to 2 (obj_of_user u) (JUser u).
Proof. object. Qed.
Lemma c_alg p : conv_to 2 (OEnum match fst p with
                     | FName => OStr (en_name alg_enum (snd p))
                     | FValue => OInt (en_value alg_enum (snd p)) end) (cose_alg p).
Proof.
  split; [discriminate|]. destruct p as [f a]. intros [|[|d]] L; [lia|lia|]. cbn [fst snd].
  destruct f, a; eexists; (split; [reflexivity|]); vm_compute; reflexivity.
Qed.
#[local] Hint Resolve c_alg : opts.
Lemma c_params p : conv_to 3 (obj_of_params p) (JParams p).
Proof. object. Qed.
Lemma c_transports l : conv_to 3 (OList (map (fun t => member_obj (transport_value t)) l)) (JList JTransport l).
Proof. apply c_list. intro a. destruct a; apply c_text. Qed.
#[local] Hint Resolve c_transports : opts.
Lemma c_descriptor x : conv_to 4 (obj_of_descriptor x) (JDescriptor x).
Proof. object. Qed.
Lemma c_descriptors l : conv_to 5 (OList (map obj_of_descriptor l)) (JList JDescriptor l).
Proof. apply c_list. apply c_descriptor. Qed.
Lemma c_paramss l : conv_to 4 (OList (map obj_of_params l)) (JList JParams l).
Proof. apply c_list. apply c_params. Qed.
Lemma c_txgen x : conv_to 2 (obj_of_txgen x) (JTxGeneric x).
Proof. object. Qed.
Lemma c_bounds x : conv_to 2 (obj_of_bounds x) (JBounds x).
Proof. object. Qed.
Lemma c_bytess l : conv_to 2 (OList (map OBytes l)) (JList JBytes l).
Proof. apply c_list. apply c_bytes. Qed.
#[local] Hint Resolve c_rp c_user c_descriptors c_paramss c_txgen c_bounds c_bytess : opts.
Lemma c_inputs x : conv_to 3 (obj_of_inputs x) (JInputs x).
Proof. object. Qed.
Lemma c_uv a : conv_to 2 (member_obj (uv_value a)) (JUv a).
Proof. destruct a; apply c_text. Qed.
Lemma c_attachment a : conv_to 2 (member_obj (attachment_value a)) (JAttachment a).
Proof. destruct a; apply c_text. Qed.
#[local] Hint Resolve c_uv c_attachment c_inputs : opts.
Lemma c_selection x : conv_to 3 (obj_of_selection x) (JSelection x).
Proof. object. Qed.
Lemma c_conveyance a : conv_to 2 (member_obj (conveyance_value a)) (JConveyance a).
Proof. destruct a; apply c_text. Qed.
Lemma c_mediation a : conv_to 2 (member_obj (mediation_value a)) (JMediation a).
Proof. destruct a; apply c_text. Qed.
#[local] Hint Resolve c_selection c_conveyance c_mediation : opts.

Lemma c_creation_key o : conv_to 6 (obj_of_creation_key o) (JCreationKey o).
Proof. object. Qed.
Lemma c_request_key o : conv_to 6 (obj_of_request_key o) (JRequestKey o).
Proof. object. Qed.
#[local] Hint Resolve c_creation_key c_request_key : opts.
Lemma c_creation o : conv_to 7 (obj_of_creation o) (JCreation o).
Proof. object. Qed.
Lemma c_request o : conv_to 7 (obj_of_request o) (JRequest o).
Proof. object. Qed.

(** ** Credentials *)
Definition JResponse (r : response) : pyval -> Prop :=
  match r with
  | AttestationResponse cdj ao =>
      JObject ["clientDataJSON"; "attestationObject"] (fun d =>
        has d "clientDataJSON" (JBytes cdj) /\ has d "attestationObject" (JBytes ao))
  | AssertionResponse cdj ad sig uh =>
      JObject ["clientDataJSON"; "authenticatorData"; "signature"; "userHandle"] (fun d =>
        has d "clientDataJSON" (JBytes cdj) /\ has d "authenticatorData" (JBytes ad) /\
        has d "signature" (JBytes sig) /\ may d "userHandle" uh JBytes)
  end%string.
Lemma c_response r : conv_to 2 (obj_of_response r) (JResponse r).
Proof. destruct r; object. Qed.
#[local] Hint Resolve c_response : opts.
Definition JCredential (c : credential) : pyval -> Prop :=
  JObject ["id"; "type"; "rawId"; "response"]%string (fun d =>
    has d "id" (JStr (cr_id c)) /\ has d "type" (JStr (cr_type c)) /\
    has d "rawId" (JBytes (cr_raw_id c)) /\ has d "response" (JResponse (cr_response c))).
Lemma c_credential c : conv_to 3 (obj_of_credential c) (JCredential c).
Proof. object. Qed.

End Options.

Lemma keys_supported W names d :
  (forall k w, In (k, w) d -> exists n, In n names /\ k = VStr (lit n)) ->
  check_unsupported_keys W (map lit names) d = Ok tt.
Proof.
  intro H. apply check_ok. apply forallb_forall. intros [k w] I.
  destruct (H k w I) as (n & IN & ->). apply existsb_exists. exists (lit n).
  split; [now apply in_map|]. cbn [fst py_eq as_int]. now apply str_eqb_eq.
Qed.
Lemma field_str_has d name s : has d name (JStr s) -> field_str (skey name) d = Ok s.
Proof.
  intros (w & H & ->). unfold field_str, parse_dictionary_field, dict_get. unfold member in H.
  unfold skey. rewrite H. reflexivity.
Qed.
Lemma field_bytes_has d name b : has d name (JBytes b) ->
  exists s, field_str (skey name) d = Ok s /\ bytes_from_base64 s = Ok b.
Proof.
  intros (w & H & s & -> & _ & D). exists s. split; [apply field_str_has; exists (VStr s); split; [exact H|reflexivity]|].
  unfold bytes_from_base64. now rewrite D.
Qed.

Lemma credential_parses W c v : JCredential c v -> exists d, v = VDict d /\ parse_public_key_credential W d = Ok c.
Proof.
  intros (d & -> & (H1 & H2 & H3 & H4) & K). exists d. split; [reflexivity|].
  unfold parse_public_key_credential.
  rewrite (keys_supported W ["id"; "rawId"; "response"; "type"]%string).
  2: { intros k w I. destruct (K k w I) as (n & IN & ->). exists n. split; [|reflexivity]. cbn in IN |- *. intuition. }
  cbn [bind]. rewrite (field_str_has _ _ _ H1), (field_str_has _ _ _ H2). cbn [bind].
  destruct (field_bytes_has _ _ _ H3) as (s3 & -> & E3). cbn [bind]. rewrite E3. cbn [bind].
  destruct H4 as (w & H4 & HR).
  assert (HD : exists rd, w = VDict rd) by (destruct (cr_response c); destruct HR as (rd & -> & _); eauto).
  destruct HD as (rd & ->).
  assert (FD : field_dict (skey "response") d = Ok rd).
  { unfold field_dict, parse_dictionary_field, dict_get, skey. unfold member in H4. rewrite H4. reflexivity. }
  rewrite FD. cbn [bind]. destruct c as [i t raw resp]. cbn [cr_response cr_id cr_type cr_raw_id] in *.
  destruct resp as [cdj ao|cdj ad sig uh].
  - destruct HR as (rd' & E & (R1 & R2) & RK). injection E as <-.
    destruct (field_bytes_has _ _ _ R1) as (s1 & -> & E1). cbn [bind]. rewrite E1. cbn [bind].
    assert (M : dict_mem (skey "attestationObject") rd = true).
    { destruct R2 as (w & R2 & _). unfold dict_mem, skey. unfold member in R2. now rewrite R2. }
    rewrite M. rewrite (keys_supported W ["clientDataJSON"; "attestationObject"]%string) by exact RK.
    cbn [bind]. destruct (field_bytes_has _ _ _ R2) as (s2 & -> & E2). cbn [bind]. rewrite E2. reflexivity.
  - destruct HR as (rd' & E & (R1 & R2 & R3 & R4) & RK). injection E as <-.
    destruct (field_bytes_has _ _ _ R1) as (s1 & -> & E1). cbn [bind]. rewrite E1. cbn [bind].
    assert (M : dict_mem (skey "attestationObject") rd = false).
    { unfold dict_mem. destruct (dict_find _ rd) as [w|] eqn:F; [|reflexivity]. exfalso.
      assert (G : forall l k w, dict_find k l = Some w -> exists k', In (k', w) l /\ py_eq k' k = true).
      { clear. induction l as [|[a b] l IH]; intros k w H; cbn in H; [discriminate|].
        destruct (py_eq a k) eqn:E; [injection H as ->; exists a; split; [now left|assumption]|].
        destruct (IH _ _ H) as (k' & I & E'). exists k'. split; [now right|assumption]. }
      apply G in F as (k' & I & E). apply RK in I as (n & IN & ->).
      cbn in IN. destruct IN as [<-|[<-|[<-|[<-|[]]]]]; vm_compute in E; discriminate. }
    rewrite M. rewrite (keys_supported W ["clientDataJSON"; "authenticatorData"; "signature"; "userHandle"]%string) by exact RK.
    cbn [bind]. destruct (field_bytes_has _ _ _ R2) as (s2 & -> & E2). cbn [bind]. rewrite E2. cbn [bind].
    destruct (field_bytes_has _ _ _ R3) as (s3' & -> & E3'). cbn [bind]. rewrite E3'. cbn [bind].
    destruct uh as [b|]; cbn [may] in R4.
    + destruct R4 as (w & R4 & s & -> & _ & D). unfold field_opt_str, parse_dictionary_field, dict_get, skey.
      unfold member in R4. rewrite R4. cbn. unfold bytes_from_base64. rewrite D. reflexivity.
    + unfold field_opt_str, parse_dictionary_field, dict_get, skey. rewrite R4. reflexivity.
Qed.

(** ** Builders *)
Lemma written_cons {A B} (f : A -> option B) i c l :
  written f i (c :: l) = written f (match f c with Some b => b | None => i end) l.
Proof. unfold written. cbn [last_some]. destruct (last_some f l); [reflexivity|]. now destruct (f c). Qed.

Lemma creation_chain b l b' : chain creation_set b l = Ok b' <->
  Forall (fun c => ~ unsets_required c) l /\
  b' = {| cb_rp := written to_rp (cb_rp b) l;
          cb_pub_key_cred_params := written to_params (cb_pub_key_cred_params b) l;
          cb_timeout := written to_timeout (cb_timeout b) l;
          cb_authenticator_selection := written to_selection (cb_authenticator_selection b) l;
          cb_extensions := written to_extensions (cb_extensions b) l;
          cb_attestation := written to_attestation (cb_attestation b) l;
          cb_exclude_credentials := written to_exclude (cb_exclude_credentials b) l |}.
Proof.
  revert b. induction l as [|c l IH]; intro b; cbn [chain].
  - split.
    + intro H. injection H as <-. split; [constructor|]. now destruct b.
    + intros [_ ->]. now destruct b.
  - destruct b as [r p t s e a x].
    assert (NEG : unsets_required c -> creation_set (Build_creation_builder r p t s e a x) c = Raise (Py EAssertionError)).
    { destruct c as [[?|]|[?|]| | | |[?|]|]; cbn; tauto. }
    assert (POS : ~ unsets_required c -> exists b1, creation_set (Build_creation_builder r p t s e a x) c = Ok b1).
    { destruct c as [[?|]|[?|]| | | |[?|]|]; cbn; eauto; tauto. }
    assert (DEC : unsets_required c \/ ~ unsets_required c).
    { destruct c as [[?|]|[?|]| | | |[?|]|]; cbn; tauto. }
    destruct DEC as [D|D].
    + rewrite (NEG D). split; [discriminate|]. intros [H _]. now inversion H.
    + destruct (POS D) as (b1 & E). rewrite E. cbn [bind]. rewrite IH, Forall_cons_iff. clear IH NEG POS.
      rewrite !written_cons. 
      assert (Q : b1 = {| cb_rp := match to_rp c with Some v => v | None => r end;
          cb_pub_key_cred_params := match to_params c with Some v => v | None => p end;
          cb_timeout := match to_timeout c with Some v => v | None => t end;
          cb_authenticator_selection := match to_selection c with Some v => v | None => s end;
          cb_extensions := match to_extensions c with Some v => v | None => e end;
          cb_attestation := match to_attestation c with Some v => v | None => a end;
          cb_exclude_credentials := match to_exclude c with Some v => v | None => x end |}).
      { destruct c as [[?|]|[?|]| | | |[?|]|]; cbn in E; try discriminate; now injection E as <-. }
      subst b1. cbn. tauto.
Qed.

Lemma request_chain b l b' : chain request_set b l = Ok b' <->
  Forall (fun c => ~ runsets_required c) l /\
  b' = {| rb_mediation := written to_mediation (rb_mediation b) l;
          rb_timeout := written to_rtimeout (rb_timeout b) l;
          rb_rp_id := written to_rp_id (rb_rp_id b) l;
          rb_extensions := written to_rextensions (rb_extensions b) l;
          rb_user_verification := written to_uv (rb_user_verification b) l |}.
Proof.
  revert b. induction l as [|c l IH]; intro b; cbn [chain].
  - split.
    + intro H. injection H as <-. split; [constructor|]. now destruct b.
    + intros [_ ->]. now destruct b.
  - destruct b as [m t r e u].
    assert (NEG : runsets_required c -> request_set (Build_request_builder m t r e u) c = Raise (Py EAssertionError)).
    { unfold runsets_required. now intros ->. }
    assert (POS : ~ runsets_required c -> exists b1, request_set (Build_request_builder m t r e u) c = Ok b1).
    { unfold runsets_required. destruct c as [[?|]| | | |]; cbn; eauto. intro N. now elim N. }
    assert (DEC : runsets_required c \/ ~ runsets_required c).
    { unfold runsets_required. destruct c as [[?|]| | | |]; auto; right; discriminate. }
    destruct DEC as [D|D].
    + rewrite (NEG D). split; [discriminate|]. intros [H _]. now inversion H.
    + destruct (POS D) as (b1 & E). rewrite E. cbn [bind]. rewrite IH, Forall_cons_iff. clear IH NEG POS.
      rewrite !written_cons.
      assert (Q : b1 = {| rb_mediation := match to_mediation c with Some v => v | None => m end;
          rb_timeout := match to_rtimeout c with Some v => v | None => t end;
          rb_rp_id := match to_rp_id c with Some v => v | None => r end;
          rb_extensions := match to_rextensions c with Some v => v | None => e end;
          rb_user_verification := match to_uv c with Some v => v | None => u end |}).
      { destruct c as [[?|]| | | |]; cbn in E; try discriminate; now injection E as <-. }
      subst b1. cbn. tauto.
Qed.
