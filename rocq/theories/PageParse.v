(** * PageParse: parseCreationOptions and parseRequestOptions on any options of the library. *)
From Coq Require Import List NArith ZArith Bool String Lia.
From Verif Require Import Base BaseFacts PyVal B64 B64Facts Json JsonSpec JsonFacts CodecSpec FormatSpec
  Types CaseConv Jsonify Builders OptionSpec JsonifyFacts OptionFacts OptionProps World App AppSpec
  Dumps DumpsSpec Form Page PageSpec FormFacts PageText PageArgs.
Import ListNotations.
Local Open Scope N_scope.
Local Open Scope list_scope.

Lemma reads_assoc m n x : NoDup (map fst m) -> assoc (lit n) m = Some x -> Reads (JsObj m) n x.
Proof. intros N A. exists m. split; [reflexivity|]. split; [exact N|]. now apply in_assoc. Qed.
Lemma reads_iff m n x : NoDup (map fst m) -> (Reads (JsObj m) n x <-> assoc (lit n) m = Some x).
Proof.
  intro N. split; [|now apply reads_assoc]. intros (m' & Q & N' & I). injection Q as <-. now apply assoc_in.
Qed.

Section Parse.
Variable B : browser.

Lemma parse_creation o v : JCreation o v -> PureJson v ->
  exists a pk0 pk u, Reads (js_of v) "publicKey" pk0 /\ parseCreationOptions B (js_of v) = Some a /\
    Reads a "publicKey" pk /\ Reads pk "challenge" (JsBuf (co_challenge o)) /\
    Reads pk "user" u /\ Reads u "id" (JsBuf (us_id (co_user o))) /\
    (forall n x, n <> "challenge"%string -> n <> "user"%string -> (Reads pk n x <-> Reads pk0 n x)).
Proof.
  intros J PJ. destruct J as (d0 & -> & (w0 & MP & J) & K0).
  pose proof (pure_member _ _ _ PJ MP) as PP.
  inversion PJ as [| | | | | |? _ N0 _]; subst.
  destruct J as (d & -> & (_ & (w2 & M2 & E2) & (w3 & M3 & E3) & _) & K).
  pose proof (pure_member _ _ _ PP M2) as P2.
  inversion PP as [| | | | | |? _ N _]; subst. pose proof (keyed_strings _ d K N) as SK.
  pose proof (jm_assoc _ d0 _ _ K0 N0 MP) as AP. cbn [js_of] in AP. fold (jm d) in AP.
  pose proof (jm_assoc _ d _ _ K N M2) as A2. pose proof (jm_assoc _ d _ _ K N M3) as A3.
  pose proof (jm_nodup _ _ K0 N0) as D0. pose proof (jm_nodup _ _ K N) as D1.
  destruct (js_bytes B _ _ E3) as (s & S1 & S2). rewrite S1 in A3.
  destruct E2 as (du & -> & (_ & _ & (wi & MI & EI) & _) & KU).
  inversion P2 as [| | | | | |? _ NU _]; subst. pose proof (jm_nodup _ _ KU NU) as DU.
  cbn [js_of] in A2. fold (jm du) in A2. pose proof (jm_assoc _ du _ _ KU NU MI) as U2.
  destruct (js_bytes B _ _ EI) as (si & I1 & I2). rewrite I1 in U2.
  change (js_of (VDict d0)) with (JsObj (jm d0)).
  unfold parseCreationOptions. cbn [copied]. rewrite (get_assoc _ _ _ AP). cbn [obind].
  rewrite (has_assoc _ _ _ A3). cbn [obind]. rewrite (get_assoc _ _ _ A3). cbn [obind]. rewrite S2. cbn [obind put].
  set (m1 := assign (lit "challenge") (JsBuf (co_challenge o)) (jm d)).
  assert (A2' : assoc (lit "user") m1 = Some (JsObj (jm du))).
  { subst m1. rewrite assoc_other by (apply lit_neq; discriminate). exact A2. }
  rewrite (has_assoc _ _ _ A2'). cbn [obind]. rewrite (get_assoc _ _ _ A2'). cbn [obind].
  rewrite (has_assoc _ _ _ U2). cbn [obind]. rewrite (get_assoc _ _ _ U2). cbn [obind]. rewrite I2. cbn [obind put].
  set (u := assign (lit "id") (JsBuf (us_id (co_user o))) (jm du)).
  set (m2 := assign (lit "user") (JsObj u) m1).
  assert (D2 : NoDup (map fst m2)).
  { subst m2 m1. rewrite (assign_keys _ _ _ _ A2'). now rewrite (assign_keys _ _ _ _ A3). }
  exists (JsObj (assign (lit "publicKey") (JsObj m2) (jm d0))), (JsObj (jm d)), (JsObj m2), (JsObj u).
  split; [now apply reads_assoc|]. split; [reflexivity|].
  split; [apply reads_assoc; [now rewrite (assign_keys _ _ _ _ AP)|apply assoc_same]|].
  split; [apply reads_assoc; [exact D2|subst m2 m1; rewrite assoc_other by (apply lit_neq; discriminate); apply assoc_same]|].
  split; [apply reads_assoc; [exact D2|apply assoc_same]|].
  split; [apply reads_assoc; [subst u; now rewrite (assign_keys _ _ _ _ U2)|apply assoc_same]|].
  intros n x X1 X2. rewrite !reads_iff by assumption. subst m2 m1. rewrite !assoc_other by (now apply lit_neq). tauto.
Qed.

Lemma parse_ids xs l : JList JDescriptor xs (VList l) -> Forall PureJson l ->
  exists l', decode_ids B (map js_of l) = Some l' /\ Forall2 (fun d x => Reads x "id" (JsBuf (de_id d))) xs l'.
Proof.
  intros (vs & Q & F). injection Q as <-. revert l F. induction xs as [|i ids IH]; intros l F P.
  - inversion F; subst. exists []. split; [reflexivity|constructor].
  - inversion F as [|? v ? l' J F']; subst. inversion P as [|? ? PJ P']; subst.
    destruct (IH _ F' P') as (l1 & L1 & L2).
    destruct J as (d & -> & (_ & (w2 & M2 & E2) & _) & K).
    inversion PJ as [| | | | | |? _ N _]; subst.
    pose proof (jm_assoc _ d _ _ K N M2) as A2. pose proof (jm_nodup _ _ K N) as D.
    destruct (js_bytes B _ _ E2) as (s & S1 & S2). rewrite S1 in A2.
    cbn [map]. change (js_of (VDict d)) with (JsObj (jm d)). cbn [decode_ids].
    rewrite (get_assoc _ _ _ A2). cbn [obind]. rewrite S2. cbn [obind copied put]. rewrite L1. cbn [obind].
    eexists. split; [reflexivity|]. constructor; [|exact L2].
    apply reads_assoc; [now rewrite (assign_keys _ _ _ _ A2)|apply assoc_same].
Qed.
Lemma parse_request o v : JRequest o v -> PureJson v ->
  exists a pk0 pk, Reads (js_of v) "publicKey" pk0 /\ parseRequestOptions B (js_of v) = Some a /\
    Reads a "publicKey" pk /\ Reads pk "challenge" (JsBuf (ro_challenge o)) /\
    (forall ds, ro_allow_credentials o = Some ds -> exists l, Reads pk "allowCredentials" (JsArr l) /\
       Forall2 (fun d x => Reads x "id" (JsBuf (de_id d))) ds l) /\
    (forall n x, n <> "challenge"%string -> n <> "allowCredentials"%string -> (Reads pk n x <-> Reads pk0 n x)).
Proof.
  intros J PJ. destruct J as (d0 & -> & (_ & (w9 & MP & J)) & K0).
  pose proof (pure_member _ _ _ PJ MP) as PP.
  inversion PJ as [| | | | | |? _ N0 _]; subst.
  destruct J as (d & -> & ((w1 & M1 & E1) & _ & _ & M4 & _ & _) & K).
  inversion PP as [| | | | | |? _ N _]; subst. pose proof (keyed_strings _ d K N) as SK.
  pose proof (jm_assoc _ d0 _ _ K0 N0 MP) as AP. cbn [js_of] in AP. fold (jm d) in AP.
  pose proof (jm_assoc _ d _ _ K N M1) as A1.
  pose proof (jm_nodup _ _ K0 N0) as D0. pose proof (jm_nodup _ _ K N) as D1.
  destruct (js_bytes B _ _ E1) as (s & S1 & S2). rewrite S1 in A1.
  change (js_of (VDict d0)) with (JsObj (jm d0)).
  unfold parseRequestOptions. cbn [copied]. rewrite (get_assoc _ _ _ AP). cbn [obind].
  rewrite (has_assoc _ _ _ A1). cbn [obind]. rewrite (get_assoc _ _ _ A1). cbn [obind]. rewrite S2. cbn [obind put].
  set (m1 := assign (lit "challenge") (JsBuf (ro_challenge o)) (jm d)).
  assert (AM : assoc (lit "allowCredentials") m1 = assoc (lit "allowCredentials") (jm d)).
  { subst m1. now rewrite assoc_other by (apply lit_neq; discriminate). }
  assert (DM : NoDup (map fst m1)) by (subst m1; now rewrite (assign_keys _ _ _ _ A1)).
  destruct (ro_allow_credentials o) as [ds|] eqn:QA; cbn [may] in M4.
  - destruct M4 as (w4 & M4 & E4). pose proof (pure_member _ _ _ PP M4) as P4.
    pose proof (jm_assoc _ d _ _ K N M4) as A4. pose proof E4 as (l & -> & _). inversion P4 as [| | | | |? FP|]; subst.
    destruct (parse_ids _ _ E4 FP) as (l' & L1 & L2). cbn [js_of] in A4. rewrite A4 in AM.
    rewrite (has_assoc _ _ _ AM). cbn [obind]. rewrite (get_assoc _ _ _ AM). cbn [obind]. rewrite L1. cbn [obind put].
    set (m2 := assign (lit "allowCredentials") (JsArr l') m1).
    assert (D2 : NoDup (map fst m2)) by (subst m2; now rewrite (assign_keys _ _ _ _ AM)).
    exists (JsObj (assign (lit "publicKey") (JsObj m2) (jm d0))), (JsObj (jm d)), (JsObj m2).
    split; [now apply reads_assoc|]. split; [reflexivity|].
    split; [apply reads_assoc; [now rewrite (assign_keys _ _ _ _ AP)|apply assoc_same]|].
    split; [apply reads_assoc; [exact D2|subst m2 m1; rewrite assoc_other by (apply lit_neq; discriminate); apply assoc_same]|].
    split; [intros ds' Q; injection Q as <-; exists l'; split; [apply reads_assoc; [exact D2|apply assoc_same]|exact L2]|].
    intros n x X1 X2. rewrite !reads_iff by assumption. subst m2 m1. rewrite !assoc_other by (now apply lit_neq). tauto.
  - assert (AN : assoc (lit "allowCredentials") (jm d) = None).
    { destruct (assoc (lit "allowCredentials") (jm d)) as [x|] eqn:Q; [|reflexivity]. exfalso.
      apply in_assoc in Q. destruct (jm_in _ _ _ _ K Q) as (n & w & _ & Q1 & _ & I).
      rewrite <- Q1 in I. apply (find_in d _ _ SK) in I. congruence. }
    rewrite AN in AM. cbn [has_member]. rewrite AM. cbn [obind put].
    exists (JsObj (assign (lit "publicKey") (JsObj m1) (jm d0))), (JsObj (jm d)), (JsObj m1).
    split; [now apply reads_assoc|]. split; [reflexivity|].
    split; [apply reads_assoc; [now rewrite (assign_keys _ _ _ _ AP)|apply assoc_same]|].
    split; [apply reads_assoc; [exact DM|subst m1; apply assoc_same]|].
    split; [discriminate|].
    intros n x X1 X2. rewrite !reads_iff by assumption. subst m1. rewrite !assoc_other by (now apply lit_neq). tauto.
Qed.
End Parse.

Lemma c85_creation (Br : browser) (U : unicode) (depth : nat) (b : creation_builder) (user : user_entity) (challenge : bytes)
  (o : creation_options) : ascii_ok U -> (7 <= depth)%nat -> creation_build b user challenge = Ok o ->
  exists v a pk0 pk u, jsonify U depth true (obj_of_creation o) = Ok v /\
    Reads (js_of v) "publicKey" pk0 /\ parseCreationOptions Br (js_of v) = Some a /\
    Reads a "publicKey" pk /\ Reads pk "challenge" (JsBuf challenge) /\
    Reads pk "user" u /\ Reads u "id" (JsBuf (us_id user)) /\
    (forall n x, n <> "challenge"%string -> n <> "user"%string -> (Reads pk n x <-> Reads pk0 n x)).
Proof.
  intros A L C. destruct (c48_creation U depth b user challenge o A L C) as (v & JF & JC & PJ & _).
  destruct (parse_creation Br o v JC PJ) as (a & pk0 & pk & u & H). exists v, a, pk0, pk, u. split; [exact JF|].
  assert (co_challenge o = challenge /\ co_user o = user) as [<- <-]; [|exact H].
  unfold creation_build in C. destruct (cb_rp b); [|discriminate C]. destruct (cb_pub_key_cred_params b); [|discriminate C].
  destruct (cb_attestation b); [|discriminate C]. injection C as <-. split; reflexivity.
Qed.
Lemma left_ids xs l : JList JDescriptor xs (VList l) -> Forall PureJson l ->
  Forall2 (fun d x => exists t, Reads x "id" (JsStr t)) xs (map js_of l).
Proof.
  intros (vs & Q & F). injection Q as <-. revert l F. induction xs as [|i ids IH]; intros l F P.
  - inversion F; subst. constructor.
  - inversion F as [|? v ? l' J F']; subst. inversion P as [|? ? PJ P']; subst. constructor; [|now apply IH].
    destruct J as (d & -> & (_ & (w2 & M2 & (t & -> & _)) & _) & K).
    inversion PJ as [| | | | | |? _ N _]; subst. exists (utf16 t).
    apply (reads_assoc (jm d)); [exact (jm_nodup _ _ K N)|]. exact (jm_assoc _ d _ _ K N M2).
Qed.
Lemma left_exclude o v pk0 ds : JCreation o v -> PureJson v -> Reads (js_of v) "publicKey" pk0 ->
  co_exclude_credentials o = Some ds ->
  exists l, Reads pk0 "excludeCredentials" (JsArr l) /\ Forall2 (fun d x => exists t, Reads x "id" (JsStr t)) ds l.
Proof.
  intros J PJ R QX. destruct J as (d0 & -> & (w0 & MP & J) & K0).
  pose proof (pure_member _ _ _ PJ MP) as PP.
  inversion PJ as [| | | | | |? _ N0 _]; subst.
  destruct J as (d & -> & (_ & _ & _ & _ & _ & MX & _) & K). rewrite QX in MX. destruct MX as (wx & MX & JX).
  pose proof (pure_member _ _ _ PP MX) as PX.
  inversion PP as [| | | | | |? _ N _]; subst.
  pose proof (jm_assoc _ d0 _ _ K0 N0 MP) as AP. cbn [js_of] in AP. fold (jm d) in AP.
  apply (reads_iff (jm d0)) in R; [|exact (jm_nodup _ _ K0 N0)]. rewrite AP in R. injection R as <-.
  pose proof (jm_assoc _ d _ _ K N MX) as AX. pose proof JX as (l & -> & _). inversion PX as [| | | | |? FP|]; subst.
  exists (map js_of l). split; [apply reads_assoc; [exact (jm_nodup _ _ K N)|exact AX]|now apply left_ids].
Qed.
Lemma c85_exclude (Br : browser) (U : unicode) (depth : nat) (b : creation_builder) (user : user_entity) (challenge : bytes)
  (o : creation_options) ds : ascii_ok U -> (7 <= depth)%nat -> creation_build b user challenge = Ok o ->
  cb_exclude_credentials b = Some ds ->
  exists v a pk l, jsonify U depth true (obj_of_creation o) = Ok v /\ parseCreationOptions Br (js_of v) = Some a /\
    Reads a "publicKey" pk /\ Reads pk "excludeCredentials" (JsArr l) /\
    Forall2 (fun d x => (exists t, Reads x "id" (JsStr t)) /\ ~ Reads x "id" (JsBuf (de_id d))) ds l.
Proof.
  intros A L C X. destruct (c48_creation U depth b user challenge o A L C) as (v & JF & JC & PJ & _ & _ & _ & _ & _ & _ & QX & _).
  destruct (parse_creation Br o v JC PJ) as (a & pk0 & pk & u & R0 & P & R & _ & _ & _ & H).
  rewrite X in QX. destruct (left_exclude o v pk0 ds JC PJ R0 QX) as (l & RL & F).
  exists v, a, pk, l. split; [exact JF|]. split; [exact P|]. split; [exact R|].
  split; [apply H; [discriminate|discriminate|exact RL]|].
  eapply Forall2_impl; [|exact F]. cbn beta. intros d x (t & (m & -> & N & I)). split; [exists t, m; auto|].
  intros (m' & Q & _ & I'). injection Q as <-. apply assoc_in in I, I'; [|exact N|exact N]. congruence.
Qed.
Lemma c85_request (Br : browser) (U : unicode) (depth : nat) (b : request_builder) (challenge : bytes)
  (allow : option (list descriptor)) (o : request_options) :
  ascii_ok U -> (7 <= depth)%nat -> request_build b challenge allow = Ok o ->
  exists v a pk0 pk, jsonify U depth true (obj_of_request o) = Ok v /\
    Reads (js_of v) "publicKey" pk0 /\ parseRequestOptions Br (js_of v) = Some a /\
    Reads a "publicKey" pk /\ Reads pk "challenge" (JsBuf challenge) /\
    (forall ds, allow = Some ds -> exists l, Reads pk "allowCredentials" (JsArr l) /\
       Forall2 (fun d x => Reads x "id" (JsBuf (de_id d))) ds l) /\
    (forall n x, n <> "challenge"%string -> n <> "allowCredentials"%string -> (Reads pk n x <-> Reads pk0 n x)).
Proof.
  intros A L C. destruct (c48_request U depth b challenge allow o A L C) as (v & JF & JC & PJ & _).
  destruct (parse_request Br o v JC PJ) as (a & pk0 & pk & H). exists v, a, pk0, pk. split; [exact JF|].
  assert (ro_challenge o = challenge /\ ro_allow_credentials o = allow) as [<- <-]; [|exact H].
  unfold request_build in C. destruct (rb_mediation b); [|discriminate C]. injection C as <-. split; reflexivity.
Qed.
