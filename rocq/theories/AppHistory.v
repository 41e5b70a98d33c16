(** * AppHistory: invariants of the example application over histories. *)
From Coq Require Import List NArith ZArith Bool String Lia.
From Verif Require Import Base PyVal B64 Utf8 Url CaseConv Cbor CborFacts Types World Parsers Crypto
  Backends Spec History Jsonify Builders OptionSpec BaseFacts AuthFacts BackendFacts HistoryFacts
  KeyFacts App AppSpec AppFacts.
Import ListNotations.
Local Open Scope list_scope.

Section App.
Variable W : World.
Variable E : appenv.

Lemma serve_all_app l1 l2 d :
  snd (serve_all W E d (l1 ++ l2)) = snd (serve_all W E (snd (serve_all W E d l1)) l2).
Proof.
  revert d. induction l1 as [|x l1 IH]; intro d; cbn [serve_all app]; [reflexivity|].
  destruct (serve W E d x) as [r d1]. specialize (IH d1).
  destruct (serve_all W E d1 (l1 ++ l2)) as [rs d2]. destruct (serve_all W E d1 l1) as [rs' d3].
  exact IH.
Qed.

Lemma after_snoc l x : after W E (l ++ [x]) = snd (serve W E (after W E l) x).
Proof.
  unfold after. rewrite serve_all_app. cbn [serve_all].
  destruct (serve W E _ x) as [r d]. reflexivity.
Qed.

Lemma after_move l x : Move W E (after W E l) x (answer W E l x) (after W E (l ++ [x])).
Proof. rewrite after_snoc. apply serve_move. Qed.

Lemma issue_user d x n u d1 : Consistent d ->
  (user_by_name n d = Some u /\ d1 = d \/
   snd x = RegistrationRequest (Some n) /\ user_by_name n d = None /\
   insert_user n (ch_handle (fst x)) d = Ok (u, d1)) ->
  Consistent d1 /\ In u (db_users d1) /\ ur_username u = n /\
  (exists us, db_users d1 = db_users d ++ us) /\
  db_creds d1 = db_creds d /\ db_chals d1 = db_chals d.
Proof.
  intros C [[U ->]|(_ & U & I)].
  - apply user_by_name_in in U as [U1 U2]. repeat split; auto; try apply C.
    exists []. now rewrite app_nil_r.
  - split; [eapply consistent_user; eauto|]. apply insert_user_ok in I as (_ & _ & -> & ->).
    cbn. repeat split; try reflexivity; [|eexists; reflexivity].
    apply in_or_app. right. now left.
Qed.

Lemma move_consistent d x r d' : Consistent d -> Move W E d x r d' -> Consistent d'.
Proof.
  intros C M. destruct M as [r H1 H2|n u d' e Q U I|n u d1 h d2 o A U I O|i n cr h u att d' Rg F S A|
                             i n cr h u cdt ad u' rp Au F G S].
  - assumption.
  - eapply consistent_user; eauto.
  - destruct (issue_user d x n u d1 C U) as (C1 & U1 & _). eapply consistent_chal; eauto. now apply in_map.
  - apply app_attest_ok in A as (ad & acd & row & kb & _ & _ & U & _ & I).
    eapply consistent_cred; eauto. cbn. apply user_by_handle_in in U as [U _]. now apply in_map.
  - now apply consistent_count.
Qed.

Lemma after_consistent l : Consistent (after W E l).
Proof.
  induction l as [|x l IH] using rev_ind; [apply consistent_empty|].
  eapply move_consistent; [exact IH|apply after_move].
Qed.

(** ** What persists *)

Lemma move_users d x r d' : Consistent d -> Move W E d x r d' ->
  exists us, db_users d' = db_users d ++ us.
Proof.
  intros C M. destruct M as [r H1 H2|n u d' e Q U I|n u d1 h d2 o A U I O|i n cr h u att d' Rg F S A|
                             i n cr h u cdt ad u' rp Au F G S].
  - exists []. now rewrite app_nil_r.
  - apply insert_user_ok in I as (_ & _ & -> & ->). eexists. reflexivity.
  - destruct (issue_user d x n u d1 C U) as (_ & _ & _ & (us & U1) & _).
    apply insert_chal_ok in I as (_ & _ & ->). exists us. exact U1.
  - apply app_attest_ok in A as (ad & acd & row & kb & _ & _ & _ & _ & I).
    apply insert_cred_ok in I as (_ & ->). exists []. now rewrite app_nil_r.
  - exists []. now rewrite app_nil_r.
Qed.
Lemma move_chals d x r d' : Consistent d -> Move W E d x r d' ->
  exists hs, db_chals d' = db_chals d ++ hs.
Proof.
  intros C M. destruct M as [r H1 H2|n u d' e Q U I|n u d1 h d2 o A U I O|i n cr h u att d' Rg F S A|
                             i n cr h u cdt ad u' rp Au F G S].
  - exists []. now rewrite app_nil_r.
  - apply insert_user_ok in I as (_ & _ & -> & ->). exists []. now rewrite app_nil_r.
  - destruct (issue_user d x n u d1 C U) as (_ & _ & _ & _ & _ & U1).
    apply insert_chal_ok in I as (_ & _ & ->). cbn. rewrite U1. eexists. reflexivity.
  - apply app_attest_ok in A as (ad & acd & row & kb & _ & _ & _ & _ & I).
    apply insert_cred_ok in I as (_ & ->). exists []. now rewrite app_nil_r.
  - exists []. now rewrite app_nil_r.
Qed.

(** The row that the registrar's lookup found. *)
Lemma app_get_ok d id cdt : app_get W d id = Ok (Some cdt) <->
  exists c u k, cred_by_id id d = Some c /\ user_by_id (kr_user c) d = Some u /\
    parse_cose_key_bytes W (kr_key c) = Ok k /\
    cdt = {| cdt_key := k; cdt_sign_count := kr_count c;
             cdt_user := app_user (ur_username u) (ur_handle u); cdt_rp := None |}.
Proof.
  unfold app_get. split.
  - destruct (cred_by_id id d) as [c|]; [|discriminate]. intro H.
    apply bind_ok in H as (k & K & H).
    destruct (user_by_id (kr_user c) d) as [u|] eqn:U; [|discriminate].
    injection H as <-. exists c, u, k. auto.
  - intros (c & u & k & -> & U & K & ->). rewrite K. cbn [bind]. now rewrite U.
Qed.

Lemma spec_count A cdt ad u rp : AssertionSpec W A cdt ad u rp ->
  aa_ignore_clone A = false ->
  cdt_sign_count cdt = None \/
  exists n, cdt_sign_count cdt = Some n /\ (n < Z.of_N (ad_sign_count ad))%Z.
Proof.
  intros (cdj & adb & sig & h & ER & _ & _ & _ & _ & (HP & _) & _ & HC) HI.
  destruct (auth_fields _ _ _ (proj2 (auth_reads_iff W _ _) HP)) as (_ & _ & _ & -> & _).
  destruct HC as [HC|HC]; [congruence|exact HC].
Qed.

Definition keeps (c c' : cred_row) : Prop :=
  kr_id c' = kr_id c /\ kr_key c' = kr_key c /\ kr_user c' = kr_user c /\
  count_le (kr_count c) (kr_count c').

Lemma count_le_refl a : count_le a a.
Proof. destruct a; cbn; [|trivial]. eexists. split; [reflexivity|lia]. Qed.
Lemma count_le_trans a b c : count_le a b -> count_le b c -> count_le a c.
Proof.
  destruct a as [m|]; cbn; [|trivial]. intros (n & -> & L) (p & -> & L'). exists p. split; [reflexivity|lia].
Qed.
Lemma keeps_refl c : keeps c c.
Proof. repeat split. apply count_le_refl. Qed.
Lemma keeps_trans a b c : keeps a b -> keeps b c -> keeps a c.
Proof.
  intros (A1 & A2 & A3 & A4) (B1 & B2 & B3 & B4). repeat split; try congruence.
  eapply count_le_trans; eauto.
Qed.

Lemma move_keeps d x r d' c : Consistent d -> Move W E d x r d' -> In c (db_creds d) ->
  exists c', In c' (db_creds d') /\ keeps c c'.
Proof.
  intros C M HI. destruct M as [r H1 H2|n u d' e Q U I|n u d1 h d2 o A U I O|i n cr h u att d' Rg F S A|
                             i n cr h u cdt ad u' rp Au F G S].
  - exists c. split; [assumption|apply keeps_refl].
  - apply insert_user_ok in I as (_ & _ & -> & ->). exists c. split; [assumption|apply keeps_refl].
  - destruct (issue_user d x n u d1 C U) as (_ & _ & _ & _ & U1 & _).
    apply insert_chal_ok in I as (_ & _ & ->). exists c. cbn. rewrite U1.
    split; [assumption|apply keeps_refl].
  - apply app_attest_ok in A as (ad & acd & row & kb & _ & _ & _ & _ & I).
    apply insert_cred_ok in I as (_ & ->). exists c. cbn.
    split; [apply in_or_app; now left|apply keeps_refl].
  - destruct (bytes_eq_dec (kr_id c) (cr_raw_id cr)) as [B|B].
    + exists {| kr_id := kr_id c; kr_count := Some (Z.of_N (ad_sign_count ad)); kr_key := kr_key c;
                kr_user := kr_user c |}.
      split; [apply set_count_in; exists c; auto|].
      repeat split. cbn.
      apply app_get_ok in G as (c1 & u1 & k & G1 & G2 & G3 & ->).
      rewrite <- B in G1. rewrite (cred_by_id_find d c C HI) in G1. injection G1 as <-.
      apply spec_count in S; [|reflexivity]. cbn in S.
      destruct S as [->|(m & -> & L)]; cbn; [trivial|]. eexists. split; [reflexivity|lia].
    + exists c. split; [apply set_count_in; exists c; auto|apply keeps_refl].
Qed.

Lemma after_keeps l1 l2 c : In c (db_creds (after W E l1)) ->
  exists c', In c' (db_creds (after W E (l1 ++ l2))) /\ keeps c c'.
Proof.
  intro H. induction l2 as [|x l2 IH] using rev_ind.
  - rewrite app_nil_r. exists c. split; [assumption|apply keeps_refl].
  - destruct IH as (c1 & I1 & K1). rewrite app_assoc.
    destruct (move_keeps _ _ _ _ c1 (after_consistent _) (after_move (l1 ++ l2) x) I1) as (c2 & I2 & K2).
    exists c2. split; [assumption|]. eapply keeps_trans; eauto.
Qed.

Lemma after_users l1 l2 : exists us, db_users (after W E (l1 ++ l2)) = db_users (after W E l1) ++ us.
Proof.
  induction l2 as [|x l2 IH] using rev_ind.
  - rewrite app_nil_r. exists []. now rewrite app_nil_r.
  - destruct IH as (us & IH). rewrite app_assoc.
    destruct (move_users _ _ _ _ (after_consistent _) (after_move (l1 ++ l2) x)) as (us' & ->).
    rewrite IH, <- app_assoc. eexists. reflexivity.
Qed.
Lemma after_chals l1 l2 : exists us, db_chals (after W E (l1 ++ l2)) = db_chals (after W E l1) ++ us.
Proof.
  induction l2 as [|x l2 IH] using rev_ind.
  - rewrite app_nil_r. exists []. now rewrite app_nil_r.
  - destruct IH as (us & IH). rewrite app_assoc.
    destruct (move_chals _ _ _ _ (after_consistent _) (after_move (l1 ++ l2) x)) as (us' & ->).
    rewrite IH, <- app_assoc. eexists. reflexivity.
Qed.

(** ** Where rows come from *)

Definition CredOrigin (l : list (chance * request)) (c : cred_row) : Prop :=
  exists l1 y i n cr k u,
    Happened W E l l1 y Success /\ Registers W (snd y) i n cr /\ cr_raw_id cr = kr_id c /\
    AttestedKey W cr k /\ cose_key (Some k) = Ok (kr_key c) /\
    In u (db_users (after W E l)) /\ ur_id u = kr_user c /\ ur_username u = n.

Lemma happened_snoc l l1 x y r : Happened W E l l1 y r -> Happened W E (l ++ [x]) l1 y r.
Proof. intros ((l2 & ->) & H). split; [|assumption]. exists (l2 ++ [x]). now rewrite <- app_assoc. Qed.
Lemma happened_last l x : Happened W E (l ++ [x]) l x (answer W E l x).
Proof. split; [|reflexivity]. now exists []. Qed.

Lemma cred_origin_later l x c c' : CredOrigin l c -> kr_id c' = kr_id c -> kr_key c' = kr_key c ->
  kr_user c' = kr_user c -> CredOrigin (l ++ [x]) c'.
Proof.
  intros (l1 & y & i & n & cr & k & u & H1 & H2 & H3 & H4 & H5 & H6 & H7 & H8) E1 E2 E3.
  exists l1, y, i, n, cr, k, u. rewrite E1, E2, E3. split; [now apply happened_snoc|].
  repeat (split; [assumption|]). split; [|split; assumption].
  destruct (after_users l [x]) as (us & ->). apply in_or_app. now left.
Qed.

Lemma registration_key cr n u h att ad acd : RegistrationSpec W (app_attestation cr n u h) att ->
  ao_auth_data att = Some ad -> ad_attested ad = Some acd ->
  exists k, at_key acd = Some k /\ AttestedKey W cr k.
Proof.
  intros (cdj & aob & adb & ad' & R1 & R2 & R3 & (R4 & _) & R5 & ->) H1 H2.
  cbn in H1. injection H1 as ->.
  assert (exists k, at_key acd = Some k) as (k & K).
  { inversion R4 as [hash flags ctr tl extb att ext L1 L2 HA HE E1 E2]. subst ad. cbn in H2. subst att.
    inversion HA; subst; cbn. eauto. }
  exists k. split; [assumption|]. exists cdj, aob, adb, ad, acd. auto.
Qed.

Lemma cred_origin l c : In c (db_creds (after W E l)) -> CredOrigin l c.
Proof.
  revert c. induction l as [|x l IH] using rev_ind; intros c HI; [destruct HI|].
  pose proof (after_consistent l) as C. pose proof (after_consistent (l ++ [x])) as C'.
  pose proof (after_move l x) as M. pose proof (happened_last l x) as HL.
  remember (after W E l) as d eqn:Hd. remember (answer W E l x) as r eqn:Hr.
  remember (after W E (l ++ [x])) as d' eqn:Hd'.
  destruct M as [r H1 H2|n u d' e Q U I|n u d1 h d2 o A U I O|i n cr h u att d' Rg F S A|
                 i n cr h u cdt ad u' rp Au F G S].
  - eapply cred_origin_later; eauto.
  - apply insert_user_ok in I as (_ & _ & -> & ->). eapply cred_origin_later; eauto.
  - destruct (issue_user d x n u d1 C U) as (_ & _ & _ & _ & U1 & _).
    apply insert_chal_ok in I as (_ & _ & ->). cbn in HI. rewrite U1 in HI.
    eapply cred_origin_later; eauto.
  - apply app_attest_ok in A as (ad & acd & row & kb & A1 & A2 & A3 & A4 & I).
    apply insert_cred_ok in I as (I1 & ->). cbn in HI. apply in_app_or in HI as [HI|[<-|[]]].
    + eapply cred_origin_later; eauto.
    + destruct (registration_key _ _ _ _ _ _ _ S A1 A2) as (k & K & AK). rewrite K in A4.
      apply find_ceremony_ok in F as (_ & F & _). apply user_by_name_in in F as [F1 F2].
      pose proof (user_by_handle_find d u C F1) as F3. cbn in A3. rewrite F3 in A3. injection A3 as <-.
      exists l, x, i, n, cr, k, u. rewrite <- Hd'. cbn. repeat split; auto; apply HL.
  - apply set_count_in in HI as (c0 & HI & [[_ ->]|[_ ->]]); eapply cred_origin_later; eauto.
Qed.

(** An accepted registration leaves its row. *)
Lemma registered_row l1 l2 y i n cr : Registers W (snd y) i n cr -> answer W E l1 y = Success ->
  In (cr_raw_id cr) (map kr_id (db_creds (after W E (l1 ++ y :: l2)))) /\
  ~ In (cr_raw_id cr) (map kr_id (db_creds (after W E l1))).
Proof.
  intros (t & HQ & m & J & P) HA.
  pose proof (after_move l1 y) as M. rewrite HA in M.
  assert (X : exists c, In c (db_creds (after W E (l1 ++ [y]))) /\ kr_id c = cr_raw_id cr /\
                        ~ In (cr_raw_id cr) (map kr_id (db_creds (after W E l1)))).
  { remember (after W E (l1 ++ [y])) as d' eqn:Hd'. remember Success as r eqn:Hr.
    destruct M as [r H1 H2|n' u d' e Q U I|n' u d1 h d2 o A U I O|i' n' cr' h u att d' Rg F S A|
                 i' n' cr' h u cdt ad u' rp Au F G S].
    - congruence.
    - discriminate.
    - unfold send_options in Hr. destruct (jsonify _ _ _ o); discriminate.
    - destruct Rg as (t' & HQ' & m' & J' & P'). rewrite HQ in HQ'. injection HQ' as <- <- <-.
      rewrite J in J'. injection J' as <-. rewrite P in P'. injection P' as <-.
      apply app_attest_ok in A as (ad & acd & row & kb & A1 & A2 & A3 & A4 & I).
      apply insert_cred_ok in I as (I1 & ->). eexists. cbn. split; [apply in_or_app; right; now left|].
      split; [reflexivity|]. exact I1.
    - destruct Au as (t' & HQ' & _). rewrite HQ in HQ'. discriminate. }
  destruct X as (c & X1 & X2 & X3). split; [|assumption].
  destruct (after_keeps (l1 ++ [y]) l2 c X1) as (c' & K1 & K2 & _).
  rewrite <- app_assoc in K1. rewrite <- X2, <- K2. now apply in_map.
Qed.

(** Two accepted registrations never have the same id. *)
Lemma registration_once l1 y l2 x i n cr i' n' cr' :
  Registers W (snd y) i n cr -> answer W E l1 y = Success ->
  Registers W (snd x) i' n' cr' -> answer W E (l1 ++ y :: l2) x = Success ->
  cr_raw_id cr <> cr_raw_id cr'.
Proof.
  intros R1 A1 R2 A2 EQ.
  destruct (registered_row l1 l2 y i n cr R1 A1) as [H _].
  destruct (registered_row (l1 ++ y :: l2) [] x i' n' cr' R2 A2) as [_ H']. congruence.
Qed.

(** The accepted login, and its counter. *)
Lemma login_row l x i n cr : Authenticates W (snd x) i n cr -> answer W E l x = Success ->
  exists h u c k ad rp u',
    find_ceremony E (ch_clock (fst x)) i n (after W E l) = inr (h, u) /\
    In c (db_creds (after W E l)) /\ kr_id c = cr_raw_id cr /\ kr_user c = ur_id u /\
    parse_cose_key_bytes W (kr_key c) = Ok k /\
    AssertionSpec W (app_assertion cr n u h)
      {| cdt_key := k; cdt_sign_count := kr_count c; cdt_user := app_user n (ur_handle u);
         cdt_rp := None |} ad u' rp /\
    after W E (l ++ [x]) = set_count (cr_raw_id cr) (Z.of_N (ad_sign_count ad)) (after W E l).
Proof.
  intros (t & HQ & m & J & P) HA.
  pose proof (after_move l x) as M. rewrite HA in M. pose proof (after_consistent l) as C.
  remember (after W E (l ++ [x])) as d' eqn:Hd'. remember Success as r eqn:Hr.
  destruct M as [r H1 H2|n' u d' e Q U I|n' u d1 h d2 o A U I O|i' n' cr' h u att d' Rg F S A|
                 i' n' cr' h u cdt ad u' rp Au F G S].
  - congruence.
  - discriminate.
  - unfold send_options in Hr. destruct (jsonify _ _ _ o); discriminate.
  - destruct Rg as (t' & HQ' & _). rewrite HQ in HQ'. discriminate.
  - destruct Au as (t' & HQ' & m' & J' & P'). rewrite HQ in HQ'. injection HQ' as <- <- <-.
    rewrite J in J'. injection J' as <-. rewrite P in P'. injection P' as <-.
    apply app_get_ok in G as (c & v & k & G1 & G2 & G3 & ->).
    apply cred_by_id_in in G1 as [G1 G1']. apply user_by_id_in in G2 as [G2 G2'].
    destruct (proj1 (find_ceremony_ok _ _ _ _ _ _ _) F) as (_ & F1 & _).
    apply user_by_name_in in F1 as [F1 F2].
    assert (UV : v = u).
    { destruct S as (cdj & adb & sig & hd & _ & _ & (S1 & S2 & _) & _). cbn in S1, S2.
      subst u'. cbn in S2. eapply (NoDup_map_eq ur_handle); [apply C|assumption|assumption|]. now symmetry. }
    subst v. exists h, u, c, k, ad, rp, u'. rewrite F2 in S. repeat split; auto.
Qed.

(** ** Challenges *)

Definition ChalOrigin (l : list (chance * request)) (h : chal_row) : Prop :=
  exists l1 y n u o,
    Happened W E l l1 y (send_options E h (Ok o)) /\ Asks (snd y) n /\
    In u (db_users (after W E l)) /\ ur_username u = n /\ ur_id u = hr_user h /\
    hr_request h = ch_challenge (fst y) /\ hr_timestamp h = ch_clock (fst y) /\
    In h (db_chals (after W E (l1 ++ [y]))) /\
    (snd y = RegistrationRequest (Some n) /\
     (exists co, creation_build APP_CCO_BUILDER (app_user n (ur_handle u)) (ch_challenge (fst y)) = Ok co /\
                 o = obj_of_creation co) \/
     snd y = AuthenticationRequest (Some n) /\
     (exists ro, request_build APP_CRO_BUILDER (ch_challenge (fst y))
        (Some (map (fun k => {| de_id := kr_id k; de_transports := None |})
                   (filter (fun k => N.eqb (kr_user k) (ur_id u)) (db_creds (after W E l1))))) = Ok ro /\
        o = obj_of_request ro)).

Lemma chal_origin_later l x h : ChalOrigin l h -> ChalOrigin (l ++ [x]) h.
Proof.
  intros (l1 & y & n & u & o & H1 & H2 & H3 & H4).
  exists l1, y, n, u, o. split; [now apply happened_snoc|]. split; [assumption|]. split; [|assumption].
  destruct (after_users l [x]) as (us & ->). apply in_or_app. now left.
Qed.

Lemma chal_origin l h : In h (db_chals (after W E l)) -> ChalOrigin l h.
Proof.
  revert h. induction l as [|x l IH] using rev_ind; intros g HI; [destruct HI|].
  pose proof (after_consistent l) as C.
  pose proof (after_move l x) as M. pose proof (happened_last l x) as HL.
  remember (after W E l) as d eqn:Hd. remember (answer W E l x) as r eqn:Hr.
  remember (after W E (l ++ [x])) as d' eqn:Hd'.
  destruct M as [r H1 H2|n u d' e Q U I|n u d1 h d2 o A U I O|i n cr h u att d' Rg F S A|
                 i n cr h u cdt ad u' rp Au F G S].
  - now apply chal_origin_later, IH.
  - apply insert_user_ok in I as (_ & _ & -> & ->). now apply chal_origin_later, IH.
  - destruct (issue_user d x n u d1 C U) as (_ & U0 & U2 & _ & _ & U1).
    apply insert_chal_ok in I as (_ & I & ->). cbn in HI. rewrite U1 in HI.
    apply in_app_or in HI as [HI|[<-|[]]]; [now apply chal_origin_later, IH|].
    exists l, x, n, u, o. rewrite <- Hd', <- Hd. split; [exact HL|]. split; [assumption|].
    split; [exact U0|]. split; [exact U2|]. split; [now rewrite I|]. split; [now rewrite I|].
    split; [now rewrite I|]. split; [|exact O].
    cbn. apply in_or_app. right. now left.
  - apply app_attest_ok in A as (ad & acd & row & kb & _ & _ & _ & _ & I).
    apply insert_cred_ok in I as (_ & ->). now apply chal_origin_later, IH.
  - now apply chal_origin_later, IH.
Qed.

(** Options sent: their row. *)
Lemma options_row l x id v : answer W E l x = Options id v ->
  exists h, In h (db_chals (after W E (l ++ [x]))) /\ hr_id h = id /\
    hr_request h = ch_challenge (fst x) /\ hr_timestamp h = ch_clock (fst x).
Proof.
  intro HA. pose proof (after_move l x) as M. rewrite HA in M. pose proof (after_consistent l) as C.
  remember (after W E (l ++ [x])) as d' eqn:Hd'. remember (Options id v) as r eqn:Hr.
  destruct M as [r H1 H2|n' u d' e Q U I|n' u d1 h d2 o A U I O|i' n' cr' h u att d' Rg F S A|
                 i' n' cr' h u cdt ad u' rp Au F G S]; try discriminate.
  - subst r. now destruct (H2 id v).
  - apply insert_chal_ok in I as (_ & I & ->). exists h. split; [apply in_or_app; right; now left|].
    unfold send_options in Hr. destruct (jsonify _ _ _ o); [|discriminate]. injection Hr as <- _.
    now rewrite I.
Qed.

(** ** Registered credentials, in order *)

Lemma registered_snoc n d l x :
  registered W E n d (l ++ [x]) =
  registered W E n d l ++
  (if is_success (fst (serve W E (snd (serve_all W E d l)) x)) then sent_id W n (snd x) else []).
Proof.
  revert d. induction l as [|y l IH]; intro d; cbn [registered app serve_all].
  - now rewrite app_nil_r.
  - rewrite IH, <- app_assoc. destruct (serve W E d y) as [r d1]. cbn [fst snd].
    destruct (serve_all W E d1 l) as [rs d2]. reflexivity.
Qed.

Lemma is_success_spec r : is_success r = true <-> r = Success.
Proof.
  unfold is_success, Success. destruct r as [i v|c t|e]; try (split; discriminate).
  rewrite andb_true_iff, N.eqb_eq, String.eqb_eq. split; [intros [-> ->]; reflexivity|now intros [= -> ->]].
Qed.

Definition owned (u : N) (d : database) : list bytes :=
  map kr_id (filter (fun k => N.eqb (kr_user k) u) (db_creds d)).

Lemma owned_set_count u i n d : owned u (set_count i n d) = owned u d.
Proof.
  unfold owned, set_count. cbn. induction (db_creds d) as [|c l IH]; [reflexivity|]. cbn.
  destruct (bytes_eqb (kr_id c) i); cbn; destruct (N.eqb (kr_user c) u); cbn; now rewrite IH.
Qed.

Lemma registered_owned l : 
  (forall u, In u (db_users (after W E l)) ->
     owned (ur_id u) (after W E l) = registered W E (ur_username u) empty_db l) /\
  (forall n, ~ In n (map ur_username (db_users (after W E l))) -> registered W E n empty_db l = []).
Proof.
  induction l as [|x l [IH1 IH2]] using rev_ind; [split; easy|].
  pose proof (after_consistent l) as C. pose proof (after_consistent (l ++ [x])) as C'.
  pose proof (after_move l x) as M.
  assert (RS : forall n, registered W E n empty_db (l ++ [x]) =
    registered W E n empty_db l ++ (if is_success (answer W E l x) then sent_id W n (snd x) else [])).
  { intro n. apply registered_snoc. }
  remember (after W E l) as d eqn:Hd. remember (answer W E l x) as r eqn:Hr.
  remember (after W E (l ++ [x])) as d' eqn:Hd'.
  assert (NEW : forall us, db_users d' = db_users d ++ us -> db_creds d' = db_creds d ->
    (is_success r = true -> forall n, sent_id W n (snd x) = []) ->
    (forall u, In u (db_users d') -> owned (ur_id u) d' = registered W E (ur_username u) empty_db (l ++ [x])) /\
    (forall n, ~ In n (map ur_username (db_users d')) -> registered W E n empty_db (l ++ [x]) = [])).
  { intros us HU HC HS.
    assert (RS' : forall n, registered W E n empty_db (l ++ [x]) = registered W E n empty_db l).
    { intro n. rewrite RS. destruct (is_success r); [rewrite HS by reflexivity|]; apply app_nil_r. }
    split.
    - intros u HI. rewrite RS'. unfold owned. rewrite HC. rewrite HU in HI.
      apply in_app_or in HI as [HI|HI]; [now apply IH1|].
      assert (FR : ~ In (ur_username u) (map ur_username (db_users d)) /\ ~ In (ur_id u) (map ur_id (db_users d))).
      { pose proof (con_user_name _ C') as N1. pose proof (con_user_id _ C') as N2.
        rewrite HU, map_app in N1, N2. apply in_split in HI as (a & b & ->).
        rewrite map_app in N1, N2. cbn in N1, N2. rewrite app_assoc in N1, N2.
        apply NoDup_remove_2 in N1, N2.
        split; intro Q; [apply N1|apply N2]; rewrite <- app_assoc; apply in_or_app; now left. }
      rewrite IH2 by apply FR.
      destruct (filter _ (db_creds d)) as [|c t] eqn:F; [reflexivity|].
      assert (In c (filter (fun k => N.eqb (kr_user k) (ur_id u)) (db_creds d))) as G by (rewrite F; now left).
      apply filter_In in G as [G1 G2]. apply N.eqb_eq in G2. apply (con_cred_user _ C) in G1.
      rewrite G2 in G1. now apply FR in G1.
    - intros n HN. rewrite RS'. apply IH2. rewrite HU, map_app in HN.
      intro Q. apply HN. apply in_or_app. now left. }
  destruct M as [r H1 H2|n u d' e Q U I|n u d1 h d2 o A U I O|i n cr h u att d' Rg F S A|
                 i n cr h u cdt ad u' rp Au F G S].
  - apply (NEW []); [now rewrite app_nil_r|reflexivity|].
    intros Q. apply is_success_spec in Q. congruence.
  - apply insert_user_ok in I as (_ & _ & _ & ->). apply (NEW [u]); [reflexivity|reflexivity|].
    intros X. apply is_success_spec in X. discriminate.
  - destruct (issue_user d x n u d1 C U) as (_ & _ & _ & (us & U1) & U2 & _).
    apply insert_chal_ok in I as (_ & I & ->). apply (NEW us); [exact U1|exact U2|].
    intros Q. apply is_success_spec in Q. unfold send_options in Q. destruct (jsonify _ _ _ o); discriminate.
  - clear NEW. apply app_attest_ok in A as (ad & acd & row & kb & A1 & A2 & A3 & A4 & I).
    apply insert_cred_ok in I as (I1 & ->).
    apply find_ceremony_ok in F as (_ & F & _). apply user_by_name_in in F as [F1 F2].
    pose proof (user_by_handle_find d u C F1) as F3. cbn in A3. rewrite F3 in A3. injection A3 as <-.
    destruct Rg as (t & HQ & m & J & P).
    assert (ID : forall n', sent_id W n' (snd x) = if str_eqb n n' then [cr_raw_id cr] else []).
    { intro n'. rewrite HQ. cbn. rewrite J, P. reflexivity. }
    split.
    + intros v HI. cbn in HI. rewrite RS, ID. cbn [is_success Success N.eqb String.eqb]. 
      change (is_success Success) with true. cbv iota.
      unfold owned. cbn. rewrite filter_app, map_app. fold (owned (ur_id v) d). rewrite (IH1 v HI). f_equal.
      cbn. destruct (N.eqb_spec (ur_id u) (ur_id v)) as [Q|Q].
      * assert (u = v) by (eapply (NoDup_map_eq ur_id); [apply C|..]; assumption). subst v.
        rewrite F2, str_eqb_refl. reflexivity.
      * destruct (str_eqb n (ur_username v)) eqn:B; [|reflexivity]. apply str_eqb_spec in B.
        destruct Q. f_equal. eapply (NoDup_map_eq ur_username); [apply C|..]; congruence.
    + intros n' HN. cbn in HN. rewrite RS, ID, (IH2 n' HN). change (is_success Success) with true.
      cbv iota. destruct (str_eqb n n') eqn:B; [|reflexivity]. apply str_eqb_spec in B. subst n'.
      destruct HN. rewrite <- F2. now apply in_map.
  - clear NEW. destruct Au as (t & HQ & _).
    assert (ID : forall n', sent_id W n' (snd x) = []) by (intro; now rewrite HQ).
    split; [intros v HI|intros n' HN]; rewrite RS, ID; change (is_success Success) with true; cbv iota;
      rewrite app_nil_r; [rewrite owned_set_count; now apply IH1|now apply IH2].
Qed.

(** ** Counters *)

Lemma last_counter_snoc id d l x :
  last_counter W E id d (l ++ [x]) =
  match (if is_success (fst (serve W E (snd (serve_all W E d l)) x))
         then sent_counter W id (snd x) else None) with
  | Some n => Some n
  | None => last_counter W E id d l
  end.
Proof.
  revert d. induction l as [|y l IH]; intro d; cbn [last_counter app serve_all].
  - destruct (is_success _); [|reflexivity]. now destruct (sent_counter W id (snd x)).
  - rewrite IH. destruct (serve W E d y) as [r d1]. cbn [fst snd].
    destruct (serve_all W E d1 l) as [rs d2]. cbn [snd].
    destruct (if is_success (fst (serve W E d2 x)) then _ else _); reflexivity.
Qed.

Lemma counter_stored l :
  (forall c, In c (db_creds (after W E l)) ->
     kr_count c = option_map Z.of_N (last_counter W E (kr_id c) empty_db l)) /\
  (forall id, ~ In id (map kr_id (db_creds (after W E l))) -> last_counter W E id empty_db l = None).
Proof.
  induction l as [|x l [IH1 IH2]] using rev_ind; [split; easy|].
  pose proof (after_consistent l) as C.
  pose proof (after_move l x) as M.
  assert (RS : forall id, last_counter W E id empty_db (l ++ [x]) =
    match (if is_success (answer W E l x) then sent_counter W id (snd x) else None) with
    | Some n => Some n | None => last_counter W E id empty_db l end).
  { intro n. apply last_counter_snoc. }
  remember (after W E l) as d eqn:Hd. remember (answer W E l x) as r eqn:Hr.
  remember (after W E (l ++ [x])) as d' eqn:Hd'.
  assert (NEW : db_creds d' = db_creds d -> is_success r = false ->
    (forall c, In c (db_creds d') -> kr_count c = option_map Z.of_N (last_counter W E (kr_id c) empty_db (l ++ [x]))) /\
    (forall id, ~ In id (map kr_id (db_creds d')) -> last_counter W E id empty_db (l ++ [x]) = None)).
  { intros HC HS. rewrite HC. split; intros; rewrite RS, HS; auto. }
  destruct M as [r H1 H2|n u d' e Q U I|n u d1 h d2 o A U I O|i n cr h u att d' Rg F S A|
                 i n cr h u cdt ad u' rp Au F G S].
  - apply NEW; [reflexivity|]. apply not_true_is_false. now rewrite is_success_spec.
  - apply insert_user_ok in I as (_ & _ & _ & ->). apply NEW; reflexivity.
  - destruct (issue_user d x n u d1 C U) as (_ & _ & _ & _ & U2 & _).
    apply insert_chal_ok in I as (_ & I & ->). apply NEW; [exact U2|].
    apply not_true_is_false. rewrite is_success_spec. unfold send_options. destruct (jsonify _ _ _ o); discriminate.
  - clear NEW. apply app_attest_ok in A as (ad & acd & row & kb & A1 & A2 & A3 & A4 & I).
    apply insert_cred_ok in I as (I1 & ->). destruct Rg as (t & HQ & _).
    change (is_success Success) with true in RS. cbv iota in RS.
    assert (RS' : forall id, last_counter W E id empty_db (l ++ [x]) = last_counter W E id empty_db l).
    { intro id. now rewrite RS, HQ. }
    split.
    + intros c HI. rewrite RS'. cbn in HI. apply in_app_or in HI as [HI|[<-|[]]]; [auto|].
      cbn [kr_id kr_count] in *. now rewrite (IH2 _ I1).
    + intros id HN. rewrite RS'. apply IH2. intro Q. apply HN. cbn. rewrite map_app. apply in_or_app. now left.
  - clear NEW. destruct Au as (t & HQ & m & J & P).
    change (is_success Success) with true in RS. cbv iota in RS.
    assert (SC : forall id, sent_counter W id (snd x) =
      if bytes_eqb (cr_raw_id cr) id then Some (ad_sign_count ad) else None).
    { intro id. rewrite HQ. cbn. rewrite J, P. destruct (bytes_eqb _ id); [|reflexivity].
      apply spec_counter in S. exact S. }
    split.
    + intros c HI. rewrite RS, SC.
      apply set_count_in in HI as (c0 & HI & [[B ->]|[B ->]]); cbn.
      * rewrite (proj2 (bytes_eqb_false _ _)) by congruence. auto.
      * rewrite B, bytes_eqb_refl. reflexivity.
    + intros id HN. rewrite set_count_ids in HN. rewrite RS, SC.
      destruct (bytes_eqb (cr_raw_id cr) id) eqn:B; [|auto]. apply bytes_eqb_spec in B.
      apply app_get_ok in G as (c & v & k & G1 & _). apply cred_by_id_in in G1 as [G1 G2].
      destruct HN. rewrite <- B, <- G2. now apply in_map.
Qed.

End App.
