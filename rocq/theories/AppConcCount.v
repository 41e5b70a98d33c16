(** * AppConcCount: counters of logins in all runs of the concurrent server (C74). *)
From Coq Require Import List NArith ZArith Bool String Lia.
From Verif Require Import Base PyVal B64 Utf8 Url CaseConv Cbor CborFacts Types World Parsers Crypto
  Backends Spec Examples Jsonify Builders OptionSpec BaseFacts AuthFacts RaiseFacts BackendFacts KeyFacts
  App AppSpec AppExamples AppFacts AppHistory AppAccept AppTheorems
  AppConc AppConcSpec AppConcFacts AppConcInv AppConcExamples AppConcTheorems.
Import ListNotations.
Local Open Scope list_scope.

(** The handler answers Success only if one of the data bases it met is [low], or if [past]. *)
Fixpoint counted (low : database -> Prop) (past : Prop) (t : thread) : Prop :=
  match t with
  | Answered r => r = Success -> past
  | Statement f g => counted low past g /\ forall d, counted low (past \/ low d) (fst (f d))
  end.
Fixpoint counted_mono low (t : thread) : forall (p q : Prop), (p -> q) -> counted low p t -> counted low q t.
Proof.
  intros p q H C. destruct t as [r|f g].
  - intro R. exact (H (C R)).
  - destruct C as [C1 C2]. split; [exact (counted_mono low g p q H C1)|]. intro d.
    refine (counted_mono low (fst (f d)) _ _ _ (C2 d)). tauto.
Qed.

Section App.
Variable W : World.
Variable E : appenv.

Lemma counted_failed low p f e : counted low p (Answered (conclude f (wrap (Raise e)))).
Proof. intro H. now apply conclude_raise in H. Qed.

Lemma counted_ceremony low clock i n go : (forall h u p, counted low p (go h u)) ->
  forall p, counted low p (t_ceremony E clock i n go).
Proof.
  intros G p. split; [discriminate|]. intro d.
  destruct (match ap_int E i with Some m => chal_by_id m d | None => None end) as [h|]; [|discriminate].
  split; [discriminate|]. intro d'. destruct (user_by_name n d') as [u|]; [|discriminate].
  cbn [fst]. destruct (Z.ltb _ _); [discriminate|apply G].
Qed.

(** The credential is stored, and its counter is below [c]. *)
Definition below (id : bytes) (c : N) (d : database) : Prop :=
  In id (map kr_id (db_creds d)) /\ forall m, stored_count id d = Some m -> (m < Z.of_N c)%Z.

Lemma counted_assertion cr n u h c : LoginCounter cr c -> forall p,
  counted (below (cr_raw_id cr) c) p
    (statements W (conclude "Could not handle credential assertion")
       (handle_credential_assertion W (app_assertion cr n u h))).
Proof.
  intros LC p. unfold handle_credential_assertion.
  destruct (assertion_pre W (app_assertion cr n u h)) as [os|e] eqn:P; [|apply counted_failed].
  cbn [statements]. split; [apply counted_failed|]. intro d1.
  cbn [app_assertion aa_credential].
  destruct (cred_by_id (cr_raw_id cr) d1) as [row|] eqn:CI; [|apply counted_failed].
  destruct (parse_cose_key_bytes W (kr_key row)) as [k|e] eqn:PK; [|apply counted_failed].
  split; [apply counted_failed|]. intro d2.
  destruct (user_by_id (kr_user row) d2) as [u2|] eqn:UI; [|apply counted_failed].
  cbn [fst].
  destruct (assertion_checks W _ os _) as [[[ad u'] rp]|e] eqn:K; [|apply counted_failed].
  assert (S : AssertionSpec W (app_assertion cr n u h)
    {| cdt_key := k; cdt_sign_count := kr_count row;
       cdt_user := app_user (ur_username u2) (ur_handle u2); cdt_rp := None |} ad u' rp).
  { apply assertion_iff. exists os. split; [exact P|exact K]. }
  assert (B : below (cr_raw_id cr) c d1).
  { split.
    - apply cred_by_id_in in CI as [CI1 <-]. now apply in_map.
    - intros m M. unfold stored_count in M. rewrite CI in M.
      pose proof S as S0. destruct S0 as (cdj & adb & sig & uh & S1 & _ & _ & _ & _ & (S6 & _) & _ & S8).
      cbn [app_assertion aa_credential] in S1.
      assert (LC' : LoginCounter cr (ad_sign_count ad)).
      { exists cdj, adb, sig, uh. split; [assumption|].
        now destruct (auth_fields _ _ _ (proj2 (auth_reads_iff W _ _) S6)) as (_ & _ & _ & -> & _). }
      rewrite (login_counter_fun _ _ _ LC LC').
      destruct (spec_count W _ _ _ _ _ S eq_refl) as [Q|(z & Q & L)]; cbn in Q; congruence. }
  clear K. cbn [statements].
  split; [apply counted_failed|]. intro d3.
  destruct (cred_by_id (cr_raw_id cr) d3) as [row3|] eqn:CI3; [|apply counted_failed].
  split; [apply counted_failed|]. intro d4. intros _. tauto.
Qed.

Lemma counted_handle x i n cr c p : Authenticates W (snd x) i n cr -> LoginCounter cr c ->
  counted (below (cr_raw_id cr) c) p (handle W E x).
Proof.
  intros (k & Q & P) LC. unfold handle. rewrite Q. unfold t_authentication_response.
  rewrite (proj2 (parse_form_ok W (Some i) (Some k) (Some n) i cr n)) by (exists k; auto).
  destruct (cr_response cr) as [|cdj adb sig uh]; [discriminate|].
  apply counted_ceremony. intros h u q. now apply counted_assertion.
Qed.

(** Where request [j] was handled while the counter was below its own. *)
Definition met (l : list sv_event) (j : nat) (y : chance * request) (id : bytes) (c : N) : Prop :=
  exists l1 l2, l = l1 ++ l2 /\ InFlight (Served W E l1) j y /\ below id c (sv_db (Served W E l1)).
Lemma met_later l e j y id c : met l j y id c -> met (l ++ [e]) j y id c.
Proof. intros (l1 & l2 & -> & M). exists l1, (l2 ++ [e]). rewrite app_assoc. auto. Qed.

Lemma counted_served l j y t i n cr c : nth_error (sv_threads (Served W E l)) j = Some (y, t) ->
  Authenticates W (snd y) i n cr -> LoginCounter cr c ->
  counted (below (cr_raw_id cr) c) (met l j y (cr_raw_id cr) c) t.
Proof.
  revert j y t. induction l as [|e l IH] using rev_ind; intros j y t N AU LC.
  { now destruct j. }
  assert (OLD : forall j t, nth_error (sv_threads (Served W E l)) j = Some (y, t) ->
    counted (below (cr_raw_id cr) c) (met (l ++ [e]) j y (cr_raw_id cr) c) t).
  { intros j0 t0 N0. eapply counted_mono; [|exact (IH j0 y t0 N0 AU LC)]. apply met_later. }
  rewrite served_snoc in N. destruct e as [x|k|k].
  - cbn in N. apply nth_snoc in N as [N|[-> N]]; [now apply OLD|]. injection N as -> ->.
    eapply counted_handle; eauto.
  - destruct (proceed_cases W E (Served W E l) k) as [Q|(x & f & g & t' & d & NX & F & Q)]; rewrite Q in N; [now apply OLD|].
    cbn [sv_threads] in N. rewrite nth_replace in N. destruct (Nat.eqb_spec k j) as [<-|KJ]; [|now apply OLD].
    rewrite NX in N. injection N as <- <-. destruct (IH k x _ NX AU LC) as [_ C].
    specialize (C (sv_db (Served W E l))). rewrite F in C. eapply counted_mono; [|exact C].
    intros [M|M]; [now apply met_later|]. exists l, [Proceed k]. split; [reflexivity|].
    split; [now exists f, g|exact M].
  - destruct (fail_cases W E (Served W E l) k) as [Q|(x & f & g & NX & Q)]; rewrite Q in N; [now apply OLD|].
    cbn [sv_threads] in N. rewrite nth_replace in N. destruct (Nat.eqb_spec k j) as [<-|KJ]; [|now apply OLD].
    rewrite NX in N. injection N as <- <-. destruct (IH k x _ NX AU LC) as [C _].
    eapply counted_mono; [|exact C]. apply met_later.
Qed.

Lemma c74_read l j y i n cr c : Replied (Served W E l) j y Success ->
  Authenticates W (snd y) i n cr -> LoginCounter cr c ->
  exists l1 l2, l = l1 ++ l2 /\ InFlight (Served W E l1) j y /\
    In (cr_raw_id cr) (map kr_id (db_creds (sv_db (Served W E l1)))) /\
    forall m, stored_count (cr_raw_id cr) (sv_db (Served W E l1)) = Some m -> (m < Z.of_N c)%Z.
Proof. intros R AU LC. exact (counted_served l j y _ i n cr c R AU LC eq_refl). Qed.

(** A counter changes only when a login is accepted, and becomes that of the login. *)
Lemma c74_change l e id : stored_count id (sv_db (Served W E (l ++ [e]))) <> stored_count id (sv_db (Served W E l)) ->
  exists j y i n cr c, e = Proceed j /\ InFlight (Served W E l) j y /\
    Replied (Served W E (l ++ [e])) j y Success /\ Authenticates W (snd y) i n cr /\
    cr_raw_id cr = id /\ LoginCounter cr c /\
    stored_count id (sv_db (Served W E (l ++ [e]))) = Some (Z.of_N c).
Proof.
  rewrite served_snoc. intro D. destruct e as [x|k|k]; [now destruct D| |].
  2:{ exfalso. apply D. now destruct (fail_cases W E (Served W E l) k) as [->|(x & f & g & N & ->)]. }
  pose proof (inv_served W E l) as A.
  destruct (proceed_cases W E (Served W E l) k) as [Q|(x & f & g & t & d & N & F & Q)]; rewrite Q in D |- *; [now destruct D|].
  pose proof (in_safe _ _ _ _ A k x _ N) as S. cbn [safe] in S.
  specialize (S _ (in_con _ _ _ _ A) (rely_refl _ _ _ _)). rewrite F in S. destruct S as [G _]. cbn [sv_db] in D |- *.
  destruct (gu_count _ _ _ _ _ _ _ G id) as [C|(T & i1 & n1 & cr1 & c1 & A1 & Q1 & L1 & ST & _)]; [now destruct D|].
  exists k, x, i1, n1, cr1, c1. split; [reflexivity|]. split; [now exists f, g|].
  split; [red; cbn [sv_threads]; rewrite nth_replace, Nat.eqb_refl, N; now rewrite T|]. auto.
Qed.

(** The step at which a login is accepted. *)
Lemma c74_write l j y i n cr c : Replied (Served W E l) j y Success ->
  Authenticates W (snd y) i n cr -> LoginCounter cr c ->
  exists l1 l2, l = l1 ++ Proceed j :: l2 /\ InFlight (Served W E l1) j y /\
    Replied (Served W E (l1 ++ [Proceed j])) j y Success /\
    stored_count (cr_raw_id cr) (sv_db (Served W E (l1 ++ [Proceed j]))) = Some (Z.of_N c).
Proof.
  intros R AU LC. induction l as [|e l IH] using rev_ind; [now destruct j|].
  assert (OLD : Replied (Served W E l) j y Success -> exists l1 l2, l ++ [e] = l1 ++ Proceed j :: l2 /\
    InFlight (Served W E l1) j y /\ Replied (Served W E (l1 ++ [Proceed j])) j y Success /\
    stored_count (cr_raw_id cr) (sv_db (Served W E (l1 ++ [Proceed j]))) = Some (Z.of_N c)).
  { intro R0. destruct (IH R0) as (l1 & l2 & -> & K). exists l1, (l2 ++ [e]). rewrite <- app_assoc. auto. }
  pose proof R as R1. rewrite served_snoc in R1. destruct e as [x|k|k].
  - apply OLD. now apply replied_snoc in R1.
  - destruct (proceed_cases W E (Served W E l) k) as [Q|(x & f & g & t & d & N & F & Q)]; rewrite Q in R1; [now apply OLD|].
    red in R1. cbn [sv_threads] in R1. rewrite nth_replace in R1. destruct (Nat.eqb_spec k j) as [->|KJ]; [|now apply OLD].
    rewrite N in R1. injection R1 as -> ->.
    exists l, []. split; [reflexivity|]. split; [now exists f, g|]. split; [exact R|].
    rewrite served_snoc, Q. cbn [sv_db].
    pose proof (inv_served W E l) as A. pose proof (in_safe _ _ _ _ A j y _ N) as S. cbn [safe] in S.
    specialize (S _ (in_con _ _ _ _ A) (rely_refl _ _ _ _)). rewrite F in S. destruct S as [G _].
    destruct (gu_login _ _ _ _ _ _ _ G i n cr eq_refl AU) as (_ & i1 & n1 & cr1 & c1 & A1 & _ & L1 & ST & _).
    rewrite <- (authenticates_fun' W _ _ _ _ _ _ _ AU A1) in L1. now rewrite (login_counter_fun _ _ _ LC L1).
  - destruct (fail_cases W E (Served W E l) k) as [Q|(x & f & g & N & Q)]; rewrite Q in R1; [now apply OLD|].
    red in R1. cbn [sv_threads] in R1. rewrite nth_replace in R1. destruct (Nat.eqb_spec k j) as [->|KJ]; [|now apply OLD].
    rewrite N in R1. injection R1 as -> ->. exfalso.
    pose proof (in_up _ _ _ _ (inv_served W E l) j y _ N) as ((r & Qr & RF) & _).
    injection Qr as <-. now apply refused_not in RF.
Qed.

(** The last change of a counter between two moments. *)
Lemma last_change l1 l2 id m : stored_count id (sv_db (Served W E l1)) <> Some m ->
  stored_count id (sv_db (Served W E (l1 ++ l2))) = Some m ->
  exists l3 l4 j y i n cr c, l2 = l3 ++ Proceed j :: l4 /\ InFlight (Served W E (l1 ++ l3)) j y /\
    Replied (Served W E (l1 ++ l3 ++ [Proceed j])) j y Success /\ Authenticates W (snd y) i n cr /\
    cr_raw_id cr = id /\ LoginCounter cr c /\ m = Z.of_N c.
Proof.
  intro D. induction l2 as [|e l2 IH] using rev_ind; intro M; [rewrite app_nil_r in M; contradiction|].
  assert (dec : forall a b : option Z, {a = b} + {a <> b}) by (decide equality; apply Z.eq_dec).
  destruct (dec (stored_count id (sv_db (Served W E (l1 ++ l2)))) (Some m)) as [Q|Q].
  - destruct (IH Q) as (l3 & l4 & j & y & i & n & cr & c & -> & K).
    exists l3, (l4 ++ [e]), j, y, i, n, cr, c. split; [now rewrite <- app_assoc|exact K].
  - rewrite app_assoc in M. destruct (c74_change (l1 ++ l2) e id) as (j & y & i & n & cr & c & -> & F & R & AU & I & LC & ST);
      [congruence|].
    exists l2, [], j, y, i, n, cr, c. split; [reflexivity|]. split; [exact F|].
    split; [now rewrite app_assoc|]. repeat (split; [assumption|]). congruence.
Qed.

(** A request in flight at [l2] was in flight since it was. *)
Lemma inflight_between l1 l2 j y y' : InFlight (Served W E l1) j y -> InFlight (Served W E (l1 ++ l2)) j y' ->
  y' = y /\ forall l3 l4, l2 = l3 ++ l4 -> InFlight (Served W E (l1 ++ l3)) j y.
Proof.
  intros F1 F2.
  assert (K : forall l3, (exists t, nth_error (sv_threads (Served W E (l1 ++ l3))) j = Some (y, t))).
  { intro l3. induction l3 as [|e l3 IH] using rev_ind.
    - rewrite app_nil_r. destruct F1 as (f & g & F1). now exists (Statement f g).
    - destruct IH as (t & N). rewrite app_assoc, served_snoc. destruct e as [x|k|k].
      + exists t. now apply nth_grow.
      + destruct (proceed_cases W E (Served W E (l1 ++ l3)) k) as [->|(x & f & g & t' & d & NX & F & ->)]; [now exists t|].
        cbn [sv_threads]. rewrite nth_replace. destruct (Nat.eqb_spec k j) as [->|_]; [|now exists t].
        rewrite NX. rewrite N in NX. injection NX as -> _. now exists t'.
      + destruct (fail_cases W E (Served W E (l1 ++ l3)) k) as [->|(x & f & g & NX & ->)]; [now exists t|].
        cbn [sv_threads]. rewrite nth_replace. destruct (Nat.eqb_spec k j) as [->|_]; [|now exists t].
        rewrite NX. rewrite N in NX. injection NX as -> _. now exists g. }
  destruct F2 as (f2 & g2 & N2).
  split.
  - destruct (K l2) as (t & N). rewrite N in N2. now injection N2 as -> _.
  - intros l3 l4 ->. destruct (K l3) as ([r|f g] & N); [|now exists f, g]. exfalso.
    assert (R : Replied (Served W E (l1 ++ l3 ++ l4)) j y r).
    { rewrite app_assoc. unfold Served. rewrite happen_all_app. apply replied_all. exact N. }
    red in R. rewrite R in N2. discriminate.
Qed.

(** The only way to accept a login at or below the stored counter. *)
Lemma c74_overtaken l j y i n cr c m : InFlight (Served W E l) j y ->
  Replied (Served W E (l ++ [Proceed j])) j y Success ->
  Authenticates W (snd y) i n cr -> LoginCounter cr c ->
  stored_count (cr_raw_id cr) (sv_db (Served W E l)) = Some m -> (Z.of_N c <= m)%Z ->
  exists l1 l2 j' y' i' n' cr' c', l = l1 ++ Proceed j' :: l2 /\ j' <> j /\
    InFlight (Served W E l1) j y /\ InFlight (Served W E l1) j' y' /\
    Replied (Served W E (l1 ++ [Proceed j'])) j' y' Success /\ Authenticates W (snd y') i' n' cr' /\
    cr_raw_id cr' = cr_raw_id cr /\ LoginCounter cr' c' /\ m = Z.of_N c'.
Proof.
  intros F R AU LC M LE. destruct (c74_read _ _ _ _ _ _ _ R AU LC) as (l1 & l2 & Q & F1 & _ & B).
  (* the moment was before the last step *)
  destruct l2 as [|e l2 _] using rev_ind.
  { rewrite app_nil_r in Q. subst l1. red in R. destruct F1 as (f & g & F1). congruence. }
  rewrite app_assoc in Q. apply app_inj_tail in Q as [-> <-].
  destruct (last_change l1 l2 (cr_raw_id cr) m) as (l3 & l4 & j' & y' & i' & n' & cr' & c' & -> & F' & R' & AU' & I & LC' & ->).
  { intro M1. specialize (B m M1). lia. }
  { exact M. }
  exists (l1 ++ l3), l4, j', y', i', n', cr', c'.
  destruct (inflight_between l1 _ j y y F1 F) as [_ FB].
  split; [now rewrite <- app_assoc|]. split.
  - intros ->. specialize (FB (l3 ++ [Proceed j]) l4). rewrite <- app_assoc in FB. specialize (FB eq_refl).
    destruct FB as (f & g & FB). red in R'. congruence.
  - split; [exact (FB l3 _ eq_refl)|]. split; [exact F'|]. split; [now rewrite <- app_assoc|]. auto.
Qed.

(** ** Logins with one credential that exclude each other *)
Lemma exclusive_for_prefix id l1 l2 : ExclusiveFor W E id (l1 ++ l2) -> ExclusiveFor W E id l1.
Proof. intros X a b ->. apply (X a (b ++ l2)). now rewrite app_assoc. Qed.

Lemma exceeds l j y i n cr c m : ExclusiveFor W E (cr_raw_id cr) l -> InFlight (Served W E l) j y ->
  Replied (Served W E (l ++ [Proceed j])) j y Success ->
  Authenticates W (snd y) i n cr -> LoginCounter cr c ->
  stored_count (cr_raw_id cr) (sv_db (Served W E l)) = Some m -> (m < Z.of_N c)%Z.
Proof.
  intros X F R AU LC M. destruct (Z.lt_ge_cases m (Z.of_N c)) as [L|L]; [exact L|exfalso].
  destruct (c74_overtaken _ _ _ _ _ _ _ _ F R AU LC M L)
    as (l1 & l2 & j' & y' & i' & n' & cr' & c' & Q & NJ & F1 & F2 & _ & AU' & I & _).
  apply NJ. eapply (X l1 (Proceed j' :: l2) Q j' j); eauto.
Qed.

Lemma c74_for_step id l e m : ExclusiveFor W E id l -> stored_count id (sv_db (Served W E l)) = Some m ->
  exists m', stored_count id (sv_db (Served W E (l ++ [e]))) = Some m' /\ (m <= m')%Z.
Proof.
  intros X M. assert (dec : forall a b : option Z, {a = b} + {a <> b}) by (decide equality; apply Z.eq_dec).
  destruct (dec (stored_count id (sv_db (Served W E (l ++ [e])))) (stored_count id (sv_db (Served W E l)))) as [Q|Q].
  - exists m. split; [congruence|lia].
  - destruct (c74_change l e id Q) as (j & y & i & n & cr & c & -> & F & R & AU & <- & LC & ST).
    exists (Z.of_N c). split; [exact ST|]. pose proof (exceeds _ _ _ _ _ _ _ _ X F R AU LC M). lia.
Qed.
Lemma c74_for id l1 l2 m : ExclusiveFor W E id (l1 ++ l2) -> stored_count id (sv_db (Served W E l1)) = Some m ->
  exists m', stored_count id (sv_db (Served W E (l1 ++ l2))) = Some m' /\ (m <= m')%Z.
Proof.
  induction l2 as [|e l2 IH] using rev_ind; intros X M; [rewrite app_nil_r; exists m; split; [assumption|lia]|].
  rewrite app_assoc in *. apply exclusive_for_prefix in X. destruct (IH X M) as (m1 & M1 & L1).
  destruct (c74_for_step _ _ e _ X M1) as (m2 & M2 & L2). exists m2. split; [assumption|lia].
Qed.

Lemma c74_accepted_for l1 l2 j1 j2 y1 y2 i1 n1 cr1 c1 i2 n2 cr2 c2 :
  ExclusiveFor W E (cr_raw_id cr2) (l1 ++ l2) ->
  Replied (Served W E l1) j1 y1 Success -> ~ Replied (Served W E l1) j2 y2 Success ->
  Replied (Served W E (l1 ++ l2)) j2 y2 Success ->
  Authenticates W (snd y1) i1 n1 cr1 -> Authenticates W (snd y2) i2 n2 cr2 ->
  cr_raw_id cr1 = cr_raw_id cr2 -> LoginCounter cr1 c1 -> LoginCounter cr2 c2 -> (c1 < c2)%N.
Proof.
  intros X R1 NR R2 A1 A2 I L1 L2.
  destruct (c74_write _ _ _ _ _ _ _ R1 A1 L1) as (a & b & -> & _ & _ & ST).
  destruct (c74_write _ _ _ _ _ _ _ R2 A2 L2) as (a' & b' & Q & F2 & R2' & _).
  (* the second login was accepted after [l1] *)
  assert (K : exists z, a' = (a ++ Proceed j1 :: b) ++ z).
  { assert (P : forall (u v w x : list sv_event), u ++ v = w ++ x ->
      (exists z, w = u ++ z) \/ (exists z, z <> [] /\ u = w ++ z /\ x = z ++ v)).
    { induction u as [|e u IH]; intros v w x H; [left; now exists w|].
      destruct w as [|e' w]; [right; exists (e :: u); split; [discriminate|split; [reflexivity|now symmetry]]|].
      injection H as <- H. destruct (IH _ _ _ H) as [(z & ->)|(z & Z & -> & ->)]; [left; now exists z|right; now exists z]. }
    destruct (P _ _ _ _ Q) as [K|(z & Z & U & V)]; [exact K|exfalso]. apply NR. rewrite U.
    destruct z as [|e z]; [contradiction|]. injection V as <- _.
    change (a' ++ Proceed j2 :: z) with (a' ++ [Proceed j2] ++ z). rewrite app_assoc.
    unfold Served. rewrite happen_all_app. apply replied_all. exact R2'. }
  destruct K as (z & ->).
  assert (ST' : stored_count (cr_raw_id cr2) (sv_db (Served W E (a ++ [Proceed j1]))) = Some (Z.of_N c1)) by (now rewrite <- I).
  rewrite Q in X. apply exclusive_for_prefix in X.
  assert (SP : (a ++ Proceed j1 :: b) ++ z = (a ++ [Proceed j1]) ++ b ++ z) by (rewrite <- !app_assoc; reflexivity).
  pose proof X as X'. rewrite SP in X'.
  destruct (c74_for _ _ _ _ X' ST') as (m & M & LE). rewrite <- SP in M.
  pose proof (exceeds _ _ _ _ _ _ _ _ X F2 R2' A2 L2 M). lia.
Qed.

Lemma exclusive_for id l : Exclusive W E l -> ExclusiveFor W E id l.
Proof.
  intros X l1 l2 Q j1 j2 x1 x2 i1 i2 n1 n2 cr1 cr2 F1 F2 A1 A2 I1 I2.
  eapply (X l1 l2 Q j1 j2); eauto. congruence.
Qed.

(** No two accepted logins have one counter. *)
Lemma split_order (a b a' b' : list sv_event) j j' : a ++ Proceed j :: b = a' ++ Proceed j' :: b' ->
  j = j' \/ (exists z, a' = (a ++ [Proceed j]) ++ z) \/ (exists z, a = (a' ++ [Proceed j']) ++ z).
Proof.
  revert a'. induction a as [|e a IH]; intros a' H; destruct a' as [|e' a'].
  - injection H as -> _. now left.
  - injection H as <- H. right. left. exists a'. reflexivity.
  - injection H as -> H. right. right. exists a. reflexivity.
  - injection H as <- H. destruct (IH a' H) as [Q|[(z & ->)|(z & ->)]]; [now left|right; left; now exists z|right; right; now exists z].
Qed.
Lemma c74_once_for l j1 j2 y1 y2 i1 n1 cr1 i2 n2 cr2 c : ExclusiveFor W E (cr_raw_id cr1) l ->
  Replied (Served W E l) j1 y1 Success -> Replied (Served W E l) j2 y2 Success ->
  Authenticates W (snd y1) i1 n1 cr1 -> Authenticates W (snd y2) i2 n2 cr2 ->
  cr_raw_id cr1 = cr_raw_id cr2 -> LoginCounter cr1 c -> LoginCounter cr2 c -> j1 = j2.
Proof.
  assert (K : forall a z b j1 j2 y1 y2 i1 n1 cr1 i2 n2 cr2,
    ExclusiveFor W E (cr_raw_id cr1) ((a ++ [Proceed j1]) ++ z ++ b) ->
    Replied (Served W E (a ++ [Proceed j1])) j1 y1 Success ->
    InFlight (Served W E ((a ++ [Proceed j1]) ++ z)) j2 y2 ->
    Replied (Served W E ((a ++ [Proceed j1]) ++ z ++ b)) j2 y2 Success ->
    Authenticates W (snd y1) i1 n1 cr1 -> Authenticates W (snd y2) i2 n2 cr2 ->
    cr_raw_id cr1 = cr_raw_id cr2 -> LoginCounter cr1 c -> LoginCounter cr2 c -> False).
  { intros a z b k1 k2 x1 x2 i n cr i' n' cr' X R1 (f & g & F) R2 A1 A2 I L1 L2. rewrite I in X.
    assert (NR : ~ Replied (Served W E (a ++ [Proceed k1])) k2 x2 Success).
    { intro R. apply (replied_all W E _ z) in R. unfold Served in R, F. rewrite happen_all_app in F.
      red in R. congruence. }
    pose proof (c74_accepted_for _ _ _ _ _ _ _ _ _ _ _ _ _ _ X R1 NR R2 A1 A2 I L1 L2). lia. }
  intros X R1 R2 A1 A2 I L1 L2.
  destruct (c74_write _ _ _ _ _ _ _ R1 A1 L1) as (a & b & Q & F1 & S1 & _).
  destruct (c74_write _ _ _ _ _ _ _ R2 A2 L2) as (a' & b' & Q' & F2 & S2 & _).
  destruct (split_order a b a' b' j1 j2) as [J|[(z & ->)|(z & ->)]]; [congruence|exact J| |]; exfalso.
  - rewrite Q' in X, R2. rewrite <- app_assoc in X, R2. eapply (K a z); eauto.
  - rewrite Q in X, R1. rewrite <- app_assoc in X, R1. rewrite I in X. eapply (K a' z); eauto.
Qed.
End App.
