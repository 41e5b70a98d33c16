(** * AppConcHonest: what is in order when it arrives is accepted, whatever else is handled
    meanwhile (C95). *)
From Coq Require Import List NArith ZArith Bool String Lia.
From Verif Require Import Base PyVal B64 Utf8 Url CaseConv Cbor CborFacts Types World Parsers Crypto
  Json JsonSpec Backends Spec Jsonify Builders OptionSpec BaseFacts AuthFacts BackendFacts KeyFacts
  App AppSpec AppFacts AppHistory AppAccept AppConc AppConcSpec AppConcFacts AppConcInv
  AppConcTheorems HonestSpec HonestFacts AppConcHonestSpec.
Import ListNotations.
Local Open Scope list_scope.

(** ** Threads that succeed if [P] holds of the database at each of their statements *)

Fixpoint sure (P : database -> Prop) (t : thread) (d : database) : Prop :=
  match t with
  | Answered r => r = Success
  | Statement f _ => forall d1, Consistent d1 -> Grow d d1 -> P d1 ->
      match f d1 with (t', d2) => sure P t' d2 end
  end.

Lemma sure_grow P t : forall d d', Grow d d' -> sure P t d -> sure P t d'.
Proof.
  destruct t as [r|f g]; cbn; intros d d' G S; [exact S|].
  intros d1 C G1. apply S; [assumption|]. eapply grow_trans; eauto.
Qed.

Section App.
Variable W : World.
Variable E : appenv.

Lemma arrived l1 x l2 : Served W E (l1 ++ Arrive x :: l2) = Served W E ((l1 ++ [Arrive x]) ++ l2).
Proof. now rewrite <- app_assoc. Qed.

Lemma sure_served P l1 x l2 : ~ In (Fail (next (Served W E l1))) l2 -> sure P (handle W E x) (sv_db (Served W E l1)) ->
  (forall a b, l2 = a ++ b -> InFlight (Served W E (l1 ++ Arrive x :: a)) (next (Served W E l1)) x ->
     P (sv_db (Served W E (l1 ++ Arrive x :: a)))) ->
  exists t, nth_error (sv_threads (Served W E (l1 ++ Arrive x :: l2))) (next (Served W E l1)) = Some (x, t) /\
    sure P t (sv_db (Served W E (l1 ++ Arrive x :: l2))).
Proof.
  intros NF S0. induction l2 as [|e l2 IH] using rev_ind; intro HP.
  - exists (handle W E x). rewrite served_snoc. cbn [happen sv_threads sv_db]. split; [|exact S0].
    unfold next. rewrite nth_error_app2, Nat.sub_diag by lia. reflexivity.
  - destruct IH as (t & N & S).
    { intro F. apply NF, in_or_app. now left. }
    { intros a b Q. apply (HP a (b ++ [e])). now rewrite Q, app_assoc. }
    specialize (HP l2 [e] eq_refl).
    assert (Q : l1 ++ Arrive x :: l2 ++ [e] = (l1 ++ Arrive x :: l2) ++ [e]).
    { rewrite <- app_assoc. reflexivity. }
    rewrite Q. pose proof (step_grow W E (l1 ++ Arrive x :: l2) e) as G.
    pose proof (inv_served W E (l1 ++ Arrive x :: l2)) as A.
    rewrite served_snoc in *. remember (Served W E (l1 ++ Arrive x :: l2)) as s eqn:Hs. clear Hs Q.
    remember (next (Served W E l1)) as j eqn:Hj. clear Hj.
    destruct e as [y|i|i].
    + exists t. split; [now apply nth_grow|]. eapply sure_grow; [exact G|exact S].
    + destruct (proceed_cases W E s i) as [Q|(y & f & g & t' & d & N' & F & Q)]; rewrite Q in *; [eauto|].
      cbn [sv_db sv_threads] in *. rewrite nth_replace. destruct (Nat.eqb_spec i j) as [->|J].
      * rewrite N in N' |- *. injection N' as <- ->. exists t'. split; [reflexivity|].
        cbn [sure] in S. specialize (S (sv_db s) (in_con _ _ _ _ A) (grow_refl _) (HP (ex_intro _ f (ex_intro _ g N)))).
        now rewrite F in S.
      * exists t. split; [exact N|]. eapply sure_grow; [exact G|exact S].
    + destruct (fail_cases W E s i) as [Q|(y & f & g & N' & Q)]; rewrite Q in *; [eauto|].
      cbn [sv_db sv_threads] in *. rewrite nth_replace. destruct (Nat.eqb_spec i j) as [->|J]; [|eauto].
      exfalso. apply NF, in_or_app. right. now left.
Qed.

Lemma sure_succeeds P l1 x l2 : (forall K, needs (snd x) K = 6) -> sure P (handle W E x) (sv_db (Served W E l1)) ->
  (forall a b, l2 = a ++ b -> InFlight (Served W E (l1 ++ Arrive x :: a)) (next (Served W E l1)) x ->
     P (sv_db (Served W E (l1 ++ Arrive x :: a)))) ->
  Succeeds W E l1 l2 x.
Proof.
  intros RS S HP NF. destruct (sure_served P l1 x l2 NF S HP) as (t & N & T).
  assert (K : forall r, Replied (Served W E (l1 ++ Arrive x :: l2)) (next (Served W E l1)) x r -> r = Success).
  { intros r R. red in R. rewrite N in R. injection R as ->. exact T. }
  split; [exact K|]. intro L. destruct (c73_answered W E l1 l2 x) as (r & R); [now rewrite RS|].
  pose proof (K r R) as ->. exact R.
Qed.

(** Answers at a time are answers later. *)
Lemma replied_prefix l1 l2 j y r : Replied (Served W E l1) j y r -> Replied (Served W E (l1 ++ l2)) j y r.
Proof. intro R. unfold Served. rewrite happen_all_app. now apply replied_all. Qed.
Lemma in_flight_other s j x j' y r : InFlight s j x -> Replied s j' y r -> j' <> j.
Proof. intros (f & g & N) R ->. red in R. congruence. Qed.

(** ** Where stored counters come from *)

Lemma count_from l id m : stored_count id (sv_db (Served W E l)) = Some m ->
  exists j y i n cr c, Replied (Served W E l) j y Success /\ Authenticates W (snd y) i n cr /\
    cr_raw_id cr = id /\ LoginCounter cr c /\ m = Z.of_N c.
Proof.
  induction l as [|e l IH] using rev_ind; intro M; [discriminate|].
  assert (K : stored_count id (sv_db (Served W E l)) = Some m ->
    exists j y i n cr c, Replied (Served W E (l ++ [e])) j y Success /\ Authenticates W (snd y) i n cr /\
      cr_raw_id cr = id /\ LoginCounter cr c /\ m = Z.of_N c).
  { intro M'. destruct (IH M') as (j & y & i & n & cr & c & R & H).
    exists j, y, i, n, cr, c. split; [now apply replied_prefix|exact H]. }
  clear IH. pose proof (inv_served W E l) as A. rewrite served_snoc in *.
  destruct e as [x|i|i]; [now apply K| |].
  2:{ apply K. now destruct (fail_cases W E (Served W E l) i) as [Q|(x & f & g & N & Q)]; rewrite Q in M. }
  destruct (proceed_cases W E (Served W E l) i) as [Q|(x & f & g & t & d & N & F & Q)]; rewrite Q in *; [now apply K|].
  pose proof (in_safe _ _ _ _ A i x _ N) as S. cbn [safe] in S. specialize (S _ (in_con _ _ _ _ A) (rely_refl _ _ _ _)).
  rewrite F in S. destruct S as [G _]. cbn [sv_db] in M.
  destruct (gu_count _ _ _ _ _ _ _ G id) as [C|(T & i1 & n1 & cr1 & c1 & A1 & Q1 & LC & ST & _)].
  - apply K. congruence.
  - exists i, x, i1, n1, cr1, c1. split; [red; cbn [sv_threads]; rewrite nth_replace, Nat.eqb_refl, N; now rewrite T|].
    split; [exact A1|]. split; [exact Q1|]. split; [exact LC|]. rewrite ST in M. now injection M.
Qed.

(** ** Ceremonies *)

Lemma sure_ceremony P clock i n go d h u :
  ap_int E i = Some (hr_id h) -> In h (db_chals d) -> In u (db_users d) -> ur_username u = n ->
  (clock - hr_timestamp h <= 60000)%Z ->
  (forall d', Grow d d' -> sure P (go h u) d') ->
  sure P (t_ceremony E clock i n go) d.
Proof.
  intros I H U UN L G d1 C1 G1 _. rewrite I.
  rewrite (chal_by_id_find d1 h C1 (grow_chal _ _ _ G1 H)).
  intros d2 C2 G2 _. rewrite <- UN.
  rewrite (user_by_name_find d2 u C2 (grow_user _ _ _ (grow_trans _ _ _ G1 G2) U)).
  assert (B : (APP_TIMEOUT <? clock - hr_timestamp h)%Z = false).
  { apply Z.ltb_ge. exact L. }
  rewrite B. apply G. eapply grow_trans; eauto.
Qed.

Definition Fresh (id : bytes) (d : database) : Prop := ~ In id (map kr_id (db_creds d)).
Definition Below (id : bytes) (n : N) (d : database) : Prop :=
  forall m, stored_count id d = Some m -> (m < Z.of_N n)%Z.

Lemma sure_attestation cr n u h d att ad acd kb : RegistrationSpec W (app_attestation cr n u h) att ->
  ao_auth_data att = Some ad -> ad_attested ad = Some acd -> cose_key (at_key acd) = Ok kb ->
  In u (db_users d) ->
  sure (Fresh (cr_raw_id cr)) (statements W (conclude "Could not handle credential attestation")
    (handle_credential_attestation W (app_attestation cr n u h))) d.
Proof.
  intros S EA AA CK U. unfold handle_credential_attestation, handle_credential_attestation_with.
  fold (attestation_checks W).
  rewrite (proj2 (attestation_iff W (app_attestation cr n u h) att AT_NONE None) (conj S (conj eq_refl eq_refl))).
  cbn [statements app_attestation ra_credential ra_user ra_rp]. rewrite EA, AA.
  intros d1 C1 G1 _. cbn [app_user us_id]. rewrite (user_by_handle_find d1 u C1 (grow_user _ _ _ G1 U)).
  rewrite CK. intros d2 C2 G2 FR. red in FR.
  destruct (insert_cred _ d2) as [d3|e] eqn:I.
  - reflexivity.
  - exfalso. assert (Q : insert_cred {| kr_id := cr_raw_id cr; kr_count := None; kr_key := kb; kr_user := ur_id u |} d2 =
      Ok (add_cred {| kr_id := cr_raw_id cr; kr_count := None; kr_key := kb; kr_user := ur_id u |} d2)).
    { apply insert_cred_ok. split; [exact FR|reflexivity]. }
    congruence.
Qed.

Lemma sure_assertion cr n u h d k key row cdj adb sig uh ad :
  cr_response cr = AssertionResponse cdj adb sig uh ->
  ClientDataSpec W "webauthn.get" (hr_request h) app_origin None cdj ->
  AuthDataSpec W app_rp_id false None adb ad ->
  SignatureSpec W k sig (adb ++ w_sha256 W cdj) ->
  (forall x, uh = Some x -> x = ur_handle u) ->
  In u (db_users d) -> ur_username u = n ->
  In row (db_creds d) -> kr_id row = cr_raw_id cr -> kr_key row = key -> kr_user row = ur_id u ->
  parse_cose_key_bytes W key = Ok (surviving_key k) ->
  sure (Below (cr_raw_id cr) (counter_of adb)) (statements W (conclude "Could not handle credential assertion")
    (handle_credential_assertion W (app_assertion cr n u h))) d.
Proof.
  intros RE CD AD SG UH U UN R R1 R2 R3 PK. unfold handle_credential_assertion.
  assert (S : forall m, (forall z, m = Some z -> (z < Z.of_N (counter_of adb))%Z) ->
    AssertionSpec W (app_assertion cr n u h)
      {| cdt_key := surviving_key k; cdt_sign_count := m; cdt_user := app_user (ur_username u) (ur_handle u);
         cdt_rp := None |} ad (app_user n (ur_handle u)) APP_RELYING_PARTY).
  { intros m M. exists cdj, adb, sig, uh. split; [exact RE|]. cbn.
    split; [intros l0 Q; discriminate|].
    split; [split; [reflexivity|]; split; [reflexivity|]; split; [|discriminate]; exact UH|].
    split; [split; [reflexivity|discriminate]|].
    split; [exact CD|]. split; [exact AD|]. split; [now apply signature_surviving|].
    right. destruct m as [z|]; [right; exists z; split; [reflexivity|]; apply (M z eq_refl)|now left]. }
  destruct (proj2 (assertion_iff W _ _ _ _ _) (S None ltac:(discriminate))) as (os & P & _).
  rewrite P. cbn [statements]. intros d1 C1 G1 B1. cbn [app_assertion aa_credential].
  destruct (gr_creds _ _ G1 row R) as (row1 & I1 & V1 & V2 & V3).
  assert (F1 : cred_by_id (cr_raw_id cr) d1 = Some row1).
  { rewrite <- R1, <- V1. now apply cred_by_id_find. }
  rewrite F1, V2, R2, PK. intros d2 C2 G2 _.
  rewrite V3, R3, (user_by_id_find d2 u C2 (grow_user _ _ _ (grow_trans _ _ _ G1 G2) U)).
  assert (M : forall z, kr_count row1 = Some z -> (z < Z.of_N (counter_of adb))%Z).
  { intros z Q. apply B1. unfold stored_count. now rewrite F1. }
  destruct (proj2 (assertion_iff W _ _ _ _ _) (S (kr_count row1) M)) as (os' & P' & K).
  rewrite P in P'. injection P' as <-.
  unfold app_user in K |- *. rewrite K. cbn [statements].
  intros d3 C3 G3 _. cbn [app_assertion aa_credential].
  assert (G03 : Grow d d3) by (eapply grow_trans; [exact G1|]; eapply grow_trans; eauto).
  destruct (gr_creds _ _ G03 row R) as (row3 & I3 & X1 & X2 & X3).
  assert (F3 : cred_by_id (cr_raw_id cr) d3 = Some row3).
  { rewrite <- R1, <- X1. now apply cred_by_id_find. }
  rewrite F3. intros d4 C4 G4 _. reflexivity.
Qed.

(** ** Rows of what was in order *)

Lemma drawn_row s n c id t : DrawnChallenge s n c id t ->
  exists h, In h (db_chals (sv_db s)) /\ hr_id h = id /\ hr_request h = c /\ hr_timestamp h = t.
Proof. intros (j & y & th & h & _ & _ & _ & _ & H1 & H2 & H3 & H4 & _). eauto. Qed.

Lemma accepted_row l n cid k u : AcceptedKey W (Served W E l) n cid k ->
  In u (db_users (sv_db (Served W E l))) -> ur_username u = n ->
  exists row, In row (db_creds (sv_db (Served W E l))) /\ kr_id row = cid /\ kr_user row = ur_id u /\
    cose_key (Some k) = Ok (kr_key row).
Proof.
  intros (j & y & i & cr & R & RG & <- & AK) U UN. pose proof (inv_served W E l) as A.
  destruct (in_safe _ _ _ _ A j y _ R eq_refl) as [S _].
  destruct (S i n cr RG) as (h & u' & att & ad & acd & k' & row & _ & _ & _ & U' & UN' & RS & H1 & H2 & H3 & I & Q1 & Q2 & Q3).
  assert (u' = u) as ->.
  { eapply (NoDup_map_eq ur_username); [apply (in_con _ _ _ _ A)|assumption|assumption|congruence]. }
  destruct (registration_key W _ _ _ _ _ _ _ RS H1 H2) as (k2 & K2 & AK2).
  cbn [app_attestation ra_credential] in AK2. rewrite H3 in K2. injection K2 as <-.
  pose proof (attested_key_unique W cr k k' AK AK2) as <-.
  exists row. auto.
Qed.

Lemma c95_registration l1 x l2 i n cr :
  Registers W (snd x) i n cr ->
  FitRegistration W E (Served W E l1) (ch_clock (fst x)) i n cr ->
  OnlyRegistration W (Served W E (l1 ++ Arrive x :: l2)) (next (Served W E l1)) (cr_raw_id cr) ->
  Succeeds W E l1 l2 x.
Proof.
  intros RG (id & n0 & c & t & hd & cdj & aob & adb & ad & acd & k & b & I1 & I2 & I3 & I4 & I5 & I6 & I7 & I8 & I9 & I10 & I11) OR.
  apply (sure_succeeds (Fresh (cr_raw_id cr))).
  - destruct RG as (tx & -> & _). reflexivity.
  - destruct RG as (tx & HQ & PF).
    assert (PQ : parse_form W (Some i) (Some tx) (Some n) = Some (i, cr, n)).
    { apply parse_form_ok. exists tx. auto. }
    unfold handle. rewrite HQ. unfold t_registration_response. rewrite PQ, I5.
    apply drawn_row in I2 as (h & H1 & H2 & H3 & H4). destruct I4 as (u & U1 & U2 & U3).
    apply (sure_ceremony _ _ _ _ _ _ h u); try assumption; [congruence|lia|].
    intros d' G.
    apply (sure_attestation cr n u h d' {| ao_auth_data := Some ad; ao_fmt := F_NONE; ao_stmt := S_None |} ad acd b);
      [|reflexivity|exact I9|now rewrite I10|eapply grow_user; eauto].
    exists cdj, aob, adb, ad. cbn. split; [exact I5|]. split; [rewrite H3; exact I6|]. split; [exact I7|].
    split; [exact I8|]. split; [|reflexivity].
    destruct I8 as [I8 _]. apply auth_reads_iff in I8.
    destruct (auth_fields _ _ _ I8) as (_ & _ & _ & _ & FB & _). rewrite <- FB, I9. reflexivity.
  - intros a b' -> FL Q. apply in_map_iff in Q as (row & Q1 & Q2).
    destruct (in_cred _ _ _ _ (inv_served W E (l1 ++ Arrive x :: a)) row Q2) as (j & y & i0 & n1 & cr0 & u0 & k0 & R0 & G0 & Q3 & _).
    apply (OR j y i0 n1 cr0); [eapply in_flight_other; eauto| |exact G0|congruence].
    pose proof (replied_prefix _ b' _ _ _ R0) as R1. rewrite <- app_assoc in R1. exact R1.
Qed.

Lemma c95_login depth l1 x l2 i n cr ctr :
  decodes_cbor W depth -> 2 <= depth ->
  Authenticates W (snd x) i n cr ->
  SharedLogin W E (Served W E l1) (ch_clock (fst x)) i n cr -> LoginCounter cr ctr ->
  LargestLogin W (Served W E (l1 ++ Arrive x :: l2)) (next (Served W E l1)) (cr_raw_id cr) ctr ->
  Succeeds W E l1 l2 x.
Proof.
  intros DC LD AU (id & n0 & c & t & hd & k & cdj & adb & sig & uh & ad & I1 & I2 & I3 & I4 & I5 & I6 & I7 & I8 & I9 & I10) LC LL.
  assert (ctr = counter_of adb) as -> by (destruct LC as (? & ? & ? & ? & Q & ->); congruence).
  apply (sure_succeeds (Below (cr_raw_id cr) (counter_of adb))).
  - destruct AU as (tx & -> & _). reflexivity.
  - destruct AU as (tx & HQ & PF).
    assert (PQ : parse_form W (Some i) (Some tx) (Some n) = Some (i, cr, n)).
    { apply parse_form_ok. exists tx. auto. }
    unfold handle. rewrite HQ. unfold t_authentication_response. rewrite PQ, I6.
    apply drawn_row in I2 as (h & H1 & H2 & H3 & H4). destruct I4 as (u & U1 & U2 & U3).
    pose proof I5 as (_ & _ & _ & cr0 & _ & _ & _ & AK). apply attested_key_well_formed in AK as [WF _].
    destruct (accepted_row l1 n (cr_raw_id cr) k u I5 U1 U2) as (row & R0 & R1 & R2 & R3).
    apply (sure_ceremony _ _ _ _ _ _ h u); try assumption; [congruence|lia|].
    intros d' G. destruct (gr_creds _ _ G row R0) as (row' & R0' & V1 & V2 & V3).
    apply (sure_assertion cr n u h d' k (kr_key row') row' cdj adb sig uh ad); try assumption; try congruence.
    + intros z Z. rewrite U3. now apply I10.
    + eapply grow_user; eauto.
    + rewrite V2. eapply cose_key_read; eauto.
  - intros a b -> FL m M. apply count_from in M as (j & y & i' & n' & cr' & c' & R & AU' & Q & LC' & ->).
    apply N2Z.inj_lt. apply (LL j y i' n' cr' c'); [eapply in_flight_other; eauto| |exact AU'|exact Q|exact LC'].
    pose proof (replied_prefix _ b _ _ _ R) as R1. rewrite <- app_assoc in R1. exact R1.
Qed.

(** ** Users to whom options were sent *)

Lemma asks_fun q a b : Asks q a -> Asks q b -> a = b.
Proof. intros [->| ->] [H|H]; congruence. Qed.
Lemma sent_user l n c id t : SentChallenge (Served W E l) n c id t -> exists hd, HasHandle (Served W E l) n hd.
Proof.
  intros (j & y & v & R & A & _). destruct (known_served _ _ _ _ _ _ R id v eq_refl) as ((u & U & A') & _).
  exists (ur_handle u), u. split; [exact U|]. split; [eapply asks_fun; eauto|reflexivity].
Qed.

(** ** Honest ceremonies *)

Variable depth : nat.
Variable JE : jsonenv.
Hypothesis CF : Conforming W depth JE.

Lemma c95_honest_registration l1 x l2 i n cr id c t cid k ctr :
  Registers W (snd x) i n cr -> ap_int E i = Some id -> SentChallenge (Served W E l1) n c id t ->
  (ch_clock (fst x) - t <= 60000)%Z -> AppRegistration W depth cr c cid k ctr ->
  OnlyRegistration W (Served W E (l1 ++ Arrive x :: l2)) (next (Served W E l1)) cid ->
  Succeeds W E l1 l2 x /\
  (~ In (Fail (next (Served W E l1))) l2 -> 6 <= turns (next (Served W E l1)) l2 -> AcceptedKey W (Served W E (l1 ++ Arrive x :: l2)) n cid k).
Proof.
  intros RG HI SC HT (A & <- & EC & EO & ER & EU & EX & HR) OR.
  destruct (honest_registration W depth JE CF A cid k ctr HR) as (att & ad & acd & RS & H1 & H2 & H3 & _).
  assert (EI : cr_raw_id (ra_credential A) = cid) by (destruct HR as (? & ? & ? & ? & ? & ? & ? & ? & ? & ? & H & _); exact H).
  assert (NK : exists d keyb, NewKey k d /\ cbor_dumps (VDict d) = Some keyb).
  { destruct HR as (? & ? & ? & ? & ? & ? & d & keyb & ? & ? & _ & _ & _ & _ & _ & _ & _ & _ & _ & HK & HB & _). eauto. }
  assert (TB : ra_token_binding A = None).
  { destruct HR as (? & ? & ? & ? & ? & ? & ? & ? & ? & ? & _ & _ & _ & _ & H & _). exact H. }
  destruct NK as (d & keyb & NK & HB). destruct (new_key k d NK) as (_ & _ & CD & _).
  destruct RS as (cdj & aob & adb & ad' & R1 & R2 & R3 & R4 & R5 & ->). cbn [ao_auth_data] in H1. injection H1 as ->.
  destruct (sent_user _ _ _ _ _ SC) as (hd & UH). apply c73_sent in SC.
  rewrite EC, EO, TB in R2. rewrite ER, EU, EX in R4.
  assert (SU : Succeeds W E l1 l2 x).
  { apply (c95_registration l1 x l2 i n (ra_credential A) RG); [|rewrite EI; exact OR].
    exists id, n, c, t, hd, cdj, aob, adb, ad, acd, k, keyb. repeat (split; [assumption|]).
    unfold cose_key. rewrite CD. cbn [bind]. rewrite HB. reflexivity. }
  split; [exact SU|]. intros NF L. exists (next (Served W E l1)), x, i, (ra_credential A).
  split; [now apply SU|]. split; [exact RG|]. split; [exact EI|].
  exists cdj, aob, adb, ad, acd. destruct R4 as (R4 & _). auto.
Qed.

Lemma c95_honest_login l1 x l2 i n cr id c t cid k handle ctr :
  Authenticates W (snd x) i n cr -> ap_int E i = Some id -> SentChallenge (Served W E l1) n c id t ->
  (ch_clock (fst x) - t <= 60000)%Z -> AcceptedKey W (Served W E l1) n cid k ->
  HasHandle (Served W E l1) n handle -> AppLogin W depth cr c cid k handle ctr ->
  LargestLogin W (Served W E (l1 ++ Arrive x :: l2)) (next (Served W E l1)) cid ctr ->
  Succeeds W E l1 l2 x.
Proof.
  intros AU HI SC HT AK HH (A & user & rp & <- & EC & EO & ER & EU & EV & EX & HL) LL.
  destruct (honest_login W depth JE CF A cid k user rp ctr
    {| cdt_key := k; cdt_sign_count := None; cdt_user := user; cdt_rp := Some rp |} HL eq_refl eq_refl eq_refl
    (or_intror (or_introl eq_refl))) as (ad & u & r & (cdj & adb & sig & uh & A1 & A2 & A3 & A4 & A5 & A6 & A7 & A8) & HN).
  cbn [cdt_key cdt_user cdt_rp cdt_sign_count] in *.
  assert (EI : cr_raw_id (aa_credential A) = cid) by (destruct HL as (? & ? & ? & ? & ? & ? & ? & ? & H & _); exact H).
  assert (TB : aa_token_binding A = None).
  { destruct HL as (? & ? & ? & ? & ? & ? & ? & ? & _ & _ & _ & _ & _ & _ & _ & _ & _ & H & _). exact H. }
  assert (RR : rp_id r = app_rp_id).
  { unfold RpSpec in A4. destruct (aa_rp A) as [r'|].
    - destruct A4 as [-> A4]. rewrite <- (A4 rp eq_refl). exact ER.
    - injection A4 as <-. exact ER. }
  assert (CT : counter_of adb = ctr).
  { destruct A6 as (A6 & _). destruct (auth_fields _ _ _ (proj2 (auth_reads_iff W _ _) A6)) as (_ & _ & _ & H & _).
    congruence. }
  rewrite EC, EO, TB in A5. rewrite RR, EV, EX in A6. apply c73_sent in SC.
  apply (c95_login depth l1 x l2 i n (aa_credential A) ctr (cf_cbor _ _ _ CF) (cf_depth _ _ _ CF) AU).
  - exists id, n, c, t, handle, k, cdj, adb, sig, uh, ad. rewrite EI. repeat (split; [assumption|]).
    destruct A3 as (_ & _ & A3 & _). rewrite <- EU. exact A3.
  - exists cdj, adb, sig, uh. auto.
  - rewrite EI. exact LL.
Qed.

End App.
