(** * AppAccept: which responses the example application accepts. *)
From Coq Require Import List NArith ZArith Bool String Lia.
From Verif Require Import Base PyVal B64 Utf8 Url CaseConv Cbor CborFacts Types World Parsers Crypto
  Backends Spec History Jsonify Builders OptionSpec OptionProps BaseFacts AuthFacts BackendFacts
  HistoryFacts AssertFacts KeyFacts App AppSpec AppFacts AppHistory.
Import ListNotations.
Local Open Scope list_scope.

(** ** Keys *)

Lemma attested_key_well_formed W cr k : AttestedKey W cr k -> WellFormedKey k /\ UsableKey k.
Proof.
  intros (cdj & aob & adb & ad & acd & _ & _ & R & HA & HK).
  inversion R as [hash flags ctr tl extb att ext L1 L2 A X E1 E2]. subst ad. cbn in HA. subst att.
  inversion A as [|aaguid cid tl' follow d k' LA LC HL CK UK E3 E4 E5 E6]; subst. cbn in HK. injection HK as ->.
  split; [|assumption].
  assert (B : forall b, CoseBase d b -> kb_alg b <> None /\ kb_key_ops b <> Some []).
  { intros b (_ & _ & (v & a & _ & _ & ->) & HO & _). split; [discriminate|].
    intro Q. rewrite Q in HO. destruct HO as (v' & _ & H & _). now apply H. }
  destruct CK as [b x y [f c] v K1 K2 K3 K4 K5 K6 K7 K8|b x [f c] v K1 K2 K3 K4 K5 K6];
    destruct (B b K1) as [B1 B2]; inversion UK; subst; cbn in *; repeat split; auto.
Qed.

Lemma attested_key_unique W cr k k' : AttestedKey W cr k -> AttestedKey W cr k' -> k = k'.
Proof.
  intros (cdj & aob & adb & ad & acd & A1 & (d & r & B1 & B2 & B3 & B4) & A3 & A4 & A5)
         (cdj' & aob' & adb' & ad' & acd' & A1' & (d' & r' & B1' & B2' & B3' & B4') & A3' & A4' & A5').
  rewrite A1 in A1'. injection A1' as <- <-. rewrite B1 in B1'. injection B1' as <- <-.
  unfold member in *. rewrite B4 in B4'. injection B4' as <-.
  apply auth_reads_iff in A3, A3'. rewrite A3 in A3'. injection A3' as <-.
  rewrite A4 in A4'. injection A4' as <-. congruence.
Qed.

Lemma cose_key_read W depth k b : decodes_cbor W depth -> 2 <= depth -> WellFormedKey k ->
  cose_key (Some k) = Ok b -> parse_cose_key_bytes W b = Ok (surviving_key k).
Proof.
  intros D L WF H. unfold cose_key in H. apply bind_ok in H as (d & H1 & H).
  destruct (cbor_dumps (VDict d)) eqn:H2; [|discriminate]. injection H as ->.
  eapply c32_general; eauto.
Qed.

Lemma signature_surviving W k sig data :
  SignatureSpec W (surviving_key k) sig data <-> SignatureSpec W k sig data.
Proof.
  split; intro H.
  - destruct k as [b x y crv|b crv x|b]; cbn in H.
    + inversion H as [b0 x0 y0 crv0 o f a h sg dt K A AH V|]; subst.
      eapply sig_ec2; eauto. inversion K; subst; constructor; assumption.
    + inversion H as [|b0 x0 crv0 o sg dt K V]; subst.
      eapply sig_okp; eauto. inversion K; subst; constructor; assumption.
    + inversion H.
  - destruct k as [b x y crv|b crv x|b]; cbn.
    + inversion H as [b0 x0 y0 crv0 o f a h sg dt K A AH V|]; subst.
      eapply sig_ec2; eauto. inversion K; subst; constructor; assumption.
    + inversion H as [|b0 x0 crv0 o sg dt K V]; subst.
      eapply sig_okp; eauto. inversion K; subst; constructor; assumption.
    + inversion H.
Qed.

Lemma u64_small n : (n < 2 ^ 64)%N -> u64 n = true.
Proof. intro H. unfold u64. apply N.ltb_lt. exact H. Qed.


(** ** Rows and history *)

Section App.
Variable W : World.
Variable E : appenv.

Lemma happened_split l l1 y r : Happened W E l l1 y r -> exists l2, l = (l1 ++ [y]) ++ l2.
Proof. intros ((l2 & ->) & _). exists l2. now rewrite <- app_assoc. Qed.

Lemma send_options_sent h o : converts E ->
  (exists co b u c, o = obj_of_creation co /\ creation_build b u c = Ok co) \/
  (exists ro b c a, o = obj_of_request ro /\ request_build b c a = Ok ro) ->
  exists v, send_options E h (Ok o) = Options (hr_id h) v.
Proof.
  intros [U D] [(co & b & u & c & -> & B)|(ro & b & c & a & -> & B)]; cbn [send_options].
  - destruct (c48_creation _ _ _ _ _ _ U D B) as (v & -> & _). eauto.
  - destruct (c48_request _ _ _ _ _ _ U D B) as (v & -> & _). eauto.
Qed.

(** Challenge rows are the challenges sent. *)
Lemma issued_row l n c id t : Issued W E l n c id t ->
  exists h, chal_by_id id (after W E l) = Some h /\ hr_request h = c /\ hr_timestamp h = t.
Proof.
  intros (l1 & y & v & H & A & C & T). pose proof H as ((l2 & EL) & HA).
  destruct (options_row W E _ _ _ _ HA) as (h & O1 & O2 & O3 & O4).
  exists h. split; [|split; congruence].
  destruct (happened_split _ _ _ _ H) as (l3 & E3). destruct (after_chals W E (l1 ++ [y]) l3) as (hs & E4).
  rewrite <- O2. apply chal_by_id_find; [apply after_consistent|].
  rewrite E3, E4. apply in_or_app. now left.
Qed.
Lemma row_issued l h : converts E -> In h (db_chals (after W E l)) ->
  exists n, Issued W E l n (hr_request h) (hr_id h) (hr_timestamp h) /\
    exists u, In u (db_users (after W E l)) /\ ur_username u = n /\ ur_id u = hr_user h.
Proof.
  intros CV H. apply chal_origin in H as (l1 & y & n & u & o & H1 & H2 & H3 & H4 & H5 & H6 & H7 & _ & HO).
  destruct (send_options_sent h o CV) as (v & EV).
  { destruct HO as [(_ & co & B & ->)|(_ & ro & B & ->)]; [left|right]; eauto 10. }
  rewrite EV in H1. exists n. split; [|eauto]. exists l1, y, v. auto.
Qed.
Lemma issued_unique l n c id t n' c' t' : Issued W E l n c id t -> Issued W E l n' c' id t' ->
  c = c' /\ t = t'.
Proof.
  intros H H'. apply issued_row in H as (h & H1 & <- & <-). apply issued_row in H' as (h' & H1' & <- & <-).
  rewrite H1 in H1'. now injection H1' as <-.
Qed.

(** Credential rows are the keys registered. *)
Lemma row_registered l c u : In c (db_creds (after W E l)) -> In u (db_users (after W E l)) ->
  kr_user c = ur_id u ->
  exists k, RegisteredKey W E l (ur_username u) (kr_id c) k /\ cose_key (Some k) = Ok (kr_key c).
Proof.
  intros H HU HE.
  apply cred_origin in H as (l1 & y & i & n & cr & k & v & H1 & H2 & H3 & H4 & H5 & H6 & H7 & H8).
  assert (u = v) by (eapply (NoDup_map_eq ur_id); [apply after_consistent|..]; [exact HU|exact H6|congruence]).
  subst v n. exists k. split; [|assumption]. exists l1, y, i, cr. auto.
Qed.
Lemma registers_fun q i n cr i' n' cr' : Registers W q i n cr -> Registers W q i' n' cr' ->
  i = i' /\ n = n' /\ cr = cr'.
Proof.
  intros (t & -> & m & J & P) (t' & HQ & m' & J' & P'). injection HQ as <- <- <-.
  rewrite J in J'. injection J' as <-. rewrite P in P'. injection P' as <-. auto.
Qed.
Lemma authenticates_fun q i n cr i' n' cr' : Authenticates W q i n cr -> Authenticates W q i' n' cr' ->
  i = i' /\ n = n' /\ cr = cr'.
Proof.
  intros (t & -> & m & J & P) (t' & HQ & m' & J' & P'). injection HQ as <- <- <-.
  rewrite J in J'. injection J' as <-. rewrite P in P'. injection P' as <-. auto.
Qed.

Lemma app_cons_cases {A} (a b c d : list A) x y : a ++ x :: b = c ++ y :: d ->
  a = c /\ x = y /\ b = d \/ (exists e, c = a ++ x :: e) \/ (exists e, a = c ++ y :: e).
Proof.
  revert c. induction a as [|z a IH]; intros [|w c] H; cbn in H.
  - injection H as -> ->. auto.
  - injection H as -> ->. right. left. exists c. reflexivity.
  - injection H as <- <-. right. right. exists a. reflexivity.
  - injection H as <- H. apply IH in H as [(-> & -> & ->)|[(e & ->)|(e & ->)]]; [auto|right; left|right; right];
      exists e; reflexivity.
Qed.

(** An id is registered once, for one user, with one key. *)
Lemma registered_unique l n id k n' k' : RegisteredKey W E l n id k -> RegisteredKey W E l n' id k' ->
  n = n' /\ k = k'.
Proof.
  intros (l1 & y & i & cr & ((l2 & E2) & A) & R & I & K) (l1' & y' & i' & cr' & ((l2' & E2') & A') & R' & I' & K').
  rewrite E2 in E2'. apply app_cons_cases in E2' as [(-> & -> & ->)|[(e & ->)|(e & ->)]].
  - destruct (registers_fun _ _ _ _ _ _ _ R R') as (_ & <- & <-). split; [reflexivity|].
    eapply attested_key_unique; eauto.
  - exfalso. eapply (registration_once W E l1 y e y'); eauto. congruence.
  - exfalso. eapply (registration_once W E l1' y' e y); eauto. congruence.
Qed.

Lemma registered_key_row l n id k : RegisteredKey W E l n id k ->
  exists c u, cred_by_id id (after W E l) = Some c /\ user_by_name n (after W E l) = Some u /\
    kr_user c = ur_id u /\ cose_key (Some k) = Ok (kr_key c).
Proof.
  intros R. pose proof R as (l1 & y & i & cr & ((l2 & ->) & A) & Rg & I & K).
  destruct (registered_row W E l1 l2 y i n cr Rg A) as [H _]. apply in_map_iff in H as (c & H1 & H2).
  pose proof (after_consistent W E (l1 ++ y :: l2)) as C.
  pose proof H2 as H3. apply (con_cred_user _ C) in H3. apply in_map_iff in H3 as (u & H3 & H4).
  destruct (row_registered _ c u H2 H4 (eq_sym H3)) as (k' & R' & K').
  rewrite H1, I in R'. destruct (registered_unique _ _ _ _ _ _ R R') as [-> <-].
  exists c, u. rewrite <- I, <- H1. split; [now apply cred_by_id_find|].
  split; [now apply user_by_name_find|]. auto.
Qed.

Lemma user_handle_row l n hd : UserHandle W E l n hd <->
  exists u, user_by_name n (after W E l) = Some u /\ ur_handle u = hd.
Proof.
  split.
  - intros (u & U1 & <- & U3). exists u. split; [|assumption].
    apply user_by_name_find; [apply after_consistent|assumption].
  - intros (u & U1 & U2). apply user_by_name_in in U1 as [U1 U3]. exists u. auto.
Qed.

(** ** Acceptance *)

Lemma login_answer l x i n cr : Authenticates W (snd x) i n cr ->
  (answer W E l x = Success <->
   exists h u, find_ceremony E (ch_clock (fst x)) i n (after W E l) = inr (h, u) /\
     exists cdt ad u' rp, app_get W (after W E l) (cr_raw_id cr) = Ok (Some cdt) /\
       AssertionSpec W (app_assertion cr n u h) cdt ad u' rp).
Proof.
  intros (t & HQ & P). unfold answer, serve. rewrite HQ. unfold authentication_response.
  assert (PF : parse_form W (Some i) (Some t) (Some n) = Some (i, cr, n)).
  { apply parse_form_ok. exists t. auto. }
  rewrite PF. destruct (cr_response cr) as [cdj aob|cdj adb sig uh] eqn:RE.
  - split; [discriminate|]. intros (h & u & _ & cdt & ad & u' & rp & _ & cdj' & adb & sig & uh & S & _).
    cbn in S. congruence.
  - destruct (find_ceremony E (ch_clock (fst x)) i n (after W E l)) as [r|[h u]] eqn:F; cbn [fst].
    + split.
      * intro. subst r. apply find_ceremony_refuses in F as [F _]. congruence.
      * intros (h & u & Q & _). discriminate.
    + split.
      * intro H. apply conclude_success in H; [|discriminate]. apply assertion_exact in H.
        destruct H as (s1 & cdt & ad & u' & rp & s2 & G & S & _). cbn in G. injection G as <- G.
        exists h, u. split; [reflexivity|]. exists cdt, ad, u', rp. auto.
      * intros (h' & u1 & [= <- <-] & cdt & ad & u' & rp & G & S).
        assert (O : out_result (run (app_registrar W) (after W E l)
                     (handle_credential_assertion W (app_assertion cr n u h))) = Ok tt).
        { apply assertion_exact. exists (after W E l), cdt, ad, u', rp, (set_count (cr_raw_id cr) (Z.of_N (ad_sign_count ad)) (after W E l)).
          split; [cbn; now rewrite G|]. split; [assumption|]. cbn. unfold app_assert.
          apply app_get_ok in G as (c & v & k & -> & _). reflexivity. }
        rewrite O. reflexivity.
Qed.

Lemma registration_answer l x i n cr : Registers W (snd x) i n cr ->
  (answer W E l x = Success <->
   exists h u, find_ceremony E (ch_clock (fst x)) i n (after W E l) = inr (h, u) /\
     exists att d', RegistrationSpec W (app_attestation cr n u h) att /\
       app_attest (after W E l) cr att (app_user n (ur_handle u)) = (d', Ok None)).
Proof.
  intros (t & HQ & P). unfold answer, serve. rewrite HQ. unfold registration_response.
  assert (PF : parse_form W (Some i) (Some t) (Some n) = Some (i, cr, n)).
  { apply parse_form_ok. exists t. auto. }
  rewrite PF. destruct (cr_response cr) as [cdj aob|cdj adb sig uh] eqn:RE.
  - destruct (find_ceremony E (ch_clock (fst x)) i n (after W E l)) as [r|[h u]] eqn:F; cbn [fst].
    + split.
      * intro. subst r. apply find_ceremony_refuses in F as [F _]. congruence.
      * intros (h & u & Q & _). discriminate.
    + split.
      * intro H. apply conclude_success in H; [|discriminate]. apply attestation_exact in H.
        destruct H as (att & s1 & S & U). cbn [r_attest app_registrar] in U.
        exists h, u. split; [reflexivity|]. exists att, s1. auto.
      * intros (h' & u1 & [= <- <-] & att & d' & S & A).
        assert (O : out_result (run (app_registrar W) (after W E l)
                     (handle_credential_attestation W (app_attestation cr n u h))) = Ok tt).
        { apply attestation_exact. exists att, d'. split; [assumption|exact A]. }
        rewrite O. reflexivity.
  - split; [discriminate|]. intros (h & u & _ & att & d' & (cdj' & aob & adb' & ad & S & _) & _).
    cbn in S. congruence.
Qed.

Lemma login_exact depth l x i n cr :
  converts E -> decodes_cbor W depth -> 2 <= depth ->
  Authenticates W (snd x) i n cr ->
  (answer W E l x = Success <-> LoginSpec W E l (ch_clock (fst x)) i n cr).
Proof.
  intros CV DC LD AU. rewrite (login_answer l x i n cr AU). split.
  - intros (h & u & F & cdt & ad & u' & rp & G & S).
    assert (A : answer W E l x = Success) by (apply (login_answer l x i n cr AU); eauto 10).
    destruct (login_row W E l x i n cr AU A) as (h1 & u1 & c & k & ad1 & rp1 & u1' & F1 & C1 & C2 & C3 & K & S1 & _).
    rewrite F in F1. injection F1 as <- <-.
    apply find_ceremony_ok in F as ((id & F1 & F2) & F3 & F4).
    apply chal_by_id_in in F2 as [F2 F2'].
    destruct (row_issued l h CV F2) as (n0 & IS & _). rewrite F2' in IS.
    apply user_by_name_in in F3 as [F3 F3'].
    destruct (row_registered l c u C1 F3 C3) as (k0 & RK & KB).
    destruct S1 as (cdj & adb & sig & uh & S1 & _ & S3 & S4 & S5 & S6 & S7 & S8).
    cbn [app_assertion aa_credential aa_user aa_rp aa_challenge aa_origin aa_token_binding aa_require_uv
         aa_extensions aa_ignore_clone cdt_key cdt_user cdt_rp cdt_sign_count] in *.
    pose proof RK as (_ & _ & _ & cr0 & _ & _ & _ & AK). apply attested_key_well_formed in AK as [WF _].
    rewrite (cose_key_read W depth k0 _ DC LD WF KB) in K. injection K as <-.
    apply (signature_surviving W k0) in S7.
    exists id, n0, (hr_request h), (hr_timestamp h), (ur_handle u), k0, cdj, adb, sig, uh, ad1.
    split; [assumption|]. split; [assumption|]. split; [assumption|].
    split; [exists u; auto|]. split; [rewrite <- F3', <- C2; exact RK|].
    split; [assumption|]. split; [exact S5|].
    destruct S4 as [-> _]. split; [exact S6|]. split; [assumption|]. split; [apply S3|].
    intros m HM. destruct (counter_stored W E l) as [CS _]. specialize (CS c C1). rewrite C2, HM in CS. cbn in CS.
    destruct S8 as [S8|[S8|(z & S8 & L)]]; [discriminate|congruence|]. rewrite CS in S8. injection S8 as <-. lia.
  - intros (id & n0 & c & t & hd & k & cdj & adb & sig & uh & ad & I1 & I2 & I3 & I4 & I5 & I6 & I7 & I8 & I9 & I10 & I11).
    apply issued_row in I2 as (h & H1 & H2 & H3).
    apply user_handle_row in I4 as (u & U1 & U2).
    pose proof I5 as (_ & _ & _ & cr0 & _ & _ & _ & AK). apply attested_key_well_formed in AK as [WF _].
    apply registered_key_row in I5 as (c0 & u0 & R1 & R2 & R3 & R4).
    rewrite U1 in R2. injection R2 as <-.
    exists h, u. split; [apply find_ceremony_ok; split; [eauto|]; split; [assumption|]; lia|].
    pose proof U1 as U1'. apply user_by_name_in in U1' as [U3 U4].
    exists {| cdt_key := surviving_key k; cdt_sign_count := kr_count c0;
              cdt_user := app_user n (ur_handle u); cdt_rp := None |},
           ad, (app_user n (ur_handle u)), APP_RELYING_PARTY.
    split.
    + apply app_get_ok. exists c0, u, (surviving_key k). split; [assumption|].
      split; [rewrite R3; apply user_by_id_find; [apply after_consistent|assumption]|].
      split; [eapply cose_key_read; eauto|]. now rewrite U4.
    + exists cdj, adb, sig, uh. split; [exact I6|]. cbn.
      split; [intros l0 Q; discriminate|].
      split; [split; [reflexivity|]; split; [reflexivity|]; split; [|discriminate]; cbn; rewrite U2; exact I10|].
      split; [split; [reflexivity|discriminate]|].
      split; [rewrite H2; exact I7|]. split; [exact I8|]. split; [now apply signature_surviving|].
      right. destruct (counter_stored W E l) as [CS _]. apply cred_by_id_in in R1 as [R1 R1'].
      specialize (CS c0 R1). rewrite R1' in CS. rewrite CS.
      destruct (last_counter W E (cr_raw_id cr) empty_db l) as [m|]; [right|now left].
      exists (Z.of_N m). split; [reflexivity|]. specialize (I11 m eq_refl). fold (counter_of adb). apply N2Z.inj_lt. exact I11.
Qed.

Lemma registration_exact l x i n cr :
  converts E -> Registers W (snd x) i n cr ->
  (answer W E l x = Success <-> RegisterSpec W E l (ch_clock (fst x)) i n cr).
Proof.
  intros CV RG. pose proof (after_consistent W E l) as C. split.
  - intro A. pose proof A as A0. apply (registration_answer l x i n cr RG) in A as (h & u & F & att & d' & S & AT).
    apply find_ceremony_ok in F as ((id & F1 & F2) & F3 & F4).
    apply chal_by_id_in in F2 as [F2 F2'].
    destruct (row_issued l h CV F2) as (n0 & IS & _). rewrite F2' in IS.
    apply app_attest_ok in AT as (ad & acd & row & kb & A1 & A2 & A3 & A4 & I).
    destruct (registration_key W _ _ _ _ _ _ _ S A1 A2) as (k & K & AK). rewrite K in A4.
    apply insert_cred_ok in I as [I _]. cbn in I.
    destruct S as (cdj & aob & adb & ad' & S1 & S2 & S3 & S4 & S5 & ->). cbn in A1. injection A1 as ->.
    exists id, n0, (hr_request h), (hr_timestamp h), (ur_handle u), cdj, aob, adb, ad, acd, k, kb.
    split; [assumption|]. split; [assumption|]. split; [assumption|].
    split; [apply user_handle_row; eauto|]. split; [exact S1|]. split; [exact S2|]. split; [exact S3|].
    split; [exact S4|]. split; [exact A2|]. split; [exact K|]. split; [exact A4|].
    intros n' k' RK. apply registered_key_row in RK as (c & _ & R1 & _).
    apply cred_by_id_in in R1 as [R1 R2]. apply I. rewrite <- R2. now apply in_map.
  - intros (id & n0 & c & t & hd & cdj & aob & adb & ad & acd & k & b & I1 & I2 & I3 & I4 & I5 & I6 & I7 & I8 & I9 & I10 & I11 & I12).
    apply (registration_answer l x i n cr RG).
    apply issued_row in I2 as (h & H1 & H2 & H3).
    apply user_handle_row in I4 as (u & U1 & U2). pose proof U1 as U1'. apply user_by_name_in in U1' as [U3 U4].
    exists h, u. split; [apply find_ceremony_ok; split; [eauto|]; split; [assumption|]; lia|].
    exists {| ao_auth_data := Some ad; ao_fmt := F_NONE; ao_stmt := S_None |}.
    eexists. split.
    + exists cdj, aob, adb, ad. split; [exact I5|]. cbn. split; [rewrite H2; exact I6|]. split; [exact I7|].
      split; [exact I8|]. split; [|reflexivity].
      destruct I8 as [I8 _]. apply auth_reads_iff in I8.
      destruct (auth_fields _ _ _ I8) as (_ & _ & _ & _ & FB & _). rewrite <- FB, I9. reflexivity.
    + apply app_attest_ok. exists ad, acd, u, b. split; [reflexivity|]. split; [exact I9|].
      split; [cbn; now apply user_by_handle_find|]. split; [now rewrite I10|].
      apply insert_cred_ok. cbn. split; [|reflexivity].
      intro Q. apply in_map_iff in Q as (c0 & Q1 & Q2).
      pose proof Q2 as Q3. apply (con_cred_user _ C) in Q3. apply in_map_iff in Q3 as (u0 & Q3 & Q4).
      destruct (row_registered l c0 u0 Q2 Q4 (eq_sym Q3)) as (k' & RK & _). rewrite Q1 in RK.
      now apply I12 in RK.
Qed.

End App.
