(** * AppHonest: honest users of the example application are served. *)
From Coq Require Import List NArith ZArith Bool String Lia ZifyBool ZifyN.
From Coq Require Import Strings.Byte.
From Verif Require Import Base PyVal B64 Utf8 Url CaseConv Json JsonSpec Cbor CborFacts Types World
  Parsers Crypto Backends Spec History Jsonify Builders OptionSpec OptionProps BaseFacts AuthFacts
  BackendFacts HistoryFacts AssertFacts KeyFacts App AppSpec AppFacts AppHistory AppAccept
  Examples AppExamples AppTheorems HonestSpec HonestFacts.
Import ListNotations.
Local Open Scope list_scope.

Section AppHonest.
Variable W : World.
Variable E : appenv.

Lemma issued_user l n c id t : Issued W E l n c id t -> exists hd, UserHandle W E l n hd.
Proof.
  intros (l1 & y & v & ((l2 & ->) & A) & Q & _).
  destruct (options_issue W E _ _ _ _ _ A Q) as (u & _ & _ & HU & HN & _).
  destruct (after_users W E (l1 ++ [y]) l2) as (us & EU). rewrite <- app_assoc in EU. cbn [app] in EU.
  exists (ur_handle u), u. rewrite EU. split; [apply in_or_app; now left|auto].
Qed.

Lemma last_counter_sent id l : forall m, last_counter W E id empty_db l = Some m ->
  exists l1 y, (exists l2, l = l1 ++ y :: l2) /\ answer W E l1 y = Success /\ sent_counter W id (snd y) = Some m.
Proof.
  induction l as [|x l IH] using rev_ind; intros m H; [discriminate|].
  rewrite last_counter_snoc in H.
  destruct (is_success _) eqn:S1.
  - destruct (sent_counter W id (snd x)) as [n|] eqn:S2.
    + injection H as ->. exists l, x. split; [exists []; reflexivity|]. split; [|exact S2].
      apply is_success_spec in S1. exact S1.
    + destruct (IH m H) as (l1 & y & (l2 & ->) & H1 & H2). exists l1, y. split; [|auto].
      exists (l2 ++ [x]). now rewrite <- app_assoc.
  - destruct (IH m H) as (l1 & y & (l2 & ->) & H1 & H2). exists l1, y. split; [|auto].
    exists (l2 ++ [x]). now rewrite <- app_assoc.
Qed.

(** An accepted login that counts for [id]. *)
Lemma sent_login l y id m : answer W E l y = Success -> sent_counter W id (snd y) = Some m ->
  exists i n cr cdj adb sig uh, Authenticates W (snd y) i n cr /\ cr_raw_id cr = id /\
    cr_response cr = AssertionResponse cdj adb sig uh /\ m = counter_of adb.
Proof.
  intros HA HS. pose proof (after_move W E l y) as M. rewrite HA in M.
  remember (after W E (l ++ [y])) as d' eqn:Hd'. remember Success as r eqn:Hr.
  destruct M as [r H1 H2|n' u d' e Q U I|n' u d1 h d2 o A U I O|i' n' cr' h u att d' Rg F S A|
                 i' n' cr' h u cdt ad u' rp Au F G S].
  - congruence.
  - rewrite Q in HS. discriminate.
  - destruct A as [A|A]; rewrite A in HS; discriminate.
  - destruct Rg as (t & Q & _). rewrite Q in HS. discriminate.
  - pose proof Au as (t & Q & mm & J & P). rewrite Q in HS. cbn [sent_counter] in HS. rewrite J, P in HS.
    destruct (bytes_eqb (cr_raw_id cr') id) eqn:B; [|discriminate]. apply bytes_eqb_spec in B.
    destruct (cr_response cr') as [|cdj adb sig uh] eqn:ER; [discriminate|]. injection HS as <-.
    exists i', n', cr', cdj, adb, sig, uh. auto.
Qed.

Variable depth : nat.
Variable JE : jsonenv.
Hypothesis CV : converts E.
Hypothesis CF : Conforming W depth JE.

Lemma c72_registration l x i n cr id c t cid k ctr :
  Registers W (snd x) i n cr -> ap_int E i = Some id -> Issued W E l n c id t ->
  (ch_clock (fst x) - t <= 60000)%Z -> AppRegistration W depth cr c cid k ctr ->
  (forall n' k', ~ RegisteredKey W E l n' cid k') ->
  answer W E l x = Success /\ RegisteredKey W E (l ++ [x]) n cid k.
Proof.
  intros RG HI IS HT (A & <- & EC & EO & ER & EU & EX & HR) NR.
  destruct (honest_registration W depth JE CF A cid k ctr HR) as (att & ad & acd & RS & H1 & H2 & H3 & _).
  assert (EI : cr_raw_id (ra_credential A) = cid) by (destruct HR as (? & ? & ? & ? & ? & ? & ? & ? & ? & ? & H & _); exact H).
  assert (NK : exists d keyb, NewKey k d /\ cbor_dumps (VDict d) = Some keyb).
  { destruct HR as (? & ? & ? & ? & ? & ? & d & keyb & ? & ? & _ & _ & _ & _ & _ & _ & _ & _ & _ & HK & HB & _). eauto. }
  assert (TB : ra_token_binding A = None).
  { destruct HR as (? & ? & ? & ? & ? & ? & ? & ? & ? & ? & _ & _ & _ & _ & H & _). exact H. }
  destruct NK as (d & keyb & NK & HB). destruct (new_key k d NK) as (_ & _ & CD & _).
  destruct RS as (cdj & aob & adb & ad' & R1 & R2 & R3 & R4 & R5 & ->). cbn [ao_auth_data] in H1. injection H1 as ->.
  destruct (issued_user _ _ _ _ _ IS) as (hd & UH).
  assert (AN : answer W E l x = Success).
  { apply (c61_registration W E l x i n (ra_credential A) CV RG).
    exists id, n, c, t, hd, cdj, aob, adb, ad, acd, k, keyb.
    rewrite EC, EO, TB in R2. rewrite ER, EU, EX in R4.
    split; [exact HI|]. split; [exact IS|]. split; [exact HT|]. split; [exact UH|]. split; [exact R1|].
    split; [exact R2|]. split; [exact R3|]. split; [exact R4|]. split; [exact H2|]. split; [exact H3|].
    split; [|rewrite EI; exact NR]. cbn [cose_key]. unfold cose_key. rewrite CD. cbn [bind]. rewrite HB. reflexivity. }
  split; [exact AN|]. exists l, x, i, (ra_credential A). split; [|split; [exact RG|split; [exact EI|]]].
  - split; [exists []; reflexivity|exact AN].
  - exists cdj, aob, adb, ad, acd. destruct R4 as (R4 & _). auto.
Qed.

Lemma c72_login l x i n cr id c t cid k handle ctr :
  Authenticates W (snd x) i n cr -> ap_int E i = Some id -> Issued W E l n c id t ->
  (ch_clock (fst x) - t <= 60000)%Z -> RegisteredKey W E l n cid k -> UserHandle W E l n handle ->
  AppLogin W depth cr c cid k handle ctr -> SentBelow W cid k ctr l ->
  answer W E l x = Success.
Proof.
  intros AU HI IS HT RK UH (A & user & rp & <- & EC & EO & ER & EU & EV & EX & HL) SB.
  destruct (honest_login W depth JE CF A cid k user rp ctr
    {| cdt_key := k; cdt_sign_count := None; cdt_user := user; cdt_rp := Some rp |} HL eq_refl eq_refl eq_refl
    (or_intror (or_introl eq_refl))) as (ad & u & r & (cdj & adb & sig & uh & A1 & A2 & A3 & A4 & A5 & A6 & A7 & A8) & HN).
  cbn [cdt_key cdt_user cdt_rp cdt_sign_count] in *.
  assert (EI : cr_raw_id (aa_credential A) = cid) by (destruct HL as (? & ? & ? & ? & ? & ? & ? & ? & H & _); exact H).
  assert (TB : aa_token_binding A = None).
  { destruct HL as (? & ? & ? & ? & ? & ? & ? & ? & _ & _ & _ & _ & _ & _ & _ & _ & _ & H & _). exact H. }
  assert (RR : rp_id r = app_rp_id).
  { unfold RpSpec in A4. destruct (aa_rp A) as [r'|].
    - destruct A4 as [-> A4]. rewrite <- (A4 rp eq_refl). exact ER.
    - injection A4 as <-. exact ER. }
  assert (CT : counter_of adb = ctr).
  { destruct A6 as (A6 & _). destruct (auth_fields _ _ _ (proj2 (auth_reads_iff W _ _) A6)) as (_ & _ & _ & H & _).
    congruence. }
  apply (c61_login W E depth l x i n (aa_credential A) CV (cf_cbor _ _ _ CF) (cf_depth _ _ _ CF) AU).
  exists id, n, c, t, handle, k, cdj, adb, sig, uh, ad.
  rewrite EC, EO, TB in A5. rewrite RR, EV, EX in A6. rewrite EI.
  split; [exact HI|]. split; [exact IS|]. split; [exact HT|]. split; [exact UH|]. split; [exact RK|].
  split; [exact A1|]. split; [exact A5|]. split; [exact A6|]. split; [exact A7|].
  split; [destruct A3 as (_ & _ & A3 & _); rewrite <- EU; exact A3|].
  intros m HM. rewrite CT. apply last_counter_sent in HM as (l1 & y & (l2 & EL) & Y1 & Y2).
  destruct (sent_login l1 y cid m Y1 Y2) as (i' & n' & cr' & cdj' & adb' & sig' & uh' & AU' & EI' & ER' & ->).
  destruct (c59 W E depth l1 y i' n' cr' CV (cf_cbor _ _ _ CF) (cf_depth _ _ _ CF) AU' Y1)
    as (k' & cdj1 & adb1 & sig1 & uh1 & RK' & _ & ER1 & SG).
  rewrite ER' in ER1. injection ER1 as <- <- <- <-.
  rewrite EI', EL in *. destruct (c59_unique W E l1 (y :: l2) n' n cid k' k RK' RK) as [_ <-].
  apply (SB y i' n' cr' cdj' adb' sig' uh'); auto. apply in_or_app. right. now left.
Qed.

Lemma c72_session l x i n cr id c t cid k ctr l2 y i' cr' id' c' t' handle ctr' :
  Registers W (snd x) i n cr -> ap_int E i = Some id -> Issued W E l n c id t ->
  (ch_clock (fst x) - t <= 60000)%Z -> AppRegistration W depth cr c cid k ctr ->
  (forall n' k', ~ RegisteredKey W E l n' cid k') ->
  Authenticates W (snd y) i' n cr' -> ap_int E i' = Some id' -> Issued W E (l ++ x :: l2) n c' id' t' ->
  (ch_clock (fst y) - t' <= 60000)%Z -> UserHandle W E (l ++ x :: l2) n handle ->
  AppLogin W depth cr' c' cid k handle ctr' -> SentBelow W cid k ctr' (l ++ x :: l2) ->
  answer W E l x = Success /\ answer W E (l ++ x :: l2) y = Success.
Proof.
  intros RG HI IS HT HR NR AU HI' IS' HT' UH HL SB.
  destruct (c72_registration _ _ _ _ _ _ _ _ _ _ _ RG HI IS HT HR NR) as [H1 RK]. split; [exact H1|].
  eapply c72_login; eauto. destruct RK as (l1 & z & j & cr0 & ((l3 & EL) & HA) & RK).
  exists l1, z, j, cr0. split; [|exact RK]. split; [|exact HA]. exists (l3 ++ l2).
  change (l ++ x :: l2) with (l ++ [x] ++ l2). now rewrite app_assoc, EL, <- app_assoc.
Qed.
End AppHonest.

(** ** The registration and the first login of the session *)
Lemma ex_local_allowed : OriginAllowed app_origin (lit "http://localhost:5000").
Proof. split; [now left|]. intros s [<-|[]]. exact ex_local_origin. Qed.

Definition ex_registration : credential :=
  {| cr_id := lit "x"; cr_type := lit "public-key"; cr_raw_id := blit "cred-1";
     cr_response := AttestationResponse (app_cdj "webauthn.create" (blit "challenge-1"))
       (ex_att_obj "none" [] (app_ad x45 0 (app_attested (blit "cred-1")))) |}.
Lemma ex_registration_sent :
  Registers ex_world (snd (do_reg "1" "alice" "challenge-1" "cred-1" 2000)) (lit "1") (lit "alice") ex_registration.
Proof. eexists. split; [reflexivity|]. eexists. split; [vm_compute; reflexivity|]. vm_compute. reflexivity. Qed.
Lemma ex_registration_honest :
  AppRegistration ex_world 900 ex_registration (blit "challenge-1") (blit "cred-1") ex_key 0.
Proof.
  exists {| ra_credential := ex_registration;
    ra_user := ex_user; ra_rp := {| rp_name := lit "localhost"; rp_icon := None; rp_id := lit "localhost" |};
    ra_challenge := blit "challenge-1"; ra_origin := app_origin; ra_token_binding := None;
    ra_require_uv := false; ra_extensions := None |}.
  split; [vm_compute; reflexivity|]. do 5 (split; [reflexivity|]).
  exists (app_cdj "webauthn.create" (blit "challenge-1")),
    (ex_att_obj "none" [] (app_ad x45 0 (app_attested (blit "cred-1")))),
    (app_ad x45 0 (app_attested (blit "cred-1"))), (app_ad x45 0 []), x45, ex_aaguid, ex_key_map,
    (dumps (VDict ex_key_map)), [], (lit "http://localhost:5000").
  split; [reflexivity|]. split; [reflexivity|]. split; [vm_compute; reflexivity|].
  split; [exact ex_local_allowed|]. split; [reflexivity|].
  split; [|split; [reflexivity|split; [reflexivity|split; [reflexivity|split]]]].
  - split; [reflexivity|]. split; [discriminate|]. split; [reflexivity|]. exists (blit "localhost").
    split; vm_compute; reflexivity.
  - apply (nk_ec2 P_256 ES256 ex_x ex_y); cbn; auto.
  - split; [vm_compute; reflexivity|]. split; [exists None; split; [constructor|intros; discriminate]|].
    split; vm_compute; reflexivity.
Qed.
Lemma ex_app_registration : exists cr,
  Registers ex_world (snd (do_reg "1" "alice" "challenge-1" "cred-1" 2000)) (lit "1") (lit "alice") cr /\
  AppRegistration ex_world 900 cr (blit "challenge-1") (blit "cred-1") ex_key 0.
Proof. exists ex_registration. split; [exact ex_registration_sent|exact ex_registration_honest]. Qed.
Definition ex_login : credential :=
  {| cr_id := lit "x"; cr_type := lit "public-key"; cr_raw_id := blit "cred-1";
     cr_response := AssertionResponse (app_cdj "webauthn.get" (blit "challenge-4")) (app_ad x05 7 [])
       (sign_with 123456789 (app_ad x05 7 []) (app_cdj "webauthn.get" (blit "challenge-4"))) None |}.
Lemma ex_login_sent :
  Authenticates ex_world (snd (do_auth "4" "alice" "challenge-4" "cred-1" 7 7000)) (lit "4") (lit "alice") ex_login.
Proof. eexists. split; [reflexivity|]. eexists. split; [vm_compute; reflexivity|]. vm_compute. reflexivity. Qed.
Lemma ex_login_honest :
  AppLogin ex_world 900 ex_login (blit "challenge-4") (blit "cred-1") ex_key (blit "handle-a") 7.
Proof.
  exists {| aa_credential := ex_login;
    aa_challenge := blit "challenge-4"; aa_origin := app_origin; aa_rp := None;
    aa_user := Some (app_user (lit "alice") (blit "handle-a")); aa_allow := None; aa_token_binding := None;
    aa_require_uv := false; aa_extensions := None; aa_ignore_clone := false |},
    (app_user (lit "alice") (blit "handle-a")),
    {| rp_name := lit "localhost"; rp_icon := None; rp_id := lit "localhost" |}.
  split; [vm_compute; reflexivity|]. do 6 (split; [reflexivity|]).
  exists (app_cdj "webauthn.get" (blit "challenge-4")), (app_ad x05 7 []), (app_ad x05 7 []), x05, [],
    (sign_with 123456789 (app_ad x05 7 []) (app_cdj "webauthn.get" (blit "challenge-4"))), None,
    (lit "http://localhost:5000").
  split; [reflexivity|]. split; [reflexivity|]. split; [discriminate|].
  split; [intros u H; injection H as <-; reflexivity|]. split; [discriminate|]. split; [discriminate|].
  split; [discriminate|]. split; [vm_compute; reflexivity|]. split; [exact ex_local_allowed|]. split; [reflexivity|].
  split; [|split; [reflexivity|split; [|split]]].
  - split; [reflexivity|]. split; [discriminate|]. split; [reflexivity|]. exists (blit "localhost").
    split; vm_compute; reflexivity.
  - exists None. split; [constructor|]. intros; discriminate.
  - vm_compute. reflexivity.
  - apply CryptoFacts.verify_iff. vm_compute. reflexivity.
Qed.
Lemma ex_app_login : exists cr,
  Authenticates ex_world (snd (do_auth "4" "alice" "challenge-4" "cred-1" 7 7000)) (lit "4") (lit "alice") cr /\
  AppLogin ex_world 900 cr (blit "challenge-4") (blit "cred-1") ex_key (blit "handle-a") 7.
Proof. exists ex_login. split; [exact ex_login_sent|exact ex_login_honest]. Qed.
