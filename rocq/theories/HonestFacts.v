(** * HonestFacts: honest ceremonies succeed. *)
From Coq Require Import List NArith ZArith Bool String Lia ZifyBool ZifyN.
From Coq Require Import Strings.Byte.
From Verif Require Import Base PyVal B64 Utf8 Url Json JsonSpec Cbor CborFacts CodecSpec Types World
  Parsers Crypto Backends Spec BaseFacts History ClientFacts AuthFacts BackendFacts HistoryFacts CodecFacts UrlFacts
  B64Round Utf8Sound KeyFacts AssertFacts AttestFacts ClientJson FormatFacts CryptoFacts Examples HonestSpec.
Import ListNotations.
Local Open Scope list_scope.

Section Honest.
Variable W : World.
Variable depth : nat.
Variable E : jsonenv.
Hypothesis CF : Conforming W depth E.

Lemma web_origin_parses o : WebOrigin o -> exists r, parse_origin (w_url W) o = Ok r.
Proof.
  intros (name & h & p & HN & HH & HP & ->). destruct p as [t|].
  - destruct (HP t eq_refl) as (n & H1 & H2).
    eexists. apply (c40 (w_url W) name h (Some t) n HN HH). auto.
  - eexists. apply (c40 (w_url W) name h None (default_port name) HN HH). reflexivity.
Qed.
Lemma allowed_origin e o : OriginAllowed e o -> OriginSpec W e o.
Proof.
  intros [HI HA]. split; [intros s Hs; apply web_origin_parses; auto|].
  destruct (web_origin_parses o (HA o HI)) as (r & Hr). exists o, r. auto.
Qed.
Lemma web_origin_scalar o : WebOrigin o -> Forall scalar o.
Proof.
  intros (name & h & p & HN & [_ HH] & HP & ->). unfold origin_text.
  repeat (apply Forall_app; split); try apply lit_scalar.
  assert (FH : Forall scalar h) by (eapply Forall_impl; [|exact HH]; intros c [H _]; left; lia).
  destruct p as [t|]; cbn [authority]; [|exact FH].
  repeat (apply Forall_app; split); [exact FH|apply lit_scalar|].
  destruct (HP t eq_refl) as (n & HD & _). apply decimal_spec in HD as (_ & HD & _).
  rewrite forallb_forall in HD. apply Forall_forall. intros c Hc. specialize (HD c Hc).
  unfold is_digit in HD. left. lia.
Qed.

Lemma symbols_scalar a vs : Forall scalar a -> Forall scalar (symbols a vs).
Proof.
  intro H. unfold symbols. apply Forall_forall. intros c Hc. apply in_map_iff in Hc as (v & <- & _).
  destruct (nth_in_or_default (N.to_nat v) a 0%N) as [I| ->]; [|left; lia].
  rewrite Forall_forall in H. now apply H.
Qed.
Lemma client_writes ceremony ch o e cdj :
  ClientWrites ceremony ch o cdj -> OriginAllowed e o -> ClientDataSpec W ceremony ch e None cdj.
Proof.
  intros HU HO. unfold ClientWrites in HU.
  assert (SO : Forall scalar o) by (apply web_origin_scalar; destruct HO; auto).
  destruct (c38_round W E (lit ceremony) (rfc4648_unpadded url_alphabet ch) o
    (cf_json _ _ _ CF) (cf_json_depth _ _ _ CF) (lit_scalar _)) as (cdj' & HU' & HP);
    [apply symbols_scalar; apply lit_scalar|exact SO|].
  rewrite HU in HU'. injection HU' as <-.
  apply parse_client_data_ok in HP as (d & text & D & J & M1 & M2 & M3 & TB).
  cbn [cd_type cd_challenge cd_origin cd_token_binding] in *.
  exists text, d, (rfc4648_unpadded url_alphabet ch), o.
  split; [exact D|]. split; [exact J|]. split; [exact M1|]. split; [exact M2|]. split.
  { eapply (c44 ch). rewrite c44_rfc. reflexivity. }
  split; [exact M3|]. split; [now apply allowed_origin|].
  inversion TB; subst. now apply tb_spec_absent.
Qed.

(** ** Authenticator data *)
Lemma new_key k d : NewKey k d ->
  WellFormedKey k /\ UsableKey k /\ cose_dictionary k = Ok d /\
  kb_base_IV (key_base_of k) = None.
Proof.
  intros [c a x y HC HA LX LY|c x HC LX].
  - split; [cbn; repeat split; auto; discriminate|]. split; [econstructor; cbn; eauto|].
    split; [|reflexivity]. destruct a; reflexivity.
  - split; [cbn; repeat split; auto; discriminate|]. split; [econstructor; cbn; eauto|].
    split; reflexivity.
Qed.

Lemma auth_written rpid uv exts flags ctr hd attb extb att :
  Header W rpid uv flags ctr hd -> AttSerial (N.testbit (Byte.to_N flags) 6) attb att ->
  Outputs depth exts flags extb ->
  exists ad, AuthDataSpec W rpid uv exts (hd ++ attb ++ extb) ad /\
    ad_attested ad = att /\ ad_sign_count ad = ctr /\
    counter_of (hd ++ attb ++ extb) = ctr /\
    flag_bit (hd ++ attb ++ extb) 6 = N.testbit (Byte.to_N flags) 6.
Proof.
  intros (F0 & F2 & LC & rpb & HU & ->) HA (ext & HE & HX).
  pose proof (cf_hash _ _ _ CF rpb) as LH.
  replace ((w_sha256 W rpb ++ [flags] ++ N_to_be 4 ctr) ++ attb ++ extb)
    with (w_sha256 W rpb ++ [flags] ++ N_to_be 4 ctr ++ attb ++ extb) by (rewrite <- !app_assoc; reflexivity).
  pose proof (c30 W depth _ flags ctr attb extb att ext (cf_cbor _ _ _ CF) (cf_depth _ _ _ CF) LH LC HA HE) as P.
  assert (FB : forall i, flag_bit (w_sha256 W rpb ++ [flags] ++ N_to_be 4 ctr ++ attb ++ extb) i
                         = N.testbit (Byte.to_N flags) i).
  { intro i. unfold flag_bit. rewrite app_nth2 by lia. rewrite LH. reflexivity. }
  destruct (auth_fields _ _ _ P) as (_ & _ & _ & CT & _).
  eexists. split; [|split; [|split; [|split; [|apply FB]]]].
  - split; [apply auth_reads_iff; exact P|]. split.
    { exists rpb. split; [exact HU|]. rewrite firstn_app, LH. change (32 - 32) with 0.
      rewrite (firstn_all2 (w_sha256 W rpb)) by lia. apply app_nil_r. }
    split; [rewrite FB; exact F0|]. split; [rewrite FB; exact F2|].
    intros l e Hl He. destruct (HX l e Hl He) as (x & -> & HP). cbn. eauto.
  - reflexivity.
  - reflexivity.
  - cbn in CT. symmetry. exact CT.
Qed.

(** ** The ceremonies meet the specification *)
Lemma honest_registration A cid k ctr : HonestRegistration W depth A cid k ctr ->
  exists att ad acd, RegistrationSpec W A att /\ ao_auth_data att = Some ad /\
    ad_attested ad = Some acd /\ at_key acd = Some k /\ at_id acd = cid /\ ad_sign_count ad = ctr.
Proof.
  intros (cdj & aob & adb & hd & flags & aaguid & d & keyb & extb & origin & EI & ER & HC & HO & TB &
    HH & F6 & LA & LI & HK & HB & HX & -> & HD).
  destruct (new_key k d HK) as (WF & UK & CD & BI).
  set (attb := aaguid ++ N_to_be 2 (N.of_nat (List.length cid)) ++ cid ++ keyb).
  assert (HA : AttSerial (N.testbit (Byte.to_N flags) 6) attb
    (Some {| at_aaguid := aaguid; at_id_length := N.of_nat (List.length cid); at_id := cid; at_key := Some k |})).
  { rewrite F6. eapply as_present; eauto. }
  destruct (auth_written _ _ _ _ _ _ _ _ _ HH HA HX) as (ad & AD & A1 & A2 & _ & A4).
  assert (EQ : hd ++ attb ++ extb =
    hd ++ aaguid ++ N_to_be 2 (N.of_nat (List.length cid)) ++ cid ++ keyb ++ extb)
    by (unfold attb; rewrite <- !app_assoc; reflexivity).
  rewrite EQ in *. eexists; exists ad; eexists. split.
  { eexists cdj, aob, _, ad. split; [exact ER|].
    split; [rewrite TB; eapply client_writes; eauto|].
    split; [|split; [exact AD|split; [rewrite A4; exact F6|reflexivity]]].
    eexists; exists []. split.
    - apply (cf_cbor _ _ _ CF). rewrite <- (app_nil_r aob). apply cbor_load_dumps; [|exact HD].
      pose proof (cf_depth _ _ _ CF) as DP. destruct depth as [|[|n]]; [lia|lia|].
      apply cp_dict.
      + split; [|split; [|split; [|exact I]]]; intros k' v' H;
          repeat (destruct H as [H|H]; [injection H as <- _; reflexivity|]); destruct H.
      + repeat constructor.
      + constructor; [apply cp_scalar; constructor|]. constructor; [apply cp_dict; constructor|].
        constructor; [apply cp_scalar; constructor|constructor].
    - repeat split. }
  cbn [ao_auth_data]. split; [reflexivity|]. split; [exact A1|]. cbn. auto.
Qed.

Lemma honest_login A cid k user rp ctr cdt : HonestLogin W depth A cid k user rp ctr ->
  cdt_key cdt = k -> cdt_user cdt = user -> cdt_rp cdt = Some rp ->
  CounterSpec (aa_ignore_clone A) (cdt_sign_count cdt) ctr ->
  exists ad u r, AssertionSpec W A cdt ad u r /\ ad_sign_count ad = ctr.
Proof.
  intros (cdj & adb & hd & flags & extb & sig & handle & origin & EI & ER & HL & HU & HN & HM & HR & HC & HO & TB &
    HH & F6 & HX & -> & HS) <- <- ERP HK.
  assert (HA : AttSerial (N.testbit (Byte.to_N flags) 6) [] None) by (rewrite F6; constructor).
  assert (RR : rp_id (match aa_rp A with Some r => r | None => rp end) = rp_id rp)
    by (destruct (aa_rp A); auto).
  destruct (auth_written _ _ _ _ _ _ _ _ _ HH HA HX) as (ad & AD & A1 & A2 & A3 & A4).
  cbn [app] in *.
  exists ad, (match aa_user A with Some v => v | None => cdt_user cdt end),
    (match aa_rp A with Some r => r | None => rp end). split; [|exact A2].
  exists cdj, (hd ++ extb), sig, handle. split; [exact ER|].
  split; [intros l Hl; rewrite EI; auto|].
  split.
  { split; [reflexivity|]. split; [destruct (aa_user A); auto|]. split; [exact HN|exact HM]. }
  split.
  { unfold RpSpec. destruct (aa_rp A) as [r|] eqn:EA; [|exact ERP]. split; [reflexivity|].
    intros r' Hr. rewrite ERP in Hr. injection Hr as <-. symmetry. now apply HR. }
  split; [rewrite TB; eapply client_writes; eauto|].
  split; [rewrite RR; exact AD|]. split; [exact HS|]. rewrite A3. exact HK.
Qed.

(** ** Runs *)
Section Run.
Context {S : Type}.
Variable R : registrar S.
Variable view : S -> bytes -> option cred_data.

Lemma c71_delivered s A cid k ctr : HonestRegistration W depth A cid k ctr ->
  exists att ad acd,
    out_trace (run R s (handle_credential_attestation W A)) =
      [EvAttest (ra_credential A) att AT_NONE (ra_user A) (ra_rp A) None] /\
    ao_auth_data att = Some ad /\ ad_attested ad = Some acd /\
    at_key acd = Some k /\ at_id acd = cid /\ ad_sign_count ad = ctr.
Proof.
  intro H. destruct (honest_registration _ _ _ _ H) as (att & ad & acd & HR & H1 & H2 & H3 & H4 & H5).
  exists att, ad, acd. split; [|auto].
  unfold handle_credential_attestation, handle_credential_attestation_with. fold (attestation_checks W). rewrite (proj2 (attestation_iff W A att AT_NONE None)) by auto.
  cbn [run]. destruct (r_attest R s (ra_credential A) att AT_NONE (ra_user A) (ra_rp A) None). reflexivity.
Qed.

Hypothesis FS : FaithfulStore R view.

Lemma c71_registration s A cid k ctr : HonestRegistration W depth A cid k ctr -> view s cid = None ->
  registration_succeeds W R s A /\
  view (out_state (run R s (handle_credential_attestation W A))) cid =
    Some {| cdt_key := k; cdt_sign_count := Some (Z.of_N ctr);
            cdt_user := ra_user A; cdt_rp := Some (ra_rp A) |}.
Proof.
  intros H V. destruct (honest_registration _ _ _ _ H) as (att & ad & acd & HR & H1 & H2 & H3 & H4 & H5).
  assert (EI : cr_raw_id (ra_credential A) = cid) by (destruct H as (? & ? & ? & ? & ? & ? & ? & ? & ? & ? & H & _); exact H).
  rewrite <- EI in V.
  destruct (fs_attest _ _ FS s (ra_credential A) att ad acd k AT_NONE (ra_user A) (ra_rp A) None V H1 H2 H3) as (s' & U & V').
  unfold handle_credential_attestation, handle_credential_attestation_with. fold (attestation_checks W). rewrite (proj2 (attestation_iff W A att AT_NONE None)) by auto.
  cbn [run]. rewrite U. cbn [run out_result out_state]. split; [reflexivity|]. rewrite <- EI, <- H5. exact V'.
Qed.

Lemma accepted_run s A s1 cdt ad u rp s2 :
  r_get R s (cr_raw_id (aa_credential A)) = (s1, Ok (Some cdt)) -> AssertionSpec W A cdt ad u rp ->
  r_assert R s1 (aa_credential A) ad u rp = (s2, Ok None) ->
  login_succeeds W R s A /\ out_state (run R s (handle_credential_assertion W A)) = s2.
Proof.
  intros G C U. apply assertion_iff in C as (os & P & C). unfold handle_credential_assertion.
  rewrite P. cbn [run]. rewrite G, C. cbn [run]. rewrite U. split; reflexivity.
Qed.

Lemma c71_login s A cid k user rp ctr stored : HonestLogin W depth A cid k user rp ctr ->
  view s cid = Some {| cdt_key := k; cdt_sign_count := stored; cdt_user := user; cdt_rp := Some rp |} ->
  CounterSpec (aa_ignore_clone A) stored ctr ->
  login_succeeds W R s A /\
  view (out_state (run R s (handle_credential_assertion W A))) cid =
    Some {| cdt_key := k; cdt_sign_count := Some (Z.of_N ctr); cdt_user := user; cdt_rp := Some rp |}.
Proof.
  intros H V HC.
  destruct (honest_login A cid k user rp ctr
    {| cdt_key := k; cdt_sign_count := stored; cdt_user := user; cdt_rp := Some rp |} H eq_refl eq_refl eq_refl HC) as (ad & u & r & HA & HN).
  assert (EI : cr_raw_id (aa_credential A) = cid) by (destruct H as (? & ? & ? & ? & ? & ? & ? & ? & H & _); exact H).
  destruct (fs_get _ _ FS s cid) as (s1 & G). rewrite V in G.
  destruct (cs_get _ _ (fs_counters _ _ FS) _ _ _ _ G) as [V1 _].
  assert (V2 : view s1 (cr_raw_id (aa_credential A)) = Some {| cdt_key := k; cdt_sign_count := stored; cdt_user := user; cdt_rp := Some rp |})
    by (rewrite EI, V1; exact V).
  destruct (fs_assert _ _ FS s1 (aa_credential A) ad u r _ V2) as (s2 & U & V3).
  rewrite <- EI in G. destruct (accepted_run _ _ _ _ _ _ _ _ G HA U) as [H1 H2].
  split; [exact H1|]. rewrite H2, <- EI, V3. cbn. now rewrite HN.
Qed.

(** Whatever is called, a stored credential keeps its key, user and relying party, and its
    counter stays below [n] if that of every correctly signed assertion is. *)
Definition held (s : S) cid k user rp (n : N) : Prop :=
  exists m, (m < Z.of_N n)%Z /\
    view s cid = Some {| cdt_key := k; cdt_sign_count := Some m; cdt_user := user; cdt_rp := Some rp |}.
Lemma call_held s c cid k user rp n : SignedBelow W cid k n c -> held s cid k user rp n ->
  held (out_state (run R s (handler W c))) cid k user rp n.
Proof.
  intros HS (m & L & V). destruct c as [A|A]; cbn [handler].
  - pose proof (fs_counters _ _ FS) as CS.
    destruct (assert_run W R s A) as [e P|os s1 e P G|os s1 P G|os s1 cdt e P G C|s1 cdt ad u r s2 a G C U];
      cbn [out_state]; try (exists m; split; [exact L|]; try rewrite (proj1 (cs_get _ _ CS _ _ _ _ G)); exact V).
    destruct (cs_get _ _ CS _ _ _ _ G) as [V1 V2]. specialize (V2 _ eq_refl).
    assert (D : a = Ok None \/ a <> Ok None).
    { destruct a as [[v|]|e]; [right; discriminate|left; reflexivity|right; discriminate]. }
    destruct D as [->|D].
    2:{ exists m. split; [exact L|]. rewrite (cs_assert_fail _ _ CS _ _ _ _ _ _ _ U D), V1. exact V. }
    destruct (bytes_eq_dec cid (cr_raw_id (aa_credential A))) as [EI|N].
    2:{ exists m. split; [exact L|]. rewrite (proj1 (cs_assert_ok _ _ CS _ _ _ _ _ _ U)) by exact N. rewrite V1. exact V. }
    rewrite <- EI, V in V2. injection V2 as ->.
    destruct (fs_assert _ _ FS s1 (aa_credential A) ad u r {| cdt_key := k; cdt_sign_count := Some m; cdt_user := user; cdt_rp := Some rp |})
      as (s2' & U' & V3); [rewrite <- EI, V1; exact V|].
    rewrite U in U'. injection U' as <-. rewrite <- EI in V3. cbn in V3.
    exists (Z.of_N (ad_sign_count ad)). split; [|exact V3].
    destruct C as (cdj & adb & sig & h & ER & _ & _ & _ & _ & (HP & _) & HSig & _). cbn [cdt_key] in HSig.
    destruct (auth_fields _ _ _ (proj2 (auth_reads_iff W _ _) HP)) as (_ & _ & _ & -> & _).
    specialize (HS A cdj adb sig h eq_refl (eq_sym EI) ER HSig). lia.
  - exists m. split; [exact L|]. rewrite (attest_effect W R view (fs_counters _ _ FS)) by congruence. exact V.
Qed.

Lemma history_held cs : forall s cid k user rp n, (forall c, In c cs -> SignedBelow W cid k n c) ->
  held s cid k user rp n -> held (snd (run_history W R s cs)) cid k user rp n.
Proof.
  induction cs as [|c t IH]; intros s cid k user rp n HS HH; cbn [run_history]; [exact HH|].
  pose proof (IH (out_state (run R s (handler W c))) cid k user rp n (fun c' I => HS c' (or_intror I))
    (call_held _ _ _ _ _ _ _ (HS c (or_introl eq_refl)) HH)) as H.
  destruct (run_history W R (out_state (run R s (handler W c))) t). exact H.
Qed.

Lemma c71_no_lockout s A0 cs A cid k ctr0 ctr :
  HonestRegistration W depth A0 cid k ctr0 -> view s cid = None ->
  (forall c, In c cs -> SignedBelow W cid k ctr c) ->
  HonestLogin W depth A cid k (ra_user A0) (ra_rp A0) ctr -> (ctr0 < ctr)%N ->
  login_succeeds W R (snd (run_history W R s (CAttest A0 :: cs))) A.
Proof.
  intros HR V HS HL LT. destruct (c71_registration s A0 cid k ctr0 HR V) as [_ V1].
  assert (H : held (snd (run_history W R s (CAttest A0 :: cs))) cid k (ra_user A0) (ra_rp A0) ctr).
  { cbn [run_history handler].
    pose proof (history_held cs (out_state (run R s (handle_credential_attestation W A0))) cid k (ra_user A0) (ra_rp A0) ctr HS) as H.
    destruct (run_history W R (out_state (run R s (handle_credential_attestation W A0))) cs). apply H.
    exists (Z.of_N ctr0). split; [lia|exact V1]. }
  destruct H as (m & L & V2). eapply c71_login; [exact HL|exact V2|]. right; right. eauto.
Qed.

Lemma c71_logins cid k user rp l : forall n s, HonestLogins W depth cid k user rp n l ->
  view s cid = Some {| cdt_key := k; cdt_sign_count := Some (Z.of_N n); cdt_user := user; cdt_rp := Some rp |} ->
  Forall (fun x => snd x = Ok tt) (fst (run_history W R s l)).
Proof.
  induction l as [|c t IH]; intros n s H V; [constructor|].
  inversion H as [|n' A m t' L HL HT]; subst. cbn [run_history handler].
  destruct (c71_login s A cid k user rp m _ HL V) as [H1 H2]; [right; right; exists (Z.of_N n); split; [reflexivity|lia]|].
  specialize (IH m _ HT H2). destruct (run_history W R (out_state (run R s (handle_credential_assertion W A))) t).
  constructor; [exact H1|exact IH].
Qed.
End Run.
End Honest.

Lemma mem_faithful : FaithfulStore mem_registrar (fun s id => mem_find id s).
Proof.
  split.
  - exact mem_store.
  - intros s id. exists s. reflexivity.
  - intros s c att ad acd k ty u rp path V H1 H2 H3. cbn. rewrite V, H1, H2. destruct acd as [aa il i ky]. cbn in H3.
    subst ky. eexists. split; [reflexivity|].
    induction s as [|[i' c'] t IH]; cbn.
    + now rewrite (proj2 (bytes_eqb_spec _ _) eq_refl).
    + cbn in V. destruct (bytes_eqb i' (cr_raw_id c)); [discriminate|auto].
  - intros s c ad u rp cdt V. cbn. rewrite V. eexists. split; [reflexivity|]. now apply mem_find_set_same.
Qed.

(** ** An honest registration and an honest login in [ex_world] *)
Definition hon_cdj (ceremony : string) : bytes :=
  blit "{""type"":""" ++ blit ceremony ++
  blit """,""challenge"":""AQIDBA"",""origin"":""https://example.com"",""crossOrigin"":false}".
Definition hon_reg (ctr : N) : attestation_args :=
  {| ra_credential :=
       {| cr_id := lit "Y3JlZC0x"; cr_type := lit "public-key"; cr_raw_id := ex_raw_id;
          cr_response := AttestationResponse (hon_cdj "webauthn.create")
                           (ex_att_obj "none" [] (ad_bytes x45 ctr ex_attested)) |};
     ra_user := ex_user; ra_rp := ex_rp; ra_challenge := ex_challenge; ra_origin := ex_origin;
     ra_token_binding := None; ra_require_uv := true; ra_extensions := None |}.
Definition hon_auth (ctr : N) : assertion_args :=
  {| aa_credential :=
       {| cr_id := lit "Y3JlZC0x"; cr_type := lit "public-key"; cr_raw_id := ex_raw_id;
          cr_response := AssertionResponse (hon_cdj "webauthn.get") (ex_ext_ad ctr)
                           (sign_with 123456789 (ex_ext_ad ctr) (hon_cdj "webauthn.get")) None |};
     aa_challenge := ex_challenge;
     aa_origin := ManyOrigins [lit "http://localhost:5000"; lit "https://example.com"];
     aa_rp := Some ex_rp; aa_user := Some ex_user; aa_allow := None; aa_token_binding := None;
     aa_require_uv := true; aa_extensions := Some [UVI; APPID]; aa_ignore_clone := false |}.

Lemma ex_conforming : Conforming ex_world 900 ex_json.
Proof.
  split; [intros b v rest H; exact H|lia|reflexivity|cbn; lia|].
  intro b. cbn [w_sha256 ex_world]. unfold toy_hash. apply N_to_be_length.
Qed.
Lemma ex_web_origin : WebOrigin (lit "https://example.com").
Proof.
  exists "https"%string, (lit "example.com"), None. split; [cbn; auto|]. split; [|split; [intros t H; discriminate|reflexivity]].
  split; [discriminate|]. vm_compute. repeat constructor; intuition discriminate.
Qed.
Lemma ex_local_origin : WebOrigin (lit "http://localhost:5000").
Proof.
  exists "http"%string, (lit "localhost"), (Some (lit "5000")). split; [cbn; auto|]. split; [|split; [|reflexivity]].
  - split; [discriminate|]. vm_compute. repeat constructor; intuition discriminate.
  - intros t H; injection H as <-. exists 5000%N. split; [|lia]. apply decimal_spec. split; [discriminate|]. vm_compute. auto.
Qed.

Lemma hon_allowed e : In (lit "https://example.com") (allowed_strings e) ->
  (forall s, In s (allowed_strings e) -> s = lit "https://example.com" \/ s = lit "http://localhost:5000") ->
  OriginAllowed e (lit "https://example.com").
Proof.
  intros H K. split; [exact H|]. intros s Hs. destruct (K s Hs) as [-> | ->];
    [exact ex_web_origin|exact ex_local_origin].
Qed.
Lemma hon_registration : HonestRegistration ex_world 900 (hon_reg 3) ex_raw_id ex_key 3.
Proof.
  exists (hon_cdj "webauthn.create"), (ex_att_obj "none" [] (ad_bytes x45 3 ex_attested)),
    (ad_bytes x45 3 ex_attested), (ad_bytes x45 3 []), x45, ex_aaguid, ex_key_map,
    (dumps (VDict ex_key_map)), [], (lit "https://example.com").
  split; [reflexivity|]. split; [reflexivity|]. split; [vm_compute; reflexivity|].
  split; [apply hon_allowed; [now left|intros s [<-|[]]; auto]|].
  split; [reflexivity|].
  split; [|split; [reflexivity|split; [reflexivity|split; [reflexivity|split]]]].
  - split; [reflexivity|]. split; [reflexivity|]. split; [reflexivity|]. exists (blit "example.com").
    split; vm_compute; reflexivity.
  - apply (nk_ec2 P_256 ES256 ex_x ex_y); cbn; auto.
  - split; [vm_compute; reflexivity|]. split; [exists None; split; [constructor|intros; discriminate]|].
    split; vm_compute; reflexivity.
Qed.
Lemma hon_login : HonestLogin ex_world 900 (hon_auth 4) ex_raw_id ex_key ex_user ex_rp 4.
Proof.
  exists (hon_cdj "webauthn.get"), (ex_ext_ad 4), (ad_bytes x85 4 []), x85, (dumps (VDict ex_ext_map)),
    (sign_with 123456789 (ex_ext_ad 4) (hon_cdj "webauthn.get")), None, (lit "https://example.com").
  split; [reflexivity|]. split; [reflexivity|]. split; [discriminate|].
  split; [intros u H; injection H as <-; reflexivity|]. split; [discriminate|]. split; [discriminate|].
  split; [intros r H; injection H as <-; reflexivity|]. split; [vm_compute; reflexivity|].
  split; [apply hon_allowed; [right; now left|intros s [<-|[<-|[]]]; auto]|].
  split; [reflexivity|].
  split; [|split; [reflexivity|split; [|split]]].
  - split; [reflexivity|]. split; [reflexivity|]. split; [reflexivity|]. exists (blit "example.com").
    split; vm_compute; reflexivity.
  - assert (X : exists x, parse_extensions ex_world ex_ext_map = Ok x /\ ex_uvi x <> None /\ ex_appid x <> None)
      by (eexists; split; [vm_compute; reflexivity|split; discriminate]).
    destruct X as (x & X & X1 & X2). apply extensions_iff in X. exists (Some x). split.
    + apply (es_present 900 ex_ext_map); [exact X| |vm_compute; reflexivity].
      change 900 with (Datatypes.S 899). apply cp_dict.
      * cbn [ex_ext_map distinct_keys]. split; [|split; [intros ? ? []|exact I]].
        intros k' v' [H|[]]. injection H as <- <-. reflexivity.
      * repeat constructor.
      * repeat (apply Forall_cons; [apply cp_scalar; exact I|]). apply Forall_nil.
    + intros l e H1 H2. injection H1 as <-. exists x. split; [reflexivity|].
      destruct H2 as [<-|[<-|[]]]; assumption.
  - vm_compute. reflexivity.
  - apply verify_iff. vm_compute. reflexivity.
Qed.
