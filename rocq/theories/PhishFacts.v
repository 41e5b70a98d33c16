(** * PhishFacts: a login was asked for by an allowed page, and each signature is good for one. *)
From Coq Require Import List NArith ZArith Bool String Lia.
From Coq Require Import Strings.Byte.
From Verif Require Import Base PyVal B64 Utf8 Utf8Facts Url Json JsonSpec Cbor CborFacts CodecSpec Types World
  Parsers Crypto Backends Spec BaseFacts History ClientFacts AuthFacts BackendFacts HistoryFacts CodecFacts UrlFacts
  B64Round Utf8Sound KeyFacts AssertFacts AttestFacts ConcurrencyFacts ClientJson FormatFacts CryptoFacts AgreeSpec Agree Examples
  OptionFacts HonestSpec HonestFacts PhishSpec.
Import ListNotations.
Local Open Scope list_scope.

Lemma web_origin_same UE a b o : WebOrigin a -> WebOrigin b ->
  parse_origin UE a = Ok o -> parse_origin UE b = Ok o -> a = b.
Proof.
  assert (G : forall c, WebOrigin c -> parse_origin UE c = Ok o -> c = o_scheme o ++ lit "://" ++ o_host o).
  { intros c (name & h & p & HN & HH & HP & ->) P. destruct p as [t|].
    - destruct (HP t eq_refl) as (n & H). rewrite (c40 UE name h (Some t) n HN HH H) in P. injection P as <-. reflexivity.
    - rewrite (c40 UE name h None _ HN HH eq_refl) in P. injection P as <-. reflexivity. }
  intros HA HB PA PB. now rewrite (G a), (G b).
Qed.

Section Phish.
Variable W : World.

Lemma login_signed {S} (R : registrar S) (s : S) A cdt signed :
  hash_32 W -> lookup R s A = Ok (Some cdt) -> OnlySigned W (cdt_key cdt) signed [CAssert A] ->
  login_succeeds W R s A ->
  exists ad u rp g cdj sig h, AssertionSpec W A cdt ad u rp /\ In g signed /\
    cr_response (aa_credential A) = AssertionResponse cdj (sg_adb g) sig h /\
    w_sha256 W (sg_cdj g) = w_sha256 W cdj.
Proof.
  intros H32 HL OS H. apply c10 in H as (s1 & cdt' & ad & u & rp & s2 & G & C & _).
  unfold lookup in HL. rewrite G in HL. injection HL as ->. exists ad, u, rp. pose proof C as C'.
  destruct C as (cdj & adb & sig & h & ER & _ & _ & _ & _ & _ & HS & _).
  destruct (OS (CAssert A) cdj adb sig (or_introl eq_refl)) as (g & I & Q); [exists A, h; auto|exact HS|].
  apply tail_32 in Q as [Q1 Q2]; [|now rewrite !H32]. exists g, cdj, sig, h. rewrite Q1. auto.
Qed.

Lemma wrote depth E ceremony ch o cdj c e tb ceremony' : Conforming W depth E ->
  WebOrigin o -> ClientWrites ceremony ch o cdj -> ClientDataSpec W ceremony' c e tb cdj ->
  ceremony = ceremony' /\ ch = c /\ OriginSpec W e o.
Proof.
  intros CF WO HU (text & d & cht & org & D & J & M1 & M2 & DC & M3 & OS & _). unfold ClientWrites in HU.
  destruct (c38_round W E (lit ceremony) (rfc4648_unpadded url_alphabet ch) o
    (cf_json _ _ _ CF) (cf_json_depth _ _ _ CF) (lit_scalar _)) as (cdj' & HU' & HP);
    [apply symbols_scalar; apply lit_scalar|now apply web_origin_scalar|].
  rewrite HU in HU'. injection HU' as <-.
  apply parse_client_data_ok in HP as (d' & text' & D' & J' & N1 & N2 & N3 & _).
  cbn [cd_type cd_challenge cd_origin] in *.
  rewrite D in D'. injection D' as <-. rewrite J in J'. injection J' as <-. unfold member in *.
  rewrite M1 in N1. injection N1 as N1. rewrite M2 in N2. injection N2 as ->. rewrite M3 in N3. injection N3 as ->.
  split; [now apply lit_inj|]. split; [|exact OS].
  rewrite (c44 ch _ _ (c44_rfc ch)) in DC. now injection DC.
Qed.

Lemma c89 {S} depth E (R : registrar S) (s : S) A cdt signed :
  Conforming W depth E -> lookup R s A = Ok (Some cdt) ->
  (forall g, In g signed -> Truthful W g) -> OnlySigned W (cdt_key cdt) signed [CAssert A] ->
  Separate W (Hashed signed A cdt) ->
  login_succeeds W R s A -> exists g, In g signed /\ AskedFor W A cdt g.
Proof.
  intros CF HL HT OS SP H.
  destruct (login_signed R s A cdt signed (cf_hash _ _ _ CF) HL OS H) as (ad & u & rp & g & cdj & sig & h & C & I & ER & HQ).
  assert (cdj = sg_cdj g) as ->.
  { symmetry. apply SP; [left; exists g; auto|right; left; eauto|exact HQ]. }
  exists g. split; [exact I|]. destruct (HT g I) as (WO & CW & (b & U & HB) & F0 & F2).
  destruct C as (cdj' & adb' & sig' & h' & ER' & _ & _ & HR & HC & (_ & (b' & U' & HB') & G0 & G2 & _) & _).
  rewrite ER in ER'. injection ER' as <- <- <- <-.
  destruct (wrote depth E _ _ _ _ _ _ _ _ CF WO CW HC) as (E1 & E2 & OO).
  split; [eauto|]. split; [exact E1|]. split; [exact E2|]. split; [exact OO|]. split.
  { intro HW. destruct OO as (_ & o & r & IO & P1 & P2). now rewrite (web_origin_same _ _ _ _ WO (HW o IO) P2 P1). }
  split.
  { exists rp. split; [exact HR|]. apply (utf8_encode_inj _ _ b U). rewrite U'. f_equal.
    apply SP; [|left; exists g; auto|congruence]. right; right. exists rp. split; [|exact U'].
    unfold RpSpec in HR. destruct (aa_rp A); [left; destruct HR; congruence|right; exact HR]. }
  split; [congruence|]. intro V. rewrite <- F2. auto.
Qed.

Lemma c89_phished {S} depth E (R : registrar S) (s : S) A cdt signed :
  Conforming W depth E -> lookup R s A = Ok (Some cdt) ->
  (forall g, In g signed -> Truthful W g) -> OnlySigned W (cdt_key cdt) signed [CAssert A] ->
  Separate W (Hashed signed A cdt) ->
  (forall o, In o (allowed_strings (aa_origin A)) -> WebOrigin o) ->
  (forall g, In g signed -> sg_challenge g = aa_challenge A -> ~ In (sg_origin g) (allowed_strings (aa_origin A))) ->
  ~ login_succeeds W R s A.
Proof.
  intros CF HL HT OS SP HW HP H. destruct (c89 depth E R s A cdt signed CF HL HT OS SP H) as (g & I & _ & _ & Q & _ & O & _).
  exact (HP g I Q (O HW)).
Qed.

(** ** Each signature is good for one login *)

(** Assertion [A] is signed for [k]. *)
Definition signed_by (k : pubkey) (A : assertion_args) : Prop :=
  exists cdj adb sig h, cr_response (aa_credential A) = AssertionResponse cdj adb sig h /\
    SignatureSpec W k sig (adb ++ w_sha256 W cdj).

Lemma distinct_counters (k : pubkey) signed cs (ns : list N) : hash_32 W -> OnlySigned W k signed cs ->
  NoDup ns ->
  (forall n, In n ns -> exists A, In (CAssert A) cs /\ assertion_counter A = Some n /\ signed_by k A) ->
  List.length ns <= List.length signed.
Proof.
  intros H32 OS ND H. rewrite <- (map_length (fun g => counter_of (sg_adb g)) signed).
  apply NoDup_incl_length; [exact ND|]. intros n I. apply in_map_iff.
  destruct (H n I) as (A & IA & HC & cdj & adb & sig & h & ER & HS).
  destruct (OS (CAssert A) cdj adb sig IA) as (g & G & Q); [exists A, h; auto|exact HS|].
  exists g. split; [|exact G]. apply tail_32 in Q as [-> _]; [|now rewrite !H32].
  unfold assertion_counter in HC. rewrite ER in HC. now injection HC.
Qed.

Context {S : Type}.
Variable R : registrar S.
Variable view : S -> bytes -> option cred_data.
Hypothesis CS : CounterStore R view.
Hypothesis KK : KeepsKeys R view.

(** The store has key [k] for [id]. *)
Definition keyed (s : S) (id : bytes) (k : pubkey) : Prop :=
  exists cdt, view s id = Some cdt /\ cdt_key cdt = k.

Lemma get_keyed s s' r i id k : r_get R s i = (s', r) -> keyed s id k -> keyed s' id k.
Proof. intros G (cdt & V & K). exists cdt. rewrite (proj1 (cs_get _ _ CS _ _ _ _ G)). auto. Qed.
Lemma assert_keyed s s' c ad u rp a id k : r_assert R s c ad u rp = (s', a) -> keyed s id k -> keyed s' id k.
Proof.
  intros G (cdt & V & K). destruct (bytes_eq_dec id (cr_raw_id c)) as [->|N].
  - destruct (KK _ _ _ _ _ _ _ _ G V) as (cdt' & V' & Q). exists cdt'. split; [exact V'|congruence].
  - exists cdt. split; [|exact K]. rewrite <- V. destruct a as [[v|]|e].
    + now apply (cs_assert_fail _ _ CS _ _ _ _ _ _ _ G).
    + now apply (cs_assert_ok _ _ CS _ _ _ _ _ _ G).
    + now apply (cs_assert_fail _ _ CS _ _ _ _ _ _ _ G).
Qed.
Lemma attest_keyed s s' c att ty u rp path a id k : r_attest R s c att ty u rp path = (s', a) ->
  keyed s id k -> keyed s' id k.
Proof. intros G (cdt & V & K). exists cdt. rewrite (cs_attest _ _ CS _ _ _ _ _ _ _ _ _ G); [auto|congruence]. Qed.

Lemma call_keyed s c id k : keyed s id k -> keyed (out_state (run R s (handler W c))) id k.
Proof.
  intro H. destruct c as [A|A]; cbn [handler].
  - destruct (assert_run W R s A) as [e P|os s1 e P G|os s1 P G|os s1 cdt e P G C|s1 cdt ad u rp s2 a G C U];
      cbn [out_state]; eauto using get_keyed, assert_keyed.
  - destruct (attest_run W R s A) as [e P|att s1 a G U]; cbn [out_state]; eauto using attest_keyed.
Qed.
Lemma accepted_signed s A k : keyed s (cr_raw_id (aa_credential A)) k -> login_succeeds W R s A -> signed_by k A.
Proof.
  intros (cdt & V & K) H. apply c10 in H as (s1 & cdt' & ad & u & rp & s2 & G & C & _).
  rewrite <- (proj2 (cs_get _ _ CS _ _ _ _ G) _ eq_refl) in V. injection V as ->.
  destruct C as (cdj & adb & sig & h & ER & _ & _ & _ & _ & _ & HS & _). exists cdj, adb, sig, h. now rewrite <- K.
Qed.

Lemma history_signed cs : forall s id k n, keyed s id k ->
  In (id, n) (accepted (fst (run_history W R s cs))) ->
  exists A, In (CAssert A) cs /\ assertion_counter A = Some n /\ signed_by k A.
Proof.
  induction cs as [|c t IH]; intros s id k n K; cbn [run_history]; [intros []|].
  pose proof (IH (out_state (run R s (handler W c))) id k n (call_keyed s c id k K)) as IHt.
  destruct (run_history W R (out_state (run R s (handler W c))) t) as [l s']. cbn [fst] in *.
  assert (L : In (id, n) (accepted l) -> exists A, In (CAssert A) (c :: t) /\ assertion_counter A = Some n /\ signed_by k A).
  { intro I. destruct (IHt I) as (A & H1 & H2). exists A. split; [now right|exact H2]. }
  destruct c as [A|A]; [|exact L]. cbn [accepted handler].
  destruct (out_result (run R s (handle_credential_assertion W A))) as [[]|e] eqn:HR; [|exact L].
  destruct (assertion_counter A) as [m|] eqn:HC; [|exact L].
  intros [Q|I]; [|auto]. injection Q as <- <-. exists A. split; [now left|]. split; [exact HC|].
  eapply accepted_signed; eauto.
Qed.

(** The counters accepted for [id]. *)
Definition counters (id : bytes) (l : list (bytes * N)) : list N :=
  map snd (filter (fun p => bytes_eqb (fst p) id) l).
Lemma counters_in id l n : In n (counters id l) <-> In (id, n) l.
Proof.
  unfold counters. rewrite in_map_iff. split.
  - intros ([i m] & <- & I). apply filter_In in I as [I Q]. apply bytes_eqb_spec in Q as <-. exact I.
  - intro I. exists (id, n). split; [reflexivity|]. apply filter_In. split; [exact I|]. now apply bytes_eqb_spec.
Qed.
Lemma counters_nodup id l :
  (forall l1 n1 l2 n2 l3, l = l1 ++ (id, n1) :: l2 ++ (id, n2) :: l3 -> (n1 < n2)%N) -> NoDup (counters id l).
Proof.
  induction l as [|[i n] t IH]; intro H; [constructor|].
  assert (IHt : NoDup (counters id t)) by (apply IH; intros l1 n1 l2 n2 l3 ->; exact (H ((i, n) :: l1) n1 l2 n2 l3 eq_refl)).
  unfold counters. cbn [filter fst]. destruct (bytes_eqb i id) eqn:Q; [|exact IHt].
  apply bytes_eqb_spec in Q as ->. cbn [map snd]. constructor; [|exact IHt].
  intro I. apply counters_in, in_split in I as (l2 & l3 & ->). specialize (H [] n l2 n l3 eq_refl). lia.
Qed.

Lemma c89_history s cs id cdt signed : hash_32 W ->
  (forall A, In (CAssert A) cs -> aa_ignore_clone A = false) ->
  view s id = Some cdt -> OnlySigned W (cdt_key cdt) signed cs ->
  List.length (filter (fun p => bytes_eqb (fst p) id) (accepted (fst (run_history W R s cs)))) <= List.length signed.
Proof.
  intros H32 HI V OS. rewrite <- (map_length snd).
  apply (distinct_counters (cdt_key cdt) signed cs (counters id (accepted (fst (run_history W R s cs)))) H32 OS).
  - apply counters_nodup. intros l1 n1 l2 n2 l3 Q. eapply c14; eauto.
  - intros n I. apply counters_in in I. eapply history_signed; [|exact I]. exists cdt. auto.
Qed.

(** ** Interleavings *)
Section Conc.
Hypothesis CAS : CompareAndSet R view.
Variable id : bytes.
Variable k : pubkey.

Lemma step_keyed s p s' p' : prog_step R s p = (s', p') -> keyed s id k -> keyed s' id k.
Proof.
  destruct p as [r|cid f|cr ad u rp f|cr att ty u rp path f]; cbn [prog_step].
  - intro Q. injection Q as <- _. auto.
  - destruct (r_get R s cid) as [s1 r] eqn:G. intro Q. injection Q as <- _. eauto using get_keyed.
  - destruct (r_assert R s cr ad u rp) as [s1 r] eqn:G. intro Q. injection Q as <- _. eauto using assert_keyed.
  - destruct (r_attest R s cr att ty u rp path) as [s1 r] eqn:G. intro Q. injection Q as <- _. eauto using attest_keyed.
Qed.

Definition thread_signed (c : call) (p : prog) : Prop :=
  forall A, c = CAssert A -> cr_raw_id (aa_credential A) = id ->
    signed_by k A \/ p = handler W c \/ exists r, p = Done r /\ r <> Ok tt.

Lemma step_signed c s p s' p' : keyed s id k -> thread_signed c p -> prog_step R s p = (s', p') ->
  thread_signed c p'.
Proof.
  intros K T ST A -> EI. destruct (T A eq_refl EI) as [HS|[->|(r & -> & HN)]]; [now left|..].
  - cbn [handler] in ST. unfold handle_credential_assertion in ST.
    destruct (assertion_pre W A) as [os|e] eqn:P; cbn [prog_step] in ST.
    2:{ injection ST as _ <-. right; right. eexists. split; [reflexivity|apply wrap_raise_ok]. }
    destruct (r_get R s (cr_raw_id (aa_credential A))) as [s1 r] eqn:G. injection ST as _ <-.
    destruct r as [[cdt|]|e]; [|right; right; eexists; split; [reflexivity|first [discriminate|apply wrap_raise_ok]]..].
    destruct (assertion_checks W A os cdt) as [[[ad u] rp]|e] eqn:HC;
      [|right; right; eexists; split; [reflexivity|apply wrap_raise_ok]].
    left. assert (C : AssertionSpec W A cdt ad u rp) by (apply assertion_iff; eauto).
    destruct K as (cdt' & V & HK). rewrite <- EI, <- (proj2 (cs_get _ _ CS _ _ _ _ G) _ eq_refl) in V. injection V as <-.
    destruct C as (cdj & adb & sig & h & ER & _ & _ & _ & _ & _ & HS & _). exists cdj, adb, sig, h. now rewrite <- HK.
  - injection ST as _ <-. right; right. eauto.
Qed.

Lemma sched_signed cs sched : forall s ps, keyed s id k ->
  (forall i c p, nth_error cs i = Some c -> nth_error ps i = Some p -> thread_signed c p) ->
  forall i c p, nth_error cs i = Some c ->
    nth_error (snd (fold_left (sched_step R) sched (s, ps))) i = Some p -> thread_signed c p.
Proof.
  induction sched as [|j t IH]; intros s ps K H i c p EC EP; [eapply H; eauto|].
  cbn [fold_left] in EP. unfold sched_step at 2 in EP. cbn [fst snd] in EP.
  destruct (nth_error ps j) as [q|] eqn:Q; [|eauto].
  destruct (prog_step R s q) as [s' q'] eqn:ST.
  eapply (IH s' (update ps j q')); [eapply step_keyed; eauto| |exact EC|exact EP].
  intros i' c' p' EC' EP'. apply nth_update_inv in EP' as [(<- & -> & _)|(_ & EP')]; [|eauto].
  eapply step_signed; eauto.
Qed.
End Conc.

Lemma c89_concurrent s cs id cdt signed sched js : CompareAndSet R view -> hash_32 W ->
  view s id = Some cdt -> OnlySigned W (cdt_key cdt) signed cs ->
  NoDup js ->
  (forall j, In j js -> exists A, nth_error cs j = Some (CAssert A) /\ cr_raw_id (aa_credential A) = id /\
     nth_error (snd (run_sched R s (map (handler W) cs) sched)) j = Some (Done (Ok tt))) ->
  List.length js <= List.length signed.
Proof.
  intros CAS H32 V OS ND HJ.
  destruct (c17_partial W R view s cs [] sched CS CAS) as [_ DI]. cbn [app] in DI.
  assert (SG : forall j A, nth_error cs j = Some (CAssert A) -> cr_raw_id (aa_credential A) = id ->
     nth_error (snd (run_sched R s (map (handler W) cs) sched)) j = Some (Done (Ok tt)) -> signed_by (cdt_key cdt) A).
  { intros j A EC EI EP.
    destruct (sched_signed id (cdt_key cdt) cs sched s (map (handler W) cs)) with (i := j) (c := CAssert A) (p := @Done (Ok tt)) (A := A)
      as [HS|[Q|(r & Q & HN)]]; auto.
    - exists cdt. auto.
    - intros i c p E1 E2 A' -> _. right; left. rewrite nth_error_map, E1 in E2. now injection E2.
    - cbn [handler] in Q. unfold handle_credential_assertion in Q. destruct (assertion_pre W A); [discriminate|].
      exfalso. injection Q as Q. symmetry in Q. now apply wrap_raise_ok in Q.
    - injection Q as <-. congruence. }
  assert (X : exists ns, NoDup ns /\ List.length ns = List.length js /\
    forall n, In n ns -> exists j A, In j js /\ nth_error cs j = Some (CAssert A) /\ cr_raw_id (aa_credential A) = id /\
      nth_error (snd (run_sched R s (map (handler W) cs) sched)) j = Some (Done (Ok tt)) /\ assertion_counter A = Some n).
  { induction ND as [|j js F ND IH]; [exists []; repeat split; [constructor|intros n []]|].
    destruct IH as (ns & N1 & N2 & N3); [intros i I; apply HJ; now right|].
    destruct (HJ j (or_introl eq_refl)) as (A & E1 & E2 & E3).
    destruct (SG j A E1 E2 E3) as (cdj & adb & sig & h & ER & _).
    assert (EC : assertion_counter A = Some (counter_of adb)) by (unfold assertion_counter; now rewrite ER).
    exists (counter_of adb :: ns). split; [|split; [cbn; now rewrite N2|]].
    - constructor; [|exact N1]. intro I. destruct (N3 _ I) as (j' & A' & I' & F1 & F2 & F3 & F4).
      apply (DI j j' A A' (counter_of adb)); auto; [intros ->; contradiction|congruence].
    - intros n [<-|I]; [exists j, A; repeat split; auto; now left|].
      destruct (N3 _ I) as (j' & A' & I' & HH). exists j', A'. split; [now right|exact HH]. }
  destruct X as (ns & N1 & N2 & N3). rewrite <- N2.
  apply (distinct_counters (cdt_key cdt) signed cs ns H32 OS N1).
  intros n I. destruct (N3 n I) as (j & A & _ & E1 & E2 & E3 & E4). exists A. split; [eapply nth_error_In; eauto|eauto].
Qed.
End Phish.

(** ** Registration does not use the key *)
Section Readers.
Variables W W' : World.
Hypothesis SR : SameReaders W W'.

Lemma origin_readers e o : OriginSpec W e o -> OriginSpec W' e o.
Proof. unfold OriginSpec. now rewrite (sr_url _ _ SR). Qed.
Lemma client_readers c ch e tb cdj : ClientDataSpec W c ch e tb cdj -> ClientDataSpec W' c ch e tb cdj.
Proof.
  intros (text & d & cht & org & D & J & M1 & M2 & DC & M3 & OS & T). exists text, d, cht, org.
  rewrite <- (sr_json _ _ SR). repeat (split; [now auto|]). split; [now apply origin_readers|exact T].
Qed.
Lemma att_readers f b r a : AttRead W f b r a -> AttRead W' f b r a.
Proof. intros []; econstructor; eauto. now rewrite <- (sr_cbor _ _ SR). Qed.
Lemma ext_readers f b a : ExtRead W f b a -> ExtRead W' f b a.
Proof. intros []; econstructor; eauto. now rewrite <- (sr_cbor _ _ SR). Qed.
Lemma auth_readers rp uv ex adb ad : AuthDataSpec W rp uv ex adb ad -> AuthDataSpec W' rp uv ex adb ad.
Proof.
  intros (H1 & (b & H2 & H3) & H4). split.
  - destruct H1. econstructor; eauto using att_readers, ext_readers.
  - split; [|exact H4]. exists b. now rewrite <- (sr_sha256 _ _ SR).
Qed.
Lemma registration_readers A att : RegistrationSpec W A att -> RegistrationSpec W' A att.
Proof.
  intros (cdj & aob & adb & ad & ER & HC & (d & rest & L & M) & HA & H). exists cdj, aob, adb, ad.
  split; [exact ER|]. split; [now apply client_readers|]. split; [|split; [now apply auth_readers|exact H]].
  exists d, rest. now rewrite <- (sr_cbor _ _ SR).
Qed.
End Readers.

Lemma readers_sym W W' : SameReaders W W' -> SameReaders W' W.
Proof. intros []. now split. Qed.

Lemma c90_readers {S} (W W' : World) (R : registrar S) (s : S) (A : attestation_args) : SameReaders W W' ->
  (registration_succeeds W R s A <-> registration_succeeds W' R s A).
Proof.
  intro H. rewrite !c19_none. split; intros (att & s1 & HR & U); exists att, s1;
    eauto using registration_readers, readers_sym.
Qed.

(** ** Examples *)

Definition page_cdj (host : string) : bytes :=
  blit "{""type"":""webauthn.get"",""challenge"":""AQIDBA"",""origin"":""https://" ++ blit host ++
  blit """,""crossOrigin"":false}".
(** A page of [host] asks for RP id example.com with the challenge of [hon_auth]. *)
Definition page_signing (host : string) (ctr : N) : signing :=
  {| sg_ceremony := "webauthn.get"; sg_origin := lit "https://" ++ lit host; sg_challenge := ex_challenge;
     sg_rp_id := lit "example.com"; sg_touched := true; sg_verified := true;
     sg_adb := ex_ext_ad ctr; sg_cdj := page_cdj host |}.
(** Somebody presents it. *)
Definition page_auth (host : string) (ctr : N) : assertion_args :=
  {| aa_credential :=
       {| cr_id := lit "Y3JlZC0x"; cr_type := lit "public-key"; cr_raw_id := ex_raw_id;
          cr_response := AssertionResponse (page_cdj host) (ex_ext_ad ctr)
                           (sign_with 123456789 (ex_ext_ad ctr) (page_cdj host)) None |};
     aa_challenge := ex_challenge;
     aa_origin := ManyOrigins [lit "http://localhost:5000"; lit "https://example.com"];
     aa_rp := Some ex_rp; aa_user := Some ex_user; aa_allow := None; aa_token_binding := None;
     aa_require_uv := true; aa_extensions := None; aa_ignore_clone := false |}.

Lemma page_truthful host ctr : In host ["example.com"; "evil.example.com"]%string -> In ctr [4; 5]%N ->
  Truthful ex_world (page_signing host ctr).
Proof.
  assert (G : forall h, In h ["example.com"; "evil.example.com"]%string -> WebOrigin (lit "https://" ++ lit h)).
  { intros h HH. exists "https"%string, (lit h), None. split; [cbn; auto|].
    repeat (destruct HH as [<-|HH]; [split; [split; [discriminate|vm_compute; repeat constructor; intuition discriminate]|
      split; [intros t Q; discriminate|reflexivity]]|]). destruct HH. }
  intros HH HC. split; [now apply G|].
  repeat (destruct HH as [<-|HH]; [repeat (destruct HC as [<-|HC]; [
    (split; [vm_compute; reflexivity|]; split; [eexists; split; [vm_compute; reflexivity|vm_compute; reflexivity]|split; reflexivity])|]); destruct HC|]).
  destruct HH.
Qed.
Lemma page_signed host ctr k : OnlySigned ex_world k [page_signing host ctr] [CAssert (page_auth host ctr)].
Proof.
  intros c cdj adb sig [<-|[]] (A & h & Q & ER) _. injection Q as <-. cbn [page_auth aa_credential cr_response] in ER. injection ER as <- <- _ _.
  exists (page_signing host ctr). split; [now left|reflexivity].
Qed.
Lemma page_separate host ctr n : In host ["example.com"; "evil.example.com"]%string ->
  Separate ex_world (Hashed [page_signing host ctr] (page_auth host ctr) (ex_stored n)).
Proof.
  intro HH. assert (G : forall b, Hashed [page_signing host ctr] (page_auth host ctr) (ex_stored n) b ->
     b = page_cdj host \/ b = blit "example.com").
  { assert (U : utf8_encode (lit "example.com") = Ok (blit "example.com")) by reflexivity.
    assert (V : rp_id ex_rp = lit "example.com") by reflexivity.
    intros b [(g & [<-|[]] & [->|Q])|[(adb & sig & h & Q)|(rp & [Q|Q] & Q')]].
    - now left.
    - right. unfold page_signing in Q. cbn [sg_rp_id] in Q. rewrite U in Q. now injection Q.
    - left. unfold page_auth in Q. cbn [aa_credential cr_response] in Q. now injection Q.
    - right. cbn in Q. injection Q as <-. rewrite V, U in Q'. now injection Q'.
    - right. cbn in Q. injection Q as <-. rewrite V, U in Q'. now injection Q'. }
  intros a b HA HB Q. apply G in HA, HB.
  destruct HA as [->| ->], HB as [->| ->]; try reflexivity; exfalso;
    repeat (destruct HH as [<-|HH]; [vm_compute in Q; discriminate|]); destruct HH.
Qed.
Lemma mem_keeps : KeepsKeys mem_registrar (fun s id => mem_find id s).
Proof.
  intros s c ad u rp s' a cdt G V. cbn in G. rewrite V in G. injection G as <- _.
  eexists. split; [apply mem_find_set_same; exact V|reflexivity].
Qed.
Lemma cas_keeps : KeepsKeys cas_registrar (fun s id => mem_find id s).
Proof.
  intros s c ad u rp s' a cdt G V. cbn in G. rewrite V in G.
  destruct (match cdt_sign_count cdt with Some n => _ | None => _ end); injection G as <- _; [|eauto].
  eexists. split; [apply mem_find_set_same; exact V|reflexivity].
Qed.

(** No signature verifies, and no key can be loaded. *)
Definition deaf_world : World := {|
  w_sha256 := w_sha256 ex_world; w_cbor_load := w_cbor_load ex_world; w_json_loads := w_json_loads ex_world;
  w_url := w_url ex_world;
  w_ec_load _ _ _ := WRaise EValueError; w_ed25519_load _ := WRaise EValueError; w_ed448_load _ := WRaise EValueError;
  w_verify _ _ _ _ := WRaise EInvalidSignature;
  w_spki := w_spki ex_world; w_load_cert := w_load_cert ex_world; w_keydesc := w_keydesc ex_world; w_shows := w_shows ex_world; w_shows_exn := w_shows_exn ex_world |}.
Lemma c90_refuted :
  exists (W : World) (R : registrar mem_state) s A,
    registration_succeeds W R s A /\ (forall k o, ~ KeyObject W k o) /\
    (forall k sig data, ~ SignatureSpec W k sig data).
Proof.
  exists deaf_world, mem_registrar, [], (hon_reg 3). split; [vm_compute; reflexivity|].
  assert (K : forall k o, ~ KeyObject deaf_world k o) by (intros k o []; discriminate).
  split; [exact K|]. intros k sig data []; eapply K; eauto.
Qed.
