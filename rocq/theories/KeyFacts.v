(** * KeyFacts: serialisation of keys and authenticator data, and the format properties. *)
From Coq Require Import List NArith ZArith Bool Lia String.
From Coq Require Import Strings.Byte.
From Verif Require Import Base PyVal BaseFacts B64 Utf8 Url Cbor CborFacts Types World Parsers
  Crypto Backends Spec FormatFacts StepSpec MapFailSpec MapFails ClientFacts AuthFacts RaiseFacts CryptoFacts BackendFacts
  Examples.
Import ListNotations.
Local Open Scope res_scope.
Local Open Scope list_scope.

Lemma kty_entry_val m : entry kty_table (enum_val kty_enum m) m.
Proof. apply kty_entry. destruct m as [[|] []]; vm_compute; reflexivity. Qed.
Lemma alg_entry_val m : entry alg_table (enum_val alg_enum m) m.
Proof. apply alg_entry. destruct m as [[|] []]; vm_compute; reflexivity. Qed.
Lemma op_entry_val m : entry op_table (enum_val keyop_enum m) m.
Proof. apply op_entry. destruct m as [[|] []]; vm_compute; reflexivity. Qed.
Lemma ec2_entry_val f c : In c [P_256; P_384; P_521] -> entry ec2_table (crv_val (f, c)) (f, c).
Proof. intros [<-|[<-|[<-|[]]]]; apply ec2_entry; destruct f; vm_compute; reflexivity. Qed.
Lemma okp_entry_val f c : In c [ED25519; ED448] -> entry okp_table (crv_val (f, c)) (f, c).
Proof. intros [<-|[<-|[]]]; apply okp_entry; destruct f; vm_compute; reflexivity. Qed.

Lemma ops_entries l : Forall2 (entry op_table) (map (enum_val keyop_enum) l) l.
Proof. induction l; constructor; auto using op_entry_val. Qed.

(** Labels of the base dictionary, with anything but these labels behind it. *)
Lemma base_cose b d tl :
  base_cose_dictionary b = Ok d -> kb_key_ops b <> Some [] ->
  (forall z, In z [1; 2; 3; 4; 5]%Z -> dict_find (VInt z) tl = None) ->
  CoseBase (d ++ tl) (surviving_base b).
Proof.
  unfold base_cose_dictionary. intros H HN HT. apply bind_ok in H as (a & Ha & H).
  destruct (kb_alg b) as [a'|] eqn:EA; [|discriminate]. injection Ha as ->.
  apply (f_equal (fun r => match r with Ok x => x | _ => [] end)) in H. cbv iota in H. subst d.
  pose proof (HT 2%Z ltac:(cbn; auto)) as T2. pose proof (HT 4%Z ltac:(cbn; auto)) as T4.
  pose proof (HT 5%Z ltac:(cbn; auto 6)) as T5.
  unfold CoseBase, surviving_base, label, opt_label, no_label.
  cbn [kb_kty kb_kid kb_alg kb_key_ops kb_base_IV].
  assert (O : forall l, l <> [] -> key_ops_shape l (VList (map (enum_val keyop_enum) l))).
  { intros l Hl. split; [assumption|]. eexists. split; [left; reflexivity|]. apply ops_entries. }
  split; [|split; [|split; [|split]]].
  - exists (enum_val kty_enum (kb_kty b)). split; [reflexivity|apply kty_entry_val].
  - destruct (kb_kid b); [eexists; split; reflexivity|]. unfold label.
    destruct (kb_key_ops b); cbn - [enum_val map]; rewrite T2; discriminate.
  - exists (enum_val alg_enum a), a. split; [|split; [apply alg_entry_val|assumption]].
    destruct (kb_kid b); reflexivity.
  - destruct (kb_key_ops b) as [l|].
    + exists (VList (map (enum_val keyop_enum) l)). split; [destruct (kb_kid b); reflexivity|].
      apply O. congruence.
    + destruct (kb_kid b); cbn - [enum_val map]; rewrite T4; discriminate.
  - destruct (kb_key_ops b) as [l|].
    + destruct (kb_base_IV b) as [iv|].
      * exists (VBytes iv). split; [destruct (kb_kid b); reflexivity|reflexivity].
      * intro v. destruct (kb_kid b); cbn - [enum_val map]; intro H; injection H as <-; reflexivity.
    + destruct (kb_kid b); cbn - [enum_val map]; rewrite T5; discriminate.
Qed.

Lemma base_find b d tl z :
  base_cose_dictionary b = Ok d -> ~ In z [1; 2; 3; 4; 5]%Z ->
  dict_find (VInt z) (d ++ tl) = dict_find (VInt z) tl.
Proof.
  unfold base_cose_dictionary. intros H HN. apply bind_ok in H as (a & Ha & H).
  apply (f_equal (fun r => match r with Ok x => x | _ => [] end)) in H. cbv iota in H. subst d.
  assert (E : forall x, In x [1; 2; 3; 4; 5]%Z -> py_eq (VInt x) (VInt z) = false).
  { intros x Hx. cbn [py_eq]. apply Z.eqb_neq. intros ->. now apply HN. }
  assert (E1 := E 1%Z ltac:(cbn; auto)). assert (E2 := E 2%Z ltac:(cbn; auto)).
  assert (E3 := E 3%Z ltac:(cbn; auto)). assert (E4 := E 4%Z ltac:(cbn; auto)).
  assert (E5 := E 5%Z ltac:(cbn; auto 6)).
  destruct (kb_kid b), (kb_key_ops b); cbn [opt_entry app dict_find];
    rewrite ?E1, ?E2, ?E3, ?E4, ?E5; reflexivity.
Qed.

Lemma cose_dictionary_key k d :
  WellFormedKey k -> cose_dictionary k = Ok d -> CoseKey d (surviving_key k).
Proof.
  intros HW H. destruct k as [b x y [f c]|b [f c] x|b]; cbn [cose_dictionary WellFormedKey surviving_key] in *.
  - destruct HW as (H1 & H2 & H3 & H4 & H5 & H6). apply bind_ok in H as (d0 & HB & H).
    apply (f_equal (fun r => match r with Ok x => x | _ => [] end)) in H. cbv iota in H. subst d.
    eapply ck_ec2.
    + apply base_cose; try assumption. intros z Hz. cbn in Hz.
      intuition (subst; reflexivity).
    + assumption.
    + unfold label. rewrite (base_find b) by (try assumption; cbn; lia). reflexivity.
    + now apply ec2_entry_val.
    + unfold label. rewrite (base_find b) by (try assumption; cbn; lia). reflexivity.
    + unfold label. rewrite (base_find b) by (try assumption; cbn; lia). reflexivity.
    + assumption.
    + assumption.
  - destruct HW as (H1 & H2 & H3 & H4 & H5). apply bind_ok in H as (d0 & HB & H).
    apply (f_equal (fun r => match r with Ok x => x | _ => [] end)) in H. cbv iota in H. subst d.
    eapply ck_okp.
    + apply base_cose; try assumption. intros z Hz. cbn in Hz.
      intuition (subst; reflexivity).
    + assumption.
    + unfold label. rewrite (base_find b) by (try assumption; cbn; lia). reflexivity.
    + now apply okp_entry_val.
    + unfold label. rewrite (base_find b) by (try assumption; cbn; lia). reflexivity.
    + assumption.
  - destruct HW.
Qed.

(** The dictionaries of [cose_key] decode to themselves. *)
Lemma enum_val_scalar {A} (t : enum_table A) m : cscalar (enum_val t m).
Proof. destruct m as [[|] a]; exact I. Qed.

Lemma ops_plain l n : cplain (Datatypes.S n) (VList (map (enum_val keyop_enum) l)).
Proof.
  apply cp_list. induction l; constructor; auto. apply cp_scalar, enum_val_scalar.
Qed.

Lemma cose_dictionary_plain k d n :
  cose_dictionary k = Ok d -> cplain (Datatypes.S (Datatypes.S n)) (VDict d).
Proof.
  intro H.
  assert (Q : exists b d0 tl, base_cose_dictionary b = Ok d0 /\ d = d0 ++ tl /\
    ((exists crv x y, tl = [(VInt (-1), crv_val crv); (VInt (-2), VBytes x); (VInt (-3), VBytes y)]) \/
     (exists crv x, tl = [(VInt (-1), crv_val crv); (VInt (-2), VBytes x)]))).
  { destruct k as [b x y crv|b crv x|b]; cbn [cose_dictionary] in H; [| |discriminate];
      apply bind_ok in H as (d0 & HB & H);
      apply (f_equal (fun r => match r with Ok x => x | _ => [] end)) in H; cbv iota in H; subst d;
      exists b, d0; eexists; (split; [exact HB|]); (split; [reflexivity|]); eauto. }
  destruct Q as (b & d0 & tl & HB & -> & HT).
  unfold base_cose_dictionary in HB. apply bind_ok in HB as (a & _ & HB).
  apply (f_equal (fun r => match r with Ok x => x | _ => [] end)) in HB. cbv iota in HB. subst d0.
  apply cp_dict.
  - destruct (kb_kid b), (kb_key_ops b), HT as [(crv & x & y & ->)|(crv & x & ->)];
      cbn [opt_entry app distinct_keys];
      repeat (split; [intros k' v' Hin; cbn in Hin;
        repeat (destruct Hin as [Hin|Hin]; [injection Hin as <- _; reflexivity|]); destruct Hin|]);
      exact I.
  - destruct (kb_kid b), (kb_key_ops b), HT as [(crv & x & y & ->)|(crv & x & ->)];
      cbn [opt_entry app]; repeat constructor.
  - destruct (kb_kid b), (kb_key_ops b), (kb_base_IV b), HT as [(crv & x & y & ->)|(crv & x & ->)];
      cbn [opt_entry app]; repeat (apply Forall_cons; [|]); try apply Forall_nil; cbn [snd];
      try apply ops_plain; try (apply cp_scalar; apply enum_val_scalar); apply cp_scalar; exact I.
Qed.

Lemma surviving_same k :
  (kb_key_ops (key_base_of k) = None -> kb_base_IV (key_base_of k) = None) ->
  surviving_key k = k.
Proof.
  assert (B : forall b, (kb_key_ops b = None -> kb_base_IV b = None) -> surviving_base b = b).
  { intros [kt kid a ops iv] H. unfold surviving_base. cbn in *. destruct ops; [reflexivity|].
    now rewrite H. }
  destruct k; cbn [key_base_of surviving_key]; intro H; [| |reflexivity]; now rewrite B.
Qed.

Lemma cose_bytes W n k d b :
  decodes_cbor W (Datatypes.S (Datatypes.S n)) -> WellFormedKey k -> cose_dictionary k = Ok d ->
  cbor_dumps (VDict d) = Some b ->
  parse_cose_key_bytes W b = Ok (surviving_key k).
Proof.
  intros HD HW HC HB. unfold parse_cose_key_bytes, cbor_loads.
  assert (L : w_cbor_load W b = WOk (VDict d, [])).
  { apply HD. rewrite <- (app_nil_r b) at 1. apply cbor_load_dumps; [|assumption].
    eapply cose_dictionary_plain; eauto. }
  rewrite L. cbn [catch bind]. apply cose_key_iff. now apply cose_dictionary_key.
Qed.

Lemma c29 (W : World) (b : bytes) (ad : auth_data) :
  parse_authenticator_data W b = Ok ad <-> AuthReads W b ad.
Proof.
  apply auth_reads_iff.
Qed.

Lemma c29_prefix (W : World) (b : bytes) (ad : auth_data) :
  cbor_reads_prefix W ->
  (parse_authenticator_data W b = Ok ad <-> AuthLayout W b ad).
Proof.
  intro H. split; [now apply auth_parse_layout|apply auth_layout_parse].
Qed.

Lemma c30 (W : World) (depth : nat) (hash : bytes) (flags : byte) (ctr : N) (attb extb : bytes)
  (att : option attested) (ext : option ext_outputs) :
  decodes_cbor W depth -> 2 <= depth ->
  List.length hash = 32 -> (ctr < 2 ^ 32)%N ->
  AttSerial (N.testbit (Byte.to_N flags) 6) attb att ->
  ExtSerial depth (N.testbit (Byte.to_N flags) 7) extb ext ->
  parse_authenticator_data W (hash ++ [flags] ++ N_to_be 4 ctr ++ attb ++ extb) =
  Ok {| ad_rp_id_hash := hash; ad_flags := Byte.to_N flags; ad_sign_count := ctr;
        ad_attested := att; ad_extensions := ext |}.
Proof.
  intros HD HP HL HC HA HE.
  assert (EC : ctr = be_to_N (N_to_be 4 ctr)).
  { symmetry. apply be_to_N_to_be. exact HC. }
  rewrite EC at 2. apply auth_layout_parse. apply auth_layout.
  - assumption.
  - apply N_to_be_length.
  - inversion HA as [E1 E2 E3|aaguid cid k d keyb L1 L2 HW HU HB HK HS E1 E2 E3]; subst.
    + apply ap_absent.
    + apply ap_present with (d := d); try assumption.
      * apply HD. apply cbor_load_dumps; [|assumption].
        destruct depth as [|[|n]]; [lia|lia|]. eapply cose_dictionary_plain; eauto.
      * rewrite <- (surviving_same k HB). now apply cose_dictionary_key.
  - inversion HE as [E1 E2 E3|d x b HM HPl HS E1 E2 E3]; subst; econstructor; eauto.
    apply HD. rewrite <- (app_nil_r extb) at 1. now apply cbor_load_dumps.
Qed.

Lemma ex_serial :
  decodes_cbor ex_world 900 /\
  (exists att, AttSerial true ex_attested (Some att)) /\
  (exists x, ExtSerial 900 true (dumps (VDict ex_ext_map)) (Some x)).
Proof.
  split; [intros b v rest H; exact H|]. split.
  - eexists.
    apply (as_present ex_aaguid ex_raw_id ex_key ex_key_map (dumps (VDict ex_key_map))).
    + reflexivity.
    + reflexivity.
    + cbn. repeat split; try discriminate. auto.
    + eapply uk_ec2; cbn; eauto.
    + reflexivity.
    + reflexivity.
    + reflexivity.
  - assert (E : exists x, parse_extensions ex_world ex_ext_map = Ok x) by (eexists; vm_compute; reflexivity).
    destruct E as (x & E). apply extensions_iff in E. exists x.
    apply (es_present 900 ex_ext_map); [exact E| |vm_compute; reflexivity].
    change 900 with (Datatypes.S 899). apply cp_dict.
    + cbn [ex_ext_map distinct_keys]. split; [|split; [intros ? ? []|exact I]].
      intros k' v' [H|[]]. injection H as <- <-. reflexivity.
    + repeat constructor.
    + repeat (apply Forall_cons; [apply cp_scalar; exact I|]). apply Forall_nil.
Qed.

Lemma c31 (W : World) (b : bytes) (ad : auth_data) (acd : attested) :
  parse_authenticator_data W b = Ok ad -> ad_attested ad = Some acd ->
  exists k, at_key acd = Some k /\ UsableKey k /\ CoordsOk k.
Proof.
  intros H HA. apply auth_reads_iff in H. destruct H as [hash flags ctr tl extb att ext L1 L2 HAt HE].
  cbn [ad_attested] in HA. subst att.
  inversion HAt as [|aaguid cid tl' follow d k LA LC HL HK HU E1 E2 E3 E4]; subst.
  exists k. split; [reflexivity|]. split; [assumption|].
  destruct HK as [b0 x y crv v K1 K2 K3 K4 K5 K6 K7 K8|b0 x crv v K1 K2 K3 K4 K5 K6];
    destruct crv as [f c]; cbn in *; auto.
Qed.

Lemma c32_partial (W : World) (depth : nat) (k : pubkey) (d : pydict) (b : bytes) :
  decodes_cbor W depth -> 2 <= depth -> WellFormedKey k ->
  (kb_key_ops (key_base_of k) = None -> kb_base_IV (key_base_of k) = None) ->
  cose_dictionary k = Ok d -> cbor_dumps (VDict d) = Some b ->
  parse_cose_key_bytes W b = Ok k.
Proof.
  intros HD HP HW HI HC HB. destruct depth as [|[|n]]; [lia|lia|].
  rewrite (cose_bytes W n k d b HD HW HC HB). now rewrite surviving_same.
Qed.

Lemma c32_general (W : World) (depth : nat) (k : pubkey) (d : pydict) (b : bytes) :
  decodes_cbor W depth -> 2 <= depth -> WellFormedKey k ->
  cose_dictionary k = Ok d -> cbor_dumps (VDict d) = Some b ->
  parse_cose_key_bytes W b = Ok (surviving_key k).
Proof.
  intros HD HP HW HC HB. destruct depth as [|[|n]]; [lia|lia|]. eapply cose_bytes; eauto.
Qed.

Lemma c32_refuted :
  exists (W : World) (k : pubkey) d b k',
    decodes_cbor W 900 /\ WellFormedKey k /\
    cose_dictionary k = Ok d /\ cbor_dumps (VDict d) = Some b /\
    parse_cose_key_bytes W b = Ok k' /\ k' <> k.
Proof.
  exists ex_world, (OKPKey {| kb_kty := (FValue, KT_OKP); kb_kid := None;
            kb_alg := Some (FValue, EDDSA); kb_key_ops := None; kb_base_IV := Some [x01] |}
         (FValue, ED25519) ex_x).
  do 3 eexists. split; [intros b v rest H; exact H|].
  split; [cbn; repeat split; try discriminate; auto|].
  split; [reflexivity|]. split; [vm_compute; reflexivity|]. split; [vm_compute; reflexivity|].
  discriminate.
Qed.

(** What comes out of a parser of maps, when it fails. *)
Definition map_error (W : World) (l : list libexn) (e : exn) : Prop :=
  (exists c, e = Lib c /\ In c l) \/ (e = Py EValueError /\ exists v, shows W v = false).
Lemma only_map_error W l e : OnlyLib W l e -> map_error W l e.
Proof. destruct e as [c|p|n]; cbn; [left; eauto| |contradiction]. intros [-> H]. right. auto. Qed.

Lemma c33 (W : World) (d : pydict) :
  (forall k, parse_cose_key_dict W d = Ok k <-> CoseKey d k) /\
  (forall e, parse_cose_key_dict W d = Raise e <-> CoseMapFails W d e).
Proof. split; [apply cose_key_iff|apply cose_map_fails_iff]. Qed.

Lemma ex_cose_key : CoseKey ex_key_map ex_key.
Proof. apply (cose_key_iff (W := ex_world)). vm_compute. reflexivity. Qed.

Lemma c33_bytes (W : World) (b : bytes) (k : pubkey) :
  parse_cose_key_bytes W b = Ok k <->
  exists d rest, w_cbor_load W b = WOk (VDict d, rest) /\ CoseKey d k.
Proof.
  unfold parse_cose_key_bytes, cbor_loads. split.
  - intro H. apply bind_ok in H as (v & Hv & H). apply catch_ok in Hv.
    destruct (w_cbor_load W b) as [[v' r]|]; [|discriminate]. injection Hv as ->.
    destruct v; try discriminate. apply cose_key_iff in H. eauto.
  - intros (d & r & E & HK). rewrite E. cbn [catch bind]. now apply cose_key_iff.
Qed.

Lemma c34 (W : World) (f : att_fmt) (d : pydict) :
  (forall st, statement_parser W f d = Ok st <-> StmtMap d f st) /\
  (forall e, statement_parser W f d = Raise e <-> StmtMapFails W d f e).
Proof. split; intro; [apply statement_iff|apply stmt_map_fails_iff]. Qed.

Lemma ex_statement :
  StmtMap [(skey "sig", VBytes [x01]); (skey "alg", VInt (-7)); (skey "x5c", VTuple [VBytes [x02]])]
          F_PACKED (S_PackedX509 (FValue, ES256) [x01] [[x02]]).
Proof. apply (statement_iff (W := ex_world)). vm_compute. reflexivity. Qed.

Lemma c35 (W : World) (d : pydict) :
  (forall x, parse_extensions W d = Ok x <-> ExtMap d x) /\
  (forall e, parse_extensions W d = Raise e <-> FirstFailure (ext_steps W d) e).
Proof. split; intro; [apply extensions_iff|apply ext_map_fails_iff]. Qed.

Lemma ex_extensions : exists x, ExtMap ex_ext_map x /\ ex_uvi x = Some (blit "finger").
Proof.
  assert (E : exists x, parse_extensions ex_world ex_ext_map = Ok x /\ ex_uvi x = Some (blit "finger"))
    by (eexists; split; vm_compute; reflexivity).
  destruct E as (x & E & E'). apply extensions_iff in E. eauto.
Qed.

Lemma c37 (W : World) (d : pydict) :
  (forall c, parse_public_key_credential W d = Ok c <-> CredentialMap d c) /\
  (forall e, parse_public_key_credential W d = Raise e <-> CredentialFails W d e).
Proof. split; intro; [apply credential_iff|apply credential_fails_iff]. Qed.

(** Everything else comes out of making a message. *)
Lemma map_errors (W : World) (f : att_fmt) (d : pydict) (e : exn) :
  (CoseMapFails W d e -> map_error W [ParserError] e) /\
  (StmtMapFails W d f e -> map_error W [ParserError] e) /\
  (FirstFailure (ext_steps W d) e -> map_error W [ParserError] e) /\
  (CredentialFails W d e -> map_error W [ParserError; DecodingError] e).
Proof.
  repeat split; intro H; apply only_map_error.
  - apply cose_map_fails_iff in H. exact (parse_cose_key_dict_raises W d e H).
  - apply stmt_map_fails_iff in H. exact (statement_raises W f d e H).
  - apply ext_map_fails_iff in H. exact (parse_extensions_raises W d e H).
  - apply credential_fails_iff in H. exact (parse_public_key_credential_raises W d e H).
Qed.

Lemma c43 (W : World) (b : bytes) (o : att_obj) (d : pydict) :
  parse_attestation_object W b = Ok (o, d) <->
  exists rest adb sd ad f st,
    w_cbor_load W b = WOk (VDict d, rest) /\
    member "fmt" d (VStr (lit (fmt_name f))) /\
    member "attStmt" d (VDict sd) /\ StmtMap sd f st /\ stmt_fmt st = f /\
    member "authData" d (VBytes adb) /\ AuthReads W adb ad /\
    o = {| ao_auth_data := Some ad; ao_fmt := f; ao_stmt := st |}.
Proof.
  rewrite parse_attestation_object_ok.
  assert (FN : forall f, fmt_value f = lit (fmt_name f)) by (intros []; reflexivity).
  split.
  - intros (rest & adb & sd & ad & f & st & H1 & H2 & H3 & H4 & H5 & H6 & H7).
    exists rest, adb, sd, ad, f, st. rewrite FN in H3.
    pose proof (stmt_fmt_ok _ _ _ _ H6). apply auth_reads_iff in H5. apply statement_iff in H6. auto 10.
  - intros (rest & adb & sd & ad & f & st & H1 & H2 & H3 & H4 & H5 & H6 & H7 & H8).
    exists rest, adb, sd, ad, f, st. rewrite FN.
    apply auth_reads_iff in H7. apply (statement_iff (W := W)) in H4. auto 10.
Qed.

Lemma c51 (W : World) (k : pubkey) (sig data : bytes) :
  (verify W k sig data = Ok tt <-> SignatureSpec W k sig data) /\
  (forall b x y crv o f a h,
     k = EC2Key b x y crv -> KeyObject W k o -> kb_alg b = Some (f, a) -> AlgHash a h ->
     w_verify W o (ECDSA h) sig data = WRaise EInvalidSignature ->
     verify W k sig data = Raise (Lib VerificationError)) /\
  (forall b x crv o,
     k = OKPKey b crv x -> KeyObject W k o ->
     w_verify W o PureEdDSA sig data = WRaise EInvalidSignature ->
     verify W k sig data = Raise (Lib VerificationError)).
Proof.
  split; [apply verify_iff|]. split.
  - intros b x y crv o f a h -> HK HA HH HV. apply cpk_iff in HK. cbn [verify].
    rewrite HK. cbn [bind]. rewrite HA. apply (hash_iff f) in HH. rewrite HH. cbn [bind].
    rewrite HV. reflexivity.
  - intros b x crv o -> HK HV. apply cpk_iff in HK. cbn [verify].
    rewrite HK. cbn [bind]. rewrite HV. reflexivity.
Qed.

Lemma c52 (k : pubkey) :
  (validate k = Ok tt <-> UsableKey k) /\
  (match k with
   | EC2Key b _ _ _ => snd (kb_kty b) = KT_EC2 /\ kb_alg b <> None
   | OKPKey b _ _ => snd (kb_kty b) = KT_OKP /\ kb_alg b <> None
   | OtherKey _ => False
   end -> ~ UsableKey k -> validate k = Raise (Lib ValidationError)).
Proof.
  split; [apply validate_iff|apply validate_error].
Qed.

Lemma c53 (W : World) (k : pubkey) (o : cpk) :
  cryptography_public_key W k = Ok o <-> KeyObject W k o.
Proof.
  apply cpk_iff.
Qed.

Lemma c53_inj (W : World) (k k' : pubkey) (o : cpk) :
  cryptography_public_key W k = Ok o -> cryptography_public_key W k' = Ok o ->
  (exists b x y f c b' x' y' f',
     k = EC2Key b x y (f, c) /\ k' = EC2Key b' x' y' (f', c) /\
     (List.length x = List.length x' -> x = x') /\ (List.length y = List.length y' -> y = y')) \/
  (exists b x f c b' f', k = OKPKey b (f, c) x /\ k' = OKPKey b' (f', c) x).
Proof.
  intros H H'. apply cpk_iff in H, H'.
  destruct H; inversion H'; subst; first
    [ left; do 9 eexists; split; [reflexivity|]; split; [reflexivity|];
      split; intro L; apply be_to_N_inj; congruence
    | right; do 6 eexists; split; reflexivity ].
Qed.
