(** * AuthFacts: authenticator data. *)
From Coq Require Import List NArith ZArith Bool Lia ZifyBool ZifyNat ZifyN String.
From Coq Require Import Strings.Byte.
From Verif Require Import Base PyVal BaseFacts B64 Utf8 Url Types World Parsers Crypto
  Backends FormatSpec Spec FormatFacts.
Import ListNotations.
Local Open Scope res_scope.
Local Open Scope list_scope.
Ltac Zify.zify_post_hook ::= Z.div_mod_to_equations.

(** ** Flags *)
Lemma has_flag_bit k n : has_flag (2 ^ k) n = N.testbit n k.
Proof.
  unfold has_flag.
  assert (E : N.land (2 ^ k) n = if N.testbit n k then (2 ^ k)%N else 0%N).
  { apply N.bits_inj. intro i. rewrite N.land_spec, N.pow2_bits_eqb.
    destruct (N.eqb k i) eqn:E.
    - apply N.eqb_eq in E. subst i. destruct (N.testbit n k); cbn.
      + now rewrite N.pow2_bits_true.
      + reflexivity.
    - destruct (N.testbit n k); cbn.
      + rewrite N.pow2_bits_eqb. now rewrite E.
      + reflexivity. }
  rewrite E. destruct (N.testbit n k); [|reflexivity].
  assert (2 ^ k <> 0)%N by (apply N.pow_nonzero; lia).
  now apply negb_true_iff, N.eqb_neq.
Qed.

Lemma flag_up n : has_flag FLAG_UP n = N.testbit n 0.
Proof. exact (has_flag_bit 0 n). Qed.
Lemma flag_uv n : has_flag FLAG_UV n = N.testbit n 2.
Proof. exact (has_flag_bit 2 n). Qed.
Lemma flag_at n : has_flag FLAG_AT n = N.testbit n 6.
Proof. exact (has_flag_bit 6 n). Qed.
Lemma flag_ed n : has_flag FLAG_ED n = N.testbit n 7.
Proof. exact (has_flag_bit 7 n). Qed.

(** ** Extensions *)
Lemma is_some_spec {A} (o : option A) : is_some o = true <-> o <> None.
Proof. destruct o; split; (discriminate || congruence || reflexivity). Qed.

Lemma has_nonnull_attr_spec x e :
  has_nonnull_attr x (ext_key e) = true <-> exists o, x = Some o /\ ExtPresent e o.
Proof.
  destruct x as [o|]; [|split; [discriminate|intros (? & ? & _); discriminate]].
  assert (H : has_nonnull_attr (Some o) (ext_key e) = true <-> ExtPresent e o).
  { destruct e; unfold has_nonnull_attr, ext_attrs, ExtPresent;
      rewrite <- is_some_spec; cbn - [is_some];
      repeat rewrite orb_false_r; reflexivity. }
  rewrite H. split; [eauto|]. intros (? & E & ?). congruence.
Qed.

Lemma check_extensions_ok x l :
  check_extensions x l = Ok tt <->
  forall e, In e l -> exists o, x = Some o /\ ExtPresent e o.
Proof.
  induction l as [|e t IH]; cbn [check_extensions].
  - split; [intros _ e []|reflexivity].
  - split.
    + intro H. inv_ok H. apply has_nonnull_attr_spec in Hb.
      intros e' [<-|Hin]; [assumption|]. now apply IH.
    + intro H. rewrite (proj2 (has_nonnull_attr_spec x e) (H e (or_introl eq_refl))).
      cbn [check bind]. apply IH. intros; apply H; cbn; auto.
Qed.

Lemma check_extensions_raise x l e :
  check_extensions x l = Raise e ->
  e = Lib ExtensionError /\ exists i, In i l /\ ~ exists o, x = Some o /\ ExtPresent i o.
Proof.
  induction l as [|i t IH]; cbn [check_extensions]; [discriminate|].
  destruct (has_nonnull_attr x (ext_key i)) eqn:E; cbn [check bind].
  - intro H. destruct (IH H) as (-> & i' & ? & ?). split; [reflexivity|]. exists i'; cbn; auto.
  - intro H. injection H as <-. split; [reflexivity|]. exists i. split; [cbn; auto|].
    rewrite <- has_nonnull_attr_spec, E. discriminate.
Qed.

(** ** Key validation *)
Lemma validate_iff k : validate k = Ok tt <-> UsableKey k.
Proof.
  split.
  - intro H. destruct k as [b x y [f c]|b [f c] x|b]; cbn [validate] in H; [| |discriminate].
    + inv_ok H. destruct (kb_kty b) as [fk kt] eqn:Ek. destruct (kb_alg b) as [[f' a']|] eqn:Ea; [|discriminate].
      cbn in *. destruct kt; try discriminate.
      econstructor; eauto; destruct c, a'; cbn in *; try discriminate; auto.
    + inv_ok H. destruct (kb_kty b) as [fk kt] eqn:Ek. destruct (kb_alg b) as [[f' a']|] eqn:Ea; [|discriminate].
      cbn in *. destruct kt; try discriminate. destruct a'; try discriminate.
      econstructor; eauto; destruct c; cbn in *; try discriminate; auto.
  - intro H. inversion H as [b x y f c f' a fk H1 H2 H3 H4|b x f c f' fk H1 H2 H3]; subst;
      cbn [validate]; rewrite H1, H2; cbn.
    + destruct H3 as [<-|[<-|[<-|[]]]]; destruct H4 as [<-|[<-|[<-|[]]]]; reflexivity.
    + destruct H3 as [<-|[<-|[]]]; reflexivity.
Qed.

(** ** The parser *)
Section W.
Variable W : World.

Lemma read_bytes_ok bio n x rest :
  read_bytes bio n = Ok (x, rest) <-> bio = x ++ rest /\ List.length x = n.
Proof.
  unfold read_bytes. split.
  - intro H. inv_ok H. apply Nat.eqb_eq in Hb. split; [|assumption].
    symmetry. apply take_drop.
  - intros [-> L]. rewrite take_app, drop_app by assumption.
    rewrite L, Nat.eqb_refl. reflexivity.
Qed.

Lemma parse_attested_ok bio a rest :
  parse_attested W bio = Ok (a, rest) <->
  exists aaguid cid bio' d k,
    bio = aaguid ++ N_to_be 2 (N.of_nat (List.length cid)) ++ cid ++ bio' /\
    List.length aaguid = 16 /\ (N.of_nat (List.length cid) < 65536)%N /\
    w_cbor_load W bio' = WOk (VDict d, rest) /\
    CoseKey d k /\ UsableKey k /\
    a = {| at_aaguid := aaguid; at_id_length := N.of_nat (List.length cid);
           at_id := cid; at_key := Some k |}.
Proof.
  unfold parse_attested. rewrite catch_ok. split.
  - intro H.
    apply bind_ok in H as ([aaguid bio1] & H1 & H).
    apply bind_ok in H as ([lenb bio2] & H2 & H).
    apply bind_ok in H as ([cid bio3] & H3 & H).
    apply bind_ok in H as ([v bio4] & H4 & H).
    apply read_bytes_ok in H1 as [-> L1], H2 as [-> L2], H3 as [-> L3].
    inv_ok H4. destruct v as [| | | | | | | |d| |]; try discriminate.
    inv_ok H. destruct a1.
    match goal with V : validate _ = Ok _ |- _ => apply validate_iff in V end.
    match goal with V : parse_cose_key_dict W _ = Ok _ |- _ => apply cose_key_iff in V end.
    assert (BL : (be_to_N lenb < 65536)%N).
    { pose proof (be_to_N_bound lenb) as B. rewrite L2 in B. exact B. }
    assert (EL : N.of_nat (List.length cid) = be_to_N lenb) by lia.
    exists aaguid, cid, bio3, d, a0. rewrite EL. repeat split; try assumption.
    assert (RT : N_to_be 2 (be_to_N lenb) = lenb).
    { apply be_to_N_inj; [now rewrite N_to_be_length|]. apply be_to_N_to_be. exact BL. }
    now rewrite RT.
  - intros (aaguid & cid & bio' & d & k & -> & L1 & L2 & H4 & H5 & H6 & ->).
    rewrite (proj2 (read_bytes_ok _ 16 aaguid _) (conj eq_refl L1)). cbn [bind].
    rewrite (proj2 (read_bytes_ok _ 2 (N_to_be 2 (N.of_nat (List.length cid))) _)
                   (conj eq_refl (N_to_be_length 2 _))). cbn [bind].
    rewrite be_to_N_to_be by exact L2. rewrite Nnat.Nat2N.id.
    rewrite (proj2 (read_bytes_ok _ _ cid _) (conj eq_refl eq_refl)). cbn [bind].
    apply validate_iff in H6. apply (cose_key_iff (W := W)) in H5.
    rewrite H4. cbn [lift catch bind]. rewrite H5. cbn [bind]. rewrite H6. reflexivity.
Qed.

Lemma parse_ext_data_ok bio x rest :
  parse_ext_data W bio = Ok (x, rest) <->
  exists d, w_cbor_load W bio = WOk (VDict d, rest) /\ ExtMap d x.
Proof.
  unfold parse_ext_data. rewrite catch_ok. split.
  - intro H. apply bind_ok in H as ([v b] & H1 & H). inv_ok H1.
    destruct v as [| | | | | | | |d| |]; try discriminate. inv_ok H.
    apply extensions_iff in Hb. eauto.
  - intros (d & H1 & H2). apply (extensions_iff (W := W)) in H2. rewrite H1. cbn [lift catch bind].
    rewrite H2. reflexivity.
Qed.

Lemma nth_split32 (b : bytes) :
  37 <= List.length b ->
  exists hash f ctr tl, b = hash ++ [f] ++ ctr ++ tl /\
    List.length hash = 32 /\ List.length ctr = 4.
Proof.
  intro L.
  exists (firstn 32 b).
  destruct (skipn 32 b) as [|f r] eqn:E.
  { assert (List.length (skipn 32 b) = 0) by now rewrite E. rewrite skipn_length in H. lia. }
  exists f, (firstn 4 r), (skipn 4 r).
  assert (Lr : List.length (f :: r) = List.length b - 32) by (rewrite <- E; apply skipn_length).
  cbn in Lr. repeat split.
  - rewrite <- (firstn_skipn 32 b) at 1. rewrite E. cbn. f_equal. f_equal.
    change (r = take 4 r ++ drop 4 r). now rewrite take_drop.
  - rewrite firstn_length. lia.
  - rewrite firstn_length. lia.
Qed.

Lemma header_fields (hash : bytes) f ctr tl :
  List.length hash = 32 -> List.length ctr = 4 ->
  let b := hash ++ [f] ++ ctr ++ tl in
  take 32 b = hash /\ nth 32 b (byte_of_N 0) = f /\ take 4 (drop 33 b) = ctr /\
  drop 37 b = tl /\ Nat.ltb (List.length b) 37 = false.
Proof.
  intros L1 L2 b. subst b. repeat split.
  - now apply take_app.
  - rewrite app_nth2 by lia. now rewrite L1.
  - change (hash ++ [f] ++ ctr ++ tl) with (hash ++ ([f] ++ ctr ++ tl)).
    rewrite app_assoc. rewrite drop_app by (rewrite app_length; cbn; lia).
    now apply take_app.
  - rewrite !app_assoc. apply drop_app. rewrite !app_length. cbn. lia.
  - apply Nat.ltb_ge. rewrite !app_length. cbn. lia.
Qed.

(** The parser on a split header. *)
Lemma parse_header hash f ctr tl :
  List.length hash = 32 -> List.length ctr = 4 ->
  parse_authenticator_data W (hash ++ [f] ++ ctr ++ tl) =
  ('(att, bio) <- (if N.testbit (Byte.to_N f) 6 then
                    '(a, bio) <- parse_attested W tl ;; Ok (Some a, bio)
                  else Ok (None, tl)) ;;
  '(ext, bio) <- (if N.testbit (Byte.to_N f) 7 then
                    '(x, bio) <- parse_ext_data W bio ;; Ok (Some x, bio)
                  else Ok (None, bio)) ;;
  check (match bio with [] => true | _ => false end) (Lib ParserError) ;;;
  Ok {| ad_rp_id_hash := hash; ad_flags := Byte.to_N f; ad_sign_count := be_to_N ctr;
        ad_attested := att; ad_extensions := ext |}).
Proof.
  intros L1 L2. unfold parse_authenticator_data.
  destruct (header_fields hash f ctr tl L1 L2) as (E1 & E2 & E3 & E4 & E5).
  rewrite E5. cbn [negb check bind].
  rewrite E1, E2, E3, E4. unfold N_of_byte. rewrite flag_at, flag_ed. reflexivity.
Qed.

Lemma auth_reads_iff b ad :
  parse_authenticator_data W b = Ok ad <-> AuthReads W b ad.
Proof.
  split.
  - intro H.
    assert (L : 37 <= List.length b).
    { unfold parse_authenticator_data in H. apply bind_ok in H as (? & H & _).
      apply check_ok, negb_true_iff, Nat.ltb_ge in H. exact H. }
    destruct (nth_split32 b L) as (hash & f & ctr & tl & -> & L1 & L2).
    rewrite parse_header in H by assumption.
    apply bind_ok in H as ([att bio] & HA & H).
    apply bind_ok in H as ([ext bio2] & HE & H).
    inv_ok H. destruct bio2; [|discriminate].
    apply (auth_reads W hash f ctr tl bio att ext); try assumption.
    + destruct (N.testbit (Byte.to_N f) 6).
      * apply bind_ok in HA as ([a0 bio0] & HA & E). injection E as <- <-.
        apply parse_attested_ok in HA as
          (aaguid & cid & bio' & d & k & -> & A1 & A2 & A3 & A4 & A5 & ->).
        econstructor; eauto.
      * injection HA as <- <-. constructor.
    + destruct (N.testbit (Byte.to_N f) 7).
      * apply bind_ok in HE as ([x0 bio0] & HE & E). injection E as <- ->.
        apply parse_ext_data_ok in HE as (d & X1 & X2). econstructor; eauto.
      * injection HE as <- ->. constructor.
  - intro H. inversion H as [hash f ctr tl extb att ext L1 L2 HA HE]; subst; clear H.
    rewrite parse_header by assumption.
    match goal with |- bind ?m _ = _ => assert (E1 : m = Ok (att, extb)) end.
    { inversion HA as [follow B|aaguid cid tl' follow d k A1 A2 A3 A4 A5 B];
        subst; [reflexivity|].
      erewrite (proj2 (parse_attested_ok _ _ _)).
      2:{ exists aaguid, cid, tl', d, k. repeat split; eauto. }
      reflexivity. }
    rewrite E1. cbn [bind].
    inversion HE as [B B2|b0 d x X1 X2 B]; subst; [reflexivity|].
    erewrite (proj2 (parse_ext_data_ok _ _ _)) by eauto. reflexivity.
Qed.

(** With a decoder that reads a prefix, reading is the inverse of concatenation. *)
Lemma auth_layout_reads b ad : AuthLayout W b ad -> AuthReads W b ad.
Proof.
  intro H. inversion H as [hash f ctr attb extb att ext L1 L2 HA HE]; subst; clear H.
  apply (auth_reads W hash f ctr (attb ++ extb) extb); try assumption.
  inversion HA as [follow B|aaguid cid keyb follow d k A1 A2 A3 A4 A5 B]; subst.
  - constructor.
  - rewrite <- !app_assoc. econstructor; eauto.
Qed.

Lemma auth_reads_layout b ad :
  cbor_reads_prefix W -> AuthReads W b ad -> AuthLayout W b ad.
Proof.
  intros HP H. inversion H as [hash f ctr tl extb att ext L1 L2 HA HE]; subst; clear H.
  assert (PA : exists attb, tl = attb ++ extb /\ AttPart W (N.testbit (Byte.to_N f) 6) attb extb att).
  { inversion HA as [follow B|aaguid cid tl' follow d k A1 A2 A3 A4 A5 B]; subst.
    - exists []. split; [reflexivity|constructor].
    - destruct (HP _ _ _ A3) as (keyb & ->).
      exists (aaguid ++ N_to_be 2 (N.of_nat (List.length cid)) ++ cid ++ keyb).
      split; [now rewrite <- !app_assoc|]. econstructor; eauto. }
  destruct PA as (attb & -> & PA). constructor; assumption.
Qed.

Lemma auth_layout_parse b ad :
  AuthLayout W b ad -> parse_authenticator_data W b = Ok ad.
Proof. intro H. now apply auth_reads_iff, auth_layout_reads. Qed.

Lemma auth_parse_layout b ad :
  cbor_reads_prefix W ->
  parse_authenticator_data W b = Ok ad -> AuthLayout W b ad.
Proof. intros HP H. now apply auth_reads_layout, auth_reads_iff. Qed.

(** Fixed fields, without any assumption on the CBOR decoder. *)
Lemma auth_fields b ad :
  parse_authenticator_data W b = Ok ad ->
  37 <= List.length b /\
  ad_rp_id_hash ad = firstn 32 b /\
  ad_flags ad = Byte.to_N (nth 32 b x00) /\
  ad_sign_count ad = counter_of b /\
  (is_some (ad_attested ad) = flag_bit b 6) /\
  (is_some (ad_extensions ad) = flag_bit b 7).
Proof.
  intro H.
  assert (L : 37 <= List.length b).
  { unfold parse_authenticator_data in H. apply bind_ok in H as (? & H & _).
    apply check_ok, negb_true_iff, Nat.ltb_ge in H. exact H. }
  split; [exact L|]. revert H.
  destruct (nth_split32 b L) as (hash & f & ctr & tl & -> & L1 & L2). intro H.
  rewrite parse_header in H by assumption.
  destruct (header_fields hash f ctr tl L1 L2) as (E1 & E2 & E3 & E4 & E5).
  unfold counter_of, flag_bit. change x00 with (byte_of_N 0).
  unfold take, drop in *. rewrite E1, E2, E3.
  apply bind_ok in H as ([att bio] & HA & H).
  apply bind_ok in H as ([ext bio2] & HE & H).
  inv_ok H. cbn. repeat split.
  - destruct (N.testbit (Byte.to_N f) 6).
    + apply bind_ok in HA as ([a0 bio0] & HA & E). now injection E as <- <-.
    + now injection HA as <- <-.
  - destruct (N.testbit (Byte.to_N f) 7).
    + apply bind_ok in HE as ([x0 bio0] & HE & E). now injection E as <- ->.
    + now injection HE as <- ->.
Qed.

Lemma auth_counter_bound b ad :
  parse_authenticator_data W b = Ok ad -> (ad_sign_count ad < 4294967296)%N.
Proof.
  intro H. destruct (auth_fields _ _ H) as (L & _ & _ & -> & _).
  unfold counter_of. pose proof (be_to_N_bound (firstn 4 (skipn 33 b))) as B.
  eapply N.lt_le_trans; [exact B|]. rewrite firstn_length, skipn_length.
  change 4294967296%N with (256 ^ 4)%N. apply N.pow_le_mono_r; lia.
Qed.

Lemma auth_data_spec_iff rpid uv exts adb ad :
  AuthDataSpec W rpid uv exts adb ad <->
  exists rpb, utf8_encode rpid = Ok rpb /\
    parse_authenticator_data W adb = Ok ad /\
    check_auth_data (w_sha256 W rpb) uv exts ad = Ok tt.
Proof.
  split.
  - intros (HP & (rpb & R1 & R2) & HF & HV & HX). apply auth_reads_iff in HP. exists rpb. repeat split; try assumption.
    destruct (auth_fields _ _ HP) as (_ & F1 & F2 & _).
    unfold check_auth_data. rewrite F1, R2, bytes_eqb_refl. cbn [check bind].
    rewrite flag_up, flag_uv, F2. unfold flag_bit in *. rewrite HF. cbn [check bind].
    replace (negb uv || _) with true.
    2:{ destruct uv; [|reflexivity]. now rewrite HV. }
    cbn [check bind]. destruct exts as [l|]; [|reflexivity].
    apply check_extensions_ok. intros e He. now apply (HX l e).
  - intros (rpb & R1 & HP & H). destruct (auth_fields _ _ HP) as (_ & F1 & F2 & _).
    unfold check_auth_data in H.
    apply bind_ok in H as (? & H1 & H). apply check_ok, bytes_eqb_spec in H1.
    apply bind_ok in H as (? & H2 & H). apply check_ok in H2.
    apply bind_ok in H as (? & H3 & H). apply check_ok in H3.
    rewrite flag_up, F2 in H2. rewrite flag_uv, F2 in H3.
    split; [now apply auth_reads_iff|]. split; [exists rpb; split; congruence|].
    split; [assumption|]. split.
    + intros ->. exact H3.
    + intros l e -> He. rewrite check_extensions_ok in H. auto.
Qed.

End W.
