(** * CodecFacts: lemmas behind PropsCodec. *)
From Coq Require Import List NArith ZArith Bool Lia ZifyBool ZifyNat ZifyN String.
From Coq Require Import Strings.Byte.
From Verif Require Import Base PyVal BaseFacts B64 Url CaseConv CodecSpec B64Facts B64Round
  CaseFacts UrlFacts Cbor CborFacts CborExt Types World Parsers Spec FormatFacts AuthFacts BackendFacts
  KeyFacts Examples Backends.
Import ListNotations.
Local Open Scope list_scope.
Local Open Scope N_scope.

Lemma forallb_filter_id {A} (p : A -> bool) l : forallb p l = true -> filter p l = l.
Proof.
  induction l as [|x l IH]; [reflexivity|]. cbn [forallb filter]. intro H.
  apply andb_true_iff in H as [-> H]. now rewrite IH.
Qed.

Lemma c39_exact (UE : urlenv) (s : pystr) (o : origin) :
  parse_origin UE s = Ok o <-> OriginText UE s o.
Proof.
  apply parse_origin_iff.
Qed.

Lemma c39_sound (UE : urlenv) (s : pystr) (o : origin) :
  parse_origin UE s = Ok o ->
  (o_scheme o = lit "http" \/ o_scheme o = lit "https") /\
  o_host o <> [] /\ (forall c, In c (lit "/?#") -> ~ In c (o_host o)) /\
  (o_port o <= 65535)%N /\
  AuthorityPort (o_host o) (if str_eqb (o_scheme o) (lit "http") then 80 else 443)%N (o_port o) /\
  (exists sch tail, Cleaned s (sch ++ lit "://" ++ o_host o ++ tail)).
Proof.
  intro H. apply parse_origin_iff in H.
  destruct H as (_ & sch & auth & tail & name & CL & HI & HS & ES & NE & ND & EH & HT & BC & NK & HP).
  rewrite EH, ES. split; [destruct HI as [<-|[<-|[]]]; auto|]. split; [assumption|]. split; [assumption|].
  split.
  { destruct HP as (hi & p & _ & _ & [[_ ->]|[_ HP]]); [|assumption].
    destruct HI as [<-|[<-|[]]]; discriminate. }
  split; [destruct HI as [<-|[<-|[]]]; exact HP|]. exists sch, tail. exact CL.
Qed.

Lemma c40 (UE : urlenv) (name : string) (h : pystr) (p : option pystr) (n : N) :
  In name ["http"; "https"]%string -> host_name h ->
  match p with
  | None => n = default_port name
  | Some t => decimal t n /\ (n <= 65535)%N
  end ->
  parse_origin UE (origin_text name h p) =
  Ok {| o_scheme := lit name; o_host := authority h p; o_port := n |}.
Proof.
  intros HI [HN HF] HP. apply parse_origin_iff. unfold OriginText, origin_text.
  set (auth := authority h p).
  assert (FH : Forall (fun c => 32 < c < 128 /\ ~ In c (lit "/?#@:[]")) h) by exact HF.
  assert (DT : forall t, p = Some t -> Forall (fun c => 48 <= c <= 57) t /\ t <> []).
  { intros t ->. destruct HP as [HP _]. apply decimal_spec in HP as (HP1 & HP2 & _).
    split; [|assumption]. rewrite forallb_forall in HP2. apply Forall_forall. intros c Hc.
    specialize (HP2 c Hc). unfold is_digit in HP2. lia. }
  assert (FA : Forall (fun c => 32 < c < 128 /\ ~ In c (lit "/?#@[]")) auth).
  { unfold auth, authority. destruct p as [t|].
    - apply Forall_app. split.
      + eapply Forall_impl; [|exact FH]. intros c [H1 H2]. split; [assumption|].
        cbn in H2 |- *. intuition.
      + apply Forall_app. split.
        * repeat constructor; cbn; intuition discriminate.
        * eapply Forall_impl; [|apply (DT t eq_refl)]. intros c Hc. cbv beta in Hc. cbn. lia.
    - eapply Forall_impl; [|exact FH]. intros c [H1 H2]. split; [assumption|]. cbn in H2 |- *. intuition. }
  assert (NIN : forall c, In c (lit "/?#@[]") -> ~ In c auth).
  { intros c Hc I. rewrite Forall_forall in FA. now apply FA in I as [_ I]. }
  assert (FN : Forall (fun c => 32 < c) (lit name)).
  { destruct HI as [<-|[<-|[]]]; vm_compute; repeat constructor. }
  split.
  { exists (lit name), auth. reflexivity. }
  exists (lit name), auth, [], name. rewrite app_nil_r.
  split.
  { exists [], (lit name ++ lit "://" ++ auth). split; [reflexivity|]. split; [constructor|].
    assert (FB : Forall (fun c => 32 < c) (lit name ++ lit "://" ++ auth)).
    { apply Forall_app. split; [assumption|]. apply Forall_app. split; [vm_compute; repeat constructor|].
      eapply Forall_impl; [|exact FA]. intros c [H1 _]. lia. }
    split; [destruct (lit name ++ _); [exact I|]; now inversion FB|].
    symmetry. apply forallb_filter_id. apply forallb_forall. intros c Hc.
    rewrite Forall_forall in FB. apply FB in Hc. cbn [existsb]. lia. }
  split; [assumption|]. split.
  { unfold scheme_text. clear. induction (lit name); constructor; [now left|assumption]. }
  split; [reflexivity|]. split.
  { unfold auth, authority. destruct p; [destruct h; discriminate|assumption]. }
  split; [intros c Hc; apply NIN; cbn in Hc |- *; intuition|]. split; [reflexivity|].
  split; [now left|]. split.
  { left. split; apply NIN; cbn; auto 8. }
  split.
  { left. eapply Forall_impl; [|exact FA]. intros c [H1 _]. lia. }
  cbn [o_port]. unfold AuthorityPort.
  assert (HH : ~ In 58 h).
  { intro I. rewrite Forall_forall in FH. apply FH in I as [_ I]. apply I. cbn. auto 8. }
  exists auth. destruct p as [t|].
  - exists t. split; [left; split; [apply NIN; cbn; auto 8|reflexivity]|]. split; [|now right].
    apply pt_plain; [apply NIN; cbn; auto 8|]. right. exists h. split; [reflexivity|assumption].
  - exists []. split; [left; split; [apply NIN; cbn; auto 8|reflexivity]|]. split; [|left; auto].
    apply pt_plain; [apply NIN; cbn; auto 8|]. left. split; [assumption|reflexivity].
Qed.

Lemma ex_canonical :
  host_name (lit "login.example.org") /\ decimal (lit "8443") 8443 /\
  parse_origin {| ue_bracket_ok := fun _ => true; ue_nfkc_ok := fun _ => true |}
    (origin_text "https" (lit "login.example.org") (Some (lit "8443"))) =
  Ok {| o_scheme := lit "https"; o_host := lit "login.example.org:8443"; o_port := 8443 |}.
Proof.
  split; [|split].
  - split; [discriminate|]. vm_compute.
    repeat (constructor; [split; [split; reflexivity|intuition discriminate]|]). constructor.
  - apply decimal_spec. split; [discriminate|]. vm_compute. auto.
  - vm_compute. reflexivity.
Qed.

Lemma c41_refuted (UE : urlenv) (name : string) (h : pystr) :
  In name ["http"; "https"]%string -> host_name h ->
  exists t o o', decimal t (default_port name) /\
    parse_origin UE (origin_text name h None) = Ok o /\
    parse_origin UE (origin_text name h (Some t)) = Ok o' /\
    o_scheme o = o_scheme o' /\ o_port o = o_port o' /\ o <> o'.
Proof.
  intros HI HH.
  assert (D : exists t, decimal t (default_port name)).
  { destruct HI as [<-|[<-|[]]]; [exists (lit "80")|exists (lit "443")]; apply decimal_spec;
      (split; [discriminate|]); vm_compute; auto. }
  destruct D as (t & D). exists t. do 2 eexists. split; [exact D|].
  split; [apply (c40 UE name h None); auto|].
  split; [apply (c40 UE name h (Some t) (default_port name)); auto; split; [assumption|];
          destruct HI as [<-|[<-|[]]]; discriminate|].
  cbn [o_scheme o_port]. split; [reflexivity|]. split; [reflexivity|].
  intro E. apply (f_equal o_host) in E. cbn [o_host authority] in E.
  apply (f_equal (@List.length N)) in E. rewrite !app_length in E. cbn in E. lia.
Qed.

Lemma ex_host : In "https"%string ["http"; "https"]%string /\ host_name (lit "a.org").
Proof.
  split; [cbn; auto|]. split; [discriminate|]. vm_compute.
  repeat (constructor; [split; [split; reflexivity|intuition discriminate]|]). constructor.
Qed.

Lemma split_unique (c : N) (a a' b b' : list N) :
  ~ In c a -> ~ In c a' -> a ++ c :: b = a' ++ c :: b' -> a = a' /\ b = b'.
Proof.
  revert a'. induction a as [|x a IH]; intros [|y a'] H1 H2 E; cbn [app] in E; injection E.
  - auto.
  - intros _ <-. exfalso. apply H2. now left.
  - intros _ ->. exfalso. apply H1. now left.
  - intros E' ->. destruct (IH a') as [-> ->]; auto.
    + intro. apply H1. now right.
    + intro. apply H2. now right.
Qed.

Lemma c41_partial (UE : urlenv) (name name' : string) (h h' : pystr) (p p' : option pystr) (o o' : origin) :
  In name ["http"; "https"]%string -> In name' ["http"; "https"]%string ->
  host_name h -> host_name h' -> PortShown p -> PortShown p' -> (p = None <-> p' = None) ->
  parse_origin UE (origin_text name h p) = Ok o ->
  parse_origin UE (origin_text name' h' p') = Ok o' ->
  (o = o' <-> name = name' /\ h = h' /\ p = p').
Proof.
  intros HI HI' HH HH' HP HP' HS P P'.
  assert (A : forall nm hh q oo, In nm ["http"; "https"]%string -> host_name hh -> PortShown q ->
    parse_origin UE (origin_text nm hh q) = Ok oo -> o_scheme oo = lit nm /\ o_host oo = authority hh q).
  { clear. intros nm hh q oo HI HH HP P. destruct q as [t|].
    - destruct (HP t eq_refl) as (n & D & L).
      rewrite (c40 UE nm hh (Some t) n HI HH) in P by auto. injection P as <-. auto.
    - rewrite (c40 UE nm hh None _ HI HH eq_refl) in P. injection P as <-. auto. }
  split.
  - intros <-. destruct (A _ _ _ _ HI HH HP P) as [A1 A2].
    destruct (A _ _ _ _ HI' HH' HP' P') as [B1 B2].
    split. { rewrite A1 in B1. destruct HI as [<-|[<-|[]]], HI' as [<-|[<-|[]]]; auto; discriminate. }
    rewrite A2 in B2. destruct p as [t|], p' as [t'|]; cbn [authority] in B2.
    + assert (N1 : ~ In 58 h). { intro I. destruct HH as [_ HH]. rewrite Forall_forall in HH.
        apply HH in I as [_ I]. apply I. cbn. auto 8. }
      assert (N2 : ~ In 58 h'). { intro I. destruct HH' as [_ HH']. rewrite Forall_forall in HH'.
        apply HH' in I as [_ I]. apply I. cbn. auto 8. }
      change (lit ":" ++ t) with (58 :: t) in B2. change (lit ":" ++ t') with (58 :: t') in B2.
      destruct (split_unique 58 h h' t t' N1 N2 B2) as [-> ->]. auto.
    + exfalso. destruct HS as [_ HS]. now specialize (HS eq_refl).
    + exfalso. destruct HS as [HS _]. now specialize (HS eq_refl).
    + auto.
  - intros (-> & -> & ->). rewrite P in P'. now injection P'.
Qed.

Lemma ex_port_shown : PortShown (Some (lit "8443")) /\ PortShown None.
Proof.
  split; [|discriminate]. intros t E. injection E as <-. exists 8443. split; [|discriminate].
  apply ex_canonical.
Qed.

Lemma c42_ignored (W : World) (tags : tagsem) (depth : nat) (b t : bytes) (r : att_obj * pydict) :
  (forall x, w_cbor_load W x = cbor_load_tags tags depth x) ->
  parse_attestation_object W b = Ok r -> parse_attestation_object W (b ++ t) = Ok r.
Proof.
  intros HW. destruct r as [o d]. rewrite !c43. intros (rest & adb & sd & ad & f & st & H1 & H2).
  exists (rest ++ t), adb, sd, ad, f, st. split; [|exact H2].
  rewrite HW in H1 |- *. now apply cbor_load_ext.
Qed.

Lemma c42_refuted : exists W b t r, t <> [] /\ parse_attestation_object W b = Ok r /\
  parse_attestation_object W (b ++ t) = Ok r.
Proof.
  exists ex_world, (ex_att_obj "fido-u2f" ex_u2f_stmt (ex_reg_ad 0)), [x00].
  eexists. split; [discriminate|]. split; vm_compute; reflexivity.
Qed.

Lemma c42_partial (W : World) (b : bytes) (o : att_obj) (d : pydict) :
  cbor_reads_prefix W -> parse_attestation_object W b = Ok (o, d) ->
  exists adb ad, member "authData" d (VBytes adb) /\ ao_auth_data o = Some ad /\
    AuthLayout W adb ad.
Proof.
  intros HW H. apply c43 in H as (rest & adb & sd & ad & f & st & _ & _ & _ & _ & _ & H1 & H2 & ->).
  exists adb, ad. split; [assumption|]. split; [reflexivity|].
  apply c29_prefix; [assumption|]. now apply c29.
Qed.

Lemma c44_rfc (b : bytes) :
  url_base64_encode b = rfc4648 url_alphabet b.
Proof.
  apply url_encode_rfc.
Qed.

Lemma c44 (b : bytes) (s : pystr) (k : nat) :
  url_base64_encode b = s ++ repeat 61%N k -> url_base64_decode s = Ok b.
Proof.
  apply url_round_trip.
Qed.

Lemma c44_inj (b b' : bytes) :
  url_base64_encode b = url_base64_encode b' -> b = b'.
Proof.
  intro E. pose proof (c44 b (url_base64_encode b) 0 (eq_sym (app_nil_r _))) as H1.
  pose proof (c44 b' (url_base64_encode b') 0 (eq_sym (app_nil_r _))) as H2.
  rewrite E in H1. rewrite H1 in H2. now injection H2.
Qed.

Lemma c44_std (b : bytes) :
  b2a b = rfc4648 std_alphabet b /\ bytes_from_base64 (b2a b) = Ok b.
Proof.
  split; [apply b2a_rfc|]. unfold bytes_from_base64. rewrite std_round_trip. reflexivity.
Qed.

Lemma c45_refuted : url_base64_decode (lit "AQI") = Ok [x01; x02] /\
  url_base64_decode (lit "A!Q*I") = Ok [x01; x02] /\
  url_base64_decode (lit "AQJ") = Ok [x01; x02] /\
  url_base64_decode (lit "-_") = url_base64_decode (lit "+/") /\
  bytes_from_base64 (url_base64_encode [xfb; xef; xbe]) = Ok [].
Proof.
  vm_compute. repeat split; reflexivity.
Qed.

Lemma c45_junk (s1 s2 : pystr) (c : N) :
  (c < 128)%N -> c <> 61%N -> symbol_value c = None ->
  url_base64_decode (s1 ++ c :: s2) = url_base64_decode (s1 ++ s2).
Proof.
  apply url_decode_junk.
Qed.

Lemma c45_exact (s : pystr) :
  ~ In 61%N s ->
  url_base64_decode s =
  if forallb (fun c => c <? 128)%N s then
    if (List.length (symbol_values s) mod 4 =? 1)%nat then Raise (Py EBinasciiError)
    else Ok (octets (List.concat (map sextet_bits (symbol_values s))))
  else Raise (Py EValueError).
Proof.
  apply url_decode_exact.
Qed.

Lemma c45_std_exact (s : pystr) :
  ~ In 61%N s ->
  bytes_from_base64 s =
  let vs := values_in std_alphabet s in
  if (forallb (fun c => c <? 128)%N s && (List.length vs mod 4 =? 0)%nat)%bool
  then Ok (octets (List.concat (map sextet_bits vs)))
  else Raise (Lib DecodingError).
Proof.
  intro H. unfold bytes_from_base64. rewrite std_decode_exact by assumption. cbv zeta.
  destruct (forallb _ s); [|reflexivity]. now destruct (_ =? 0)%nat.
Qed.

Lemma strip_eq (s s' : pystr) j k :
  ~ In 61 s -> ~ In 61 s' -> s ++ repeat 61 j = s' ++ repeat 61 k -> s = s'.
Proof.
  revert s'. induction s as [|c s IH]; intros [|c' s'] H1 H2 E; [reflexivity| | |].
  - destruct j; [discriminate|]. cbn in E. injection E as <- _. exfalso. apply H2. now left.
  - destruct k; [discriminate|]. cbn in E. injection E as -> _. exfalso. apply H1. now left.
  - cbn [app] in E. injection E as -> E. f_equal. apply IH; auto.
    + intro. apply H1. now right.
    + intro. apply H2. now right.
Qed.
Lemma symbols_no_pad vs : Forall (fun v => v < 64) vs -> ~ In 61 (symbols url_alphabet vs).
Proof.
  intros HF I. unfold symbols in I. apply in_map_iff in I as (v & E & Hv).
  rewrite Forall_forall in HF. specialize (HF v Hv).
  assert (G : ~ In 61 url_alphabet) by (vm_compute; intuition discriminate).
  apply G. rewrite <- E. apply nth_In. change (List.length url_alphabet) with 64%nat. lia.
Qed.

Lemma c45_partial (s s' : pystr) :
  CanonicalUrl s -> CanonicalUrl s' ->
  (exists b, url_base64_decode s = Ok b /\ s = rfc4648_unpadded url_alphabet b) /\
  (url_base64_decode s = url_base64_decode s' -> s = s').
Proof.
  intros H H'.
  assert (A : forall x, CanonicalUrl x ->
    exists b, url_base64_decode x = Ok b /\ x = rfc4648_unpadded url_alphabet b).
  { clear. intros x H. destruct (canonical_decode x H) as (b & k & D & E). exists b.
    split; [assumption|]. rewrite url_encode_rfc in E. unfold rfc4648 in E. cbv zeta in E.
    apply strip_eq in E; [congruence| |].
    - apply symbols_no_pad. apply sextets_lt.
    - destruct H as (vs & -> & HF & _). now apply symbols_no_pad. }
  split; [now apply A|]. destruct (A s H) as (b & D & E), (A s' H') as (b' & D' & E').
  intro ED. rewrite D, D' in ED. injection ED as ED. congruence.
Qed.

Lemma ex_canonical_text : CanonicalUrl (lit "-__-AQ").
Proof.
  exists [62; 63; 63; 62; 0; 16]. split; [vm_compute; reflexivity|]. split; [repeat constructor|].
  reflexivity.
Qed.

Lemma c46 (U : unicode) (w : pystr) (ws : list pystr) :
  ascii_ok U -> first_word w -> Forall later_word ws ->
  snake_to_camel U (snake w ws) = camel w ws /\
  camel_to_snake U (camel w ws) = snake w ws.
Proof.
  intros OK H1 H2. split; [now apply to_camel|now apply to_snake].
Qed.

Lemma c46_idem (U : unicode) (s : pystr) :
  (forall c, c <> 95%N -> ~ In 95%N (u_upper U c)) ->
  ~ In 95%N (snake_to_camel U s) /\
  snake_to_camel U (snake_to_camel U s) = snake_to_camel U s.
Proof.
  intro HU. pose proof (camel_no_us U s HU) as N. split; [exact N|]. now apply camel_fix.
Qed.

Lemma ext_attr_present e x : has_nonnull_attr (Some x) (ext_key e) = true <-> ExtPresent e x.
Proof.
  assert (D : forall {A} (o : option A), is_some o = true <-> o <> None).
  { intros A [a|]; cbn; split; congruence. }
  destruct e; cbn [ExtPresent]; rewrite <- D; unfold has_nonnull_attr, ext_attrs;
    generalize (is_some (ex_appid x)), (is_some (ex_tx_auth_simple x)),
      (is_some (ex_tx_auth_generic x)), (is_some (ex_authn_sel x)), (is_some (ex_exts x)),
      (is_some (ex_uvi x)), (is_some (ex_loc x)), (is_some (ex_uvm x)),
      (is_some (ex_biometric_perf_bounds x)); intros b1 b2 b3 b4 b5 b6 b7 b8 b9;
    destruct b1, b2, b3, b4, b5, b6, b7, b8, b9; vm_compute; tauto.
Qed.

Lemma c46_keys (U : unicode) (e : ext_id) (x : ext_outputs) :
  ascii_ok U ->
  camel_to_snake U (ext_value e) = ext_key e /\
  (has_nonnull_attr (Some x) (ext_key e) = true <-> ExtPresent e x).
Proof.
  intro OK. split; [now apply ext_key_any_unicode|]. apply ext_attr_present.
Qed.

Lemma ex_names :
  ascii_ok ascii_unicode /\ first_word (lit "pub") /\ Forall later_word [lit "key"; lit "cred"; lit "params"]
  /\ snake (lit "pub") [lit "key"; lit "cred"; lit "params"] = lit "pub_key_cred_params"
  /\ camel (lit "pub") [lit "key"; lit "cred"; lit "params"] = lit "pubKeyCredParams".
Proof.
  split; [constructor; reflexivity|]. split.
  { split; [discriminate|]. vm_compute. repeat (constructor; [left; split; discriminate|]). constructor. }
  split; [|split; vm_compute; reflexivity].
  assert (G : forall c t, is_az c -> Forall is_az t -> later_word (c :: t)).
  { intros c t Hc Ht. exists c, t. split; [reflexivity|]. split; [assumption|].
    eapply Forall_impl; [|exact Ht]. auto. }
  repeat constructor; apply G; vm_compute; (split; discriminate) || (repeat constructor; discriminate).
Qed.
Lemma ex_upper : forall c, c <> 95 -> ~ In 95 (u_upper ascii_unicode c).
Proof.
  intros c H I. cbn in I. unfold ascii_lower in I.
  destruct ((97 <=? c) && (c <=? 122)) eqn:E; destruct I as [I|[]]; lia.
Qed.
