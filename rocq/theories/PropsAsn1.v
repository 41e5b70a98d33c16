(** * Properties C62-C64: the key description extension of Android Key attestation. *)
From Coq Require Import List NArith ZArith Bool String Lia Sorting.Sorted.
From Coq Require Import Strings.Byte.
From Verif Require Import Base PyVal B64 Utf8 Url Types World Parsers Crypto Backends Spec
  History Examples Der Asn1 DerSpec KeyDescFacts.
Import ListNotations.
Local Open Scope list_scope.

(** ** A description, as a version 3 keymaster writes it *)

Definition ex_description (challenge : bytes) : description :=
  {| de_attestation_version := 3; de_attestation_level := 1; de_keymaster_version := 4;
     de_keymaster_level := 1; de_challenge := challenge; de_unique_id := [];
     de_software := [];
     de_tee := [(1%N, FSet [2%Z]); (702%N, FInt 0)] |}.
Definition ex_description_der (challenge : bytes) : bytes :=
  [x30; byte_of_N (N.of_nat (34 + List.length challenge));
   x02; x01; x03; x0a; x01; x01; x02; x01; x04; x0a; x01; x01;
   x04; byte_of_N (N.of_nat (List.length challenge))] ++ challenge ++
  [x04; x00; x30; x00; x30; x0e;
   xa1; x05; x31; x03; x02; x01; x02; xbf; x85; x3e; x03; x02; x01; x00].

Lemma short_item cls c n i content : (n < 31)%N -> (List.length content < 128)%nat ->
  i = first_octet cls c n ->
  Item true cls c n content (i :: byte_of_N (N.of_nat (List.length content)) :: content).
Proof.
  intros L1 L2 ->. eexists [_], [_]. split; [left; split; [exact L1|reflexivity]|].
  split; [left; split; [lia|reflexivity]|reflexivity].
Qed.

Lemma small_integer t i z x : (t < 31)%N -> i = first_octet Universal false t ->
  (0 <= z < 128)%Z -> x = byte_of_N (Z.to_N z) -> IntegerItem true t z [i; x01; x].
Proof.
  intros L EI LZ ->. exists [byte_of_N (Z.to_N z)]. split.
  - repeat split; cbn [List.length Z.of_nat]; try lia; try discriminate; auto.
    change (256 ^ Z.of_nat 1)%Z with 256%Z. rewrite Z.mod_small by lia.
    unfold be_to_N; cbn [fold_left]. assert (Z.to_N z < 256)%N by lia.
    rewrite BaseFacts.N_of_byte_of_N by assumption. lia.
  - exact (short_item Universal false t i [_] L ltac:(cbn; lia) EI).
Qed.

Lemma ex_purpose_item :
  FieldItem true (1%N, FSet [2%Z]) [xa1; x05; x31; x03; x02; x01; x02].
Proof.
  exists [x31; x03; x02; x01; x02], []. split; [|split; [reflexivity|]].
  - exists [[x02; x01; x02]]. split.
    + constructor; [|constructor].
      apply small_integer; [lia|reflexivity|lia|reflexivity].
    + apply (short_item Universal true 17 x31 [x02; x01; x02]); [lia|cbn; lia|reflexivity].
  - apply (short_item Context true 1 xa1 [x31; x03; x02; x01; x02]);
      [cbn; lia|cbn; lia|reflexivity].
Qed.

Lemma ex_origin_item : FieldItem true (702%N, FInt 0) [xbf; x85; x3e; x03; x02; x01; x00].
Proof.
  exists [x02; x01; x00], []. split; [|split; [reflexivity|]].
  - cbn [snd AuthorizationItem]. apply small_integer; [lia|reflexivity|lia|reflexivity].
  - exists [xbf; x85; x3e], [x03].
    split; [|split; [left; split; [cbn; lia|reflexivity]|reflexivity]].
    right. exists [5%N], 62%N. repeat split; cbn; try lia. repeat constructor; lia.
Qed.

Lemma ex_description_item challenge : (List.length challenge < 90)%nat ->
  DescriptionItem true (ex_description challenge) (ex_description_der challenge).
Proof.
  intros L.
  exists [x02; x01; x03], [x0a; x01; x01], [x02; x01; x04], [x0a; x01; x01],
    (x04 :: byte_of_N (N.of_nat (List.length challenge)) :: challenge), [x04; x00], [x30; x00],
    [x30; x0e; xa1; x05; x31; x03; x02; x01; x02; xbf; x85; x3e; x03; x02; x01; x00].
  cbn [ex_description de_attestation_version de_attestation_level de_keymaster_version
       de_keymaster_level de_challenge de_unique_id de_software de_tee].
  repeat match goal with |- _ /\ _ => split end;
    try (apply small_integer; [lia|reflexivity|lia|reflexivity]).
  - apply short_item; [lia|lia|reflexivity].
  - apply (short_item Universal false 4 x04 []); [lia|cbn; lia|reflexivity].
  - split; [split; constructor|]. exists []. split; [constructor|].
    apply (short_item Universal true 16 x30 []); [lia|cbn; lia|reflexivity].
  - split.
    + split.
      * repeat constructor.
      * repeat constructor; cbn; tauto.
    + exists [[xa1; x05; x31; x03; x02; x01; x02]; [xbf; x85; x3e; x03; x02; x01; x00]].
      split.
      2:{ apply (short_item Universal true 16 x30
              [xa1; x05; x31; x03; x02; x01; x02; xbf; x85; x3e; x03; x02; x01; x00]);
            [lia|cbn; lia|reflexivity]. }
      constructor; [|constructor; [|constructor]].
      * exact ex_purpose_item.
      * exact ex_origin_item.
  - unfold ex_description_der.
    replace (byte_of_N (N.of_nat (34 + List.length challenge))) with
      (byte_of_N (N.of_nat (List.length
        ([x02; x01; x03] ++ [x0a; x01; x01] ++ [x02; x01; x04] ++ [x0a; x01; x01] ++
         (x04 :: byte_of_N (N.of_nat (List.length challenge)) :: challenge) ++ [x04; x00] ++
         [x30; x00] ++
         [x30; x0e; xa1; x05; x31; x03; x02; x01; x02; xbf; x85; x3e; x03; x02; x01; x00])))).
    + apply (short_item Universal true 16 x30); [lia| |reflexivity].
      cbn [app List.length]. rewrite app_length. cbn [List.length]. lia.
    + f_equal. f_equal. cbn [app List.length]. rewrite app_length. cbn [List.length]. lia.
Qed.

(** C62 *)
Theorem C62_decoding_exact :
  forall (depth : nat) (b : bytes) (kd : key_description), (5 <= depth)%nat ->
  decode_key_description depth b = WOk kd <->
  exists d p ignored, b = p ++ ignored /\ DescriptionItem false d p /\ DescriptionRead d kd.
Proof. exact (@c62_exact). Qed.
Print Assumptions C62_decoding_exact.

Example hyp_decoded :
  decode_key_description 5 (ex_description_der (blit "challenge") ++ [x00; x01])
  = WOk {| kd_challenge := blit "challenge";
           kd_software := {| al_purpose := None; al_all_applications := false;
                             al_origin := None |};
           kd_tee := {| al_purpose := Some [2%Z]; al_all_applications := false;
                        al_origin := Some 0%Z |} |}.
Proof. vm_compute. reflexivity. Qed.

Theorem C62_der_accepted :
  forall (depth : nat) (d : description) (p rest : bytes), (5 <= depth)%nat ->
  DescriptionItem true d p ->
  exists kd, decode_key_description depth (p ++ rest) = WOk kd /\ DescriptionRead d kd.
Proof. exact (@c62_der). Qed.
Print Assumptions C62_der_accepted.

Example hyp_der :
  DescriptionItem true (ex_description (blit "challenge"))
    (ex_description_der (blit "challenge")).
Proof. apply ex_description_item. vm_compute. lia. Qed.

Theorem C62_unambiguous :
  forall (d d' : description) (p p' rest rest' : bytes),
  DescriptionItem false d p -> DescriptionItem false d' p' -> p ++ rest = p' ++ rest' ->
  d = d' /\ p = p' /\ rest = rest'.
Proof. exact (@description_unambiguous). Qed.
Print Assumptions C62_unambiguous.

Theorem C62_failures :
  forall (depth : nat) (b : bytes) (e : pyexn), (5 <= depth)%nat ->
  decode_key_description depth b = WRaise e ->
  e = EPyAsn1Error \/ (e = ERecursionError /\ (depth <= List.length b)%nat).
Proof. intros depth b e. exact (@decode_key_description_error depth b e). Qed.
Print Assumptions C62_failures.

(** Both happen: a truncated description, and explicit tags without end. *)
Example hyp_failures :
  decode_key_description 100 (firstn 20 (ex_description_der (blit "challenge")))
  = WRaise EPyAsn1Error /\
  decode_key_description 100 (nest 100) = WRaise ERecursionError.
Proof. vm_compute. auto. Qed.

(** C63 *)
Theorem C63_android_key_der :
  forall (W : World) (depth : nat) a (sig : option bytes) (x5c : list bytes) (o : att_obj)
         (adb h : bytes) r,
  (5 <= depth)%nat -> (forall b, w_keydesc W b = decode_key_description depth b) ->
  attest W (S_AndroidKey a sig x5c) (ArgObj o) adb h = Ok r <->
  exists c, r = (AT_BASIC, Some [c]) /\ AndroidDerSpec W a sig x5c o adb h c.
Proof. exact (@c63_exact). Qed.
Print Assumptions C63_android_key_der.

Definition der_world : World := {|
  w_sha256 := w_sha256 ex_world; w_cbor_load := w_cbor_load ex_world;
  w_json_loads := w_json_loads ex_world; w_url := w_url ex_world;
  w_ec_load := w_ec_load ex_world; w_ed25519_load := w_ed25519_load ex_world;
  w_ed448_load := w_ed448_load ex_world; w_verify := w_verify ex_world;
  w_spki := w_spki ex_world; w_load_cert := w_load_cert ex_world;
  w_keydesc := decode_key_description 100; w_shows := w_shows ex_world; w_shows_exn := w_shows_exn ex_world |}.
Definition der_attest (ext : bytes) : res (att_type * option (list cert)) :=
  attest der_world
    (S_AndroidKey (Some (FValue, ES256))
       (Some (toy_sign 123456789 (ex_reg_ad 0 ++ toy_hash ex_reg_cdj)))
       [ex_x ++ ext; blit "ca"])
    (ArgObj (att_obj_of ex_reg_parsed F_ANDROID_KEY S_None)) (ex_reg_ad 0)
    (toy_hash ex_reg_cdj).

Example hyp_android_der :
  exists c, der_attest (ex_description_der (toy_hash ex_reg_cdj)) = Ok (AT_BASIC, Some [c]).
Proof. eexists. vm_compute. reflexivity. Qed.

Theorem C63_refused :
  forall (W : World) (depth : nat) a (s leaf : bytes) (chain : list bytes) (o : att_obj)
         (adb h : bytes) (c : cert) (certpk : cpk) ad acd k (ko : cpk) (ext : bytes),
  (5 <= depth)%nat -> (List.length ext < depth)%nat ->
  (forall b, w_keydesc W b = decode_key_description depth b) ->
  w_load_cert W leaf = WOk c -> ce_public_key c = WOk certpk ->
  ao_auth_data o = Some ad -> ad_attested ad = Some acd -> at_key acd = Some k ->
  KeyObject W k ko -> CertVerifies W certpk a s (adb ++ h) ->
  w_spki W ko = w_spki W certpk -> ce_keydesc c = WOk (Some ext) ->
  attest W (S_AndroidKey a (Some s) (leaf :: chain)) (ArgObj o) adb h
    = Ok (AT_BASIC, Some [c]) \/
  attest W (S_AndroidKey a (Some s) (leaf :: chain)) (ArgObj o) adb h
    = Raise (Lib AttestationError).
Proof. exact (@c63_refused). Qed.
Print Assumptions C63_refused.

(** Both outcomes happen. *)
Example hyp_refused :
  der_attest (ex_description_der (blit "another challenge")) = Raise (Lib AttestationError)
  /\ der_attest (firstn 20 (ex_description_der (toy_hash ex_reg_cdj)))
     = Raise (Lib AttestationError).
Proof. vm_compute. auto. Qed.

(** C64 *)
Theorem C64_unknown_authorization_refused :
  forall (depth : nat) (v1 l1 v2 l2 : Z) (challenge unique_id : bytes)
         b1 b2 b3 b4 b5 b6 (se_tags : list N) se_parts b7 (tee_tags : list N) tee_parts b8
         (bs rest : bytes) (n : N),
  IntegerItem false 2 v1 b1 -> IntegerItem false 10 l1 b2 ->
  IntegerItem false 2 v2 b3 -> IntegerItem false 10 l2 b4 ->
  OctetsItem false challenge b5 -> OctetsItem false unique_id b6 ->
  Forall2 Tagged se_tags se_parts -> Item false Universal true 16 (List.concat se_parts) b7 ->
  Forall2 Tagged tee_tags tee_parts -> Item false Universal true 16 (List.concat tee_parts) b8 ->
  Item false Universal true 16 (b1 ++ b2 ++ b3 ++ b4 ++ b5 ++ b6 ++ b7 ++ b8) bs ->
  In n (se_tags ++ tee_tags) -> ~ In n (map fst android_tags) ->
  (5 <= depth)%nat -> (List.length (bs ++ rest) < depth)%nat ->
  decode_key_description depth (bs ++ rest) = WRaise EPyAsn1Error.
Proof. exact (@c64_unknown). Qed.
Print Assumptions C64_unknown_authorization_refused.

(** The list of a KeyMint device: purpose, then [earlyBootOnly \[305\] EXPLICIT NULL] of
    attestation version 4, then origin. *)
Definition ex_later (challenge : bytes) : bytes :=
  [x30; byte_of_N (N.of_nat (40 + List.length challenge));
   x02; x01; x04; x0a; x01; x01; x02; x01; x04; x0a; x01; x01;
   x04; byte_of_N (N.of_nat (List.length challenge))] ++ challenge ++
  [x04; x00; x30; x00; x30; x14;
   xa1; x05; x31; x03; x02; x01; x02; xbf; x82; x31; x02; x05; x00;
   xbf; x85; x3e; x03; x02; x01; x00].

(** The claim, "authorizations of later attestation versions do not matter", is false:
    but for that field the description is the accepted one. *)
Theorem C64_later_versions_refuted :
  exists challenge b1 b2 b3 b4 b5 b6 b7 b8 purpose early_boot origin,
    IntegerItem true 2 4 b1 /\ IntegerItem true 10 1 b2 /\ IntegerItem true 2 4 b3 /\
    IntegerItem true 10 1 b4 /\ OctetsItem true challenge b5 /\ OctetsItem true [] b6 /\
    Item true Universal true 16 [] b7 /\
    FieldItem true (1%N, FSet [2%Z]) purpose /\
    Item true Context true 305 [x05; x00] early_boot /\
    FieldItem true (702%N, FInt 0) origin /\
    Item true Universal true 16 (purpose ++ early_boot ++ origin) b8 /\
    Item true Universal true 16 (b1 ++ b2 ++ b3 ++ b4 ++ b5 ++ b6 ++ b7 ++ b8)
      (ex_later challenge) /\
    decode_key_description 900 (ex_later challenge) = WRaise EPyAsn1Error /\
    challenge = toy_hash ex_reg_cdj /\
    der_attest (ex_later challenge) = Raise (Lib AttestationError).
Proof.
  exists (toy_hash ex_reg_cdj), [x02; x01; x04], [x0a; x01; x01], [x02; x01; x04],
    [x0a; x01; x01], (x04 :: x20 :: toy_hash ex_reg_cdj), [x04; x00], [x30; x00],
    [x30; x14; xa1; x05; x31; x03; x02; x01; x02; xbf; x82; x31; x02; x05; x00;
     xbf; x85; x3e; x03; x02; x01; x00],
    [xa1; x05; x31; x03; x02; x01; x02], [xbf; x82; x31; x02; x05; x00],
    [xbf; x85; x3e; x03; x02; x01; x00].
  repeat match goal with |- _ /\ _ => split end;
    try (apply small_integer; [lia|reflexivity|lia|reflexivity]).
  - apply (short_item Universal false 4 x04 (toy_hash ex_reg_cdj)); [lia|vm_compute; lia|reflexivity].
  - apply (short_item Universal false 4 x04 []); [lia|cbn; lia|reflexivity].
  - apply (short_item Universal true 16 x30 []); [lia|cbn; lia|reflexivity].
  - exact ex_purpose_item.
  - exists [xbf; x82; x31], [x02].
    split; [|split; [left; split; [cbn; lia|reflexivity]|reflexivity]].
    right. exists [2%N], 49%N. repeat split; cbn; try lia. repeat constructor; lia.
  - exact ex_origin_item.
  - apply (short_item Universal true 16 x30
              [xa1; x05; x31; x03; x02; x01; x02; xbf; x82; x31; x02; x05; x00;
               xbf; x85; x3e; x03; x02; x01; x00]); [lia|cbn; lia|reflexivity].
  - apply (short_item Universal true 16 x30
      ([x02; x01; x04] ++ [x0a; x01; x01] ++ [x02; x01; x04] ++ [x0a; x01; x01] ++
       (x04 :: x20 :: toy_hash ex_reg_cdj) ++ [x04; x00] ++ [x30; x00] ++
       [x30; x14; xa1; x05; x31; x03; x02; x01; x02; xbf; x82; x31; x02; x05; x00;
        xbf; x85; x3e; x03; x02; x01; x00])); [lia|vm_compute; lia|reflexivity].
  - vm_compute. reflexivity.
  - reflexivity.
  - vm_compute. reflexivity.
Qed.
Print Assumptions C64_later_versions_refuted.

(** C65 *)
Theorem C65_nesting_escapes :
  forall (W : World) (depth : nat) a (s leaf : bytes) (chain : list bytes) (o : att_obj)
         (adb h : bytes) (c : cert) (certpk : cpk) ad acd k (ko : cpk) (ext : bytes),
  (forall b, w_keydesc W b = decode_key_description depth b) ->
  w_load_cert W leaf = WOk c -> ce_public_key c = WOk certpk ->
  ao_auth_data o = Some ad -> ad_attested ad = Some acd -> at_key acd = Some k ->
  KeyObject W k ko -> CertVerifies W certpk a s (adb ++ h) ->
  w_spki W ko = w_spki W certpk -> ce_keydesc c = WOk (Some ext) -> Nested depth ext ->
  attest W (S_AndroidKey a (Some s) (leaf :: chain)) (ArgObj o) adb h
    = Raise (Py ERecursionError).
Proof. exact (@c65_escapes). Qed.
Print Assumptions C65_nesting_escapes.

(** Whatever the limit, ten bytes a level get there. *)
Theorem C65_nesting_exists :
  forall depth : nat, (10 * N.of_nat depth < 256 ^ 8)%N ->
  exists ext, List.length ext = (10 * depth)%nat /\ Nested depth ext.
Proof.
  intros depth L. exists (nest depth). split; [apply nest_length|apply nest_nested; exact L].
Qed.
Print Assumptions C65_nesting_exists.

(** The claim, "whatever the extension, the attester raises nothing but errors of the
    library", is false. *)
Theorem C65_library_errors_refuted :
  exists ext e, (List.length ext <= 1000)%nat /\ der_attest ext = Raise (Py e).
Proof. exists (nest 100), ERecursionError. vm_compute. auto. Qed.
Print Assumptions C65_library_errors_refuted.
