(** * Properties C66-C68: CBOR, and the ceremonies down to the bytes. *)
From Coq Require Import List NArith ZArith Bool String.
From Coq Require Import Strings.Byte.
From Verif Require Import Base PyVal B64 Utf8 Url Json JsonSpec Cbor CborSpec CborExact Types World
  Parsers Crypto Backends Spec History Examples WireSpec WireFacts.
Import ListNotations.
Local Open Scope list_scope.

(** C66: the items read, their values and what is left, exactly, whatever the tags stand
    for. *)
Theorem C66_decoding_exact :
  forall (tags : tagsem) (depth : nat) (b : bytes) (v : pyval) (rest : bytes),
  cbor_load_tags tags depth b = WOk (v, rest) <->
  exists item, b = item ++ rest /\ Cbor tags depth false v item.
Proof. exact cbor_load_iff. Qed.
Print Assumptions C66_decoding_exact.

(** A map of indefinite length with a repeated key, a tuple as key, chunked text and a
    half-precision float. *)
Example decoding_example :
  cbor_load 3 [xbf; x01; x02; x82; x03; x04; x7f; x61; x61; x60; xff; x18; x01; xf9; x3e; x00; xff; x07] =
  WOk (VDict [(VInt 1, VFloat 4609434218613702656); (VTuple [VInt 3; VInt 4], VStr (lit "a"))], [x07]).
Proof. vm_compute. reflexivity. Qed.
Example decoding_item :
  Cbor no_tags 3 false (VDict [(VInt 1, VFloat 4609434218613702656); (VTuple [VInt 3; VInt 4], VStr (lit "a"))])
    [xbf; x01; x02; x82; x03; x04; x7f; x61; x61; x60; xff; x18; x01; xf9; x3e; x00; xff].
Proof.
  destruct (proj1 (C66_decoding_exact _ _ _ _ _) decoding_example) as (item & E & C).
  change [xbf; x01; x02; x82; x03; x04; x7f; x61; x61; x60; xff; x18; x01; xf9; x3e; x00; xff; x07]
    with ([xbf; x01; x02; x82; x03; x04; x7f; x61; x61; x60; xff; x18; x01; xf9; x3e; x00; xff] ++ [x07]) in E.
  apply app_inj_tail in E as [<- _]. exact C.
Qed.

(** Bignums (tags 2 and 3) and the marks of shared values and strings (28 and 256). *)
Definition ex_tags : tagsem := fun _ t v =>
  match t, v with
  | 2%N, VBytes (x :: b) => WOk (VInt (Z.of_N (be_to_N (x :: b))))
  | 3%N, VBytes (x :: b) => WOk (VInt (-1 - Z.of_N (be_to_N (x :: b))))
  | 28%N, _ | 256%N, _ => WOk v
  | _, _ => WRaise ECBORDecodeValueError
  end.
(** The map from -1 to 256, both as bignums, marked as shared. *)
Example tagged_item :
  Cbor ex_tags 3 false (VDict [(VInt (-1), VInt 256)])
    [xd8; x1c; xa1; xc3; x41; x00; xc2; x42; x01; x00].
Proof.
  assert (H : cbor_load_tags ex_tags 3 [xd8; x1c; xa1; xc3; x41; x00; xc2; x42; x01; x00] =
    WOk (VDict [(VInt (-1), VInt 256)], [])) by (vm_compute; reflexivity).
  apply C66_decoding_exact in H as (item & E & C). rewrite app_nil_r in E. rewrite E. exact C.
Qed.

(** A map with two keys, which are maps; the second has the entries of the first in another
    order and replaces its value. *)
Example map_keys_item :
  Cbor no_tags 3 false (VDict [(VFrozen [(VInt 1, VTuple [VInt 2]); (VInt 3, VNone)], VInt 5)])
    [xa2; xa2; x01; x81; x02; x03; xf6; x04; xa2; x03; xf6; x01; x81; x02; x05].
Proof.
  assert (H : cbor_load 3 [xa2; xa2; x01; x81; x02; x03; xf6; x04; xa2; x03; xf6; x01; x81; x02; x05] =
    WOk (VDict [(VFrozen [(VInt 1, VTuple [VInt 2]); (VInt 3, VNone)], VInt 5)], [])) by (vm_compute; reflexivity).
  apply C66_decoding_exact in H as (item & E & C). rewrite app_nil_r in E. rewrite E. exact C.
Qed.

(** C66: what the tags stand for only adds to what is read. *)
Theorem C66_tags_conservative :
  forall (tags : tagsem) (depth : nat) (b : bytes) (v : pyval) (rest : bytes),
  cbor_load depth b = WOk (v, rest) -> cbor_load_tags tags depth b = WOk (v, rest).
Proof. exact cbor_load_tagless. Qed.
Print Assumptions C66_tags_conservative.

(** C66: no item is a proper prefix of another, and an item has one value. *)
Theorem C66_unambiguous :
  forall (tags : tagsem) (depth : nat) (key : bool) (v w : pyval) (item more : bytes),
  Cbor tags depth key v item -> Cbor tags depth key w (item ++ more) -> more = [] /\ v = w.
Proof. exact Cbor_unambiguous. Qed.
Print Assumptions C66_unambiguous.

(** C66: looking up a key in a decoded map finds the last entry with an equal key. *)
Theorem C66_last_entry :
  forall (k v : pyval) (ps : list (pyval * pyval)),
  dict_find k (entries ps) = Some v <-> LastEntry k v ps.
Proof. intros k v ps. exact (find_entries k ps v). Qed.
Print Assumptions C66_last_entry.

Example hyp_last_entry :
  LastEntry (VInt 1) (VInt 9) [(VInt 1, VInt 8); (VBool true, VInt 9); (VInt 2, VInt 7)].
Proof.
  exists [(VInt 1, VInt 8)], (VBool true), [(VInt 2, VInt 7)]. split; [reflexivity|].
  split; [reflexivity|]. constructor; [reflexivity|constructor].
Qed.

(** C66: everything else is refused with an exception of the decoder or of a tag;
    [EOther 998] stands for the items that are not modelled (tags 25 and 29). *)
Theorem C66_failures :
  forall (tags : tagsem) (depth : nat) (b : bytes),
  (exists v rest item, b = item ++ rest /\ Cbor tags depth false v item) \/
  (exists e, cbor_load_tags tags depth b = WRaise e /\
     (In e [ECBORDecodeEOF; ECBORDecodeValueError; EUnicodeDecodeError; ERecursionError; EOther 998] \/
      exists imm t v, tags imm t v = WRaise e)).
Proof.
  intros tags depth b. destruct (cbor_load_tags tags depth b) as [[v rest]|e] eqn:H.
  - left. apply cbor_load_iff in H as (item & E & C). eauto.
  - right. exists e. split; [reflexivity|]. exact (cbor_load_fails _ _ _ _ H).
Qed.
Print Assumptions C66_failures.

Example failure_example :
  cbor_load 3 [x82; x01] = WRaise ECBORDecodeEOF /\
  cbor_load 3 [x1f] = WRaise ECBORDecodeValueError /\
  cbor_load 3 [x61; xff] = WRaise EUnicodeDecodeError /\
  cbor_load 3 [x81; x81; x81; x81; x01] = WRaise ERecursionError /\
  cbor_load_tags ex_tags 3 [xc2; x81; x81; xd8; x1c; x01] = WRaise ERecursionError /\
  cbor_load_tags ex_tags 3 [xc2; x01] = WRaise ECBORDecodeValueError /\
  cbor_load_tags ex_tags 3 [xc2] = WRaise ECBORDecodeEOF /\
  cbor_load_tags ex_tags 3 [xdf] = WRaise ECBORDecodeValueError.
Proof. vm_compute. repeat split. Qed.

(** ** C67: keys, authenticator data and attestation objects *)

Example hyp_reads : reads_cbor ex_world no_tags 900 /\ reads_json ex_world ex_json.
Proof. split; [apply reads_cbor_model|apply reads_json_model]; reflexivity. Qed.

(** The same with tags that are understood. *)
Definition ex_tags_world : World :=
  {| w_sha256 := w_sha256 ex_world; w_cbor_load := cbor_load_tags ex_tags 900;
     w_json_loads := w_json_loads ex_world; w_url := w_url ex_world;
     w_ec_load := w_ec_load ex_world; w_ed25519_load := w_ed25519_load ex_world;
     w_ed448_load := w_ed448_load ex_world; w_verify := w_verify ex_world;
     w_spki := w_spki ex_world; w_load_cert := w_load_cert ex_world;
     w_keydesc := w_keydesc ex_world; w_shows := w_shows ex_world; w_shows_exn := w_shows_exn ex_world |}.
Example hyp_reads_tags : reads_cbor ex_tags_world ex_tags 900 /\ reads_json ex_tags_world ex_json.
Proof. split; [apply reads_cbor_model|apply reads_json_model]; reflexivity. Qed.

Theorem C67_cose_key :
  forall (W : World) (tags : tagsem) (depth : nat) (b : bytes) (k : pubkey),
  reads_cbor W tags depth ->
  (parse_cose_key_bytes W b = Ok k <->
   exists item rest d, b = item ++ rest /\ Cbor tags depth false (VDict d) item /\ CoseKey d k).
Proof. intros W tags depth b k H. exact (wire_key W tags depth H b k). Qed.
Print Assumptions C67_cose_key.

(** A P-256 key whose algorithm, -7, is a bignum. *)
Definition ex_tagged_key : bytes :=
  [xa5; x01; x02; x03; xc3; x41; x06; x20; x01; x21; x58; x20] ++ repeat x01 32 ++ [x22; x58; x20] ++ repeat x02 32.
Definition ex_untagged_key : bytes :=
  [xa5; x01; x02; x03; x26; x20; x01; x21; x58; x20] ++ repeat x01 32 ++ [x22; x58; x20] ++ repeat x02 32.
Example tagged_key : exists k,
  parse_cose_key_bytes ex_tags_world ex_tagged_key = Ok k /\
  parse_cose_key_bytes ex_tags_world ex_untagged_key = Ok k.
Proof. eexists. split; vm_compute; reflexivity. Qed.

Theorem C67_auth_data :
  forall (W : World) (tags : tagsem) (depth : nat) (b : bytes) (ad : auth_data),
  reads_cbor W tags depth ->
  (parse_authenticator_data W b = Ok ad <-> AuthBytes tags depth b ad).
Proof. intros W tags depth b ad H. exact (wire_auth_parse W tags depth H b ad). Qed.
Print Assumptions C67_auth_data.

Example hyp_auth_bytes : exists ad, AuthBytes no_tags 900 (ex_reg_ext_ad 7) ad /\
  ad_attested ad <> None /\ ad_extensions ad <> None.
Proof.
  eexists. split; [apply (C67_auth_data ex_world no_tags 900 _ _ (proj1 hyp_reads)); vm_compute; reflexivity|].
  split; discriminate.
Qed.

(** Authenticator data has one reading. *)
Theorem C67_one_reading :
  forall (tags : tagsem) (depth : nat) (b : bytes) (ad ad' : auth_data),
  AuthBytes tags depth b ad -> AuthBytes tags depth b ad' -> ad = ad'.
Proof.
  intros tags depth b ad ad'.
  set (W := {| w_sha256 := w_sha256 ex_world; w_cbor_load := cbor_load_tags tags depth;
       w_json_loads := w_json_loads ex_world; w_url := w_url ex_world;
       w_ec_load := w_ec_load ex_world; w_ed25519_load := w_ed25519_load ex_world;
       w_ed448_load := w_ed448_load ex_world; w_verify := w_verify ex_world;
       w_spki := w_spki ex_world; w_load_cert := w_load_cert ex_world;
       w_keydesc := w_keydesc ex_world; w_shows := w_shows ex_world; w_shows_exn := w_shows_exn ex_world |}).
  assert (RC : reads_cbor W tags depth) by (apply reads_cbor_model; reflexivity).
  exact (wire_one_reading W tags depth RC b ad ad').
Qed.
Print Assumptions C67_one_reading.

Theorem C67_attestation_object :
  forall (W : World) (tags : tagsem) (depth : nat) (b : bytes) (o : att_obj) (d : pydict),
  reads_cbor W tags depth ->
  (parse_attestation_object W b = Ok (o, d) <->
   exists adb sd ad f st,
     AttObjMap tags depth b d (fmt_name f) sd adb /\ StmtMap sd f st /\ stmt_fmt st = f /\
     AuthBytes tags depth adb ad /\ o = {| ao_auth_data := Some ad; ao_fmt := f; ao_stmt := st |}).
Proof. intros W tags depth b o d H. exact (wire_object_parse W tags depth H b o d). Qed.
Print Assumptions C67_attestation_object.

Example attestation_object_example :
  exists o d adb, parse_attestation_object ex_world (ex_att_obj "none" [] (ex_reg_ad 0)) = Ok (o, d) /\
    AttObjMap no_tags 900 (ex_att_obj "none" [] (ex_reg_ad 0)) d "none" [] adb.
Proof.
  do 3 eexists. split; [vm_compute; reflexivity|].
  exists (ex_att_obj "none" [] (ex_reg_ad 0)), []. split; [rewrite app_nil_r; reflexivity|].
  split; [|repeat split; vm_compute; reflexivity].
  match goal with |- Cbor _ _ _ ?v ?b => assert (H : cbor_load 900 b = WOk (v, []))
    by (vm_compute; reflexivity) end.
  apply cbor_load_iff in H as (item & E & C). rewrite app_nil_r in E. rewrite E. exact C.
Qed.

(** ** C68: the ceremonies *)

(** A login is accepted exactly when the bytes are as [WireAssertion] says. *)
Theorem C68_login :
  forall {S} (W : World) (tags : tagsem) (depth : nat) (E : jsonenv) (R : registrar S) (s : S) (A : assertion_args),
  reads_cbor W tags depth -> reads_json W E ->
  (login_succeeds W R s A <->
   exists s1 cdt ad u rp s2,
     r_get R s (cr_raw_id (aa_credential A)) = (s1, Ok (Some cdt)) /\
     WireAssertion W tags depth E A cdt ad u rp /\
     r_assert R s1 (aa_credential A) ad u rp = (s2, Ok None)).
Proof. intros S W tags depth E R s A HC HJ. exact (wire_login W tags depth HC E HJ R s A). Qed.
Print Assumptions C68_login.

Example login_bytes : exists cdt ad u rp, WireAssertion ex_world no_tags 900 ex_json (ex_auth 5) cdt ad u rp.
Proof.
  destruct (proj1 (C68_login ex_world no_tags 900 ex_json mem_registrar (ex_store (Some 4%Z)) (ex_auth 5)
    (proj1 hyp_reads) (proj2 hyp_reads)) login_accepted)
    as (s1 & cdt & ad & u & rp & s2 & _ & H & _). eauto.
Qed.

(** A registration, likewise. *)
Theorem C68_registration :
  forall {S} (W : World) (tags : tagsem) (depth : nat) (E : jsonenv) (R : registrar S) (s : S) (A : attestation_args),
  reads_cbor W tags depth -> reads_json W E ->
  (registration_succeeds W R s A <->
   exists att s1, WireRegistration W tags depth E A att /\
     r_attest R s (ra_credential A) att AT_NONE (ra_user A) (ra_rp A) None = (s1, Ok None)).
Proof. intros S W tags depth E R s A HC HJ. exact (wire_register W tags depth HC E HJ R s A). Qed.
Print Assumptions C68_registration.

Example registration_bytes : exists att, WireRegistration ex_world no_tags 900 ex_json ex_reg_none att.
Proof.
  assert (H : registration_succeeds ex_world mem_registrar [] ex_reg_none)
    by (rewrite registration_accepted; reflexivity).
  apply (C68_registration ex_world no_tags 900 ex_json mem_registrar [] ex_reg_none
    (proj1 hyp_reads) (proj2 hyp_reads)) in H as (att & s1 & H & _). eauto.
Qed.
