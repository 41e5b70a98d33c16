(** * Properties C29-C35, C37, C43, C51-C53: parsers, keys and signatures. *)
From Coq Require Import List NArith ZArith Bool String.
From Coq Require Import Strings.Byte.
From Verif Require Import Base PyVal B64 Utf8 Url Cbor CborFacts Types World Parsers Crypto
  Backends Spec StepSpec MapFailSpec KeyFacts Examples.
Import ListNotations.
Local Open Scope list_scope.

(** C29: the accepted byte strings and the result, exactly. *)
Theorem C29_layout :
  forall (W : World) (b : bytes) (ad : auth_data),
  parse_authenticator_data W b = Ok ad <-> AuthReads W b ad.
Proof. exact (@c29). Qed.
Print Assumptions C29_layout.

(** C29: with a CBOR decoder that reads a prefix of its input the bytes of the key and of
    the extensions are slices too. *)
Theorem C29_layout_prefix :
  forall (W : World) (b : bytes) (ad : auth_data),
  cbor_reads_prefix W ->
  (parse_authenticator_data W b = Ok ad <-> AuthLayout W b ad).
Proof. exact (@c29_prefix). Qed.
Print Assumptions C29_layout_prefix.

Example hyp_prefix : cbor_reads_prefix ex_world.
Proof. intros b v rest. apply cbor_load_prefix. Qed.
Example layout_example :
  exists ad, parse_authenticator_data ex_world (ex_reg_ext_ad 7) = Ok ad /\
             ad_sign_count ad = 7%N /\ ad_attested ad <> None /\ ad_extensions ad <> None.
Proof. eexists. split; [vm_compute; reflexivity|]. repeat split; discriminate. Qed.
Example leftover_rejected :
  parse_authenticator_data ex_world (ex_reg_ext_ad 7 ++ [x00]) = Raise (Lib ParserError).
Proof. vm_compute. reflexivity. Qed.

(** C30.  [decodes_cbor]: the world's decoder does what Cbor.v does. *)
Theorem C30_auth_data_round_trip :
  forall (W : World) (depth : nat) (hash : bytes) (flags : byte) (ctr : N) (attb extb : bytes)
  (att : option attested) (ext : option ext_outputs),
  decodes_cbor W depth -> 2 <= depth ->
  List.length hash = 32 -> (ctr < 2 ^ 32)%N ->
  AttSerial (N.testbit (Byte.to_N flags) 6) attb att ->
  ExtSerial depth (N.testbit (Byte.to_N flags) 7) extb ext ->
  parse_authenticator_data W (hash ++ [flags] ++ N_to_be 4 ctr ++ attb ++ extb) =
  Ok {| ad_rp_id_hash := hash; ad_flags := Byte.to_N flags; ad_sign_count := ctr;
        ad_attested := att; ad_extensions := ext |}.
Proof. exact (@c30). Qed.
Print Assumptions C30_auth_data_round_trip.

Example hyp_round_trip :
  decodes_cbor ex_world 900 /\
  (exists att, AttSerial true ex_attested (Some att)) /\
  (exists x, ExtSerial 900 true (dumps (VDict ex_ext_map)) (Some x)).
Proof. exact ex_serial. Qed.

(** C31 *)
Theorem C31_keys_usable :
  forall (W : World) (b : bytes) (ad : auth_data) (acd : attested),
  parse_authenticator_data W b = Ok ad -> ad_attested ad = Some acd ->
  exists k, at_key acd = Some k /\ UsableKey k /\ CoordsOk k.
Proof. exact (@c31). Qed.
Print Assumptions C31_keys_usable.

Example hyp_keys_usable :
  exists ad acd, parse_authenticator_data ex_world (ex_reg_ad 3) = Ok ad /\
    ad_attested ad = Some acd /\ at_key acd = Some ex_key.
Proof. do 2 eexists. split; [vm_compute; reflexivity|]. split; reflexivity. Qed.

(** C32 for keys whose Base IV, if any, comes with key_ops (and whose key_ops is not the
    empty list).  Missing: keys with a Base IV and no key_ops, see below. *)
Theorem C32_cose_round_trip_partial :
  forall (W : World) (depth : nat) (k : pubkey) (d : pydict) (b : bytes),
  decodes_cbor W depth -> 2 <= depth -> WellFormedKey k ->
  (kb_key_ops (key_base_of k) = None -> kb_base_IV (key_base_of k) = None) ->
  cose_dictionary k = Ok d -> cbor_dumps (VDict d) = Some b ->
  parse_cose_key_bytes W b = Ok k.
Proof. exact (@c32_partial). Qed.
Print Assumptions C32_cose_round_trip_partial.

Definition ex_full_key : pubkey :=
  OKPKey {| kb_kty := (FName, KT_OKP); kb_kid := Some (blit "kid"); kb_alg := Some (FValue, EDDSA);
            kb_key_ops := Some [(FValue, SIGN); (FName, VERIFY)]; kb_base_IV := Some [x01; x02] |}
         (FValue, ED25519) ex_x.
Example hyp_cose : WellFormedKey ex_full_key /\
  (kb_key_ops (key_base_of ex_full_key) = None -> kb_base_IV (key_base_of ex_full_key) = None) /\
  exists d b, cose_dictionary ex_full_key = Ok d /\ cbor_dumps (VDict d) = Some b.
Proof.
  split; [cbn; repeat split; try discriminate; auto|]. split; [discriminate|].
  do 2 eexists. split; [reflexivity|]. vm_compute. reflexivity.
Qed.

(** ... in general what comes back is the key, without the Base IV when there is no
    key_ops. *)
Theorem C32_base_iv_dropped :
  forall (W : World) (depth : nat) (k : pubkey) (d : pydict) (b : bytes),
  decodes_cbor W depth -> 2 <= depth -> WellFormedKey k ->
  cose_dictionary k = Ok d -> cbor_dumps (VDict d) = Some b ->
  parse_cose_key_bytes W b = Ok (surviving_key k).
Proof. exact (@c32_general). Qed.
Print Assumptions C32_base_iv_dropped.

(** C32 fails: converters.py:173 tests key_ops where base_IV is meant. *)
Theorem C32_round_trip_refuted :
  exists (W : World) (k : pubkey) d b k',
    decodes_cbor W 900 /\ WellFormedKey k /\
    cose_dictionary k = Ok d /\ cbor_dumps (VDict d) = Some b /\
    parse_cose_key_bytes W b = Ok k' /\ k' <> k.
Proof. exact (@c32_refuted). Qed.
Print Assumptions C32_round_trip_refuted.

(** C33: what is read, and which exception each failure gives. *)
Theorem C33_cose_key :
  forall (W : World) (d : pydict),
  (forall k, parse_cose_key_dict W d = Ok k <-> CoseKey d k) /\
  (forall e, parse_cose_key_dict W d = Raise e <-> CoseMapFails W d e).
Proof. exact (@c33). Qed.
Print Assumptions C33_cose_key.

Example hyp_cose_key : CoseKey ex_key_map ex_key.
Proof. exact ex_cose_key. Qed.
Example bad_cose_key :
  parse_cose_key_dict ex_world [(VInt 1, VInt 2); (VInt 3, VInt (-7)); (VInt (-1), VInt 6);
                       (VInt (-2), VBytes ex_x); (VInt (-3), VBytes ex_y)]
  = Raise (Lib ParserError).
Proof. vm_compute. reflexivity. Qed.

(** C33 on bytes: the CBOR item, then the same. *)
Theorem C33_cose_key_bytes :
  forall (W : World) (b : bytes) (k : pubkey),
  parse_cose_key_bytes W b = Ok k <->
  exists d rest, w_cbor_load W b = WOk (VDict d, rest) /\ CoseKey d k.
Proof. exact (@c33_bytes). Qed.
Print Assumptions C33_cose_key_bytes.

(** C34, for all six formats *)
Theorem C34_statements :
  forall (W : World) (f : att_fmt) (d : pydict),
  (forall st, statement_parser W f d = Ok st <-> StmtMap d f st) /\
  (forall e, statement_parser W f d = Raise e <-> StmtMapFails W d f e).
Proof. exact (@c34). Qed.
Print Assumptions C34_statements.

Example hyp_statement :
  StmtMap [(skey "sig", VBytes [x01]); (skey "alg", VInt (-7)); (skey "x5c", VTuple [VBytes [x02]])]
          F_PACKED (S_PackedX509 (FValue, ES256) [x01] [[x02]]).
Proof. exact ex_statement. Qed.
Example extra_member_rejected :
  statement_parser ex_world F_NONE [(skey "x", VNone)] = Raise (Lib ParserError).
Proof. reflexivity. Qed.

(** C35 *)
Theorem C35_extensions :
  forall (W : World) (d : pydict),
  (forall x, parse_extensions W d = Ok x <-> ExtMap d x) /\
  (forall e, parse_extensions W d = Raise e <-> FirstFailure (ext_steps W d) e).
Proof. exact (@c35). Qed.
Print Assumptions C35_extensions.

Example hyp_extensions : exists x, ExtMap ex_ext_map x /\ ex_uvi x = Some (blit "finger").
Proof. exact ex_extensions. Qed.
Example bad_extension :
  parse_extensions ex_world [(skey "appid", VInt 1)] = Raise (Lib ParserError).
Proof. reflexivity. Qed.

(** C37 *)
Theorem C37_credential :
  forall (W : World) (d : pydict),
  (forall c, parse_public_key_credential W d = Ok c <-> CredentialMap d c) /\
  (forall e, parse_public_key_credential W d = Raise e <-> CredentialFails W d e).
Proof. exact (@c37). Qed.
Print Assumptions C37_credential.

Definition ex_cred_map : pydict :=
  [(skey "id", VStr (lit "Y3JlZC0x")); (skey "rawId", VStr (lit "Y3JlZC0x"));
   (skey "type", VStr (lit "public-key"));
   (skey "response", VDict [(skey "clientDataJSON", VStr (lit "e30=")); (skey "userHandle", VNone);
      (skey "authenticatorData", VStr (lit "AAEC")); (skey "signature", VStr (lit "/+8="))])].
Example hyp_credential : exists c, CredentialMap ex_cred_map c.
Proof. destruct (C37_credential ex_world ex_cred_map) as [H _]. eexists. apply H. vm_compute. reflexivity. Qed.

(** C43, exactly: [f] is named by [fmt], [st] is a statement of that format with the
    members of [attStmt], [ad] is what [authData] reads as, [d] is the decoded map. *)
Theorem C43_attestation_object :
  forall (W : World) (b : bytes) (o : att_obj) (d : pydict),
  parse_attestation_object W b = Ok (o, d) <->
  exists rest adb sd ad f st,
    w_cbor_load W b = WOk (VDict d, rest) /\
    member "fmt" d (VStr (lit (fmt_name f))) /\
    member "attStmt" d (VDict sd) /\ StmtMap sd f st /\ stmt_fmt st = f /\
    member "authData" d (VBytes adb) /\ AuthReads W adb ad /\
    o = {| ao_auth_data := Some ad; ao_fmt := f; ao_stmt := st |}.
Proof. exact (@c43). Qed.
Print Assumptions C43_attestation_object.

Example hyp_attestation_object :
  exists o d, parse_attestation_object ex_world (ex_att_obj "fido-u2f" ex_u2f_stmt (ex_reg_ad 0)) = Ok (o, d)
    /\ ao_fmt o = F_FIDO_U2F.
Proof. do 2 eexists. split; [vm_compute; reflexivity|reflexivity]. Qed.

(** C51 *)
Theorem C51_verify :
  forall (W : World) (k : pubkey) (sig data : bytes),
  (verify W k sig data = Ok tt <-> SignatureSpec W k sig data) /\
  (forall b x y crv o f a h,
     k = EC2Key b x y crv -> KeyObject W k o -> kb_alg b = Some (f, a) -> AlgHash a h ->
     w_verify W o (ECDSA h) sig data = WRaise EInvalidSignature ->
     verify W k sig data = Raise (Lib VerificationError)) /\
  (forall b x crv o,
     k = OKPKey b crv x -> KeyObject W k o ->
     w_verify W o PureEdDSA sig data = WRaise EInvalidSignature ->
     verify W k sig data = Raise (Lib VerificationError)).
Proof. exact (@c51). Qed.
Print Assumptions C51_verify.

Example verify_example :
  verify ex_world ex_key (toy_sign 123456789 [x01; x02]) [x01; x02] = Ok tt /\
  verify ex_world ex_key (toy_sign 123456789 [x01; x02]) [x01; x03] = Raise (Lib VerificationError).
Proof. vm_compute. split; reflexivity. Qed.

(** C52 *)
Theorem C52_validate :
  forall (k : pubkey),
  (validate k = Ok tt <-> UsableKey k) /\
  (match k with
   | EC2Key b _ _ _ => snd (kb_kty b) = KT_EC2 /\ kb_alg b <> None
   | OKPKey b _ _ => snd (kb_kty b) = KT_OKP /\ kb_alg b <> None
   | OtherKey _ => False
   end -> ~ UsableKey k -> validate k = Raise (Lib ValidationError)).
Proof. exact (@c52). Qed.
Print Assumptions C52_validate.

Example validate_example :
  validate ex_key = Ok tt /\
  validate (EC2Key {| kb_kty := (FValue, KT_EC2); kb_kid := None; kb_alg := Some (FValue, EDDSA);
            kb_key_ops := None; kb_base_IV := None |} ex_x ex_y (FValue, P_256))
  = Raise (Lib ValidationError).
Proof. vm_compute. split; reflexivity. Qed.

(** C53: the object is the one of [KeyObject] *)
Theorem C53_key_conversion :
  forall (W : World) (k : pubkey) (o : cpk),
  cryptography_public_key W k = Ok o <-> KeyObject W k o.
Proof. exact (@c53). Qed.
Print Assumptions C53_key_conversion.

(** C53: equal objects come from equal curves and coordinates. *)
Theorem C53_conversion_injective :
  forall (W : World) (k k' : pubkey) (o : cpk),
  cryptography_public_key W k = Ok o -> cryptography_public_key W k' = Ok o ->
  (exists b x y f c b' x' y' f',
     k = EC2Key b x y (f, c) /\ k' = EC2Key b' x' y' (f', c) /\
     (List.length x = List.length x' -> x = x') /\ (List.length y = List.length y' -> y = y')) \/
  (exists b x f c b' f', k = OKPKey b (f, c) x /\ k' = OKPKey b' (f', c) x).
Proof. exact (@c53_inj). Qed.
Print Assumptions C53_conversion_injective.

Example conversion_example :
  cryptography_public_key ex_world ex_key = Ok (CEC SECP256R1 123456789 987654321).
Proof. vm_compute. reflexivity. Qed.
