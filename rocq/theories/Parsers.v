(** * Parsers: /repo/webauthn_rp/parsers.py, function by function.
    ([parse_origin] is in Url.v.)  Error messages are not modelled, only classes; but a
    message that shows a value may fail to be made ([complaint] in World.v). *)
From Coq Require Import List NArith ZArith Bool String.
From Verif Require Import Base PyVal B64 Utf8 Url Types World.
Import ListNotations.
Local Open Scope res_scope.
Local Open Scope list_scope.

(** _parse_dictionary_field, parsers.py:95-111. *)
Definition parse_dictionary_field (k : pyval) (types : list pytype) (d : pydict)
           (required : bool) : res pyval :=
  let field := dict_get k d in
  if is_none field then
    (if required then raise ParserError else Ok VNone)
  else if type_in field types then Ok field
  else raise ParserError.

(** Typed views of the field returned above.  The last branch of each match is not
    reachable (the type has just been checked). *)
Definition as_bytes (v : pyval) : res bytes :=
  match v with VBytes b => Ok b | _ => Raise (Py ETypeError) end.
Definition as_str (v : pyval) : res pystr :=
  match v with VStr s => Ok s | _ => Raise (Py ETypeError) end.
Definition as_dict (v : pyval) : res pydict :=
  match v with VDict d => Ok d | _ => Raise (Py ETypeError) end.
Definition as_seq (v : pyval) : res (list pyval) :=
  match v with VList l | VTuple l => Ok l | _ => Raise (Py ETypeError) end.
Definition as_opt {A} (f : pyval -> res A) (v : pyval) : res (option A) :=
  match v with VNone => Ok None | _ => a <- f v ;; Ok (Some a) end.

(** Calls of _parse_dictionary_field (parsers.py:95-111) for one type, required or not, and the
    value with that type. *)
Definition field_bytes k d : res bytes :=
  v <- parse_dictionary_field k [TBytes] d true ;; as_bytes v.
Definition field_str k d : res pystr :=
  v <- parse_dictionary_field k [TStr] d true ;; as_str v.
Definition field_dict k d : res pydict :=
  v <- parse_dictionary_field k [TDict] d true ;; as_dict v.
Definition field_opt_bytes k d : res (option bytes) :=
  v <- parse_dictionary_field k [TBytes] d false ;; as_opt as_bytes v.
Definition field_opt_str k d : res (option pystr) :=
  v <- parse_dictionary_field k [TStr] d false ;; as_opt as_str v.

Section WithWorld.
Variable W : World.

(** _check_unsupported_keys, parsers.py:114-118.  The message shows the set of the keys that
    are not supported. *)
Definition check_unsupported_keys (supported : list pystr) (d : pydict) : res unit :=
  let ok kv := existsb (fun s => py_eq (fst kv) (VStr s)) supported in
  check (forallb ok d)
        (complaint W (map fst (filter (fun kv => negb (ok kv)) d))).

(** _bytes_from_base64, parsers.py:121-125. *)
Definition bytes_from_base64 (s : pystr) : res bytes :=
  catch (b64decode s) is_Exception (Lib DecodingError).

(** parse_public_key_credential, parsers.py:128-190. *)
Definition parse_public_key_credential (data : pydict) : res credential :=
  check_unsupported_keys (map lit ["id"; "rawId"; "response"; "type"]%string) data ;;;
  id_ <- field_str (skey "id") data ;;
  type_ <- field_str (skey "type") data ;;
  raw_id_s <- field_str (skey "rawId") data ;;
  raw_id <- bytes_from_base64 raw_id_s ;;
  response <- field_dict (skey "response") data ;;
  cdj_s <- field_str (skey "clientDataJSON") response ;;
  client_data_JSON <- bytes_from_base64 cdj_s ;;
  if dict_mem (skey "attestationObject") response then
    check_unsupported_keys (map lit ["clientDataJSON"; "attestationObject"]%string)
      response ;;;
    ao_s <- field_str (skey "attestationObject") response ;;
    attestation_object <- bytes_from_base64 ao_s ;;
    Ok {| cr_id := id_; cr_type := type_; cr_raw_id := raw_id;
          cr_response := AttestationResponse client_data_JSON attestation_object |}
  else
    check_unsupported_keys
      (map lit ["clientDataJSON"; "authenticatorData"; "signature"; "userHandle"]%string)
      response ;;;
    ad_s <- field_str (skey "authenticatorData") response ;;
    authenticator_data <- bytes_from_base64 ad_s ;;
    sig_s <- field_str (skey "signature") response ;;
    signature <- bytes_from_base64 sig_s ;;
    uh_s <- field_opt_str (skey "userHandle") response ;;
    user_handle <- match uh_s with
                   | None => Ok None
                   | Some s => b <- bytes_from_base64 s ;; Ok (Some b)
                   end ;;
    Ok {| cr_id := id_; cr_type := type_; cr_raw_id := raw_id;
          cr_response := AssertionResponse client_data_JSON authenticator_data
                                           signature user_handle |}.

(** ** COSE keys.  Labels are integers. *)
Definition ikey (z : Z) : pyval := VInt z.

(** _parse_credential_public_key_kty, parsers.py:193-204. *)
Definition parse_kty (d : pydict) : res (form * kty) :=
  raw <- parse_dictionary_field (ikey 1) [TInt; TStr] d true ;;
  catch (enum_call kty_enum raw) is_KeyOrValueError (complaint W [raw]).

(** _parse_credential_public_key_alg, parsers.py:207-219. *)
Definition parse_alg (d : pydict) : res (form * alg) :=
  raw <- parse_dictionary_field (ikey 3) [TInt; TStr] d true ;;
  catch (enum_call alg_enum raw) is_KeyOrValueError (complaint W [raw]).

(** The loop of parsers.py:235-245.  The message shows [all], the value of label 4. *)
Fixpoint parse_key_op_list (all : pyval) (l : list pyval) : res (list (form * keyop)) :=
  match l with
  | [] => Ok []
  | ko :: t =>
      check (type_in ko [TStr; TInt]) (Lib ParserError) ;;;
      o <- catch (enum_call keyop_enum ko) is_KeyOrValueError (complaint W [all]) ;;
      r <- parse_key_op_list all t ;;
      Ok (o :: r)
  end.

(** _parse_credential_public_key_key_ops, parsers.py:222-247. *)
Definition parse_key_ops (d : pydict) : res (option (list (form * keyop))) :=
  raw <- parse_dictionary_field (ikey 4) [TList; TTuple] d false ;;
  if is_none raw then Ok None
  else
    l <- as_seq raw ;;
    check (negb (Nat.ltb (List.length l) 1)) (Lib ParserError) ;;;
    ops <- parse_key_op_list raw l ;;
    Ok (Some ops).

(** _parse_credential_public_key_kwargs, parsers.py:250-262. *)
Definition parse_key_base (d : pydict) : res key_base :=
  k <- parse_kty d ;;
  kid <- field_opt_bytes (ikey 2) d ;;
  a <- parse_alg d ;;
  ops <- parse_key_ops d ;;
  iv <- field_opt_bytes (ikey 5) d ;;
  Ok {| kb_kty := k; kb_kid := kid; kb_alg := Some a; kb_key_ops := ops;
        kb_base_IV := iv |}.

(** _parse_ec2_public_key_crv / _parse_okp_public_key_crv, parsers.py:265-280. *)
Definition parse_crv (t : enum_table curve) (d : pydict) : res (form * curve) :=
  raw <- parse_dictionary_field (ikey (-1)) [TInt; TStr] d true ;;
  catch (enum_call t raw) is_KeyOrValueError (complaint W [raw]).

(** utils.curve_coordinate_byte_length, utils.py:106-120 (table 26-32, constants
    constants.py:1-5).  The assertion cannot fail on a curve member. *)
Definition curve_coordinate_byte_length (c : form * curve) : nat :=
  match snd c with P_256 => 32 | P_384 => 48 | P_521 => 66 | ED25519 => 32 | ED448 => 57 end.

(** parse_okp_public_key, parsers.py:283-316. *)
Definition parse_okp_public_key (d : pydict) : res pubkey :=
  x <- field_bytes (ikey (-2)) d ;;
  crv <- parse_crv okpcurve_enum d ;;
  let crv_len := curve_coordinate_byte_length crv in
  check (Nat.eqb (List.length x) crv_len) (Lib ParserError) ;;;
  b <- parse_key_base d ;;
  Ok (OKPKey b crv x).

(** parse_ec2_public_key, parsers.py:319-354. *)
Definition parse_ec2_public_key (d : pydict) : res pubkey :=
  x <- field_bytes (ikey (-2)) d ;;
  y <- field_bytes (ikey (-3)) d ;;
  crv <- parse_crv ec2curve_enum d ;;
  let crv_len := curve_coordinate_byte_length crv in
  check (negb (negb (Nat.eqb (List.length x) crv_len)
               || negb (Nat.eqb (List.length y) crv_len))) (Lib ParserError) ;;;
  b <- parse_key_base d ;;
  Ok (EC2Key b x y crv).

(** parse_cose_key on a dictionary, parsers.py:798-810, with the parser table
    _CredentialPublicKeyParser (parsers.py:357-359). *)
Definition parse_cose_key_dict (d : pydict) : res pubkey :=
  t <- catch (v <- dict_index (ikey 1) d ;; enum_call kty_enum v)
             is_KeyOrValueError (Lib ParserError) ;;
  match snd t with
  | KT_OKP => parse_okp_public_key d
  | KT_EC2 => parse_ec2_public_key d
  | KT_SYMMETRIC => raise ParserError
  end.

(** ** Extensions *)

(** [for e in l: if type(e) is not str: raise]. *)
Fixpoint all_str (l : list pyval) : res (list pystr) :=
  match l with
  | [] => Ok []
  | VStr s :: t => r <- all_str t ;; Ok (s :: r)
  | _ => raise ParserError
  end.
Fixpoint all_int (l : list pyval) : res (list Z) :=
  match l with
  | [] => Ok []
  | VInt z :: t => r <- all_int t ;; Ok (z :: r)
  | _ => raise ParserError
  end.
Fixpoint all_int_lists (l : list pyval) : res (list (list Z)) :=
  match l with
  | [] => Ok []
  | VList e :: t => x <- all_int e ;; r <- all_int_lists t ;; Ok (x :: r)
  | _ => raise ParserError
  end.

(** [if v is not None: if type(v) is not T: raise ParserError] *)
Definition ext_bool (v : pyval) : res (option bool) :=
  match v with VNone => Ok None | VBool b => Ok (Some b) | _ => raise ParserError end.
Definition ext_str (v : pyval) : res (option pystr) :=
  match v with VNone => Ok None | VStr b => Ok (Some b) | _ => raise ParserError end.
Definition ext_bytes (v : pyval) : res (option bytes) :=
  match v with VNone => Ok None | VBytes b => Ok (Some b) | _ => raise ParserError end.
Definition ext_exts (v : pyval) : res (option (list pystr)) :=
  match v with
  | VNone => Ok None
  | VList l | VTuple l => r <- all_str l ;; Ok (Some r)
  | _ => raise ParserError
  end.
Definition ext_uvm (v : pyval) : res (option (list (list Z))) :=
  match v with
  | VNone => Ok None
  | VList l => r <- all_int_lists l ;; Ok (Some r)
  | _ => raise ParserError
  end.

(** supported_cvalues, parsers.py:442-445. *)
Definition loc_keys : list pystr :=
  map lit ["latitude"; "longitude"; "altitude"; "accuracy"; "altitudeAccuracy";
           "heading"; "speed"]%string.

(** The [loc] branch, parsers.py:434-458. *)
Definition ext_loc (v : pyval) : res (option coordinates) :=
  match v with
  | VNone => Ok None
  | VDict d =>
      check (forallb (fun kv => type_in (snd kv) [TInt; TFloat]) d) (Lib ParserError) ;;;
      check_unsupported_keys loc_keys d ;;;
      Ok (Some {| co_latitude := dict_get (skey "latitude") d;
                  co_longitude := dict_get (skey "longitude") d;
                  co_altitude := dict_get (skey "altitude") d;
                  co_accuracy := dict_get (skey "accuracy") d;
                  co_altitude_accuracy := dict_get (skey "altitudeAccuracy") d;
                  co_heading := dict_get (skey "heading") d;
                  co_speed := dict_get (skey "speed") d |})
  | _ => raise ParserError
  end.

(** parsers.py:379-382. *)
Definition supported_extensions : list pystr :=
  map lit ["appid"; "txAuthSimple"; "txAuthGeneric"; "authnSel"; "exts"; "uvi"; "loc";
           "uvm"; "biometricPerfBounds"]%string.

(** parse_extensions, parsers.py:362-491. *)
Definition parse_extensions (d : pydict) : res ext_outputs :=
  check_unsupported_keys supported_extensions d ;;;
  appid <- ext_bool (dict_get (skey "appid") d) ;;
  tx_auth_simple <- ext_str (dict_get (skey "txAuthSimple") d) ;;
  tx_auth_generic <- ext_bytes (dict_get (skey "txAuthGeneric") d) ;;
  authn_sel <- ext_bool (dict_get (skey "authnSel") d) ;;
  exts <- ext_exts (dict_get (skey "exts") d) ;;
  uvi <- ext_bytes (dict_get (skey "uvi") d) ;;
  loc <- ext_loc (dict_get (skey "loc") d) ;;
  uvm <- ext_uvm (dict_get (skey "uvm") d) ;;
  bpb <- ext_bool (dict_get (skey "biometricPerfBounds") d) ;;
  Ok {| ex_appid := appid; ex_tx_auth_simple := tx_auth_simple;
        ex_tx_auth_generic := tx_auth_generic; ex_authn_sel := authn_sel;
        ex_exts := exts; ex_uvi := uvi; ex_loc := loc; ex_uvm := uvm;
        ex_biometric_perf_bounds := bpb |}.

(** ** Attestation statements *)

(** _parse_attestation_statement_alg, parsers.py:494-503. *)
Definition parse_stmt_alg (d : pydict) : res (form * alg) :=
  raw <- parse_dictionary_field (skey "alg") [TInt; TStr] d true ;;
  catch (enum_call alg_enum raw) is_KeyOrValueError (complaint W [raw]).

(** The loop of parsers.py:509-512. *)
Fixpoint all_bytes (l : list pyval) : res (list bytes) :=
  match l with
  | [] => Ok []
  | VBytes b :: t => r <- all_bytes t ;; Ok (b :: r)
  | _ => raise ParserError
  end.

(** _parse_attestation_statement_x5c, parsers.py:506-512. *)
Definition parse_x5c (d : pydict) : res (list bytes) :=
  v <- parse_dictionary_field (skey "x5c") [TList; TTuple] d true ;;
  l <- as_seq v ;;
  all_bytes l.

(** parse_packed_attestation_statement, parsers.py:515-550. *)
Definition parse_packed_attestation_statement (d : pydict) : res att_stmt :=
  a <- parse_stmt_alg d ;;
  sig <- field_bytes (skey "sig") d ;;
  if dict_mem (skey "x5c") d then
    check_unsupported_keys (map lit ["alg"; "sig"; "x5c"]%string) d ;;;
    x5c <- parse_x5c d ;;
    Ok (S_PackedX509 a sig x5c)
  else if dict_mem (skey "ecdaaKeyId") d then
    check_unsupported_keys (map lit ["alg"; "sig"; "ecdaaKeyId"]%string) d ;;;
    e <- field_bytes (skey "ecdaaKeyId") d ;;
    Ok (S_PackedECDAA a sig e)
  else
    check_unsupported_keys (map lit ["alg"; "sig"]%string) d ;;;
    Ok (S_Packed a sig).

(** parse_tpm_attestation_statement, parsers.py:553-602. *)
Definition parse_tpm_attestation_statement (d : pydict) : res att_stmt :=
  a <- parse_stmt_alg d ;;
  sig <- field_bytes (skey "sig") d ;;
  ver <- field_str (skey "ver") d ;;
  cert_info <- field_bytes (skey "certInfo") d ;;
  pub_area <- field_bytes (skey "pubArea") d ;;
  if dict_mem (skey "x5c") d then
    check_unsupported_keys
      (map lit ["alg"; "sig"; "ver"; "certInfo"; "pubArea"; "x5c"]%string) d ;;;
    x5c <- parse_x5c d ;;
    Ok (S_TPMX509 a sig ver cert_info pub_area x5c)
  else if dict_mem (skey "ecdaaKeyId") d then
    check_unsupported_keys
      (map lit ["alg"; "sig"; "ver"; "certInfo"; "pubArea"; "ecdaaKeyId"]%string) d ;;;
    e <- field_bytes (skey "ecdaaKeyId") d ;;
    Ok (S_TPMECDAA a sig ver cert_info pub_area e)
  else
    check_unsupported_keys
      (map lit ["alg"; "sig"; "ver"; "certInfo"; "pubArea"]%string) d ;;;
    Ok (S_TPM a sig ver cert_info pub_area).

(** parse_android_key_attestation_statement, parsers.py:605-626. *)
Definition parse_android_key_attestation_statement (d : pydict) : res att_stmt :=
  a <- parse_stmt_alg d ;;
  sig <- field_bytes (skey "sig") d ;;
  x5c <- parse_x5c d ;;
  check_unsupported_keys (map lit ["alg"; "sig"; "x5c"]%string) d ;;;
  Ok (S_AndroidKey (Some a) (Some sig) x5c).

(** parse_android_safetynet_attestation_statement, parsers.py:629-649. *)
Definition parse_android_safetynet_attestation_statement (d : pydict) : res att_stmt :=
  ver <- field_str (skey "ver") d ;;
  response <- field_bytes (skey "response") d ;;
  check_unsupported_keys (map lit ["ver"; "response"]%string) d ;;;
  Ok (S_SafetyNet ver response).

(** parse_fido_u2f_attestation_statement, parsers.py:652-672. *)
Definition parse_fido_u2f_attestation_statement (d : pydict) : res att_stmt :=
  sig <- field_bytes (skey "sig") d ;;
  x5c <- parse_x5c d ;;
  check_unsupported_keys (map lit ["sig"; "x5c"]%string) d ;;;
  Ok (S_U2F (Some sig) x5c).

(** parse_none_attestation_statement, parsers.py:675-692. *)
Definition parse_none_attestation_statement (d : pydict) : res att_stmt :=
  check_unsupported_keys [] d ;;;
  Ok S_None.

(** _AttestationStatementParser, parsers.py:695-701. *)
Definition statement_parser (f : att_fmt) : pydict -> res att_stmt :=
  match f with
  | F_PACKED => parse_packed_attestation_statement
  | F_TPM => parse_tpm_attestation_statement
  | F_ANDROID_KEY => parse_android_key_attestation_statement
  | F_ANDROID_SAFETYNET => parse_android_safetynet_attestation_statement
  | F_FIDO_U2F => parse_fido_u2f_attestation_statement
  | F_NONE => parse_none_attestation_statement
  end.

(** validate, /repo/webauthn_rp/validators.py:30-77. *)
Definition validate (k : pubkey) : res unit :=
  match k with
  | OtherKey _ => raise UnimplementedError
  | EC2Key b _ _ crv =>
      passert (match snd (kb_kty b) with KT_EC2 => true | _ => false end) ;;;
      passert (is_some (kb_alg b)) ;;;
      check (match snd crv with P_256 | P_384 | P_521 => true | _ => false end)
            (Lib ValidationError) ;;;
      check (match kb_alg b with
             | Some (_, (ES256 | ES384 | ES512)) => true | _ => false end)
            (Lib ValidationError)
  | OKPKey b crv _ =>
      passert (match snd (kb_kty b) with KT_OKP => true | _ => false end) ;;;
      passert (is_some (kb_alg b)) ;;;
      check (match snd crv with ED25519 | ED448 => true | _ => false end)
            (Lib ValidationError) ;;;
      check (match kb_alg b with Some (_, EDDSA) => true | _ => false end)
            (Lib ValidationError)
  end.

(** parse_cose_key on bytes, parsers.py:769-810. *)
Definition parse_cose_key_bytes (b : bytes) : res pubkey :=
  v <- catch (cbor_loads W b) is_CBORDecodeError (Lib DecodingError) ;;
  match v with
  | VDict d => parse_cose_key_dict d
  | _ => raise ParserError
  end.

(** parse_client_data, parsers.py:704-766. *)
Definition parse_client_data (client_data_JSON : bytes) : res client_data :=
  v <- catch (text <- utf8_decode client_data_JSON ;; lift (w_json_loads W text))
             is_UnicodeOrJSONDecodeError (Lib DecodingError) ;;
  match v with
  | VDict d =>
      match dict_get (skey "type") d, dict_get (skey "challenge") d,
            dict_get (skey "origin") d with
      | VStr type_, VStr challenge, VStr origin =>
          tb <- match dict_get (skey "tokenBinding") d with
                | VNone => Ok None
                | VDict t =>
                    let status := dict_get (skey "status") t in
                    let id_ := dict_get (skey "id") t in
                    check (negb (is_none status)) (Lib ParserError) ;;;
                    st <- match find (fun s => py_eq (VStr (tb_status_value s)) status)
                                     [TB_SUPPORTED; TB_PRESENT] with
                          | Some s => Ok s
                          | None => raise ParserError (* ValueError of the enum call *)
                          end ;;
                    check (negb (tb_status_eqb st TB_PRESENT && is_none id_))
                          (Lib ParserError) ;;;
                    Ok (Some {| tb_status_ := st; tb_id := id_ |})
                | _ => raise ParserError
                end ;;
          Ok {| cd_type := type_; cd_challenge := challenge; cd_origin := origin;
                cd_token_binding := tb |}
      | _, _, _ => raise ParserError
      end
  | _ => raise ParserError
  end.

(** _read_bytes, parsers.py:813-817: the bytes read and the rest of the stream. *)
Definition read_bytes (bio : bytes) (n : nat) : res (bytes * bytes) :=
  let x := take n bio in
  check (Nat.eqb (List.length x) n) (Py EEOFError) ;;;
  Ok (x, drop n bio).

(** Attested credential data, parsers.py:853-882. *)
Definition parse_attested (bio : bytes) : res (attested * bytes) :=
  catch (
    '(aaguid, bio) <- read_bytes bio 16 ;;
    '(len_bytes, bio) <- read_bytes bio 2 ;;
    let len := be_to_N len_bytes in
    '(credential_id, bio) <- read_bytes bio (N.to_nat len) ;;
    '(v, bio) <- catch (lift (w_cbor_load W bio)) is_CBORDecodeError
                       (Lib DecodingError) ;;
    match v with
    | VDict d =>
        k <- parse_cose_key_dict d ;;
        validate k ;;;
        Ok ({| at_aaguid := aaguid; at_id_length := len; at_id := credential_id;
               at_key := Some k |}, bio)
    | _ => raise ParserError
    end)
  is_EOFError (Lib ParserError).

(** Extension data, parsers.py:884-896. *)
Definition parse_ext_data (bio : bytes) : res (ext_outputs * bytes) :=
  catch (
    '(v, bio) <- catch (lift (w_cbor_load W bio)) is_CBORDecodeError
                       (Lib DecodingError) ;;
    match v with
    | VDict d => x <- parse_extensions d ;; Ok (x, bio)
    | _ => raise ParserError
    end)
  is_EOFError (Lib ParserError).

(** parse_authenticator_data, parsers.py:820-908. *)
Definition parse_authenticator_data (b : bytes) : res auth_data :=
  check (negb (Nat.ltb (List.length b) 37)) (Lib ParserError) ;;;
  let rp_id_hash := take 32 b in
  let flags := N_of_byte (nth 32 b (byte_of_N 0)) in
  let sign_count := be_to_N (take 4 (drop 33 b)) in
  let bio := drop 37 b in
  '(att, bio) <- (if has_flag FLAG_AT flags then
                    '(a, bio) <- parse_attested bio ;; Ok (Some a, bio)
                  else Ok (None, bio)) ;;
  '(ext, bio) <- (if has_flag FLAG_ED flags then
                    '(x, bio) <- parse_ext_data bio ;; Ok (Some x, bio)
                  else Ok (None, bio)) ;;
  check (match bio with [] => true | _ => false end) (Lib ParserError) ;;;
  Ok {| ad_rp_id_hash := rp_id_hash; ad_flags := flags; ad_sign_count := sign_count;
        ad_attested := att; ad_extensions := ext |}.

(** parse_attestation_object, parsers.py:911-972. *)
Definition parse_attestation_object (b : bytes) : res (att_obj * pydict) :=
  v <- catch (cbor_loads W b) is_CBORDecodeError (Lib DecodingError) ;;
  match v with
  | VDict d =>
      '(asfi, ad, stmt_v) <- catch (
          auth_data_v <- dict_index (skey "authData") d ;;
          fmt_v <- dict_index (skey "fmt") d ;;
          stmt_v <- dict_index (skey "attStmt") d ;;
          match fmt_v with
          | VStr fmt =>
              asfi <- match find (fun f => str_eqb (fmt_value f) fmt) all_fmts with
                      | Some f => Ok f
                      | None => raise ParserError (* ValueError of the enum call *)
                      end ;;
              match auth_data_v with
              | VBytes adb =>
                  ad <- parse_authenticator_data adb ;;
                  Ok (asfi, ad, stmt_v)
              | _ => raise ParserError
              end
          | _ => raise ParserError
          end) is_KeyError (Lib ParserError) ;;
      match stmt_v with
      | VDict sd =>
          stmt <- catch (statement_parser asfi sd) is_AttributeError (Lib ParserError) ;;
          Ok ({| ao_auth_data := Some ad; ao_fmt := asfi; ao_stmt := stmt |}, d)
      | _ => raise ParserError
      end
  | _ => raise ParserError
  end.

End WithWorld.
