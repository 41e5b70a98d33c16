(** * Examples: one concrete world and concrete ceremonies, used as witnesses.

    The hash and the signature scheme are toys (any functions would do: the theorems
    quantify over all worlds); CBOR and JSON are the decoders of Cbor.v and Json.v. *)
From Coq Require Import List NArith ZArith Bool String.
From Coq Require Import Strings.Byte.
From Verif Require Import Base PyVal B64 Utf8 Url Json Cbor Types World Parsers Crypto
  Backends Spec History.
Import ListNotations.
Local Open Scope list_scope.

Definition toy_hash (b : bytes) : bytes :=
  N_to_be 32 (fold_left (fun a x => N.land (a * 257 + Byte.to_N x + 1) 0xFFFFFFFFFFFFFFFF)%N b 7%N).
Definition toy_sign (x : N) (data : bytes) : bytes := toy_hash (N_to_be 66 x ++ data).
Definition toy_key (k : cpk) : N :=
  match k with CEC _ x _ => x | CEd25519 b | CEd448 b => be_to_N b | COther n => n end.

Definition ex_json : jsonenv :=
  {| je_float := fun _ => 0%N; je_max_digits := Some 4300%N; je_depth := 990 |}.

Definition ex_world : World := {|
  w_sha256 := toy_hash;
  w_cbor_load := cbor_load 900;
  w_json_loads := json_loads ex_json;
  w_url := {| ue_bracket_ok := fun _ => true; ue_nfkc_ok := fun _ => true |};
  w_ec_load _ _ _ := WOk tt;
  w_ed25519_load _ := WOk tt;
  w_ed448_load _ := WOk tt;
  w_verify k _ sig data :=
    if bytes_eqb sig (toy_sign (toy_key k) data) then WOk tt else WRaise EInvalidSignature;
  w_spki k := N_to_be 66 (toy_key k);
  (* a "certificate": 32 bytes of P-256 x coordinate, then the key description *)
  w_load_cert der :=
    WOk {| ce_der := der;
           ce_public_key := WOk (CEC SECP256R1 (be_to_N (firstn 32 der)) 5);
           ce_keydesc := WOk (Some (skipn 32 der)) |};
  (* a "key description": its challenge *)
  w_keydesc b :=
    WOk {| kd_challenge := b;
           kd_software := {| al_purpose := None; al_all_applications := false;
                             al_origin := None |};
           kd_tee := {| al_purpose := Some [2%Z; 3%Z]; al_all_applications := false;
                        al_origin := Some 0%Z |} |};
  (* integers of up to 14284 bits, which have at most 4300 digits *)
  w_shows v := match v with VInt z => (N.size (Z.abs_N z) <=? 14284)%N | _ => true end;
  w_shows_exn e := match e with Py (EOther 1) => false | _ => true end;
|}.

Definition dumps (v : pyval) : bytes := match cbor_dumps v with Some b => b | None => [] end.

Definition ex_rp : rp_entity :=
  {| rp_name := lit "Example"; rp_icon := None; rp_id := lit "example.com" |}.
Definition ex_user : user_entity :=
  {| us_name := lit "alice"; us_icon := None; us_id := blit "u1";
     us_display_name := lit "Alice" |}.
Definition ex_challenge : bytes := [x01; x02; x03; x04].
Definition ex_origin : expected_origin := OneOrigin (lit "https://example.com").
Definition ex_raw_id : bytes := blit "cred-1".

Definition cdj (ceremony : string) : bytes :=
  (blit "{""type"":""" ++ blit ceremony ++
   blit """,""challenge"":""AQIDBA"",""origin"":""https://example.com""}")%list.

(** Keys *)
Definition ex_x : bytes := N_to_be 32 123456789.
Definition ex_y : bytes := N_to_be 32 987654321.
Definition ex_key : pubkey :=
  EC2Key {| kb_kty := (FValue, KT_EC2); kb_kid := None; kb_alg := Some (FValue, ES256);
            kb_key_ops := None; kb_base_IV := None |} ex_x ex_y (FValue, P_256).
Definition ex_key_map : pydict :=
  [(VInt 1, VInt 2); (VInt 3, VInt (-7)); (VInt (-1), VInt 1); (VInt (-2), VBytes ex_x);
   (VInt (-3), VBytes ex_y)].

(** Authenticator data *)
Definition ex_rp_hash : bytes := toy_hash (blit "example.com").
Definition ad_bytes (flags : byte) (ctr : N) (tail : bytes) : bytes :=
  ex_rp_hash ++ [flags] ++ N_to_be 4 ctr ++ tail.
Definition ex_aaguid : bytes := repeat xaa 16.
Definition ex_attested : bytes :=
  ex_aaguid ++ [x00; x06] ++ ex_raw_id ++ dumps (VDict ex_key_map).
(** flags: UP, UV, AT *)
Definition ex_reg_ad (ctr : N) : bytes := ad_bytes x45 ctr ex_attested.

(** ** Registration *)
Definition ex_att_obj (fmt : string) (stmt : pydict) (adb : bytes) : bytes :=
  dumps (VDict [(skey "fmt", VStr (lit fmt)); (skey "attStmt", VDict stmt);
                (skey "authData", VBytes adb)]).
Definition ex_reg_cred (fmt : string) (stmt : pydict) (adb : bytes) : credential :=
  {| cr_id := lit "Y3JlZC0x"; cr_type := lit "public-key"; cr_raw_id := ex_raw_id;
     cr_response := AttestationResponse (cdj "webauthn.create") (ex_att_obj fmt stmt adb) |}.
Definition ex_reg (fmt : string) (stmt : pydict) (adb : bytes) : attestation_args :=
  {| ra_credential := ex_reg_cred fmt stmt adb; ra_user := ex_user; ra_rp := ex_rp;
     ra_challenge := ex_challenge; ra_origin := ex_origin; ra_token_binding := None;
     ra_require_uv := true; ra_extensions := None |}.
Definition ex_reg_none : attestation_args := ex_reg "none" [] (ex_reg_ad 0).

(** ** Authentication *)
Definition ex_stored (ctr : option Z) : cred_data :=
  {| cdt_key := ex_key; cdt_sign_count := ctr; cdt_user := ex_user; cdt_rp := Some ex_rp |}.
Definition ex_store (ctr : option Z) : mem_state := [(ex_raw_id, ex_stored ctr)].
(** flags: UP, UV *)
Definition ex_auth_ad (ctr : N) : bytes := ad_bytes x05 ctr [].
Definition sign_with (k : N) (adb c : bytes) : bytes := toy_sign k (adb ++ toy_hash c).
Definition ex_auth_cred (adb : bytes) : credential :=
  {| cr_id := lit "Y3JlZC0x"; cr_type := lit "public-key"; cr_raw_id := ex_raw_id;
     cr_response := AssertionResponse (cdj "webauthn.get") adb
                      (sign_with 123456789 adb (cdj "webauthn.get")) (Some (blit "u1")) |}.
Definition ex_auth_of (adb : bytes) : assertion_args :=
  {| aa_credential := ex_auth_cred adb; aa_challenge := ex_challenge;
     aa_origin := ex_origin; aa_rp := None; aa_user := None;
     aa_allow := Some [{| de_id := ex_raw_id; de_transports := Some [USB] |}];
     aa_token_binding := None; aa_require_uv := true; aa_extensions := None;
     aa_ignore_clone := false |}.
Definition ex_auth (ctr : N) : assertion_args := ex_auth_of (ex_auth_ad ctr).

(** An accepted registration and an accepted login. *)
Example registration_accepted :
  run mem_registrar [] (handle_credential_attestation ex_world ex_reg_none)
  = {| out_state := ex_store (Some 0%Z);
       out_trace := [EvAttest (ra_credential ex_reg_none)
          {| ao_auth_data := Some {| ad_rp_id_hash := ex_rp_hash; ad_flags := 69;
               ad_sign_count := 0;
               ad_attested := Some {| at_aaguid := ex_aaguid; at_id_length := 6;
                                      at_id := ex_raw_id; at_key := Some ex_key |};
               ad_extensions := None |};
             ao_fmt := F_NONE; ao_stmt := S_None |} AT_NONE ex_user ex_rp None];
       out_result := Ok tt |}.
Proof. vm_compute. reflexivity. Qed.

Example login_accepted :
  out_result (run mem_registrar (ex_store (Some 4%Z))
                  (handle_credential_assertion ex_world (ex_auth 5))) = Ok tt.
Proof. vm_compute. reflexivity. Qed.

(** A login with token binding and extension outputs. *)
Definition cdj_tb : bytes :=
  blit "{""type"":""webauthn.get"",""challenge"":""AQIDBA"",""origin"":""https://example.com"",""tokenBinding"":{""status"":""present"",""id"":""tb1""}}".
Definition ex_ext_map : pydict :=
  [(skey "appid", VBool true); (skey "uvi", VBytes (blit "finger"))].
(** flags: UP, UV, ED *)
Definition ex_ext_ad (ctr : N) : bytes := ad_bytes x85 ctr (dumps (VDict ex_ext_map)).
Definition ex_auth_tb (ctr : N) : assertion_args :=
  {| aa_credential :=
       {| cr_id := lit "Y3JlZC0x"; cr_type := lit "public-key"; cr_raw_id := ex_raw_id;
          cr_response := AssertionResponse cdj_tb (ex_ext_ad ctr)
                           (sign_with 123456789 (ex_ext_ad ctr) cdj_tb) None |};
     aa_challenge := ex_challenge;
     aa_origin := ManyOrigins [lit "http://localhost:5000"; lit "https://example.com"];
     aa_rp := Some ex_rp; aa_user := Some ex_user; aa_allow := None;
     aa_token_binding := Some {| etb_status := TB_PRESENT; etb_id := Some (lit "tb1") |};
     aa_require_uv := true; aa_extensions := Some [UVI; APPID]; aa_ignore_clone := false |}.
Example login_tb_accepted :
  out_result (run mem_registrar (ex_store None)
                  (handle_credential_assertion ex_world (ex_auth_tb 5))) = Ok tt.
Proof. vm_compute. reflexivity. Qed.

(** A registration with token binding and extension outputs.  flags: UP, UV, AT, ED *)
Definition cdj_reg_tb : bytes :=
  blit "{""type"":""webauthn.create"",""challenge"":""AQIDBA"",""origin"":""https://example.com"",""tokenBinding"":{""status"":""supported""}}".
Definition ex_reg_ext_ad (ctr : N) : bytes :=
  ad_bytes xc5 ctr (ex_attested ++ dumps (VDict ex_ext_map)).
Definition ex_reg_tb : attestation_args :=
  {| ra_credential :=
       {| cr_id := lit "Y3JlZC0x"; cr_type := lit "public-key"; cr_raw_id := ex_raw_id;
          cr_response := AttestationResponse cdj_reg_tb
                           (ex_att_obj "none" [] (ex_reg_ext_ad 7)) |};
     ra_user := ex_user; ra_rp := ex_rp;
     ra_challenge := ex_challenge; ra_origin := ex_origin;
     ra_token_binding := Some {| etb_status := TB_SUPPORTED; etb_id := None |};
     ra_require_uv := true; ra_extensions := Some [APPID] |}.
Example registration_tb_accepted :
  out_result (run mem_registrar []
                  (handle_credential_attestation ex_world ex_reg_tb)) = Ok tt.
Proof. vm_compute. reflexivity. Qed.

(** ** Attestation statements that verify *)

(** FIDO U2F: a certificate whose key signed the U2F message. *)
Definition ex_cert (keydesc : bytes) : bytes := N_to_be 32 77 ++ keydesc.
Definition ex_reg_cdj : bytes := cdj "webauthn.create".
Definition ex_u2f_data : bytes :=
  [x00] ++ ex_rp_hash ++ toy_hash ex_reg_cdj ++ ex_raw_id ++ [x04] ++ ex_x ++ ex_y.
Definition ex_u2f_stmt : pydict :=
  [(skey "x5c", VList [VBytes (ex_cert [])]); (skey "sig", VBytes (toy_sign 77 ex_u2f_data))].
Definition ex_reg_u2f : attestation_args := ex_reg "fido-u2f" ex_u2f_stmt (ex_reg_ad 0).

(** Android Key: the leaf certificate holds the credential key and the challenge. *)
Definition ex_android_cert : bytes := ex_x ++ toy_hash ex_reg_cdj.
Definition ex_android_stmt : pydict :=
  [(skey "alg", VInt (-7)); (skey "x5c", VList [VBytes ex_android_cert; VBytes (blit "ca")]);
   (skey "sig", VBytes (toy_sign 123456789 (ex_reg_ad 0 ++ toy_hash ex_reg_cdj)))].
Definition ex_reg_android : attestation_args := ex_reg "android-key" ex_android_stmt (ex_reg_ad 0).

(** The authenticator data inside them. *)
Definition ex_reg_parsed : auth_data :=
  {| ad_rp_id_hash := ex_rp_hash; ad_flags := 69; ad_sign_count := 0;
     ad_attested := Some {| at_aaguid := ex_aaguid; at_id_length := 6; at_id := ex_raw_id;
                            at_key := Some ex_key |};
     ad_extensions := None |}.
